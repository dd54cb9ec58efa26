(** Layouts without readers and the runs that decode them (C69). *)
From Verif Require Import ProofsRun12 ProofsRun6 ProofsRun9 ProofsRun7 ProofsParser3 ProofsParser4 ProofsUnpack ProofsBitProps ProofsBits.
From Verif Require Export ProofsPack3 SpecPlan.
From Coq Require Import Lia ZifyBool ZifyNat.

Scheme lays_mut := Induction for lays Sort Prop
  with lays_list_mut := Induction for lays_list Sort Prop
  with lays_times_mut := Induction for lays_times Sort Prop.

(** ** Forgetting minima and increment widths *)
Definition strip (x : datum) : datum := planned (dt_desc x) (dt_info x) (dt_vals x).
Definition strip_ev (e : event) : event :=
  match e with
  | EvElement fs x => EvElement (map strip fs) (strip x)
  | EvItem k x => EvItem k (strip x)
  | EvZero z => EvZero (option_map strip z)
  | _ => e
  end.
Notation strips := (map strip_ev).
Lemma ev_data_strip e : ev_data (strip_ev e) = map strip (ev_data e).
Proof. destruct e as [| |fs x|k x| |[x|]| | | | | |]; try reflexivity. cbn. now rewrite map_app. Qed.
Lemma data_strip g : data (strips g) = map strip (data g).
Proof. induction g as [|e g IH]; [reflexivity|]. cbn [map data]. now rewrite map_app, IH, ev_data_strip. Qed.
Lemma ncells_strip g : ncells (strips g) = ncells g.
Proof. unfold ncells. now rewrite data_strip, map_length. Qed.
Lemma last_operand_strip op g : last_operand op (strips g) = last_operand op g.
Proof. induction g as [|e g IH]; [reflexivity|]. destruct e; cbn; now rewrite ?IH. Qed.
Lemma open_fields_strip g : open_fields (strips g) = open_fields g.
Proof. induction g as [|e g IH]; [reflexivity|]. destruct e; cbn; now rewrite ?IH. Qed.
Lemma packing_strip g e : packing (strips g) e = packing g e.
Proof. unfold packing, offset. now rewrite !last_operand_strip. Qed.
Lemma marker_packing_strip g t e : marker_packing (strips g) t e = marker_packing g t e.
Proof. unfold marker_packing. now rewrite packing_strip. Qed.
Lemma backref_strip g : backref (strips g) = backref g.
Proof. induction g as [|e g IH]; [reflexivity|]. destruct e; cbn [map strip_ev backref]; rewrite ?IH, ?ncells_strip; reflexivity. Qed.
Lemma bitmap_strip g : bitmap (strips g) = bitmap g.
Proof. induction g as [|e g IH]; [reflexivity|]. destruct e; cbn [map strip_ev bitmap]; rewrite ?IH, ?ncells_strip; reflexivity. Qed.
Lemma targets_left_strip g : targets_left (strips g) = targets_left g.
Proof. induction g as [|e g IH]; [reflexivity|]. destruct e as [| | |k x| | | | | | | |]; try destruct k; cbn [map strip_ev targets_left]; now rewrite ?IH. Qed.
Lemma factor_strip cf g n : factor cf (strips g) n -> factor cf g n.
Proof.
  intros (ds & x & v & vs & z & D & V & F & U & N). rewrite data_strip in D. apply map_eq_app in D. destruct D as (l1 & l2 & E & _ & E2).
  destruct l2 as [|y [|]]; try discriminate. injection E2 as <-. exists l1, y, v, vs, z. auto.
Qed.
Lemma factor_strip' cf g n : factor cf g n -> factor cf (strips g) n.
Proof.
  intros (ds & x & v & vs & z & D & V & F & U & N). exists (map strip ds), (strip x), v, vs, z. rewrite data_strip, D, map_app. auto.
Qed.
Lemma selects_strip cf g ps : selects cf (strips g) ps <-> selects cf g ps.
Proof.
  unfold selects, bitmap_bits. rewrite backref_strip, bitmap_strip, data_strip.
  split; intros (bits & (i0 & i1 & B & L & F & N) & K); exists bits; (split; [|exact K]); exists i0, i1; (split; [exact B|]); (split; [exact L|]); (split; [|exact N]);
    revert F; rewrite skipn_map, firstn_map; generalize (firstn (i1 - i0) (skipn i0 (data g))); clear; intros l; revert bits;
    induction l as [|x l IH]; intros bits F; inversion F; subst; constructor; auto.
Qed.

(** ** Building the run *)
Section Runs.
  Variable cf : config.
  Definition seg_ok (x : datum) (seg : list bool) : Prop := exists y, strip y = x /\ bits_of cf y seg.
  Lemma one_holds d info x seg rest e p : holds d info x -> seg_ok x seg ->
    exists y p', decodes cf d info (RBit (mkBR (seg ++ rest) e p)) y (RBit (mkBR rest e p')) /\ strip y = x.
  Proof.
    intros [vs ->] (y & Ey & B). destruct (B rest e p) as [p' D]. unfold strip, planned in Ey. injection Ey as E1 E2 E3. rewrite E1, E2 in D.
    exists y, p'. split; [exact D|]. unfold strip, planned. congruence.
  Qed.
  Lemma many_holds d ws : forall fs, Forall2 (fun w f => holds (DecorateDescriptor d) (plain_info NONNEG_CODE w) f) ws fs ->
    forall segs rest e p, Forall2 seg_ok fs segs ->
    exists ys p', fields cf d ws (RBit (mkBR (concat segs ++ rest) e p)) ys (RBit (mkBR rest e p')) /\ map strip ys = fs.
  Proof.
    induction ws as [|w ws IH]; intros fs H segs rest e p S.
    - inversion H; subst. inversion S; subst. exists [], p. split; [constructor|reflexivity].
    - inversion H as [|? f ? fs' Hf HF]; subst. inversion S as [|? seg ? segs' Sx Ss]; subst. cbn [concat]. rewrite <- app_assoc.
      destruct (one_holds _ _ _ _ (concat segs' ++ rest) e p Hf Sx) as (y & p1 & D & Ey). destruct (IH _ HF _ rest e p1 Ss) as (ys & p2 & F & Eys).
      exists (y :: ys), p2. split; [econstructor; eassumption|]. cbn. congruence.
  Qed.
  Lemma zero_holds od z segs rest e p : planned_zero cf od z -> Forall2 seg_ok (ev_data (EvZero z)) segs ->
    exists z' p', zero_cell cf od (RBit (mkBR (concat segs ++ rest) e p)) z' (RBit (mkBR rest e p')) /\ option_map strip z' = z.
  Proof.
    unfold planned_zero. destruct (cf_compatible cf) eqn:C.
    - intros (d & x & -> & -> & H) S. cbn [ev_data] in S. inversion S as [|? seg ? ? S1 S2]; subst. inversion S2; subst. cbn [concat]. rewrite app_nil_r.
      destruct (one_holds _ _ _ _ rest e p H S1) as (y & p' & D & E). exists (Some y), p'. split; [now apply zero_some with d|]. cbn. congruence.
    - intros -> S. cbn [ev_data] in S. inversion S; subst. exists None, p. split; [now constructor|reflexivity].
  Qed.
  Definition builds (run : history -> reader -> history -> reader -> Prop) (h h' : history) : Prop :=
    exists news, data h' = data h ++ news /\
      forall g segs rest e p, strips g = h -> Forall2 seg_ok news segs ->
        exists g' p', run g (RBit (mkBR (concat segs ++ rest) e p)) g' (RBit (mkBR rest e p')) /\ strips g' = h'.
  Lemma builds_then (r1 r2 : history -> reader -> history -> reader -> Prop) (r : history -> reader -> history -> reader -> Prop) h h1 h2 :
    builds r1 h h1 -> builds r2 h1 h2 -> (forall g s g1 s1 g2 s2, strips g = h -> strips g1 = h1 -> strips g2 = h2 -> r1 g s g1 s1 -> r2 g1 s1 g2 s2 -> r g s g2 s2) -> builds r h h2.
  Proof.
    intros (n1 & D1 & K1) (n2 & D2 & K2) H. exists (n1 ++ n2). split; [now rewrite D2, D1, app_assoc|].
    intros g segs rest e p E S. apply Forall2_app_inv_l in S. destruct S as (s1 & s2 & S1 & S2 & ->). rewrite concat_app, <- app_assoc.
    destruct (K1 g s1 (concat s2 ++ rest) e p E S1) as (g1 & p1 & R1 & E1). destruct (K2 g1 s2 rest e p1 E1 S2) as (g2 & p2 & R2 & E2).
    exists g2, p2. split; [eapply H; try eassumption; congruence|exact E2].
  Qed.
  Lemma builds_one (run : history -> reader -> history -> reader -> Prop) h ev :
    (forall g segs rest e p, strips g = h -> Forall2 seg_ok (ev_data ev) segs ->
      exists g' p', run g (RBit (mkBR (concat segs ++ rest) e p)) g' (RBit (mkBR rest e p')) /\ strips g' = ev :: h) -> builds run h (ev :: h).
  Proof. intros H. exists (ev_data ev). split; [reflexivity|exact H]. Qed.
  Definition followed (h1 : history) (r1 r2 : history -> reader -> history -> reader -> Prop) : history -> reader -> history -> reader -> Prop :=
    fun g s g2 s2 => exists g1 s1, strips g1 = h1 /\ r1 g s g1 s1 /\ r2 g1 s1 g2 s2.
  Lemma builds_seq r1 r2 h h1 h2 : builds r1 h h1 -> builds r2 h1 h2 -> builds (followed h1 r1 r2) h h2.
  Proof. intros B1 B2. eapply builds_then; [exact B1|exact B2|]. intros g s g1 s1 g2 s2 E E1 E2 R1 R2. exists g1, s1. auto. Qed.
  (** An event without data. *)
  Lemma builds_event h ev : ev_data ev = [] -> strip_ev ev = ev -> builds (fun g s g' s' => g' = ev :: g /\ s' = s) h (ev :: h).
  Proof.
    intros E1 E2. apply builds_one. intros g segs rest e p E S. rewrite E1 in S. inversion S; subst. exists (ev :: g), p. split; [split; reflexivity|]. cbn. now rewrite E2.
  Qed.
  Lemma builds_zero od h z : planned_zero cf od z -> builds (fun g s g' s' => exists z', g' = EvZero z' :: g /\ zero_cell cf od s z' s') h (EvZero z :: h).
  Proof.
    intros H. apply builds_one. intros g segs rest e p E S. destruct (zero_holds od z segs rest e p H S) as (z' & p' & Z & E').
    exists (EvZero z' :: g), p'. split; [eauto|]. cbn. congruence.
  Qed.
  Lemma builds_impl (r1 r : history -> reader -> history -> reader -> Prop) h h' : builds r1 h h' ->
    (forall g s g' s', strips g = h -> strips g' = h' -> r1 g s g' s' -> r g s g' s') -> builds r h h'.
  Proof.
    intros (n & D & K) H. exists n. split; [exact D|]. intros g segs rest e p E S. destruct (K g segs rest e p E S) as (g' & p' & R & E'). exists g', p'. split; [|exact E']. now apply H.
  Qed.
  Lemma builds_item h k d info x (run : history -> reader -> history -> reader -> Prop) : holds d info x ->
    (forall g s y s', strips g = h -> decodes cf d info s y s' -> run g s (EvItem k y :: g) s') -> builds run h (EvItem k x :: h).
  Proof.
    intros Hx K. apply builds_one. intros g segs rest e p E S. cbn [ev_data] in S. inversion S as [|? seg ? ? S1 S2]; subst. inversion S2; subst. cbn [concat]. rewrite app_nil_r.
    destruct (one_holds _ _ _ _ rest e p Hx S1) as (y & p' & D & Ey). exists (EvItem k y :: g), p'. split; [now apply K|]. cbn. congruence.
  Qed.
  Lemma strips_cons g ev h : strips g = ev :: h -> exists ev' g1, g = ev' :: g1 /\ strip_ev ev' = ev /\ strips g1 = h.
  Proof. destruct g as [|ev' g1]; [discriminate|]. intros [= <- <-]. eauto. Qed.

  Lemma lays_runs h n h' : lays cf h n h' -> builds (fun g s g' s' => runs cf g s n g' s') h h'.
  Proof.
    intros H. induction H using lays_mut with
      (P0 := fun h ns h' _ => builds (fun g s g' s' => runs_list cf g s ns g' s') h h')
      (P1 := fun k h ns h' _ => builds (fun g s g' s' => runs_times cf k g s ns g' s') h h').
    - eapply builds_impl; [now apply builds_event|]. intros g s g' s' _ _ [-> ->]. constructor.
    - apply builds_one. intros g segs rest ee p E S. cbn [ev_data] in S. apply Forall2_app_inv_l in S. destruct S as (s1 & s2 & S1 & S2 & ->). inversion S2 as [|? seg ? ? S3 S4]; subst. inversion S4; subst.
      rewrite concat_app, <- app_assoc. cbn [concat]. rewrite app_nil_r.
      destruct (many_holds _ _ _ f _ (seg ++ rest) ee p S1) as (ys & p1 & F & Ey). destruct (one_holds _ _ _ _ rest ee p1 h0 S3) as (y & p2 & D & Ey').
      exists (EvElement ys y :: g), p2. split; [|cbn; congruence]. rewrite open_fields_strip in F. rewrite packing_strip in D. eapply run_element; eassumption.
    - eapply builds_item; [eassumption|]. intros g s y s' E D. rewrite <- E, packing_strip in D. eapply run_031021; eassumption.
    - eapply builds_impl; [eassumption|]. intros; now constructor.
    - eapply builds_impl; [eassumption|]. intros; now constructor.
    - eapply builds_then; [exact IHlays|exact IHlays0|]. cbn beta. intros g s g1 s1 g2 s2 E E1 E2 R1 R2. eapply run_delayed; [exact R1| |exact R2]. apply factor_strip. now rewrite E1.
    - eapply builds_impl; [now apply builds_event|]. intros g s g' s' _ _ [-> ->]. now constructor.
    - eapply builds_impl; [now apply builds_event|]. intros g s g' s' _ _ [-> ->]. now constructor.
    - eapply builds_then; [apply (builds_event h (EvOp 204 d)); reflexivity|exact IHlays|]. cbn beta. intros g s g1 s1 g2 s2 E E1 E2 [-> ->] R. apply run_assoc; [|exact R].
      intros Y. rewrite <- open_fields_strip, E. auto.
    - eapply builds_item; [eassumption|]. intros g s y s' E D. now constructor.
    - eapply builds_item; [eassumption|]. intros g s y s' E D. econstructor; eassumption.
    - eapply builds_then; [apply (builds_event h (EvNote od)); reflexivity|exact IHlays|]. cbn beta. intros g s g1 s1 g2 s2 E E1 E2 [-> ->] R. now apply run_not_present.
    - eapply builds_impl; [eapply builds_seq; [apply (builds_event h (EvAssess od)); reflexivity|]; eapply builds_seq; [apply (builds_zero od); eassumption|];
        eapply builds_seq; [exact IHlays|]; eapply builds_seq; [exact IHlays0|]; eapply builds_seq; [apply (builds_event h3 (EvTargets ps)); reflexivity|exact IHlays1]|].
      intros g s0 g2 s2 E E2 (ga & sa & _ & [-> ->] & gz & sz & _ & (z' & -> & Z) & gb & sb & _ & Rb & gc & sc & Ec & Rc & gt & st & _ & [-> ->] & Rd).
      eapply run_assess; [exact Z|exact Rb|exact Rc| |exact Rd|].
      + apply selects_strip. now rewrite Ec.
      + rewrite <- (ncells_strip g2), <- (ncells_strip gc), E2, Ec. assumption.
    - eapply builds_item; [eassumption|]. intros g s y s' E D. rewrite <- E, marker_packing_strip in D. rewrite <- E in *. rewrite targets_left_strip in *. rewrite data_strip, nth_error_map in *.
      destruct (nth_error (data g) p) as [t'|] eqn:Et; [|discriminate]. match goal with K : option_map strip (Some t') = Some t |- _ => cbn in K; injection K as <- end. cbn [strip planned dt_desc] in *.
      eapply run_marker; eassumption.
    - eapply builds_impl; [now apply builds_event|]. intros g s g' s' _ _ [-> ->]. constructor.
    - eapply builds_impl; [now apply builds_event|]. intros g s g' s' _ _ [-> ->]. constructor.
    - eapply builds_then; [eapply builds_zero; eassumption|apply (builds_event (EvZero z :: h) EvRecall); reflexivity|]. cbn beta. intros g s g1 s1 g2 s2 E E1 E2 (z' & -> & Z) [-> ->]. now apply run_recall.
    - eapply builds_impl; [eapply builds_seq; [apply (builds_zero (Some d)); eassumption|]; eapply builds_seq; [apply (builds_event (EvZero z :: h) EvDefine); reflexivity|];
        eapply builds_seq; [exact IHlays|apply (builds_event h' EvDefined); reflexivity]|].
      intros g s g2 s2 E E2 (gz & sz & _ & (z' & -> & Z) & ga & sa & _ & [-> ->] & gb & sb & Eb & Rb & -> & ->).
      apply (run_define cf g s d ms b a z' sz gb sb); try assumption. now rewrite <- bitmap_strip, Eb.
    - exists []. split; [now rewrite app_nil_r|]. intros g segs rest e p E S. inversion S; subst. cbn [concat app]. exists g, p. split; [constructor|reflexivity].
    - eapply builds_then; [exact IHlays|exact IHlays0|]. cbn beta. intros; econstructor; eassumption.
    - exists []. split; [now rewrite app_nil_r|]. intros g segs rest e p E S. inversion S; subst. cbn [concat app]. exists g, p. split; [constructor|reflexivity].
    - eapply builds_then; [exact IHlays|exact IHlays0|]. cbn beta. intros; econstructor; eassumption.
  Qed.
  Lemma lays_list_runs ns : forall h h', lays_list cf h ns h' -> builds (fun g s g' s' => runs_list cf g s ns g' s') h h'.
  Proof.
    induction ns as [|n ns IH]; intros h h' H; inversion H; subst.
    - exists []. split; [now rewrite app_nil_r|]. intros g segs rest e p E S. inversion S; subst. cbn [concat app]. exists g, p. split; [constructor|reflexivity].
    - eapply builds_then; [eapply lays_runs; eassumption|eapply IH; eassumption|]. cbn beta. intros; econstructor; eassumption.
  Qed.
End Runs.

(** ** Whole payloads *)
Definition raw_datum (it : placed rawval) : datum := planned (fst (fst it)) (snd (fst it)) [raw_value (snd (fst it)) (snd it)].
Definition col_datum (it : placed ccolumn) : datum := planned (fst (fst it)) (snd (fst it)) (map (raw_value (snd (fst it))) (cc_vals (snd it))).
Lemma raw_segs cf its : cf_json cf = false -> cf_compressed cf = false -> Forall (fun it => raw_fits (snd (fst it)) (snd it)) its ->
  Forall2 (seg_ok cf) (map raw_datum its) (map (fun it => raw_bits_of (snd (fst it)) (snd it)) its).
Proof.
  intros Hj Hc. induction 1 as [|[[d info] x] its H _ IH]; cbn [map]; constructor; [|exact IH]. cbn [fst snd] in *.
  exists (mkDatum d info VNil 0 [raw_value info x]). split; [reflexivity|]. now apply raw_decodes.
Qed.
Lemma col_segs cf its : cf_json cf = false -> cf_compressed cf = true -> 0 <= cf_nsubsets cf -> Forall (fun it => column_fits (cf_nsubsets cf) (snd (fst it)) (snd it)) its ->
  Forall2 (seg_ok cf) (map col_datum its) (map (fun it => col_bits (snd (fst it)) (snd it)) its).
Proof.
  intros Hj Hc Hn. induction 1 as [|[[d info] x] its H _ IH]; cbn [map]; constructor; [|exact IH]. cbn [fst snd] in *.
  destruct (column_decodes cf d info x Hj Hc Hn H) as (mn & df & HB). eexists. split; [|exact HB]. reflexivity.
Qed.
Lemma strip_is_datum {A} (vals : pinfo -> A -> list value) (its : list (placed A)) xs :
  map strip xs = map (fun it => planned (fst (fst it)) (snd (fst it)) (vals (snd (fst it)) (snd it))) its -> Forall2 (is_datum vals) its xs.
Proof.
  revert xs. induction its as [|[[d info] a] its IH]; intros [|x xs] H; try discriminate; constructor.
  - cbn in H. unfold strip, planned in H. injection H as H1 H2 H3 _. split; [unfold what; cbn; congruence|exact H3].
  - apply IH. cbn in H. congruence.
Qed.
Lemma laid_subsets cf ms itss : cf_json cf = false -> cf_compressed cf = false -> Forall (laid cf ms) itss -> forall rest e p,
  exists hs p', subsets_run cf ms (length itss) (RBit (mkBR (bits_all raw_bits_of (concat itss) ++ rest) e p)) hs (RBit (mkBR rest e p')) /\
    Forall2 (fun its h => Forall2 (is_datum raw_vals) its (data h)) itss hs.
Proof.
  intros Hj Hc. induction 1 as [|its itss [(h & L & D) F] _ IH]; intros rest e p.
  - exists [], p. split; constructor.
  - cbn [concat]. rewrite bits_all_app, <- app_assoc. destruct (lays_list_runs cf ms [] h L) as (news & Dn & K). cbn [data app] in Dn. rewrite Dn in D. subst news.
    destruct (K [] (map (fun it => raw_bits_of (snd (fst it)) (snd it)) its) (bits_all raw_bits_of (concat itss) ++ rest) e p eq_refl (raw_segs cf its Hj Hc F)) as (g & p1 & R1 & E).
    rewrite <- flat_map_concat_map in R1.
    destruct (IH rest e p1) as (hs & p2 & R2 & F2). exists (g :: hs), p2. split; [cbn [length]; econstructor; eassumption|].
    constructor; [|exact F2]. apply strip_is_datum. rewrite <- data_strip, E. exact Dn.
Qed.
Lemma shown_values itss : forall hs pay, Forall2 (fun its h => Forall2 (is_datum raw_vals) its (data h)) itss hs ->
  Forall2 (fun h sb => lane_ok 0 (data h) (sb_cells sb)) hs pay -> payload_values pay = map values_of itss.
Proof.
  unfold payload_values. induction itss as [|its itss IH]; intros hs pay F S; inversion F; subst; inversion S; subst; [reflexivity|].
  cbn [map]. f_equal; [|eapply IH; eassumption]. unfold values_of.
  match goal with K : Forall2 (is_datum raw_vals) its (data ?h) |- _ =>
    destruct (is_datum_values raw_vals (fun it => raw_value (snd (fst it)) (snd it)) 0 its (data h) K) as [V1 V2] end.
  { apply Forall_forall. reflexivity. }
  match goal with K : lane_ok _ _ _ |- _ => rewrite (lane_values _ _ _ _ K V1) end. rewrite V2. apply combine_map2.
Qed.
Lemma shown_columns n its h pay : Forall (fun it => column_fits n (snd (fst it)) (snd it)) its -> Forall2 (is_datum col_vals) its (data h) ->
  length pay = Z.to_nat n -> (forall k sb, nth_error pay k = Some sb -> lane_ok k (data h) (sb_cells sb)) ->
  payload_values pay = map (fun k => values_of (lane k its)) (seq 0 (Z.to_nat n)).
Proof.
  intros HF F SL SK. unfold payload_values. apply (nth_ext _ _ [] []); [now rewrite !map_length, seq_length|]. intros k Hk. rewrite map_length in Hk.
  destruct (nth_error pay k) as [sb|] eqn:Ek; [|apply nth_error_None in Ek; lia].
  rewrite (nth_error_nth (map _ pay) k [] (map_nth_error _ _ _ Ek)).
  assert (Eq : nth_error (seq 0 (Z.to_nat n)) k = Some k) by (rewrite (nth_error_nth' _ 0%nat), seq_nth by (rewrite ?seq_length; lia); f_equal; lia).
  rewrite (nth_error_nth (map _ (seq _ _)) k [] (map_nth_error _ _ _ Eq)).
  destruct (Forall2_cols its (data h) n k ltac:(lia) HF F) as [V1 V2].
  rewrite (lane_values _ _ _ _ (SK k sb Ek) V1), V2. apply combine_map2.
Qed.
Theorem laid_round_trip g ids ms cf itss rest e p : parsed g ids ms -> cf_json cf = false -> cf_compressed cf = false ->
  cf_nsubsets cf = blen itss -> Forall (laid cf ms) itss ->
  exists s p', run_payload cf (root ms) (vst0 (RBit (mkBR (flat_map item_bits (written (concat itss)) ++ rest) e p))) = (s, Ok tt) /\
    v_r s = RBit (mkBR rest e p') /\ payload_values (v_pay s) = map values_of itss.
Proof.
  intros HP Hj Hc Hn H. destruct (laid_subsets cf ms itss Hj Hc H rest e p) as (hs & p' & R & F).
  rewrite written_bits. assert (HC : columns cf = false) by (unfold columns; now rewrite Hc).
  destruct (run_payload_complete cf ms (RBit (mkBR (bits_all raw_bits_of (concat itss) ++ rest) e p)) hs (RBit (mkBR rest e p'))) as (s & E & Er & S).
  { eapply parsed_no_base; eassumption. } { intros HC'. congruence. }
  { unfold executes. rewrite HC, Hn. unfold blen. rewrite Nat2Z.id. exact R. }
  exists s, p'. split; [exact E|]. split; [exact Er|]. unfold shows in S. rewrite HC in S. now apply (shown_values itss hs (v_pay s)).
Qed.
Theorem columns_round_trip g ids ms cf its rest e p : parsed g ids ms -> cf_json cf = false -> cf_compressed cf = true ->
  0 < cf_nsubsets cf -> laid_columns cf (cf_nsubsets cf) ms its ->
  exists s p', run_payload cf (root ms) (vst0 (RBit (mkBR (flat_map item_bits (written_columns its) ++ rest) e p))) = (s, Ok tt) /\
    v_r s = RBit (mkBR rest e p') /\
    payload_values (v_pay s) = map (fun k => values_of (lane k its)) (seq 0 (Z.to_nat (cf_nsubsets cf))).
Proof.
  intros HP Hj Hc Hn [(h & L & D) F]. assert (HC : columns cf = true) by (unfold columns; now rewrite Hc, Hj).
  rewrite written_columns_bits. destruct (lays_list_runs cf ms [] h L) as (news & Dn & K). cbn [data app] in Dn. rewrite Dn in D. subst news.
  destruct (K [] (map (fun it => col_bits (snd (fst it)) (snd it)) its) rest e p eq_refl (col_segs cf its Hj Hc ltac:(lia) F)) as (h' & p' & R & E). rewrite <- flat_map_concat_map in R.
  assert (FD : Forall2 (is_datum col_vals) its (data h')) by (apply strip_is_datum; rewrite <- data_strip, E; exact Dn).
  destruct (run_payload_complete cf ms (RBit (mkBR (bits_all col_bits its ++ rest) e p)) [h'] (RBit (mkBR rest e p'))) as (s & Es & Er & S).
  { eapply parsed_no_base; eassumption. } { intros _. exact Hn. }
  { unfold executes. rewrite HC. exists h'. auto. }
  exists s, p'. split; [exact Es|]. split; [exact Er|]. unfold shows in S. rewrite HC in S. destruct S as (h2 & Eh & SL & SK). injection Eh as <-.
  now apply (shown_columns (cf_nsubsets cf) its h' (v_pay s)).
Qed.
