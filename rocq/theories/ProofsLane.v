(** One subset of compressed data is a layout of its own (C34). *)
From Verif Require Import ProofsBits ProofsParser3 ProofsBitProps.
From Verif Require Export ProofsPlan3.
From Coq Require Import Lia ZifyBool ZifyNat.

Lemma data_app l h : data (l ++ h) = data h ++ data l.
Proof. induction l as [|e l IH]; [now rewrite app_nil_r|]. cbn [app data]. now rewrite IH, app_assoc. Qed.

Section Pick.
  Variable k : nat.
  Definition pick (x : datum) : datum := planned (dt_desc x) (dt_info x) [nth k (dt_vals x) VNil].
  Definition pick_ev (e : event) : event :=
    match e with
    | EvElement fs x => EvElement (map pick fs) (pick x)
    | EvItem i x => EvItem i (pick x)
    | EvZero z => EvZero (option_map pick z)
    | _ => e
    end.
  Notation picks := (map pick_ev).
  Lemma ev_data_pick e : ev_data (pick_ev e) = map pick (ev_data e).
  Proof. destruct e as [| |fs x|i x| |[x|]| | | | | |]; try reflexivity. cbn. now rewrite map_app. Qed.
  Lemma data_pick g : data (picks g) = map pick (data g).
  Proof. induction g as [|e g IH]; [reflexivity|]. cbn [map data]. now rewrite map_app, IH, ev_data_pick. Qed.
  Lemma ncells_pick g : ncells (picks g) = ncells g.
  Proof. unfold ncells. now rewrite data_pick, map_length. Qed.
  Lemma last_operand_pick op g : last_operand op (picks g) = last_operand op g.
  Proof. induction g as [|e g IH]; [reflexivity|]. destruct e; cbn; now rewrite ?IH. Qed.
  Lemma open_fields_pick g : open_fields (picks g) = open_fields g.
  Proof. induction g as [|e g IH]; [reflexivity|]. destruct e; cbn; now rewrite ?IH. Qed.
  Lemma packing_pick g e : packing (picks g) e = packing g e.
  Proof. unfold packing, offset. now rewrite !last_operand_pick. Qed.
  Lemma marker_packing_pick g t e : marker_packing (picks g) t e = marker_packing g t e.
  Proof. unfold marker_packing. now rewrite packing_pick. Qed.
  Lemma backref_pick g : backref (picks g) = backref g.
  Proof. induction g as [|e g IH]; [reflexivity|]. destruct e; cbn [map pick_ev backref]; rewrite ?IH, ?ncells_pick; reflexivity. Qed.
  Lemma bitmap_pick g : bitmap (picks g) = bitmap g.
  Proof. induction g as [|e g IH]; [reflexivity|]. destruct e; cbn [map pick_ev bitmap]; rewrite ?IH, ?ncells_pick; reflexivity. Qed.
  Lemma targets_left_pick g : targets_left (picks g) = targets_left g.
  Proof. induction g as [|e g IH]; [reflexivity|]. destruct e as [| | |i x| | | | | | | |]; try destruct i; cbn [map pick_ev targets_left]; now rewrite ?IH. Qed.

  Definition deep (x : datum) : Prop := (k < length (dt_vals x))%nat.
  Lemma same_number pl v w z : equal_values v w -> UintValue pl v = Ok z -> UintValue pl w = Ok z.
  Proof.
    destruct v, w; try contradiction; cbn [equal_values UintValue]; intros H; try discriminate.
    - now subst.
    - now subst.
    - destruct x as [s|s| |s m e], x0 as [s0|s0| |s0 m0 e0]; try discriminate; try (destruct s, s0; discriminate || auto; fail).
      cbn [SFcompare] in H. destruct s, s0; try discriminate H; destruct (Z.compare_spec e e0) as [->|?|?]; try discriminate H;
        destruct (Pos.compare_cont Eq m m0) eqn:E; try discriminate H; apply Pos.compare_eq in E; subst; auto.
  Qed.
  Variable cf : config.
  Lemma factor_pick g n : Forall deep (data g) -> factor cf g n -> factor cf (picks g) n.
  Proof.
    intros HD (ds & x & v & vs & z & D & V & F & U & N). exists (map pick ds), (pick x), (nth k (dt_vals x) VNil), [], z.
    rewrite data_pick, D, map_app. split; [reflexivity|]. split; [reflexivity|]. split; [constructor|]. split; [|exact N].
    rewrite D in HD. apply Forall_app in HD. destruct HD as [_ HD]. inversion HD as [|? ? Hx _]; subst. unfold deep in Hx. rewrite V in *.
    destruct k as [|j]; [exact U|]. cbn [nth]. eapply same_number; [|exact U]. rewrite Forall_forall in F. apply F, nth_In. cbn [length] in Hx. lia.
  Qed.
  Lemma selects_pick g ps : Forall deep (data g) -> (forall i0 i1, bitmap g = Some (i0, i1) ->
      Forall (fun x => exists v, Forall (eq v) (dt_vals x)) (firstn (i1 - i0) (skipn i0 (data g)))) ->
    selects cf g ps -> selects cf (picks g) ps.
  Proof.
    intros HD HS (bits & (i0 & i1 & B & L & F & N) & K). exists bits. rewrite backref_pick. split; [|exact K]. exists i0, i1. rewrite bitmap_pick, data_pick.
    split; [exact B|]. split; [exact L|]. split; [|exact N]. specialize (HS _ _ B). rewrite skipn_map, firstn_map.
    assert (HD' : Forall deep (firstn (i1 - i0) (skipn i0 (data g)))).
    { rewrite <- (firstn_skipn i0 (data g)) in HD. apply Forall_app in HD. destruct HD as [_ HD]. rewrite <- (firstn_skipn (i1 - i0) (skipn i0 (data g))) in HD. now apply Forall_app in HD. }
    revert F HS HD'. generalize (firstn (i1 - i0) (skipn i0 (data g))). clear. intros l F. induction F as [|x b l bits (v & vs & V & U) F IH]; intros HS HD; constructor.
    - inversion HS as [|? ? (w & Hw) _]; subst. inversion HD as [|? ? Hd _]; subst. cbn [pick planned dt_vals]. eexists _, []. split; [reflexivity|].
      rewrite Forall_forall in Hw. rewrite <- (Hw (nth k (dt_vals x) VNil)) by (apply nth_In; exact Hd). rewrite (Hw v) by (rewrite V; now left). exact U.
    - inversion HS; subst. inversion HD; subst. auto.
  Qed.
  Lemma holds_pick d info x : holds d info x -> holds d info (pick x).
  Proof. intros [vs ->]. eexists. reflexivity. Qed.
  Variable cf' : config.
  Hypothesis Hcompat : cf_compatible cf' = cf_compatible cf.
  Hypothesis Hplat : cf_plat cf' = cf_plat cf.
  Lemma zero_pick od z : planned_zero cf od z -> planned_zero cf' od (option_map pick z).
  Proof.
    unfold planned_zero. rewrite Hcompat. destruct (cf_compatible cf); [|intros ->; reflexivity].
    intros (d & x & -> & -> & H). exists d, (pick x). auto using holds_pick.
  Qed.
  Lemma factor_other g n : factor cf g n -> factor cf' g n.
  Proof. unfold factor. now rewrite Hplat. Qed.
  Lemma selects_other g ps : selects cf g ps -> selects cf' g ps.
  Proof. unfold selects, bitmap_bits. now rewrite Hplat. Qed.

  Definition even (h : history) : Prop := Forall deep (data h) /\ same_bits h.
  Lemma even_before l h : even (l ++ h) -> even h.
  Proof.
    intros [HD HS]. split; [rewrite data_app in HD; now apply Forall_app in HD|].
    intros later ps before i0 i1 E B. apply (HS (l ++ later) ps before i0 i1); [now rewrite E, app_assoc|exact B].
  Qed.
  Lemma even_targets ps h : even (EvTargets ps :: h) -> forall i0 i1, bitmap h = Some (i0, i1) ->
    Forall (fun x => exists v, Forall (eq v) (dt_vals x)) (firstn (i1 - i0) (skipn i0 (data h))).
  Proof. intros [_ HS] i0 i1 B. exact (HS [] ps h i0 i1 eq_refl B). Qed.
  Definition follows (h h' : history) (P : Prop) : Prop := (exists l, h' = l ++ h) /\ (even h' -> P).
  Lemma follows_one ev h (P : Prop) : P -> follows h (ev :: h) P.
  Proof. intros H. split; [now exists [ev]|auto]. Qed.
  Lemma follows_impl h h' (P Q : Prop) : follows h h' P -> (P -> Q) -> follows h h' Q.
  Proof. intros [H1 H2] K. split; auto. Qed.
  Lemma follows_from ev h h' P : follows (ev :: h) h' P -> follows h h' P.
  Proof. intros [[l ->] H]. split; [exists (l ++ [ev]); now rewrite <- app_assoc|exact H]. Qed.
  Lemma follows_then h h1 h2 (P Q R : Prop) : follows h h1 P -> follows h1 h2 Q -> (even h1 -> P -> Q -> R) -> follows h h2 R.
  Proof.
    intros [[l1 ->] H1] [[l2 ->] H2] K. split; [exists (l2 ++ l1); now rewrite app_assoc|]. intros E. pose proof (even_before _ _ E). auto.
  Qed.
  Lemma fields_pick d ws fs : Forall2 (fun w f => holds (DecorateDescriptor d) (plain_info NONNEG_CODE w) f) ws fs ->
    Forall2 (fun w f => holds (DecorateDescriptor d) (plain_info NONNEG_CODE w) f) ws (map pick fs).
  Proof. induction 1; constructor; auto using holds_pick. Qed.

  Lemma lays_pick h n h' : lays cf h n h' -> follows h h' (lays cf' (picks h) n (picks h')).
  Proof.
    intros H. induction H using lays_mut with
      (P0 := fun h ns h' _ => follows h h' (lays_list cf' (picks h) ns (picks h')))
      (P1 := fun j h ns h' _ => follows h h' (lays_times cf' j (picks h) ns (picks h'))).
    - apply follows_one. constructor.
    - apply follows_one. cbn [map pick_ev]. eapply lay_element; [eassumption| |].
      + rewrite open_fields_pick. now apply fields_pick.
      + rewrite packing_pick. now apply holds_pick.
    - apply follows_one. cbn [map pick_ev]. eapply lay_031021; [eassumption|]. rewrite packing_pick. now apply holds_pick.
    - eapply follows_impl; [eassumption|]. now constructor.
    - eapply follows_impl; [eassumption|]. now constructor.
    - eapply follows_then; [exact IHlays|exact IHlays0|]. intros [HD _] L1 L2. eapply lay_delayed; [exact L1| |exact L2]. apply factor_other. now apply factor_pick.
    - apply follows_one. now constructor.
    - apply follows_one. now constructor.
    - eapply follows_impl; [eapply follows_from; exact IHlays|]. intros L. apply lay_assoc; [now rewrite open_fields_pick|exact L].
    - apply follows_one. constructor. now apply holds_pick.
    - apply follows_one. cbn [map pick_ev]. econstructor; [eassumption|]. now apply holds_pick.
    - eapply follows_impl; [eapply follows_from; exact IHlays|]. intros L. now apply lay_not_present.
    - eapply follows_then; [eapply follows_from, follows_from, IHlays| |].
      { eapply follows_then with (Q := even (EvTargets ps :: h3) /\ lays_list cf' (EvTargets ps :: picks h3) ms (picks h4)); [exact IHlays0| |].
        - destruct IHlays1 as [[lx ->] K]. split; [exists (lx ++ [EvTargets ps]); now rewrite <- app_assoc|]. intros E. split; [eapply even_before; exact E|now apply K].
        - intros E3 L2 [E4 L3]. exact (conj E3 (conj E4 (conj L2 L3))). }
      intros _ L1 (E3 & E4 & L2 & L3). eapply lay_assess; [apply zero_pick; eassumption|exact L1|exact L2| |exact L3|].
      + apply selects_other. apply selects_pick; [apply E3|exact (even_targets _ _ E4)|assumption].
      + rewrite !ncells_pick. assumption.
    - apply follows_one. cbn [map pick_ev]. eapply lay_marker; [rewrite targets_left_pick; eassumption|rewrite data_pick, nth_error_map; match goal with K : nth_error _ _ = Some t |- _ => rewrite K end; reflexivity|eassumption|].
      cbn [pick planned dt_desc]. rewrite marker_packing_pick. now apply holds_pick.
    - apply follows_one. constructor.
    - apply follows_one. constructor.
    - split; [now exists [EvRecall; EvZero z]|]. intros _. cbn [map pick_ev]. apply lay_recall; [assumption|now apply zero_pick].
    - eapply follows_then; [eapply follows_from, follows_from, IHlays|apply (follows_one EvDefined h' True I)|].
      intros _ L _. cbn [map pick_ev]. eapply lay_define; [assumption|apply zero_pick; eassumption|exact L|]. now rewrite bitmap_pick.
    - split; [now exists []|]. intros _. constructor.
    - eapply follows_then; [exact IHlays|exact IHlays0|]. intros _. econstructor; eassumption.
    - split; [now exists []|]. intros _. constructor.
    - eapply follows_then; [exact IHlays|exact IHlays0|]. intros _. econstructor; eassumption.
  Qed.
  Lemma lays_list_pick ns : forall h h', lays_list cf h ns h' -> follows h h' (lays_list cf' (picks h) ns (picks h')).
  Proof.
    induction ns as [|n ns IH]; intros h h' H; inversion H; subst; [split; [now exists []|]; intros _; constructor|].
    eapply follows_then; [eapply lays_pick; eassumption|eapply IH; eassumption|]. intros _. econstructor; eassumption.
  Qed.
End Pick.

Lemma laid_lane cf cf' n ms its k : cf_compatible cf' = cf_compatible cf -> cf_plat cf' = cf_plat cf -> (k < Z.to_nat n)%nat ->
  laid_alike cf n ms its -> laid cf' ms (lane k its).
Proof.
  intros Hc Hp Hk [(h & L & S & D) F]. split.
  - exists (map (pick_ev k) h). assert (E : even k h).
    { split; [|exact S]. rewrite D. apply Forall_map. eapply Forall_impl; [|exact F]. intros it (Hn & _). unfold deep, planned. cbn [dt_vals]. rewrite map_length. unfold blen in Hn. lia. }
    split; [exact (proj2 (lays_list_pick k cf cf' Hc Hp ms [] h L) E)|].
    rewrite data_pick, D. unfold lane. rewrite !map_map. apply map_ext_in. intros it Hit. rewrite Forall_forall in F. destruct (F it Hit) as (Hn & _).
    unfold pick, planned. cbn [dt_desc dt_info dt_vals fst snd]. do 2 f_equal. rewrite (nth_indep _ VNil (raw_value (snd (fst it)) RMissing)) by (rewrite map_length; unfold blen in Hn; lia). apply map_nth.
  - unfold lane. apply Forall_map. eapply Forall_impl; [|exact F]. intros it (Hn & _ & _ & _ & Hv & _). cbn [fst snd]. rewrite Forall_forall in Hv. apply Hv, nth_In. unfold blen in Hn. lia.
Qed.

(** Agreement on the bits does not depend on the positions of the data. *)
Lemma same_bits_strip g : same_bits (map strip_ev g) -> same_bits g.
Proof.
  intros H later ps before i0 i1 E B.
  assert (K : Forall (fun x => exists v, Forall (eq v) (dt_vals x)) (firstn (i1 - i0) (skipn i0 (data (map strip_ev before))))).
  { apply (H (map strip_ev later) ps _ i0 i1); [now rewrite E, map_app|now rewrite bitmap_strip]. }
  rewrite data_strip, skipn_map, firstn_map in K. rewrite Forall_map with (f := strip) in K. exact K.
Qed.
(** The run on written columns is a run whose subsets agree. *)
Lemma alike_executes cf ms its rest e p : cf_json cf = false -> cf_compressed cf = true -> 0 < cf_nsubsets cf ->
  laid_alike cf (cf_nsubsets cf) ms its ->
  exists h r', executes cf ms (RBit (mkBR (flat_map item_bits (written_columns its) ++ rest) e p)) [h] r' /\ same_bits h.
Proof.
  intros Hj Hc Hn [(h & L & S & D) F]. assert (HC : columns cf = true) by (unfold columns; now rewrite Hc, Hj).
  rewrite written_columns_bits. destruct (lays_list_runs cf ms [] h L) as (news & Dn & K). cbn [data app] in Dn. rewrite Dn in D. subst news.
  destruct (K [] (map (fun it => col_bits (snd (fst it)) (snd it)) its) rest e p eq_refl (col_segs cf its Hj Hc ltac:(lia) F)) as (h' & p' & R & E). rewrite <- flat_map_concat_map in R.
  exists h', (RBit (mkBR rest e p')). split; [unfold executes; rewrite HC; exists h'; auto|]. apply same_bits_strip. now rewrite E.
Qed.
