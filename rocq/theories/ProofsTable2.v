(** Proofs on identifiers, lookup, combination and loading of tables (C15, C16, C19, C20). *)
From Coq Require Import ZifyBool ZifyNat.
From Verif Require Export SpecTable ModelFactory ProofsBits ProofsFloat ProofsTable.
Ltac Zify.zify_post_hook ::= Z.div_mod_to_equations.

(** ** C15 *)
Lemma read_fxy fc s f x y rest e p :
  fa_r s = RBit (mkBR (f ++ x ++ y ++ rest) e p) -> blen f = 2 -> blen x = 6 -> blen y = 8 ->
  read_id fc 2 6 8 s = (set_fr (RBit (mkBR rest e (p + 16))) s, Ok (fxy (msb f) (msb x) (msb y))).
Proof.
  intros Hr Hf Hx Hy. destruct s as [r m u g]. cbn [fa_r] in Hr. subst r.
  unfold read_id, bind, onr, zoom, ret, r_ReadUint, on_reader, set_fr. cbn [fa_r fa_msg fa_ut fa_group].
  rewrite br_ReadUint_ok by exact Hf. cbn [fa_r fa_msg fa_ut fa_group].
  rewrite br_ReadUint_ok by exact Hx. cbn [fa_r fa_msg fa_ut fa_group].
  rewrite br_ReadUint_ok by exact Hy. cbn [fa_r fa_msg fa_ut fa_group].
  pose proof (msb_bound f). pose proof (msb_bound x). pose proof (msb_bound y).
  rewrite Hf in *. rewrite Hx in *. rewrite Hy in *.
  rewrite !u64_small by lia. unfold fxy.
  replace (p + 2 + 6 + 8) with (p + 16) by lia.
  rewrite i64_small by lia. reflexivity.
Qed.
Lemma msb_valid f x y : blen f = 2 -> blen x = 6 -> blen y = 8 -> valid_fxy (msb f) (msb x) (msb y).
Proof.
  intros Hf Hx Hy. pose proof (msb_bound f). pose proof (msb_bound x). pose proof (msb_bound y).
  rewrite Hf in *. rewrite Hx in *. rewrite Hy in *. unfold valid_fxy. lia.
Qed.
Lemma fxy_parts F X Y : valid_fxy F X Y ->
  id_F (fxy F X Y) = F /\ id_X (fxy F X Y) = X /\ id_Y (fxy F X Y) = Y /\
  id_String (fxy F X Y) = fxy_text F X Y.
Proof.
  intros (H1 & H2 & H3). unfold fxy, fxy_text.
  rewrite fxy_F, fxy_X, fxy_Y, fxy_String by assumption. auto.
Qed.
Lemma cons_inj {A} (a b : A) l m : a :: l = b :: m -> a = b /\ l = m.
Proof. intros H. now injection H. Qed.
Lemma fxy_text_inj F X Y F' X' Y' : valid_fxy F X Y -> valid_fxy F' X' Y' ->
  fxy_text F X Y = fxy_text F' X' Y' -> F = F' /\ X = X' /\ Y = Y'.
Proof. unfold valid_fxy, fxy_text. intros H H' E.
  do 6 (apply cons_inj in E; let E' := fresh "E" in destruct E as [E' E]). lia.
Qed.
Lemma fxy_inj F X Y F' X' Y' : valid_fxy F X Y -> valid_fxy F' X' Y' ->
  fxy F X Y = fxy F' X' Y' -> F = F' /\ X = X' /\ Y = Y'.
Proof. unfold valid_fxy, fxy. lia. Qed.

(** The text of a descriptor, as it appears in table files, is read back. *)
Lemma atoi_padded z k : 0 <= z < 10 ^ Z.of_nat k -> (0 < k <= 18)%nat -> atoi (padded k z) = Ok z.
Proof.
  intros Hz Hk.
  assert (Hp : forall k z, 0 <= z < 10 ^ Z.of_nat k -> forall acc,
            parse_digits acc (padded k z) = Some (acc * 10 ^ Z.of_nat k + z) /\
            Forall (fun c => 48 <= c <= 57) (padded k z)).
  { clear. induction k as [|k IH]; intros z Hz acc.
    - cbn [padded parse_digits]. change (10 ^ Z.of_nat 0) with 1 in *. split; [f_equal; lia|constructor].
    - rewrite Nat2Z.inj_succ, Z.pow_succ_r in * by lia. cbn [padded]. rewrite parse_digits_app.
      destruct (IH (z / 10) ltac:(lia) acc) as [E F]. rewrite E. cbn [parse_digits].
      assert ((48 <=? 48 + z mod 10) && (48 + z mod 10 <=? 57) = true) as -> by lia.
      split; [f_equal; lia|]. apply Forall_app. split; [exact F|]. repeat constructor; lia. }
  destruct (Hp k z Hz 0) as [E F].
  destruct (padded k z) as [|c ds] eqn:Ed.
  { apply (f_equal (@length Z)) in Ed. rewrite length_padded in Ed. cbn in Ed. lia. }
  inversion F as [|? ? Hc _]; subst.
  assert (Hgo : atoi (c :: ds) = match parse_digits 0 (c :: ds) with
           | Some v => if (- 2 ^ 63 <=? v) && (v <? 2 ^ 63) then Ok v else Err (EMsg "strconv.Atoi")
           | None => Err (EMsg "strconv.Atoi") end).
  { unfold atoi. assert (c <> 45 /\ c <> 43) by lia.
    destruct c as [|c|c]; try lia.
    do 7 (destruct c as [c|c|]; try reflexivity; try lia). }
  rewrite Hgo, E.
  assert (10 ^ Z.of_nat k <= 10 ^ 18) by (apply Z.pow_le_mono_r; lia).
  assert ((- 2 ^ 63 <=? 0 * 10 ^ Z.of_nat k + z) && (0 * 10 ^ Z.of_nat k + z <? 2 ^ 63) = true) as -> by lia.
  reflexivity.
Qed.
Lemma atoi_id_String id : 0 <= id < 1000000 -> atoi (id_String id) = Ok id.
Proof. intros H. rewrite id_String_padded by lia. apply atoi_padded; [exact H|lia]. Qed.

(** ** C16 *)
Lemma Lookup_chain g id : Lookup g id = match g with GSingle s => single_Lookup s id | GChain l => chain_Lookup l id end.
Proof. reflexivity. Qed.
Lemma Lookup_ok g id d : Lookup g id = Ok d <->
  exists before s after, members_of g = before ++ s :: after /\ knows s id d /\
    Forall (fun s' => knows_not s' id) before.
Proof.
  destruct g as [s|l]; cbn [Lookup members_of]; [|apply chain_Lookup_ok].
  rewrite single_Lookup_ok. split.
  - intros H. exists [], s, []. auto.
  - intros (b & s' & a & E & H & _). destruct b as [|? [|]]; try discriminate. injection E as -> _. exact H.
Qed.
Lemma Lookup_total g id :
  (exists d, Lookup g id = Ok d) \/
  (exists e, Lookup g id = Err e) /\ Forall (fun s => knows_not s id) (members_of g).
Proof.
  destruct g as [s|l]; cbn [Lookup members_of].
  - pose proof (single_Lookup_spec s id) as H. destruct (single_Lookup s id); try contradiction; eauto.
  - pose proof (chain_Lookup_spec l id) as H. destruct (chain_Lookup l id); try contradiction; eauto.
Qed.
Lemma knows_id g id d : knows g id d -> d_id d = id /\ id_F id = id_F (d_id d) /\ 0 <= id_F id <= 3.
Proof.
  unfold knows. fold (id_F id).
  intros [[? (e & He & ->)]|[[? ->]|[[? ->]|[? (e & He & ->)]]]]; cbn [d_id]; lia.
Qed.
Lemma knows_kind g id d : knows g id d -> d_assoc d = false /\
  match d_entry d with
  | EB e => id_F id = 0 /\ s_b g id = Some e
  | ER => id_F id = 1
  | EC => id_F id = 2
  | ED ms => id_F id = 3 /\ s_d g id = Some ms
  end.
Proof.
  unfold knows. fold (id_F id).
  intros [[? (e & He & ->)]|[[? ->]|[[? ->]|[? (e & He & ->)]]]]; cbn [d_entry d_assoc]; auto.
Qed.
Lemma Lookup_kind g id d : Lookup g id = Ok d -> d_id d = id /\ d_assoc d = false /\
  match d_entry d with
  | EB e => id_F id = 0 /\ exists s, In s (members_of g) /\ s_b s id = Some e
  | ER => id_F id = 1
  | EC => id_F id = 2
  | ED ms => id_F id = 3 /\ exists s, In s (members_of g) /\ s_d s id = Some ms
  end.
Proof.
  intros H. apply Lookup_ok in H. destruct H as (b & s & a & E & Hk & _).
  assert (In s (members_of g)) by (rewrite E; apply in_elt).
  pose proof (knows_id _ _ _ Hk) as [H1 _]. pose proof (knows_kind _ _ _ Hk) as [H2 H3].
  split; [exact H1|]. split; [exact H2|]. destruct (d_entry d); try exact H3.
  - destruct H3; eauto.
  - destruct H3; eauto.
Qed.
Lemma Lookup_always g id : id_F id = 1 \/ id_F id = 2 -> members_of g <> [] -> exists d, Lookup g id = Ok d.
Proof.
  intros HF Hne. destruct (Lookup_total g id) as [H|[_ H]]; [exact H|].
  destruct (members_of g) as [|s l]; [congruence|]. inversion H; subst.
  unfold knows_not, knows in H2. fold (id_F id) in H2. exfalso.
  destruct HF; [apply (H2 (mkDesc id ER false))|apply (H2 (mkDesc id EC false))]; auto.
Qed.
Lemma Lookup_never g id : id_F id < 0 \/ 3 < id_F id -> exists e, Lookup g id = Err e.
Proof.
  intros HF. destruct (Lookup_total g id) as [[d H]|[H _]]; [|exact H].
  apply Lookup_ok in H. destruct H as (b & s & a & E & Hk & _). apply knows_id in Hk. lia.
Qed.

(** ** C19 *)
Lemma NewSingle_present fs m c s v g : NewSingleTableGroup fs m c s v = Ok g <-> present fs m c s v g.
Proof.
  unfold NewSingleTableGroup, present, rbind.
  destruct (fs_B fs m c s v) as [b| | |]; [|split; [discriminate|intros [? ?]; discriminate]..].
  destruct (fs_D fs m c s v) as [d| | |]; [|split; [discriminate|intros [? ?]; discriminate]..].
  split; [intros [= <-]; auto|]. destruct g as [b' d']; cbn [s_b s_d]. intros [[= ->] [= ->]]. reflexivity.
Qed.
Lemma NewSingle_absent fs m c s v : NewSingleTableGroup fs m c s v = Err ENotExist <-> absent fs m c s v.
Proof.
  unfold NewSingleTableGroup, absent, rbind.
  destruct (fs_B fs m c s v) as [b|e| |].
  - destruct (fs_D fs m c s v) as [d|e| |]; split; try discriminate;
      try (intros [H|[_ H]]; congruence); intros [= ->]; right; eauto.
  - split; [intros [= ->]; auto|intros [H|[[b H] _]]; congruence].
  - split; [discriminate|intros [H|[[b H] _]]; congruence].
  - split; [discriminate|intros [H|[[b H] _]]; congruence].
Qed.
Lemma AddSingle_step fs m c s v l :
  AddSingleTableGroup fs m c s v l =
  match NewSingleTableGroup fs m c s v with
  | Ok g => (l ++ [g], Ok tt) | Err e => (l, Err e) | Panic p => (l, Panic p) | NoFuel => (l, NoFuel)
  end.
Proof.
  unfold AddSingleTableGroup, bind, lift_res, modify. now destruct (NewSingleTableGroup fs m c s v).
Qed.

(** What the call adds, when it succeeds. *)
Definition combined (fs : tablefs) (m c s wv lv : Z) (added : list single) : Prop :=
  exists w, present fs m 0 0 wv w /\
  (lv = 0 /\ added = [w] \/
   lv <> 0 /\ (exists l, present fs m c s lv l /\ added = [l; w]) \/
   lv <> 0 /\ absent fs m c s lv /\ (exists l, present fs m c 0 lv l /\ added = [l; w])).
Lemma AddLocal_ok fs m c s wv lv l0 l' :
  AddLocalAndWmoTableGroups fs m c s wv lv l0 = (l', Ok tt) <->
  exists added, l' = l0 ++ added /\ combined fs m c s wv lv added.
Proof.
  unfold AddLocalAndWmoTableGroups, combined.
  destruct (Z.eqb_spec lv 0) as [Hlv|Hlv]; cbn [negb].
  - rewrite AddSingle_step. split.
    + destruct (NewSingleTableGroup fs m 0 0 wv) as [w| | |] eqn:E; try discriminate.
      intros [= <-]. apply NewSingle_present in E. exists [w]. split; [reflexivity|]. eauto 10.
    + intros (a & -> & w & Hw & H). apply NewSingle_present in Hw. rewrite Hw.
      destruct H as [[_ ->]|[[? _]|[? _]]]; congruence.
  - rewrite AddSingle_step.
    destruct (NewSingleTableGroup fs m c s lv) as [g|e|p|] eqn:E.
    + rewrite AddSingle_step. split.
      * destruct (NewSingleTableGroup fs m 0 0 wv) as [w| | |] eqn:E2; try discriminate.
        intros [= <-]. apply NewSingle_present in E, E2. exists [g; w]. rewrite <- app_assoc. split; [reflexivity|].
        exists w. split; [exact E2|]. right; left. eauto.
      * intros (a & -> & w & Hw & H). apply NewSingle_present in Hw. rewrite Hw.
        destruct H as [[? _]|[[_ (l & Hl & ->)]|[_ [Ha _]]]]; [congruence| |].
        -- apply NewSingle_present in Hl. rewrite E in Hl. injection Hl as ->. now rewrite <- app_assoc.
        -- apply NewSingle_absent in Ha. congruence.
    + destruct (is_not_exist e) eqn:En.
      * destruct e; try discriminate. apply NewSingle_absent in E.
        unfold bind. rewrite AddSingle_step.
        destruct (NewSingleTableGroup fs m c 0 lv) as [g| | |] eqn:E1.
        -- rewrite AddSingle_step. split.
           ++ destruct (NewSingleTableGroup fs m 0 0 wv) as [w| | |] eqn:E2; try discriminate.
              intros [= <-]. apply NewSingle_present in E1, E2. exists [g; w]. rewrite <- app_assoc.
              split; [reflexivity|]. exists w. split; [exact E2|]. right; right. eauto.
           ++ intros (a & -> & w & Hw & H). apply NewSingle_present in Hw. rewrite Hw.
              destruct H as [[? _]|[[_ (l & Hl & _)]|[_ [_ (l & Hl & ->)]]]]; [congruence| |].
              ** apply NewSingle_absent in E. apply NewSingle_present in Hl. congruence.
              ** apply NewSingle_present in Hl. rewrite E1 in Hl. injection Hl as ->. now rewrite <- app_assoc.
        -- split; [discriminate|]. intros (a & -> & w & Hw & H).
           destruct H as [[? _]|[[_ (l & Hl & _)]|[_ [_ (l & Hl & ->)]]]]; [congruence| |].
           ++ apply NewSingle_absent in E. apply NewSingle_present in Hl. congruence.
           ++ apply NewSingle_present in Hl. congruence.
        -- split; [discriminate|]. intros (a & -> & w & Hw & H).
           destruct H as [[? _]|[[_ (l & Hl & _)]|[_ [_ (l & Hl & ->)]]]]; [congruence| |].
           ++ apply NewSingle_absent in E. apply NewSingle_present in Hl. congruence.
           ++ apply NewSingle_present in Hl. congruence.
        -- split; [discriminate|]. intros (a & -> & w & Hw & H).
           destruct H as [[? _]|[[_ (l & Hl & _)]|[_ [_ (l & Hl & ->)]]]]; [congruence| |].
           ++ apply NewSingle_absent in E. apply NewSingle_present in Hl. congruence.
           ++ apply NewSingle_present in Hl. congruence.
      * split; [discriminate|]. intros (a & -> & w & Hw & H).
        destruct H as [[? _]|[[_ (l & Hl & _)]|[_ [Ha _]]]]; [congruence| |].
        -- apply NewSingle_present in Hl. congruence.
        -- apply NewSingle_absent in Ha. rewrite E in Ha. injection Ha as ->. discriminate.
    + split; [discriminate|]. intros (a & -> & w & Hw & H).
      destruct H as [[? _]|[[_ (l & Hl & _)]|[_ [Ha _]]]]; [congruence| |].
      * apply NewSingle_present in Hl. congruence.
      * apply NewSingle_absent in Ha. congruence.
    + split; [discriminate|]. intros (a & -> & w & Hw & H).
      destruct H as [[? _]|[[_ (l & Hl & _)]|[_ [Ha _]]]]; [congruence| |].
      * apply NewSingle_present in Hl. congruence.
      * apply NewSingle_absent in Ha. congruence.
Qed.
Lemma AddLocal_absent fs m c s wv lv l0 :
  lv <> 0 -> absent fs m c s lv -> absent fs m c 0 lv ->
  AddLocalAndWmoTableGroups fs m c s wv lv l0 = (l0, Err ENotExist).
Proof.
  intros Hl H1 H2. apply NewSingle_absent in H1, H2. unfold AddLocalAndWmoTableGroups.
  destruct (Z.eqb_spec lv 0) as [|_]; [contradiction|]. cbn [negb].
  rewrite AddSingle_step, H1. cbn [is_not_exist]. unfold bind. rewrite AddSingle_step, H2. reflexivity.
Qed.
Lemma local_shadows l w id d : Lookup (GChain [l; w]) id = Ok d <->
  knows l id d \/ knows_not l id /\ knows w id d.
Proof.
  rewrite Lookup_ok. cbn [members_of]. split.
  - intros (b & s & a & E & Hk & Hf). destruct b as [|x [|y [|]]]; try discriminate.
    + injection E as -> _. auto.
    + injection E as -> -> _. inversion Hf; subst. auto.
  - intros [H|[Hn H]].
    + exists [], l, [w]. auto.
    + exists [l], w, []. repeat split; auto.
Qed.

(** ** C20 *)
Lemma record_faithful pl name us sc rv nb cus cs cn more :
  json_int sc -> json_int rv -> json_int nb -> json_int cs -> json_int cn ->
  recordToBentry pl (record_of name us sc rv nb cus cs cn ++ more)
  = Ok (mkBentry name us (unitOf us) sc rv nb cus (unitOf cus) cs cn).
Proof.
  unfold json_int. intros H1 H2 H3 H4 H5.
  unfold recordToBentry, record_of, go_nth. cbn [app Z.ltb Z.compare].
  change (Z.to_nat 0) with 0%nat. change (Z.to_nat 1) with 1%nat. change (Z.to_nat 2) with 2%nat.
  change (Z.to_nat 3) with 3%nat. change (Z.to_nat 4) with 4%nat. change (Z.to_nat 5) with 5%nat.
  change (Z.to_nat 6) with 6%nat. change (Z.to_nat 7) with 7%nat.
  cbn [nth_error rbind as_str as_num]. now rewrite !f64_to_int_of_Z by assumption.
Qed.
Lemma record_wrong_type pl r i a : (8 <= length r)%nat -> (i < 8)%nat ->
  nth_error r i = Some a -> ~ right_type i a -> exists e, recordToBentry pl r = Err e.
Proof.
  intros Hl Hi Ha Ht.
  destruct r as [|a0 [|a1 [|a2 [|a3 [|a4 [|a5 [|a6 [|a7 r]]]]]]]]; try (cbn in Hl; lia). clear Hl.
  unfold recordToBentry, go_nth. cbn [Z.ltb Z.compare].
  change (Z.to_nat 0) with 0%nat. change (Z.to_nat 1) with 1%nat. change (Z.to_nat 2) with 2%nat.
  change (Z.to_nat 3) with 3%nat. change (Z.to_nat 4) with 4%nat. change (Z.to_nat 5) with 5%nat.
  change (Z.to_nat 6) with 6%nat. change (Z.to_nat 7) with 7%nat. cbn [nth_error rbind].
  destruct a0; cbn [as_str as_num rbind]; eauto.
  destruct a1; cbn [as_str as_num rbind]; eauto.
  destruct a2; cbn [as_str as_num rbind]; eauto.
  destruct a3; cbn [as_str as_num rbind]; eauto.
  destruct a4; cbn [as_str as_num rbind]; eauto.
  destruct a5; cbn [as_str as_num rbind]; eauto.
  destruct a6; cbn [as_str as_num rbind]; eauto.
  destruct a7; cbn [as_str as_num rbind]; eauto.
  exfalso. apply Ht.
  do 8 (destruct i as [|i]; [injection Ha as <-; cbn; lia|]). lia.
Qed.
Lemma record_short pl r : (length r < 8)%nat ->
  (forall i a, nth_error r i = Some a -> right_type i a) -> recordToBentry pl r = Panic PIndex.
Proof.
  intros Hl Ht. unfold recordToBentry, go_nth. cbn [Z.ltb Z.compare].
  change (Z.to_nat 0) with 0%nat. change (Z.to_nat 1) with 1%nat. change (Z.to_nat 2) with 2%nat.
  change (Z.to_nat 3) with 3%nat. change (Z.to_nat 4) with 4%nat. change (Z.to_nat 5) with 5%nat.
  change (Z.to_nat 6) with 6%nat. change (Z.to_nat 7) with 7%nat.
  destruct r as [|a0 r]; [reflexivity|]. cbn [nth_error rbind].
  pose proof (Ht 0%nat a0 eq_refl) as H0. destruct a0; cbn in H0; try lia; cbn [as_str rbind].
  destruct r as [|a1 r]; [reflexivity|]. cbn [nth_error rbind].
  pose proof (Ht 1%nat a1 eq_refl) as H1. destruct a1; cbn in H1; try lia; cbn [as_str rbind].
  destruct r as [|a2 r]; [reflexivity|]. cbn [nth_error rbind].
  pose proof (Ht 2%nat a2 eq_refl) as H2. destruct a2; cbn in H2; try lia; cbn [as_num rbind].
  destruct r as [|a3 r]; [reflexivity|]. cbn [nth_error rbind].
  pose proof (Ht 3%nat a3 eq_refl) as H3. destruct a3; cbn in H3; try lia; cbn [as_num rbind].
  destruct r as [|a4 r]; [reflexivity|]. cbn [nth_error rbind].
  pose proof (Ht 4%nat a4 eq_refl) as H4. destruct a4; cbn in H4; try lia; cbn [as_num rbind].
  destruct r as [|a5 r]; [reflexivity|]. cbn [nth_error rbind].
  pose proof (Ht 5%nat a5 eq_refl) as H5. destruct a5; cbn in H5; try lia; cbn [as_str rbind].
  destruct r as [|a6 r]; [reflexivity|]. cbn [nth_error rbind].
  pose proof (Ht 6%nat a6 eq_refl) as H6. destruct a6; cbn in H6; try lia; cbn [as_num rbind].
  destruct r as [|a7 r]; [reflexivity|]. cbn [length] in Hl. lia.
Qed.
Lemma unitOf_spec s :
  (unitOf s = STRING <-> s = gs "CCITT IA5" \/ s = gs "Character") /\
  (unitOf s = FLAG <-> s = gs "FLAG TABLE") /\
  (unitOf s = NONNEG_CODE <-> s = gs "CODE TABLE" \/ exists t, s = gs "Common CODE TABLE" ++ t) /\
  unitOf s <> CODE /\ unitOf s <> BINARY.
Proof.
  assert (D : forall t, gs "FLAG TABLE" <> gs "Common CODE TABLE" ++ t /\
                        gs "CCITT IA5" <> gs "Common CODE TABLE" ++ t /\
                        gs "Character" <> gs "Common CODE TABLE" ++ t).
  { intros t. repeat split; intros E; vm_compute in E; congruence. }
  assert (D1 : gs "FLAG TABLE" <> gs "CCITT IA5") by (vm_compute; congruence).
  assert (D2 : gs "FLAG TABLE" <> gs "Character") by (vm_compute; congruence).
  assert (D3 : gs "CODE TABLE" <> gs "CCITT IA5") by (vm_compute; congruence).
  assert (D4 : gs "CODE TABLE" <> gs "Character") by (vm_compute; congruence).
  assert (D5 : gs "CODE TABLE" <> gs "FLAG TABLE") by (vm_compute; congruence).
  unfold unitOf.
  destruct (gs_eqb s (gs "CCITT IA5") || gs_eqb s (gs "Character")) eqn:E1.
  { apply orb_true_iff in E1. rewrite !gs_eqb_eq in E1. repeat split; try discriminate; auto.
    - intros ->. destruct E1; congruence.
    - intros [->|[t ->]]; [destruct E1; congruence|]. destruct E1 as [E|E]; symmetry in E; apply D in E; tauto. }
  apply orb_false_iff in E1. destruct E1 as [Ea Eb].
  assert (Na : s <> gs "CCITT IA5") by (intros ->; rewrite (proj2 (gs_eqb_eq _ _) eq_refl) in Ea; discriminate).
  assert (Nb : s <> gs "Character") by (intros ->; rewrite (proj2 (gs_eqb_eq _ _) eq_refl) in Eb; discriminate).
  destruct (gs_eqb s (gs "FLAG TABLE")) eqn:E2.
  { apply gs_eqb_eq in E2. repeat split; try discriminate; auto; try tauto.
    intros [H|[t H]]; [congruence|]. rewrite E2 in H. exfalso. now apply (proj1 (D t)). }
  assert (Nc : s <> gs "FLAG TABLE") by (intros ->; rewrite (proj2 (gs_eqb_eq _ _) eq_refl) in E2; discriminate).
  destruct (gs_eqb s (gs "CODE TABLE") || has_prefix s (gs "Common CODE TABLE")) eqn:E3.
  { apply orb_true_iff in E3. rewrite gs_eqb_eq, has_prefix_spec in E3.
    repeat split; try discriminate; auto; try tauto. }
  apply orb_false_iff in E3. destruct E3 as [Ed Ee].
  repeat split; try discriminate; try tauto.
  intros [->|H].
  - rewrite (proj2 (gs_eqb_eq _ _) eq_refl) in Ed. discriminate.
  - apply has_prefix_spec in H. congruence.
Qed.

(** Whole files. *)
Lemma load_records_spec {A} (conv : list any -> res A) tag recs : forall acc m,
  load_records conv tag recs acc = Ok m ->
  (forall id, ~ (exists key r, In (key, r) recs /\ atoi key = Ok id) -> assoc_get m id = assoc_get acc id) /\
  (forall key r, In (key, r) recs -> exists id e, atoi key = Ok id /\ conv r = Ok e /\
     (exists key' r' e', In (key', r') recs /\ atoi key' = Ok id /\ conv r' = Ok e' /\ assoc_get m id = Some e')).
Proof.
  induction recs as [|[key r] recs IH]; intros acc m H; cbn [load_records] in H.
  { injection H as <-. split; [auto|]. intros ? ? []. }
  destruct (atoi key) as [id| | |] eqn:Ek; try discriminate.
  destruct (conv r) as [e| | |] eqn:Er; try discriminate.
  apply IH in H. destruct H as [H1 H2]. split.
  - intros id' Hn. rewrite H1.
    + cbn [assoc_get]. destruct (Z.eqb_spec id id') as [->|]; [|reflexivity].
      exfalso. apply Hn. exists key, r. split; [now left|exact Ek].
    + intros (k' & r' & Hin & Hk'). apply Hn. exists k', r'. split; [now right|exact Hk'].
  - intros k' r' [E|Hin].
    + injection E as <- <-. exists id, e. repeat split; auto.
      assert (Hdec : (exists k r, In (k, r) recs /\ atoi k = Ok id) \/
                     ~ (exists k r, In (k, r) recs /\ atoi k = Ok id)).
      { clear. induction recs as [|[k r] recs [IH|IH]].
        - right. intros (? & ? & [] & _).
        - left. destruct IH as (k' & r' & Hin & Hk'). exists k', r'. split; [now right|exact Hk'].
        - assert (Hd : atoi k = Ok id \/ atoi k <> Ok id).
          { destruct (atoi k) as [z| | |]; try (right; discriminate).
            destruct (Z.eq_dec z id) as [->|]; [now left|right; congruence]. }
          destruct Hd as [Hd|Hd].
          + left. exists k, r. split; [now left|exact Hd].
          + right. intros (k' & r' & [E|Hin] & Hk').
            * injection E as <- <-. contradiction.
            * apply IH. eauto. }
      destruct Hdec as [(k' & r' & Hin & Hk')|Hn].
      * destruct (H2 k' r' Hin) as (id' & e' & Hk'' & _ & k3 & r3 & e3 & Hin3 & Hk3 & Hc3 & Hg).
        assert (id' = id) as -> by congruence.
        exists k3, r3, e3. repeat split; auto. now right.
      * exists key, r, e. rewrite H1 by exact Hn. cbn [assoc_get]. rewrite Z.eqb_refl.
        repeat split; auto. now left.
    + destruct (H2 k' r' Hin) as (id' & e' & Hk'' & He' & k3 & r3 & e3 & Hin3 & Hk3 & Hc3 & Hg).
      exists id', e'. repeat split; auto. exists k3, r3, e3. repeat split; auto. now right.
Qed.
(** When no two keys denote the same identifier the loaded table is exactly the file. *)
Definition distinct_keys (recs : list (gostring * list any)) : Prop :=
  forall k r k' r' id, In (k, r) recs -> In (k', r') recs -> atoi k = Ok id -> atoi k' = Ok id -> r = r'.
Lemma load_records_exact {A} (conv : list any -> res A) tag recs m id e :
  load_records conv tag recs [] = Ok m -> distinct_keys recs ->
  (assoc_get m id = Some e <-> exists key r, In (key, r) recs /\ atoi key = Ok id /\ conv r = Ok e).
Proof.
  intros H Hd. apply load_records_spec in H. destruct H as [H1 H2]. split.
  - intros Hg.
    assert (Hex : exists k r, In (k, r) recs /\ atoi k = Ok id).
    { assert (Hdec : (exists k r, In (k, r) recs /\ atoi k = Ok id) \/
                     ~ (exists k r, In (k, r) recs /\ atoi k = Ok id)).
      { clear. induction recs as [|[k r] recs [IH|IH]].
        - right. intros (? & ? & [] & _).
        - left. destruct IH as (k' & r' & Hin & Hk'). exists k', r'. split; [now right|exact Hk'].
        - assert (Hd : atoi k = Ok id \/ atoi k <> Ok id).
          { destruct (atoi k) as [z| | |]; try (right; discriminate).
            destruct (Z.eq_dec z id) as [->|]; [now left|right; congruence]. }
          destruct Hd as [Hd|Hd].
          + left. exists k, r. split; [now left|exact Hd].
          + right. intros (k' & r' & [E|Hin] & Hk').
            * injection E as <- <-. contradiction.
            * apply IH. eauto. }
      destruct Hdec as [Hx|Hn]; [exact Hx|]. apply H1 in Hn. rewrite Hn in Hg. discriminate. }
    destruct Hex as (k & r & Hin & Hk).
    destruct (H2 k r Hin) as (id' & e' & Hk' & He' & k3 & r3 & e3 & Hin3 & Hk3 & Hc3 & Hg3).
    assert (id' = id) as -> by congruence. rewrite Hg in Hg3. injection Hg3 as <-. eauto.
  - intros (k & r & Hin & Hk & Hc).
    destruct (H2 k r Hin) as (id' & e' & Hk' & He' & k3 & r3 & e3 & Hin3 & Hk3 & Hc3 & Hg3).
    assert (id' = id) as -> by congruence.
    assert (r3 = r) as -> by (eapply Hd; eauto). congruence.
Qed.
Lemma LoadTableB_exact pl recs t : LoadTableB pl (FileOk recs) = Ok t -> distinct_keys recs ->
  forall id e, t id = Some e <-> exists key r, In (key, r) recs /\ atoi key = Ok id /\ recordToBentry pl r = Ok e.
Proof.
  intros H Hd id e. cbn [LoadTableB] in H. unfold rbind in H.
  destruct (load_records _ _ _ _) as [m| | |] eqn:E; try discriminate. injection H as <-.
  eapply load_records_exact; eauto.
Qed.
Lemma LoadTableD_exact recs t : LoadTableD (FileOk recs) = Ok t -> distinct_keys recs ->
  forall id e, t id = Some e <-> exists key r, In (key, r) recs /\ atoi key = Ok id /\ recordToDentry r = Ok e.
Proof.
  intros H Hd id e. cbn [LoadTableD] in H. unfold rbind in H.
  destruct (load_records _ _ _ _) as [m| | |] eqn:E; try discriminate. injection H as <-.
  eapply load_records_exact; eauto.
Qed.
Lemma dentry_faithful name ids more : Forall (fun id => 0 <= id < 1000000) ids ->
  recordToDentry (AStr name :: AList (map (fun id => AStr (id_String id)) ids) :: more) = Ok ids.
Proof.
  intros H. unfold recordToDentry, go_nth. cbn [Z.ltb Z.compare].
  change (Z.to_nat 0) with 0%nat. change (Z.to_nat 1) with 1%nat. cbn [nth_error rbind as_str].
  induction H as [|id ids Hid _ IH]; cbn [map dentry_ids]; [reflexivity|].
  cbn [as_str rbind]. rewrite atoi_id_String by exact Hid. cbn [rbind]. rewrite IH. reflexivity.
Qed.
Lemma dentry_rejects name l more : Exists (fun a => match a with AStr s => is_ok (atoi s) = false | _ => True end) l ->
  exists e, recordToDentry (AStr name :: AList l :: more) = Err e.
Proof.
  intros H. unfold recordToDentry, go_nth. cbn [Z.ltb Z.compare].
  change (Z.to_nat 0) with 0%nat. change (Z.to_nat 1) with 1%nat. cbn [nth_error rbind as_str].
  assert (At : forall s, is_ok (atoi s) = false -> exists e, atoi s = Err e).
  { intros s. unfold atoi.
    assert (G : forall neg t, let r := match t with
      | [] => Err (EMsg "strconv.Atoi")
      | _ => match parse_digits 0 t with
           | Some v => let w := if neg : bool then - v else v in
                       if (- 2 ^ 63 <=? w) && (w <? 2 ^ 63) then Ok w else Err (EMsg "strconv.Atoi")
           | None => Err (EMsg "strconv.Atoi")
           end end in is_ok r = false -> exists e, r = Err e).
    { intros neg [|c t]; cbn zeta; [eauto|]. destruct (parse_digits 0 (c :: t)); [|eauto].
      destruct (_ && _); [discriminate|eauto]. }
    destruct s as [|c s]; [apply (G false [])|].
    destruct (Z.eq_dec c 45) as [->|]; [apply (G true s)|].
    destruct (Z.eq_dec c 43) as [->|]; [apply (G false s)|].
    replace (match c with 45 => _ | 43 => _ | _ => _ end) with
      (match parse_digits 0 (c :: s) with
           | Some v => if (- 2 ^ 63 <=? v) && (v <? 2 ^ 63) then Ok v else Err (EMsg "strconv.Atoi")
           | None => Err (EMsg "strconv.Atoi")
           end); [apply (G false (c :: s))|].
    destruct c as [|c|c]; try reflexivity.
    do 6 (destruct c as [c|c|]; try reflexivity; try lia). }
  induction H as [a l H|a l _ [e IH]]; cbn [dentry_ids].
  - destruct a; cbn [as_str rbind]; eauto. destruct (At s H) as [e ->]. cbn [rbind]. eauto.
  - destruct a; cbn [as_str rbind]; eauto.
    destruct (atoi s) eqn:E; cbn [rbind]; eauto.
    + rewrite IH. cbn [rbind]. eauto.
    + destruct (At s); [now rewrite E|congruence].
    + destruct (At s); [now rewrite E|congruence].
Qed.
