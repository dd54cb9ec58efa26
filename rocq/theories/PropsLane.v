(** Properties C34 and C58 for compressed data of any kind of template.  Vocabulary: SpecPack.v, SpecPlan.v. *)
From Verif Require Import SpecMarshal ProofsLane ProofsBitProps ProofsBits Demo PropsParser PropsRun PropsMarshal PropsPlan.
From Verif Require Export SpecPlan.
From Coq Require Import Lia ZifyBool ZifyNat.

(** C34.  Columns of data laid out for any template - assessments, bitmaps and markers
    included - whose subsets agree on the bits of the bitmaps: written compressed and written
    uncompressed, subset by subset, they decode to the same values. *)
Theorem C34_any_template : forall g ids ms n its cm pl fuel wc rest rest' e p p',
  parsed g ids ms -> 0 < n -> laid_alike (mkConfig true false cm n pl fuel) n ms its ->
  mapM_ write_item (written_columns its) new_bitwriter = (wc, Ok tt) ->
  exists wu sc su q q',
    mapM_ write_item (written (flat_map (fun k => lane k its) (seq 0 (Z.to_nat n)))) new_bitwriter = (wu, Ok tt) /\
    run_payload (mkConfig true false cm n pl fuel) (root ms) (vst0 (RBit (mkBR (wc ++ rest) e p))) = (sc, Ok tt) /\
    run_payload (mkConfig false false cm n pl fuel) (root ms) (vst0 (RBit (mkBR (wu ++ rest') e p'))) = (su, Ok tt) /\
    v_r sc = RBit (mkBR rest e q) /\ v_r su = RBit (mkBR rest' e q') /\
    payload_values (v_pay sc) = payload_values (v_pay su) /\
    payload_values (v_pay sc) = map (fun k => values_of (lane k its)) (seq 0 (Z.to_nat n)).
Proof.
  intros g ids ms n its cm pl fuel wc rest rest' e p p' HP Hn HD Hc.
  assert (HL : Forall (laid (mkConfig false false cm n pl fuel) ms) (map (fun k => lane k its) (seq 0 (Z.to_nat n)))).
  { apply Forall_map, Forall_forall. intros k Hk. apply in_seq in Hk. eapply laid_lane; [| | |exact HD]; [reflexivity..|lia]. }
  rewrite flat_map_concat_map. eexists. pose proof HD as [(h & L & _ & D) F]. rewrite write_items_bits in Hc by (eapply column_written; eassumption).
  injection Hc as Hc. cbn [new_bitwriter app] in Hc. subst wc.
  destruct (columns_round_trip g ids ms (mkConfig true false cm n pl fuel) its rest e p HP eq_refl eq_refl Hn) as (sc & q & E1 & E2 & E3); [split; [eauto|exact F]|].
  destruct (laid_round_trip g ids ms (mkConfig false false cm n pl fuel) (map (fun k => lane k its) (seq 0 (Z.to_nat n))) rest' e p' HP eq_refl eq_refl) as (su & q' & F1 & F2 & F3).
  { cbn. unfold blen. rewrite map_length, seq_length. lia. } { exact HL. }
  exists sc, su, q, q'. cbn [cf_nsubsets] in E3. rewrite map_map in F3.
  split; [apply write_items_bits; eapply laid_written; exact HL|]. repeat (split; [eassumption|]). split; [congruence|exact E3].
Qed.
Print Assumptions C34_any_template.

(** The template of C69_example with two subsets; [x] is the first bit of the second subset's
    bitmap.  *)
Definition two_columns (x : Z) : list (placed ccolumn) :=
  let num w := mkInfo NUMERIC 0 (S754_zero false) w in let code w := mkInfo NONNEG_CODE 0 (S754_zero false) w in
  let it d info u v := (demo_desc d, info, mkCcol [RNumber u; RNumber v] (RNumber 0) 4) in
  [it 1001 (num 7) 1 11; it 1002 (num 10) 2 12; it 8002 (code 6) 3 13; it 31031 (code 1) 0 x; it 31031 (code 1) 1 1; it 31031 (code 1) 0 0;
   it 33007 (num 7) 5 10; it 8023 (code 6) 4 14; it 224255 (num 7) 9 6; it 224255 (code 6) 8 7].
Ltac put2 u v := match goal with |- holds ?d ?i ?x =>
  let i' := eval vm_compute in i in unify x (planned d i' [raw_value i' (RNumber u); raw_value i' (RNumber v)]); eexists; vm_compute; reflexivity end.
Ltac lay_elem2 u v := eapply lay_element; [reflexivity|vm_compute; constructor|put2 u v].
Lemma two_laid x : exists h, lays_list (demo_cf true false 2) [] (nodes_of demo_bitmaps) h /\
  data h = map (fun it => planned (fst (fst it)) (snd (fst it)) (map (raw_value (snd (fst it))) (cc_vals (snd it)))) (two_columns x) /\
  (x = 0 -> same_bits h).
Proof.
  remember (nodes_of demo_bitmaps) as ms eqn:E. vm_compute in E. subst ms. eexists. split; [|split].
  - eapply lay_cons; [lay_elem2 1 11|]. eapply lay_cons; [lay_elem2 2 12|]. eapply lay_cons; [lay_elem2 3 13|].
    eapply lay_cons.
    { eapply lay_assess; [reflexivity| |apply lay_nil| | |].
      - eapply lay_define; [discriminate|reflexivity| |].
        + eapply lay_cons; [|apply lay_nil]. lay_fix. eapply lay_S; [eapply lay_cons; [lay_elem2 0 x|apply lay_nil]|].
          eapply lay_S; [eapply lay_cons; [lay_elem2 1 1|apply lay_nil]|]. eapply lay_S; [eapply lay_cons; [lay_elem2 0 0|apply lay_nil]|]. apply lay_0.
        + discriminate.
      - exists [0; 1; 0]. split; [exists 3%nat, 6%nat; split; [reflexivity|]; split; [lia|]; split; [|reflexivity]; repeat constructor; do 2 eexists; split; reflexivity|].
        split; [vm_compute; lia|]. split; [discriminate|]. reflexivity.
      - eapply lay_cons; [lay_elem2 5 10|apply lay_nil].
      - vm_compute; lia. }
    eapply lay_cons; [|apply lay_nil].
    eapply lay_assess; [reflexivity|apply lay_recall; reflexivity|eapply lay_cons; [lay_elem2 4 14|apply lay_nil]| | |].
    * exists [0; 1; 0]. split; [exists 3%nat, 6%nat; split; [reflexivity|]; split; [lia|]; split; [|reflexivity]; repeat constructor; do 2 eexists; split; reflexivity|].
      split; [vm_compute; lia|]. split; [discriminate|]. reflexivity.
    * eapply lay_cons; [|apply lay_nil]. lay_fix.
      eapply lay_S; [eapply lay_cons; [eapply lay_marker; [vm_compute; reflexivity|vm_compute; reflexivity|reflexivity|put2 9 6]|apply lay_nil]|].
      eapply lay_S; [eapply lay_cons; [eapply lay_marker; [vm_compute; reflexivity|vm_compute; reflexivity|reflexivity|put2 8 7]|apply lay_nil]|]. apply lay_0.
    * vm_compute; lia.
  - vm_compute. reflexivity.
  - intros -> later ps before i0 i1 E B.
    repeat (destruct later as [|? later]; [try discriminate E; injection E as <- <-; vm_compute in B; injection B as <- <-; vm_compute; repeat constructor; eexists; repeat constructor
                                          |cbn [app] in E; injection E as _ E]). destruct later; discriminate E.
Qed.
Lemma two_fit1 U rv w u v : is_number U -> 1 <= w <= 32 -> 0 <= u < 15 -> 0 <= v < 15 -> 0 <= u < 2 ^ w -> 0 <= v < 2 ^ w ->
  (2 <= w -> u <> 2 ^ w - 1 /\ v <> 2 ^ w - 1 /\ 0 <> 2 ^ w - 1) ->
  column_fits 2 (mkInfo U 0 rv w) (mkCcol [RNumber u; RNumber v] (RNumber 0) 4).
Proof.
  intros HU Hw Hu Hv Hu' Hv' Hm. assert (0 < 2 ^ w) by (apply Z.pow_pos_nonneg; lia).
  repeat (split || apply Forall_cons || apply Forall_nil); cbn [cc_vals cc_min cc_diff pi_nbits pi_unit snd as_item SpecBits.fits blen length]; auto; try lia; change (2 ^ 4) with 16; try lia; intros; lia.
Qed.
Lemma two_fit x : 0 <= x <= 1 -> Forall (fun it => column_fits 2 (snd (fst it)) (snd it)) (two_columns x).
Proof.
  intros Hx. unfold two_columns. repeat apply Forall_cons; try apply Forall_nil; cbn [fst snd]; apply two_fit1; unfold is_number; auto; try lia; cbn; lia.
Qed.
Example C34_any_example : laid_alike (demo_cf true false 2) 2 (nodes_of demo_bitmaps) (two_columns 0) /\
  map snd (values_of (lane 1 (two_columns 0))) = map (fun v => VFloat (f64_of_Z v)) [11; 12] ++ [VUint 13; VUint 0; VUint 1; VUint 0; VFloat (f64_of_Z 10); VUint 14; VFloat (f64_of_Z 6); VUint 7].
Proof.
  split; [|vm_compute; reflexivity]. destruct (two_laid 0) as (h & L & D & S). split; [exists h; auto|]. apply two_fit. lia.
Qed.
(** Where the subsets do not agree on a bitmap, the first subset's bitmap serves for all in the
    compressed form: the second subset, which has only one bit unset, still gets two
    statistics.  Written uncompressed, it cannot have them. *)
Theorem C34_bitmaps_must_agree : exists ids its wc wu sc su q e,
  parsed demo_group ids (nodes_of ids) /\ laid_columns (demo_cf true false 2) 2 (nodes_of ids) its /\
  mapM_ write_item (written_columns its) new_bitwriter = (wc, Ok tt) /\
  mapM_ write_item (written (flat_map (fun k => lane k its) (seq 0 2))) new_bitwriter = (wu, Ok tt) /\
  run_payload (demo_cf true false 2) (root (nodes_of ids)) (vst0 (RBit (mkBR wc EEof 0))) = (sc, Ok tt) /\
  v_r sc = RBit (mkBR [] EEof q) /\
  payload_values (v_pay sc) = map (fun k => values_of (lane k its)) (seq 0 2) /\
  run_payload (demo_cf false false 2) (root (nodes_of ids)) (vst0 (RBit (mkBR wu EEof 0))) = (su, e) /\ e <> Ok tt.
Proof.
  exists demo_bitmaps, (two_columns 1). destruct (two_laid 1) as (h & L & D & _).
  assert (HD : laid_columns (demo_cf true false 2) 2 (nodes_of demo_bitmaps) (two_columns 1)) by (split; [eauto|apply two_fit; lia]).
  assert (HP : parsed demo_group demo_bitmaps (nodes_of demo_bitmaps)) by (exists 30%nat; vm_compute; reflexivity).
  destruct (columns_round_trip demo_group demo_bitmaps _ (demo_cf true false 2) (two_columns 1) [] EEof 0 HP eq_refl eq_refl eq_refl HD) as (sc & q & E1 & E2 & E3).
  rewrite app_nil_r in E1.
  destruct (run_payload (demo_cf false false 2) (root (nodes_of demo_bitmaps)) (vst0 (RBit (mkBR (flat_map item_bits (written (flat_map (fun k => lane k (two_columns 1)) (seq 0 2)))) EEof 0)))) as [su er] eqn:Eu.
  eexists _, _, sc, su, q, er. split; [exact HP|]. split; [exact HD|]. split; [apply write_items_bits; eapply column_written; apply (proj2 HD)|].
  split; [apply write_items_bits; vm_compute; repeat constructor; discriminate|].
  split; [exact E1|]. split; [exact E2|]. split; [exact E3|]. split; [exact Eu|].
  apply (f_equal snd) in Eu. vm_compute in Eu. rewrite <- Eu. discriminate.
Qed.
Print Assumptions C34_bitmaps_must_agree.

(** C58.  The JSON form of such data - compressed, any template, subsets that agree on the bits
    of the bitmaps - is read back as the same values exactly when every value survives. *)
Theorem C58_agreeing : forall g ids ms n its cm pl fuel wc rest e p,
  parsed g ids ms -> 0 < n -> laid_alike (mkConfig true false cm n pl fuel) n ms its ->
  mapM_ write_item (written_columns its) new_bitwriter = (wc, Ok tt) ->
  exists s, run_payload (mkConfig true false cm n pl fuel) (root ms) (vst0 (RBit (mkBR (wc ++ rest) e p))) = (s, Ok tt) /\
    payload_values (v_pay s) = map (fun k => values_of (lane k its)) (seq 0 (Z.to_nat n)) /\
    forall ts e', marshal_payload (v_pay s) = Ok ts ->
      (reads_back (mkConfig true false cm n pl fuel) ms s ts e' <-> Forall (fun c => survives pl (c_val c)) (all_cells (v_pay s))).
Proof.
  intros g ids ms n its cm pl fuel wc rest e p HP Hn HD Hc. pose proof HD as [(h & L & _ & D) F].
  rewrite write_items_bits in Hc by (eapply column_written; eassumption). injection Hc as Hc. cbn [new_bitwriter app] in Hc. subst wc.
  destruct (columns_round_trip g ids ms (mkConfig true false cm n pl fuel) its rest e p HP eq_refl eq_refl Hn) as (s & q & E1 & _ & E3); [split; [eauto|exact F]|].
  exists s. split; [exact E1|]. split; [exact E3|]. intros ts e' HM.
  eapply (C58_read_back_partial g ids ms (mkConfig true false cm n pl fuel)); [exact HP|reflexivity|intros _; exact Hn| |exact E1|exact HM].
  intros _. right. right. now apply alike_executes.
Qed.
Print Assumptions C58_agreeing.
(** The two subsets of C34_any_example. *)
Example C58_agreeing_example : exists wc s ts,
  mapM_ write_item (written_columns (two_columns 0)) new_bitwriter = (wc, Ok tt) /\
  run_payload (demo_cf true false 2) (root (nodes_of demo_bitmaps)) (vst0 (RBit (mkBR wc EEof 0))) = (s, Ok tt) /\
  marshal_payload (v_pay s) = Ok ts /\ length (all_cells (v_pay s)) = 20%nat /\
  reads_back (demo_cf true false 2) (nodes_of demo_bitmaps) s ts EEof.
Proof.
  assert (HP : parsed demo_group demo_bitmaps (nodes_of demo_bitmaps)) by (exists 30%nat; vm_compute; reflexivity).
  pose proof (proj1 C34_any_example) as HL.
  assert (HW := write_items_bits (written_columns (two_columns 0)) new_bitwriter ltac:(eapply column_written; apply two_fit; lia)).
  destruct (C58_agreeing demo_group demo_bitmaps _ 2 (two_columns 0) _ _ _ _ [] EEof 0 HP eq_refl HL HW) as (s & E & _ & R).
  rewrite app_nil_r in E. do 3 eexists. split; [exact HW|]. split; [exact E|]. apply (f_equal fst) in E. cbn [fst] in E. subst s.
  split; [vm_compute; reflexivity|]. split; [vm_compute; reflexivity|]. apply R; [vm_compute; reflexivity|].
  eapply vals_survive; [vm_compute; reflexivity|]. all_survive.
Qed.
