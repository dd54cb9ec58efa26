(** Property theorems C34 and C59: packing raw data and decoding them.  Vocabulary:
    SpecPack.v. *)
From Verif Require Import ProofsPack3 ProofsFloat ProofsBitProps Demo PropsParser PropsRun PropsJson PropsCell.
From Verif Require Export SpecPack.
From Coq Require Import Lia ZifyBool ZifyNat.

(** C59.  Raw data for any number of subsets that fit a template of elements, sequences,
    replications and 201, 202, 204-208: writing them with the bit writer (padded to whole
    bytes, with anything behind) and decoding the bytes gives every datum's value, under its
    descriptor and packing, in order; the reader stops right behind the packed bits. *)
Theorem C59_round_trip : forall g ids ms cf itss w pad more e,
  parsed g ids ms -> cf_json cf = false -> cf_compressed cf = false ->
  cf_nsubsets cf = blen itss -> Forall (subset_data (cf_plat cf) ms) itss ->
  mapM_ write_item (written (concat itss)) new_bitwriter = (w, Ok tt) ->
  (blen w + blen pad) mod 8 = 0 ->
  exists s p, run_payload cf (root ms) (vst0 (RBit (new_bitreader (bw_output (w ++ pad) ++ more) e))) = (s, Ok tt) /\
    v_r s = RBit (mkBR (pad ++ bytes_bits more) e p) /\
    payload_values (v_pay s) = map values_of itss.
Proof.
  intros g ids ms cf itss w pad more e HP Hj Hc Hn HD Hw Ha. rewrite write_items_bits in Hw by (eapply all_fit; eassumption).
  injection Hw as Hw. cbn [new_bitwriter app] in Hw. unfold new_bitreader. rewrite output_bits, <- Hw by exact Ha.
  eapply uncompressed_round_trip; eassumption.
Qed.
Print Assumptions C59_round_trip.
(** Writing such data never fails. *)
Theorem C59_writing_succeeds : forall pl ms itss, Forall (subset_data pl ms) itss ->
  exists w, mapM_ write_item (written (concat itss)) new_bitwriter = (w, Ok tt).
Proof. intros pl ms itss H. eexists. apply write_items_bits. eapply all_fit; eassumption. Qed.
Print Assumptions C59_writing_succeeds.
(** Which factors count: code values as they are, and numbers of scale and reference zero
    (such as 031001 to 031012) up to 2^53. *)
Theorem C59_factors : forall pl info v, 0 <= v < 2 ^ 53 ->
  pi_unit info = NONNEG_CODE \/ pi_unit info = FLAG \/
  (pi_unit info = NUMERIC /\ pi_scale info = 0 /\ f64_nonzero (pi_refval info) = false) ->
  repeats pl (raw_value info (RNumber v)) (Z.to_nat v).
Proof.
  intros pl info v Hv H. unfold raw_value, value_of_number, repeats. destruct H as [->|[->|(-> & Hs & Hr)]].
  - cbn. eauto.
  - cbn. eauto.
  - unfold scaled. rewrite Hs, Hr. cbn [Z.eqb]. destruct (C61_float_exact pl v ltac:(lia)) as (x & Hx & _ & (q & Hq & _) & _ & Hu).
    cbn [FloatValue] in Hx. injection Hx as <-. split; [|exists v; split; [apply Hu; lia|reflexivity]]. cbn [equal_values].
    destruct (f64_of_Z v) as [s| s | |s m ex]; try discriminate Hq; [destruct s; reflexivity|].
    unfold SFcompare. destruct s; rewrite Z.compare_refl, Pos.compare_cont_refl; reflexivity.
Qed.
Print Assumptions C59_factors.

(** An example: associated fields, a sequence, a delayed replication with an operator in it,
    a string; two subsets of different shape. *)
Definition demo_tree (reps : list (list (dtree rawval))) : list (dtree rawval) :=
  [Group [Leaf [RNumber 7]]; Group [Leaf [RNumber 1; RNumber 9]; Leaf [RMissing; RNumber 5]]; Group [];
   Counted (Leaf [RNumber (blen reps)]) reps; Leaf [RString [97; 98; 99; 100]]].
Ltac number := unfold is_number; auto.
Ltac fit := cbn [snd]; split;
  [cbn; first [lia | split; [reflexivity|repeat constructor; unfold is_byte; lia]] | cbn; first [reflexivity | split; [number|lia]]].
Ltac carry_step :=
  first [ apply carry_nil | eapply carry_cons | apply carry_0 | eapply carry_S
        | eapply carry_element; [cbn; auto|reflexivity|
            match goal with |- Forall2 _ ?c _ => let c' := eval vm_compute in c in change c with c'; repeat first [apply Forall2_nil|apply Forall2_cons] end]
        | eapply carry_assoc; [vm_compute; intros; discriminate|]
        | eapply carry_sequence | apply carry_op; cbn; auto
        | eapply carry_delayed with (its0 := [])
        | match goal with |- _ = _ => reflexivity end ].
Example C59_example : exists its1 its2,
  parsed demo_group demo_nested (nodes_of demo_nested) /\
  Forall (subset_data pl0 (nodes_of demo_nested)) [its1; its2] /\
  written its1 = [IUint 7 6; IUint 1 3; IUint 9 7; IUint 7 3; IUint 5 10; IUint 2 8; IUint 77 20; IUint 1048575 20; IBytes [97; 98; 99; 100] 4] /\
  map snd (values_of its2) = [VUint 7; VUint 1; VFloat (f64_of_Z 9); VNil; VFloat (f64_of_Z 5); VFloat (f64_of_Z 0); VBytes [97; 98; 99; 100]].
Proof.
  eexists. eexists. split; [exists 30%nat; vm_compute; reflexivity|]. split.
  - constructor; [|constructor; [|constructor]].
    + exists (demo_tree [[Op; Leaf [RNumber 77]]; [Op; Leaf [RMissing]]]). eexists.
      remember (nodes_of demo_nested) as ms eqn:E. vm_compute in E. subst ms. unfold demo_tree.
      repeat carry_step; try (fit; fail). cbv beta. refine (C59_factors _ _ 2 _ _); [lia|right; right; repeat split].
    + exists (demo_tree []). eexists.
      remember (nodes_of demo_nested) as ms eqn:E. vm_compute in E. subst ms. unfold demo_tree.
      repeat carry_step; try (fit; fail). cbv beta. refine (C59_factors _ _ 0 _ _); [lia|right; right; repeat split].
  - split; vm_compute; reflexivity.
Qed.

(** C34.  The data of [n] subsets packed in any legal compressed form, and the same data
    packed subset by subset: both decode, to the same payload. *)
Theorem C34_compressed_same : forall g ids ms n its cm pl fuel wc wu rest rest' e p p',
  parsed g ids ms -> 0 < n -> compressed_data pl n ms its ->
  mapM_ write_item (written_columns its) new_bitwriter = (wc, Ok tt) ->
  mapM_ write_item (written (flat_map (fun k => lane k its) (seq 0 (Z.to_nat n)))) new_bitwriter = (wu, Ok tt) ->
  exists sc su q q',
    run_payload (mkConfig true false cm n pl fuel) (root ms) (vst0 (RBit (mkBR (wc ++ rest) e p))) = (sc, Ok tt) /\
    run_payload (mkConfig false false cm n pl fuel) (root ms) (vst0 (RBit (mkBR (wu ++ rest') e p'))) = (su, Ok tt) /\
    v_r sc = RBit (mkBR rest e q) /\ v_r su = RBit (mkBR rest' e q') /\
    payload_values (v_pay sc) = payload_values (v_pay su) /\
    payload_values (v_pay sc) = map (fun k => values_of (lane k its)) (seq 0 (Z.to_nat n)).
Proof.
  intros g ids ms n its cm pl fuel wc wu rest rest' e p p' HP Hn HD Hc Hu.
  assert (HL : Forall (subset_data pl ms) (map (fun k => lane k its) (seq 0 (Z.to_nat n)))).
  { apply Forall_map, Forall_forall. intros k Hk. apply in_seq in Hk. eapply lane_data; [|exact HD]. lia. }
  rewrite flat_map_concat_map in Hu.
  rewrite write_items_bits in Hc by (eapply columns_fit; eassumption). rewrite write_items_bits in Hu by (eapply all_fit; eassumption).
  injection Hc as Hc. injection Hu as Hu. cbn [new_bitwriter app] in Hc, Hu. subst wc wu.
  destruct (compressed_round_trip g ids ms (mkConfig true false cm n pl fuel) its rest e p HP eq_refl eq_refl Hn HD) as (sc & q & E1 & E2 & E3).
  destruct (uncompressed_round_trip g ids ms (mkConfig false false cm n pl fuel) (map (fun k => lane k its) (seq 0 (Z.to_nat n))) rest' e p' HP eq_refl eq_refl) as (su & q' & F1 & F2 & F3).
  { cbn. unfold blen. rewrite map_length, seq_length. lia. } { exact HL. }
  exists sc, su, q, q'. cbn [cf_nsubsets] in E3. rewrite map_map in F3. repeat (split; [eassumption|]). split; [congruence|exact E3].
Qed.
Print Assumptions C34_compressed_same.
Definition demo_grid : list Z := [301001; 101000; 31001; 12101; 1015].
Definition demo_grid_tree : list (dtree ccolumn) :=
  [Group [Leaf [mkCcol [RNumber 10; RNumber 11; RNumber 13] (RNumber 10) 3];
          Leaf [mkCcol [RNumber 5; RNumber 5; RNumber 5] (RNumber 5) 0]];
   Counted (Leaf [mkCcol [RNumber 2; RNumber 2; RNumber 2] (RNumber 1) 2])
     [[Leaf [mkCcol [RNumber 7; RMissing; RNumber 9] (RNumber 3) 4]];
      [Leaf [mkCcol [RMissing; RMissing; RMissing] RMissing 0]]];
   Leaf [mkCcol [RString [97; 98; 99; 100]; RString [97; 97; 97; 97]; RString [98; 98; 98; 98]] (RString [0; 0; 0; 0]) 4]].
Ltac fits_all := repeat first [apply Forall_nil | apply Forall_cons].
Ltac column_fit := cbn [snd]; split; [reflexivity|]; split; [cbn; lia|]; split; [cbn; lia|]; split; [fit|]; split; [fits_all; fit|];
  split; [cbn; unfold is_number; auto|]; cbn -[Z.pow]; first [fits_all; first [lia|reflexivity] | split; [fits_all; reflexivity|reflexivity]].
Example C34_payload_example : exists its, parsed demo_group demo_grid (nodes_of demo_grid) /\
  compressed_data pl0 3 (nodes_of demo_grid) its /\
  firstn 5 (written_columns its) = [IUint 10 7; IUint 3 6; IUint 0 3; IUint 1 3; IUint 3 3] /\
  map snd (values_of (lane 1 its)) =
    [VFloat (f64_of_Z 11); VFloat (f64_of_Z 5); VFloat (f64_of_Z 2); VNil; VNil; VBytes [97; 97; 97; 97]].
Proof.
  eexists. split; [exists 30%nat; vm_compute; reflexivity|]. split.
  - exists demo_grid_tree. eexists. remember (nodes_of demo_grid) as ms eqn:E. vm_compute in E. subst ms. unfold demo_grid_tree.
    repeat carry_step; try (column_fit; fail). exists (RNumber 2). split; [fits_all; reflexivity|].
    refine (C59_factors _ _ 2 _ _); [lia|right; right; repeat split].
  - split; vm_compute; reflexivity.
Qed.
