(** Property theorem C69, compressed data: everything a decoder accepts, legal packing or not.
    Vocabulary: SpecPlan.v, SpecColumns.v. *)
From Verif Require Import ProofsPlan4 ProofsBitProps ProofsBits Demo PropsParser PropsRun PropsPlan.
From Verif Require Export SpecColumns.
From Coq Require Import Lia ZifyBool ZifyNat.

(** C69, compressed.  Columns of any readable kind laid out for the template decode, row by row,
    to the values they mean; the reader stops right behind them. *)
Theorem C69_any_columns : forall g ids ms cf its rest e p,
  parsed g ids ms -> cf_json cf = false -> cf_compressed cf = true -> 0 < cf_nsubsets cf -> filled cf ms its ->
  exists s p', run_payload cf (root ms) (vst0 (RBit (mkBR (flat_map (fun it => column_bits (snd it)) its ++ rest) e p))) = (s, Ok tt) /\
    v_r s = RBit (mkBR rest e p') /\
    payload_values (v_pay s) = map (row (cf_nsubsets cf) its) (seq 0 (Z.to_nat (cf_nsubsets cf))).
Proof. intros. eapply filled_decodes; eassumption. Qed.
Print Assumptions C69_any_columns.
(** The converse: compressed data that decode are such columns, and nothing else. *)
Theorem C69_only_columns : forall g ids ms cf r l s,
  parsed g ids ms -> cf_json cf = false -> cf_compressed cf = true -> 0 < cf_nsubsets cf -> binary_reader r l ->
  run_payload cf (root ms) (vst0 r) = (s, Ok tt) ->
  (forall sb c, In sb (v_pay s) -> In c (sb_cells sb) -> ordinary (vn_info (c_node c))) ->
  exists its rest, filled cf ms its /\ l = flat_map (fun it => column_bits (snd it)) its ++ rest /\ binary_reader (v_r s) rest /\
    payload_values (v_pay s) = map (row (cf_nsubsets cf) its) (seq 0 (Z.to_nat (cf_nsubsets cf))).
Proof. intros. eapply decoded_filled; eassumption. Qed.
Print Assumptions C69_only_columns.

(** A column no encoder following the rules writes: seven bit numbers with the minimum 120 and
    the increments 9 and missing.  It decodes to 129, which has no seven bit form, and nil. *)
Definition demo_overflow : list (placed column) :=
  [(demo_desc 1001, mkInfo NUMERIC 0 (S754_zero false) 7, mkColumn (bits 7 120) (bits 6 4) [bits 4 9; bits 4 15])].
Example C69_overflow : parsed demo_group [1001] (nodes_of [1001]) /\ filled (demo_cf true false 2) (nodes_of [1001]) demo_overflow /\
  map (row 2 demo_overflow) [0; 1]%nat =
    [[(demo_desc 1001, mkInfo NUMERIC 0 (S754_zero false) 7, VFloat (f64_of_Z 129))]; [(demo_desc 1001, mkInfo NUMERIC 0 (S754_zero false) 7, VNil)]] /\
  exists s, run_payload (demo_cf true false 2) (root (nodes_of [1001])) (vst0 (RBit (mkBR (bits 7 120 ++ bits 6 4 ++ bits 4 9 ++ bits 4 15) EEof 0))) = (s, Ok tt) /\
    payload_values (v_pay s) = map (row 2 demo_overflow) [0; 1]%nat /\
    forall sb c, In sb (v_pay s) -> In c (sb_cells sb) -> ordinary (vn_info (c_node c)).
Proof.
  assert (HP : parsed demo_group [1001] (nodes_of [1001])) by (exists 30%nat; vm_compute; reflexivity).
  assert (HF : filled (demo_cf true false 2) (nodes_of [1001]) demo_overflow).
  { split.
    - remember (nodes_of [1001]) as ms eqn:E. vm_compute in E. subst ms. eexists. split.
      + eapply lay_cons; [|apply lay_nil]. eapply lay_element; [reflexivity|vm_compute; constructor|].
        match goal with |- holds ?d ?i ?x => let i' := eval vm_compute in i in unify x (planned d i' [VFloat (f64_of_Z 129); VNil]); exists [VFloat (f64_of_Z 129); VNil]; vm_compute; reflexivity end.
      + vm_compute. reflexivity.
    - constructor; [|constructor]. split; [unfold ordinary; cbn; lia|]. cbn. vm_compute. repeat split; try (intros; discriminate). repeat constructor. }
  split; [exact HP|]. split; [exact HF|]. split; [vm_compute; reflexivity|].
  eexists. split; [vm_compute; reflexivity|]. split; [vm_compute; reflexivity|].
  intros sb c Hi Hc. cbn in Hi. repeat (destruct Hi as [<-|Hi]; [cbn in Hc; repeat (destruct Hc as [<-|Hc]; [unfold ordinary; cbn; lia|]); destruct Hc|]). destruct Hi.
Qed.
(** A local field that is missing in both subsets, and the numbers 3 and 4. *)
Definition missing_local : list Z := [206008; 63255; 1001].
Definition missing_local_bits : list bool := bits 8 133 ++ bits 6 2 ++ bits 2 3 ++ bits 2 3 ++ bits 7 3 ++ bits 6 2 ++ bits 2 0 ++ bits 2 1.
Example C69_missing_local : exists s, parsed demo_group missing_local (nodes_of missing_local) /\
  run_payload (demo_cf true false 2) (root (nodes_of missing_local)) (vst0 (RBit (mkBR missing_local_bits EEof 0))) = (s, Ok tt) /\
  map (map snd) (payload_values (v_pay s)) = [[VNil; VFloat (f64_of_Z 3)]; [VNil; VFloat (f64_of_Z 4)]] /\
  exists its, filled (demo_cf true false 2) (nodes_of missing_local) its /\ flat_map (fun it => column_bits (snd it)) its = missing_local_bits /\
    payload_values (v_pay s) = map (row 2 its) [0; 1]%nat.
Proof.
  assert (HP : parsed demo_group missing_local (nodes_of missing_local)) by (exists 30%nat; vm_compute; reflexivity).
  destruct (run_payload (demo_cf true false 2) (root (nodes_of missing_local)) (vst0 (RBit (mkBR missing_local_bits EEof 0)))) as [s x] eqn:E.
  pose proof E as E2. vm_compute in E2. injection E2 as Es Ex. exists s. split; [exact HP|]. split; [now rewrite <- Ex|]. split; [now rewrite <- Es|].
  destruct (C69_only_columns demo_group missing_local (nodes_of missing_local) (demo_cf true false 2) (RBit (mkBR missing_local_bits EEof 0)) missing_local_bits s HP eq_refl eq_refl eq_refl) as (its & rest & H1 & H2 & H3 & H4).
  - now exists EEof, 0.
  - now rewrite E, <- Ex.
  - rewrite <- Es. intros sb c Hi Hc. cbn in Hi. repeat (destruct Hi as [<-|Hi]; [cbn in Hc; repeat (destruct Hc as [<-|Hc]; [unfold ordinary; cbn; lia|]); destruct Hc|]). destruct Hi.
  - exists its. split; [exact H1|]. split; [|exact H4]. destruct H3 as (e & p & H3). rewrite <- Es in H3. cbn in H3. injection H3 as <- _ _. now rewrite app_nil_r in H2.
Qed.
