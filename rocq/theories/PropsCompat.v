(** Property theorems C62: compatible mode.  Vocabulary: SpecCompat.v. *)
From Verif Require Import SpecCompat Demo PropsTemplate PropsParser PropsJson PropsRun ProofsRun6 ProofsCompat3.

(** ** C62 *)
(** False in general: the zero cells take part in what later bitmaps refer to.  Here the
    zero bit of the second bitmap selects the measured 12101 cell without Compatible, and the
    zero cell of 236000 with it, which has no Table B entry. *)
Definition shifted : list Z :=
  [12101; 222000; 236000; 101001; 31031; 33007; 235000; 223000; 236000; 101003; 31031; 223255].
Theorem C62_refuted : exists g ids ms cf r s, parsed g ids ms /\
  ids = [12101; 222000; 236000; 101001; 31031; 33007; 235000; 223000; 236000; 101003; 31031; 223255] /\
  cf_json cf = false /\ cf_compatible cf = false /\ 0 < cf_nsubsets cf /\
  run_payload cf (root ms) (vst0 r) = (s, Ok tt) /\
  snd (run_payload (compatible cf) (root ms) (vst0 r)) = Panic PType.
Proof.
  exists demo_group, shifted, (nodes_of shifted), (demo_cf false false 1).
  exists (RBit (mkBR (bits 16 7 ++ bits 1 0 ++ bits 7 3 ++ bits 3 3 ++ bits 16 9) EEof 0)).
  eexists. split; [exists 30%nat; vm_compute; reflexivity|]. split; [reflexivity|]. split; [reflexivity|]. split; [reflexivity|].
  split; [reflexivity|]. split; [vm_compute; reflexivity|]. vm_compute. reflexivity.
Qed.
Print Assumptions C62_refuted.

(** True of templates all of whose bitmaps refer to the first assessment operator.  Decoding
    binary data succeeds in one mode exactly if it does in the other, and leaves the reader at
    the same place; the cells are the same, in order, but for their index and one zero for
    each operator 222000 223000 224000 225000 232000 236000 237000 executed. *)
Theorem C62_same_partial : forall g ids ms cf r, parsed g ids ms -> Forall simple ms -> one_reference ms ->
  cf_json cf = false -> cf_compatible cf = false -> some_subset cf ->
  (forall s, run_payload cf (root ms) (vst0 r) = (s, Ok tt) ->
     exists hs s', executes cf ms r hs (v_r s) /\ shows cf hs (v_pay s) /\
       run_payload (compatible cf) (root ms) (vst0 r) = (s', Ok tt) /\ v_r s' = v_r s /\
       zeros_in_subsets cf hs (v_pay s) (v_pay s')) /\
  (forall s', run_payload (compatible cf) (root ms) (vst0 r) = (s', Ok tt) ->
     exists s, run_payload cf (root ms) (vst0 r) = (s, Ok tt)).
Proof.
  intros g ids ms cf r Hp Hm Ho Hj Hc Hs. split.
  - intros s H. destruct (compat_payload g ids ms cf r Hp Hm Hj Hc Hs s H) as (hs & X & S & K).
    destruct (K (one_reference_short _ _ _ _ _ X Ho)) as (s' & E & Er & Z). exists hs, s'. auto.
  - intros s' H. destruct (compat_payload_back g ids ms cf r Hp Hm Hj Hc Hs s' H) as (hs & X & S & K).
    destruct (K (one_reference_short _ _ _ _ _ X Ho)) as (s & E & _). eauto.
Qed.
Print Assumptions C62_same_partial.
(** More generally it depends only on how far back the bitmaps reach. *)
Theorem C62_short_partial : forall g ids ms cf r s, parsed g ids ms -> Forall simple ms ->
  cf_json cf = false -> cf_compatible cf = false -> some_subset cf ->
  run_payload cf (root ms) (vst0 r) = (s, Ok tt) ->
  exists hs, executes cf ms r hs (v_r s) /\ shows cf hs (v_pay s) /\
    (Forall short_bitmaps hs -> exists s', run_payload (compatible cf) (root ms) (vst0 r) = (s', Ok tt) /\
       v_r s' = v_r s /\ zeros_in_subsets cf hs (v_pay s) (v_pay s')).
Proof. intros g ids ms cf r s Hp Hm Hj Hc Hs. now apply (compat_payload g ids). Qed.
Print Assumptions C62_short_partial.
(** Both hold of the bitmap template of C46, in both forms of data. *)
Lemma demo_bitmaps_ok : Forall simple (nodes_of demo_bitmaps) /\ one_reference (nodes_of demo_bitmaps).
Proof.
  split; [|split; [|split]].
  - vm_compute. repeat constructor; try (right; reflexivity); try (left; reflexivity); try discriminate.
  - vm_compute. repeat constructor; discriminate.
  - vm_compute. repeat constructor; discriminate.
  - vm_compute. do 2 eexists. split; reflexivity.
Qed.
Example C62_example : parsed demo_group demo_bitmaps (nodes_of demo_bitmaps) /\
  Forall simple (nodes_of demo_bitmaps) /\ one_reference (nodes_of demo_bitmaps) /\
  (exists s, demo_run (demo_cf false false 1) demo_bitmaps demo_bitmap_bits = (s, Ok tt) /\
     cell_ids s = [[1001; 1002; 8002; 31031; 31031; 31031; 33007; 8023; 224255; 224255]]) /\
  (exists s, demo_run (compatible (demo_cf false false 1)) demo_bitmaps demo_bitmap_bits = (s, Ok tt) /\
     cell_ids s = [[1001; 1002; 8002; 222000; 236000; 31031; 31031; 31031; 33007; 224000; 237000; 8023; 224255; 224255]]).
Proof.
  split; [exists 30%nat; vm_compute; reflexivity|]. split; [apply demo_bitmaps_ok|]. split; [apply demo_bitmaps_ok|].
  split; (eexists; split; vm_compute; reflexivity).
Qed.
