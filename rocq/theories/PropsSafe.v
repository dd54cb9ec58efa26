(** C65: decoding ends with subsets or an error. *)
From Verif Require Import ProofsSafe2 ProofsRun6 ProofsTable Demo PropsParser PropsTable.
From Verif Require Export SpecSafe PropsRun.

(** ** C65 *)
(** No panic, and (no loop of the decoder being without a bound) an end: whatever the bits. *)
Theorem C65_no_crash : forall g ids ms cf l e p, loaded_tables g -> parsed g ids ms ->
  plain_template (cf_compressed cf) ms -> cf_json cf = false -> some_subset cf ->
  exists s, run_payload cf (root ms) (vst0 (RBit (mkBR l e p))) = (s, Ok tt) \/
    exists er, run_payload cf (root ms) (vst0 (RBit (mkBR l e p))) = (s, Err er).
Proof.
  intros g ids ms cf l e p Hg Hp [Hc Ht] Hj Hs.
  destruct (run_is_safe cf Hj false) with (ms := ms) (s := vst0 (RBit (mkBR l e p))) as (s & H).
  - intros Hcc. apply Hs. unfold columns. now rewrite Hcc, Hj.
  - eapply plain_safe; eauto. discriminate.
  - exact Hc.
  - cbn. eauto.
  - discriminate.
  - exists s. tauto.
Qed.
Print Assumptions C65_no_crash.
(** For every template: if the bits [l ++ more] are consumed when they are all there, then [l]
    alone never decodes, unless a local field comes out as nil. *)
Theorem C65_cut_off : forall g ids ms cf l more rest e e' p p' s s', parsed g ids ms -> cf_json cf = false -> some_subset cf ->
  run_payload cf (root ms) (vst0 (RBit (mkBR (l ++ more ++ rest) e p))) = (s, Ok tt) ->
  binary_reader (v_r s) rest -> more <> [] ->
  run_payload cf (root ms) (vst0 (RBit (mkBR l e' p'))) = (s', Ok tt) ->
  ~ forall sb c, In sb (v_pay s') -> In c (sb_cells sb) -> c_val c <> VBin None.
Proof.
  intros g ids ms cf l more rest e e' p p' s s' Hp Hj Hs H1 H2 Hm H3 HC.
  refine (prefix_fails cf Hj ms l more rest e e' p p' s s' (parsed_rootless _ _ _ Hp) Hs Hm H1 H2 H3 _).
  apply Forall_forall. intros sb Hi. apply Forall_forall. intros c Hi'. eauto.
Qed.
Print Assumptions C65_cut_off.
(** Hence an error, if there are no local fields. *)
Theorem C65_truncation_partial : forall g ids ms cf l more rest e e' p p' s, loaded_tables g -> parsed g ids ms ->
  plain_template (cf_compressed cf) ms -> without_206 ms -> cf_json cf = false -> some_subset cf ->
  run_payload cf (root ms) (vst0 (RBit (mkBR (l ++ more ++ rest) e p))) = (s, Ok tt) ->
  binary_reader (v_r s) rest -> more <> [] ->
  exists s' er, run_payload cf (root ms) (vst0 (RBit (mkBR l e' p'))) = (s', Err er).
Proof.
  intros g ids ms cf l more rest e e' p p' s Hg Hp [Hc Ht] Hl Hj Hs H1 H2 Hm.
  destruct (run_is_safe cf Hj true) with (ms := ms) (s := vst0 (RBit (mkBR l e' p'))) as (s' & [[H3 H4]|[er H]]).
  - intros Hcc. apply Hs. unfold columns. now rewrite Hcc, Hj.
  - eapply plain_safe; eauto.
  - exact Hc.
  - cbn. eauto.
  - intros _. constructor.
  - exfalso. exact (prefix_fails cf Hj ms l more rest e e' p p' s s' (parsed_rootless _ _ _ Hp) Hs Hm H1 H2 H3 (H4 eq_refl)).
  - exists s', er. exact H.
Qed.
Print Assumptions C65_truncation_partial.
(** The tables and templates of the examples. *)
Lemma demo_loaded : loaded_tables demo_group.
Proof.
  intros id d e HL HE. pose proof (C16_kind_follows_F _ _ _ HL) as (_ & _ & K). rewrite HE in K. destruct K as (_ & s & [<-|[]] & Hb). cbn [s_b] in Hb.
  repeat (cbn [assoc_get] in Hb; destruct (Z.eqb _ _) in Hb; [injection Hb as <-; cbn; split; [discriminate|tauto]|]). discriminate.
Qed.
Definition demo_plain : list Z :=
  [301001; 201132; 12101; 201000; 204008; 31021; 1015; 204000; 205002; 207001; 12101; 207000; 102000; 31001; 8002; 20011; 101002; 208002; 1015].
Definition demo_plain_bits : list bool :=
  bits 7 9 ++ bits 10 513 ++ bits 20 70000 ++ bits 6 1 ++ bits 8 200 ++ bits 32 1094861636 ++ bits 16 20304 ++
  bits 20 99 ++ bits 8 2 ++ bits 6 3 ++ bits 4 5 ++ bits 6 2 ++ bits 4 7 ++ bits 16 21064.
Lemma all_node (P : anode -> Prop) k d ms b a : P (ANode k d ms b a) -> Forall (all_nodes P) ms ->
  match b with Some x => all_nodes P x | None => True end -> Forall (all_nodes P) a -> all_nodes P (ANode k d ms b a).
Proof. intros. apply ProofsParser3.all_nodes_eq. auto. Qed.
Ltac walk tac := repeat first [ apply Forall_nil | apply Forall_cons | exact I | apply all_node; [tac| | |] ].
Ltac plain_tac :=
  split; [eexists; split; [reflexivity|split; [reflexivity|let H := fresh in intros H; try discriminate H; vm_compute; intros; discriminate]]|];
  split; [vm_compute; repeat split; repeat constructor|];
  let d := fresh in let H := fresh in intros d H; injection H as <-; let F := fresh in let X := fresh in intros F X;
    vm_compute in F, X; try discriminate F; try discriminate X; do 3 eexists; repeat split; intros; discriminate.
Lemma demo_plain_ok c : plain_template c (nodes_of demo_plain) /\ without_206 (nodes_of demo_plain).
Proof.
  remember (nodes_of demo_plain) as ms eqn:E. vm_compute in E. subst ms. split.
  - split; [vm_compute; repeat split; repeat constructor|walk plain_tac].
  - unfold without_206. walk ltac:(let d := fresh in let H := fresh in intros d H; injection H as <-; vm_compute; intros; discriminate).
Qed.
Example C65_example : loaded_tables demo_group /\ parsed demo_group demo_plain (nodes_of demo_plain) /\
  plain_template false (nodes_of demo_plain) /\ without_206 (nodes_of demo_plain) /\
  (exists s, demo_run (demo_cf false false 1) demo_plain (demo_plain_bits ++ [true]) = (s, Ok tt) /\ binary_reader (v_r s) [true] /\
     cell_ids s = [[1001; 1002; 12101; 31021; 1015; 1015; 205002; 12101; 31001; 8002; 20011; 8002; 20011; 1015]]) /\
  (exists s er, demo_run (demo_cf false false 1) demo_plain (firstn 162 demo_plain_bits) = (s, Err er)).
Proof.
  split; [exact demo_loaded|]. split; [exists 30%nat; vm_compute; reflexivity|]. split; [exact (proj1 (demo_plain_ok false))|]. split; [exact (proj2 (demo_plain_ok false))|].
  split; [eexists; split; [vm_compute; reflexivity|]; split; [vm_compute; do 2 eexists; reflexivity|vm_compute; reflexivity]|].
  do 2 eexists. vm_compute. reflexivity.
Qed.
(** With one it is false: the end of the stream inside a local field is not noticed. *)
Theorem C65_truncation_refuted : exists g ids ms cf l more s s', loaded_tables g /\ parsed g ids ms /\
  plain_template (cf_compressed cf) ms /\ cf_json cf = false /\ more <> [] /\
  run_payload cf (root ms) (vst0 (RBit (mkBR (l ++ more) EEof 0))) = (s, Ok tt) /\ binary_reader (v_r s) [] /\
  run_payload cf (root ms) (vst0 (RBit (mkBR l EEof 0))) = (s', Ok tt).
Proof.
  exists demo_group, [1001; 206008; 63255], (nodes_of [1001; 206008; 63255]), (demo_cf false false 1), (bits 7 9 ++ bits 3 5), (bits 5 1).
  eexists. eexists. split; [exact demo_loaded|]. split; [exists 30%nat; vm_compute; reflexivity|].
  split. { remember (nodes_of _) as ms eqn:E. vm_compute in E. subst ms. split; [vm_compute; repeat split; repeat constructor|walk plain_tac]. }
  split; [reflexivity|]. split; [discriminate|]. split; [vm_compute; reflexivity|]. split; [vm_compute; do 2 eexists; reflexivity|]. vm_compute. reflexivity.
Qed.
Print Assumptions C65_truncation_refuted.
(** The conditions on templates matter: 204000 without 204YYY, a replication factor that is
    not an element, 203YYY. (For 206YYY in compressed data see C10: the loop of
    NewBinaryFromUint does not end.) *)
Example C65_conditions : forall l,
  snd (demo_run (demo_cf false false 1) [204000] l) = Panic PIndex /\
  snd (demo_run (demo_cf false false 1) [101000; 201129; 1001] l) = Panic PIndex /\
  (exists ids, snd (demo_run (demo_cf false false 1) ids (bits 16 7)) = Panic PNilMap).
Proof.
  intros l. split; [vm_compute; reflexivity|]. split; [vm_compute; reflexivity|]. exists [203010; 12101; 203255]. vm_compute. reflexivity.
Qed.
