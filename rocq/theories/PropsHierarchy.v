(** C92: whether the hierarchical view of a decoded message can be walked to its end. *)
From Verif Require Import ProofsHierarchy ProofsRun6 Demo PropsParser PropsTable.
From Verif Require Export SpecHierarchy SpecSafe PropsRun.
From Verif Require Import PropsSafe.

(** ** C92 *)
(** Whatever the bits: without quality or statistics operators, following Members() ends after
    at most two steps per node of the subset, from whichever node one starts. *)
Theorem C92_ends_partial : forall g ids ms cf r s, parsed g ids ms -> Forall no_assessment ms ->
  run_payload cf (root ms) (vst0 r) = (s, Ok tt) -> forall sb, In sb (v_pay s) ->
  forall i k, walk (sb_heap sb) k i -> (k <= 2 * length (sb_heap sb))%nat.
Proof.
  intros g ids ms cf r s HP HN H sb Hsb. pose proof (parsed_no_base _ _ _ HP) as HB.
  assert (HA : Forall (all_nodes (fun n => plain_kind (an_kind n))) ms).
  { rewrite Forall_forall in *. intros n Hn. apply (all_nodes_and _ _ n (HN n Hn) (HB n Hn)). }
  pose proof (walk_payload cf ms r s HA H) as G. rewrite Forall_forall in G. exact (G sb Hsb).
Qed.
Print Assumptions C92_ends_partial.
Theorem C92_walkable_partial : forall g ids ms cf r s, parsed g ids ms -> Forall no_assessment ms ->
  run_payload cf (root ms) (vst0 r) = (s, Ok tt) -> Forall walkable (v_pay s).
Proof.
  intros g ids ms cf r s HP HN H. apply Forall_forall. intros sb Hsb. exists (2 * length (sb_heap sb))%nat. intros i k. exact (C92_ends_partial g ids ms cf r s HP HN H sb Hsb i k).
Qed.
Print Assumptions C92_walkable_partial.
(** No node is its own member, directly or through others. *)
Theorem C92_no_cycle_partial : forall g ids ms cf r s, parsed g ids ms -> Forall no_assessment ms ->
  run_payload cf (root ms) (vst0 r) = (s, Ok tt) -> forall sb i, In sb (v_pay s) ->
  ~ Relation_Operators.clos_trans nat (member_of (sb_heap sb)) i i.
Proof.
  intros g ids ms cf r s HP HN H sb i Hsb HC.
  assert (L : forall a b, Relation_Operators.clos_trans nat (member_of (sb_heap sb)) a b -> forall k, walk (sb_heap sb) k b -> walk (sb_heap sb) (S k) a).
  { assert (W : forall k a, walk (sb_heap sb) (S k) a -> walk (sb_heap sb) k a) by (induction k as [|k IH]; intros a Ha; [exact I|]; destruct Ha as (b & H1 & H2); exists b; split; [exact H1|now apply IH]).
    intros a b Hab. induction Hab as [a b Hab|a b c _ IH1 _ IH2]; intros k Hk; [exists b; now split|]. apply IH1, W, IH2, Hk. }
  assert (A : forall k, walk (sb_heap sb) k i) by (induction k as [|k IH]; [exact I|exact (L i i HC k IH)]).
  pose proof (C92_ends_partial g ids ms cf r s HP HN H sb Hsb i _ (A (S (2 * length (sb_heap sb))))). lia.
Qed.
Print Assumptions C92_no_cycle_partial.

(** With quality information on a 031021 the view need not be a tree: 031021 becomes the target
    of the bitmap, the associated field of 033007 its attribute, and 031021 the meaning of that
    associated field. *)
Definition circular := [204002; 31021; 1001; 222000; 236000; 101003; 31031; 33007; 204000].
Definition circular_bits := bits 6 0 ++ bits 2 0 ++ bits 7 0 ++ bits 3 2 ++ bits 30 0.
(** Computed check: one subset, root 0, and the given members. *)
Definition has (h : list hnode) (p : nat * nat) : bool :=
  match nth_error h (fst p) with Some n => existsb (fun o => match o with Some j => Nat.eqb j (snd p) | None => false end) (h_members n) | None => false end.
Definition check (l : list (nat * nat)) (o : vst * res unit) : bool :=
  match o with
  | (s, Ok tt) => match v_pay s with [sb] => Nat.eqb (sb_root sb) 0 && forallb (has (sb_heap sb)) l | _ => false end
  | _ => false
  end.
Lemma has_ok h i j : has h (i, j) = true -> member_of h i j.
Proof.
  unfold has. cbn [fst snd]. destruct (nth_error h i) as [n|] eqn:E; [|discriminate]. intros H. apply existsb_exists in H. destruct H as ([x|] & H1 & H2); [|discriminate].
  apply Nat.eqb_eq in H2. subst x. now exists n.
Qed.
Lemma check_ok l o : check l o = true -> exists s sb, o = (s, Ok tt) /\ v_pay s = [sb] /\ sb_root sb = 0%nat /\ forall i j, In (i, j) l -> member_of (sb_heap sb) i j.
Proof.
  unfold check. destruct o as [s [[]|e|q|]]; try discriminate. destruct (v_pay s) as [|sb [|]] eqn:E; try discriminate. intros H. apply andb_prop in H. destruct H as [H1 H2].
  exists s, sb. split; [reflexivity|]. split; [exact E|]. split; [now apply Nat.eqb_eq|]. intros i j Hij. rewrite forallb_forall in H2. apply has_ok, H2, Hij.
Qed.
Theorem C92_refuted : exists g ids ms cf l s sb, loaded_tables g /\ parsed g ids ms /\ cf_json cf = false /\ cf_compressed cf = false /\
  run_payload cf (root ms) (vst0 (RBit (mkBR l EEof 0))) = (s, Ok tt) /\ v_pay s = [sb] /\ endless sb /\ ~ walkable sb.
Proof.
  assert (HC : check [(0, 2); (2, 14); (14, 2)]%nat (run_payload (demo_cf false false 1) (root (nodes_of circular)) (vst0 (RBit (mkBR circular_bits EEof 0)))) = true) by (vm_compute; reflexivity).
  apply check_ok in HC. destruct HC as (s & sb & E & H1 & H2 & HM). exists demo_group, circular, (nodes_of circular), (demo_cf false false 1), circular_bits, s, sb.
  assert (H3 : member_of (sb_heap sb) 0 2) by (apply HM; cbn; auto). assert (H4 : member_of (sb_heap sb) 2 14) by (apply HM; cbn; auto).
  assert (H5 : member_of (sb_heap sb) 14 2) by (apply HM; cbn; auto). clear HM.
  split; [exact demo_loaded|]. split; [exists 30%nat; vm_compute; reflexivity|].
  split; [reflexivity|]. split; [reflexivity|]. split; [exact E|]. split; [exact H1|].
  assert (W : forall k, walk (sb_heap sb) k 2 /\ walk (sb_heap sb) k 14).
  { induction k as [|k [IH1 IH2]]; [split; exact I|]. split; [exists 14%nat; now split|exists 2%nat; now split]. }
  split.
  - intros [|k]; [exact I|]. rewrite H2. exists 2%nat. split; [exact H3|apply W].
  - intros [b Hb]. pose proof (Hb 2%nat (S b) (proj1 (W (S b)))). lia.
Qed.
Print Assumptions C92_refuted.

(** Associated fields alone: 001001 has its associated field as member and that has 031021. *)
Definition annotated := [204002; 31021; 1001; 1002; 204000].
Definition annotated_bits := bits 6 1 ++ bits 2 1 ++ bits 7 9 ++ bits 2 3 ++ bits 10 8 ++ bits 30 0.
Lemma annotated_plain : Forall no_assessment (nodes_of annotated).
Proof. let l := eval vm_compute in (nodes_of annotated) in assert (E : nodes_of annotated = l) by (vm_compute; reflexivity). rewrite E. clear E. unfold no_assessment. repeat (constructor || discriminate || split). Qed.
Example C92_example : exists s sb, run_payload (demo_cf false false 1) (root (nodes_of annotated)) (vst0 (RBit (mkBR annotated_bits EEof 0))) = (s, Ok tt) /\ v_pay s = [sb] /\ walkable sb /\
  member_of (sb_heap sb) 0 4 /\ member_of (sb_heap sb) 4 3 /\ member_of (sb_heap sb) 3 2 /\ member_of (sb_heap sb) 0 2.
Proof.
  assert (HC : check [(0, 4); (4, 3); (3, 2); (0, 2)]%nat (run_payload (demo_cf false false 1) (root (nodes_of annotated)) (vst0 (RBit (mkBR annotated_bits EEof 0)))) = true) by (vm_compute; reflexivity).
  apply check_ok in HC. destruct HC as (s & sb & E & H1 & _ & HM). exists s, sb. split; [exact E|]. split; [exact H1|]. split.
  - assert (HP : parsed demo_group annotated (nodes_of annotated)) by (exists 30%nat; vm_compute; reflexivity).
    pose proof (C92_walkable_partial demo_group annotated (nodes_of annotated) (demo_cf false false 1) (RBit (mkBR annotated_bits EEof 0)) s HP annotated_plain) as G. specialize (G E). rewrite H1 in G. now inversion G.
  - split; [|split; [|split]]; apply HM; cbn; auto.
Qed.
