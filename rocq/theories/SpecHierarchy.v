(** Vocabulary for C92: walking the hierarchical view. *)
From Verif Require Export SpecRun.

(** Node [j] is among Members() of node [i]. *)
Definition member_of (h : list hnode) (i j : nat) : Prop := exists n, nth_error h i = Some n /\ In (Some j) (h_members n).
(** A walk of [k] steps from member to member, starting at node [i]. *)
Fixpoint walk (h : list hnode) (k : nat) (i : nat) : Prop :=
  match k with O => True | S k' => exists j, member_of h i j /\ walk h k' j end.
(** No walk from the root goes on for ever, so whoever follows Members() gets to an end. *)
Definition walkable (sb : subset) : Prop := exists bound, forall i k, walk (sb_heap sb) k i -> (k <= bound)%nat.
(** There are walks of every length. *)
Definition endless (sb : subset) : Prop := forall k, walk (sb_heap sb) k (sb_root sb).
(** Neither quality information nor statistics nor substituted values (222-225, 232). *)
Definition no_assessment (n : anode) : Prop := all_nodes (fun n => an_kind n <> KAssessment) n.
