(** Vocabulary for C86: what the caller of Walk sees of an execution. *)
From Verif Require Export ModelWalkers SpecTemplate.

(** The events the caller has received and the counts it has sent. *)
Definition received (tr : list action) : list event :=
  flat_map (fun a => match a with Receive e => [e] | _ => [] end) tr.
Definition sent (tr : list action) : list Z :=
  flat_map (fun a => match a with Supply n => [n] | _ => [] end) tr.
(** How many goroutines are still there. *)
Definition alive (s : list walker) : nat :=
  length (filter (fun w => match w with Live _ _ => true | Ended => false end) s).
(** Nothing is left but the closed channel: the caller's loop over it ends. *)
Definition over (s : list walker) : Prop := s = [Ended].
(** How deep descriptors are nested. *)
Fixpoint levels (n : tnode) : nat :=
  match n with TNode _ _ ms => S (fold_right (fun m k => Nat.max (levels m) k) O ms) end.
Definition depth (members : list tnode) : nat := fold_right (fun m k => Nat.max (levels m) k) O members.
Definition is_factor (e : event) : bool := match e with (WE_FACTOR, _) => true | _ => false end.
