(** Vocabulary for dumping and linting parsed templates (C63, C64). *)
From Verif Require Export SpecParser.

(** What is shown below a node, in order: the bitmap and the attributes of an assessment,
    then the members; the factor of a delayed replication is shown with its node. *)
Definition shown_below (n : anode) : list anode :=
  match n with
  | ANode KAssessment _ ms b at_ => match b with Some b => [b] | None => [] end ++ at_ ++ ms
  | ANode KDelayed _ ms _ _ => tl ms
  | ANode _ _ ms _ _ => ms
  end.
Definition factor (n : anode) : list anode :=
  match n with ANode KDelayed _ ms _ _ => firstn 1 ms | _ => [] end.

(** A line of a dump: depth, descriptor, node type (none for a factor). *)
Definition dline : Type := (nat * option descriptor * option akind)%type.
(** [dumped depth n ls]: the lines of [n] at [depth]. *)
Inductive dumped : nat -> anode -> list dline -> Prop :=
| Dumped depth n lss : Forall2 (dumped (S depth)) (shown_below n) lss ->
    dumped depth n ((depth, an_desc n, Some (an_kind n))
                      :: map (fun f => (depth, an_desc f, None)) (factor n) ++ concat lss).
(** What is written for a line: the indentation, then the text. *)
Definition written (l : dline) : list adpiece :=
  let '(depth, d, k) := l in [WPrefix depth; WLine d k].

(** All nodes of a tree in preorder. *)
Fixpoint preorder (n : anode) : list anode :=
  match n with
  | ANode k d ms b at_ =>
      n :: match b with Some b => preorder b | None => [] end ++ flat_map preorder at_ ++ flat_map preorder ms
  end.
(** The factor of every delayed replication is a single node. *)
Definition plain_factors (n : anode) : Prop :=
  all_nodes (fun m => Forall (fun f => preorder f = [f]) (factor m)) n.

(** A writer that fails at no write, or first at the [i]-th one. *)
Definition writes_ok (w : nat -> option err) (from n : nat) : Prop :=
  forall i, (i < n)%nat -> w (from + i)%nat = None.
Definition first_failure (w : nat -> option err) (from i : nat) (e : err) : Prop :=
  w (from + i)%nat = Some e /\ writes_ok w from i.
