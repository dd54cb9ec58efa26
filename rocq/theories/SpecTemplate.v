(** Small specification of template expansion and walking (C21, C22). *)
From Verif Require Export ModelTemplate.

(** [expansion_of g ids nodes]: [nodes] is the hierarchical form of the flat list [ids]. *)
Inductive expansion_of (g : group) : list Z -> list tnode -> Prop :=
| ExNil : expansion_of g [] []
| ExPlain id d rest more :      (* an element or an operator stands for itself *)
    Lookup g id = Ok d -> id_F id <> 1 -> id_F id <> 3 ->
    expansion_of g rest more ->
    expansion_of g (id :: rest) (TNode d None [] :: more)
| ExSequence id d ms members rest more :   (* a sequence holds its Table D definition *)
    Lookup g id = Ok d -> id_F id = 3 -> d_entry d = ED ms ->
    expansion_of g ms members -> expansion_of g rest more ->
    expansion_of g (id :: rest) (TNode d None members :: more)
| ExFixed id d block members rest more :   (* 1XXYYY holds the next X identifiers *)
    Lookup g id = Ok d -> id_F id = 1 -> id_Y id <> 0 ->
    Z.of_nat (length block) = id_X id ->
    expansion_of g block members -> expansion_of g rest more ->
    expansion_of g (id :: block ++ rest) (TNode d None members :: more)
| ExDelayed id d fid fd block members rest more :  (* 1XX000: a factor, then X identifiers *)
    Lookup g id = Ok d -> id_F id = 1 -> id_Y id = 0 -> Lookup g fid = Ok fd ->
    Z.of_nat (length block) = id_X id ->
    expansion_of g block members -> expansion_of g rest more ->
    expansion_of g (id :: fid :: block ++ rest) (TNode d (Some fd) members :: more).

(** Back to a flat list: a sequence counts as its own identifier, a replication as its
    identifier, its factor and its members. *)
Fixpoint flatten (n : tnode) : list Z :=
  match n with
  | TNode d factor members =>
      d_id d :: (if id_F (d_id d) =? 3 then []
                 else match factor with Some f => [d_id f] | None => [] end
                      ++ flat_map flatten members)
  end.
(** Every replication, at any depth, holds exactly the number of identifiers it announces. *)
Fixpoint covers_exactly (n : tnode) : Prop :=
  match n with
  | TNode d _ members =>
      (id_F (d_id d) = 1 -> Z.of_nat (length (flat_map flatten members)) = id_X (d_id d)) /\
      fold_right (fun m P => covers_exactly m /\ P) True members
  end.

(** ** Walking *)

(** [walks ch counts n evs]: [evs] is a complete walk of [n] during which exactly [counts]
    is received, with ([ch = true]) or without a replication-count channel. *)
Inductive walks (ch : bool) : list Z -> tnode -> list event -> Prop :=
| WkElement d f ms : id_F (d_id d) = 0 ->
    walks ch [] (TNode d f ms) [(WE_ELEMENT_DESCRIPTOR, Some d)]
| WkOperator d f ms : id_F (d_id d) = 2 ->
    walks ch [] (TNode d f ms) [(WE_OPERATOR_DESCRIPTOR, Some d)]
| WkSequence d f ms counts evs : id_F (d_id d) = 3 ->
    walks_list ch counts ms evs ->
    walks ch counts (TNode d f ms)
      ([(WE_SEQUENCE_DESCRIPTOR, Some d); (WE_BEGIN_SEQUENCE, None)] ++ evs ++ [(WE_END_SEQUENCE, None)])
| WkFixed d ms counts evs : id_F (d_id d) = 1 ->
    walks_blocks ch (if ch then Z.to_nat (id_Y (d_id d)) else 1) counts ms evs ->
    walks ch counts (TNode d None ms)
      ([(WE_REPLICATION_DESCRIPTOR, Some d); (WE_BEGIN_REPLICATION, None)] ++ evs
         ++ [(WE_END_REPLICATION, None)])
| WkDelayed d fd ms n counts evs : id_F (d_id d) = 1 ->
    walks_blocks ch (if ch then Z.to_nat n else 1) counts ms evs ->
    walks ch ((if ch then [n] else []) ++ counts) (TNode d (Some fd) ms)
      ([(WE_REPLICATION_DESCRIPTOR, Some d); (WE_FACTOR, Some fd); (WE_BEGIN_REPLICATION, None)] ++ evs
         ++ [(WE_END_REPLICATION, None)])
with walks_list (ch : bool) : list Z -> list tnode -> list event -> Prop :=
| WlNil : walks_list ch [] [] []
| WlCons n ns c cs e es : walks ch c n e -> walks_list ch cs ns es ->
    walks_list ch (c ++ cs) (n :: ns) (e ++ es)
with walks_blocks (ch : bool) : nat -> list Z -> list tnode -> list event -> Prop :=
| WbNil ms : walks_blocks ch 0 [] ms []
| WbCons k ms c cs e es : walks_list ch c ms e -> walks_blocks ch k cs ms es ->
    walks_blocks ch (S k) (c ++ cs) ms ([(WE_BEGIN_BLOCK, None)] ++ e ++ [(WE_END_BLOCK, None)] ++ es).

(** Well-nested begin/end events, by a stack. *)
Inductive bracket := BSequence | BReplication | BBlock.
Definition bracket_eqb (a b : bracket) : bool :=
  match a, b with BSequence, BSequence | BReplication, BReplication | BBlock, BBlock => true | _, _ => false end.
Definition opens (c : evcode) : option bracket :=
  match c with
  | WE_BEGIN_SEQUENCE => Some BSequence | WE_BEGIN_REPLICATION => Some BReplication
  | WE_BEGIN_BLOCK => Some BBlock | _ => None
  end.
Definition closes (c : evcode) : option bracket :=
  match c with
  | WE_END_SEQUENCE => Some BSequence | WE_END_REPLICATION => Some BReplication
  | WE_END_BLOCK => Some BBlock | _ => None
  end.
Fixpoint nest (evs : list event) (stack : list bracket) : option (list bracket) :=
  match evs with
  | [] => Some stack
  | (c, _) :: rest =>
      match opens c, closes c with
      | Some b, _ => nest rest (b :: stack)
      | None, Some b => match stack with
                        | t :: st => if bracket_eqb t b then nest rest st else None
                        | [] => None
                        end
      | None, None => nest rest stack
      end
  end.
Definition well_nested (evs : list event) : Prop := nest evs [] = Some [].

(** The kinds of nodes expansion produces. *)
Fixpoint known_kinds (n : tnode) : Prop :=
  match n with
  | TNode d _ members => 0 <= id_F (d_id d) <= 3 /\ fold_right (fun m P => known_kinds m /\ P) True members
  end.

(** ** Dumping: one line per descriptor, indented by its depth; a factor has its own,
    dotted line. *)
Fixpoint lines_of (depth : nat) (n : tnode) : list dumpline :=
  match n with
  | TNode d factor members =>
      if (id_F (d_id d) =? 0) || (id_F (d_id d) =? 2) then [(depth, false, Some d)]
      else if id_F (d_id d) =? 3 then
        (depth, false, Some d) :: flat_map (lines_of (S depth)) members
      else if id_F (d_id d) =? 1 then
        (depth, false, Some d)
          :: match factor with Some f => [(depth, true, Some f)] | None => [] end
          ++ flat_map (lines_of (S depth)) members
      else []
  end.

(** No sequence contains itself, directly or through other sequences: every sequence has
    a rank above the ranks of the sequences in its definition. *)
Definition acyclic (g : group) : Prop := exists rank : Z -> nat,
  forall id d ms, Lookup g id = Ok d -> d_entry d = ED ms ->
    Forall (fun m => id_F m = 3 -> (rank m < rank id)%nat) ms.
