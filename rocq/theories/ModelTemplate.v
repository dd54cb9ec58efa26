(** Model of table/template.go. *)
From Verif Require Export ModelTable.

(** table/template.go:137-141 Node *)
Inductive tnode : Type := TNode (d : descriptor) (factor : option descriptor) (members : list tnode).
Definition tn_desc (n : tnode) : descriptor := match n with TNode d _ _ => d end.
Definition tn_factor (n : tnode) : option descriptor := match n with TNode _ f _ => f end.
Definition tn_members (n : tnode) : list tnode := match n with TNode _ _ m => m end.

(** table/template.go:228-267 expand.  [ids] is the slice from the current [count] on;
    [spare] is what lies between the slice's length and its capacity: re-slicing
    [ids[count:count+replicated]] is checked against the capacity, so a replication inside
    a replicated block can reach identifiers behind the block.  The factor is kept as its
    descriptor ([n.factor] is a Node with nothing but a descriptor). *)
Fixpoint expand (fuel : nat) (g : group) (ids spare : list Z) {struct fuel} : res (list tnode) :=
  match fuel with
  | O => NoFuel
  | S k =>
      match ids with
      | [] => Ok []
      | id :: rest =>
          rbind (Lookup g id) (fun d =>
          if id_F (d_id d) =? F_SEQUENCE then
            match d_entry d with
            | ED ms => rbind (expand k g ms []) (fun members =>
                       rbind (expand k g rest spare) (fun more =>
                       Ok (TNode d None members :: more)))
            | _ => Panic PType
            end
          else if id_F (d_id d) =? F_REPLICATION then
            let body (factor : option descriptor) (rest : list Z) :=
              let n := Z.to_nat (id_X (d_id d)) in
              if (length rest + length spare <? n)%nat then Panic PIndex
              else
                rbind (expand k g (firstn n (rest ++ spare)) (skipn n (rest ++ spare)))
                  (fun members =>
                rbind (expand k g (skipn n rest) (skipn (n - length rest) spare))
                  (fun more => Ok (TNode d factor members :: more))) in
            if id_Y (d_id d) =? 0 then
              match rest with
              | [] => Panic PIndex
              | fid :: rest' => rbind (Lookup g fid) (fun fd => body (Some fd) rest')
              end
            else body None rest
          else rbind (expand k g rest spare) (fun more => Ok (TNode d None [] :: more)))
      end
  end.
(** table/template.go:76-83 Expand; the identifiers come from a slice without spare
    capacity (NewTemplateField, factory.go:155). *)
Definition Expand (fuel : nat) (g : group) (ids : list Z) : res (list tnode) := expand fuel g ids [].

(** table/template.go:18-32, 37-40 EventCode, Event *)
Inductive evcode : Type :=
| WE_ELEMENT_DESCRIPTOR | WE_REPLICATION_DESCRIPTOR | WE_OPERATOR_DESCRIPTOR
| WE_SEQUENCE_DESCRIPTOR | WE_FACTOR | WE_BEGIN_SEQUENCE | WE_END_SEQUENCE
| WE_BEGIN_REPLICATION | WE_END_REPLICATION | WE_BEGIN_BLOCK | WE_END_BLOCK
| WE_BEGIN_TEMPLATE | WE_END_TEMPLATE.
Definition event : Type := (evcode * option descriptor)%type.

(** Walk state: the numbers that will arrive on [ins] (None: [ins] is nil) and the events
    sent so far.  All channels are unbuffered with one sender and one receiver, so the
    order of events is deterministic.  Receiving from an exhausted channel blocks forever:
    [NoFuel]. *)
Record walkst : Type := mkWalk { w_ins : option (list Z); w_out : list event }.
Definition emit (c : evcode) (d : option descriptor) : M walkst unit :=
  modify (fun s => mkWalk (w_ins s) (w_out s ++ [(c, d)])).
Definition recv_ins : M walkst Z := fun s =>
  match w_ins s with
  | Some (n :: l) => (mkWalk (Some l) (w_out s), Ok n)
  | _ => (s, NoFuel)
  end.
Definition has_ins (s : walkst) : bool := match w_ins s with Some _ => true | None => false end.

(** table/template.go:145-175 Node.Walk, 198-206 walkSequence, 210-222 walkReplication *)
Fixpoint node_Walk (n : tnode) : M walkst unit :=
  match n with
  | TNode d factor members =>
      let f := id_F (d_id d) in
      if f =? F_ELEMENT then emit WE_ELEMENT_DESCRIPTOR (Some d)
      else if f =? F_REPLICATION then
        (emit WE_REPLICATION_DESCRIPTOR (Some d) ;;
         ins <- gets has_ins ;;
         nrepeats <-
           match factor with
           | Some fd => emit WE_FACTOR (Some fd) ;; (if ins : bool then recv_ins else ret 1)
           | None => ret (if ins : bool then id_Y (d_id d) else 1)
           end ;;
         emit WE_BEGIN_REPLICATION None ;;
         iter_Z nrepeats
           (emit WE_BEGIN_BLOCK None ;; mapM_ node_Walk members ;; emit WE_END_BLOCK None) ;;
         emit WE_END_REPLICATION None)%M
      else if f =? F_OPERATOR then emit WE_OPERATOR_DESCRIPTOR (Some d)
      else if f =? F_SEQUENCE then
        (emit WE_SEQUENCE_DESCRIPTOR (Some d) ;;
         emit WE_BEGIN_SEQUENCE None ;; mapM_ node_Walk members ;;
         emit WE_END_SEQUENCE None)%M
      else ret tt
  end.
(** table/template.go:109-122 ExpandedTemplate.Walk *)
Definition Walk (members : list tnode) (ins : option (list Z)) : walkst * res unit :=
  (emit WE_BEGIN_TEMPLATE None ;; mapM_ node_Walk members ;; emit WE_END_TEMPLATE None)%M
    (mkWalk ins []).

(** table/template.go:179-195 Node.Dump, the fold over the events: a line is (number of
    indents, is it a factor line, descriptor).  Dropping from an empty indent slice panics. *)
Definition dumpline : Type := (nat * bool * option descriptor)%type.
Fixpoint dump_events (evs : list event) (indents : nat) : res (list dumpline) :=
  match evs with
  | [] => Ok []
  | (c, d) :: rest =>
      match c with
      | WE_ELEMENT_DESCRIPTOR | WE_REPLICATION_DESCRIPTOR | WE_OPERATOR_DESCRIPTOR
      | WE_SEQUENCE_DESCRIPTOR =>
          rbind (dump_events rest indents) (fun ls => Ok ((indents, false, d) :: ls))
      | WE_FACTOR =>
          rbind (dump_events rest indents) (fun ls => Ok ((indents, true, d) :: ls))
      | WE_BEGIN_SEQUENCE | WE_BEGIN_BLOCK => dump_events rest (S indents)
      | WE_END_SEQUENCE | WE_END_BLOCK =>
          match indents with
          | O => Panic PIndex
          | S i => dump_events rest i
          end
      | _ => dump_events rest indents
      end
  end.
(** Node.Dump: walk with a nil channel. *)
Definition node_Dump (n : tnode) : res (list dumpline) :=
  dump_events (w_out (fst (node_Walk n (mkWalk None [])))) 0.
(** table/template.go:125-131 ExpandedTemplate.Dump *)
Fixpoint Dump (members : list tnode) : res (list dumpline) :=
  match members with
  | [] => Ok []
  | n :: rest => rbind (node_Dump n) (fun l => rbind (Dump rest) (fun ls => Ok (l ++ ls)))
  end.
