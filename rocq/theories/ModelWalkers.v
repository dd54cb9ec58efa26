(** Model of the goroutines behind table/template.go Walk.  [Walk] (ModelTemplate.v) gives
    the events as one list; here every call of Node.Walk starts a goroutine of its own and
    every event travels through unbuffered channels, one per goroutine. *)
From Verif Require Export ModelTemplate.

(** What a goroutine still has to do:
    [ISend e]: [outs <- e];
    [IWalk n]: [for e := range n.Walk(ins) { outs <- e }] (114-116, 201-203, 215-217);
    [IAsk ms]: [nrepeats = <-ins] followed by [walkReplication(ins, outs, ms, nrepeats)]
    (155-161). *)
Inductive instr : Type := ISend (e : event) | IWalk (n : tnode) | IAsk (ms : list tnode).

(** table/template.go:210-222 walkReplication, the loop unrolled *)
Definition replication_code (nrepeats : Z) (ms : list tnode) : list instr :=
  ISend (WE_BEGIN_REPLICATION, None)
    :: concat (repeat (ISend (WE_BEGIN_BLOCK, None) :: map IWalk ms ++ [ISend (WE_END_BLOCK, None)])
                 (Z.to_nat nrepeats))
    ++ [ISend (WE_END_REPLICATION, None)].
(** table/template.go:145-175 Node.Walk, the goroutine's body; [ins]: is the channel of
    counts there?  (198-206 walkSequence) *)
Definition node_code (ins : bool) (n : tnode) : list instr :=
  match n with
  | TNode d factor members =>
      let f := id_F (d_id d) in
      if f =? F_ELEMENT then [ISend (WE_ELEMENT_DESCRIPTOR, Some d)]
      else if f =? F_REPLICATION then
        ISend (WE_REPLICATION_DESCRIPTOR, Some d)
          :: match factor with
             | Some fd => ISend (WE_FACTOR, Some fd)
                            :: (if ins then [IAsk members] else replication_code 1 members)
             | None => replication_code (if ins then id_Y (d_id d) else 1) members
             end
      else if f =? F_OPERATOR then [ISend (WE_OPERATOR_DESCRIPTOR, Some d)]
      else if f =? F_SEQUENCE then
        [ISend (WE_SEQUENCE_DESCRIPTOR, Some d); ISend (WE_BEGIN_SEQUENCE, None)]
          ++ map IWalk members ++ [ISend (WE_END_SEQUENCE, None)]
      else []
  end.
(** table/template.go:109-122 ExpandedTemplate.Walk, the goroutine's body *)
Definition template_code (members : list tnode) : list instr :=
  ISend (WE_BEGIN_TEMPLATE, None) :: map IWalk members ++ [ISend (WE_END_TEMPLATE, None)].

(** A goroutine: [Live h c] blocks in [outs <- e] if [h = Some e] and goes on with [c]
    afterwards; [Ended] has closed its channel and is gone. *)
Inductive walker : Type := Live (h : option event) (c : list instr) | Ended.

(** The state: the goroutine of the template, the one it ranges over, the one that one
    ranges over, and so on.  Nobody else holds the channels, so a goroutine that has a
    successor in the list can do nothing but receive from it or notice its end. *)
Inductive action : Type := Internal | Receive (e : event) | Supply (n : Z).
Inductive step (ins : bool) : list walker -> action -> list walker -> Prop :=
| StSend pre e c :                 (* outs <- e is reached *)
    step ins (pre ++ [Live None (ISend e :: c)]) Internal (pre ++ [Live (Some e) c])
| StGo pre n c :                   (* go func() *)
    step ins (pre ++ [Live None (IWalk n :: c)]) Internal (pre ++ [Live None c; Live None (node_code ins n)])
| StAsk pre ms c v :               (* <-ins *)
    step ins (pre ++ [Live None (IAsk ms :: c)]) (Supply v) (pre ++ [Live None (replication_code v ms ++ c)])
| StPass pre e c c' post :         (* a goroutine receives from the next one *)
    step ins (pre ++ Live None c :: Live (Some e) c' :: post) Internal
             (pre ++ Live (Some e) c :: Live None c' :: post)
| StEnd pre :                      (* close(outs) *)
    step ins (pre ++ [Live None []]) Internal (pre ++ [Ended])
| StNotice pre c :                 (* the range over a closed channel ends *)
    step ins (pre ++ [Live None c; Ended]) Internal (pre ++ [Live None c])
| StOut e c post :                 (* the caller receives *)
    step ins (Live (Some e) c :: post) (Receive e) (Live None c :: post).

(** What [Walk] leaves behind when it returns the channel. *)
Definition walk_start (members : list tnode) : list walker := [Live None (template_code members)].
(** Any number of steps, in any order the scheduler likes. *)
Inductive steps (ins : bool) : list walker -> list action -> list walker -> Prop :=
| StsNil s : steps ins s [] s
| StsCons s a s1 tr s2 : step ins s a s1 -> steps ins s1 tr s2 -> steps ins s (a :: tr) s2.
