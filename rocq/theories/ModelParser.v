(** Model of deserialize/parser/parser.go and state.go. *)
From Verif Require Export ModelAst.

(** ** idsKeeper (state.go:15-101)

    [k_rest] are the identifiers from [index] on; [k_done] those before it, latest first
    (so [index] is the length of [k_done]). *)
Record keeper : Type := mkKeeper { k_done : list Z; k_rest : list Z }.
(** state.go:22-24 newIdsKeeper *)
Definition newIdsKeeper (ids : list Z) : keeper := mkKeeper [] ids.

(** Parser (parser.go:31-36) together with the keeper in use.  The two state bits
    stateOpDataNotPresent and stateOpSkipLocal of [states] are two booleans. *)
Record pst : Type := mkPst { p_notPresent : bool; p_skipLocal : bool; p_keeper : keeper }.
Definition set_keeper (k : keeper) (s : pst) : pst := mkPst (p_notPresent s) (p_skipLocal s) k.

(** state.go:33-37 take: index out of range panics *)
Definition take : M pst Z := fun s =>
  match k_rest (p_keeper s) with
  | [] => (s, Panic PIndex)
  | id :: r => (set_keeper (mkKeeper (id :: k_done (p_keeper s)) r) s, Ok id)
  end.
(** state.go:40-42 back.  Every call follows a take; at index 0 the real index would become
    -1 and the next access would panic. *)
Definition back : M pst unit := fun s =>
  match k_done (p_keeper s) with
  | [] => (s, Panic PIndex)
  | id :: d => (set_keeper (mkKeeper d (id :: k_rest (p_keeper s))) s, Ok tt)
  end.
(** state.go:27-29 eof *)
Definition eof (s : pst) : bool := match k_rest (p_keeper s) with [] => true | _ => false end.
(** state.go:45-49 peek *)
Definition peek : M pst Z := (id <- take ;; back ;; ret id)%M.

(** state.go:54-60 takeN: [make] zero-fills, so identifiers that are lacking become 0. *)
Definition takeN (n : Z) : M pst (list Z) := fun s =>
  if n <? 0 then (s, Panic PMake)
  else
    let r := k_rest (p_keeper s) in
    let got := firstn (Z.to_nat n) r in
    (set_keeper (mkKeeper (rev got ++ k_done (p_keeper s)) (skipn (Z.to_nat n) r)) s,
     Ok (got ++ repeat 0 (Z.to_nat n - length got)%nat)).

(** state.go:72-87 takeWhile, on the remaining identifiers: (taken, left) *)
Fixpoint takeWhile_list (p : Z -> bool) (started : bool) (ids : list Z) : list Z * list Z :=
  match ids with
  | [] => ([], [])
  | id :: r =>
      if negb (p id) && started then ([], ids)
      else let '(a, b) := takeWhile_list p (started || p id) r in (id :: a, b)
  end.
(** state.go:90-101 takeTill *)
Fixpoint takeTill_list (p : Z -> bool) (ids : list Z) : list Z * list Z :=
  match ids with
  | [] => ([], [])
  | id :: r => if p id then ([], ids)
               else let '(a, b) := takeTill_list p r in (id :: a, b)
  end.
Definition take_by (f : list Z -> list Z * list Z) : M pst (list Z) := fun s =>
  let '(a, b) := f (k_rest (p_keeper s)) in
  (set_keeper (mkKeeper (rev a ++ k_done (p_keeper s)) b) s, Ok a).
Definition takeWhile (p : Z -> bool) : M pst (list Z) := take_by (takeWhile_list p false).
Definition takeTill (p : Z -> bool) : M pst (list Z) := take_by (takeTill_list p).

(** Run with a fresh keeper over [ids] ([newIdsKeeper(ids)]), then continue with the old. *)
Definition with_ids {A} (ids : list Z) (m : M pst A) : M pst A := fun s =>
  let '(s', r) := m (set_keeper (newIdsKeeper ids) s) in (set_keeper (p_keeper s) s', r).

Section Parse.
  (** p.tableGroup *)
  Variable g : group.
  (** processThrough (state.go:105-145) for the nested calls; tied by recursion on fuel
      below. *)
  Variable process : M pst (list anode).

  Definition lookup_take : M pst descriptor := (id <- take ;; lift_res (Lookup g id))%M.

  (** state.go:148-155 populateMembers *)
  Definition populateMembers (ids : list Z) (node : anode) : M pst anode :=
    (ms <- with_ids ids process ;; ret (with_members node ms))%M.

  (** state.go:325-331 notPresent *)
  Definition notPresent (np : bool) (d : descriptor) : bool :=
    if negb np then false
    else let x := id_X (d_id d) in (x <? 1) && (9 <? x) && negb (x =? 31).

  (** parser.go:71-91 parseElementNode *)
  Definition parseElementNode : M pst anode :=
    (skip <- gets p_skipLocal ;;
     d <- (if skip : bool then (id <- take ;; ret (NewLocalDescriptor id)) else lookup_take) ;;
     np <- gets p_notPresent ;;
     ret (if d_id d =? ID_031021 then leaf KE031021 d
          else leaf (KElement (notPresent np d)) d))%M.

  (** parser.go:93-100 parseSequenceNode *)
  Definition parseSequenceNode : M pst anode :=
    (d <- lookup_take ;;
     match d_entry d with
     | ED ms => populateMembers ms (leaf KSequence d)
     | _ => throw PType
     end)%M.

  (** parser.go:102-109 parseDelayedReplicationNode *)
  Definition parseDelayedReplicationNode : M pst anode :=
    (d <- lookup_take ;;
     ids <- takeN (id_X (d_id d) + 1) ;;
     populateMembers ids (leaf KDelayed d))%M.

  (** parser.go:111-118 parseFixedReplicationNode *)
  Definition parseFixedReplicationNode : M pst anode :=
    (d <- lookup_take ;;
     ids <- takeN (id_X (d_id d)) ;;
     populateMembers ids (leaf KFixed d))%M.

  (** parser.go:191-221 parseBitmapNode *)
  Definition parseBitmapNode : M pst anode :=
    (d <- lookup_take ;;
     let define (od : option descriptor) :=
       (ids <- takeWhile (fun id => id =? ID_031031) ;;
        populateMembers ids (ANode KBitmap od [] None []))%M in
     if d_id d =? ID_237000 then ret (leaf KBitmap d)
     else if (id_F (d_id d) =? 1) || (d_id d =? ID_031031) then back ;; define None
     else if d_id d =? ID_236000 then define (Some d)
     else fail (EMsg "invalid bitmap definition"))%M.

  (** state.go:157-167 assembleOpNewRefvalNode *)
  Definition assembleOpNewRefvalNode (d : descriptor) : M pst anode :=
    if id_Operand (d_id d) =? 255 then ret (leaf KNewRefval d)
    else (ids <- takeTill (fun id => id =? ID_203255) ;;
          populateMembers ids (leaf KNewRefval d))%M.

  (** state.go:177-183 assembleOpAssocFieldNode *)
  Definition assembleOpAssocFieldNode (d : descriptor) : M pst anode :=
    if negb (id_Y (d_id d) =? 0)
    then (ids <- takeN 1 ;; populateMembers ids (leaf KAssocField d))%M
    else ret (leaf KAssocField d).

  (** state.go:185-190 assembleOpSkipLocalNode; the deferred unsetState runs always *)
  Definition assembleOpSkipLocalNode (d : descriptor) : M pst anode :=
    (modify (fun s => mkPst (p_notPresent s) true (p_keeper s)) ;;
     defer (fun s => mkPst (p_notPresent s) false (p_keeper s))
       (ids <- takeN 1 ;; populateMembers ids (leaf KSkipLocal d)))%M.

  (** state.go:192-197 assembleOpDataNotPresentNode *)
  Definition assembleOpDataNotPresentNode (d : descriptor) : M pst anode :=
    (modify (fun s => mkPst true (p_skipLocal s) (p_keeper s)) ;;
     defer (fun s => mkPst false (p_skipLocal s) (p_keeper s))
       (ids <- takeN (id_Y (d_id d)) ;; populateMembers ids (leaf KDataNotPresent d)))%M.

  (** state.go:285-322 assembleAssessmentNode, processAssessmentNodeAttrs,
      processAssessmentNodeMembers *)
  Definition assembleAssessmentNode (d : descriptor) (attrP memP : Z -> bool) : M pst anode :=
    (bm <- parseBitmapNode ;;
     aids <- takeTill attrP ;;
     attrs <- with_ids aids process ;;
     mids <- takeWhile memP ;;
     populateMembers mids (ANode KAssessment (Some d) [] (Some bm) attrs))%M.

  (** state.go:201-212 assembleOpQaInfoNode: predicates *)
  Definition qa_member (id : Z) : bool := (id_F id =? 0) && (id_X id =? 33).
  Definition assembleOpQaInfoNode (d : descriptor) : M pst anode :=
    if negb (d_id d =? ID_222000) then fail (EMsg "invalid operand")
    else assembleAssessmentNode d (fun id => (id_F id =? 1) || qa_member id) qa_member.

  (** state.go:214-280: assembleOpSubstitutionNode, ...FirstOrderStats..., ...DiffStats...,
      ...Replacement...: identical up to the two identifiers. *)
  Definition assembleOpMarked (id0 id255 : Z) (d : descriptor) : M pst anode :=
    if d_id d =? id0 then
      assembleAssessmentNode d (fun id => (id_F id =? 1) || (id =? id255)) (fun id => id =? id255)
    else if d_id d =? id255 then ret (leaf KMarker d)
    else fail (EMsg "invalid operand").

  (** parser.go:120-188 parseOperatorNode *)
  Definition parseOperatorNode : M pst anode :=
    (d <- lookup_take ;;
     let op := id_Operator (d_id d) in
     if op =? 201 then ret (leaf KNbitsOffset d)
     else if op =? 202 then ret (leaf KScaleOffset d)
     else if op =? 203 then assembleOpNewRefvalNode d
     else if op =? 204 then assembleOpAssocFieldNode d
     else if op =? 205 then ret (leaf KInsertString d)
     else if op =? 206 then assembleOpSkipLocalNode d
     else if op =? 207 then ret (leaf KModifyPacking d)
     else if op =? 208 then ret (leaf KSetStringLength d)
     else if op =? 221 then assembleOpDataNotPresentNode d
     else if op =? 222 then assembleOpQaInfoNode d
     else if op =? 223 then assembleOpMarked ID_223000 ID_223255 d
     else if op =? 224 then assembleOpMarked ID_224000 ID_224255 d
     else if op =? 225 then assembleOpMarked ID_225000 ID_225255 d
     else if op =? 232 then assembleOpMarked ID_232000 ID_232255 d
     else if op =? 235 then ret (leaf KCancelBackRef d)
     else if op =? 236 then back ;; parseBitmapNode
     else if op =? 237 then
       if id_Operand (d_id d) =? 255 then ret (leaf KCancelBitmap d)
       else back ;; parseBitmapNode
     else if (op =? 241) || (op =? 242) || (op =? 243) then fail (EMsg "operator not implemented")
     else fail (EMsg "unrecognised operator"))%M.

  (** state.go:110-141: one iteration of processThrough's loop *)
  Definition parse_one : M pst anode :=
    (id <- peek ;;
     if id_F id =? F_SEQUENCE then parseSequenceNode
     else if (id_F id =? F_REPLICATION) && (id_Y id =? 0) then parseDelayedReplicationNode
     else if id_F id =? F_REPLICATION then parseFixedReplicationNode
     else if id_F id =? F_OPERATOR then parseOperatorNode
     else if id_F id =? F_ELEMENT then parseElementNode
     else fail (EMsg "unknown ID"))%M.
End Parse.

(** state.go:105-145 processThrough.  Fuel bounds loop iterations and nesting together. *)
Fixpoint processThrough (g : group) (fuel : nat) : M pst (list anode) :=
  match fuel with
  | O => lift_res NoFuel
  | S k => fun s =>
      if eof s then (s, Ok [])
      else (n <- parse_one g (processThrough g k) ;;
            ns <- processThrough g k ;;
            ret (n :: ns))%M s
  end.

(** parser.go:38-47 NewParser, Parse.  The parser's flags are the state. *)
Definition parser0 : bool * bool := (false, false).
Definition Parse (g : group) (fuel : nat) (ids : list Z) : M (bool * bool) anode := fun fl =>
  let '(s, r) := processThrough g fuel (mkPst (fst fl) (snd fl) (newIdsKeeper ids)) in
  ((p_notPresent s, p_skipLocal s),
   match r with
   | Ok ms => Ok (ANode KBase (Some RootDescriptor) ms None [])
   | Err e => Err e
   | Panic p => Panic p
   | NoFuel => NoFuel
   end).
