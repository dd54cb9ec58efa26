(** Small specification of the template grammar (C23-C30). *)
From Verif Require Export SpecTemplate ModelParser.

(** ** Splitting identifier lists *)

(** [ids] begins with [n] identifiers [block], followed by [rest]; identifiers that are
    lacking are made up as 0 (no identifier is lacking when the second case does not apply). *)
Definition takes (n : Z) (ids block rest : list Z) : Prop :=
  ids = block ++ rest /\ Z.of_nat (length block) = n \/
  Z.of_nat (length ids) < n /\ rest = [] /\
    block = ids ++ repeat 0 (Z.to_nat n - length ids).
(** [block] ends with the first run of [p] identifiers; everything, if there is none. *)
Definition first_run (p : Z -> bool) (ids block rest : list Z) : Prop :=
  ids = block ++ rest /\
  exists pre run, block = pre ++ run /\
    Forall (fun i => p i = false) pre /\ Forall (fun i => p i = true) run /\
    match rest with [] => True | i :: _ => p i = false /\ run <> [] end.
(** [block] ends before the first [p] identifier; everything, if there is none. *)
Definition until (p : Z -> bool) (ids block rest : list Z) : Prop :=
  ids = block ++ rest /\ Forall (fun i => p i = false) block /\
  match rest with [] => True | i :: _ => p i = true end.

(** ** The grammar

    [parses g sk ids ns sk']: the identifiers [ids] read as the nodes [ns].  [sk]: elements
    are local (inside 206YYY), not looked up; [sk']: the same afterwards.  [reads] reads one
    node and leaves the rest. *)
Definition element_node (d : descriptor) : anode :=
  if d_id d =? 31021 then ANode KE031021 (Some d) [] None []
  else ANode (KElement false) (Some d) [] None [].

(** An element that is not looked up: its identifier, and nothing known about it. *)
Definition local_element (id : Z) : descriptor :=
  mkDesc id (EB (mkBentry (gs "LOCAL DESCRIPTOR") [] NUMERIC 0 0 0 [] NUMERIC 0 0)) false.

(** Operators that stand alone: 201 202 205 207 208 235, 203255, 204000, 2xx255. *)
Definition standalone (id : Z) : option akind :=
  let op := id / 1000 in
  let y := id mod 1000 in
  if op =? 201 then Some KNbitsOffset else if op =? 202 then Some KScaleOffset
  else if op =? 205 then Some KInsertString else if op =? 207 then Some KModifyPacking
  else if op =? 208 then Some KSetStringLength else if op =? 235 then Some KCancelBackRef
  else if id =? 203255 then Some KNewRefval
  else if (op =? 204) && (y =? 0) then Some KAssocField
  else if (id =? 223255) || (id =? 224255) || (id =? 225255) || (id =? 232255) then Some KMarker
  else if id =? 237255 then Some KCancelBitmap
  else None.
(** Operators followed by a fixed number of identifiers of their own: 204YYY, 221YYY. *)
Definition with_operands (id : Z) : option (akind * Z) :=
  let op := id / 1000 in
  let y := id mod 1000 in
  if (op =? 204) && negb (y =? 0) then Some (KAssocField, 1)
  else if op =? 221 then Some (KDataNotPresent, y)
  else None.
(** Operators that refer to a bitmap, and their member identifiers. *)
Definition assessment (id : Z) : option (Z -> bool) :=
  if id =? 222000 then Some (fun i => (i / 100000 =? 0) && (i / 1000 mod 100 =? 33))
  else if id =? 223000 then Some (fun i => i =? 223255)
  else if id =? 224000 then Some (fun i => i =? 224255)
  else if id =? 225000 then Some (fun i => i =? 225255)
  else if id =? 232000 then Some (fun i => i =? 232255)
  else None.
Definition replication (i : Z) : bool := i / 100000 =? 1.

Inductive parses (g : group) : bool -> list Z -> list anode -> bool -> Prop :=
| PaNil sk : parses g sk [] [] sk
| PaCons sk ids n rest sk1 ns sk2 :
    reads g sk ids n rest sk1 -> parses g sk1 rest ns sk2 -> parses g sk ids (n :: ns) sk2
with reads (g : group) : bool -> list Z -> anode -> list Z -> bool -> Prop :=
| ItElement id d rest : id_F id = 0 -> Lookup g id = Ok d ->
    reads g false (id :: rest) (element_node d) rest false
| ItLocal id rest : id_F id = 0 ->
    reads g true (id :: rest) (element_node (local_element id)) rest true
| ItSequence sk id d def ms rest sk' : id_F id = 3 -> Lookup g id = Ok d -> d_entry d = ED def ->
    parses g sk def ms sk' ->
    reads g sk (id :: rest) (ANode KSequence (Some d) ms None []) rest sk'
| ItFixed sk id d ids block rest ms sk' : id_F id = 1 -> id_Y id <> 0 -> Lookup g id = Ok d ->
    takes (id_X id) ids block rest -> parses g sk block ms sk' ->
    reads g sk (id :: ids) (ANode KFixed (Some d) ms None []) rest sk'
| ItDelayed sk id d ids block rest ms sk' : id_F id = 1 -> id_Y id = 0 -> Lookup g id = Ok d ->
    takes (id_X id + 1) ids block rest -> parses g sk block ms sk' ->
    reads g sk (id :: ids) (ANode KDelayed (Some d) ms None []) rest sk'
| ItStandalone sk id d k rest : id_F id = 2 -> standalone id = Some k -> Lookup g id = Ok d ->
    reads g sk (id :: rest) (ANode k (Some d) [] None []) rest sk
| ItOperands sk id d k n ids block rest ms sk' : id_F id = 2 -> with_operands id = Some (k, n) ->
    Lookup g id = Ok d -> takes n ids block rest -> parses g sk block ms sk' ->
    reads g sk (id :: ids) (ANode k (Some d) ms None []) rest sk'
| ItSkip sk id d ids block rest ms sk' : id_F id = 2 -> id / 1000 = 206 ->
    Lookup g id = Ok d -> takes 1 ids block rest -> parses g true block ms sk' ->
    reads g sk (id :: ids) (ANode KSkipLocal (Some d) ms None []) rest false
| ItNewRefval sk id d ids block rest ms sk' : id_F id = 2 -> id / 1000 = 203 -> id <> 203255 ->
    Lookup g id = Ok d -> until (fun i => i =? 203255) ids block rest ->
    parses g sk block ms sk' ->
    reads g sk (id :: ids) (ANode KNewRefval (Some d) ms None []) rest sk'
| ItBitmap sk ids bm rest sk' : hd 0 ids = 236000 \/ hd 0 ids = 237000 ->
    bitmap_reads g sk ids bm rest sk' -> reads g sk ids bm rest sk'
| ItAssessment sk id d mem ids bm rest1 attrs rest2 mids rest anodes ms sk1 sk2 sk3 :
    id_F id = 2 -> assessment id = Some mem -> Lookup g id = Ok d ->
    bitmap_reads g sk ids bm rest1 sk1 ->
    until (fun i => replication i || mem i) rest1 attrs rest2 -> parses g sk1 attrs anodes sk2 ->
    first_run mem rest2 mids rest -> parses g sk2 mids ms sk3 ->
    reads g sk (id :: ids) (ANode KAssessment (Some d) ms (Some bm) anodes) rest sk3
with bitmap_reads (g : group) : bool -> list Z -> anode -> list Z -> bool -> Prop :=
| BmRecall sk d rest : Lookup g 237000 = Ok d ->
    bitmap_reads g sk (237000 :: rest) (ANode KBitmap (Some d) [] None []) rest sk
| BmDefine sk d ids block rest ms sk' : Lookup g 236000 = Ok d ->
    first_run (fun i => i =? 31031) ids block rest -> parses g sk block ms sk' ->
    bitmap_reads g sk (236000 :: ids) (ANode KBitmap (Some d) ms None []) rest sk'
| BmAdHoc sk id d ids block rest ms sk' : id_F id = 1 \/ id = 31031 -> Lookup g id = Ok d ->
    first_run (fun i => i =? 31031) (id :: ids) block rest -> parses g sk block ms sk' ->
    bitmap_reads g sk (id :: ids) (ANode KBitmap None ms None []) rest sk'.

(** ** Reading a tree back *)

(** The identifiers of a node in document order; a sequence counts as its own. *)
Fixpoint doc (n : anode) : list Z :=
  match n with
  | ANode k d members bitmap attrs =>
      match d with Some d => [d_id d] | None => [] end
      ++ match bitmap with Some b => doc b | None => [] end
      ++ flat_map doc attrs
      ++ match k with KSequence => [] | _ => flat_map doc members end
  end.
(** [zero_padded ids l]: [l] is [ids] with zeros inserted. *)
Inductive zero_padded : list Z -> list Z -> Prop :=
| PadNil : zero_padded [] []
| PadKeep i ids l : zero_padded ids l -> zero_padded (i :: ids) (i :: l)
| PadZero ids l : zero_padded ids l -> zero_padded ids (0 :: l).
(** Replications hold the number of identifiers they announce, at any depth (sequences
    excepted: their definitions are checked when they are parsed). *)
Fixpoint all_nodes (P : anode -> Prop) (n : anode) : Prop :=
  P n /\ match n with
         | ANode _ _ members bitmap attrs =>
             fold_right (fun m Q => all_nodes P m /\ Q) True members /\
             match bitmap with Some b => all_nodes P b | None => True end /\
             fold_right (fun m Q => all_nodes P m /\ Q) True attrs
         end.
Definition holds_announced (n : anode) : Prop :=
  match n with
  | ANode k (Some d) members _ _ =>
      let len := Z.of_nat (length (flat_map doc members)) in
      match k with
      | KFixed => len = id_X (d_id d)
      | KDelayed => len = id_X (d_id d) + 1
      | KSkipLocal => len = 1
      | KAssocField => len = (if id_Y (d_id d) =? 0 then 0 else 1)
      | KDataNotPresent => len = id_Y (d_id d)
      | _ => True
      end
  | _ => True
  end.

(** ** Observing Parse *)

(** The tree returned by Parse: a root over the top-level nodes. *)
Definition root (ns : list anode) : anode := ANode KBase (Some (mkDesc 0 ER false)) ns None [].
(** Parse succeeds on [ids], with a new parser, and returns [ns] under the root. *)
Definition parsed (g : group) (ids : list Z) (ns : list anode) : Prop :=
  exists fuel, snd (Parse g fuel ids parser0) = Ok (root ns).

(** The node kind documented for each operator descriptor. *)
Definition documented (id : Z) : option akind :=
  match id / 1000, id mod 1000 with
  | 201, _ => Some KNbitsOffset
  | 202, _ => Some KScaleOffset
  | 203, _ => Some KNewRefval
  | 204, _ => Some KAssocField
  | 205, _ => Some KInsertString
  | 206, _ => Some KSkipLocal
  | 207, _ => Some KModifyPacking
  | 208, _ => Some KSetStringLength
  | 221, _ => Some KDataNotPresent
  | 222, 0 | 223, 0 | 224, 0 | 225, 0 | 232, 0 => Some KAssessment
  | 223, 255 | 224, 255 | 225, 255 | 232, 255 => Some KMarker
  | 235, _ => Some KCancelBackRef
  | 236, 0 | 237, 0 => Some KBitmap
  | 237, 255 => Some KCancelBitmap
  | _, _ => None
  end.
(** The kind of a node is the one its descriptor calls for. *)
Definition right_kind (n : anode) : Prop :=
  match an_desc n with
  | None => an_kind n = KBitmap
  | Some d =>
      match id_F (d_id d) with
      | 0 => an_kind n = if d_id d =? 31021 then KE031021 else KElement false
      | 1 => an_kind n = if id_Y (d_id d) =? 0 then KDelayed else KFixed
      | 2 => Some (an_kind n) = documented (d_id d)
      | 3 => an_kind n = KSequence
      | _ => False
      end
  end.

(** The identifiers that make up a bitmap. *)
Inductive bitmap_ids : list Z -> list Z -> list Z -> Prop :=
| BiRecall rest : bitmap_ids (237000 :: rest) [237000] rest
| BiDefine ids block rest : first_run (fun i => i =? 31031) ids block rest ->
    bitmap_ids (236000 :: ids) (236000 :: block) rest
| BiAdHoc id ids block rest : id_F id = 1 \/ id = 31031 ->
    first_run (fun i => i =? 31031) (id :: ids) block rest -> bitmap_ids (id :: ids) block rest.

(** The members of a node are the parse of exactly the identifiers it calls for. *)
Definition members_parsed (g : group) (n : anode) : Prop :=
  match n with
  | ANode k (Some d) ms _ _ =>
      let block_of (len : Z) :=
        exists sk sk' block, Z.of_nat (length block) = len /\ parses g sk block ms sk' in
      match k with
      | KSequence => exists sk sk' def, d_entry d = ED def /\ parses g sk def ms sk'
      | KFixed => block_of (id_X (d_id d))
      | KDelayed => block_of (id_X (d_id d) + 1)
      | KDataNotPresent => block_of (id_Y (d_id d))
      | KSkipLocal => block_of 1
      | KAssocField => block_of (if id_Y (d_id d) =? 0 then 0 else 1)
      | _ => True
      end
  | _ => True
  end.
(** No 206YYY anywhere in the tree. *)
Definition no_local (n : anode) : Prop := all_nodes (fun n => an_kind n <> KSkipLocal) n.
