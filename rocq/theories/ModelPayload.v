(** Model of deserialize/payload: the deserializing visitor, its builders and the bitmap
    manager; and of bufr/node.go, bufr/payload.go. *)
From Verif Require Export ModelParser ModelUnpack.

(** ** Produced objects *)

(** bufr/node.go:57-66 ValuedNode without its members, which are the only part that changes
    after the node has been added.  [vn_id] is the node's identity (pointer). *)
Record vnode : Type := mkVnode {
  vn_id : nat; vn_desc : descriptor; vn_info : pinfo; vn_index : Z;
  vn_min : value; vn_diff : Z }.
(** bufr/cell.go:11-14 Cell *)
Record cell : Type := mkCell { c_node : vnode; c_val : value }.

(** bufr/node.go:14-66: a heap of nodes; a member is a pointer ([None]: nil interface). *)
Inductive nkind : Type := NBlock | NValueless (d : option descriptor) | NValued (v : vnode).
Record hnode : Type := mkHnode { h_kind : nkind; h_members : list (option nat) }.

(** bufr/payload.go:49-58 Subset; the tree is the heap with the root's identity. *)
Record subset : Type := mkSubset {
  sb_index : nat; sb_cells : list cell; sb_heap : list hnode; sb_root : nat }.

(** ** Visitor state *)

(** payload/treebuilder.go:9-14 TreeBuilder *)
Record tree : Type := mkTree { t_heap : list hnode; t_node : nat; t_stack : list nat }.

(** payload/cellsbuilder.go:25-60: the two CellsBuilder implementations ([isubset] of the
    compressed one is never changed from 0). *)
Inductive cellsb : Type := UCells (l : list cell) | CCells (tissues : list (list cell)).

(** payload/desvisitor.go:32-39: operator state; [g_newRefvals = None] is the nil map *)
Record regs : Type := mkRegs {
  g_nbitsOffset : Z; g_scaleOffset : Z; g_newRefvals : option (list (Z * vnode));
  g_assoc : list (Z * option nat);       (* build.go:12-20 assocPairs, oldest first *)
  g_nbitsIncrement : Z; g_scaleIncrement : Z; g_refvalFactor : Z; g_nbitsString : Z }.

(** payload/bitmap.go:11-27 BitmapManager; bitmaps (Index0, Index1) are heap objects *)
Record bmstate : Type := mkBm {
  m_backref1 : Z; m_targets : list vnode; m_bitmaps : list (Z * Z);
  m_reusable : option nat; m_current : option nat }.

Record vst : Type := mkV {
  v_r : reader; v_tree : tree; v_cells : cellsb; v_regs : regs; v_bm : bmstate;
  v_pay : list subset }.

(** payload/desvisitor.go:12-18 DesVisitorConfig, with the visitor's nsubsets and the
    reader's platform; [cf_json] is InputType = FlatJsonInput, otherwise BinaryInput (the
    other input types are rejected by NewUnpacker and not modelled).  [cf_fuel] bounds
    NewBinaryFromUint's loop. *)
Record config : Type := mkConfig {
  cf_compressed : bool; cf_json : bool; cf_compatible : bool; cf_nsubsets : Z;
  cf_plat : platform; cf_fuel : nat }.

Definition set_r (r : reader) (s : vst) := mkV r (v_tree s) (v_cells s) (v_regs s) (v_bm s) (v_pay s).
Definition set_tree (t : tree) (s : vst) := mkV (v_r s) t (v_cells s) (v_regs s) (v_bm s) (v_pay s).
Definition set_cells (c : cellsb) (s : vst) := mkV (v_r s) (v_tree s) c (v_regs s) (v_bm s) (v_pay s).
Definition set_regs (g : regs) (s : vst) := mkV (v_r s) (v_tree s) (v_cells s) g (v_bm s) (v_pay s).
Definition set_bm (b : bmstate) (s : vst) := mkV (v_r s) (v_tree s) (v_cells s) (v_regs s) b (v_pay s).
Definition set_pay (p : list subset) (s : vst) :=
  mkV (v_r s) (v_tree s) (v_cells s) (v_regs s) (v_bm s) p.

(** ** TreeBuilder (payload/treebuilder.go) *)

Fixpoint heap_add (h : list hnode) (i : nat) (m : option nat) : list hnode :=
  match h, i with
  | [], _ => []
  | n :: h', O => mkHnode (h_kind n) (h_members n ++ [m]) :: h'
  | n :: h', S i' => n :: heap_add h' i' m
  end.
(** AddMember (bufr/node.go:25-27, 47-49, 76-78) *)
Definition AddMember (i : nat) (m : option nat) : M vst unit :=
  modify (fun s => set_tree (mkTree (heap_add (t_heap (v_tree s)) i m)
                                    (t_node (v_tree s)) (t_stack (v_tree s))) s).
(** allocation of a node *)
Definition alloc (k : nkind) : M vst nat := fun s =>
  let t := v_tree s in
  (set_tree (mkTree (t_heap t ++ [mkHnode k []]) (t_node t) (t_stack t)) s,
   Ok (length (t_heap t))).
(** treebuilder.go:21-23 Add *)
Definition tree_Add (i : nat) : M vst unit :=
  (p <- gets (fun s => t_node (v_tree s)) ;; AddMember p (Some i))%M.
(** treebuilder.go:26-29 Push *)
Definition tree_Push (i : nat) : M vst unit :=
  modify (fun s => let t := v_tree s in set_tree (mkTree (t_heap t) i (t_node t :: t_stack t)) s).
(** treebuilder.go:32-34 Pop: slicing an empty stack panics *)
Definition tree_Pop : M vst unit := fun s =>
  let t := v_tree s in
  match t_stack t with
  | [] => (s, Panic PIndex)
  | p :: st => (set_tree (mkTree (t_heap t) p st) s, Ok tt)
  end.
(** treebuilder.go:36-41 Root *)
Definition tree_Root : M vst nat := fun s =>
  match t_stack (v_tree s) with
  | [] => (s, Ok (t_node (v_tree s)))
  | _ => (s, Err (EMsg "tree builder stack is not empty when root node is required"))
  end.
(** [v.treeBuilder.Add(&bufr.ValuelessNode{Descriptor: d})] *)
Definition add_valueless (d : option descriptor) : M vst unit :=
  (i <- alloc (NValueless d) ;; tree_Add i)%M.

(** ** CellsBuilder (payload/cellsbuilder.go) *)

(** cellsbuilder.go:35-37, 73-75 Len *)
Definition cells_Len (c : cellsb) : res Z :=
  match c with
  | UCells l => Ok (Z.of_nat (length l))
  | CCells [] => Panic PIndex
  | CCells (t :: _) => Ok (Z.of_nat (length t))
  end.
Definition Len : M vst Z := fun s => (s, cells_Len (v_cells s)).
(** cellsbuilder.go:39-41, 78-80 Cell *)
Definition cells_Cell (c : cellsb) (i : Z) : res cell :=
  match c with
  | UCells l => go_nth l i
  | CCells [] => Panic PIndex
  | CCells (t :: _) => go_nth t i
  end.
Definition CellAt (i : Z) : M vst cell := fun s => (s, cells_Cell (v_cells s) i).

(** Go [==] on two interface values holding cell values; comparing two []byte panics.
    Pointers to Binary: compressed data never yields one (see NewBinaryFromUint), the
    comparison is only needed there. *)
Definition value_eq (a b : value) : res bool :=
  match a, b with
  | VNil, VNil => Ok true
  | VUint x, VUint y => Ok (x =? y)
  | VInt x, VInt y => Ok (x =? y)
  | VFloat x, VFloat y => Ok (f64_eqb x y)
  | VBytes _, VBytes _ => Panic PCompare
  | VBin None, VBin None => Ok true
  | _, _ => Ok false
  end.
Fixpoint last_equal (c : cell) (index : Z) (ts : list (list cell)) : res bool :=
  match ts with
  | [] => Ok true
  | t :: ts' =>
      rbind (go_nth t index) (fun c' =>
      rbind (value_eq (c_val c) (c_val c')) (fun b =>
      if b then last_equal c index ts' else Ok false))
  end.
(** cellsbuilder.go:44-46, 82-91 LastCellEquality *)
Definition cells_LastCellEquality (c : cellsb) : res bool :=
  match c with
  | UCells _ => Ok true
  | CCells [] => Panic PIndex
  | CCells (t :: ts) =>
      let index := Z.of_nat (length t) - 1 in
      rbind (go_nth t index) (fun c => last_equal c index ts)
  end.
Definition LastCellEquality : M vst bool := fun s => (s, cells_LastCellEquality (v_cells s)).

(** cellsbuilder.go:67-70: append value i to tissue i (index out of range panics) *)
Fixpoint add_column (n : vnode) (ts : list (list cell)) (vs : list value) : res (list (list cell)) :=
  match vs, ts with
  | [], _ => Ok ts
  | _ :: _, [] => Panic PIndex
  | v :: vs', t :: ts' => rbind (add_column n ts' vs') (fun r => Ok ((t ++ [mkCell n v]) :: r))
  end.

(** build.go:85-94 buildValuedNodeWithInfo after Unpack, with cellsbuilder.go:29-33 and
    62-71 Add: allocate the node, add it to the tree, set its index, append the cell(s).
    The combination of an uncompressed builder and a CompressedVal (or the reverse) cannot
    arise, both are chosen by the same configuration; it is given a type panic here. *)
Definition add_valued (d : descriptor) (info : pinfo) (u : uval) : M vst vnode :=
  (idx <- Len ;;
   id <- gets (fun s => length (t_heap (v_tree s))) ;;
   let n := mkVnode id d info idx
              (match u with UV _ => VNil | UC c => cv_min c end)
              (match u with UV _ => 0 | UC c => cv_diff c end) in
   i <- alloc (NValued n) ;;
   tree_Add i ;;
   cs <- gets v_cells ;;
   match cs, u with
   | UCells l, UV v => modify (set_cells (UCells (l ++ [mkCell n v])))
   | CCells ts, UC c =>
       ts' <- lift_res (add_column n ts (cv_vals c)) ;; modify (set_cells (CCells ts'))
   | _, _ => throw PType
   end ;;
   ret n)%M.

(** ** Operator registers (payload/desvisitor.go:80-87) *)
Definition regs0 : regs := mkRegs 0 0 None [] 0 0 0 0.
Definition set_nbitsOffset (x : Z) (g : regs) : regs :=
  mkRegs x (g_scaleOffset g) (g_newRefvals g) (g_assoc g)
         (g_nbitsIncrement g) (g_scaleIncrement g) (g_refvalFactor g) (g_nbitsString g).
Definition set_scaleOffset (x : Z) (g : regs) : regs :=
  mkRegs (g_nbitsOffset g) x (g_newRefvals g) (g_assoc g)
         (g_nbitsIncrement g) (g_scaleIncrement g) (g_refvalFactor g) (g_nbitsString g).
Definition set_newRefvals (x : option (list (Z * vnode))) (g : regs) : regs :=
  mkRegs (g_nbitsOffset g) (g_scaleOffset g) x (g_assoc g)
         (g_nbitsIncrement g) (g_scaleIncrement g) (g_refvalFactor g) (g_nbitsString g).
Definition set_assoc (x : list (Z * option nat)) (g : regs) : regs :=
  mkRegs (g_nbitsOffset g) (g_scaleOffset g) (g_newRefvals g) x
         (g_nbitsIncrement g) (g_scaleIncrement g) (g_refvalFactor g) (g_nbitsString g).
Definition set_packing (ni si rf : Z) (g : regs) : regs :=
  mkRegs (g_nbitsOffset g) (g_scaleOffset g) (g_newRefvals g) (g_assoc g)
         ni si rf (g_nbitsString g).
Definition set_nbitsString (x : Z) (g : regs) : regs :=
  mkRegs (g_nbitsOffset g) (g_scaleOffset g) (g_newRefvals g) (g_assoc g)
         (g_nbitsIncrement g) (g_scaleIncrement g) (g_refvalFactor g) x.
Definition upd_regs (f : regs -> regs) : M vst unit := modify (fun s => set_regs (f (v_regs s)) s).

(** ** BitmapManager (payload/bitmap.go) *)
Definition refNotSet : Z := -1.
Definition bm0 : bmstate := mkBm refNotSet [] [] None None.
(** bitmap.go:31-35 NewAssessment *)
Definition NewAssessment : M vst unit :=
  (b <- gets v_bm ;;
   if m_backref1 b =? refNotSet then
     n <- Len ;;
     modify (set_bm (mkBm (n - 1) (m_targets b) (m_bitmaps b) (m_reusable b) (m_current b)))
   else ret tt)%M.
(** bitmap.go:38-44 NewBitmap *)
Definition NewBitmap (reusable : bool) : M vst unit :=
  (n <- Len ;;
   b <- gets v_bm ;;
   let i := Some (length (m_bitmaps b)) in
   modify (set_bm (mkBm (m_backref1 b) (m_targets b) (m_bitmaps b ++ [(n, 0)])
                        (if reusable then i else m_reusable b) i)))%M.
Fixpoint set_index1 (l : list (Z * Z)) (i : nat) (x : Z) : list (Z * Z) :=
  match l, i with
  | [], _ => []
  | (a, _) :: l', O => (a, x) :: l'
  | p :: l', S i' => p :: set_index1 l' i' x
  end.
(** bitmap.go:47-49 EndBitmap *)
Definition EndBitmap : M vst unit :=
  (b <- gets v_bm ;;
   match m_current b with
   | None => throw PNil
   | Some i =>
       n <- Len ;;
       modify (set_bm (mkBm (m_backref1 b) (m_targets b) (set_index1 (m_bitmaps b) i n)
                            (m_reusable b) (m_current b)))
   end)%M.
(** bitmap.go:51-53 RecallBitmap *)
Definition RecallBitmap : M vst unit :=
  modify (fun s => let b := v_bm s in
    set_bm (mkBm (m_backref1 b) (m_targets b) (m_bitmaps b) (m_reusable b) (m_reusable b)) s).
(** bitmap.go:56-59 CancelBitmap *)
Definition CancelBitmap : M vst unit :=
  modify (fun s => let b := v_bm s in
    set_bm (mkBm (m_backref1 b) (m_targets b) (m_bitmaps b) None None) s).
(** bitmap.go:62-65 CancelBackref *)
Definition CancelBackref : M vst unit :=
  (modify (fun s => let b := v_bm s in
     set_bm (mkBm refNotSet (m_targets b) (m_bitmaps b) (m_reusable b) (m_current b)) s) ;;
   CancelBitmap)%M.

(** bitmap.go:68-80 Bits *)
Fixpoint read_bits (pl : platform) (c : cellsb) (i0 : Z) (n : nat) : res (list Z) :=
  match n with
  | O => Ok []
  | S k =>
      rbind (cells_Cell c i0) (fun x =>
      match UintValue pl (c_val x) with
      | Ok b => rbind (read_bits pl c (i0 + 1) k) (fun bs => Ok (b :: bs))
      | Err e => Err (EWrap "bitmap bit is not an unit" e)
      | Panic p => Panic p
      | NoFuel => NoFuel
      end)
  end.
Definition Bits (pl : platform) : M vst (list Z) :=
  (b <- gets v_bm ;;
   c <- gets v_cells ;;
   match m_current b with
   | None => throw PNil
   | Some i =>
       match nth_error (m_bitmaps b) i with
       | None => throw PNil
       | Some (i0, i1) =>
           if i1 - i0 <? 0 then throw PMake
           else lift_res (read_bits pl c i0 (Z.to_nat (i1 - i0)))
       end
   end)%M.

(** bitmap.go:89-95: collect nodes backwards from [backref1]; at least one is taken when
    [backref1 >= 0]. *)
Fixpoint collect_nodes (c : cellsb) (i : nat) (want : nat) (acc : list vnode) : res (list vnode) :=
  match i with
  | O => Ok acc
  | S k =>
      rbind (cells_Cell c (Z.of_nat k)) (fun x =>
      let acc' := c_node x :: acc in
      if (length acc' <? want)%nat then collect_nodes c k want acc' else Ok acc')
  end.
(** bitmap.go:102-107 *)
Fixpoint select_zero (bits : list Z) (nodes : list vnode) : list vnode :=
  match bits, nodes with
  | b :: bs, n :: ns => if b =? 0 then n :: select_zero bs ns else select_zero bs ns
  | _, _ => []
  end.
(** bitmap.go:83-109 InitTargetNodes *)
Definition InitTargetNodes (pl : platform) : M vst (list vnode) :=
  (bits <- Bits pl ;;
   b <- gets v_bm ;;
   c <- gets v_cells ;;
   nodes <- lift_res (collect_nodes c (Z.to_nat (m_backref1 b + 1)) (length bits) []) ;;
   if negb (length bits =? length nodes)%nat
   then fail (EMsg "inconsistent number of bits and target nodes")
   else
     let targets := select_zero bits nodes in
     modify (set_bm (mkBm (m_backref1 b) targets (m_bitmaps b) (m_reusable b) (m_current b))) ;;
     ret targets)%M.
(** bitmap.go:111-114 NextTargetNode *)
Definition NextTargetNode : M vst vnode := fun s =>
  let b := v_bm s in
  match m_targets b with
  | [] => (s, Panic PIndex)
  | n :: ns =>
      (set_bm (mkBm (m_backref1 b) ns (m_bitmaps b) (m_reusable b) (m_current b)) s, Ok n)
  end.

Section Visit.
  Variable cf : config.

  (** unpack/unpacker.go:15-27 NewUnpacker and the Unpack call *)
  Definition Unpack (info : pinfo) : M vst uval :=
    zoom v_r set_r
      (if cf_json cf then json_Unpack (cf_plat cf) info
       else if cf_compressed cf
       then compressed_Unpack (cf_plat cf) (cf_fuel cf) (cf_nsubsets cf) info
       else uncompressed_Unpack (cf_plat cf) info).

  (** a method call on a possibly nil Descriptor *)
  Definition need (d : option descriptor) : M vst descriptor :=
    match d with Some x => ret x | None => throw PNil end.

  (** payload/helpers.go:10-51 calcPackingInfo *)
  Definition calcPackingInfo (d : descriptor) : M vst pinfo :=
    match d_entry d with
    | EB e =>
        (g <- gets v_regs ;;
         match be_unit e with
         | STRING =>
             ret (mkInfo STRING 0 (S754_zero false)
                    (if negb (g_nbitsString g =? 0) then g_nbitsString g else be_nbits e))
         | NUMERIC =>
             let scale := be_scale e + g_scaleOffset g + g_scaleIncrement g in
             let nbits := be_nbits e + g_nbitsOffset g + g_nbitsIncrement g in
             refval <-
               match match g_newRefvals g with Some m => assoc_get m (d_id d) | None => None end with
               | Some rn =>
                   eq <- LastCellEquality ;;
                   if negb eq then fail (EMsg "new ref val not equal across all (compressed) subsets")
                   else c <- CellAt (vn_index rn) ;;
                        v <- wrap "cannot get new ref val" (lift_res (FloatValue (c_val c))) ;;
                        ret (f64_mul v (pow10 (g_refvalFactor g)))
               | None => ret (f64_mul (f64_of_Z (be_refval e)) (pow10 (g_refvalFactor g)))
               end ;;
             ret (mkInfo NUMERIC scale refval nbits)
         | u => ret (mkInfo u (be_scale e) (f64_of_Z (be_refval e)) (be_nbits e))
         end)%M
    | _ => throw PType
    end.

  (** payload/build.go:85-94 buildValuedNodeWithInfo *)
  Definition buildValuedNodeWithInfo (d : descriptor) (info : pinfo) : M vst vnode :=
    (u <- wrap "cannot unpack value" (Unpack info) ;; add_valued d info u)%M.
  (** payload/build.go:75-81 buildValuedNode *)
  Definition buildValuedNode (d : descriptor) : M vst vnode :=
    (info <- wrap "cannot calculate packing info" (calcPackingInfo d) ;;
     buildValuedNodeWithInfo d info)%M.
  (** payload/build.go:97-105 buildZeroNode; all callers ignore the error *)
  Definition buildZeroNode (d : option descriptor) : M vst unit := fun s =>
    if cf_compatible cf then
      match (dd <- need d ;; buildValuedNodeWithInfo dd (plain_info NONNEG_CODE 0))%M s with
      | (s', Ok _) => (s', Ok tt)
      | (s', Err _) => (s', Ok tt)
      | (s', Panic p) => (s', Panic p)
      | (s', NoFuel) => (s', NoFuel)
      end
    else add_valueless d s.

  (** payload/build.go:54-70 buildAssocNodes *)
  Definition buildAssocNodes (d : descriptor) : M vst (list vnode) :=
    (g <- gets v_regs ;;
     if (id_X (d_id d) =? 31) then ret []
     else mapM (fun p =>
            n <- wrap "cannot build associated field node"
                   (buildValuedNodeWithInfo (DecorateDescriptor d) (plain_info NONNEG_CODE (fst p))) ;;
            AddMember (vn_id n) (snd p) ;;
            ret n) (g_assoc g))%M.

  (** payload/build.go:22-35 assocPairs.Push, Pop, SetNode *)
  Definition assoc_Push (n : Z) : M vst unit := upd_regs (fun g => set_assoc (g_assoc g ++ [(n, None)]) g).
  Definition assoc_Pop : M vst unit := fun s =>
    match g_assoc (v_regs s) with
    | [] => (s, Panic PIndex)
    | l => (set_regs (set_assoc (removelast l) (v_regs s)) s, Ok tt)
    end.
  Definition assoc_SetNode (i : nat) : M vst unit :=
    upd_regs (fun g => match g_assoc g with
                       | [] => g
                       | l => set_assoc (removelast l ++ [(fst (last l (0, None)), Some i)]) g
                       end).

  (** payload/desvisitor.go:100-122 VisitElementNode *)
  Definition visit_element (np : bool) (od : option descriptor) : M vst unit :=
    if np then add_valueless od
    else
      (d <- need od ;;
       anodes <- wrap "cannot process associated fields" (buildAssocNodes d) ;;
       e <- wrap "cannot process element descriptor" (buildValuedNode d) ;;
       mapM_ (fun n => AddMember (vn_id e) (Some (vn_id n))) anodes)%M.

  (** payload/desvisitor.go:125-132 VisitE031021Node *)
  Definition visit_031021 (od : option descriptor) : M vst unit :=
    (d <- need od ;;
     e <- wrap "cannot process element descriptor 031021" (buildValuedNode d) ;;
     assoc_SetNode (vn_id e))%M.

  (** payload/desvisitor.go:200-215 VisitOpNewRefvalNode, one member *)
  Definition visit_refval_member (info : pinfo) (m : anode) : M vst unit :=
    (d <- need (an_desc m) ;;
     n <- wrap "cannot process new refval definition" (buildValuedNodeWithInfo d info) ;;
     g <- gets v_regs ;;
     match g_newRefvals g with
     | None => throw PNilMap
     | Some l => upd_regs (set_newRefvals (Some ((d_id d, n) :: l)))
     end)%M.

  (** payload/desvisitor.go:316-330 VisitOpMarkerNode.  [1 << uint(n)] on int: 0 for n >= 64. *)
  Definition visit_marker (od : option descriptor) : M vst unit :=
    (t <- NextTargetNode ;;
     info <- calcPackingInfo (vn_desc t) ;;
     let info' :=
       if id_Operator (d_id (vn_desc t)) =? 225
       then mkInfo (pi_unit info) (pi_scale info)
              (f64_of_Z (i64 (- i64 (if (0 <=? pi_nbits info) && (pi_nbits info <? 64)
                                     then 2 ^ pi_nbits info else 0))))
              (pi_nbits info + 1)
       else info in
     d <- need od ;;
     buildValuedNodeWithInfo d info' ;;
     ret tt)%M.

  (** payload/desvisitor.go:367-372: the nodes of cells a0 .. a1-1.  [make] would panic if
      the number of cells had decreased, which no operation does. *)
  Fixpoint cell_nodes (c : cellsb) (i : Z) (n : nat) : res (list vnode) :=
    match n with
    | O => Ok []
    | S k => rbind (cells_Cell c i) (fun x =>
             rbind (cell_nodes c (i + 1) k) (fun l => Ok (c_node x :: l)))
    end.
  Definition nodes_since (a0 : Z) : M vst (list vnode) :=
    (a1 <- Len ;;
     if a1 - a0 <? 0 then throw PMake
     else c <- gets v_cells ;; lift_res (cell_nodes c a0 (Z.to_nat (a1 - a0))))%M.

  (** payload/desvisitor.go:307-312: attach source nodes to targets *)
  Fixpoint attach (i : Z) (targets snodes anodes : list vnode) : M vst unit :=
    match snodes with
    | [] => ret tt
    | sn :: rest =>
        (t <- lift_res (go_nth targets i) ;;
         AddMember (vn_id t) (Some (vn_id sn)) ;;
         mapM_ (fun an => AddMember (vn_id sn) (Some (vn_id an))) anodes ;;
         attach (i + 1) targets rest anodes)%M
    end.

  (** payload/desvisitor.go:67-88 reset: a fresh root block, fresh builders, registers *)
  Definition reset : M vst unit := fun s =>
    let s' c := mkV (v_r s) (mkTree [mkHnode NBlock []] 0 []) c regs0 bm0 (v_pay s) in
    if cf_compressed cf && negb (cf_json cf) then
      if cf_nsubsets cf <? 0 then (s, Panic PMake)
      else (s' (CCells (repeat [] (Z.to_nat (cf_nsubsets cf)))), Ok tt)
    else (s' (UCells []), Ok tt).

  (** payload/desvisitor.go:90-358, the visit methods, and ast.go's Accept dispatch *)
  Fixpoint visit (n : anode) : M vst unit :=
    match n with
    | ANode k od members bitmap attrs =>
        (* build.go:42-51 buildBlock *)
        let block ms :=
          (b <- alloc NBlock ;; tree_Push b ;;
           deferM tree_Pop (wrap "cannot process replicated block" (mapM_ visit ms)))%M in
        let push_valueless :=
          (i <- alloc (NValueless od) ;; tree_Push i)%M in
        match k with
        | KBase => (reset ;; wrap "cannot process member node" (mapM_ visit members))%M
        | KElement np => visit_element np od
        | KE031021 => visit_031021 od
        | KFixed =>
            (push_valueless ;;
             deferM tree_Pop
               (d <- need od ;;
                iter_Z (id_Y (d_id d)) (wrap "cannot process fixed replication node" (block members))))%M
        | KDelayed =>
            (push_valueless ;;
             deferM tree_Pop
               match members with
               | [] => throw PIndex
               | m0 :: rest =>
                   wrap "cannot process delayed replication factor" (visit m0) ;;
                   eq <- LastCellEquality ;;
                   if negb eq
                   then fail (EMsg "delayed replication factor not equal across all (compressed) subsets")
                   else
                     len <- Len ;;
                     c <- CellAt (len - 1) ;;
                     nrep <- wrap "cannot get delayed replication value as uint"
                               (lift_res (UintValue (cf_plat cf) (c_val c))) ;;
                     iter_Z nrep (wrap "cannot process delayed replication" (block rest))
               end)%M
        | KSequence =>
            (push_valueless ;;
             deferM tree_Pop (wrap "cannot process sequence members" (mapM_ visit members)))%M
        | KNbitsOffset =>
            (add_valueless od ;; d <- need od ;;
             let y := id_Operand (d_id d) in
             upd_regs (set_nbitsOffset (if y =? 0 then y else y - 128)))%M
        | KScaleOffset =>
            (add_valueless od ;; d <- need od ;;
             let y := id_Operand (d_id d) in
             upd_regs (set_scaleOffset (if y =? 0 then y else y - 128)))%M
        | KNewRefval =>
            (add_valueless od ;; d <- need od ;;
             let y := id_Operand (d_id d) in
             if negb (y =? 255)
             then mapM_ (visit_refval_member (plain_info CODE y)) members
             else ret tt)%M
        | KAssocField =>
            (add_valueless od ;; d <- need od ;;
             (if id_Y (d_id d) =? 0 then assoc_Pop else assoc_Push (id_Y (d_id d))) ;;
             wrap "cannot process assoc field significance" (mapM_ visit members))%M
        | KInsertString =>
            (d <- need od ;;
             buildValuedNodeWithInfo d (plain_info STRING (id_Y (d_id d) * NBITS_PER_BYTE)) ;;
             ret tt)%M
        | KSkipLocal =>
            (add_valueless od ;; d <- need od ;;
             match members with
             | [] => throw PIndex
             | m0 :: _ =>
                 md <- need (an_desc m0) ;;
                 buildValuedNodeWithInfo md (plain_info BINARY (id_Y (d_id d))) ;;
                 ret tt
             end)%M
        | KModifyPacking =>
            (add_valueless od ;; d <- need od ;;
             let y := id_Operand (d_id d) in
             upd_regs (if y =? 0 then set_packing 0 0 0
                       else set_packing (go_quot (10 * y + 2) 3) y y))%M
        | KSetStringLength =>
            (add_valueless od ;; d <- need od ;;
             upd_regs (set_nbitsString (id_Y (d_id d) * NBITS_PER_BYTE)))%M
        | KDataNotPresent =>
            (add_valueless od ;;
             wrap "cannot process data not presented node" (mapM_ visit members))%M
        | KAssessment =>
            (NewAssessment ;;
             buildZeroNode od ;;
             match bitmap with None => throw PNil | Some b => visit b end ;;
             a0 <- Len ;;
             wrap "cannot deserialize sandwiched nodes" (mapM_ visit attrs) ;;
             anodes <- nodes_since a0 ;;
             targets <- wrap "cannot get bitmapping target nodes" (InitTargetNodes (cf_plat cf)) ;;
             s0 <- Len ;;
             wrap "cannot deserialize bitmapping source nodes" (mapM_ visit members) ;;
             snodes <- nodes_since s0 ;;
             attach 0 targets snodes anodes)%M
        | KMarker => visit_marker od
        | KCancelBackRef => CancelBackref
        | KCancelBitmap => CancelBitmap
        | KBitmap =>
            (match od with Some _ => buildZeroNode od | None => ret tt end ;;
             d <- need od ;;
             if d_id d =? ID_237000 then RecallBitmap
             else
               NewBitmap true ;;
               deferM EndBitmap (mapM_ visit members))%M
        end
    end.

  (** bufr/payload.go:35-42 Add, called by cellsbuilder.go:48-50 and, once per tissue, 93-97 *)
  Fixpoint add_subsets (h : list hnode) (root : nat) (ls : list (list cell)) (p : list subset)
    : list subset :=
    match ls with
    | [] => p
    | l :: ls' => add_subsets h root ls' (p ++ [mkSubset (length p) l h root])
    end.
  (** payload/desvisitor.go:58-65 Produce *)
  Definition Produce : M vst unit :=
    (root <- tree_Root ;;
     modify (fun s =>
       let h := t_heap (v_tree s) in
       set_pay (add_subsets h root
                  match v_cells s with UCells l => [l] | CCells ts => ts end (v_pay s)) s))%M.

  (** deserialize/factory.go:197-209: one Accept and Produce per subset, or a single one
      for compressed binary data *)
  Definition run_payload (tree : anode) : M vst unit :=
    iter_Z (if cf_compressed cf && negb (cf_json cf) then 1 else cf_nsubsets cf)
      (visit tree ;; Produce)%M.
End Visit.

(** The visitor state before the first reset (its builders are nil; every use follows a
    reset, the placeholders are never read). *)
Definition vst0 (r : reader) : vst := mkV r (mkTree [] 0 []) (UCells []) regs0 bm0 [].
