(** Vocabulary for compatible mode (C62). *)
From Verif Require Export SpecRun.

(** The same decoding with Compatible switched on. *)
Definition compatible (cf : config) : config :=
  mkConfig (cf_compressed cf) (cf_json cf) true (cf_nsubsets cf) (cf_plat cf) (cf_fuel cf).

(** The operators that get a cell: 222000 223000 224000 225000 232000, and the definition and
    recall of a bitmap. *)
Definition zeroed (id : Z) : Prop := In id [222000; 223000; 224000; 225000; 232000; 236000; 237000].
(** How many of them have been executed. *)
Fixpoint operators (h : history) : nat :=
  match h with
  | [] => 0
  | (EvAssess _ | EvDefine | EvRecall) :: h' => S (operators h')
  | _ :: h' => operators h'
  end.

(** The datum of such an operator: its descriptor, no bits, zero in all subsets. *)
Definition zero_datum (x : datum) : Prop :=
  zeroed (d_id (dt_desc x)) /\ dt_info x = bare NONNEG_CODE 0 /\ Forall (eq (VUint 0)) (dt_vals x).
(** [zeros_added l l' n]: [l'] is [l] with [n] such data inserted. *)
Inductive zeros_added : list datum -> list datum -> nat -> Prop :=
| za_nil : zeros_added [] [] 0
| za_keep x l l' n : zeros_added l l' n -> zeros_added (x :: l) (x :: l') n
| za_zero x l l' n : zero_datum x -> zeros_added l l' n -> zeros_added l (x :: l') (S n).
(** The same of cells: the others keep everything but their position. *)
Definition same_but_index (c c' : cell) : Prop :=
  let n := c_node c in let n' := c_node c' in
  vn_desc n' = vn_desc n /\ vn_info n' = vn_info n /\ vn_min n' = vn_min n /\ vn_diff n' = vn_diff n /\ c_val c' = c_val c.
Definition zero_of_operator (c : cell) : Prop :=
  zeroed (d_id (vn_desc (c_node c))) /\ vn_info (c_node c) = bare NONNEG_CODE 0 /\ c_val c = VUint 0.
Inductive zero_cells_added : list cell -> list cell -> nat -> Prop :=
| zc_nil : zero_cells_added [] [] 0
| zc_keep c c' l l' n : same_but_index c c' -> zero_cells_added l l' n -> zero_cells_added (c :: l) (c' :: l') n
| zc_zero c l l' n : zero_of_operator c -> zero_cells_added l l' n -> zero_cells_added l (c :: l') (S n).

(** ** Which bitmaps do not reach over an operator that gets a cell *)

(** What was executed before the operator that bitmaps refer back from: the first assessment
    operator since the last 235000. *)
Fixpoint reference (h : history) : option history :=
  match h with
  | [] | EvCancelBackref :: _ => None
  | EvAssess _ :: h' => match reference h' with None => Some h' | r => r end
  | _ :: h' => reference h'
  end.
(** Cells since the last operator that would get one. *)
Fixpoint recent (h : history) : nat :=
  match h with
  | [] | EvZero _ :: _ => 0
  | e :: h' => (recent h' + length (ev_data e))%nat
  end.
(** Every bitmap has a bit, and no more bits than there are such cells at its reference. *)
Definition short_bitmaps (h : history) : Prop :=
  forall later ps before, h = later ++ EvTargets ps :: before ->
  exists ref, reference before = Some ref /\
    forall i0 i1, bitmap before = Some (i0, i1) -> (1 <= i1 - i0 <= recent ref)%nat.

(** Templates whose factors are elements, and whose bitmaps and assessments hold no further
    assessments or bitmap operators as members. *)
Definition quiet (n : anode) : Prop :=
  all_nodes (fun m => an_kind m <> KAssessment /\ an_kind m <> KBitmap) n.
Definition simple_node (n : anode) : Prop :=
  match n with
  | ANode KDelayed _ ms _ _ => match ms with
                               | m :: _ => an_kind m = KElement false \/ an_kind m = KE031021
                               | [] => True
                               end
  | ANode KAssessment _ ms _ _ | ANode KBitmap _ ms _ _ => Forall quiet ms
  | _ => True
  end.
Definition simple (n : anode) : Prop := all_nodes simple_node n.
(** The history that subset [k] shows. *)
Definition history_of (cf : config) (hs : list history) (k : nat) : option history :=
  if columns cf then nth_error hs 0 else nth_error hs k.
(** [pay'] is [pay] with a zero cell for each of the operators executed in the histories. *)
Definition zeros_in_subsets (cf : config) (hs : list history) (pay pay' : list subset) : Prop :=
  length pay' = length pay /\
  forall k sb sb' h, nth_error pay k = Some sb -> nth_error pay' k = Some sb' -> history_of cf hs k = Some h ->
  zero_cells_added (sb_cells sb) (sb_cells sb') (operators h).

(** Templates that begin with an element, have no 235000, and bitmaps only in assessments:
    all bitmaps refer to the first assessment operator. *)
Definition one_reference_node (n : anode) : Prop :=
  match n with
  | ANode k _ ms _ a => k <> KCancelBackRef /\ Forall (fun m => an_kind m <> KBitmap) (ms ++ a)
  end.
Definition one_reference (ms : list anode) : Prop :=
  Forall (all_nodes one_reference_node) ms /\ Forall (fun m => an_kind m <> KBitmap) ms /\
  exists m ms', ms = m :: ms' /\ an_kind m = KElement false.
