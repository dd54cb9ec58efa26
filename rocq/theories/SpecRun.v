(** What decoding one subset (or all compressed subsets at once) means, as a relation on
    histories (C37-C49).  Everything an element depends on - operators in force, open
    associated fields, bitmap, targets - is looked up in the history of what has been
    executed so far; there are no registers, builders or trees here. *)
From Verif Require Export SpecParser SpecUnpack ModelPayload.

(** ** Histories, newest event first *)

(** One decoded item: descriptor, packing, and one value per subset (a single one unless the
    data are compressed; then also the common minimum and increment width). *)
Record datum : Type := mkDatum {
  dt_desc : descriptor; dt_info : pinfo; dt_min : value; dt_diff : Z; dt_vals : list value }.

Inductive event : Type :=
| EvOp (op : Z) (d : descriptor)                   (* op = 201 202 203 204 207 208 *)
| EvNote (d : option descriptor)                   (* 221; elements not present *)
| EvElement (fields : list datum) (own : datum)    (* associated fields, element *)
| EvItem (k : akind) (own : datum)                 (* 031021, 205, 206, marker *)
| EvAssess (d : option descriptor)                 (* 222 223 224 225 232 begin *)
| EvZero (own : option datum)                      (* their cell, in compatible mode *)
| EvTargets (ps : list nat)                        (* positions of the target cells *)
| EvCancelBackref | EvCancelBitmap                 (* 235000; 237255 *)
| EvDefine | EvDefined | EvRecall.                 (* 236000 begin and end; 237000 *)
Notation history := (list event).

Definition ev_data (e : event) : list datum :=
  match e with
  | EvElement fs x => fs ++ [x]
  | EvItem _ x => [x]
  | EvZero (Some x) => [x]
  | _ => []
  end.
(** Everything decoded so far, in order. *)
Fixpoint data (h : history) : list datum :=
  match h with [] => [] | e :: h' => data h' ++ ev_data e end.
Definition ncells (h : history) : nat := length (data h).

(** ** Looking back *)

(** Operand of the most recent operator [op], 0 if there is none. *)
Fixpoint last_operand (op : Z) (h : history) : Z :=
  match h with
  | [] => 0
  | EvOp o d :: h' => if o =? op then id_Operand (d_id d) else last_operand op h'
  | _ :: h' => last_operand op h'
  end.
(** Operands 1..255 of 201 and 202 mean -127..127; 0 cancels. *)
Definition offset (op : Z) (h : history) : Z :=
  let y := last_operand op h in if y =? 0 then 0 else y - 128.
(** Widths of the open 204 operators, outermost first. *)
Fixpoint open_fields (h : history) : list Z :=
  match h with
  | [] => []
  | EvOp o d :: h' =>
      if o =? 204
      then if id_Operand (d_id d) =? 0 then removelast (open_fields h')
           else open_fields h' ++ [id_Operand (d_id d)]
      else open_fields h'
  | _ :: h' => open_fields h'
  end.
(** Packing of the element [d]. *)
Definition packing (h : history) (e : bentry) : pinfo :=
  match be_unit e with
  | STRING =>
      let y := last_operand 208 h in
      mkInfo STRING 0 (S754_zero false) (if y =? 0 then be_nbits e else 8 * y)
  | NUMERIC =>
      let y := last_operand 207 h in
      mkInfo NUMERIC
        (be_scale e + offset 202 h + y)
        (f64_mul (f64_of_Z (be_refval e)) (pow10 y))
        (be_nbits e + offset 201 h + (if y =? 0 then 0 else go_quot (10 * y + 2) 3))
  | u => mkInfo u (be_scale e) (f64_of_Z (be_refval e)) (be_nbits e)
  end.

(** Packing of a marker whose target is [t]: that of the target.  (Only a target whose own
    identifier is 225YYY would be widened by a bit, with reference -2^width; see C47.) *)
Definition marker_packing (h : history) (t : descriptor) (e : bentry) : pinfo :=
  let p := packing h e in
  if id_Operator (d_id t) =? 225
  then mkInfo (pi_unit p) (pi_scale p)
         (f64_of_Z (i64 (- i64 (if (0 <=? pi_nbits p) && (pi_nbits p <? 64) then 2 ^ pi_nbits p else 0))))
         (pi_nbits p + 1)
  else p.

(** Number of cells before the operator that bitmaps refer back from: the first assessment
    operator with a cell before it since the last 235000; 0 if there is none. *)
Fixpoint backref (h : history) : nat :=
  match h with
  | [] | EvCancelBackref :: _ => 0%nat
  | EvAssess _ :: h' => match backref h' with O => ncells h' | n => n end
  | _ :: h' => backref h'
  end.
(** The cells [i0, i1) of the bitmap in force. *)
Fixpoint bitmap (h : history) : option (nat * nat) :=
  match h with
  | [] | EvCancelBitmap :: _ | EvCancelBackref :: _ => None
  | EvDefine :: h' => Some (ncells h', 0%nat)
  | EvDefined :: h' => match bitmap h' with Some (i0, _) => Some (i0, ncells h') | None => None end
  | _ :: h' => bitmap h'
  end.
(** Targets not yet used by a marker. *)
Fixpoint targets_left (h : history) : list nat :=
  match h with
  | [] => []
  | EvTargets ps :: _ => ps
  | EvItem KMarker _ :: h' => tl (targets_left h')
  | _ :: h' => targets_left h'
  end.

(** The values that Go's [==] takes for equal: missing values, equal integers of the same type
    and equal floating-point numbers (a NaN is equal to nothing, and 0 to -0). *)
Definition equal_values (v w : value) : Prop :=
  match v, w with
  | VNil, VNil => True
  | VUint x, VUint y => x = y
  | VInt x, VInt y => x = y
  | VFloat x, VFloat y => SFcompare x y = Some Eq
  | VBin None, VBin None => True
  | _, _ => False
  end.

(** ** Execution *)

Section Run.
  Variable cf : config.
  (** One value per cell, or one per subset. *)
  Definition columns : bool := cf_compressed cf && negb (cf_json cf).
  Definition lanes : nat := if columns then Z.to_nat (cf_nsubsets cf) else 1%nat.

  (** Decoding one item. *)
  Inductive decodes (d : descriptor) (info : pinfo) (r : reader) : datum -> reader -> Prop :=
  | dec_bits v r' : cf_json cf = false -> cf_compressed cf = false ->
      uncompressed_Unpack (cf_plat cf) info r = (r', Ok (UV v)) ->
      decodes d info r (mkDatum d info VNil 0 [v]) r'
  | dec_json v r' : cf_json cf = true -> json_Unpack (cf_plat cf) info r = (r', Ok (UV v)) ->
      decodes d info r (mkDatum d info VNil 0 [v]) r'
  | dec_column c r' : cf_json cf = false -> cf_compressed cf = true ->
      compressed_Unpack (cf_plat cf) (cf_fuel cf) (cf_nsubsets cf) info r = (r', Ok (UC c)) ->
      decodes d info r (mkDatum d info (cv_min c) (cv_diff c) (cv_vals c)) r'.
  (** An attempt that fails (after reading up to [r']). *)
  Definition unreadable (info : pinfo) (r r' : reader) : Prop :=
    exists e, (if cf_json cf then json_Unpack (cf_plat cf) info
               else if cf_compressed cf
               then compressed_Unpack (cf_plat cf) (cf_fuel cf) (cf_nsubsets cf) info
               else uncompressed_Unpack (cf_plat cf) info) r = (r', Err e).
  (** Associated fields of the given widths. *)
  Inductive fields (d : descriptor) : list Z -> reader -> list datum -> reader -> Prop :=
  | fields_nil r : fields d [] r [] r
  | fields_cons w ws r x r1 xs r' :
      decodes (associated d) (bare NONNEG_CODE w) r x r1 ->
      fields d ws r1 xs r' -> fields d (w :: ws) r (x :: xs) r'.
  (** The cell of an assessment or bitmap operator: a zero in compatible mode only. *)
  Inductive zero_cell (od : option descriptor) (r : reader) : option datum -> reader -> Prop :=
  | zero_none : cf_compatible cf = false -> zero_cell od r None r
  | zero_some d x r' : cf_compatible cf = true -> od = Some d ->
      decodes d (bare NONNEG_CODE 0) r x r' -> zero_cell od r (Some x) r'
  | zero_failed d r' : cf_compatible cf = true -> od = Some d ->
      unreadable (bare NONNEG_CODE 0) r r' -> zero_cell od r None r'.

  (** The value by which a delayed replication repeats: the last one decoded, which must be
      the same number in all subsets. *)
  Definition factor (h : history) (n : nat) : Prop :=
    exists ds x v vs z, data h = ds ++ [x] /\ dt_vals x = v :: vs /\
      Forall (equal_values v) vs /\
      UintValue (cf_plat cf) v = Ok z /\ n = Z.to_nat z.
  (** The bits of the bitmap in force, as decoded for the first subset. *)
  Definition bitmap_bits (h : history) (bits : list Z) : Prop :=
    exists i0 i1, bitmap h = Some (i0, i1) /\ (i0 <= i1)%nat /\
      Forall2 (fun x b => exists v vs, dt_vals x = v :: vs /\ UintValue (cf_plat cf) v = Ok b)
        (firstn (i1 - i0) (skipn i0 (data h))) bits /\ length bits = (i1 - i0)%nat.
  (** Positions [p], [p+1], ... whose bit is zero. *)
  Fixpoint zero_positions (p : nat) (bits : list Z) : list nat :=
    match bits with
    | [] => []
    | b :: bs => if b =? 0 then p :: zero_positions (S p) bs else zero_positions (S p) bs
    end.
  (** The targets: the last cells before the reference point, as many as there are bits. *)
  Definition selects (h : history) (ps : list nat) : Prop :=
    exists bits, bitmap_bits h bits /\ (length bits <= backref h)%nat /\
      (bits = [] -> backref h = 0%nat) /\
      ps = zero_positions (backref h - length bits) bits.

  Inductive runs : history -> reader -> anode -> history -> reader -> Prop :=
  | run_absent h r od ms b a :
      runs h r (ANode (KElement true) od ms b a) (EvNote od :: h) r
  | run_element h r d e fs x r1 r2 ms b a :
      d_entry d = EB e ->
      fields d (if id_X (d_id d) =? 31 then [] else open_fields h) r fs r1 ->
      decodes d (packing h e) r1 x r2 ->
      runs h r (ANode (KElement false) (Some d) ms b a) (EvElement fs x :: h) r2
  | run_031021 h r d e x r1 ms b a :
      d_entry d = EB e -> decodes d (packing h e) r x r1 ->
      runs h r (ANode KE031021 (Some d) ms b a) (EvItem KE031021 x :: h) r1
  | run_sequence h r od ms b a h' r' :
      runs_list h r ms h' r' -> runs h r (ANode KSequence od ms b a) h' r'
  | run_fixed h r d ms b a h' r' :
      runs_times (Z.to_nat (id_Y (d_id d))) h r ms h' r' ->
      runs h r (ANode KFixed (Some d) ms b a) h' r'
  | run_delayed h r od m ms b a h1 r1 n h' r' :
      runs h r m h1 r1 -> factor h1 n -> runs_times n h1 r1 ms h' r' ->
      runs h r (ANode KDelayed od (m :: ms) b a) h' r'
  | run_plain_op h r k op d ms b a :
      In (k, op) [(KNbitsOffset, 201); (KScaleOffset, 202); (KModifyPacking, 207); (KSetStringLength, 208)] ->
      runs h r (ANode k (Some d) ms b a) (EvOp op d :: h) r
  | run_refval h r d ms b a :
      id_Operand (d_id d) = 255 \/ ms = [] ->
      runs h r (ANode KNewRefval (Some d) ms b a) (EvOp 203 d :: h) r
  | run_assoc h r d ms b a h' r' :
      (id_Y (d_id d) = 0 -> open_fields h <> []) ->
      runs_list (EvOp 204 d :: h) r ms h' r' ->
      runs h r (ANode KAssocField (Some d) ms b a) h' r'
  | run_insert h r d x r1 ms b a :
      decodes d (bare STRING (8 * id_Y (d_id d))) r x r1 ->
      runs h r (ANode KInsertString (Some d) ms b a) (EvItem KInsertString x :: h) r1
  | run_local h r d m md x r1 ms b a :
      an_desc m = Some md ->
      decodes md (bare BINARY (id_Y (d_id d))) r x r1 ->
      runs h r (ANode KSkipLocal (Some d) (m :: ms) b a) (EvItem KSkipLocal x :: h) r1
  | run_not_present h r od ms b a h' r' :
      runs_list (EvNote od :: h) r ms h' r' ->
      runs h r (ANode KDataNotPresent od ms b a) h' r'
  | run_assess h r od ms bm at_ z r1 h2 r2 h3 r3 ps h4 r4 :
      zero_cell od r z r1 ->
      runs (EvZero z :: EvAssess od :: h) r1 bm h2 r2 ->
      runs_list h2 r2 at_ h3 r3 ->
      selects h3 ps ->
      runs_list (EvTargets ps :: h3) r3 ms h4 r4 ->
      (ncells h4 - ncells h3 <= length ps)%nat ->
      runs h r (ANode KAssessment od ms (Some bm) at_) h4 r4
  | run_marker h r d p ps t e x r1 ms b a :
      targets_left h = p :: ps -> nth_error (data h) p = Some t ->
      d_entry (dt_desc t) = EB e ->
      decodes d (marker_packing h (dt_desc t) e) r x r1 ->
      runs h r (ANode KMarker (Some d) ms b a) (EvItem KMarker x :: h) r1
  | run_cancel_backref h r od ms b a :
      runs h r (ANode KCancelBackRef od ms b a) (EvCancelBackref :: h) r
  | run_cancel_bitmap h r od ms b a :
      runs h r (ANode KCancelBitmap od ms b a) (EvCancelBitmap :: h) r
  | run_recall h r d ms b a z r1 :
      d_id d = ID_237000 -> zero_cell (Some d) r z r1 ->
      runs h r (ANode KBitmap (Some d) ms b a) (EvRecall :: EvZero z :: h) r1
  | run_define h r d ms b a z r1 h' r' :
      d_id d <> ID_237000 -> zero_cell (Some d) r z r1 ->
      runs_list (EvDefine :: EvZero z :: h) r1 ms h' r' -> bitmap h' <> None ->
      runs h r (ANode KBitmap (Some d) ms b a) (EvDefined :: h') r'
  with runs_list : history -> reader -> list anode -> history -> reader -> Prop :=
  | run_nil h r : runs_list h r [] h r
  | run_cons h r n ns h1 r1 h2 r2 :
      runs h r n h1 r1 -> runs_list h1 r1 ns h2 r2 -> runs_list h r (n :: ns) h2 r2
  with runs_times : nat -> history -> reader -> list anode -> history -> reader -> Prop :=
  | run_0 h r ns : runs_times 0 h r ns h r
  | run_S k h r ns h1 r1 h2 r2 :
      runs_list h r ns h1 r1 -> runs_times k h1 r1 ns h2 r2 -> runs_times (S k) h r ns h2 r2.
End Run.

(** ** Payloads *)

(** Cell [i] of subset [k] is the datum [x]: same descriptor and packing, index [i], and the
    [k]-th value. *)
Definition is_cell (k i : nat) (d : datum) (c : cell) : Prop :=
  vn_desc (c_node c) = dt_desc d /\ vn_info (c_node c) = dt_info d /\ vn_index (c_node c) = Z.of_nat i /\
  vn_min (c_node c) = dt_min d /\ vn_diff (c_node c) = dt_diff d /\ nth_error (dt_vals d) k = Some (c_val c).
Definition lane_ok (k : nat) (ds : list datum) (l : list cell) : Prop :=
  length l = length ds /\
  forall i d c, nth_error ds i = Some d -> nth_error l i = Some c -> is_cell k i d c.
(** The subsets of an uncompressed payload are executed one after the other, each from an
    empty history. *)
Inductive subsets_run (cf : config) (ms : list anode) : nat -> reader -> list history -> reader -> Prop :=
| subsets_none r : subsets_run cf ms 0 r [] r
| subsets_one n r h r1 hs r2 :
    runs_list cf [] r ms h r1 -> subsets_run cf ms n r1 hs r2 ->
    subsets_run cf ms (S n) r (h :: hs) r2.
(** Executing a template's nodes [ms]: one history per subset, or a single one for all
    subsets of compressed data. *)
Definition executes (cf : config) (ms : list anode) (r : reader) (hs : list history) (r' : reader) : Prop :=
  if columns cf then exists h, hs = [h] /\ runs_list cf [] r ms h r'
  else subsets_run cf ms (Z.to_nat (cf_nsubsets cf)) r hs r'.
(** The subsets that show these histories. *)
Definition shows (cf : config) (hs : list history) (pay : list subset) : Prop :=
  if columns cf
  then exists h, hs = [h] /\ length pay = Z.to_nat (cf_nsubsets cf) /\
         forall k sb, nth_error pay k = Some sb -> lane_ok k (data h) (sb_cells sb)
  else Forall2 (fun h sb => lane_ok 0 (data h) (sb_cells sb)) hs pay.
(** Compressed data need at least one subset. *)
Definition some_subset (cf : config) : Prop := columns cf = true -> 0 < cf_nsubsets cf.

(** [seg] are the bits of the datum [x]: whatever follows, reading them with [x]'s packing
    gives [x] and stops right behind them. *)
Definition bits_of (cf : config) (x : datum) (seg : list bool) : Prop :=
  forall rest e p, exists p',
    decodes cf (dt_desc x) (dt_info x) (RBit (mkBR (seg ++ rest) e p)) x (RBit (mkBR rest e p')).
(** No datum is the nil value that a local (206YYY) field becomes when the stream ends
    within it. *)
Definition no_nil_binary (x : datum) : Prop := hd_error (dt_vals x) <> Some (VBin None).
Definition binary_reader (r : reader) (l : list bool) : Prop := exists e p, r = RBit (mkBR l e p).

(** ** Observing payloads *)

(** The same decoding with another number of subsets. *)
Definition with_subsets (cf : config) (n : Z) : config :=
  mkConfig (cf_compressed cf) (cf_json cf) (cf_compatible cf) n (cf_plat cf) (cf_fuel cf).
(** What a caller sees of a run: where the reader stands, the subsets, the result. *)
Definition result_of (x : vst * res unit) : reader * list subset * res unit :=
  (v_r (fst x), v_pay (fst x), snd x).
Definition renumber (k : nat) (sb : subset) : subset :=
  mkSubset (k + sb_index sb) (sb_cells sb) (sb_heap sb) (sb_root sb).
(** The outcome [o] of decoding further subsets behind the subsets [p]. *)
Definition after (p : list subset) (o : reader * list subset * res unit) : reader * list subset * res unit :=
  let '(r, q, x) := o in (r, p ++ map (renumber (length p)) q, x).
(** Subsets know their position. *)
Definition indexed (p : list subset) : Prop := forall k sb, nth_error p k = Some sb -> sb_index sb = k.
(** What a user sees of a cell, apart from the identity of its node. *)
Definition view (c : cell) : descriptor * pinfo * Z * value * Z * value :=
  let n := c_node c in (vn_desc n, vn_info n, vn_index n, vn_min n, vn_diff n, c_val c).
Definition views (pay : list subset) : list (list (descriptor * pinfo * Z * value * Z * value)) :=
  map (fun sb => map view (sb_cells sb)) pay.
(** Following Members() from node [a]. *)
Inductive reachable (heap : list hnode) : nat -> nat -> Prop :=
| reach_here a : reachable heap a a
| reach_member a n b c : nth_error heap a = Some n -> In (Some b) (h_members n) ->
    reachable heap b c -> reachable heap a c.
(** The cell's node is in the subset's tree. *)
Definition in_tree (sb : subset) (c : cell) : Prop :=
  reachable (sb_heap sb) (sb_root sb) (vn_id (c_node c)) /\
  exists n, nth_error (sb_heap sb) (vn_id (c_node c)) = Some n /\ h_kind n = NValued (c_node c).

(** Nodes other than sequences and replications. *)
Definition flat_kind (k : akind) : Prop := match k with KBase | KSequence | KFixed | KDelayed => False | _ => True end.

(** ** Writing out sequences and fixed replications

    [unfolds l l']: [l'] is [l] with some sequences replaced by their members and some fixed
    replications written out, at any depth. *)
Inductive unfolds : list anode -> list anode -> Prop :=
| unfold_sequence od ms b a : unfolds [ANode KSequence od ms b a] ms
| unfold_fixed d ms b a :
    unfolds [ANode KFixed (Some d) ms b a] (concat (repeat ms (Z.to_nat (id_Y (d_id d)))))
| unfold_same l : unfolds l l
| unfold_app a a' b b' : unfolds a a' -> unfolds b b' -> unfolds (a ++ b) (a' ++ b')
| unfold_within k od ms ms' b b' a a' :
    In k [KSequence; KFixed; KAssocField; KDataNotPresent; KAssessment; KBitmap] ->
    unfolds ms ms' -> option_map (fun _ => tt) b = option_map (fun _ => tt) b' ->
    (forall x x', b = Some x -> b' = Some x' -> unfolds [x] [x']) -> unfolds a a' ->
    unfolds [ANode k od ms b a] [ANode k od ms' b' a']
| unfold_within_delayed od m m' ms ms' b a :
    unfolds [m] [m'] -> unfolds ms ms' ->
    unfolds [ANode KDelayed od (m :: ms) b a] [ANode KDelayed od (m' :: ms') b a]
| unfold_sym a b : unfolds a b -> unfolds b a
| unfold_trans a b c : unfolds a b -> unfolds b c -> unfolds a c.
(** No root node inside a template. *)
Definition rootless (l : list anode) : Prop := Forall (all_nodes (fun n => an_kind n <> KBase)) l.

(** ** Every event is justified by those before it *)
Definition event_ok (cf : config) (before : history) (e : event) : Prop :=
  match e with
  | EvElement fs x =>
      (exists b, d_entry (dt_desc x) = EB b /\ dt_info x = packing before b) /\
      map dt_info fs = map (bare NONNEG_CODE)
                         (if id_X (d_id (dt_desc x)) =? 31 then [] else open_fields before) /\
      Forall (fun f => dt_desc f = associated (dt_desc x)) fs
  | EvItem KE031021 x => exists b, d_entry (dt_desc x) = EB b /\ dt_info x = packing before b
  | EvItem KInsertString x => dt_info x = bare STRING (8 * id_Y (d_id (dt_desc x)))
  | EvItem KSkipLocal x => exists y, dt_info x = bare BINARY y
  | EvItem KMarker x =>
      exists p ps t b, targets_left before = p :: ps /\ nth_error (data before) p = Some t /\
        d_entry (dt_desc t) = EB b /\ dt_info x = marker_packing before (dt_desc t) b
  | EvZero (Some x) => cf_compatible cf = true /\ dt_info x = bare NONNEG_CODE 0
  | EvTargets ps => selects cf before ps
  | _ => True
  end.
Definition justified (cf : config) (h : history) : Prop :=
  forall later e before, h = later ++ e :: before -> event_ok cf before e.

(** ** Replication factors *)

(** The value of the last cell of each subset. *)
Definition last_values (pay : list subset) : list (option value) :=
  map (fun sb => nth_error (map c_val (sb_cells sb)) (length (sb_cells sb) - 1)) pay.
(** All subsets end with the same number [z]. *)
Definition agreed (pl : platform) (pay : list subset) (z : Z) : Prop :=
  exists v vs, last_values pay = Some v :: map Some vs /\
    Forall (equal_values v) vs /\ UintValue pl v = Ok z.
(** One pass over the template. *)
Definition one_pass (cf : config) : Prop := columns cf = true \/ cf_nsubsets cf = 1.

(** ** Executed order *)

(** The identifiers of the elements and operators executed, oldest first. *)
Definition ev_ids (e : event) : list Z :=
  match e with
  | EvOp _ d => [d_id d]
  | EvElement _ x | EvItem KE031021 x | EvItem KInsertString x => [d_id (dt_desc x)]
  | _ => []
  end.
Fixpoint executed (h : history) : list Z :=
  match h with [] => [] | e :: h' => executed h' ++ ev_ids e end.
(** The same, read off the template: sequences dissolved, replications written out. *)
Fixpoint order (n : anode) : list Z :=
  match n with
  | ANode k od ms _ _ =>
      let own := match od with Some d => [d_id d] | None => [] end in
      match k with
      | KElement false | KE031021 | KInsertString
      | KNbitsOffset | KScaleOffset | KModifyPacking | KSetStringLength | KNewRefval => own
      | KSequence | KDataNotPresent => flat_map order ms
      | KFixed => match od with
                  | Some d => concat (repeat (flat_map order ms) (Z.to_nat (id_Y (d_id d))))
                  | None => [] end
      | KAssocField => own ++ flat_map order ms
      | _ => []
      end
  end.
(** Templates whose order does not depend on the data. *)
Definition straight_kind (k : akind) : Prop :=
  match k with
  | KElement np => np = false
  | KE031021 | KInsertString | KSkipLocal | KNbitsOffset | KScaleOffset | KModifyPacking
  | KSetStringLength | KNewRefval | KSequence | KDataNotPresent | KFixed | KAssocField => True
  | _ => False
  end.
Definition straight (n : anode) : Prop := all_nodes (fun n => straight_kind (an_kind n)) n.
(** Operand of the last operator [op] among [ids], 0 if there is none. *)
Definition latest (op : Z) (ids : list Z) : Z :=
  fold_left (fun y id => if id_Operator id =? op then id_Operand id else y) ids 0.
(** The associated fields open after [ids], when [ws] were open before: 204YYY opens one,
    204000 closes the last. *)
Definition open_after (ws ids : list Z) : list Z :=
  fold_left (fun ws id => if id_Operator id =? 204
                          then if id_Operand id =? 0 then removelast ws else ws ++ [id_Operand id]
                          else ws) ids ws.
Definition widths (ids : list Z) : list Z := open_after [] ids.
(** Properly nested 204YYY ... 204000. *)
Inductive nested : list Z -> Prop :=
| nested_nil : nested []
| nested_other id ids : id_Operator id <> 204 -> nested ids -> nested (id :: ids)
| nested_block w inner c ids : id_Operator w = 204 -> id_Operand w <> 0 -> nested inner ->
    id_Operator c = 204 -> id_Operand c = 0 -> nested ids -> nested (w :: inner ++ c :: ids).
(** Packing of an element with the Table B entry [e] after [ids]. *)
Definition packing_after (ids : list Z) (e : bentry) : pinfo :=
  match be_unit e with
  | STRING =>
      let y := latest 208 ids in
      mkInfo STRING 0 (S754_zero false) (if y =? 0 then be_nbits e else 8 * y)
  | NUMERIC =>
      let y := latest 207 ids in
      let off op := if latest op ids =? 0 then 0 else latest op ids - 128 in
      mkInfo NUMERIC (be_scale e + off 202 + y) (f64_mul (f64_of_Z (be_refval e)) (pow10 y))
        (be_nbits e + off 201 + (if y =? 0 then 0 else go_quot (10 * y + 2) 3))
  | u => mkInfo u (be_scale e) (f64_of_Z (be_refval e)) (be_nbits e)
  end.
(** Descriptor and packing of the cells of an element, its associated fields first. *)
Definition element_cells (ids : list Z) (d : descriptor) (e : bentry) : list (descriptor * pinfo) :=
  map (fun w => (associated d, bare NONNEG_CODE w))
    (if id_X (d_id d) =? 31 then [] else widths ids) ++ [(d, packing_after ids e)].
Definition what (x : datum) : descriptor * pinfo := (dt_desc x, dt_info x).
Definition cell_what (c : cell) : descriptor * pinfo := (vn_desc (c_node c), vn_info (c_node c)).
