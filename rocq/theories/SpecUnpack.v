(** Small specification of element values (C31-C36), independent of the unpackers' code. *)
From Verif Require Export SpecBits ModelUnpack.

(** ** One element, one subset *)

(** The unsigned number an element's bits hold (the reduction only matters beyond 64 bits). *)
Definition raw (seg : list bool) : Z := msb seg mod 2 ^ 64.
Definition all_ones (seg : list bool) : bool := forallb (fun b => b) seg.
(** Missing values: all bits set, from two bits on.  (Beyond 64 bits the code takes the
    number 0 for missing instead.) *)
Definition missing (seg : list bool) : bool :=
  (2 <=? blen seg) && (if blen seg <=? 64 then all_ones seg else raw seg =? 0).
(** (n + reference) / 10^scale; no operation for a zero reference, none for a zero scale. *)
Definition scaled (refval : f64) (scale n : Z) : f64 :=
  let sum := if f64_nonzero refval then f64_add (f64_of_Z n) refval else f64_of_Z n in
  if scale =? 0 then sum else f64_div sum (pow10 scale).
(** Sign bit, then magnitude. *)
Definition signed (seg : list bool) : Z :=
  i64 ((if hd false seg then -1 else 1) * msb (tl seg)).

(** The value of a non-missing number [n] under the packing [info]. *)
Definition value_of_number (info : pinfo) (n : Z) : value :=
  match pi_unit info with
  | NUMERIC => VFloat (scaled (pi_refval info) (pi_scale info) n)
  | _ => VUint n
  end.
(** The value an element's own bits mean. *)
Definition decode_value (info : pinfo) (seg : list bool) : value :=
  match pi_unit info with
  | STRING => VBytes (map msb (chunks8 seg))
  | CODE => VInt (signed seg)
  | BINARY => VBin (Some (mkBin (map msb (chunks8 seg)) (pi_nbits info)))
  | _ => if missing seg then VNil else value_of_number info (raw seg)
  end.
(** How many bits an element occupies. *)
Definition bits_needed (info : pinfo) : Z :=
  match pi_unit info with
  | STRING => 8 * (Z.max 0 (pi_nbits info) / 8)
  | CODE => Z.max 1 (pi_nbits info)
  | _ => Z.max 0 (pi_nbits info)
  end.
(** Packing information that makes sense. *)
Definition sensible (info : pinfo) : Prop :=
  match pi_unit info with CODE => 1 <= pi_nbits info | _ => 0 <= pi_nbits info end.

(** ** One element, many subsets *)

(** The bits of a compressed element: common minimum, increment width, increments. *)
Record column : Type := mkColumn {
  co_min : list bool; co_width : list bool; co_incs : list (list bool) }.
Definition column_bits (c : column) : list bool := co_min c ++ co_width c ++ concat (co_incs c).
Definition inc_width (c : column) : Z := msb (co_width c).

(** [c] is a well-formed column of [n] numbers of [w] bits: 6 bits of increment width; no
    increments if that is zero, else one of that width per subset. *)
Definition column_of (w n : Z) (c : column) : Prop :=
  blen (co_min c) = w /\ blen (co_width c) = 6 /\
  (if inc_width c =? 0 then co_incs c = []
   else blen (co_incs c) = n /\ Forall (fun i => blen i = inc_width c) (co_incs c) /\
        missing (co_min c) = false).
(** The associated field of an element: the element's descriptor, marked. *)
Definition associated (d : descriptor) : descriptor := mkDesc (d_id d) (d_entry d) true.
(** The packing of a field that has only a unit and a width: associated fields, inserted
    strings, local fields. *)
Definition bare (u : unit_t) (n : Z) : pinfo := mkInfo u 0 (S754_zero false) n.
(** A number stored in a field of [w] bits, as a value. *)
Definition number_or_nil (info : pinfo) (n : Z) : value :=
  if (2 <=? pi_nbits info) && (n =? (if pi_nbits info <=? 64 then 2 ^ pi_nbits info - 1 else 0))
  then VNil else value_of_number info n.
(** Its values, one per subset. *)
Definition column_values (info : pinfo) (n : Z) (c : column) : list value :=
  if inc_width c =? 0
  then repeat (number_or_nil info (raw (co_min c))) (Z.to_nat n)
  else map (fun inc => if missing inc then VNil
                       else number_or_nil info ((raw (co_min c) + raw inc) mod 2 ^ 64)) (co_incs c).

(** Packings of numbers in compressed data. *)
Definition compressed_number (info : pinfo) : bool :=
  match pi_unit info with
  | NUMERIC => true
  | NONNEG_CODE | FLAG => negb (pi_nbits info =? 0)
  | _ => false
  end.

(** Strings: the common part must be all zero bytes when there are increments, whose width
    counts bytes. *)
Definition string_column (w n : Z) (c : column) : Prop :=
  blen (co_min c) = w /\ blen (co_width c) = 6 /\
  (if inc_width c =? 0 then co_incs c = []
   else blen (co_incs c) = n /\ Forall (fun i => blen i = 8 * inc_width c) (co_incs c) /\
        Forall (fun b => b = false) (co_min c)).
Definition string_of (seg : list bool) : value := VBytes (map msb (chunks8 seg)).
Definition string_values (n : Z) (c : column) : list value :=
  if inc_width c =? 0 then repeat (string_of (co_min c)) (Z.to_nat n)
  else map string_of (co_incs c).

(** ** Packing: raw numbers as columns *)

(** The [w] low bits of a number; a missing number is all ones. *)
Definition field (w : Z) (x : option Z) : list bool :=
  match x with
  | Some v => low_bits (Z.to_nat w) v
  | None => repeat true (Z.to_nat w)
  end.
(** A number that can be stored without being taken for missing. *)
Definition storable (w : Z) (x : option Z) : Prop :=
  match x with Some v => 0 <= v < 2 ^ w - (if w =? 1 then 0 else 1) | None => 2 <= w end.
(** A legal compressed packing of the column [xs]: [m] is at most every number, and
    differences fit into [d] bits (without being taken for missing); [d = 0] only if all are
    equal. *)
Definition legal_column (w : Z) (xs : list (option Z)) (m : option Z) (d : Z) : Prop :=
  1 <= w <= 64 /\ 0 <= d < 64 /\ Forall (storable w) xs /\
  (if d =? 0 then Forall (fun x => x = m) xs /\ storable w m
   else exists m0, m = Some m0 /\ storable w m /\
        Forall (fun x => match x with
                         | Some v => m0 <= v /\ storable d (Some (v - m0))
                         | None => 2 <= d end) xs).
Definition pack_column (w : Z) (xs : list (option Z)) (m : option Z) (d : Z) : column :=
  mkColumn (field w m) (low_bits 6 d)
    (if d =? 0 then []
     else map (fun x => field d (match x, m with
                                 | Some v, Some m0 => Some (v - m0)
                                 | _, _ => None end)) xs).
