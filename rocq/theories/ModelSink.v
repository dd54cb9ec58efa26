(** The bit writer on an io.Writer that may fail, and WriteFloat32.  ModelBits.v models the
    writer on an io.Writer that accepts everything; here the io.Writer accepts [sk_room]
    bytes and answers every further Write with [sk_err]. *)
From Verif Require Export ModelBits ModelFloat.

(** [sk_bits]: the bits taken so far; the io.Writer has received the complete bytes. *)
Record sink : Type := mkSink { sk_bits : list bool; sk_room : Z; sk_err : err }.
(** tdcfio/bitwriter.go:17-19 BitWriter *)
Definition new_sink (room : Z) (e : err) : sink := mkSink [] room e.
Definition received (s : sink) : list Z := bw_output (sk_bits s).

(** go-bitstream WriteBit and WriteByte: up to eight bits are taken; as soon as a byte is
    complete it is handed to the io.Writer, and a failing Write ends the call with its
    error.  (The dependency is out of step after that; nothing is said about calls made
    after one that failed.) *)
Definition sink_put (bs : list bool) : M sink unit := fun s =>
  let w := sk_bits s ++ bs in
  if sk_room s <? Z.of_nat (length w) / 8 then (s, Err (sk_err s))
  else (mkSink w (sk_room s) (sk_err s), Ok tt).
Definition sink_bit (b : bool) : M sink unit := sink_put [b].
Definition sink_byte (v : Z) : M sink unit := sink_put (byte_bits v).

(** go-bitstream WriteBits: whole bytes first, then single bits; see [lib_write_bits]. *)
Fixpoint sink_groups (bs : list bool) : M sink unit :=
  match bs with
  | b7 :: b6 :: b5 :: b4 :: b3 :: b2 :: b1 :: b0 :: r =>
      sink_put [b7; b6; b5; b4; b3; b2; b1; b0] ;; sink_groups r
  | _ => mapM_ sink_bit bs
  end%M.
Definition sink_bits (u n : Z) : M sink unit :=
  if n <=? 0 then ret tt
  else if 64 <? n then sink_groups (repeat false (Z.to_nat n))
  else sink_groups (low_bits (Z.to_nat n) u).

(** tdcfio/bitwriter.go:22-24 WriteUint *)
Definition sk_WriteUint (v n : Z) : M sink unit := sink_bits (u64 v) n.
(** tdcfio/bitwriter.go:30-35 WriteInt; see [bw_WriteInt]. *)
Definition sk_WriteInt (v n : Z) : M sink unit :=
  if v <? 0
  then sk_WriteUint (Z.lor (if (0 <? n) && (n <=? 64) then 2 ^ (n - 1) else 0) (u64 (- v))) n
  else sk_WriteUint v n.
(** tdcfio/bitwriter.go:37-39 WriteBool *)
Definition sk_WriteBool (v : bool) : M sink unit := sink_bit v.
(** tdcfio/bitwriter.go:42-55 WriteBytes *)
Fixpoint sk_WriteBytes_loop (n : nat) (v : list Z) : M sink unit :=
  match n with
  | O => ret tt
  | S k => sink_byte (hd 0 v) ;; sk_WriteBytes_loop k (tl v)
  end%M.
Definition sk_WriteBytes (v : list Z) (n : Z) : M sink unit := sk_WriteBytes_loop (Z.to_nat n) v.
(** tdcfio/bitwriter.go:63-73, the loop of WriteBinary *)
Fixpoint sk_WriteBinary_loop (v : list Z) (nbits : Z) : M sink unit :=
  match v with
  | [] => ret tt
  | b :: rest =>
      let last := match rest with [] => true | _ => false end in
      (if last && negb (go_rem nbits 8 =? 0) then sink_bits b (go_rem nbits 8) else sink_byte b) ;;
      sk_WriteBinary_loop rest nbits
  end%M.
(** tdcfio/bitwriter.go:58-75 WriteBinary *)
Definition sk_WriteBinary (v : binary) (nbits : Z) : M sink unit :=
  if negb (nbits =? b_nbits v)
  then fail (EMsg "inconsistent number of bits for writing Bin data")
  else sk_WriteBinary_loop (b_bytes v) (b_nbits v).

(** Go's conversion float32(v) of a float64: nearest, ties to even. *)
Definition f32_of_f64 (x : f64) : spec_float :=
  match x with
  | S754_finite s m e => binary_round 24 128 s m e
  | _ => x
  end.
(** math.Float32bits.  A NaN becomes the quiet NaN 0x7FC00000 (its payload, which Go keeps
    in part, is not modelled). *)
Definition f32_bits (x : spec_float) : Z :=
  let sign (s : bool) := if s then 2 ^ 31 else 0 in
  match x with
  | S754_zero s => sign s
  | S754_infinity s => sign s + 255 * 2 ^ 23
  | S754_nan => 255 * 2 ^ 23 + 2 ^ 22
  | S754_finite s m e =>
      sign s + (if Zpos m <? 2 ^ 23 then Zpos m else (e + 150) * 2 ^ 23 + (Zpos m - 2 ^ 23))
  end.
(** tdcfio/bitwriter.go:77-79 WriteFloat32 *)
Definition sk_WriteFloat32 (v : f64) : M sink unit := sk_WriteUint (f32_bits (f32_of_f64 v)) 32.
