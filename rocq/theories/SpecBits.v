(** Small specification vocabulary for bit streams, independent of the reader's code. *)
From Verif Require Export Base ModelBits.

(** Value of a bit string, most significant bit first. *)
Definition msb (bs : list bool) : Z := fold_left (fun a b => 2 * a + b2z b) bs 0.

(** Cut a bit string into pieces of eight; the last one may be shorter. *)
Fixpoint chunks8 (bs : list bool) : list (list bool) :=
  match bs with
  | b7 :: b6 :: b5 :: b4 :: b3 :: b2 :: b1 :: b0 :: r =>
      [b7; b6; b5; b4; b3; b2; b1; b0] :: chunks8 r
  | [] => []
  | _ => [bs]
  end.

Definition blen {A} (l : list A) : Z := Z.of_nat (length l).

(** Calls on a tdcfio.BitReader and what they can return. *)
Inductive call : Type :=
| CUint (n : Z) | CInt (n : Z) | CBool | CBytes (n : Z) | CBinary (n : Z).
Inductive cvalue : Type :=
| RUint (v : Z) | RInt (v : Z) | RBool (v : bool) | RBytes (v : list Z) | RBinary (v : option binary).

(** The number of bits a call asks for. *)
Definition width (c : call) : Z :=
  match c with
  | CUint n => n | CInt n => n | CBool => 1 | CBytes n => 8 * n | CBinary n => n
  end.
Definition valid_call (c : call) : Prop :=
  match c with CInt n => 1 <= n | c => 0 <= width c end.

(** Perform the call on the model. *)
Definition do_call (c : call) : M bitreader cvalue :=
  match c with
  | CUint n => (v <- br_ReadUint n ;; ret (RUint v))%M
  | CInt n => (v <- br_ReadInt n ;; ret (RInt v))%M
  | CBool => (v <- br_ReadBool ;; ret (RBool v))%M
  | CBytes n => (v <- br_ReadBytes n ;; ret (RBytes v))%M
  | CBinary n => (v <- br_ReadBinary n ;; ret (RBinary v))%M
  end.

(** ReadBinary answers a truncated stream with a nil *Binary and no error; every other
    value is delivered data. *)
Definition delivered (v : cvalue) : Prop :=
  match v with RBinary None => False | _ => True end.

(** What the bits of a call's own slice mean.  The reductions modulo 2^64 only matter for
    widths above 64 (63 magnitude bits). *)
Definition spec_value (c : call) (slice : list bool) : cvalue :=
  match c with
  | CUint _ => RUint (msb slice mod 2 ^ 64)
  | CInt _ => RInt (i64 ((if hd false slice then -1 else 1) * msb (tl slice)))
  | CBool => RBool (hd false slice)
  | CBytes _ => RBytes (map msb (chunks8 slice))
  | CBinary n => RBinary (Some (mkBin (map msb (chunks8 slice)) n))
  end.

(** ** Writing *)

(** A value to be written with its width. *)
Inductive item : Type :=
| IUint (v n : Z) | IInt (v n : Z) | IBool (v : bool) | IBytes (v : list Z) (n : Z)
| IBinary (v : binary) (n : Z).

Definition is_byte (b : Z) : Prop := 0 <= b < 256.

(** A Binary in normal form: ceil(nbits/8) bytes, the last one holding the remaining bits. *)
Definition wf_binary (v : binary) : Prop :=
  0 <= b_nbits v /\ blen (b_bytes v) = (b_nbits v + 7) / 8 /\ Forall is_byte (b_bytes v) /\
  (b_nbits v mod 8 <> 0 -> last (b_bytes v) 0 < 2 ^ (b_nbits v mod 8)).

Definition fits (i : item) : Prop :=
  match i with
  | IUint v n => 0 <= n <= 64 /\ 0 <= v < 2 ^ n
  | IInt v n => 1 <= n <= 64 /\ Z.abs v < 2 ^ (n - 1)
  | IBool _ => True
  | IBytes v n => n = blen v /\ Forall is_byte v
  | IBinary v n => n = b_nbits v /\ wf_binary v
  end.

Definition write_item (i : item) : M bitwriter unit := fun w =>
  match i with
  | IUint v n => (bw_WriteUint v n w, Ok tt)
  | IInt v n => (bw_WriteInt v n w, Ok tt)
  | IBool v => (bw_WriteBool v w, Ok tt)
  | IBytes v n => (bw_WriteBytes v n w, Ok tt)
  | IBinary v n => bw_WriteBinary v n w
  end.

(** The call that reads an item back, and the value it should give. *)
Definition call_of (i : item) : call :=
  match i with
  | IUint _ n => CUint n | IInt _ n => CInt n | IBool _ => CBool
  | IBytes _ n => CBytes n | IBinary _ n => CBinary n
  end.
Definition value_of (i : item) : cvalue :=
  match i with
  | IUint v _ => RUint v | IInt v _ => RInt v | IBool v => RBool v
  | IBytes v _ => RBytes v | IBinary v _ => RBinary (Some v)
  end.

Definition sum_widths (l : list call) : Z := fold_right (fun c a => width c + a) 0 l.

(** The bits a write puts on the stream, whatever the value.
    - unsigned (and non-negative signed) values: the low n bits;
    - negative values: sign bit set in front of the magnitude (or-ed into it if the
      magnitude is too large);
    - widths above 64: all zeros (the dependency shifts everything out);
    - bytes: exactly n bytes, cut or padded with zero bytes;
    - a Binary of another size than announced: nothing (an error is returned). *)
Definition emits (i : item) (bs : list bool) : Prop :=
  match i with
  | IUint v n => blen bs = Z.max 0 n /\ msb bs = if n <=? 64 then v mod 2 ^ Z.max 0 n else 0
  | IInt v n =>
      blen bs = Z.max 0 n /\
      (0 <= v -> msb bs = if n <=? 64 then v mod 2 ^ Z.max 0 n else 0) /\
      (v < 0 -> 1 <= n <= 64 -> hd false bs = true /\ msb (tl bs) = (- v) mod 2 ^ (n - 1))
  | IBool v => bs = [v]
  | IBytes v n =>
      blen bs = 8 * Z.max 0 n /\
      forall k, 0 <= k < n ->
        firstn 8 (skipn (Z.to_nat (8 * k)) bs) = byte_bits (nth (Z.to_nat k) v 0)
  | IBinary v n =>
      if n =? b_nbits v then
        wf_binary v -> blen bs = n /\ map msb (chunks8 bs) = b_bytes v
      else bs = []
  end.

(** Write everything, going on after errors. *)
Fixpoint write_all (items : list item) (w : bitwriter) : bitwriter :=
  match items with
  | [] => w
  | i :: is => write_all is (fst (write_item i w))
  end.

(** ** Bit strings as text *)
Definition bit_char (b : bool) : Z := if b then 49 else 48.   (* '1', '0' *)
Definition is_bit_char (c : Z) : Prop := c = 48 \/ c = 49.
