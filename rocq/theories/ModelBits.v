(** Model of the bit-level reader and writer:
    tdcfio/bitreader.go, tdcfio/bitwriter.go and the dependency they wrap. *)
From Verif Require Export Base.

(** ** Bits and bytes *)

(** Eight bits of a byte, most significant first. *)
Definition byte_bits (b : Z) : list bool :=
  [Z.testbit b 7; Z.testbit b 6; Z.testbit b 5; Z.testbit b 4;
   Z.testbit b 3; Z.testbit b 2; Z.testbit b 1; Z.testbit b 0].

Definition bytes_bits (bs : list Z) : list bool := flat_map byte_bits bs.

Definition b2z (b : bool) : Z := if b then 1 else 0.

(** ** github.com/dgryski/go-bitstream (dependency, not in /repo)

    The reader is represented by the bits not yet delivered.  Its source is not available
    here; the contract modelled is: [ReadBit] delivers the next bit, most significant bit of
    each byte first; [ReadByte] delivers the next eight bits whatever the alignment, and
    fails without consuming if fewer than eight bits are left; [ReadBits n] reads [n/8]
    bytes and then [n mod 8] single bits into a uint64 accumulator (u<<8|byte, u<<1|bit),
    and reads nothing for [n <= 0].  The error at the end is the io.Reader's own. *)
Definition lib_read_bit (e : err) : M (list bool) bool := fun bs =>
  match bs with
  | [] => (bs, Err e)
  | b :: r => (r, Ok b)
  end.

Definition lib_read_byte (e : err) : M (list bool) Z := fun bs =>
  match bs with
  | b7 :: b6 :: b5 :: b4 :: b3 :: b2 :: b1 :: b0 :: r =>
      (r, Ok (128 * b2z b7 + 64 * b2z b6 + 32 * b2z b5 + 16 * b2z b4
              + 8 * b2z b3 + 4 * b2z b2 + 2 * b2z b1 + b2z b0))
  | _ => (bs, Err e)
  end.

Fixpoint lib_read_bits_bytes (e : err) (k : nat) (u : Z) : M (list bool) Z :=
  match k with
  | O => ret u
  | S k' => (b <- lib_read_byte e ;; lib_read_bits_bytes e k' (u64 (u * 256 + b)))%M
  end.
Fixpoint lib_read_bits_bits (e : err) (k : nat) (u : Z) : M (list bool) Z :=
  match k with
  | O => ret u
  | S k' => (b <- lib_read_bit e ;; lib_read_bits_bits e k' (u64 (u * 2 + b2z b)))%M
  end.
Definition lib_read_bits (e : err) (n : Z) : M (list bool) Z :=
  if n <=? 0 then ret 0
  else (u <- lib_read_bits_bytes e (Z.to_nat (n / 8)) 0 ;;
        lib_read_bits_bits e (Z.to_nat (n mod 8)) u)%M.

(** ** tdcfio.BitReader *)

(** tdcfio/bitreader.go:12-17.  [br_bits]: undelivered bits of the wrapped stream;
    [br_err]: the error the io.Reader reports at its end (io.EOF for files and buffers). *)
Record bitreader : Type := mkBR { br_bits : list bool; br_err : err; br_pos : Z }.

(** tdcfio/bitreader.go:22-26 NewBitReader over a byte stream. *)
Definition new_bitreader (bytes : list Z) (e : err) : bitreader :=
  mkBR (bytes_bits bytes) e 0.

Definition br_add_pos (d : Z) : M bitreader unit :=
  modify (fun r => mkBR (br_bits r) (br_err r) (br_pos r + d)).
(** A call on the wrapped bitstream.BitReader. *)
Definition br_lib {A} (f : err -> M (list bool) A) : M bitreader A := fun r =>
  let '(bs, x) := f (br_err r) (br_bits r) in (mkBR bs (br_err r) (br_pos r), x).

(** tdcfio/bitreader.go:28-30 Pos *)
Definition br_Pos (r : bitreader) : Z := br_pos r.

(** tdcfio/bitreader.go:40-44 ReadUint *)
Definition br_ReadUint (nbits : Z) : M bitreader Z :=
  (br_add_pos nbits ;; br_lib (fun e => lib_read_bits e nbits))%M.

(** tdcfio/bitreader.go:61-65 ReadBool *)
Definition br_ReadBool : M bitreader bool :=
  (br_add_pos 1 ;; br_lib lib_read_bit)%M.

(** tdcfio/bitreader.go:46-59 ReadInt.  [int(value)] and its negation wrap at 64 bits. *)
Definition br_ReadInt (nbits : Z) : M bitreader Z :=
  (negative <- br_ReadBool ;;
   br_add_pos (nbits - 1) ;;
   value <- br_lib (fun e => lib_read_bits e (nbits - 1)) ;;
   ret (if negative then i64 (- i64 value) else i64 value))%M.

(** tdcfio/bitreader.go:67-78 ReadBytes.  [make] panics for a negative count. *)
Definition br_ReadBytes (nbytes : Z) : M bitreader (list Z) :=
  (br_add_pos (nbytes * NBITS_PER_BYTE) ;;
   if nbytes <? 0 then throw PMake
   else replicateM (Z.to_nat nbytes) (br_lib lib_read_byte))%M.

(** tdcfio/binary.go:14-17 type Binary *)
Record binary : Type := mkBin { b_bytes : list Z; b_nbits : Z }.

(** tdcfio/bitreader.go:91-102, the loop of ReadBinary.  [k] counts the remaining
    iterations, ceil(nbits/8).  [byte(currentValue)] is the identity below 256. *)
Fixpoint br_ReadBinary_loop (k : nat) (nbits : Z) : M bitreader (list Z) :=
  match k with
  | O => ret []
  | S k' =>
      (v <- br_lib (fun e => lib_read_bits e (if nbits <? NBITS_PER_BYTE then nbits
                                              else NBITS_PER_BYTE)) ;;
       rest <- br_ReadBinary_loop k' (nbits - NBITS_PER_BYTE) ;;
       ret (v mod 256 :: rest))%M
  end.
(** tdcfio/bitreader.go:80-104 ReadBinary.  A read error is answered with [nil, nil]:
    the error is dropped (line 98).  [None] is the nil pointer. *)
Definition br_ReadBinary (nbits : Z) : M bitreader (option binary) := fun r =>
  match (br_add_pos nbits ;; br_ReadBinary_loop (Z.to_nat ((nbits + 7) / 8)) nbits)%M r with
  | (r', Ok buf) => (r', Ok (Some (mkBin buf nbits)))
  | (r', Err _) => (r', Ok None)
  | (r', Panic p) => (r', Panic p)
  | (r', NoFuel) => (r', NoFuel)
  end.

(** ** tdcfio.PeekableBitReader *)

(** bufio.NewReader's default buffer size (Go standard library). *)
Definition bufio_size : Z := 4096.

(** The whole bytes still held by the bufio.Reader: the undelivered bits without the
    residue of the byte the BitReader has already taken (the stream is made of whole
    bytes, so that residue is the bit count modulo 8). *)
Definition br_buffered (r : bitreader) : list bool :=
  skipn (length (br_bits r) mod 8) (br_bits r).

(** tdcfio/bitreader.go:167-180 peek, as bits.  bufio.Reader.Peek(k) fails with
    ErrNegativeCount for k<0, ErrBufferFull for k>4096, the stream's error if fewer than k
    bytes are left.  [b[skip:]] panics if skip is negative or exceeds k. *)
Definition pbr_peek (skip n : Z) (r : bitreader) : res (list bool) :=
  if negb (go_rem (br_pos r) NBITS_PER_BYTE =? 0) then Err (EMsg "can only peek at complete byte boundary")
  else if skip <? 0 then Panic PIndex
  else if skip + n <? 0 then Err (EMsg "bufio: negative count")
  else if bufio_size <? skip + n then Err (EMsg "bufio: buffer full")
  else
    let window := firstn (Z.to_nat (8 * (skip + n))) (br_buffered r) in
    if Z.of_nat (length window) <? 8 * (skip + n) then Err (br_err r)
    else if n <? 0 then Panic PIndex
    else Ok (skipn (Z.to_nat (8 * skip)) window).

(** tdcfio/bitreader.go:139-153 PeekUint.  The reader itself is not touched.  The reader
    made for the peeked bytes is a bytes.Reader, whose end is io.EOF. *)
Definition pbr_PeekUint (skip n : Z) (r : bitreader) : res Z :=
  let nbytes := go_quot n 8 + (if 0 <? go_rem n 8 then 1 else 0) in
  match pbr_peek skip nbytes r with
  | Ok bits =>
      match snd (br_ReadUint n (mkBR bits EEof 0)) with
      | Err e => Err (EWrap "cannot read peeked bytes" e)
      | x => x
      end
  | Err e => Err (EWrap "cannot peek bytes" e)
  | Panic p => Panic p
  | NoFuel => NoFuel
  end.

(** tdcfio/bitreader.go:155-165 PeekBytes *)
Definition pbr_PeekBytes (skip nbytes : Z) (r : bitreader) : res (list Z) :=
  match pbr_peek skip nbytes r with
  | Ok bits =>
      match snd (br_ReadBytes nbytes (mkBR bits EEof 0)) with
      | Err e => Err (EWrap "cannot read peeked bytes" e)
      | x => x
      end
  | Err e => Err (EWrap "cannot peek bytes" e)
  | Panic p => Panic p
  | NoFuel => NoFuel
  end.

(** ** tdcfio.bitWriter *)

(** tdcfio/bitwriter.go:10-19.  [bw_out]: all bits written so far.  The dependency hands a
    byte to the io.Writer as soon as eight bits are complete; the wrapper has no Flush, so
    the io.Writer has received exactly the complete bytes.  Write errors of the io.Writer
    are left to ModelSink.v (here writes succeed). *)
Definition bitwriter : Type := list bool.
Definition new_bitwriter : bitwriter := [].

(** n low bits of v, most significant first. *)
Fixpoint low_bits (n : nat) (v : Z) : list bool :=
  match n with
  | O => []
  | S k => Z.testbit v (Z.of_nat k) :: low_bits k v
  end.

(** go-bitstream WriteBits(u uint64, nbits): [u <<= 64-nbits] then emit from the top; a
    shift count above 63 (nbits > 64) leaves 0; nothing is written for nbits <= 0. *)
Definition lib_write_bits (u n : Z) (w : bitwriter) : bitwriter :=
  if n <=? 0 then w
  else if 64 <? n then w ++ repeat false (Z.to_nat n)
  else w ++ low_bits (Z.to_nat n) u.

(** tdcfio/bitwriter.go:22-24 WriteUint *)
Definition bw_WriteUint (v n : Z) (w : bitwriter) : bitwriter := lib_write_bits (u64 v) n w.

(** tdcfio/bitwriter.go:30-35 WriteInt.  [1<<uint(n-1)] is 0 when the count is out of
    range ([uint(-1)] is huge); the result is a 64-bit value. *)
Definition bw_WriteInt (v n : Z) (w : bitwriter) : bitwriter :=
  if v <? 0
  then bw_WriteUint (Z.lor (if (0 <? n) && (n <=? 64) then 2 ^ (n - 1) else 0) (u64 (- v))) n w
  else bw_WriteUint v n w.

(** tdcfio/bitwriter.go:37-39 WriteBool *)
Definition bw_WriteBool (v : bool) (w : bitwriter) : bitwriter := w ++ [v].

(** tdcfio/bitwriter.go:42-55 WriteBytes: first n bytes, missing ones as 0. *)
Fixpoint bw_WriteBytes_loop (n : nat) (v : list Z) (w : bitwriter) : bitwriter :=
  match n with
  | O => w
  | S k => bw_WriteBytes_loop k (tl v) (w ++ byte_bits (hd 0 v))
  end.
Definition bw_WriteBytes (v : list Z) (n : Z) (w : bitwriter) : bitwriter :=
  bw_WriteBytes_loop (Z.to_nat n) v w.

(** tdcfio/bitwriter.go:63-74, the loop of WriteBinary. *)
Fixpoint bw_WriteBinary_loop (v : list Z) (nbits : Z) (w : bitwriter) : bitwriter :=
  match v with
  | [] => w
  | b :: rest =>
      let last := match rest with [] => true | _ => false end in
      bw_WriteBinary_loop rest nbits
        (if last && negb (go_rem nbits 8 =? 0)
         then lib_write_bits b (go_rem nbits 8) w
         else w ++ byte_bits b)
  end.
(** tdcfio/bitwriter.go:58-75 WriteBinary *)
Definition bw_WriteBinary (v : binary) (nbits : Z) : M bitwriter unit := fun w =>
  if negb (nbits =? b_nbits v)
  then (w, Err (EMsg "inconsistent number of bits for writing Bin data"))
  else (bw_WriteBinary_loop (b_bytes v) (b_nbits v) w, Ok tt).

(** Group complete bytes; a trailing partial byte is dropped. *)
Fixpoint pack_bytes (fuel : nat) (bs : list bool) : list Z :=
  match fuel with
  | O => []
  | S k =>
      match bs with
      | b7 :: b6 :: b5 :: b4 :: b3 :: b2 :: b1 :: b0 :: r =>
          (128 * b2z b7 + 64 * b2z b6 + 32 * b2z b5 + 16 * b2z b4
           + 8 * b2z b3 + 4 * b2z b2 + 2 * b2z b1 + b2z b0) :: pack_bytes k r
      | _ => []
      end
  end.
(** What the io.Writer given to tdcfio.BitWriter has received. *)
Definition bw_output (w : bitwriter) : list Z := pack_bytes (length w) w.
