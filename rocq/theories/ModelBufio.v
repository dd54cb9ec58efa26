(** How the bits get to a PeekableBitReader: an io.Reader that hands out its bytes in pieces
    of any size, the bufio.Reader on top of it (tdcfio/bitreader.go:133-136) and the
    bitstream.BitReader on top of that.  ModelBits.v has the stream of bits instead. *)
From Verif Require Export ModelReader.

(** ** An io.Reader

    [so_sched]: how many bytes the next calls of Read give (as far as there is room and there
    are bytes); after that they give all they can.  [so_joint]: the error at the end comes
    together with the last bytes, not with the call after them.  Both are allowed to an
    io.Reader.  At its end it reports its error again and again. *)
Record source : Type := mkSrc { so_bytes : list Z; so_err : err; so_sched : list nat; so_joint : bool }.
Definition src_read (room : nat) (s : source) : source * (list Z * option err) :=
  match so_bytes s with
  | [] => (s, ([], Some (so_err s)))
  | _ =>
      let n := match so_sched s with k :: _ => Nat.min k room | [] => room end in
      let rest := skipn n (so_bytes s) in
      (mkSrc rest (so_err s) (tl (so_sched s)) (so_joint s),
       (firstn n (so_bytes s), match rest with [] => if so_joint s then Some (so_err s) else None | _ => None end))
  end.

(** ** The reader: [lo_cur] the bits of the byte bitstream.BitReader works on, [lo_buf] the bytes in
    the buffer of bufio.Reader, [lo_perr] its err *)
Record low : Type := mkLow { lo_cur : list bool; lo_buf : list Z; lo_perr : option err; lo_src : source; lo_pos : Z }.
Definition NewPeekable (src : source) : low := mkLow [] [] None src 0.
Definition buf_size : nat := Z.to_nat bufio_size.

(** bufio.Reader.Read of one byte; [None]: no byte and no error *)
Definition bufio_Read1 : M low (option Z) := fun s =>
  match lo_buf s with
  | b :: r => (mkLow (lo_cur s) r (lo_perr s) (lo_src s) (lo_pos s), Ok (Some b))
  | [] =>
      match lo_perr s with
      | Some e => (mkLow (lo_cur s) [] None (lo_src s) (lo_pos s), Err e)
      | None =>
          match src_read buf_size (lo_src s) with
          | (src, (b :: r, e)) => (mkLow (lo_cur s) r e src (lo_pos s), Ok (Some b))
          | (src, ([], Some e)) => (mkLow (lo_cur s) [] None src (lo_pos s), Err e)
          | (src, ([], None)) => (mkLow (lo_cur s) [] None src (lo_pos s), Ok None)
          end
      end
  end.
(** bufio.Reader.fill: at most 100 empty reads *)
Fixpoint bufio_fill (tries : nat) (s : low) : low :=
  match tries with
  | O => mkLow (lo_cur s) (lo_buf s) (Some (EMsg "multiple Read calls return no data or error")) (lo_src s) (lo_pos s)
  | S n =>
      match src_read (buf_size - length (lo_buf s)) (lo_src s) with
      | (src, (bs, e)) =>
          let s' := mkLow (lo_cur s) (lo_buf s ++ bs) e src (lo_pos s) in
          match e, bs with None, [] => bufio_fill n s' | _, _ => s' end
      end
  end.
(** the loop of bufio.Reader.Peek; [k] bounds its iterations, of which each but the last
    makes the buffer longer *)
Fixpoint bufio_fill_to (k : nat) (n : Z) (s : low) : low :=
  match k with
  | O => s
  | S k' =>
      match lo_perr s with
      | None => if (Z.of_nat (length (lo_buf s)) <? n) && (Z.of_nat (length (lo_buf s)) <? bufio_size)
                then bufio_fill_to k' n (bufio_fill 100 s) else s
      | Some _ => s
      end
  end.
(** bufio.Reader.Peek *)
Definition bufio_Peek (n : Z) : M low (list Z) := fun s =>
  if n <? 0 then (s, Err (EMsg "bufio: negative count"))
  else
    let s' := bufio_fill_to (S buf_size) n s in
    if bufio_size <? n then (s', Err (EMsg "bufio: buffer full"))
    else if Z.of_nat (length (lo_buf s')) <? n
    then (mkLow (lo_cur s') (lo_buf s') None (lo_src s') (lo_pos s'),
          Err (match lo_perr s' with Some e => e | None => EMsg "bufio: buffer full" end))
    else (s', Ok (firstn (Z.to_nat n) (lo_buf s'))).

(** ** bitstream.BitReader: bytes are fetched one by one.  A Read without byte and without
    error counts as a zero. *)
Definition bs_ReadBit : M low bool := fun s =>
  match lo_cur s with
  | b :: r => (mkLow r (lo_buf s) (lo_perr s) (lo_src s) (lo_pos s), Ok b)
  | [] =>
      match bufio_Read1 s with
      | (s', Ok (Some b)) => (mkLow (tl (byte_bits b)) (lo_buf s') (lo_perr s') (lo_src s') (lo_pos s'), Ok (hd false (byte_bits b)))
      | (s', Ok None) => (s', Ok false)
      | (s', Err e) => (s', Err e) | (s', Panic p) => (s', Panic p) | (s', NoFuel) => (s', NoFuel)
      end
  end.
(** Eight bits: those left of the current byte, and as many as needed of the next one. *)
Definition bs_ReadByte : M low Z := fun s =>
  match bufio_Read1 s with
  | (s', Ok (Some b)) =>
      let '(rest, v) := lib_read_byte EEof (lo_cur s ++ byte_bits b) in
      (mkLow rest (lo_buf s') (lo_perr s') (lo_src s') (lo_pos s'), v)
  | (s', Ok None) => (s', Ok 0)
  | (s', Err e) => (s', Err e) | (s', Panic p) => (s', Panic p) | (s', NoFuel) => (s', NoFuel)
  end.
Fixpoint bs_bytes (k : nat) (u : Z) : M low Z :=
  match k with O => ret u | S k' => (b <- bs_ReadByte ;; bs_bytes k' (u64 (u * 256 + b)))%M end.
Fixpoint bs_bits (k : nat) (u : Z) : M low Z :=
  match k with O => ret u | S k' => (b <- bs_ReadBit ;; bs_bits k' (u64 (u * 2 + b2z b)))%M end.
Definition bs_ReadBits (n : Z) : M low Z :=
  if n <=? 0 then ret 0
  else (u <- bs_bytes (Z.to_nat (n / 8)) 0 ;; bs_bits (Z.to_nat (n mod 8)) u)%M.

(** ** tdcfio/bitreader.go:28-180 *)
Definition lo_add_pos (d : Z) : M low unit :=
  modify (fun s => mkLow (lo_cur s) (lo_buf s) (lo_perr s) (lo_src s) (lo_pos s + d)).
Definition lo_ReadUint (nbits : Z) : M low Z := (lo_add_pos nbits ;; bs_ReadBits nbits)%M.
Definition lo_ReadNumber (nbits : Z) : M low f64 := (x <- lo_ReadUint nbits ;; ret (f64_of_Z x))%M.
Definition lo_ReadBool : M low bool := (lo_add_pos 1 ;; bs_ReadBit)%M.
Definition lo_ReadInt (nbits : Z) : M low Z :=
  (negative <- lo_ReadBool ;;
   lo_add_pos (nbits - 1) ;;
   value <- bs_ReadBits (nbits - 1) ;;
   ret (if negative then i64 (- i64 value) else i64 value))%M.
Definition lo_ReadBytes (nbytes : Z) : M low (list Z) :=
  (lo_add_pos (nbytes * NBITS_PER_BYTE) ;;
   if nbytes <? 0 then throw PMake
   else replicateM (Z.to_nat nbytes) bs_ReadByte)%M.
Fixpoint lo_ReadBinary_loop (k : nat) (nbits : Z) : M low (list Z) :=
  match k with
  | O => ret []
  | S k' =>
      (v <- bs_ReadBits (if nbits <? NBITS_PER_BYTE then nbits else NBITS_PER_BYTE) ;;
       rest <- lo_ReadBinary_loop k' (nbits - NBITS_PER_BYTE) ;;
       ret (v mod 256 :: rest))%M
  end.
Definition lo_ReadBinary (nbits : Z) : M low (option binary) := fun s =>
  match (lo_add_pos nbits ;; lo_ReadBinary_loop (Z.to_nat ((nbits + 7) / 8)) nbits)%M s with
  | (s', Ok buf) => (s', Ok (Some (mkBin buf nbits)))
  | (s', Err _) => (s', Ok None)
  | (s', Panic p) => (s', Panic p)
  | (s', NoFuel) => (s', NoFuel)
  end.
Definition lo_ReadFloat32 : M low f64 := (v <- lo_ReadUint 32 ;; ret (f64_of_float32_bits (v mod 2 ^ 32)))%M.
(** bitreader.go:167-180; when Peek fails its bytes are cut, too, if they are longer than [skip] *)
Definition lo_peek (skip n : Z) : M low (list Z) := fun s =>
  if negb (go_rem (lo_pos s) NBITS_PER_BYTE =? 0) then (s, Err (EMsg "can only peek at complete byte boundary"))
  else
    match bufio_Peek (skip + n) s with
    | (s', Ok b) => if (skip <? 0) || (Z.of_nat (length b) <? skip) then (s', Panic PIndex) else (s', Ok (skipn (Z.to_nat skip) b))
    | (s', Err e) => if skip <? 0 then (s', Panic PIndex) else (s', Err e)
    | x => x
    end.
Definition lo_PeekUint (skip n : Z) : M low Z := fun s =>
  let nbytes := go_quot n 8 + (if 0 <? go_rem n 8 then 1 else 0) in
  match lo_peek skip nbytes s with
  | (s', Ok b) =>
      (s', match snd (br_ReadUint n (new_bitreader b EEof)) with
           | Err e => Err (EWrap "cannot read peeked bytes" e)
           | x => x
           end)
  | (s', Err e) => (s', Err (EWrap "cannot peek bytes" e))
  | (s', Panic p) => (s', Panic p)
  | (s', NoFuel) => (s', NoFuel)
  end.
Definition lo_PeekBytes (skip nbytes : Z) : M low (list Z) := fun s =>
  match lo_peek skip nbytes s with
  | (s', Ok b) =>
      (s', match snd (br_ReadBytes nbytes (new_bitreader b EEof)) with
           | Err e => Err (EWrap "cannot read peeked bytes" e)
           | x => x
           end)
  | (s', Err e) => (s', Err (EWrap "cannot peek bytes" e))
  | (s', Panic p) => (s', Panic p)
  | (s', NoFuel) => (s', NoFuel)
  end.
