(** Model of tdcfio/binary.go.  Go strings are byte lists. *)
From Verif Require Export ModelBits.

Definition gostring : Type := list Z.

(** tdcfio/binary.go:19-32 NewBinary *)
Definition NewBinary (b : list Z) (nbits : Z) : res binary :=
  let nbytes := go_quot nbits 8 + (if 0 <? go_rem nbits 8 then 1 else 0) in
  if negb (Z.of_nat (length b) =? nbytes)
  then Err (EMsg "number of bytes and bits mismatch")
  else Ok (mkBin b nbits).

(** strconv.ParseUint(s, 2, 8) on at most eight characters: digits 0 and 1 only. *)
Fixpoint parse_base2 (acc : Z) (s : gostring) : res Z :=
  match s with
  | [] => Ok acc
  | c :: s' => if c =? 48 then parse_base2 (2 * acc) s'
               else if c =? 49 then parse_base2 (2 * acc + 1) s'
               else Err (EMsg "strconv.ParseUint: invalid syntax")
  end.

(** tdcfio/binary.go:39-54: the loop over blocks of eight characters and the rest. *)
Fixpoint binary_blocks (fuel : nat) (s : gostring) : res (list Z) :=
  match fuel with
  | O => NoFuel
  | S k =>
      if (length s <? 8)%nat
      then match s with
           | [] => Ok []
           | _ => match parse_base2 0 s with
                  | Ok u => Ok [u mod 256]
                  | r => castres r NoFuel
                  end
           end
      else match parse_base2 0 (firstn 8 s) with
           | Ok u => match binary_blocks k (skipn 8 s) with
                     | Ok r => Ok (u mod 256 :: r)
                     | r => r
                     end
           | r => castres r NoFuel
           end
  end.
(** tdcfio/binary.go:34-57 NewBinaryFromString.  The fuel exceeds the number of blocks. *)
Definition NewBinaryFromString (s : gostring) : res binary :=
  match binary_blocks (S (length s)) s with
  | Ok b => NewBinary b (Z.of_nat (length s))
  | Err e => Err e
  | Panic p => Panic p
  | NoFuel => NoFuel
  end.

(** tdcfio/binary.go:61-63: [nbitsShift] is a uint, so [nbitsShift >= 0] always holds and
    the decrement wraps around.  [127<<s] and [>>s] are 64-bit shifts. *)
Fixpoint binary_from_uint_loop (fuel : nat) (v shift : Z) (bs : list Z) : res (list Z) :=
  match fuel with
  | O => NoFuel
  | S k =>
      if 0 <=? shift then
        binary_from_uint_loop k v (u64 (shift - NBITS_PER_BYTE))
          (bs ++ [Z.shiftr (Z.land (u64 (Z.shiftl 127 shift)) v) shift mod 256])
      else Ok bs
  end.
(** tdcfio/binary.go:59-69 NewBinaryFromUint *)
Definition NewBinaryFromUint (fuel : nat) (v nbits : Z) : res binary :=
  match binary_from_uint_loop fuel v (u64 (nbits - NBITS_PER_BYTE)) [] with
  | Ok bs => NewBinary bs nbits
  | Err e => Err e
  | Panic p => Panic p
  | NoFuel => NoFuel
  end.

(** fmt.Sprintf("%0<width>b", b) for a byte: binary digits, zero padded to the width (a
    larger number of digits is never cut). *)
Definition sprintf_b (width b : Z) : gostring :=
  let ndigits := if b =? 0 then 1 else Z.log2 b + 1 in
  map (fun x : bool => if x then 49 else 48)
      (low_bits (Z.to_nat (Z.max width ndigits)) b).

(** tdcfio/binary.go:71-85 String *)
Fixpoint Binary_String_loop (nbits : Z) (b : list Z) : gostring :=
  match b with
  | [] => []
  | c :: rest =>
      let len := match rest with
                 | [] => if go_rem nbits 8 =? 0 then 8 else go_rem nbits 8
                 | _ => 8
                 end in
      sprintf_b len c ++ Binary_String_loop nbits rest
  end.
Definition Binary_String (bin : binary) : gostring :=
  Binary_String_loop (b_nbits bin) (b_bytes bin).

(** tdcfio/binary.go:89-104 Bit.  A negative shift count converts to a huge uint: 0. *)
Definition Binary_Bit (bin : binary) (n : Z) : res bool :=
  if b_nbits bin <=? n then Ok false
  else
    let ibyte := go_quot n 8 in
    let ibit := go_rem n 8 in
    match go_nth (b_bytes bin) ibyte with
    | Ok b =>
        let padding := if (ibyte =? Z.of_nat (length (b_bytes bin)) - 1)
                          && negb (go_rem (b_nbits bin) 8 =? 0)
                       then 8 - go_rem (b_nbits bin) 8 else 0 in
        let shift := 8 - ibit - 1 - padding in
        Ok (if shift <? 0 then false else Z.testbit b shift)
    | Err e => Err e
    | Panic p => Panic p
    | NoFuel => NoFuel
    end.

(** tdcfio/binary.go:106-108 Nbits *)
Definition Binary_Nbits (bin : binary) : Z := b_nbits bin.

(** tdcfio/binary.go:110-126 MarshalJSON/UnmarshalJSON: a JSON string holding [String()];
    the JSON quoting itself (digits need no escapes) is the identity here. *)
Definition Binary_MarshalJSON (bin : binary) : gostring := Binary_String bin.
Definition Binary_UnmarshalJSON (s : gostring) : res binary := NewBinaryFromString s.
