(** Model of bufr/cell.go, bufr/field.go (missing values), bufr/info.go and
    deserialize/unpack. *)
From Verif Require Export ModelTable ModelReader.

(** Decoded values: the dynamic types an [interface{}] value of a cell can have.
    [VBin None] is a typed nil [*tdcfio.Binary]. *)
Inductive value : Type :=
| VNil
| VUint (u : Z)
| VInt (i : Z)
| VFloat (x : f64)
| VBytes (b : list Z)
| VBin (b : option binary).

(** bufr/field.go:11-19 MISSING_VALUE_OF_NBITS: a map lookup, 0 for an absent key. *)
Definition MISSING_VALUE_OF_NBITS (n : Z) : Z :=
  if (1 <=? n) && (n <=? 64) then 2 ^ n - 1 else 0.
(** bufr/field.go:23-28 IsMissing *)
Definition IsMissing (v : value) (nbits : Z) : bool :=
  match v with
  | VUint u => (1 <? nbits) && (u =? MISSING_VALUE_OF_NBITS nbits)
  | _ => false
  end.
(** bufr/field.go:31-37 MissingValue *)
Definition MissingValue (nbits : Z) : res Z :=
  if (1 <=? nbits) && (nbits <=? 64) then Ok (2 ^ nbits - 1)
  else Err (EMsg "invalid number of bits for retrieving missing value").

(** bufr/cell.go:47-56 StringValue *)
Definition StringValue (v : value) : res gostring :=
  match v with VBytes b => Ok b | _ => Err (EMsg "cell value is not string") end.
(** bufr/cell.go:58-69 UintValue *)
Definition UintValue (pl : platform) (v : value) : res Z :=
  match v with
  | VFloat x => Ok (to_uint pl x (f64_round x))
  | VInt i => Ok (u64 i)
  | VUint u => Ok u
  | _ => Err (EMsg "cell value is not compatible with uint")
  end.
(** bufr/cell.go:71-82 IntValue *)
Definition IntValue (pl : platform) (v : value) : res Z :=
  match v with
  | VFloat x => Ok (to_int pl x (f64_round x))
  | VInt i => Ok i
  | VUint u => Ok (i64 u)
  | _ => Err (EMsg "cell value is not compatible with int")
  end.
(** bufr/cell.go:84-95 FloatValue *)
Definition FloatValue (v : value) : res f64 :=
  match v with
  | VFloat x => Ok x
  | VInt i => Ok (f64_of_Z i)
  | VUint u => Ok (f64_of_Z u)
  | _ => Err (EMsg "cell value is not compatible with float")
  end.

(** bufr/info.go:5-10 PackingInfo *)
Record pinfo : Type := mkInfo { pi_unit : unit_t; pi_scale : Z; pi_refval : f64; pi_nbits : Z }.
(** [&bufr.PackingInfo{Unit: u, Nbits: n}] *)
Definition plain_info (u : unit_t) (n : Z) : pinfo := mkInfo u 0 (S754_zero false) n.

(** unpack/compressed.go:12-16 CompressedVal *)
Record cval : Type := mkCval { cv_min : value; cv_diff : Z; cv_vals : list value }.
(** The dynamic types Unpack can return. *)
Inductive uval : Type := UV (v : value) | UC (c : cval).

(** unpack/unpacker.go:29-34 unpackMissing *)
Definition unpackMissing (info : pinfo) (x : Z) : value :=
  if IsMissing (VUint x) (pi_nbits info) then VNil else VUint x.
(** unpack/unpacker.go:37-55 unpackNumeric *)
Definition unpackNumeric (info : pinfo) (x : Z) : value :=
  match unpackMissing info x with
  | VNil => VNil
  | _ =>
      let x0 := f64_of_Z x in
      let x1 := if f64_nonzero (pi_refval info) then f64_add x0 (pi_refval info) else x0 in
      let x2 := if negb (pi_scale info =? 0) then f64_div x1 (pow10 (pi_scale info)) else x1 in
      VFloat x2
  end.

Section Unpack.
  Variable pl : platform.
  (** Fuel for NewBinaryFromUint's loop. *)
  Variable fuel : nat.

  (** unpack/uncompress.go:14-45 UncompressBitUnpacker.Unpack *)
  Definition uncompressed_Unpack (info : pinfo) : M reader uval :=
    (match pi_unit info with
     | STRING => b <- r_ReadBytes (go_quot (pi_nbits info) NBITS_PER_BYTE) ;; ret (UV (VBytes b))
     | CODE => i <- r_ReadInt pl (pi_nbits info) ;; ret (UV (VInt i))
     | NONNEG_CODE | FLAG =>
         if pi_nbits info =? 0 then ret (UV (VUint 0))
         else x <- r_ReadUint pl (pi_nbits info) ;; ret (UV (unpackMissing info x))
     | NUMERIC => x <- r_ReadUint pl (pi_nbits info) ;; ret (UV (unpackNumeric info x))
     | BINARY => b <- r_ReadBinary (pi_nbits info) ;; ret (UV (VBin b))
     end)%M.

  (** unpack/uncompress.go:51-71 JsonUnpacker.Unpack *)
  Definition json_Unpack (info : pinfo) : M reader uval :=
    (match pi_unit info with
     | STRING => b <- r_ReadBytes (go_quot (pi_nbits info) NBITS_PER_BYTE) ;; ret (UV (VBytes b))
     | CODE => i <- r_ReadInt pl (pi_nbits info) ;; ret (UV (VInt i))
     | NONNEG_CODE | FLAG => x <- r_ReadUint pl (pi_nbits info) ;; ret (UV (VUint x))
     | NUMERIC => x <- r_ReadNumber (pi_nbits info) ;; ret (UV (VFloat x))
     | BINARY => b <- r_ReadBinary (pi_nbits info) ;; ret (UV (VBin b))
     end)%M.

  (** unpack/compressed.go:10, 181-187 readNbitsDiff *)
  Definition NBITS_FOR_NBITS_DIFF : Z := 6.
  Definition readNbitsDiff : M reader Z := (x <- r_ReadUint pl NBITS_FOR_NBITS_DIFF ;; ret (i64 x))%M.

  (** [make([]interface{}, nsubsets)] *)
  Definition make_values (nsubsets : Z) : M reader unit :=
    if nsubsets <? 0 then throw PMake else ret tt.

  (** unpack/compressed.go:57-94 unpackString *)
  Definition c_unpackString (nsubsets : Z) (info : pinfo) : M reader cval :=
    let nbytes := go_quot (pi_nbits info) NBITS_PER_BYTE in
    let n := Z.to_nat nsubsets in
    (mn <- r_ReadBytes nbytes ;;
     diff <- readNbitsDiff ;;
     make_values nsubsets ;;
     if diff =? 0 then ret (mkCval (VBytes mn) diff (repeat (VBytes mn) n))
     else if negb (gs_eqb mn (repeat 0 (Z.to_nat nbytes)))
     then fail (EMsg "different string must be compressed with empty minimum value")
     else vs <- replicateM n (b <- r_ReadBytes diff ;; ret (VBytes b)) ;;
          ret (mkCval (VBytes mn) diff vs))%M.

  (** unpack/compressed.go:96-142 unpackOthers; [f] is unpackFunc *)
  Definition c_unpackOthers (nsubsets : Z) (info : pinfo) (f : Z -> res value) : M reader cval :=
    let n := Z.to_nat nsubsets in
    (mn <- r_ReadUint pl (pi_nbits info) ;;
     diff <- readNbitsDiff ;;
     make_values nsubsets ;;
     if diff =? 0
     then v <- lift_res (f mn) ;; ret (mkCval (VUint mn) diff (repeat v n))
     else if IsMissing (VUint mn) (pi_nbits info)
     then fail (EMsg "missing value must have zero valued nbitsDiff")
     else vs <- replicateM n
            (d <- r_ReadUint pl diff ;;
             if IsMissing (VUint d) diff then ret VNil else lift_res (f (u64 (mn + d)))) ;;
          ret (mkCval (VUint mn) diff vs))%M.

  (** unpack/compressed.go:144-179 unpackCode: [ret.Values[i].(int)] asserts the type of a
      slot that still holds nil. *)
  Definition c_unpackCode (nsubsets : Z) (info : pinfo) : M reader cval :=
    let n := Z.to_nat nsubsets in
    (mn <- r_ReadInt pl (pi_nbits info) ;;
     diff <- readNbitsDiff ;;
     make_values nsubsets ;;
     if diff =? 0 then ret (mkCval (VInt mn) diff (repeat (VInt mn) n))
     else vs <- replicateM n
            (d <- r_ReadUint pl diff ;;
             if IsMissing (VUint d) diff then ret VNil else throw PType) ;;
          ret (mkCval (VInt mn) diff vs))%M.

  (** unpack/unpacker.go:57-59 unpackBinary *)
  Definition unpackBinary (info : pinfo) (x : Z) : res value :=
    match NewBinaryFromUint fuel x (pi_nbits info) with
    | Ok b => Ok (VBin (Some b))
    | Err e => Err e
    | Panic p => Panic p
    | NoFuel => NoFuel
    end.

  (** unpack/compressed.go:23-55 CompressedBitUnpacker.Unpack *)
  Definition compressed_Unpack (nsubsets : Z) (info : pinfo) : M reader uval :=
    (c <- match pi_unit info with
          | STRING => c_unpackString nsubsets info
          | CODE => c_unpackCode nsubsets info
          | NONNEG_CODE | FLAG =>
              if pi_nbits info =? 0
              then make_values nsubsets ;;
                   ret (mkCval (VUint 0) 0 (repeat (VUint 0) (Z.to_nat nsubsets)))
              else c_unpackOthers nsubsets info (fun x => Ok (unpackMissing info x))
          | NUMERIC => c_unpackOthers nsubsets info (fun x => Ok (unpackNumeric info x))
          | BINARY => c_unpackOthers nsubsets info (unpackBinary info)
          end ;;
     ret (UC c))%M.
End Unpack.
