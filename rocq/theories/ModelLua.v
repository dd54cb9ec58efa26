(** The definition scripts once more, with the values of the Lua interpreter.

    ModelScript.v passes numbers from Go to the scripts and back as they are.  Here they
    travel as they do in the program: api/helpers.go pushes a Lua value, the script computes
    with Lua numbers (float64), and api/libdeserializer.go converts what it gets back.

    go-lua is described by its documented behaviour: PushInteger and PushUnsigned push
    float64(n); ToInteger is int(n), and 0 for anything that is not a number; ToUnsigned is
    n modulo 2^32 (n - floor(n / 2^32) * 2^32; modelled for whole numbers, a fraction is cut
    off first), and 0 for anything that is not a number; ToBoolean is false for nil and false
    only.  Strings, which ToInteger would parse, never occur. *)
From Verif Require Export ModelScript.

Inductive lval : Type := LNil | LNum (x : f64) | LBool (b : bool) | LUser.

(** api/helpers.go:46-64 pushSimpleValue for numbers *)
Definition push_number (n : Z) : lval := LNum (f64_of_Z n).
(** api/helpers.go:36-64 pushFieldValue.  []byte, templates and payloads are none of the
    listed types.  A nil *Binary is pushed as user data. *)
Definition push_value (v : fvalue) : option lval :=
  match v with
  | FUint u => Some (push_number u)
  | FInt i => Some (push_number i)
  | FFloat x => Some (LNum x)
  | FBool b => Some (LBool b)
  | FBin _ => Some LUser
  | FBytes _ | FTemplate _ | FPayload _ _ => None
  end.
(** go-lua: State.ToInteger, State.ToUnsigned, State.ToBoolean *)
Definition to_integer (pl : platform) (v : lval) : Z :=
  match v with LNum x => f64_to_int pl x | _ => 0 end.
Definition to_unsigned (pl : platform) (v : lval) : Z :=
  match v with
  | LNum x => match f64_trunc x with Some z => z mod 2 ^ 32 | None => f64_to_uint pl x end
  | _ => 0
  end.
Definition to_boolean (v : lval) : bool := match v with LNil | LBool false => false | _ => true end.

(** deserialize/factory.go:18-25: the numbers of the data types *)
Definition datatype_number (d : datatype) : Z :=
  match d with DINT => 0 | DUINT => 1 | DFLOAT => 2 | DBOOL => 3 | DBYTES => 4 | DBINARY => 5 | DOther => 6 end.
Definition datatype_of_number (n : Z) : datatype :=
  if n =? 0 then DINT else if n =? 1 then DUINT else if n =? 2 then DFLOAT else if n =? 3 then DBOOL
  else if n =? 4 then DBYTES else if n =? 5 then DBINARY else DOther.
(** api/scriptrt.go:87-97 initConstants *)
Definition lua_global (name : string) : lval :=
  match lua_datatype name with Some d => push_number (datatype_number d) | None => LNil end.

(** api/objfield.go:22-31 field:value() *)
Definition lua_value (f : field) : M fac lval :=
  match push_value (f_value f) with Some v => ret v | None => fail (EMsg "lua runtime error") end.
Definition lua_proxy (name : string) : M fac lval := (f <- proxy_field name ;; lua_value f)%M.
(** Arithmetic and comparison of the script: anything but a number is an error in
    arithmetic, and different from every number. *)
Definition lua_arith (op : f64 -> f64 -> f64) (v : lval) (n : Z) : M fac lval :=
  match v with LNum x => ret (LNum (op x (f64_of_Z n))) | _ => fail (EMsg "lua runtime error") end.
Definition lua_sub (x y : f64) : f64 := f64_add x (SFopp y).
Definition lua_is (v : lval) (n : Z) : bool := match v with LNum x => f64_eqb x (f64_of_Z n) | _ => false end.

Section Lua.
  Variable fc : fconfig.
  Let pl := fc_plat fc.

  (** api/libdeserializer.go:51-75 newField *)
  Definition l_newField (name ty : string) (nbits : lval) (proxy : bool) : M fac field :=
    lua_call (NewField fc name (datatype_of_number (to_integer pl (lua_global ty))) (to_integer pl nbits) proxy).
  Definition l_newField_ (name ty : string) (nbits : Z) (proxy : bool) : M fac unit :=
    (l_newField name ty (push_number nbits) proxy ;; ret tt)%M.
  (** api/libdeserializer.go:26-34 newSection *)
  Definition l_newSection (number : Z) (description : string) : M fac unit :=
    NewSection (to_integer pl (push_number number)) description.
  (** api/libdeserializer.go:125-132 padding *)
  Definition l_padding (v : lval) : M fac unit := lua_call (Padding (to_unsigned pl v)).

  (** _definitions/common/section0.lua *)
  Definition l_section0 : M fac unit :=
    (l_newSection 0 "Indicator Section" ;;
     l_newField_ "startSignature" "BYTES" 32 false ;;
     l_newField_ "totalLengthInBytes" "UINT" 24 true ;;
     l_newField_ "bufrEditionNumber" "UINT" 8 true)%M.

  (** _definitions/bufr4/section1.lua *)
  Definition l_section1_4 : M fac unit :=
    (l_newSection 1 "Identification Section" ;;
     len <- l_newField "lengthInBytes" "UINT" (push_number 24) false ;;
     l_newField_ "masterTableNumber" "UINT" 8 true ;;
     l_newField_ "originatingCentre" "UINT" 16 true ;;
     l_newField_ "originatingSubCentre" "UINT" 16 true ;;
     l_newField_ "updateSequenceNumber" "UINT" 8 true ;;
     l_newField_ "isSection2Presents" "BOOL" 1 true ;;
     l_newField_ "flagBits" "BINARY" 7 false ;;
     l_newField_ "dataCategory" "UINT" 8 true ;;
     l_newField_ "dataI18nSubCategory" "UINT" 8 true ;;
     l_newField_ "dataLocalSubCategory" "UINT" 8 true ;;
     l_newField_ "masterTableVersion" "UINT" 8 true ;;
     l_newField_ "localTableVersion" "UINT" 8 true ;;
     l_newField_ "year" "UINT" 16 true ;;
     l_newField_ "month" "UINT" 8 true ;;
     l_newField_ "day" "UINT" 8 true ;;
     l_newField_ "hour" "UINT" 8 true ;;
     l_newField_ "minute" "UINT" 8 true ;;
     l_newField_ "second" "UINT" 8 true ;;
     l <- lua_value len ;; l_padding l)%M.

  (** _definitions/bufr3/section1.lua *)
  Definition l_section1_3 : M fac unit :=
    (l_newSection 1 "Identification Section" ;;
     len <- l_newField "lengthInBytes" "UINT" (push_number 24) false ;;
     l_newField_ "masterTableNumber" "UINT" 8 true ;;
     l_newField_ "originatingSubCentre" "UINT" 8 true ;;
     l_newField_ "originatingCentre" "UINT" 8 true ;;
     l_newField_ "updateSequenceNumber" "UINT" 8 true ;;
     l_newField_ "isSection2Presents" "BOOL" 1 true ;;
     l_newField_ "flagBits" "BIN" 7 false ;;
     l_newField_ "dataCategory" "UINT" 8 true ;;
     l_newField_ "dataLocalSubCategory" "UINT" 8 true ;;
     l_newField_ "masterTableVersion" "UINT" 8 true ;;
     l_newField_ "localTableVersion" "UINT" 8 true ;;
     l_newField_ "year" "UINT" 8 true ;;
     l_newField_ "month" "UINT" 8 true ;;
     l_newField_ "day" "UINT" 8 true ;;
     l_newField_ "hour" "UINT" 8 true ;;
     l_newField_ "minute" "UINT" 8 true ;;
     l_newField_ "second" "UINT" 8 true ;;
     l <- lua_value len ;; l_padding l)%M.

  (** _definitions/common/section2.lua: (lengthInBytes:value() - 4) * BITS_PER_BYTE *)
  Definition l_section2 : M fac unit :=
    (l_newSection 2 "Optional Section" ;;
     len <- l_newField "lengthInBytes" "UINT" (push_number 24) false ;;
     l_newField_ "reservedBits" "BINARY" 8 false ;;
     l <- lua_value len ;;
     a <- lua_arith lua_sub l 4 ;;
     b <- lua_arith f64_mul a NBITS_PER_BYTE ;;
     l_newField "localBits" "BINARY" b false ;; ret tt)%M.

  (** _definitions/common/section3.lua *)
  Definition l_section3 : M fac unit :=
    (l_newSection 3 "Data Description Section" ;;
     len <- l_newField "lengthInBytes" "UINT" (push_number 24) false ;;
     l_newField_ "reservedBits" "BIN" 8 false ;;
     l_newField_ "nSubsets" "UINT" 16 true ;;
     l_newField_ "isObservation" "BOOL" 1 true ;;
     l_newField_ "isCompressed" "BOOL" 1 true ;;
     l_newField_ "flagBits" "BIN" 6 false ;;
     l <- lua_value len ;;
     lua_call (NewTemplateField fc "unexpandedTemplate" (to_integer pl (push_number 2)) (to_integer pl (push_number 6))
                 (to_integer pl (push_number 8)) (to_unsigned pl l)) ;;
     l' <- lua_value len ;; l_padding l')%M.

  (** _definitions/common/section4.lua *)
  Definition l_section4 : M fac unit :=
    (l_newSection 4 "Data Section" ;;
     len <- l_newField "lengthInBytes" "UINT" (push_number 24) false ;;
     l_newField_ "reservedBits" "BIN" 8 false ;;
     n <- lua_proxy "nSubsets" ;;
     c <- lua_proxy "isCompressed" ;;
     lua_call (NewPayloadField fc "payload" (to_integer pl n) (to_boolean c)) ;;
     l <- lua_value len ;; l_padding l)%M.

  (** _definitions/common/section5.lua *)
  Definition l_section5 : M fac unit :=
    (l_newSection 5 "End Section" ;;
     l_newField_ "stopSignature" "BYTES" 32 false)%M.

  (** _definitions/bufr4/bufr4.lua, _definitions/bufr3/bufr3.lua *)
  Definition l_deserialise (section1 : M fac unit) : M fac unit :=
    (NewMessage ;;
     l_section0 ;;
     section1 ;;
     s2 <- lua_proxy "isSection2Presents" ;;
     (if to_boolean s2 then l_section2 else ret tt) ;;
     l_section3 ;;
     master <- lua_proxy "masterTableNumber" ;;
     centre <- lua_proxy "originatingCentre" ;;
     sub <- lua_proxy "originatingSubCentre" ;;
     wmo <- lua_proxy "masterTableVersion" ;;
     local <- lua_proxy "localTableVersion" ;;
     lua_call (InitTableGroup fc (to_integer pl master) (to_integer pl centre) (to_integer pl sub)
                 (to_integer pl wmo) (to_integer pl local)) ;;
     l_section4 ;;
     l_section5)%M.

  (** _definitions/boot.lua; api/libdeserializer.go:134-143 peekEditionNumber *)
  Definition l_boot : M fac unit :=
    (n <- lua_call (PeekEditionNumber fc) ;;
     let ed := push_number n in
     if lua_is ed 4 then l_deserialise l_section1_4
     else if lua_is ed 3 then l_deserialise l_section1_3
     else fail (EMsg "lua runtime error"))%M.

  (** api/scriptrt.go:69-84 RunDeserializer *)
  Definition l_Run : M fac message :=
    (SeekStartSignature (fc_fuel fc) ;;
     l_boot ;;
     get_msg)%M.
End Lua.
