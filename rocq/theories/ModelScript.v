(** Model of the definition scripts (_definitions/*.lua) and of the binding layer (api/,
    runtime.go).

    The scripts are transcribed as straight-line programs over the factory.  The Lua
    interpreter (github.com/Shopify/go-lua) is not modelled: a call of a bound function is
    a call of the Go function.  Numbers cross the boundary as they are; ModelLua.v repeats the
    scripts with Lua numbers (float64), and C83 says that this makes no difference for binary
    input.  For JSON input it does. *)
From Verif Require Export ModelFactory.

(** api/libdeserializer.go: a Go error becomes a Lua error (state.PushString,
    state.Error), which ProtectedCall (scriptrt.go:78) reports as an error of its own; the
    identity of the Go error is lost.  Run-time panics are kept apart as [Panic]. *)
Definition lua_call {A} (m : M fac A) : M fac A := fun s =>
  match m s with
  | (s', Err _) => (s', Err (EMsg "lua runtime error"))
  | r => r
  end.

(** api/scriptrt.go:87-97 initConstants: the Lua globals naming data types.  An undefined
    global is nil. *)
Definition lua_datatype (name : string) : option datatype :=
  if String.eqb name "INT" then Some DINT
  else if String.eqb name "UINT" then Some DUINT
  else if String.eqb name "FLOAT" then Some DFLOAT
  else if String.eqb name "BOOL" then Some DBOOL
  else if String.eqb name "BYTES" then Some DBYTES
  else if String.eqb name "BINARY" then Some DBINARY
  else None.
(** api/libdeserializer.go:56-58: ToInteger on nil gives 0, i.e. INT. *)
Definition lua_to_datatype (o : option datatype) : datatype :=
  match o with Some d => d | None => DINT end.

(** api/objfield.go:22-31, api/helpers.go:36-64: field:value() as a number / boolean *)
Definition field_number (f : field) : M fac Z :=
  match f_value f with
  | FUint u => ret u
  | FInt i => ret i
  | _ => fail (EMsg "lua runtime error")
  end.
Definition field_bool (f : field) : M fac bool :=
  match f_value f with
  | FBool b => ret b
  | FUint _ | FInt _ | FFloat _ | FBin _ => ret true   (* anything but nil and false is true *)
  | _ => fail (EMsg "lua runtime error")
  end.
(** api/objmessage.go:28-40 message:getProxyField(name) *)
Definition proxy_field (name : string) : M fac field :=
  lua_call (m <- get_msg ;; lift_res (ProxyField m name))%M.
Definition proxy_number (name : string) : M fac Z := (f <- proxy_field name ;; field_number f)%M.
Definition proxy_bool (name : string) : M fac bool := (f <- proxy_field name ;; field_bool f)%M.

Section Script.
  Variable fc : fconfig.

  (** api/libdeserializer.go:51-75 factory.newField *)
  Definition newField (name ty : string) (nbits : Z) (proxy : bool) : M fac field :=
    lua_call (NewField fc name (lua_to_datatype (lua_datatype ty)) nbits proxy).
  Definition newField_ (name ty : string) (nbits : Z) (proxy : bool) : M fac unit :=
    (newField name ty nbits proxy ;; ret tt)%M.

  (** _definitions/common/section0.lua *)
  Definition section0 : M fac unit :=
    (NewSection 0 "Indicator Section" ;;
     newField_ "startSignature" "BYTES" 32 false ;;
     newField_ "totalLengthInBytes" "UINT" 24 true ;;
     newField_ "bufrEditionNumber" "UINT" 8 true)%M.

  (** _definitions/bufr4/section1.lua *)
  Definition section1_4 : M fac unit :=
    (NewSection 1 "Identification Section" ;;
     len <- newField "lengthInBytes" "UINT" 24 false ;;
     newField_ "masterTableNumber" "UINT" 8 true ;;
     newField_ "originatingCentre" "UINT" 16 true ;;
     newField_ "originatingSubCentre" "UINT" 16 true ;;
     newField_ "updateSequenceNumber" "UINT" 8 true ;;
     newField_ "isSection2Presents" "BOOL" 1 true ;;
     newField_ "flagBits" "BINARY" 7 false ;;
     newField_ "dataCategory" "UINT" 8 true ;;
     newField_ "dataI18nSubCategory" "UINT" 8 true ;;
     newField_ "dataLocalSubCategory" "UINT" 8 true ;;
     newField_ "masterTableVersion" "UINT" 8 true ;;
     newField_ "localTableVersion" "UINT" 8 true ;;
     newField_ "year" "UINT" 16 true ;;
     newField_ "month" "UINT" 8 true ;;
     newField_ "day" "UINT" 8 true ;;
     newField_ "hour" "UINT" 8 true ;;
     newField_ "minute" "UINT" 8 true ;;
     newField_ "second" "UINT" 8 true ;;
     l <- field_number len ;; lua_call (Padding l))%M.

  (** _definitions/bufr3/section1.lua *)
  Definition section1_3 : M fac unit :=
    (NewSection 1 "Identification Section" ;;
     len <- newField "lengthInBytes" "UINT" 24 false ;;
     newField_ "masterTableNumber" "UINT" 8 true ;;
     newField_ "originatingSubCentre" "UINT" 8 true ;;
     newField_ "originatingCentre" "UINT" 8 true ;;
     newField_ "updateSequenceNumber" "UINT" 8 true ;;
     newField_ "isSection2Presents" "BOOL" 1 true ;;
     newField_ "flagBits" "BIN" 7 false ;;
     newField_ "dataCategory" "UINT" 8 true ;;
     newField_ "dataLocalSubCategory" "UINT" 8 true ;;
     newField_ "masterTableVersion" "UINT" 8 true ;;
     newField_ "localTableVersion" "UINT" 8 true ;;
     newField_ "year" "UINT" 8 true ;;
     newField_ "month" "UINT" 8 true ;;
     newField_ "day" "UINT" 8 true ;;
     newField_ "hour" "UINT" 8 true ;;
     newField_ "minute" "UINT" 8 true ;;
     newField_ "second" "UINT" 8 true ;;
     l <- field_number len ;; lua_call (Padding l))%M.

  (** _definitions/common/section2.lua *)
  Definition section2 : M fac unit :=
    (NewSection 2 "Optional Section" ;;
     len <- newField "lengthInBytes" "UINT" 24 false ;;
     newField_ "reservedBits" "BINARY" 8 false ;;
     l <- field_number len ;;
     newField_ "localBits" "BINARY" ((l - 4) * NBITS_PER_BYTE) false)%M.

  (** _definitions/common/section3.lua *)
  Definition section3 : M fac unit :=
    (NewSection 3 "Data Description Section" ;;
     len <- newField "lengthInBytes" "UINT" 24 false ;;
     newField_ "reservedBits" "BIN" 8 false ;;
     newField_ "nSubsets" "UINT" 16 true ;;
     newField_ "isObservation" "BOOL" 1 true ;;
     newField_ "isCompressed" "BOOL" 1 true ;;
     newField_ "flagBits" "BIN" 6 false ;;
     l <- field_number len ;;
     lua_call (NewTemplateField fc "unexpandedTemplate" 2 6 8 l) ;;
     lua_call (Padding l))%M.

  (** _definitions/common/section4.lua *)
  Definition section4 : M fac unit :=
    (NewSection 4 "Data Section" ;;
     len <- newField "lengthInBytes" "UINT" 24 false ;;
     newField_ "reservedBits" "BIN" 8 false ;;
     n <- proxy_number "nSubsets" ;;
     c <- proxy_bool "isCompressed" ;;
     lua_call (NewPayloadField fc "payload" n c) ;;
     l <- field_number len ;; lua_call (Padding l))%M.

  (** _definitions/common/section5.lua; the [assert] entry of the table is never read by
      newField *)
  Definition section5 : M fac unit :=
    (NewSection 5 "End Section" ;;
     newField_ "stopSignature" "BYTES" 32 false)%M.

  (** _definitions/bufr4/bufr4.lua, _definitions/bufr3/bufr3.lua *)
  Definition deserialise (section1 : M fac unit) : M fac unit :=
    (NewMessage ;;
     section0 ;;
     section1 ;;
     s2 <- proxy_bool "isSection2Presents" ;;
     (if s2 : bool then section2 else ret tt) ;;
     section3 ;;
     master <- proxy_number "masterTableNumber" ;;
     centre <- proxy_number "originatingCentre" ;;
     sub <- proxy_number "originatingSubCentre" ;;
     wmo <- proxy_number "masterTableVersion" ;;
     local <- proxy_number "localTableVersion" ;;
     lua_call (InitTableGroup fc master centre sub wmo local) ;;
     section4 ;;
     section5)%M.

  (** _definitions/boot.lua *)
  Definition boot : M fac unit :=
    (ed <- lua_call (PeekEditionNumber fc) ;;
     if ed =? 4 then deserialise section1_4
     else if ed =? 3 then deserialise section1_3
     else fail (EMsg "lua runtime error"))%M.

  (** api/scriptrt.go:69-84 RunDeserializer, runtime.go:51-53 Run *)
  Definition Run : M fac message :=
    (SeekStartSignature (fc_fuel fc) ;;
     boot ;;
     get_msg)%M.

  (** Decoding a stream message by message: call Run until it fails.  (The loop is the
      caller's; [n] bounds the number of messages asked for.)  The outcome of the last call
      is reported next to the messages obtained. *)
  Fixpoint Runs (n : nat) (s : fac) : list message * fac * res message :=
    match n with
    | O => ([], s, NoFuel)
    | S k =>
        match Run s with
        | (s', Ok m) => let '(ms, s'', e) := Runs k s' in (m :: ms, s'', e)
        | (s', r) => ([], s', r)
        end
    end.
End Script.
