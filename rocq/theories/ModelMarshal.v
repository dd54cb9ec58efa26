(** Model of the MarshalJSON methods: bufr/cell.go, bufr/payload.go, bufr/field.go,
    bufr/section.go, bufr/message.go, table/template.go.  A JSON document is represented by
    the tokens encoding/json's Decoder.Token returns for it (as in ModelJson.v).  Trusted
    about encoding/json: numbers are written so that reading them as float64 gives the
    nearest double (float64 values themselves come back, NaN and infinities are refused);
    []byte becomes a string of base64; a nil pointer, interface or slice becomes null. *)
From Verif Require Export ModelFactory.

(** encoding/base64.StdEncoding *)
Definition base64_char (n : Z) : Z :=
  if n <? 26 then 65 + n
  else if n <? 52 then 97 + (n - 26)
  else if n <? 62 then 48 + (n - 52)
  else if n =? 62 then 43 else 47.
Fixpoint base64 (b : list Z) : gostring :=
  match b with
  | [] => []
  | [x] => [base64_char (x / 4); base64_char (x mod 4 * 16); 61; 61]
  | [x; y] => [base64_char (x / 4); base64_char (x mod 4 * 16 + y / 16);
               base64_char (y mod 16 * 4); 61]
  | x :: y :: z :: r =>
      base64_char (x / 4) :: base64_char (x mod 4 * 16 + y / 16)
        :: base64_char (y mod 16 * 4 + z / 64) :: base64_char (z mod 64) :: base64 r
  end.

(** bufr/cell.go:43-45 Cell.MarshalJSON: json.Marshal of the value.  tdcfio/binary.go:110-112
    for a Binary. *)
Definition is_finite64 (x : f64) : bool :=
  match x with S754_zero _ | S754_finite _ _ _ => true | _ => false end.
Definition marshal_float (x : f64) : res token :=
  if is_finite64 x then Ok (TNum x) else Err (EMsg "json: unsupported value").
Definition marshal_value (v : value) : res token :=
  match v with
  | VNil | VBin None => Ok TNull
  | VUint u => Ok (TNum (f64_of_Z u))
  | VInt i => Ok (TNum (f64_of_Z i))
  | VFloat x => marshal_float x
  | VBytes b => Ok (TStr (base64 b))
  | VBin (Some b) => Ok (TStr (Binary_MarshalJSON b))
  end.

(** json.Marshal of a slice whose elements marshal to [l]; [91] and [93] are brackets. *)
Fixpoint marshal_all {A} (f : A -> res (list token)) (l : list A) : res (list token) :=
  match l with
  | [] => Ok []
  | x :: r =>
      match f x with
      | Ok t => match marshal_all f r with Ok ts => Ok (t ++ ts) | e => e end
      | e => e
      end
  end.
Definition brackets (x : res (list token)) : res (list token) :=
  match x with Ok ts => Ok (TDelim 91 :: ts ++ [TDelim 93]) | e => e end.
Definition one_token (x : res token) : res (list token) :=
  match x with Ok t => Ok [t] | r => castres r NoFuel end.

(** bufr/payload.go:92-98 Subset.MarshalJSON: a slice made by [make], never nil. *)
Definition marshal_subset (sb : subset) : res (list token) :=
  brackets (marshal_all (fun c => one_token (marshal_value (c_val c))) (sb_cells sb)).
(** A slice that was only ever appended to is nil while empty. *)
Definition marshal_slice {A} (f : A -> res (list token)) (l : list A) : res (list token) :=
  match l with [] => Ok [TNull] | _ => brackets (marshal_all f l) end.
(** bufr/payload.go:44-46 Payload.MarshalJSON *)
Definition marshal_payload (pay : list subset) : res (list token) := marshal_slice marshal_subset pay.

(** table/template.go:85-87 UnexpandedTemplate.MarshalJSON: the identifiers as numbers; the
    slice is made by [make] (deserialize/factory.go:155). *)
Definition marshal_template (ids : list Z) : res (list token) :=
  brackets (Ok (map (fun id => TNum (f64_of_Z id)) ids)).
(** bufr/field.go:72-74 Field.MarshalJSON *)
Definition marshal_fvalue (v : fvalue) : res (list token) :=
  match v with
  | FUint u => Ok [TNum (f64_of_Z u)]
  | FInt i => Ok [TNum (f64_of_Z i)]
  | FFloat x => one_token (marshal_float x)
  | FBool b => Ok [TBool b]
  | FBytes b => Ok [TStr (base64 b)]
  | FBin None => Ok [TNull]
  | FBin (Some b) => Ok [TStr (Binary_MarshalJSON b)]
  | FTemplate ids => marshal_template ids
  | FPayload _ pay => marshal_payload pay
  end.
Definition marshal_field (f : field) : res (list token) := marshal_fvalue (f_value f).
(** bufr/section.go:67-69 Section.MarshalJSON *)
Definition marshal_section (s : section) : res (list token) := marshal_slice marshal_field (sec_fields s).
(** bufr/message.go:62-64 Message.MarshalJSON *)
Definition marshal_message (m : message) : res (list token) := marshal_slice marshal_section (msg_sections m).
