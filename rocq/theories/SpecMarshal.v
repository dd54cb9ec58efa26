(** The JSON form of payloads and reading it back (C58). *)
From Verif Require Export SpecPack ModelMarshal.

(** The same decoder reading JSON. *)
Definition from_json (cf : config) : config :=
  mkConfig (cf_compressed cf) true (cf_compatible cf) (cf_nsubsets cf) (cf_plat cf) (cf_fuel cf).
(** All cells of a payload, subset by subset. *)
Definition all_cells (pay : list subset) : list cell := flat_map sb_cells pay.
(** The values whose JSON form is read as the same value: finite numbers, integers that are
    doubles, bit strings - but no missing value and no string other than the empty one. *)
Definition survives (pl : platform) (v : value) : Prop :=
  match v with
  | VNil | VBin None => False
  | VFloat x => is_finite64 x = true
  | VUint u => f64_to_uint pl (f64_of_Z u) = u
  | VInt i => f64_to_int pl (f64_of_Z i) = i
  | VBytes b => b = []
  | VBin (Some b) => Binary_UnmarshalJSON (Binary_MarshalJSON b) = Ok b
  end.
(** Values that have a JSON form. *)
Definition has_form (v : value) : Prop := match v with VFloat x => is_finite64 x = true | _ => True end.
(** No operator of the 222-225, 232 family anywhere in the template. *)
Definition no_assessment (ms : list anode) : Prop := Forall (all_nodes (fun n => an_kind n <> KAssessment)) ms.

(** ** Base64 (RFC 4648, section 4): the bits in groups of six, the last one filled up with
    zeros, as letters of the alphabet; then [=] up to a multiple of four letters. *)
Definition base64_alphabet : gostring := gs "ABCDEFGHIJKLMNOPQRSTUVWXYZabcdefghijklmnopqrstuvwxyz0123456789+/".
Fixpoint sextets (l : list bool) : list (list bool) :=
  match l with
  | a :: b :: c :: d :: e :: f :: r => [a; b; c; d; e; f] :: sextets r
  | [] => []
  | r => [r ++ repeat false (6 - length r)]
  end.
Definition base64_text (b : list Z) : gostring :=
  let letters := map (fun s => nth (Z.to_nat (msb s)) base64_alphabet 0) (sextets (bytes_bits b)) in
  letters ++ repeat 61 ((4 - length letters mod 4) mod 4).

(** ** The JSON form of a value and of a payload: a missing value is null, a string is base64,
    a string of bits its digits, anything else a number. *)
Inductive json_form : value -> token -> Prop :=
| ShMissing : json_form VNil TNull
| ShNoBits : json_form (VBin None) TNull
| ShUint u : json_form (VUint u) (TNum (f64_of_Z u))
| ShInt i : json_form (VInt i) (TNum (f64_of_Z i))
| ShFloat x : is_finite64 x = true -> json_form (VFloat x) (TNum x)
| ShBytes b : Forall is_byte b -> json_form (VBytes b) (TStr (base64_text b))
| ShBits n l e p s b : 0 <= n <= blen l -> br_ReadBinary n (mkBR l e p) = (s, Ok (Some b)) ->
    json_form (VBin (Some b)) (TStr (map (fun x : bool => if x then 49 else 48) (firstn (Z.to_nat n) l))).
Definition json_array (ts : list token) : list token := TDelim 91 :: ts ++ [TDelim 93].
(** A slice that may be nil: null when it has no elements. *)
Definition json_slice (ts : list (list token)) : list token := match ts with [] => [TNull] | _ => json_array (concat ts) end.
(** The document of a payload: its subsets, each the array of its values in order. *)
Definition payload_document (pay : list subset) (ts : list token) : Prop := exists tss,
  Forall2 (fun sb t => Forall2 json_form (map c_val (sb_cells sb)) t) pay tss /\ ts = json_slice (map json_array tss).
(** The form of a field (C78): as that of a value; templates are arrays of numbers. *)
Inductive field_form : fvalue -> list token -> Prop :=
| FoUint u : field_form (FUint u) [TNum (f64_of_Z u)]
| FoInt i : field_form (FInt i) [TNum (f64_of_Z i)]
| FoFloat x : is_finite64 x = true -> field_form (FFloat x) [TNum x]
| FoBool b : field_form (FBool b) [TBool b]
| FoBytes b : Forall is_byte b -> field_form (FBytes b) [TStr (base64_text b)]
| FoBin b t : json_form (VBin b) t -> field_form (FBin b) [t]
| FoTemplate ids : field_form (FTemplate ids) (json_array (map (fun id => TNum (f64_of_Z id)) ids))
| FoPayload c pay ts : payload_document pay ts -> field_form (FPayload c pay) ts.
