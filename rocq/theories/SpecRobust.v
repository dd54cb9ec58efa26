(** How decoding a message can end (C77). *)
From Verif Require Export SpecShipped SpecSafe SpecMessage.

(** The identifiers a template leads to: its own, and those of the sequences among them. *)
Inductive leads_to (g : group) (ids : list Z) : Z -> Prop :=
| RcOwn id : In id ids -> leads_to g ids id
| RcMember q d ms id : leads_to g ids q -> Lookup g q = Ok d -> d_entry d = ED ms -> In id ms ->
    leads_to g ids id.
(** The operators that refer to a bitmap. *)
Definition assessments : list Z := [222000; 223000; 224000; 225000; 232000].

(** A template and a header that cannot break the decoder down in the manner [b]: none of its
    causes (see [excluded]) is there, and the parser has no bitmap operator to stumble over. *)
Definition harmless (g : group) (ids : list Z) (n : Z) (c : bool) (b : breakdown) : Prop :=
  (b = Crash PIndex -> forall id, leads_to g ids id -> ~ In id assessments) /\
  (forall ms, parsed g ids ms -> excluded n c ms b).

(** The message being decoded has registered the field [name] with value [v]. *)
Definition noted (s : fac) (name : string) (v : fvalue) : Prop :=
  exists m f, fa_msg s = Some m /\ ProxyField m name = Ok f /\ f_value f = v.

(** The ways the decoder breaks down, by the state it leaves behind.
    Section 3 announces fewer bytes than its own header has: *)
Definition short_header (s : fac) : Prop :=
  exists sec l, current s sec /\ sec_number sec = 3 /\ has sec "lengthInBytes" (FUint l) /\ l <= 5.
(** The stream ends inside of the bits behind the last field of section 1, 3 or 4: *)
Definition cut_in_padding (s : fac) : Prop :=
  exists sec r, current s sec /\ In (sec_number sec) [1; 3; 4] /\ 0 < sec_padding sec /\
    reads s r /\ blen (br_bits r) < 8.
(** The template is not a harmless one: *)
Definition harmful_template (s : fac) (b : breakdown) : Prop :=
  exists sec g ids n c, current s sec /\ sec_number sec = 4 /\ fa_group s = Some g /\ fa_ut s = Some ids /\
    noted s "nSubsets" (FUint n) /\ noted s "isCompressed" (FBool c) /\ ~ harmless g ids n c b.

(** The outcomes of one call: a message or an error, and a reader to go on with; a panic for
    one of the reasons above; or no end, for the last of them. *)
Definition accounted {A} (x : fac * res A) : Prop :=
  (exists r, reads (fst x) r) /\
  match snd x with
  | Ok _ | Err _ => True
  | Panic p => (p = PMake /\ short_header (fst x)) \/ (p = PNil /\ cut_in_padding (fst x)) \/
      harmful_template (fst x) (Crash p)
  | NoFuel => harmful_template (fst x) Endless
  end.

(** Any pair of tables found leads to a group that is acyclic and has sensible entries. *)
Definition usable (fs : tablefs) : Prop :=
  forall m c s wv lv,
    match AddLocalAndWmoTableGroups fs m c s wv lv [] with
    | (l, Ok _) => acyclic (GChain l) /\ loaded_tables (GChain l)
    | (_, Err _) => True
    | _ => False
    end.
(** The same configuration, with [k] as the bound of the loops that have none. *)
Definition with_fuel (k : nat) (fc : fconfig) : fconfig :=
  mkFconfig (fc_json fc) (fc_compatible fc) (fc_plat fc) (fc_fs fc) k.
