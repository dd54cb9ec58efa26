(** What a BUFR message in a binary stream is (C50-C60), section by section, in terms of its
    bits; independent of readers, factories and scripts. *)
From Verif Require Export SpecRun ModelScript.

(** ** Fields *)

(** A field of a section: name, type, width in bits, registered as a proxy of the message? *)
Definition slot : Type := (string * datatype * Z * bool)%type.
(** The value of a field with the bits [seg].  [DINT]: sign bit and magnitude. *)
Definition meaning (t : datatype) (seg : list bool) : fvalue :=
  match t with
  | DINT => FInt ((if hd false seg then -1 else 1) * msb (tl seg))
  | DBOOL => FBool (hd false seg)
  | DBYTES => FBytes (map msb (chunks8 seg))
  | DBINARY => FBin (Some (mkBin (map msb (chunks8 seg)) (blen seg)))
  | _ => FUint (msb seg)
  end.
(** [bits] are the slots' bits one after the other, [fs] the fields they make. *)
Inductive fills : list slot -> list bool -> list field -> Prop :=
| fills_nil : fills [] [] []
| fills_cons name t w proxy slots seg bits fs :
    blen seg = w -> fills slots bits fs ->
    fills ((name, t, w, proxy) :: slots) (seg ++ bits) (mkField name (meaning t seg) w false :: fs).
(** The hidden field holding the bits behind the last field of a section. *)
Definition padding (pad : list bool) : list field :=
  if blen pad =? 0 then []
  else [mkField "padding" (FBin (Some (mkBin (map msb (chunks8 pad)) (blen pad)))) (blen pad) true].
(** The first field called [name] holds [v]. *)
Definition has (s : section) (name : string) (v : fvalue) : Prop :=
  option_map f_value (FieldByName s name) = Some v.

(** ** Layouts (_definitions/).  The slots declared with the type BIN, which does not exist,
    are delivered as signed integers. *)
Definition layout0 : list slot :=
  [("startSignature", DBYTES, 32, false); ("totalLengthInBytes", DUINT, 24, true);
   ("bufrEditionNumber", DUINT, 8, true)]%string.
Definition layout1 (edition : Z) : list slot :=
  if edition =? 4
  then [("lengthInBytes", DUINT, 24, false); ("masterTableNumber", DUINT, 8, true);
        ("originatingCentre", DUINT, 16, true); ("originatingSubCentre", DUINT, 16, true);
        ("updateSequenceNumber", DUINT, 8, true); ("isSection2Presents", DBOOL, 1, true);
        ("flagBits", DBINARY, 7, false); ("dataCategory", DUINT, 8, true);
        ("dataI18nSubCategory", DUINT, 8, true); ("dataLocalSubCategory", DUINT, 8, true);
        ("masterTableVersion", DUINT, 8, true); ("localTableVersion", DUINT, 8, true);
        ("year", DUINT, 16, true); ("month", DUINT, 8, true); ("day", DUINT, 8, true);
        ("hour", DUINT, 8, true); ("minute", DUINT, 8, true); ("second", DUINT, 8, true)]%string
  else [("lengthInBytes", DUINT, 24, false); ("masterTableNumber", DUINT, 8, true);
        ("originatingSubCentre", DUINT, 8, true); ("originatingCentre", DUINT, 8, true);
        ("updateSequenceNumber", DUINT, 8, true); ("isSection2Presents", DBOOL, 1, true);
        ("flagBits", DINT, 7, false); ("dataCategory", DUINT, 8, true);
        ("dataLocalSubCategory", DUINT, 8, true); ("masterTableVersion", DUINT, 8, true);
        ("localTableVersion", DUINT, 8, true); ("year", DUINT, 8, true);
        ("month", DUINT, 8, true); ("day", DUINT, 8, true); ("hour", DUINT, 8, true);
        ("minute", DUINT, 8, true); ("second", DUINT, 8, true)]%string.
Definition layout2 : list slot :=
  [("lengthInBytes", DUINT, 24, false); ("reservedBits", DBINARY, 8, false)]%string.
Definition layout3 : list slot :=
  [("lengthInBytes", DUINT, 24, false); ("reservedBits", DINT, 8, false);
   ("nSubsets", DUINT, 16, true); ("isObservation", DBOOL, 1, true);
   ("isCompressed", DBOOL, 1, true); ("flagBits", DINT, 6, false)]%string.
Definition layout4 : list slot :=
  [("lengthInBytes", DUINT, 24, false); ("reservedBits", DINT, 8, false)]%string.
Definition layout5 : list slot := [("stopSignature", DBYTES, 32, false)]%string.

(** ** Sections: number, first byte, bits *)

(** The length in bytes that the first field of a section announces. *)
Definition announced (bits : list bool) : Z := msb (firstn 24 bits).
(** One template descriptor: 2 bits F, 6 bits X, 8 bits Y. *)
Definition is_descriptor (id : Z) (seg : list bool) : Prop :=
  blen seg = 16 /\
  id = 100000 * msb (firstn 2 seg) + 1000 * msb (firstn 6 (skipn 2 seg)) + msb (skipn 8 seg).

Definition is_section0 (start : Z) (bits : list bool) (s : section) : Prop :=
  exists fs, fills layout0 bits fs /\ s = mkSection 0 "Indicator Section" start 0 fs /\
    firstn 32 bits = bytes_bits [66; 85; 70; 82].     (* "BUFR" *)
Definition is_section1 (edition start : Z) (bits : list bool) (s : section) : Prop :=
  exists body pad fs, bits = body ++ pad /\ fills (layout1 edition) body fs /\
    blen bits = 8 * announced bits /\
    s = mkSection 1 "Identification Section" start (blen pad) (fs ++ padding pad).
(** A length below 4 makes the last field empty, with the width it would have. *)
Definition is_section2 (start : Z) (bits : list bool) (s : section) : Prop :=
  exists body loc fs, bits = body ++ loc /\ fills layout2 body fs /\
    let w := 8 * (announced bits - 4) in
    blen loc = Z.max 0 w /\
    s = mkSection 2 "Optional Section" start 0
          (fs ++ [mkField "localBits" (FBin (Some (mkBin (map msb (chunks8 loc)) w))) w false]).
Definition is_section3 (start : Z) (bits : list bool) (ids : list Z) (s : section) : Prop :=
  exists body segs pad fs, bits = body ++ concat segs ++ pad /\ fills layout3 body fs /\
    Forall2 is_descriptor ids segs /\ blen pad < 16 /\
    blen bits = 8 * announced bits /\
    s = mkSection 3 "Data Description Section" start (blen pad)
          (fs ++ mkField "unexpandedTemplate" (FTemplate ids) (16 * blen ids) false :: padding pad).
(** The payload: decoding [bits], whatever follows, gives [subs] and stops right behind
    them, the position having changed by [moved] (see C34 for when that is the number of
    bits). *)
Definition is_payload (fc : fconfig) (g : group) (ids : list Z) (n : Z) (c : bool)
    (bits : list bool) (moved : Z) (subs : list subset) : Prop :=
  exists tree, snd (Parse g (fc_fuel fc) ids parser0) = Ok tree /\
    forall rest e p, exists vs,
      run_payload (mkConfig c false (fc_compatible fc) n (fc_plat fc) (fc_fuel fc)) tree
        (vst0 (RBit (mkBR (bits ++ rest) e p))) = (vs, Ok tt) /\
      v_r vs = RBit (mkBR rest e (p + moved)) /\ v_pay vs = subs.
Definition is_section4 (fc : fconfig) (g : group) (ids : list Z) (n : Z) (c : bool)
    (start : Z) (bits : list bool) (s : section) : Prop :=
  exists body pay moved pad fs subs, bits = body ++ pay ++ pad /\ fills layout4 body fs /\
    is_payload fc g ids n c pay moved subs /\
    32 + moved + blen pad = 8 * announced bits /\
    s = mkSection 4 "Data Section" start (blen pad)
          (fs ++ mkField "payload" (FPayload c subs) moved false :: padding pad).
Definition is_section5 (start : Z) (bits : list bool) (s : section) : Prop :=
  exists fs, fills layout5 bits fs /\ s = mkSection 5 "End Section" start 0 fs.

(** The tables a message names. *)
Definition tables_of (fc : fconfig) (s1 : section) (g : group) : Prop :=
  exists master centre sub wmo local l,
    has s1 "masterTableNumber" (FUint master) /\ has s1 "originatingCentre" (FUint centre) /\
    has s1 "originatingSubCentre" (FUint sub) /\ has s1 "masterTableVersion" (FUint wmo) /\
    has s1 "localTableVersion" (FUint local) /\
    AddLocalAndWmoTableGroups (fc_fs fc) master centre sub wmo local [] = (l, Ok tt) /\
    g = GChain l.

(** ** Messages

    Every section starts where the announced lengths of the ones before it put it. *)
Definition is_message (fc : fconfig) (start : Z) (bits : list bool) (secs : list section) : Prop :=
  exists (edition : Z) b0 b1 b2 b3 b4 b5 s0 s1 s2 s3 s4 s5 (flag : bool) ids n c g,
    bits = b0 ++ b1 ++ b2 ++ b3 ++ b4 ++ b5 /\
    secs = s0 :: s1 :: s2 ++ [s3; s4; s5] /\
    let at1 := start + 8 in
    let at2 := at1 + announced b1 in
    let at3 := if flag then at2 + announced b2 else at2 in
    let at4 := at3 + announced b3 in
    let at5 := at4 + announced b4 in
    is_section0 start b0 s0 /\
    has s0 "bufrEditionNumber" (FUint edition) /\ (edition = 3 \/ edition = 4) /\
    is_section1 edition at1 b1 s1 /\
    has s1 "isSection2Presents" (FBool flag) /\
    (if flag then exists s, s2 = [s] /\ is_section2 at2 b2 s else s2 = [] /\ b2 = []) /\
    is_section3 at3 b3 ids s3 /\
    has s3 "nSubsets" (FUint n) /\ has s3 "isCompressed" (FBool c) /\
    tables_of fc s1 g /\
    is_section4 fc g ids n c at4 b4 s4 /\
    is_section5 at5 b5 s5.

(** ** Streams *)

(** [bits] starts with the signature. *)
Definition signed_here (bits : list bool) : Prop := exists rest, bits = bytes_bits [66; 85; 70; 82] ++ rest.
(** Whole bytes [skipped] such that the first byte-aligned signature in [skipped ++ bits] is
    that of [bits]. *)
Definition first_signature (skipped bits : list bool) : Prop :=
  blen skipped mod 8 = 0 /\ signed_here bits /\
  forall a b, skipped = a ++ b -> blen a mod 8 = 0 -> b <> [] -> ~ signed_here (b ++ bits).
(** No byte-aligned signature in [bits]. *)
Definition no_signature (bits : list bool) : Prop :=
  forall a b, bits = a ++ b -> blen a mod 8 = 0 -> ~ signed_here b.
(** Reader position and stream agree on byte boundaries (they do from the start and after
    every read, see C02; only negative field widths and zero-width signed fields take them
    apart). *)
Definition in_step (r : bitreader) : Prop := 0 <= br_pos r /\ (br_pos r + blen (br_bits r)) mod 8 = 0.
(** The factory's reader. *)
Definition reads (s : fac) (r : bitreader) : Prop := fa_r s = RBit r.

(** ** Regular payloads

    No cell has a negative width (a signed field: none below one bit), and compressed data
    has at least one subset.  Only negative widths - made by operators 201, 206-208 or by a
    broken table - take the reader's position and its stream apart. *)
Definition regular_field (f : field) : Prop :=
  forall c subs, f_value f = FPayload c subs ->
    (c = true -> subs <> []) /\
    forall sb x, In sb subs -> In x (sb_cells sb) -> sensible (vn_info (c_node x)).
Definition regular (s : section) : Prop := Forall regular_field (sec_fields s).

(** ** Sequences of messages *)

(** The first byte behind a message, by its own account. *)
Definition behind (secs : list section) : Z :=
  match rev secs with s5 :: _ => sec_start s5 + 4 | [] => 0 end.
(** [bits], from byte [start] on, hold messages with the sections [mss], whole bytes without
    signature in front of each, and [rest] behind the last. *)
Inductive messages (fc : fconfig) : Z -> list bool -> list (list section) -> list bool -> Prop :=
| messages_none start rest : messages fc start rest [] rest
| messages_one start skipped bits more secs mss rest :
    first_signature skipped (bits ++ more) -> blen bits mod 8 = 0 ->
    is_message fc (start + blen skipped / 8) bits secs ->
    messages fc (behind secs) more mss rest ->
    messages fc start (skipped ++ bits ++ more) (secs :: mss) rest.
(** A section moved by [k] bytes. *)
Definition moved_by (k : Z) (s : section) : section :=
  mkSection (sec_number s) (sec_description s) (sec_start s + k) (sec_padding s) (sec_fields s).
(** The section fields are added to at the moment. *)
Definition current (s : fac) (sec : section) : Prop :=
  exists m, fa_msg s = Some m /\ msg_cur m = Some sec.
(** The first of [fs] called [name]; the last one. *)
Definition first_called (name : string) (fs : list field) (f : field) : Prop :=
  exists pre post, fs = pre ++ f :: post /\ f_name f = name /\ Forall (fun g => f_name g <> name) pre.
Definition last_called (name : string) (fs : list field) (f : field) : Prop :=
  exists pre post, fs = pre ++ f :: post /\ f_name f = name /\ Forall (fun g => f_name g <> name) post.
