(** What a message says, how it is written with the bit writer, and what decoding it should
    give (C68).  Nothing here mentions a reader or a decoder. *)
From Verif Require Export SpecMessage SpecPlan SpecBits.

(** The data: subset by subset, or in compressed form. *)
Inductive body : Type :=
| Subsets (itss : list (list (placed rawval)))
| Columns (n : Z) (its : list (placed ccolumn)).
(** The contents of a message. *)
Record content : Type := mkContent {
  ct_edition : Z;
  ct_master : Z; ct_centre : Z; ct_sub : Z; ct_update : Z;
  ct_category : Z; ct_i18n : Z; ct_localcat : Z; ct_wmo : Z; ct_local : Z;
  ct_year : Z; ct_month : Z; ct_day : Z; ct_hour : Z; ct_minute : Z; ct_second : Z;
  ct_extra : list Z;               (* bytes behind the fields of section 1 *)
  ct_optional : option (list Z);   (* the bytes of section 2, if there is one *)
  ct_observed : bool;
  ct_template : list Z;            (* descriptors *)
  ct_round : bool;                 (* a zero byte behind the template? *)
  ct_body : body;
  ct_fill : list bool }.           (* the bits behind the data, up to a whole byte *)

Definition body_items (b : body) : list item :=
  match b with Subsets itss => written (concat itss) | Columns _ its => written_columns its end.
Definition body_count (b : body) : Z := match b with Subsets itss => blen itss | Columns n _ => n end.
Definition body_compressed (b : body) : bool := match b with Subsets _ => false | Columns _ _ => true end.
(** The values it stands for, subset by subset. *)
Definition body_values (b : body) : list (list (descriptor * pinfo * value)) :=
  match b with
  | Subsets itss => map values_of itss
  | Columns n its => map (fun k => values_of (lane k its)) (seq 0 (Z.to_nat n))
  end.
(** It is laid out for the template nodes [ms], and fits. *)
Definition body_data (fc : fconfig) (ms : list anode) (b : body) : Prop :=
  let cf := mkConfig (body_compressed b) false (fc_compatible fc) (body_count b) (fc_plat fc) (fc_fuel fc) in
  match b with
  | Subsets itss => Forall (laid cf ms) itss
  | Columns n its => 0 < n /\ laid_columns cf n ms its
  end.
(** The bits that items take. *)
Definition items_width (l : list item) : Z := fold_right (fun i n => width (call_of i) + n) 0 l.

(** ** Lengths in bytes *)
Definition size1 (m : content) : Z := (if ct_edition m =? 4 then 22 else 18) + blen (ct_extra m).
Definition size2 (m : content) : Z := match ct_optional m with Some bs => 4 + blen bs | None => 0 end.
Definition size3 (m : content) : Z := 7 + 2 * blen (ct_template m) + (if ct_round m then 1 else 0).
Definition size4 (m : content) : Z := 4 + (items_width (body_items (ct_body m)) + blen (ct_fill m)) / 8.
Definition size (m : content) : Z := 8 + size1 m + size2 m + size3 m + size4 m + 4.

(** ** The fields of the sections, in the order of the layouts of SpecMessage.v *)
Definition zeros (n : Z) : fvalue := FBin (Some (mkBin [0] n)).
Definition says0 (m : content) : list fvalue := [FBytes [66; 85; 70; 82]; FUint (size m); FUint (ct_edition m)].
Definition says1 (m : content) : list fvalue :=
  let flag := FBool (match ct_optional m with Some _ => true | None => false end) in
  if ct_edition m =? 4
  then [FUint (size1 m); FUint (ct_master m); FUint (ct_centre m); FUint (ct_sub m); FUint (ct_update m);
        flag; zeros 7; FUint (ct_category m); FUint (ct_i18n m); FUint (ct_localcat m);
        FUint (ct_wmo m); FUint (ct_local m); FUint (ct_year m); FUint (ct_month m); FUint (ct_day m);
        FUint (ct_hour m); FUint (ct_minute m); FUint (ct_second m)]
  else [FUint (size1 m); FUint (ct_master m); FUint (ct_sub m); FUint (ct_centre m); FUint (ct_update m);
        flag; FInt 0; FUint (ct_category m); FUint (ct_localcat m);
        FUint (ct_wmo m); FUint (ct_local m); FUint (ct_year m); FUint (ct_month m); FUint (ct_day m);
        FUint (ct_hour m); FUint (ct_minute m); FUint (ct_second m)].
Definition says2 (m : content) : list fvalue := [FUint (size2 m); zeros 8].
Definition says3 (m : content) : list fvalue :=
  [FUint (size3 m); FInt 0; FUint (body_count (ct_body m)); FBool (ct_observed m);
   FBool (body_compressed (ct_body m)); FInt 0].
Definition says4 (m : content) : list fvalue := [FUint (size4 m); FInt 0].
Definition says5 : list fvalue := [FBytes [55; 55; 55; 55]].

(** ** Writing *)

(** The write that puts a value into a slot. *)
Definition slot_item (sl : slot) (v : fvalue) : item :=
  let '(_, _, w, _) := sl in
  match v with
  | FInt i => IInt i w
  | FBool b => IBool b
  | FBytes bs => IBytes bs (w / 8)
  | FBin (Some b) => IBinary b w
  | FUint u => IUint u w
  | _ => IUint 0 w
  end.
Definition slot_items (layout : list slot) (vs : list fvalue) : list item :=
  map (fun x => slot_item (fst x) (snd x)) (combine layout vs).
Definition bytes_item (bs : list Z) : item := IBytes bs (blen bs).
(** A descriptor FXXYYY: 2, 6 and 8 bits. *)
Definition descriptor_items (id : Z) : list item :=
  [IUint (id / 100000) 2; IUint (id / 1000 mod 100) 6; IUint (id mod 1000) 8].
Definition items0 (m : content) := slot_items layout0 (says0 m).
Definition items1 (m : content) := slot_items (layout1 (ct_edition m)) (says1 m) ++ [bytes_item (ct_extra m)].
Definition items2 (m : content) :=
  match ct_optional m with Some bs => slot_items layout2 (says2 m) ++ [bytes_item bs] | None => [] end.
Definition items3 (m : content) :=
  slot_items layout3 (says3 m) ++ flat_map descriptor_items (ct_template m) ++
  (if ct_round m then [IUint 0 8] else []).
Definition items4 (m : content) := slot_items layout4 (says4 m) ++ body_items (ct_body m) ++ map IBool (ct_fill m).
Definition items5 := slot_items layout5 says5.
Definition message_items (m : content) : list item :=
  items0 m ++ items1 m ++ items2 m ++ items3 m ++ items4 m ++ items5.
(** It can be written: an edition with a layout, every number within its field, whole bytes. *)
Definition writable (m : content) : Prop :=
  (ct_edition m = 3 \/ ct_edition m = 4) /\ Forall fits (message_items m) /\
  (items_width (body_items (ct_body m)) + blen (ct_fill m)) mod 8 = 0.

(** ** What a user sees of a section: number, first byte, names and values of the fields *)
Definition told (s : section) : Z * Z * list (string * fvalue) :=
  (sec_number s, sec_start s,
   map (fun f => (f_name f, f_value f)) (filter (fun f => negb (f_hidden f)) (sec_fields s))).
Definition named (layout : list slot) (vs : list fvalue) : list (string * fvalue) :=
  map (fun x => (fst (fst (fst (fst x))), snd x)) (combine layout vs).
(** The message [m] at byte [start], its data delivered as [subs]. *)
Definition telling (start : Z) (m : content) (subs : list subset) : list (Z * Z * list (string * fvalue)) :=
  let at1 := start + 8 in
  let at2 := at1 + size1 m in
  let at3 := at2 + size2 m in
  let at4 := at3 + size3 m in
  let at5 := at4 + size4 m in
  [(0, start, named layout0 (says0 m)); (1, at1, named (layout1 (ct_edition m)) (says1 m))] ++
  match ct_optional m with
  | Some bs => [(2, at2, named layout2 (says2 m) ++ [("localBits"%string, FBin (Some (mkBin bs (8 * blen bs))))])]
  | None => [] end ++
  [(3, at3, named layout3 (says3 m) ++ [("unexpandedTemplate"%string, FTemplate (ct_template m))]);
   (4, at4, named layout4 (says4 m) ++ [("payload"%string, FPayload (body_compressed (ct_body m)) subs)]);
   (5, at5, named layout5 says5)].
(** The tables the message names exist and its template expands to the nodes [ms]. *)
Definition understood (fc : fconfig) (m : content) (ms : list anode) : Prop :=
  exists l, AddLocalAndWmoTableGroups (fc_fs fc) (ct_master m) (ct_centre m) (ct_sub m) (ct_wmo m) (ct_local m) [] = (l, Ok tt) /\
    snd (Parse (GChain l) (fc_fuel fc) (ct_template m) parser0) = Ok (root ms).
(** A message that can be written and understood. *)
Definition meant (fc : fconfig) (m : content) : Prop :=
  writable m /\ exists ms, understood fc m ms /\ body_data fc ms (ct_body m).
(** The bytes the bit writer makes of it. *)
Definition bytes_of (m : content) : list Z := bw_output (fst (mapM_ write_item (message_items m) new_bitwriter)).
(** The decoded message [msg] says what [m] says, at byte [start]. *)
Definition conveys (start : Z) (m : content) (msg : message) : Prop :=
  exists subs, payload_values subs = body_values (ct_body m) /\
    map told (msg_sections msg) = telling start m subs.
(** Messages one after the other, other bytes before each. *)
Definition stream_of (l : list (list Z * content)) : list Z :=
  flat_map (fun x => fst x ++ bytes_of (snd x)) l.
Inductive conveyed : Z -> list (list Z * content) -> list message -> Prop :=
| conveyed_nil start : conveyed start [] []
| conveyed_cons start junk m l msg msgs : conveys (start + blen junk) m msg ->
    conveyed (start + blen junk + size m) l msgs -> conveyed start ((junk, m) :: l) (msg :: msgs).
