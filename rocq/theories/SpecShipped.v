(** What the shipped tables are as files and as groups, and the templates one can make of
    them (C72-C75). *)
From Coq Require Export Permutation.
From Verif Require Export ModelShipped SpecTable SpecParser.

(** The rows of table [k]. *)
Definition rows_of {A} (k : nat) (rows : list (Z * A)) : list A :=
  map snd (filter (fun r => Z.testbit (fst r) (Z.of_nat k)) rows).

(** ** Files: the rows in any order, with any names and CREX columns *)
Definition b_record (row : Z * (string * Z * Z * Z)) (rec : gostring * list any) : Prop :=
  match row with
  | (id, (u, scale, refval, nbits)) =>
      fst rec = id_String id /\ exists name cu cs cn, json_int cs /\ json_int cn /\
        snd rec = record_of name (gs u) scale refval nbits cu cs cn
  end.
Definition d_record (row : Z * list Z) (rec : gostring * list any) : Prop :=
  fst rec = id_String (fst row) /\
  exists name, snd rec = [AStr name; AList (map (fun id => AStr (id_String id)) (snd row))].
Definition is_file {A} (P : A -> gostring * list any -> Prop) (rows : list A) (f : file) : Prop :=
  exists recs rows', f = FileOk recs /\ Permutation rows' rows /\ Forall2 P rows' recs.
Definition b_file (k : nat) : file -> Prop := is_file b_record (rows_of k b_rows).
Definition d_file (k : nat) : file -> Prop := is_file d_record (rows_of k d_rows).

(** ** Loaded tables *)
Definition agrees (e : bentry) (r : string * Z * Z * Z) : Prop :=
  match r with
  | (u, scale, refval, nbits) =>
      be_unit_string e = gs u /\ be_unit e = unitOf (gs u) /\
      be_scale e = scale /\ be_refval e = refval /\ be_nbits e = nbits
  end.
(** [g] holds exactly the elements and sequences of table [k]. *)
Definition is_table (k : nat) (g : single) : Prop :=
  (forall id e, s_b g id = Some e -> exists r, In (id, r) (rows_of k b_rows) /\ agrees e r) /\
  (forall id r, In (id, r) (rows_of k b_rows) -> exists e, s_b g id = Some e /\ agrees e r) /\
  (forall id ms, s_d g id = Some ms <-> In (id, ms) (rows_of k d_rows)).
(** A file system with the shipped tables and no others. *)
Definition shipped_fs (fs : tablefs) : Prop :=
  (forall k m c s v, nth_error shipped_tables k = Some (m, c, s, v) ->
     exists g, present fs m c s v g /\ is_table k g) /\
  (forall m c s v, ~ In (m, c, s, v) shipped_tables -> fs_B fs m c s v = Err ENotExist).
(** The table groups that can be made of them: WMO tables of version [v] alone ([l] = 0), or
    behind the tables of centre 98, local version [l]. *)
Inductive shipped_group : group -> Z -> Z -> Prop :=
| SgWmo k v g : nth_error shipped_tables k = Some (0, 0, 0, v) -> is_table k g ->
    shipped_group (GChain [g]) 0 v
| SgLocal j k l v h g : nth_error shipped_tables j = Some (0, 98, 0, l) -> is_table j h ->
    nth_error shipped_tables k = Some (0, 0, 0, v) -> is_table k g ->
    shipped_group (GChain [h; g]) l v.

(** ** Templates *)
(** Elements and sequences that satisfy [known], operators without operands of their own,
    204YYY with an element, and replications that cover such templates. *)
Inductive composed (known : Z -> Prop) : list Z -> Prop :=
| CoNil : composed known []
| CoPlain id rest : id_F id = 0 \/ id_F id = 3 -> known id -> composed known rest ->
    composed known (id :: rest)
| CoOperator id k rest : id_F id = 2 -> standalone id = Some k -> composed known rest ->
    composed known (id :: rest)
| CoAssociated id sig rest : id_F id = 2 -> id / 1000 = 204 -> id mod 1000 <> 0 ->
    id_F sig = 0 -> known sig -> composed known rest -> composed known (id :: sig :: rest)
| CoFixed id block rest : id_F id = 1 -> id_Y id <> 0 -> Z.of_nat (length block) = id_X id ->
    composed known block -> composed known rest -> composed known (id :: block ++ rest)
| CoDelayed id f block rest : id_F id = 1 -> id_Y id = 0 -> id_F f = 0 -> known f ->
    Z.of_nat (length block) = id_X id ->
    composed known block -> composed known rest -> composed known (id :: f :: block ++ rest).

(** The sequences that cannot be parsed, because a descriptor in them is nowhere defined:
    with WMO tables of version [v] ... *)
Definition wmo_broken (v : Z) : list Z :=
  if v =? 6 then [301072; 310014; 310015; 310016; 310023; 310024; 313043]
  else if v <=? 13 then [305007; 305009; 305011; 305018; 308015; 308016]
  else if v <=? 18 then [305007; 305009; 305011; 305018]
  else [].
(** ... and behind local tables of version [l] of centre 98 (version 1 and 101 define an
    element that 308015 and 308016 lack). *)
Definition broken (l v : Z) : list Z :=
  if l =? 0 then wmo_broken v
  else if l =? 2 then (if v =? 6 then [340192] else []) ++ wmo_broken v
  else if l =? 3 then (if v =? 6 then [310195; 310196; 310197; 340192] else []) ++ wmo_broken v
  else [312209] ++ (if v =? 6 then [310226] else []) ++
       (if (v =? 6) || (v =? 14) || (v =? 15) || (v =? 25) then [] else [312207]) ++
       filter (fun id => negb ((id =? 308015) || (id =? 308016))) (wmo_broken v).

(** ** Units: what the text says, read without regard to case *)
Definition lower (s : gostring) : gostring := map (fun c => if (65 <=? c) && (c <=? 90) then c + 32 else c) s.
Fixpoint contains (s p : gostring) : bool :=
  has_prefix s p || match s with [] => false | _ :: s' => contains s' p end.
Definition meant (u : gostring) : unit_t :=
  if contains (lower u) (gs "flag table") then FLAG
  else if contains (lower u) (gs "code table") then NONNEG_CODE
  else if gs_eqb u (gs "CCITT IA5") then STRING
  else NUMERIC.
