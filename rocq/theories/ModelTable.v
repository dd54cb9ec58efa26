(** Model of table/descriptor.go, table/table.go and table/group.go. *)
From Verif Require Export ModelFloat ModelBinary.

(** ** Identifiers *)

(** table/descriptor.go:72-82 ID.F, ID.X, ID.Y (Go int division truncates). *)
Definition id_F (id : Z) : Z := go_quot id 100000.
Definition id_X (id : Z) : Z := go_rem (go_quot id 1000) 100.
Definition id_Y (id : Z) : Z := go_rem id 1000.
(** table/descriptor.go:117-123 Operator, Operand *)
Definition id_Operator (id : Z) : Z := go_quot id 1000.
Definition id_Operand (id : Z) : Z := id_Y id.

(** Decimal digits of a non-negative number, as the bytes of a Go string.  The fuel is the
    bit length, which bounds the number of digits. *)
Fixpoint digits (fuel : nat) (z : Z) : gostring :=
  match fuel with
  | O => []
  | S k => if z <? 10 then [48 + z] else digits k (z / 10) ++ [48 + z mod 10]
  end.
(** strconv.Itoa *)
Definition itoa (z : Z) : gostring :=
  if z <? 0 then 45 :: digits (S (Z.to_nat (Z.log2 (- z)))) (- z)
  else digits (S (Z.to_nat (Z.log2 z))) z.
(** table/descriptor.go:68-70 ID.String: fmt "%06d" (for negative numbers the sign counts
    toward the width; identifiers are never negative, modelled for completeness). *)
Definition id_String (id : Z) : gostring :=
  if id <? 0
  then let d := itoa (- id) in 45 :: repeat 48 (5 - length d)%nat ++ d
  else let d := itoa id in repeat 48 (6 - length d)%nat ++ d.

(** table/descriptor.go:8-65 constants *)
Definition F_ELEMENT := 0. Definition F_REPLICATION := 1.
Definition F_OPERATOR := 2. Definition F_SEQUENCE := 3.
Definition ID_031021 := 31021.
Definition ID_031031 := 31031.
Definition ID_203255 := 203255.
Definition ID_222000 := 222000.
Definition ID_223000 := 223000.
Definition ID_223255 := 223255.
Definition ID_224000 := 224000.
Definition ID_224255 := 224255.
Definition ID_225000 := 225000.
Definition ID_225255 := 225255.
Definition ID_232000 := 232000.
Definition ID_232255 := 232255.
Definition ID_236000 := 236000.
Definition ID_237000 := 237000.

(** ** Entries *)

(** table/table.go:16-23 Unit *)
Inductive unit_t : Type := NUMERIC | STRING | NONNEG_CODE | CODE | FLAG | BINARY.

Definition gs (s : string) : gostring := map (fun a => Z.of_nat (nat_of_ascii a)) (list_ascii_of_string s).
Fixpoint gs_eqb (a b : gostring) : bool :=
  match a, b with
  | [], [] => true
  | x :: a', y :: b' => (x =? y) && gs_eqb a' b'
  | _, _ => false
  end.
(** strings.HasPrefix(s, p) *)
Definition has_prefix (s p : gostring) : bool := gs_eqb (firstn (length p) s) p.

(** table/table.go:26-38 unitOf *)
Definition unitOf (s : gostring) : unit_t :=
  if gs_eqb s (gs "CCITT IA5") || gs_eqb s (gs "Character") then STRING
  else if gs_eqb s (gs "FLAG TABLE") then FLAG
  else if gs_eqb s (gs "CODE TABLE") || has_prefix s (gs "Common CODE TABLE") then NONNEG_CODE
  else NUMERIC.

(** table/table.go:48-61 Bentry *)
Record bentry : Type := mkBentry {
  be_name : gostring; be_unit_string : gostring; be_unit : unit_t;
  be_scale : Z; be_refval : Z; be_nbits : Z;
  be_crex_unit_string : gostring; be_crex_unit : unit_t;
  be_crex_scale : Z; be_crex_nchars : Z }.

(** table/table.go:43-96: Entry and its implementations.  Names of replication, operator
    and sequence entries are not modelled. *)
Inductive entry : Type :=
| EB (b : bentry)
| ER
| EC
| ED (members : list Z).

(** table/descriptor.go:87-199 Descriptor.  [d_assoc] is true for a DecorateDescriptor
    (created only with Initial 'A', "ASSOCIATED FIELD"), which forwards every method to
    the wrapped descriptor. *)
Record descriptor : Type := mkDesc { d_id : Z; d_entry : entry; d_assoc : bool }.

(** table/descriptor.go:154 RootDescriptor *)
Definition RootDescriptor : descriptor := mkDesc 0 ER false.
(** table/descriptor.go:158-160 NewLocalDescriptor: zero-valued Bentry *)
Definition local_bentry : bentry :=
  mkBentry (gs "LOCAL DESCRIPTOR") [] NUMERIC 0 0 0 [] NUMERIC 0 0.
Definition NewLocalDescriptor (id : Z) : descriptor := mkDesc id (EB local_bentry) false.
(** table/descriptor.go:163-167 DecorateDescriptor *)
Definition DecorateDescriptor (d : descriptor) : descriptor := mkDesc (d_id d) (d_entry d) true.

(** ** Tables and groups *)

(** table/table.go:105-112, 154-161: B and D, as their entries maps. *)
Record single : Type := mkSingle { s_b : Z -> option bentry; s_d : Z -> option (list Z) }.

(** table/group.go:44-60 SingleTableGroup.Lookup, with table/table.go:114-120, 163-169 *)
Definition single_Lookup (g : single) (id : Z) : res descriptor :=
  if id_F id =? F_ELEMENT then
    match s_b g id with
    | Some e => Ok (mkDesc id (EB e) false)
    | None => Err (EMsg "ID not found")
    end
  else if id_F id =? F_REPLICATION then Ok (mkDesc id ER false)
  else if id_F id =? F_OPERATOR then Ok (mkDesc id EC false)
  else if id_F id =? F_SEQUENCE then
    match s_d g id with
    | Some ms => Ok (mkDesc id (ED ms) false)
    | None => Err (EMsg "ID not found")
    end
  else Err (EMsg "unknown ID").

(** table/group.go:62-79: TableGroup is either a SingleTableGroup or a ChainingTableGroup.
    Simplified: the members of a chain are SingleTableGroups, which is all
    AddSingleTableGroup (group.go:82-94) can add. *)
Inductive group : Type := GSingle (g : single) | GChain (gs : list single).

(** table/group.go:70-79 ChainingTableGroup.Lookup *)
Fixpoint chain_Lookup (gs : list single) (id : Z) : res descriptor :=
  match gs with
  | [] => Err (EMsg "ID not found")
  | g :: rest =>
      match single_Lookup g id with
      | Ok d => Ok d
      | _ => chain_Lookup rest id
      end
  end.
Definition Lookup (g : group) (id : Z) : res descriptor :=
  match g with
  | GSingle s => single_Lookup s id
  | GChain l => chain_Lookup l id
  end.

(** ** Loading *)

(** JSON values as decoded into Go [any]. *)
Inductive any : Type :=
| AStr (s : gostring)
| ANum (x : f64)
| AList (l : list any)
| AOther.    (* null, bool, object *)

Definition as_str (tag : string) (a : any) : res gostring :=
  match a with AStr s => Ok s | _ => Err (EMsg tag) end.
Definition as_num (tag : string) (a : any) : res f64 :=
  match a with ANum x => Ok x | _ => Err (EMsg tag) end.
Definition rbind {A B} (r : res A) (f : A -> res B) : res B :=
  match r with Ok a => f a | Err e => Err e | Panic p => Panic p | NoFuel => NoFuel end.

(** table/table.go:204-249 recordToBentry.  [record[k]] panics when the record is short;
    [int(float64)] is [f64_to_int]. *)
Definition recordToBentry (pl : platform) (r : list any) : res bentry :=
  rbind (rbind (go_nth r 0) (as_str "name is not a string")) (fun name =>
  rbind (rbind (go_nth r 1) (as_str "unitString is not a string")) (fun us =>
  rbind (rbind (go_nth r 2) (as_num "scale is not a number")) (fun scale =>
  rbind (rbind (go_nth r 3) (as_num "refval is not a number")) (fun refval =>
  rbind (rbind (go_nth r 4) (as_num "nbits is not a number")) (fun nbits =>
  rbind (rbind (go_nth r 5) (as_str "crexUnitString is not a number")) (fun cus =>
  rbind (rbind (go_nth r 6) (as_num "crexScale is not a number")) (fun cscale =>
  rbind (rbind (go_nth r 7) (as_num "crexNchars is not a number")) (fun cn =>
  Ok (mkBentry name us (unitOf us) (f64_to_int pl scale) (f64_to_int pl refval)
        (f64_to_int pl nbits) cus (unitOf cus) (f64_to_int pl cscale) (f64_to_int pl cn)))))))))).

(** strconv.Atoi: optional sign, at least one digit, digits only, int64 range. *)
Fixpoint parse_digits (acc : Z) (s : gostring) : option Z :=
  match s with
  | [] => Some acc
  | c :: s' => if (48 <=? c) && (c <=? 57) then parse_digits (10 * acc + (c - 48)) s' else None
  end.
Definition atoi (s : gostring) : res Z :=
  let bad := Err (EMsg "strconv.Atoi") in
  let go (neg : bool) (t : gostring) :=
    match t with
    | [] => bad
    | _ => match parse_digits 0 t with
           | Some v => let w := if neg then - v else v in
                       if (- 2 ^ 63 <=? w) && (w <? 2 ^ 63) then Ok w else bad
           | None => bad
           end
    end in
  match s with
  | 45 :: t => go true t
  | 43 :: t => go false t
  | _ => go false s
  end.

(** table/table.go:264-274: the loop of recordToDentry *)
Fixpoint dentry_ids (l : list any) : res (list Z) :=
  match l with
  | [] => Ok []
  | a :: l' =>
      rbind (as_str "id is not a string" a) (fun s =>
      rbind (match atoi s with Err e => Err (EWrap "id did not convert to an integer" e) | r => r end)
        (fun id => rbind (dentry_ids l') (fun ids => Ok (id :: ids))))
  end.
(** table/table.go:253-276 recordToDentry (the name is not kept) *)
Definition recordToDentry (r : list any) : res (list Z) :=
  rbind (rbind (go_nth r 0) (as_str "name is not a string")) (fun _ =>
  rbind (go_nth r 1) (fun f =>
  match f with
  | AList l => dentry_ids l
  | _ => Err (EMsg "fields is not a list")
  end)).

(** A Go map with int keys as the list of assignments made to it, latest first. *)
Fixpoint assoc_get {A} (m : list (Z * A)) (k : Z) : option A :=
  match m with
  | [] => None
  | (k', v) :: m' => if k' =? k then Some v else assoc_get m' k
  end.

(** table/table.go:137-150 (LoadTableB) and 186-199 (LoadTableD): the loop over the decoded
    records, in the (arbitrary) iteration order [recs] of the Go map. *)
Fixpoint load_records {A} (conv : list any -> res A) (tag : string)
    (recs : list (gostring * list any)) (acc : list (Z * A)) : res (list (Z * A)) :=
  match recs with
  | [] => Ok acc
  | (key, record) :: rest =>
      match atoi key with
      | Ok id =>
          match conv record with
          | Ok e => load_records conv tag rest ((id, e) :: acc)
          | Err e => Err (EWrap tag e)
          | Panic p => Panic p
          | NoFuel => NoFuel
          end
      | Err e => Err (EWrap tag e)
      | Panic p => Panic p
      | NoFuel => NoFuel
      end
  end.
(** A table file: missing, unreadable/undecodable, or decoded to records. *)
Inductive file : Type :=
| FileMissing
| FileBad (e : err)
| FileOk (recs : list (gostring * list any)).
(** table/table.go:123-151 LoadTableB *)
Definition LoadTableB (pl : platform) (f : file) : res (Z -> option bentry) :=
  match f with
  | FileMissing => Err ENotExist
  | FileBad e => Err (EWrap "error loading table B" e)
  | FileOk recs => rbind (load_records (recordToBentry pl) "error loading table B" recs [])
                         (fun m => Ok (assoc_get m))
  end.
(** table/table.go:172-200 LoadTableD *)
Definition LoadTableD (f : file) : res (Z -> option (list Z)) :=
  match f with
  | FileMissing => Err ENotExist
  | FileBad e => Err (EWrap "error loading table D" e)
  | FileOk recs => rbind (load_records recordToDentry "error loading table D" recs [])
                         (fun m => Ok (assoc_get m))
  end.

(** Which tables can be loaded: for (master, centre, subcentre, version), what the manager
    answers for Table B and Table D (manager.go:31-86; its cache is modelled separately in
    ModelManager.v and does not change the answer for an unchanging file system). *)
Record tablefs : Type := mkTableFs {
  fs_B : Z -> Z -> Z -> Z -> res (Z -> option bentry);
  fs_D : Z -> Z -> Z -> Z -> res (Z -> option (list Z)) }.

(** table/group.go:26-42 NewSingleTableGroup *)
Definition NewSingleTableGroup (fs : tablefs) (master centre sub version : Z) : res single :=
  rbind (fs_B fs master centre sub version) (fun b =>
  rbind (fs_D fs master centre sub version) (fun d => Ok (mkSingle b d))).

(** table/group.go:82-94 AddSingleTableGroup, on the list of groups *)
Definition AddSingleTableGroup (fs : tablefs) (master centre sub version : Z) : M (list single) unit :=
  (g <- lift_res (NewSingleTableGroup fs master centre sub version) ;;
   modify (fun l => l ++ [g]))%M.

(** os.IsNotExist does not unwrap [%w] errors. *)
Definition is_not_exist (e : err) : bool := match e with ENotExist => true | _ => false end.

(** table/group.go:99-115 AddLocalAndWmoTableGroups *)
Definition AddLocalAndWmoTableGroups (fs : tablefs)
    (master centre sub wmoVersion localVersion : Z) : M (list single) unit :=
  let wmo := AddSingleTableGroup fs master 0 0 wmoVersion in
  if negb (localVersion =? 0) then fun l =>
    match AddSingleTableGroup fs master centre sub localVersion l with
    | (l', Ok _) => wmo l'
    | (l', Err e) =>
        if is_not_exist e
        then (AddSingleTableGroup fs master centre 0 localVersion ;; wmo)%M l'
        else (l', Err e)
    | r => r
    end
  else wmo.
