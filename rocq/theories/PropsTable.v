(** Property theorems C15-C20: descriptors, lookup, the table cache, loading.
    Vocabulary: SpecTable.v, SpecManager.v. *)
From Verif Require Import SpecTable SpecManager ModelFactory ProofsTable ProofsTable2 ProofsManager.

(** C15.  Sixteen stream bits give F, X and Y back ... *)
Theorem C15_read_descriptor : forall fc s f x y rest e p,
  fa_r s = RBit (mkBR (f ++ x ++ y ++ rest) e p) -> blen f = 2 -> blen x = 6 -> blen y = 8 ->
  exists id, read_id fc 2 6 8 s = (set_fr (RBit (mkBR rest e (p + 16))) s, Ok id) /\
    id = msb f * 100000 + msb x * 1000 + msb y /\
    id_F id = msb f /\ id_X id = msb x /\ id_Y id = msb y /\
    id_String id = fxy_text (msb f) (msb x) (msb y).
Proof.
  intros fc s f x y rest e p Hr Hf Hx Hy. exists (fxy (msb f) (msb x) (msb y)).
  exact (conj (read_fxy fc s f x y rest e p Hr Hf Hx Hy)
          (conj eq_refl (fxy_parts _ _ _ (msb_valid f x y Hf Hx Hy)))).
Qed.
Print Assumptions C15_read_descriptor.
(** ... every F, X, Y in range decomposes into itself ... *)
Theorem C15_decompose : forall F X Y, valid_fxy F X Y ->
  id_F (fxy F X Y) = F /\ id_X (fxy F X Y) = X /\ id_Y (fxy F X Y) = Y /\
  id_String (fxy F X Y) = fxy_text F X Y.
Proof. exact fxy_parts. Qed.
Print Assumptions C15_decompose.
(** ... and different descriptors differ in number and in text. *)
Theorem C15_distinct : forall F X Y F' X' Y', valid_fxy F X Y -> valid_fxy F' X' Y' ->
  fxy F X Y = fxy F' X' Y' \/ id_String (fxy F X Y) = id_String (fxy F' X' Y') ->
  F = F' /\ X = X' /\ Y = Y'.
Proof.
  intros F X Y F' X' Y' H H' [E|E]; [exact (fxy_inj _ _ _ _ _ _ H H' E)|].
  rewrite (proj2 (proj2 (proj2 (fxy_parts _ _ _ H)))), (proj2 (proj2 (proj2 (fxy_parts _ _ _ H')))) in E.
  exact (fxy_text_inj _ _ _ _ _ _ H H' E).
Qed.
Print Assumptions C15_distinct.
Example C15_example : valid_fxy 3 63 255 /\ fxy 3 63 255 = 363255 /\
  id_String (fxy 0 2 1) = gs "002001" /\ id_String 363255 = gs "363255".
Proof. unfold valid_fxy. repeat split; try lia; reflexivity. Qed.

(** C16.  The first group that knows an identifier answers; otherwise an error. *)
Theorem C16_first_group_wins : forall g id d,
  Lookup g id = Ok d <->
  exists before s after, members_of g = before ++ s :: after /\ knows s id d /\
    Forall (fun s' => knows_not s' id) before.
Proof. exact Lookup_ok. Qed.
Print Assumptions C16_first_group_wins.
Theorem C16_fails_only_if_unknown : forall g id,
  (exists d, Lookup g id = Ok d) \/
  (exists e, Lookup g id = Err e) /\ Forall (fun s => knows_not s id) (members_of g).
Proof. exact Lookup_total. Qed.
Print Assumptions C16_fails_only_if_unknown.
(** The descriptor found carries the identifier asked for and its kind follows F. *)
Theorem C16_kind_follows_F : forall g id d, Lookup g id = Ok d -> d_id d = id /\ d_assoc d = false /\
  match d_entry d with
  | EB e => id_F id = 0 /\ exists s, In s (members_of g) /\ s_b s id = Some e
  | ER => id_F id = 1
  | EC => id_F id = 2
  | ED ms => id_F id = 3 /\ exists s, In s (members_of g) /\ s_d s id = Some ms
  end.
Proof. exact Lookup_kind. Qed.
Print Assumptions C16_kind_follows_F.
Theorem C16_always_and_never : forall g id,
  (id_F id = 1 \/ id_F id = 2 -> members_of g <> [] -> exists d, Lookup g id = Ok d) /\
  (id_F id < 0 \/ 3 < id_F id -> exists e, Lookup g id = Err e).
Proof. exact (fun g id => conj (Lookup_always g id) (Lookup_never g id)). Qed.
Print Assumptions C16_always_and_never.
Example C16_example :
  let b n := mkBentry (gs "X") (gs "K") NUMERIC 0 0 n [] NUMERIC 0 0 in
  let local := mkSingle (fun id => if id =? 12001 then Some (b 16) else None) (fun _ => None) in
  let wmo := mkSingle (fun id => if (id =? 12001) || (id =? 12002) then Some (b 12) else None) (fun _ => None) in
  Lookup (GChain [local; wmo]) 12001 = Ok (mkDesc 12001 (EB (b 16)) false) /\
  Lookup (GChain [local; wmo]) 12002 = Ok (mkDesc 12002 (EB (b 12)) false) /\
  Lookup (GChain [local; wmo]) 301001 = Err (EMsg "ID not found") /\
  Lookup (GChain [local; wmo]) 101000 = Ok (mkDesc 101000 ER false) /\
  Lookup (GChain [local; wmo]) 400000 = Err (EMsg "ID not found").
Proof. repeat split; reflexivity. Qed.

(** C17.  In every interleaving of any requests: *)
Section C17.
  Context {C : Type}.
  Implicit Types (s : mstate C) (t u : tobj C).

  (** a call that holds the write lock is alone, *)
  Theorem C17_write_lock_is_exclusive : forall paths is s i j c d,
    steps (mstart paths) is s -> call_at s i c -> call_at s j d -> holds_write c = true ->
    holds_read d = false /\ (holds_write d = true -> i = j).
  Proof. exact c17_locks. Qed.
  (** so a map write never races with another access; *)
  Theorem C17_no_map_race : forall paths is s i j c d,
    steps (mstart paths) is s -> call_at s i c -> call_at s j d -> writes_map c = true -> i <> j ->
    reads_map d = false /\ writes_map d = false.
  Proof. exact c17_race. Qed.
  (** each path is loaded successfully at most once; *)
  Theorem C17_loaded_at_most_once : forall paths is s p,
    steps (mstart paths) is s -> (good_loads s p <= 1)%nat.
  Proof. exact c17_once. Qed.
  (** a request answers with an actual load of its own path: the table built from what the
      file held then, or that load's error, never anything else; *)
  Theorem C17_answers_come_from_loads : forall paths is s i p r,
    steps (mstart paths) is s -> returned s i p r ->
    nth_error paths i = Some p /\ In (p, r) (m_loads s) /\
    ((exists t, r = Ok t) \/ (exists e, r = Err e)).
  Proof.
    exact (fun paths is s i p r H Hr => conj (c17_path paths is s i p r H Hr)
      (conj (c17_loaded paths is s i p r H Hr) (c17_result paths is s i p r H Hr))).
  Qed.
  (** all successful requests for a path return the same object, and different paths
      different objects; *)
  Theorem C17_one_shared_object : forall paths is s i j p q t u,
    steps (mstart paths) is s -> returned s i p (Ok t) -> returned s j q (Ok u) ->
    (p = q -> t = u) /\ (p <> q -> to_id t <> to_id u).
  Proof.
    intros paths is s i j p q t u H Hi Hj. split; [|exact (c17_distinct paths is s i j p q t u H Hi Hj)].
    intros E. subst q. exact (c17_same paths is s i j p t u H Hi Hj).
  Qed.
  (** failures are not cached: every failed request made a failing load of its own; *)
  Theorem C17_failures_not_cached : forall paths is s p,
    steps (mstart paths) is s -> failed_calls s p = bad_loads s p.
  Proof. exact c17_failures. Qed.
  (** and the requests cannot block each other: some call can move until all have returned,
      which takes at most eight statements each. *)
  Theorem C17_no_deadlock : forall paths is s, steps (mstart (C := C) paths) is s ->
    (length is <= 8 * length paths)%nat /\ (all_returned s \/ exists i s', step s i s').
  Proof. exact (fun paths is s H => conj (c17_bounded paths is s H) (c17_progress paths is s H)). Qed.
End C17.
Print Assumptions C17_write_lock_is_exclusive.
Print Assumptions C17_no_map_race.
Print Assumptions C17_loaded_at_most_once.
Print Assumptions C17_answers_come_from_loads.
Print Assumptions C17_one_shared_object.
Print Assumptions C17_failures_not_cached.
Print Assumptions C17_no_deadlock.
(** Two requests for one path race past the first check; the second finds the table in the
    map under the write lock. *)
Example C17_example : exists is s, steps (mstart (C := Z) [gs "p"; gs "p"]) is s /\
  returned s 0 (gs "p") (Ok (mkT 0 7)) /\ returned s 1 (gs "p") (Ok (mkT 0 7)) /\
  good_loads s (gs "p") = 1%nat /\ length is = 14%nat.
Proof.
  exists [0;1;0;1;0;1;0;0;0;0;0;1;1;1]%nat.
  exists (mkM 0 false [([112], mkT 0 7)] [PDone [112] (Ok (mkT 0 7)); PDone [112] (Ok (mkT 0 7))] 1
            [([112], Ok (mkT 0 7))]). split; [|repeat split; reflexivity].
  eapply StepsCons; [eapply (StRLock _ 0); reflexivity|]. vm_compute.
  eapply StepsCons; [eapply (StRLock _ 1); reflexivity|]. vm_compute.
  eapply StepsCons; [eapply (StRead _ 0); reflexivity|]. vm_compute.
  eapply StepsCons; [eapply (StRead _ 1); reflexivity|]. vm_compute.
  eapply StepsCons; [eapply (StRUnlock _ 0); reflexivity|]. vm_compute.
  eapply StepsCons; [eapply (StRUnlock _ 1); reflexivity|]. vm_compute.
  eapply StepsCons; [eapply (StLock _ 0); reflexivity|]. vm_compute.
  eapply StepsCons; [eapply (StCheck _ 0); reflexivity|]. vm_compute.
  eapply StepsCons; [eapply (StLoadOk _ 0 _ 7); reflexivity|]. vm_compute.
  eapply StepsCons; [eapply (StStore _ 0); reflexivity|]. vm_compute.
  eapply StepsCons; [eapply (StUnlock _ 0); reflexivity|]. vm_compute.
  eapply StepsCons; [eapply (StLock _ 1); reflexivity|]. vm_compute.
  eapply StepsCons; [eapply (StCheck _ 1); reflexivity|]. vm_compute.
  eapply StepsCons; [eapply (StUnlock _ 1); reflexivity|]. vm_compute.
  apply StepsNil.
Qed.

(** C18.  Cache keys: different requests never share a key, for any base path. *)
Theorem C18_keys_do_not_collide : forall base m c s v m' c' s' v',
  (keyB base m c s v = keyB base m' c' s' v' -> (m, c, s, v) = (m', c', s', v')) /\
  (keyD base m c s v = keyD base m' c' s' v' -> (m, c, s, v) = (m', c', s', v')) /\
  keyB base m c s v <> keyD base m' c' s' v'.
Proof.
  intros base m c s v m' c' s' v'.
  pose proof (composeTablePath_inj base (gs "TableB.json") (gs "TableB.json") m c s v m' c' s' v'
    (proj1 names_plain) (proj1 names_plain)) as HB.
  pose proof (composeTablePath_inj base (gs "TableD.json") (gs "TableD.json") m c s v m' c' s' v'
    (proj2 names_plain) (proj2 names_plain)) as HD.
  pose proof (composeTablePath_inj base (gs "TableB.json") (gs "TableD.json") m c s v m' c' s' v'
    (proj1 names_plain) (proj2 names_plain)) as HX.
  split; [intros E; destruct (HB E) as (-> & -> & -> & -> & _); reflexivity|].
  split; [intros E; destruct (HD E) as (-> & -> & -> & -> & _); reflexivity|].
  intros E. destruct (HX E) as (_ & _ & _ & _ & Hn). vm_compute in Hn. discriminate.
Qed.
Print Assumptions C18_keys_do_not_collide.
Example C18_example :
  keyB (gs "/opt/./tables/") 0 98 0 1 = gs "/opt/tables/0/98/0/1/TableB.json" /\
  keyB (gs "a/../b") 0 9 8 1 = gs "b/0/9/8/1/TableB.json" /\
  keyD [] 0 98 0 1 = gs "0/98/0/1/TableD.json".
Proof. repeat split; reflexivity. Qed.

(** C19.  AddLocalAndWmoTableGroups succeeds exactly when it can append the documented
    groups: [wmo] for local version 0, else local then WMO, falling back to sub-centre 0. *)
Theorem C19_groups_added : forall fs m c s wv lv l0 l',
  AddLocalAndWmoTableGroups fs m c s wv lv l0 = (l', Ok tt) <->
  exists added, l' = l0 ++ added /\
  exists w, present fs m 0 0 wv w /\
   (lv = 0 /\ added = [w] \/
    lv <> 0 /\ (exists l, present fs m c s lv l /\ added = [l; w]) \/
    lv <> 0 /\ absent fs m c s lv /\ (exists l, present fs m c 0 lv l /\ added = [l; w])).
Proof. exact AddLocal_ok. Qed.
Print Assumptions C19_groups_added.
(** Local entries shadow WMO entries. *)
Theorem C19_local_shadows_wmo : forall l w id d,
  Lookup (GChain [l; w]) id = Ok d <-> knows l id d \/ knows_not l id /\ knows w id d.
Proof. exact local_shadows. Qed.
Print Assumptions C19_local_shadows_wmo.
(** The last sentence of C19 is false: with a local version but no local tables at all, the
    WMO group is not added; the call fails although the WMO tables exist. *)
Theorem C19_wmo_only_refuted : exists fs m c s wv lv w,
  lv <> 0 /\ absent fs m c s lv /\ absent fs m c 0 lv /\ present fs m 0 0 wv w /\
  AddLocalAndWmoTableGroups fs m c s wv lv [] = ([], Err ENotExist).
Proof.
  pose (w := mkSingle (fun _ => None) (fun _ => None)).
  pose (fs := mkTableFs (fun _ c _ _ => if c =? 0 then Ok (s_b w) else Err ENotExist)
                        (fun _ c _ _ => if c =? 0 then Ok (s_d w) else Err ENotExist)).
  exists fs, 0, 98, 0, 19, 1, w.
  assert (Ha : absent fs 0 98 0 1) by (left; reflexivity).
  split; [discriminate|]. split; [exact Ha|]. split; [exact Ha|]. split; [split; reflexivity|].
  exact (AddLocal_absent fs 0 98 0 19 1 [] ltac:(discriminate) Ha Ha).
Qed.
Print Assumptions C19_wmo_only_refuted.
(** What happens instead, always: *)
Theorem C19_no_local_tables_fails : forall fs m c s wv lv l0,
  lv <> 0 -> absent fs m c s lv -> absent fs m c 0 lv ->
  AddLocalAndWmoTableGroups fs m c s wv lv l0 = (l0, Err ENotExist).
Proof. exact AddLocal_absent. Qed.
Print Assumptions C19_no_local_tables_fails.
(** A table counts as absent only if its file does not exist; a file that is there but
    cannot be used is an error of its own, which ends the search. *)
Theorem C19_missing_files : forall pl f,
  (LoadTableB pl f = Err ENotExist <-> f = FileMissing) /\ (LoadTableD f = Err ENotExist <-> f = FileMissing).
Proof.
  assert (K : forall A (conv : list any -> res A) tag recs acc, load_records conv tag recs acc <> Err ENotExist).
  { intros A conv tag recs. induction recs as [|[k r] recs IH]; intros acc; cbn [load_records]; [discriminate|].
    destruct (atoi k); try discriminate. destruct (conv r); try discriminate. apply IH. }
  intros pl f. split; (split; [|intros ->; reflexivity]); destruct f as [|e|recs]; cbn; try discriminate; auto.
  - pose proof (K _ (recordToBentry pl) "error loading table B"%string recs []) as Q. destruct (load_records _ _ _ _); cbn; congruence.
  - pose proof (K _ recordToDentry "error loading table D"%string recs []) as Q. destruct (load_records _ _ _ _); cbn; congruence.
Qed.
Print Assumptions C19_missing_files.
Theorem C19_broken_fails : forall fs m c s wv lv l0 e, lv <> 0 -> e <> ENotExist ->
  fs_B fs m c s lv = Err e \/ (exists b, fs_B fs m c s lv = Ok b) /\ fs_D fs m c s lv = Err e ->
  AddLocalAndWmoTableGroups fs m c s wv lv l0 = (l0, Err e).
Proof.
  intros fs m c s wv lv l0 e Hl He H. unfold AddLocalAndWmoTableGroups. destruct (Z.eqb_spec lv 0); [contradiction|]. cbn [negb].
  assert (E : AddSingleTableGroup fs m c s lv l0 = (l0, Err e)).
  { unfold AddSingleTableGroup, NewSingleTableGroup, bind, lift_res. destruct H as [H|[[b Hb] H]]; [rewrite H; reflexivity|rewrite Hb; cbn; rewrite H; reflexivity]. }
  rewrite E. destruct e; try reflexivity. congruence.
Qed.
Print Assumptions C19_broken_fails.
Example C19_example :
  let w := mkSingle (fun _ => None) (fun id => if id =? 301001 then Some [1001; 1002] else None) in
  let l := mkSingle (fun _ => None) (fun _ => None) in
  let fs := mkTableFs
    (fun _ c s _ => if c =? 0 then Ok (s_b w) else if s =? 0 then Ok (s_b l) else Err ENotExist)
    (fun _ c s _ => if c =? 0 then Ok (s_d w) else if s =? 0 then Ok (s_d l) else Err ENotExist) in
  AddLocalAndWmoTableGroups fs 0 98 3 19 1 [] = ([l; w], Ok tt) /\
  absent fs 0 98 3 1 /\ present fs 0 98 0 1 l /\ present fs 0 0 0 19 w.
Proof. repeat split; try reflexivity. left; reflexivity. Qed.

(** C20.  A well-formed record is loaded faithfully (further columns are ignored) ... *)
Theorem C20_record_loaded_faithfully : forall pl name unit scale refval nbits cunit cscale cn more,
  json_int scale -> json_int refval -> json_int nbits -> json_int cscale -> json_int cn ->
  recordToBentry pl (record_of name unit scale refval nbits cunit cscale cn ++ more)
  = Ok (mkBentry name unit (unitOf unit) scale refval nbits cunit (unitOf cunit) cscale cn).
Proof. exact record_faithful. Qed.
Print Assumptions C20_record_loaded_faithfully.
(** ... these unit texts, and only these, are recognised; everything else is numeric ... *)
Theorem C20_units_recognised : forall s,
  (unitOf s = STRING <-> s = gs "CCITT IA5" \/ s = gs "Character") /\
  (unitOf s = FLAG <-> s = gs "FLAG TABLE") /\
  (unitOf s = NONNEG_CODE <-> s = gs "CODE TABLE" \/ exists t, s = gs "Common CODE TABLE" ++ t) /\
  unitOf s <> CODE /\ unitOf s <> BINARY.
Proof. exact unitOf_spec. Qed.
Print Assumptions C20_units_recognised.
(** ... a field of the wrong type in a complete record is an error ... *)
Theorem C20_wrong_type_rejected : forall pl r i a, (8 <= length r)%nat -> (i < 8)%nat ->
  nth_error r i = Some a -> ~ right_type i a -> exists e, recordToBentry pl r = Err e.
Proof. exact record_wrong_type. Qed.
Print Assumptions C20_wrong_type_rejected.
(** ... and a table loaded from a file is exactly the file, when no two keys denote the
    same number. *)
Theorem C20_loads : forall pl f, (exists t, LoadTableB pl f = Ok t) <->
  exists recs, f = FileOk recs /\ Forall (fun kr => (exists id, atoi (fst kr) = Ok id) /\ exists e, (recordToBentry pl) (snd kr) = Ok e) recs.
Proof.
  intros pl f. split.
  - intros [t H]. destruct f as [|e|recs]; try discriminate H. exists recs. split; [reflexivity|]. cbn in H.
    destruct (load_records (recordToBentry pl) _ recs []) as [m| | |] eqn:E; try discriminate H. clear H. revert E. generalize (@nil (Z * bentry)) as acc.
    induction recs as [|[k r] recs IH]; intros acc E; constructor; cbn [load_records] in E.
    + cbn [fst snd]. destruct (atoi k); try discriminate E. destruct ((recordToBentry pl) r) eqn:Er; try discriminate E. eauto.
    + destruct (atoi k); try discriminate E. destruct ((recordToBentry pl) r); try discriminate E. eapply IH. exact E.
  - intros (recs & -> & H). cbn. assert (K : forall acc, exists m, load_records (recordToBentry pl) "error loading table B" recs acc = Ok m).
    { induction H as [|[k r] recs [[id Hi] [e He]] _ IH]; intros acc; cbn [load_records]; [eauto|]. cbn [fst snd] in *. rewrite Hi, He. apply IH. }
    destruct (K []) as [m ->]. cbn. eauto.
Qed.
Print Assumptions C20_loads.
Theorem C20_table_is_the_file : forall pl recs t,
  LoadTableB pl (FileOk recs) = Ok t ->
  (forall k r k' r' id, In (k, r) recs -> In (k', r') recs -> atoi k = Ok id -> atoi k' = Ok id -> r = r') ->
  forall id e, t id = Some e <->
    exists key r, In (key, r) recs /\ atoi key = Ok id /\ recordToBentry pl r = Ok e.
Proof. exact LoadTableB_exact. Qed.
Print Assumptions C20_table_is_the_file.
(** Recognition of code and flag tables is refuted for spellings used by the shipped WMO
    tables of version 35 and later: they load as numeric elements. *)
Theorem C20_code_tables_recognised_refuted :
  unitOf (gs "Code table") = NUMERIC /\ unitOf (gs "Flag table") = NUMERIC /\
  unitOf (gs "Common Code table C-1") = NUMERIC.
Proof. repeat split; reflexivity. Qed.
Print Assumptions C20_code_tables_recognised_refuted.
(** A record that is too short panics instead of being rejected. *)
Theorem C20_short_record_refuted : forall pl r, (length r < 8)%nat ->
  (forall i a, nth_error r i = Some a -> right_type i a) -> recordToBentry pl r = Panic PIndex.
Proof. exact record_short. Qed.
Print Assumptions C20_short_record_refuted.
Example C20_example : forall pl,
  recordToBentry pl [AStr (gs "TEMPERATURE"); AStr (gs "K"); ANum (f64_of_Z 1); ANum (f64_of_Z (-1024));
    ANum (f64_of_Z 12); AStr (gs "C"); ANum (f64_of_Z 1); ANum (f64_of_Z 3)]
  = Ok (mkBentry (gs "TEMPERATURE") (gs "K") NUMERIC 1 (-1024) 12 (gs "C") NUMERIC 1 3) /\
  json_int 1 /\ json_int (-1024) /\ json_int 12 /\ json_int 3.
Proof. intros pl. repeat split; reflexivity. Qed.

(** C66.  Table D: the texts of a sequence are read back as its identifiers, anything that
    is not a number is rejected, and the table is exactly the file. *)
Theorem C66_sequence_loaded_faithfully : forall name ids more,
  Forall (fun id => 0 <= id < 1000000) ids ->
  recordToDentry (AStr name :: AList (map (fun id => AStr (id_String id)) ids) :: more) = Ok ids.
Proof. exact dentry_faithful. Qed.
Print Assumptions C66_sequence_loaded_faithfully.
Theorem C66_bad_member_rejected : forall name l more,
  Exists (fun a => match a with AStr s => is_ok (atoi s) = false | _ => True end) l ->
  exists e, recordToDentry (AStr name :: AList l :: more) = Err e.
Proof. exact dentry_rejects. Qed.
Print Assumptions C66_bad_member_rejected.
(** A record is accepted exactly if it begins with a text and a list of texts that are numbers. *)
Theorem C66_accepted : forall r ids, recordToDentry r = Ok ids <->
  exists name l more, r = AStr name :: AList l :: more /\
    Forall2 (fun a id => exists t, a = AStr t /\ atoi t = Ok id) l ids.
Proof.
  assert (K : forall l ids, dentry_ids l = Ok ids <-> Forall2 (fun a id => exists t, a = AStr t /\ atoi t = Ok id) l ids).
  { induction l as [|a l IH]; intros ids; cbn [dentry_ids]; split.
    - intros H. injection H as <-. constructor.
    - intros H. inversion H. reflexivity.
    - destruct a; cbn; try discriminate. destruct (atoi s) as [id| | |] eqn:E; cbn; try discriminate. destruct (dentry_ids l) as [ids'| | |]; cbn; try discriminate.
      intros H. injection H as <-. constructor; [eauto|]. now apply IH.
    - intros H. inversion H as [|? id ? ids' (t & -> & E) H']; subst. cbn. rewrite E. cbn. apply IH in H'. rewrite H'. reflexivity. }
  intros r ids. unfold recordToDentry. split.
  - destruct r as [|[] [|[] r]]; cbn; try discriminate. intros H. apply K in H. eauto 10.
  - intros (name & l & more & -> & H). cbn. now apply K.
Qed.
Print Assumptions C66_accepted.
Theorem C66_loads : forall f, (exists t, LoadTableD f = Ok t) <->
  exists recs, f = FileOk recs /\ Forall (fun kr => (exists id, atoi (fst kr) = Ok id) /\ exists e, recordToDentry (snd kr) = Ok e) recs.
Proof.
  intros f. split.
  - intros [t H]. destruct f as [|e|recs]; try discriminate H. exists recs. split; [reflexivity|]. cbn in H.
    destruct (load_records recordToDentry _ recs []) as [m| | |] eqn:E; try discriminate H. clear H. revert E. generalize (@nil (Z * list Z)) as acc.
    induction recs as [|[k r] recs IH]; intros acc E; constructor; cbn [load_records] in E.
    + cbn [fst snd]. destruct (atoi k); try discriminate E. destruct (recordToDentry r) eqn:Er; try discriminate E. eauto.
    + destruct (atoi k); try discriminate E. destruct (recordToDentry r); try discriminate E. eapply IH. exact E.
  - intros (recs & -> & H). cbn. assert (K : forall acc, exists m, load_records recordToDentry "error loading table D" recs acc = Ok m).
    { induction H as [|[k r] recs [[id Hi] [e He]] _ IH]; intros acc; cbn [load_records]; [eauto|]. cbn [fst snd] in *. rewrite Hi, He. apply IH. }
    destruct (K []) as [m ->]. cbn. eauto.
Qed.
Print Assumptions C66_loads.
Theorem C66_table_is_the_file : forall recs t,
  LoadTableD (FileOk recs) = Ok t ->
  (forall k r k' r' id, In (k, r) recs -> In (k', r') recs -> atoi k = Ok id -> atoi k' = Ok id -> r = r') ->
  forall id e, t id = Some e <->
    exists key r, In (key, r) recs /\ atoi key = Ok id /\ recordToDentry r = Ok e.
Proof. exact LoadTableD_exact. Qed.
Print Assumptions C66_table_is_the_file.
Example C66_example :
  exists t, LoadTableD (FileOk [(gs "301001", [AStr (gs "WMO BLOCK"); AList [AStr (gs "001001"); AStr (gs "001002")]])]) = Ok t /\
  t 301001 = Some [1001; 1002].
Proof. eexists. split; reflexivity. Qed.
