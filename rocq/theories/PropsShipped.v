(** C72: the shipped tables load and combine.  C73: which templates made of them parse.
    C74: their numbers decode accurately.  C75: their units are recognised. *)
From Coq Require Import Reals Lia ZifyBool ZifyNat.
From Flocq Require Import Core.
From Verif Require Import SpecUnpack SpecReal ProofsReal ProofsReal2 ProofsTable2 ProofsParser5 SpecRun PropsUnpack.
From Verif Require Import SpecShipped ProofsShipped ProofsShipped2 ProofsShipped3 ProofsShipped4 ProofsShipped5 ProofsShipped6.
Open Scope Z_scope.

(** ** C72 *)
(** Loading any file with the shipped rows gives the shipped table, whatever the order of the
    rows, the names and the CREX columns. *)
Theorem C72_loads : forall pl k fb fd, (exists t, nth_error shipped_tables k = Some t) -> b_file k fb -> d_file k fd ->
  exists b d, LoadTableB pl fb = Ok b /\ LoadTableD fd = Ok d /\ is_table k (mkSingle b d).
Proof. intros pl k fb fd (t & Ht). apply shipped_loads, (table_lt _ _ Ht). Qed.
Print Assumptions C72_loads.
Example C72_files : forall k, b_file k (b_file_of k) /\ d_file k (d_file_of k).
Proof. intros k. split; [apply b_file_of_ok|apply d_file_of_ok]. Qed.

(** The calls that succeed: master table 0, WMO version 6 to 41, and no local version, or one
    of the versions of centre 98 whatever the sub-centre, or (centre 0) a second WMO version. *)
Theorem C72_available : forall fs m c s wv lv l0, shipped_fs fs ->
  ((exists l', AddLocalAndWmoTableGroups fs m c s wv lv l0 = (l', Ok tt)) <->
   m = 0 /\ 6 <= wv <= 41 /\ (lv = 0 \/ c = 98 /\ In lv [1; 2; 3; 101] \/ c = 0 /\ 6 <= lv <= 41)).
Proof.
  intros fs m c s wv lv l0 HF.
  assert (HW : forall v, In (0, 0, 0, v) shipped_tables <-> 6 <= v <= 41) by exact wmo_versions.
  assert (HL : forall l, In (0, 98, 0, l) shipped_tables <-> In l [1; 2; 3; 101]) by exact local_versions.
  assert (HP : forall m c s v, (exists g, present fs m c s v g) <-> In (m, c, s, v) shipped_tables) by (intros; apply shipped_present_iff, HF).
  split.
  - intros (l' & H). apply AddLocal_ok in H. destruct H as (added & -> & w & Hw & H).
    assert (Hw' : In (m, 0, 0, wv) shipped_tables) by (apply HP; eauto). destruct (shipped_numbers _ _ _ _ Hw') as (-> & _ & _).
    split; [reflexivity|]. split; [apply HW, Hw'|].
    assert (HX : forall s', (exists g, present fs 0 c s' lv g) -> c = 98 /\ In lv [1; 2; 3; 101] \/ c = 0 /\ 6 <= lv <= 41).
    { intros s' Hs. apply HP in Hs. destruct (shipped_numbers _ _ _ _ Hs) as (_ & -> & [->| ->]); [right|left]; split; auto; [apply HW|apply HL]; exact Hs. }
    destruct H as [(-> & _)|[(_ & l & Hl & _)|(_ & _ & l & Hl & _)]]; [left; reflexivity|right; apply (HX s); eauto|right; apply (HX 0); eauto].
  - intros (-> & Hwv & H). apply HW, HP in Hwv. destruct Hwv as (w & Hw).
    assert (HX : lv = 0 \/ lv <> 0 /\ exists l, present fs 0 c 0 lv l).
    { destruct (Z.eq_dec lv 0) as [|Hne]; [left; assumption|right]. split; [exact Hne|]. destruct H as [H|[(-> & H)|(-> & H)]]; [contradiction| |]; apply HP; [apply HL|apply HW]; exact H. }
    destruct HX as [->|(Hne & l & Hl)].
    + exists (l0 ++ [w]). apply AddLocal_ok. exists [w]. split; [reflexivity|]. exists w. auto.
    + exists (l0 ++ [l; w]). apply AddLocal_ok. exists [l; w]. split; [reflexivity|]. exists w. split; [exact Hw|].
      destruct (Z.eq_dec s 0) as [->|Hs]; [right; left; eauto|]. right. right. split; [exact Hne|]. split; [|eauto].
      left. apply HF. intros HI. destruct (shipped_numbers _ _ _ _ HI) as (_ & HI' & _). contradiction.
Qed.
Print Assumptions C72_available.
(** What they add. *)
Theorem C72_groups : forall fs m c s wv lv l0 l', shipped_fs fs -> lv = 0 \/ c = 98 ->
  AddLocalAndWmoTableGroups fs m c s wv lv l0 = (l', Ok tt) ->
  exists added, l' = l0 ++ added /\ shipped_group (GChain added) lv wv.
Proof.
  intros fs m c s wv lv l0 l' HF Hc H. apply AddLocal_ok in H. destruct H as (added & -> & w & Hw & H). exists added. split; [reflexivity|].
  destruct (shipped_present _ _ _ _ _ _ HF Hw) as (k & Hk & Hkt).
  assert (m = 0) by (apply nth_error_In in Hk; apply (shipped_numbers _ _ _ _ Hk)). subst m.
  assert (HX : forall s' l, lv <> 0 -> present fs 0 c s' lv l -> shipped_group (GChain [l; w]) lv wv).
  { intros s' l Hne Hl. destruct (shipped_present _ _ _ _ _ _ HF Hl) as (j & Hj & Hjt).
    assert (s' = 0) by (pose proof (nth_error_In _ _ Hj) as Hi; apply (shipped_numbers _ _ _ _ Hi)). subst s'.
    destruct Hc as [Hc|Hc]; [contradiction|]. subst c. eapply SgLocal; eauto. }
  destruct H as [(-> & ->)|[(Hne & l & Hl & ->)|(Hne & _ & l & Hl & ->)]]; [eapply SgWmo; eauto|eapply HX; eauto|eapply HX; eauto].
Qed.
Print Assumptions C72_groups.
(** With these groups, parsing ends for every list of identifiers. *)
Theorem C72_parsing_ends : forall g l v, shipped_group g l v -> forall ids f, exists k r, snd r <> NoFuel /\
  forall k', (k <= k')%nat -> Parse g k' ids f = r.
Proof. intros g l v HG. apply Parse_returns. eapply shipped_acyclic, HG. Qed.
Print Assumptions C72_parsing_ends.
(** There is such a file system: tables of centre 98, version 3, sub-centre 7, are found under
    sub-centre 0, in front of WMO version 28. *)
Example C72_example : forall pl, shipped_fs (files_fs pl) /\
  exists added, AddLocalAndWmoTableGroups (files_fs pl) 0 98 7 28 3 [] = (added, Ok tt) /\ shipped_group (GChain added) 3 28.
Proof.
  intros pl. split; [apply files_fs_shipped|]. destruct (proj2 (C72_available (files_fs pl) 0 98 7 28 3 [] (files_fs_shipped pl))) as (l' & H).
  - split; [reflexivity|]. split; [lia|]. right. left. cbn. tauto.
  - exists l'. split; [exact H|]. destruct (C72_groups _ _ _ _ _ _ _ _ (files_fs_shipped pl) (or_intror eq_refl) H) as (added & -> & HG). exact HG.
Qed.

(** ** C73 *)
(** A sequence of the tables parses unless it is one of the [broken] ones. *)
Theorem C73_sequences_partial : forall g l v id d, shipped_group g l v -> id_F id = 3 -> Lookup g id = Ok d ->
  ((exists ns, parsed g [id] ns) <-> ~ In id (broken l v)).
Proof. intros g l v id d HG. apply (shipped_sequences g l v HG). Qed.
Print Assumptions C73_sequences_partial.
(** Every template composed of known elements and sequences that are not broken parses. *)
Theorem C73_templates_partial : forall g l v ids, shipped_group g l v ->
  composed (fun id => (exists d, Lookup g id = Ok d) /\ ~ In id (broken l v)) ids -> exists ns, parsed g ids ns.
Proof. intros g l v ids HG. apply (shipped_composed g l v HG). Qed.
Print Assumptions C73_templates_partial.
(** From version 19 on, alone or behind local tables 2 and 3, nothing is broken. *)
Theorem C73_templates_recent : forall g l v ids, shipped_group g l v -> 19 <= v -> l = 0 \/ l = 2 \/ l = 3 ->
  composed (fun id => exists d, Lookup g id = Ok d) ids -> exists ns, parsed g ids ns.
Proof.
  intros g l v ids HG Hv Hl HC. apply (C73_templates_partial g l v ids HG). eapply composed_weaken; [|exact HC]. intros id _ Hd. split; [exact Hd|].
  unfold broken, wmo_broken. replace (v =? 6) with false by lia. replace (v <=? 13) with false by lia. replace (v <=? 18) with false by lia.
  destruct Hl as [->|[->| ->]]; cbn; auto.
Qed.
Print Assumptions C73_templates_recent.
(** The older ones hold sequences that name descriptors defined nowhere: 305018 of version 13
    is in the tables, and fails. *)
Theorem C73_templates_refuted : forall fs, shipped_fs fs -> exists g d, shipped_group g 0 13 /\ Lookup g 305018 = Ok d /\
  ~ exists ns, parsed g [305018] ns.
Proof.
  intros fs HF. destruct (shipped_exists fs 0 13 HF) as (g & HG); [apply wmo_versions; lia|left; reflexivity|].
  destruct (shipped_front _ _ _ HG) as (o & k & gs & Ho & Hk & Hl & Hv & Eg & HS & Hb).
  assert (k = 7%nat) by lia. subst k.
  assert (o = None) by (cbn [fronts In] in Ho; repeat (destruct Ho as [<-|Ho]; [try reflexivity; discriminate Hl|]); contradiction). subst o.
  assert (HL : exists d, Lookup g 305018 = Ok d).
  { inversion HG as [k v g' Hk' Ht E1 E2 E3|j k l' v h g' Hj Hh Hk' Ht E1 E2 E3]; subst.
    - destruct (wmo_index _ _ Hk') as (_ & Ek). assert (k = 7%nat) by lia. subst k. destruct Ht as (_ & _ & Ht).
      destruct (find (fun r => fst r =? 305018) (rows_of 7 d_rows)) as [[i ms]|] eqn:Ef; [|vm_compute in Ef; discriminate].
      apply find_some in Ef. destruct Ef as (Hi & Ei). cbn [fst] in Ei. apply Z.eqb_eq in Ei. subst i. apply Ht in Hi.
      eexists. cbn [Lookup chain_Lookup single_Lookup]. unfold single_Lookup. change (id_F 305018) with 3. cbn [Z.eqb Pos.eqb F_ELEMENT F_REPLICATION F_OPERATOR F_SEQUENCE].
      rewrite Hi. reflexivity.
    - destruct (local_index _ _ Hj) as (_ & Hl'). exfalso. cbn [In] in Hl'. repeat (destruct Hl' as [Hl'|Hl']; [discriminate Hl'|]). contradiction. }
  destruct HL as (d & Hd). exists g, d. split; [exact HG|]. split; [exact Hd|]. rewrite (C73_sequences_partial g 0 13 305018 d HG eq_refl Hd).
  intros H. apply H. cbn. tauto.
Qed.
Print Assumptions C73_templates_refuted.
(** A composed template: replicated, with operators, of known descriptors. *)
Example C73_composed_example : composed (fun id => In id [1001; 12101; 31001; 307080]) [307080; 201129; 102000; 31001; 12101; 1001; 201000].
Proof.
  apply CoPlain; [right; reflexivity|cbn; tauto|]. eapply CoOperator; [reflexivity|reflexivity|].
  apply (CoDelayed _ 102000 31001 [12101; 1001] [201000]); try reflexivity; try (cbn; tauto).
  - apply CoPlain; [left; reflexivity|cbn; tauto|]. apply CoPlain; [left; reflexivity|cbn; tauto|]. apply CoNil.
  - eapply CoOperator; [reflexivity|reflexivity|]. apply CoNil.
Qed.

(** ** C74 *)
(** Every number of a shipped element: the value the decoder computes is finite and within a
    relative error of 2^-51 of (raw + reference) / 10^scale ... *)
Theorem C74_numbers : forall g l v id d e n, shipped_group g l v -> Lookup g id = Ok d -> d_entry d = EB e -> be_unit e = NUMERIC ->
  0 <= n < 2 ^ be_nbits e ->
  let value := scaled (f64_of_Z (be_refval e)) (be_scale e) n in
  finite64 value /\
  (Rabs (R64 value - exact_value n (be_refval e) (be_scale e)) <= bpow radix2 (-51) * Rabs (exact_value n (be_refval e) (be_scale e)))%R.
Proof.
  intros g l v id d e n HG HL HE HU Hn value. destruct (shipped_magnitudes _ _ _ _ _ _ HG HL HE) as (Hs & Hr & H1 & _ & H32).
  specialize (H32 ltac:(congruence)). assert (Hn' : n < 2 ^ 32) by (eapply Z.lt_le_trans; [apply Hn|apply Z.pow_le_mono_r; lia]).
  split; [apply (C32_accuracy_wide n (be_refval e) (be_scale e)); lia|apply C32_accuracy; lia].
Qed.
Print Assumptions C74_numbers.
(** ... different raw numbers give different values ... *)
Theorem C74_distinct : forall g l v id d e n m, shipped_group g l v -> Lookup g id = Ok d -> d_entry d = EB e -> be_unit e = NUMERIC ->
  0 <= n < 2 ^ be_nbits e -> 0 <= m < 2 ^ be_nbits e ->
  scaled (f64_of_Z (be_refval e)) (be_scale e) n = scaled (f64_of_Z (be_refval e)) (be_scale e) m -> n = m.
Proof.
  intros g l v id d e n m HG HL HE HU Hn Hm. destruct (shipped_magnitudes _ _ _ _ _ _ HG HL HE) as (Hs & Hr & H1 & _ & H32).
  specialize (H32 ltac:(congruence)). assert (HB : 2 ^ be_nbits e <= 2 ^ 32) by (apply Z.pow_le_mono_r; lia). apply C32_injective; lia.
Qed.
Print Assumptions C74_distinct.
(** ... and also after operators 201, 202 and 207, up to 47 bits and 207005. *)
Theorem C74_operators : forall g l v id d e ids, shipped_group g l v -> Lookup g id = Ok d -> d_entry d = EB e -> be_unit e = NUMERIC ->
  0 <= latest 202 ids <= 255 -> 0 <= latest 207 ids <= 5 -> pi_nbits (packing_after ids e) <= 47 ->
  let p := packing_after ids e in
  let exact n := exact_value n (be_refval e * 10 ^ latest 207 ids) (pi_scale p) in
  (forall n, 0 <= n < 2 ^ pi_nbits p -> finite64 (scaled (pi_refval p) (pi_scale p) n) /\
     (Rabs (R64 (scaled (pi_refval p) (pi_scale p) n) - exact n) <= bpow radix2 (-50) * Rabs (exact n))%R) /\
  (forall n m, 0 <= n < 2 ^ pi_nbits p -> 0 <= m < 2 ^ pi_nbits p ->
     scaled (pi_refval p) (pi_scale p) n = scaled (pi_refval p) (pi_scale p) m -> n = m).
Proof.
  intros g l v id d e ids HG HL HE HU H2 H7 Hw. destruct (shipped_magnitudes _ _ _ _ _ _ HG HL HE) as (Hs & Hr & H1 & _ & H32).
  unfold packing_after in *. rewrite HU in *. cbv zeta in *. cbn [pi_nbits pi_scale pi_refval] in *.
  set (y := latest 207 ids) in *. set (w := be_nbits e + _ + _) in *. set (sc := be_scale e + _ + _) in *.
  assert (Hsc : -290 <= sc <= 290) by (unfold sc; destruct (latest 202 ids =? 0); lia).
  assert (H10 : 1 <= 10 ^ y <= 10 ^ 5) by (split; [pose proof (Z.pow_pos_nonneg 10 y); lia|apply Z.pow_le_mono_r; lia]).
  assert (Hp : Z.abs (be_refval e * 10 ^ y) <= 2 ^ 30 * 10 ^ 5) by nia.
  rewrite mul_exact by lia.
  assert (HB : 2 ^ w <= 2 ^ 47) by (apply Z.pow_le_mono_r; lia). clearbody sc w y. split.
  - intros n Hn. apply C32_accuracy_wide; lia.
  - intros n m Hn Hm. apply C32_injective_wide; lia.
Qed.
Print Assumptions C74_operators.
(** Widths: strings are whole octets; no other element has more than 32 bits. *)
Theorem C74_widths : forall g l v id d e, shipped_group g l v -> Lookup g id = Ok d -> d_entry d = EB e ->
  1 <= be_nbits e /\ (be_unit e = STRING -> be_nbits e mod 8 = 0) /\ (be_unit e <> STRING -> be_nbits e <= 32).
Proof. intros g l v id d e HG HL HE. destruct (shipped_magnitudes _ _ _ _ _ _ HG HL HE) as (_ & _ & H1 & H2 & H3). auto. Qed.
Print Assumptions C74_widths.
(** 012101 after 201130, 202129 and 207002. *)
Example C74_example : forall name us cu, let e := mkBentry name us NUMERIC 2 0 16 cu NUMERIC 0 0 in
  packing_after [201130; 202129; 207002] e = mkInfo NUMERIC 5 (f64_of_Z 0) 25 /\ pi_nbits (packing_after [201130; 202129; 207002] e) <= 47.
Proof. intros name us cu e. split; vm_compute; [reflexivity|discriminate]. Qed.

(** ** C75 *)
(** Up to version 15, and in the local tables in front of them, units are recognised ... *)
Theorem C75_units_partial : forall g l v id d e, shipped_group g l v -> v <= 15 \/ v <= 34 /\ id <> 1032 ->
  Lookup g id = Ok d -> d_entry d = EB e -> be_unit e = meant (be_unit_string e).
Proof.
  intros g l v id d e HG [Hv|(Hv & Hid)] HL HE; [eapply shipped_units_old; eauto|eapply shipped_units_middle; eauto].
Qed.
Print Assumptions C75_units_partial.
(** ... from version 35 on, no code table and no flag table is. *)
Theorem C75_units_recent : forall g v id d e, shipped_group g 0 v -> 35 <= v -> Lookup g id = Ok d -> d_entry d = EB e ->
  be_unit e = NUMERIC \/ be_unit e = STRING.
Proof. exact shipped_units_new. Qed.
Print Assumptions C75_units_recent.
(** What follows for code and flag tables: as long as they are recognised, operators 201, 202
    and 207 leave them alone ... *)
Theorem C75_operators_partial : forall g l v id d e ids, shipped_group g l v -> v <= 15 \/ v <= 34 /\ id <> 1032 ->
  Lookup g id = Ok d -> d_entry d = EB e -> meant (be_unit_string e) = NONNEG_CODE \/ meant (be_unit_string e) = FLAG ->
  pi_nbits (packing_after ids e) = be_nbits e /\ pi_unit (packing_after ids e) = meant (be_unit_string e).
Proof.
  intros g l v id d e ids HG Hv HL HE HM. rewrite <- (C75_units_partial g l v id d e HG Hv HL HE) in *. unfold packing_after.
  destruct HM as [-> | ->]; split; reflexivity.
Qed.
Print Assumptions C75_operators_partial.
(** ... from version 35 on, 201130 adds two bits to each of them. *)
Theorem C75_operators_refuted : forall g v id d e, shipped_group g 0 v -> 35 <= v -> Lookup g id = Ok d -> d_entry d = EB e ->
  meant (be_unit_string e) = NONNEG_CODE \/ meant (be_unit_string e) = FLAG ->
  pi_nbits (packing_after [201130] e) = be_nbits e + 2 /\ pi_unit (packing_after [201130] e) = NUMERIC.
Proof.
  intros g v id d e HG Hv HL HE HM.
  assert (HN : be_unit e = NUMERIC).
  { destruct (C75_units_recent g v id d e HG Hv HL HE) as [H|H]; [exact H|]. exfalso.
    eapply shipped_strings in H; eauto. rewrite H in HM. destruct HM; discriminate. }
  unfold packing_after. rewrite HN. split; [|reflexivity]. cbn [pi_nbits]. change (latest 207 [201130]) with 0. change (latest 201 [201130]) with 130. cbn. lia.
Qed.
Print Assumptions C75_operators_refuted.
(** Character elements are recognised in all versions, and nothing else is taken for one. *)
Theorem C75_strings : forall g l v id d e, shipped_group g l v -> Lookup g id = Ok d -> d_entry d = EB e ->
  (be_unit e = STRING <-> meant (be_unit_string e) = STRING).
Proof. exact shipped_strings_iff. Qed.
Print Assumptions C75_strings.
(** There are such elements: 020003, present weather, of version 41. *)
Theorem C75_units_refuted : forall fs, shipped_fs fs -> exists g d e, shipped_group g 0 41 /\ Lookup g 20003 = Ok d /\ d_entry d = EB e /\
  meant (be_unit_string e) = NONNEG_CODE /\ be_unit e = NUMERIC.
Proof.
  intros fs HF. destruct (shipped_exists fs 0 41 HF) as (g & HG); [apply wmo_versions; lia|left; reflexivity|].
  inversion HG as [k v g' Hk' Ht E1 E2 E3|j k l' v h g' Hj Hh Hk' Ht E1 E2 E3]; subst;
    [|destruct (local_index _ _ Hj) as (_ & Hl'); exfalso; cbn [In] in Hl'; repeat (destruct Hl' as [Hl'|Hl']; [discriminate Hl'|]); contradiction].
  destruct (wmo_index _ _ Hk') as (_ & Ek). assert (k = 35%nat) by lia. subst k. destruct Ht as (_ & Ht & _).
  assert (Hi : In (20003, ("Code table"%string, 0, 0, 9)) (rows_of 35 b_rows)).
  { destruct (find (fun r => fst r =? 20003) (rows_of 35 b_rows)) as [[i r]|] eqn:Ef; [|vm_compute in Ef; discriminate].
    pose proof (find_some _ _ Ef) as (Hi & _). vm_compute in Ef. injection Ef as <- <-. exact Hi. }
  destruct (Ht _ _ Hi) as (e & He & (Hu & HU & _)). exists (GChain [g']), (mkDesc 20003 (EB e) false), e. split; [exact HG|]. split.
  { cbn [Lookup chain_Lookup]. unfold single_Lookup. change (id_F 20003) with 0. cbn [Z.eqb F_ELEMENT]. rewrite He. reflexivity. }
  split; [reflexivity|]. rewrite Hu, HU. split; vm_compute; reflexivity.
Qed.
Print Assumptions C75_units_refuted.
