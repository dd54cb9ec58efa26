(** Proofs about the shipped tables: groups, acyclicity, parsing of sequences. *)
From Coq Require Import Lia FMapPositive ZifyBool.
From Verif Require Import SpecShipped ProofsTable ProofsTable2 ProofsShipped ProofsParser2 ProofsParser3.

(** ** The groups the file system gives *)
Lemma present_lt fs m c s v g g' : present fs m c s v g -> present fs m c s v g' -> s_b g = s_b g' /\ s_d g = s_d g'.
Proof. intros (H1 & H2) (H3 & H4). split; congruence. Qed.
Lemma is_table_ext k g g' : s_b g = s_b g' -> s_d g = s_d g' -> is_table k g -> is_table k g'.
Proof. unfold is_table. intros <- <-. auto. Qed.
Lemma shipped_lookup t : In t shipped_tables -> exists k, nth_error shipped_tables k = Some t.
Proof. apply In_nth_error. Qed.
Lemma shipped_present fs m c s v g : shipped_fs fs -> present fs m c s v g ->
  exists k, nth_error shipped_tables k = Some (m, c, s, v) /\ is_table k g.
Proof.
  intros (H1 & H2) HP. destruct (in_dec (fun a b : Z * Z * Z * Z => ltac:(repeat decide equality) : {a = b} + {a <> b}) (m, c, s, v) shipped_tables) as [HI|HI].
  - apply In_nth_error in HI. destruct HI as (k & Hk). exists k. split; [exact Hk|].
    destruct (H1 k m c s v Hk) as (g' & Hg' & Ht). destruct (present_lt _ _ _ _ _ _ _ Hg' HP) as (E1 & E2). eapply is_table_ext; eauto.
  - exfalso. destruct HP as (HB & _). rewrite (H2 m c s v HI) in HB. discriminate.
Qed.
(** The shipped tables are those of master table 0, centres 0 and 98. *)
Lemma shipped_numbers m c s v : In (m, c, s, v) shipped_tables -> m = 0 /\ s = 0 /\ (c = 0 \/ c = 98).
Proof.
  assert (H : forallb (fun t => match t with (m, c, s, v) => (m =? 0) && (s =? 0) && ((c =? 0) || (c =? 98)) end) shipped_tables = true) by (vm_compute; reflexivity).
  rewrite forallb_forall in H. intros HI. specialize (H _ HI). cbv beta iota in H. lia.
Qed.
Lemma version_positive m c s v : In (m, c, s, v) shipped_tables -> 0 < v.
Proof.
  assert (H : forallb (fun t => match t with (m, c, s, v) => 0 <? v end) shipped_tables = true) by (vm_compute; reflexivity).
  rewrite forallb_forall in H. intros HI. specialize (H _ HI). cbv beta iota in H. lia.
Qed.

(** ** Acyclicity *)
Definition key (id : Z) : positive := Z.to_pos (id + 1).
Definition ranks := PositiveMap.t nat.
Definition rank_in (m : ranks) (id : Z) : nat := match PositiveMap.find (key id) m with Some n => n | None => 0%nat end.
Definition rank_row (m : ranks) (ms : list Z) : nat :=
  fold_right (fun i n => if id_F i =? 3 then Nat.max (S (rank_in m i)) n else n) 0%nat ms.
Definition rank_step (rows : list (Z * list Z)) (m : ranks) : ranks :=
  fold_right (fun r m' => PositiveMap.add (key (fst r)) (Nat.max (rank_row m (snd r)) (rank_in m' (fst r))) m') (PositiveMap.empty nat) rows.
Definition ranked (rows : list (Z * list Z)) (m : ranks) : bool :=
  forallb (fun r => forallb (fun i => negb (id_F i =? 3) || (rank_in m i <? rank_in m (fst r))%nat) (snd r)) rows.
(** The rows of the old (up to version 18) and new (from version 16) WMO tables, each with all
    local ones. *)
Definition old_rows := map snd (filter (fun r => 0 <? Z.land (fst r) (2 ^ 40 - 2 ^ 36 + 2 ^ 13 - 1)) d_rows).
Definition new_rows := map snd (filter (fun r => 0 <? Z.land (fst r) (2 ^ 40 - 2 ^ 10)) d_rows).
Definition old_ranks := Nat.iter 8 (rank_step old_rows) (PositiveMap.empty nat).
Definition new_ranks := Nat.iter 8 (rank_step new_rows) (PositiveMap.empty nat).
Lemma old_ranked : ranked old_rows old_ranks = true.
Proof. vm_compute. reflexivity. Qed.
Lemma new_ranked : ranked new_rows new_ranks = true.
Proof. vm_compute. reflexivity. Qed.
Lemma rows_in_mask {A} (rows : list (Z * A)) mask k x : (0 <= mask) -> Z.testbit mask (Z.of_nat k) = true -> forallb (fun r => 0 <=? fst r) rows = true ->
  In x (rows_of k rows) -> In x (map snd (filter (fun r => 0 <? Z.land (fst r) mask) rows)).
Proof.
  intros Hm Hk HN Hx. apply In_rows in Hx. destruct Hx as (m & HI & Ht). apply in_map_iff. exists (m, x). split; [reflexivity|].
  apply filter_In. split; [exact HI|]. cbn [fst]. rewrite forallb_forall in HN. specialize (HN _ HI). cbn [fst] in HN.
  assert (HL : Z.testbit (Z.land m mask) (Z.of_nat k) = true) by (rewrite Z.land_spec, Ht, Hk; reflexivity).
  assert (H0 : 0 <= Z.land m mask) by (apply Z.land_nonneg; lia).
  destruct (Z.eq_dec (Z.land m mask) 0) as [E|E]; [rewrite E, Z.bits_0 in HL; discriminate|]. lia.
Qed.
Lemma masks_positive : forallb (fun r => 0 <=? fst r) d_rows = true.
Proof. vm_compute. reflexivity. Qed.
Lemma old_of k x : (k <= 12 \/ 36 <= k < 40)%nat -> In x (rows_of k d_rows) -> In x old_rows.
Proof.
  intros Hk. apply rows_in_mask; [lia| |exact masks_positive].
  assert (HB : forallb (fun k => Z.testbit (2 ^ 40 - 2 ^ 36 + 2 ^ 13 - 1) (Z.of_nat k)) (seq 0 13 ++ seq 36 4) = true) by (vm_compute; reflexivity).
  rewrite forallb_forall in HB. apply HB. apply in_or_app. rewrite !in_seq. lia.
Qed.
Lemma new_of k x : (10 <= k < 40)%nat -> In x (rows_of k d_rows) -> In x new_rows.
Proof.
  intros Hk. apply rows_in_mask; [lia| |exact masks_positive].
  assert (HB : forallb (fun k => Z.testbit (2 ^ 40 - 2 ^ 10) (Z.of_nat k)) (seq 10 30) = true) by (vm_compute; reflexivity).
  rewrite forallb_forall in HB. apply HB. rewrite !in_seq. lia.
Qed.
Lemma chain_ED gs id d ms : Lookup (GChain gs) id = Ok d -> d_entry d = ED ms -> exists g, In g gs /\ s_d g id = Some ms.
Proof.
  cbn [Lookup]. intros H HE. apply chain_Lookup_ok in H. destruct H as (pre & g & post & -> & HK & _). exists g.
  split; [apply in_or_app; right; left; reflexivity|].
  destruct HK as [(_ & e & _ & ->)|[(_ & ->)|[(_ & ->)|(_ & ms' & Hm & ->)]]]; cbn in HE; try discriminate. congruence.
Qed.
Lemma wmo_index k v : nth_error shipped_tables k = Some (0, 0, 0, v) -> (k < 36)%nat /\ v = Z.of_nat k + 6.
Proof.
  intros H. pose proof (table_lt _ _ H) as Hk.
  do 40 (destruct k as [|k]; [cbn in H; injection H as H; try discriminate; try (subst; split; [lia|reflexivity])|cbn in H]). lia.
Qed.
Lemma local_index j l : nth_error shipped_tables j = Some (0, 98, 0, l) -> (36 <= j < 40)%nat /\ In (j, l) [(36%nat, 1); (37%nat, 2); (38%nat, 3); (39%nat, 101)].
Proof.
  intros H. pose proof (table_lt _ _ H) as Hk.
  do 40 (destruct j as [|j]; [cbn in H; injection H as H; try discriminate; try (subst; split; [lia|cbn; tauto])|cbn in H]). lia.
Qed.
Lemma shipped_acyclic g l v : shipped_group g l v -> acyclic g.
Proof.
  intros HG.
  assert (HX : exists gs, g = GChain gs /\ ((forall h, In h gs -> exists k, (k <= 12 \/ 36 <= k < 40)%nat /\ is_table k h) \/
                                            (forall h, In h gs -> exists k, (10 <= k < 40)%nat /\ is_table k h))).
  { destruct HG as [k v g Hk Ht|j k l v h g Hj Hh Hk Ht].
    - destruct (wmo_index _ _ Hk) as (Hk' & _). exists [g]. split; [reflexivity|]. destruct (le_lt_dec k 12); [left|right]; intros h' [<-|[]]; exists k; split; auto; lia.
    - destruct (wmo_index _ _ Hk) as (Hk' & _). destruct (local_index _ _ Hj) as (Hj' & _). exists [h; g]. split; [reflexivity|].
      destruct (le_lt_dec k 12); [left|right]; intros h' [<-|[<-|[]]]; [exists j|exists k|exists j|exists k]; split; auto; lia. }
  destruct HX as (gs & -> & [HX|HX]).
  - exists (rank_in old_ranks). intros id d ms HL HE. destruct (chain_ED _ _ _ _ HL HE) as (h & Hh & Hs).
    destruct (HX h Hh) as (k & Hk & (_ & _ & HT)). apply HT in Hs. apply (old_of k _ Hk) in Hs. pose proof old_ranked as HR.
    unfold ranked in HR. rewrite forallb_forall in HR. specialize (HR _ Hs). cbn [fst snd] in HR. rewrite forallb_forall in HR.
    apply Forall_forall. intros m Hm HF. specialize (HR _ Hm). rewrite HF in HR. cbn [negb Z.eqb orb] in HR. apply Nat.ltb_lt. exact HR.
  - exists (rank_in new_ranks). intros id d ms HL HE. destruct (chain_ED _ _ _ _ HL HE) as (h & Hh & Hs).
    destruct (HX h Hh) as (k & Hk & (_ & _ & HT)). apply HT in Hs. apply (new_of k _ Hk) in Hs. pose proof new_ranked as HR.
    unfold ranked in HR. rewrite forallb_forall in HR. specialize (HR _ Hs). cbn [fst snd] in HR. rewrite forallb_forall in HR.
    apply Forall_forall. intros m Hm HF. specialize (HR _ Hm). rewrite HF in HR. cbn [negb Z.eqb orb] in HR. apply Nat.ltb_lt. exact HR.
Qed.

(** ** Parsing depends only on which identifiers are known and what the sequences hold *)
Definition covers (g g' : group) : Prop := forall id d, Lookup g id = Ok d ->
  exists d', Lookup g' id = Ok d' /\ forall ms, d_entry d = ED ms -> d_entry d' = ED ms.
Lemma parses_covers g g' : covers g g' ->
  (forall sk ids ns sk', parses g sk ids ns sk' -> exists ns', parses g' sk ids ns' sk') /\
  (forall sk ids n rest sk', reads g sk ids n rest sk' -> exists n', reads g' sk ids n' rest sk') /\
  (forall sk ids n rest sk', bitmap_reads g sk ids n rest sk' -> exists n', bitmap_reads g' sk ids n' rest sk').
Proof.
  intros HC. apply parses_mut; intros;
    repeat match goal with
    | H : Lookup g _ = Ok _ |- _ => destruct (HC _ _ H) as (? & ? & ?); clear H
    | H : exists _, _ |- _ => destruct H
    end; eexists; solve [econstructor; eauto].
Qed.

(** ** The tables as search trees, for computing *)
Definition tree_of {A} (l : list (Z * A)) : PositiveMap.t A :=
  fold_right (fun r m => PositiveMap.add (key (fst r)) (snd r) m) (PositiveMap.empty A) l.
Definition tree_get {A} (m : PositiveMap.t A) (id : Z) : option A := if id <? 0 then None else PositiveMap.find (key id) m.
Lemma tree_get_in {A} (l : list (Z * A)) id a : Forall (fun r => 0 <= fst r) l -> tree_get (tree_of l) id = Some a -> In (id, a) l.
Proof.
  intros HF. unfold tree_get. destruct (Z.ltb_spec id 0) as [|Hid]; [discriminate|].
  induction HF as [|[i x] l Hi HF IH]; cbn [tree_of fold_right fst snd].
  - rewrite PositiveMap.gempty. discriminate.
  - intros H. destruct (Z.eq_dec i id) as [->|Hne].
    + rewrite PositiveMap.gss in H. injection H as ->. left. reflexivity.
    + rewrite PositiveMap.gso in H; [right; apply IH, H|]. unfold key. cbn [fst] in Hi. lia.
Qed.
Lemma tree_in_get {A} (l : list (Z * A)) id a : Forall (fun r => 0 <= fst r) l -> In (id, a) l -> exists a', tree_get (tree_of l) id = Some a'.
Proof.
  intros HF HI. assert (Hid : 0 <= id) by (rewrite Forall_forall in HF; apply (HF _ HI)). unfold tree_get.
  destruct (Z.ltb_spec id 0) as [|_]; [lia|]. induction HF as [|[i x] l Hi HF IH]; [contradiction|]. cbn [tree_of fold_right fst snd].
  destruct (Z.eq_dec i id) as [->|Hne]; [rewrite PositiveMap.gss; eauto|].
  rewrite PositiveMap.gso by (unfold key; cbn [fst] in Hi; lia). apply IH. destruct HI as [HI|HI]; [congruence|exact HI].
Qed.
(** Entries without the columns that do not matter for parsing. *)
Definition bare (r : string * Z * Z * Z) : bentry :=
  match r with (_, sc, rv, nb) => mkBentry [] [] NUMERIC sc rv nb [] NUMERIC 0 0 end.
Definition tree_table (k : nat) : single :=
  let b := tree_of (map (fun r => (fst r, bare (snd r))) (rows_of k b_rows)) in
  let d := tree_of (rows_of k d_rows) in
  mkSingle (tree_get b) (tree_get d).
Definition same_known (g g' : single) : Prop := forall id,
  (s_b g id = None <-> s_b g' id = None) /\ s_d g id = s_d g' id.
Lemma tree_table_same k g : (k < 40)%nat -> is_table k g -> same_known g (tree_table k).
Proof.
  intros Hk (H1 & H2 & H3) id.
  assert (HPb : Forall (fun r => 0 <= fst r) (map (fun r => (fst r, bare (snd r))) (rows_of k b_rows))).
  { apply Forall_map, Forall_forall. intros [i [[[u sc] rv] nb]] Hi. cbn [fst]. pose proof (rows_all b_row_ok b_rows b_rows_ok k _ Hi) as HO.
    unfold b_row_ok in HO. lia. }
  assert (HPd : Forall (fun r => 0 <= fst r) (rows_of k d_rows)).
  { apply Forall_forall. intros [i ms] Hi. cbn [fst]. pose proof (rows_all d_row_ok d_rows d_rows_ok k _ Hi) as HO. unfold d_row_ok in HO. cbn [fst] in HO. lia. }
  cbn [tree_table s_b s_d]. split.
  - split; intros H.
    + destruct (tree_get _ id) as [e|] eqn:E; [|reflexivity]. exfalso. apply tree_get_in in E; [|exact HPb].
      apply in_map_iff in E. destruct E as ([i r] & E & HI). cbn [fst] in E. injection E as -> _. destruct (H2 _ _ HI) as (e' & He' & _). congruence.
    + destruct (s_b g id) as [e|] eqn:E; [|reflexivity]. exfalso. destruct (H1 _ _ E) as (r & HI & _).
      destruct (tree_in_get (map (fun r => (fst r, bare (snd r))) (rows_of k b_rows)) id (bare r) HPb) as (a & Ha); [|congruence].
      apply in_map_iff. exists (id, r). auto.
  - destruct (s_d g id) as [ms|] eqn:E.
    + apply H3 in E. destruct (tree_in_get _ id ms HPd E) as (a & Ha). rewrite Ha. f_equal. apply tree_get_in in Ha; [|exact HPd].
      eapply NoDup_fst; [apply (d_unique k Hk)| |]; eauto.
    + destruct (tree_get _ id) as [ms|] eqn:E'; [|reflexivity]. exfalso. apply tree_get_in in E'; [|exact HPd]. apply H3 in E'. congruence.
Qed.
Lemma same_lookup g g' : same_known g g' -> forall id,
  (forall d, single_Lookup g id = Ok d -> exists d', single_Lookup g' id = Ok d' /\ forall ms, d_entry d = ED ms -> d_entry d' = ED ms) /\
  ((forall d, single_Lookup g id <> Ok d) -> forall d, single_Lookup g' id <> Ok d).
Proof.
  intros HS id. destruct (HS id) as (Hb & Hd). unfold single_Lookup. rewrite <- Hd.
  destruct (id_F id =? F_ELEMENT).
  - destruct (s_b g id) as [e|], (s_b g' id) as [e'|].
    + split; [|intros H; exfalso; eapply H; reflexivity]. intros d Hd'. injection Hd' as <-. eexists. split; [reflexivity|discriminate].
    + exfalso. destruct Hb as (_ & Hb). discriminate (Hb eq_refl).
    + exfalso. destruct Hb as (Hb & _). discriminate (Hb eq_refl).
    + split; [discriminate|auto].
  - split; [|auto]. intros d H. exists d. auto.
Qed.
Lemma same_sym g g' : same_known g g' -> same_known g' g.
Proof. intros H id. destruct (H id) as (H1 & H2). split; [tauto|congruence]. Qed.
Lemma chain_covers gs gs' : Forall2 same_known gs gs' -> covers (GChain gs) (GChain gs').
Proof.
  intros HF id. cbn [Lookup]. induction HF as [|g g' gs gs' HS HF IH]; intros d H; cbn [chain_Lookup] in *; [discriminate|].
  destruct (same_lookup _ _ HS id) as (H1 & H2). destruct (single_Lookup g id) as [x| | |] eqn:E.
  - injection H as <-. destruct (H1 x eq_refl) as (d' & -> & Hd). eauto.
  - destruct (single_Lookup g' id) as [x'| | |] eqn:E'; [exfalso; eapply H2; [intros d0; discriminate|reflexivity]|..]; apply IH, H.
  - destruct (single_Lookup g' id) as [x'| | |] eqn:E'; [exfalso; eapply H2; [intros d0; discriminate|reflexivity]|..]; apply IH, H.
  - destruct (single_Lookup g' id) as [x'| | |] eqn:E'; [exfalso; eapply H2; [intros d0; discriminate|reflexivity]|..]; apply IH, H.
Qed.

(** ** Versions *)
Lemma wmo_versions v : In (0, 0, 0, v) shipped_tables <-> 6 <= v <= 41.
Proof.
  split.
  - intros H. destruct (shipped_lookup _ H) as (k & Hk). destruct (wmo_index _ _ Hk). lia.
  - intros H. apply (nth_error_In _ (Z.to_nat (v - 6))).
    assert (HC : forallb (fun k => match nth_error shipped_tables k with Some (m, c, s, w) => (m =? 0) && (c =? 0) && (s =? 0) && (w =? Z.of_nat k + 6) | None => false end) (seq 0 36) = true) by (vm_compute; reflexivity).
    rewrite forallb_forall in HC. specialize (HC (Z.to_nat (v - 6)) ltac:(apply in_seq; lia)). cbv beta in HC.
    destruct (nth_error shipped_tables (Z.to_nat (v - 6))) as [[[[m c] s] w]|]; [|discriminate]. rewrite !andb_true_iff in HC. destruct HC as (((H1 & H2) & H3) & H4).
    replace m with 0 by lia. replace c with 0 by lia. replace s with 0 by lia. replace w with v by lia. reflexivity.
Qed.
Lemma local_versions l : In (0, 98, 0, l) shipped_tables <-> In l [1; 2; 3; 101].
Proof.
  split.
  - intros H. destruct (shipped_lookup _ H) as (k & Hk). destruct (local_index _ _ Hk) as (_ & Hl). cbn [In] in *.
    repeat (destruct Hl as [Hl|Hl]; [injection Hl as _ <-; tauto|]). contradiction.
  - cbn [In]. intros H. assert (HC : forall l, existsb (fun t => match t with (m, c, s, w) => (m =? 0) && (c =? 98) && (s =? 0) && (w =? l) end) shipped_tables = true -> In (0, 98, 0, l) shipped_tables).
    { intros l' HE. apply existsb_exists in HE. destruct HE as ([[[m c] s] w] & HI & HE). rewrite !andb_true_iff in HE. destruct HE as (((H1 & H2) & H3) & H4).
      replace (0, 98, 0, l') with (m, c, s, w); [exact HI|].
      replace m with 0 by lia. replace c with 98 by lia. replace s with 0 by lia. replace w with l' by lia. reflexivity. }
    apply HC. repeat (destruct H as [<-|H]; [vm_compute; reflexivity|]). contradiction.
Qed.
Lemma shipped_present_iff fs m c s v : shipped_fs fs -> (exists g, present fs m c s v g) <-> In (m, c, s, v) shipped_tables.
Proof.
  intros HF. split.
  - intros (g & Hg). destruct (shipped_present _ _ _ _ _ _ HF Hg) as (k & Hk & _). eapply nth_error_In, Hk.
  - intros HI. destruct (shipped_lookup _ HI) as (k & Hk). destruct HF as (HF & _). destruct (HF _ _ _ _ _ Hk) as (g & Hg & _). eauto.
Qed.
