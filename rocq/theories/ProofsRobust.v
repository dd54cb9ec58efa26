(** The parser without bitmap operators; chains of shipped tables. *)
From Coq Require Import ZifyBool ZifyNat FMapPositive.
From Verif Require Export SpecRobust.
From Verif Require Import ProofsTable ProofsTable2 ProofsParser ProofsParser2 ProofsParser5 ProofsShipped ProofsShipped2 ProofsShipped6.

(** ** The parser *)
Definition quiet_ids (g : group) (ids : list Z) : Prop := forall id, leads_to g ids id -> ~ In id assessments.
Lemma reachable_app g a b id : leads_to g (a ++ b) id -> leads_to g a id \/ leads_to g b id.
Proof.
  induction 1 as [id H|q d ms id H IH HL HE HI].
  - apply in_app_iff in H. destruct H; [left|right]; now apply RcOwn.
  - destruct IH; [left|right]; eapply RcMember; eauto.
Qed.
Lemma reachable_incl g a b id : (forall i, In i a -> In i b) -> leads_to g a id -> leads_to g b id.
Proof. intros H. induction 1; [apply RcOwn; auto|eapply RcMember; eauto]. Qed.
Lemma quiet_app g a b : quiet_ids g (a ++ b) <-> quiet_ids g a /\ quiet_ids g b.
Proof.
  split.
  - intros H. split; intros id Hr; apply H; eapply reachable_incl; try exact Hr; intros; apply in_or_app; tauto.
  - intros [Ha Hb] id Hr. apply reachable_app in Hr. destruct Hr; auto.
Qed.
Lemma quiet_zeros g n : quiet_ids g (repeat 0 n).
Proof.
  assert (H : forall id, leads_to g (repeat 0 n) id -> id = 0).
  { induction 1 as [id H|q d ms id H IH HL HE HI]; [now apply repeat_spec in H|]. subst q. pose proof (Lookup_kind _ _ _ HL) as (_ & _ & K). rewrite HE in K. destruct K as [K _]. discriminate K. }
  intros id Hr. rewrite (H id Hr). cbn. intuition discriminate.
Qed.
Lemma quiet_members g q r d ms : quiet_ids g (q :: r) -> Lookup g q = Ok d -> d_entry d = ED ms -> quiet_ids g ms.
Proof.
  intros H HL HE id Hr. apply H. clear H. induction Hr as [id Hi|q' d' ms' id Hr IH HL' HE' Hi].
  - eapply RcMember; eauto. apply RcOwn. now left.
  - eapply RcMember; eauto.
Qed.
Definition calm {A} (m : M flags A) : Prop := forall f p, snd (m f) <> Panic p.
Lemma calm_bind {A B} (m : M flags A) (h : A -> M flags B) : calm m -> (forall f f' a, m f = (f', Ok a) -> calm (h a)) -> calm (bind m h).
Proof.
  intros Hm Hh f p. unfold bind. specialize (Hm f). destruct (m f) as [f' [a|e|q|]] eqn:E; cbn [snd] in *; try discriminate; [eapply Hh; eauto|exact (fun _ => Hm q eq_refl)].
Qed.
Lemma calm_ret {A} (a : A) : calm (ret a). Proof. intros f p. discriminate. Qed.
Lemma calm_fail {A} e : calm (fail (A := A) e). Proof. intros f p. discriminate. Qed.
Lemma calm_lookup g id : calm (lookup g id).
Proof. intros f p. unfold lookup, lift_res. cbn [snd]. destruct (Lookup_total g id) as [[d ->]|[[e ->] _]]; discriminate. Qed.
Section Calm.
  Variable g : group.
  Variable k : nat.
  Hypothesis IH : forall ids, quiet_ids g ids -> calm (pt g k ids).
  Lemma calm_sub split node : quiet_ids g (fst split) -> calm (sub (pt g k) split node).
  Proof. intros H. unfold sub, pop. apply calm_bind; [apply calm_bind; [now apply IH|]|]; intros; apply calm_ret. Qed.
  Lemma calm_subN n ids node : 0 <= n -> quiet_ids g ids -> calm (subN (pt g k) n ids node).
  Proof.
    intros Hn H. unfold subN. replace (n <? 0) with false by lia. apply calm_sub. unfold takeN_list. cbn [fst].
    rewrite <- (firstn_skipn (Z.to_nat n) ids), quiet_app in H. apply quiet_app. split; [tauto|apply quiet_zeros].
  Qed.
  Lemma calm_till p ids node : quiet_ids g ids -> calm (sub (pt g k) (takeTill_list p ids) node).
  Proof. intros H. apply calm_sub. destruct (takeTill_list p ids) as [a b] eqn:E. apply until_iff in E. destruct E as [-> _]. apply quiet_app in H. apply H. Qed.
  Lemma calm_while p ids node : quiet_ids g ids -> calm (sub (pt g k) (takeWhile_list p false ids) node).
  Proof. intros H. apply calm_sub. destruct (takeWhile_list p false ids) as [a b] eqn:E. apply first_run_iff in E. destruct E as [-> _]. apply quiet_app in H. apply H. Qed.
  Lemma quiet_tl id r : quiet_ids g (id :: r) -> quiet_ids g r.
  Proof. intros H. change (id :: r) with ([id] ++ r) in H. apply quiet_app in H. apply H. Qed.
  Lemma calm_bitmap id r : quiet_ids g (id :: r) -> calm (bitmap_one g (pt g k) (id :: r)).
  Proof.
    intros H. unfold bitmap_one. apply calm_bind; [apply calm_lookup|]. intros _ _ d _.
    repeat match goal with |- calm (if ?c then _ else _) => destruct c end; auto using calm_ret, calm_fail, calm_while.
    apply calm_while. now apply quiet_tl in H.
  Qed.
  Lemma calm_operator id r : id_F id = 2 -> quiet_ids g (id :: r) -> calm (operator_one g (pt g k) id r).
  Proof.
    intros HF H. pose proof (quiet_tl _ _ H) as H'. unfold operator_one. apply calm_bind; [apply calm_lookup|]. intros f0 f0' d HL. cbv zeta.
    assert (HL' : Lookup g id = Ok d) by (unfold lookup, lift_res in HL; congruence). rewrite (Lookup_id _ _ _ HL').
    assert (HN : ~ In id assessments) by (apply H, RcOwn; now left). pose proof (F2_range _ HF) as HR.
    assert (HM : forall a b, In a assessments -> calm (marked_one g (pt g k) a b d r)).
    { intros a b Ha. unfold marked_one. rewrite (Lookup_id _ _ _ HL'). destruct (Z.eqb_spec id a) as [E|]; [rewrite <- E in Ha; contradiction|]. destruct (_ =? _); auto using calm_ret, calm_fail. }
    assert (HY : 0 <= id_Y id) by (rewrite y_mod by lia; lia).
    repeat match goal with
    | |- calm (if ?c then _ else _) => destruct c eqn:?
    | |- calm (ret _) => apply calm_ret
    | |- calm (fail _) => apply calm_fail
    | |- calm (sub _ (takeTill_list _ _) _) => now apply calm_till
    | |- calm (subN _ _ _ _) => apply calm_subN; [lia|assumption]
    | |- calm (marked_one _ _ _ _ _ _) => apply HM; cbn; tauto
    | |- calm (bitmap_one _ _ _) => now apply calm_bitmap
    | |- calm (bind (modify _) _) => intros f p; unfold bind at 1, modify
    end.
    - intros K. unfold defer in K. pose proof (calm_subN 1 r (leaf KSkipLocal d) ltac:(lia) H' (fst f, true)) as N. destruct (subN _ _ _ _ _) as [f' x]. exact (N p K).
    - intros K. unfold defer in K. pose proof (calm_subN (id_Y id) r (leaf KDataNotPresent d) ltac:(lia) H' (true, snd f)) as N. destruct (subN _ _ _ _ _) as [f' x]. exact (N p K).
    - exfalso. apply HN. unfold ID_222000 in *. cbn. lia.
  Qed.
  Lemma calm_one id r : quiet_ids g (id :: r) -> calm (one g (pt g k) (id :: r)).
  Proof.
    intros H. pose proof (quiet_tl _ _ H) as H'. unfold one, F_SEQUENCE, F_REPLICATION, F_OPERATOR, F_ELEMENT.
    destruct (Z.eqb_spec (id_F id) 3) as [H3|].
    { apply calm_bind; [apply calm_lookup|]. intros f f' d HL. assert (HL' : Lookup g id = Ok d) by (unfold lookup, lift_res in HL; congruence).
      pose proof (Lookup_kind _ _ _ HL') as (_ & _ & K). destruct (d_entry d) as [e| | |ms] eqn:He; try (exfalso; lia).
      apply calm_bind; [|intros; apply calm_ret]. unfold pop. apply calm_bind; [|intros; apply calm_ret]. apply IH. eapply quiet_members; eauto. }
    destruct (Z.eqb_spec (id_F id) 1) as [H1|].
    { pose proof (F1_X _ H1). destruct (_ =? _); cbn [andb]; (apply calm_bind; [apply calm_lookup|]); intros f f' d HL;
        (assert (HL' : Lookup g id = Ok d) by (unfold lookup, lift_res in HL; congruence)); rewrite (Lookup_id _ _ _ HL'); (apply calm_subN; [lia|assumption]). }
    cbn [andb]. destruct (Z.eqb_spec (id_F id) 2) as [H2|]; [now apply calm_operator|].
    destruct (_ =? _); [|apply calm_fail]. apply calm_bind; [intros f p; discriminate|]. intros _ _ [|] _.
    - apply calm_bind; [apply calm_ret|]. intros. apply calm_ret.
    - apply calm_bind; [apply calm_lookup|]. intros. apply calm_ret.
  Qed.
End Calm.
Lemma calm_pt g k : forall ids, quiet_ids g ids -> calm (pt g k ids).
Proof.
  induction k as [|k IH]; intros ids H; [intros f p; discriminate|]. cbn [pt]. destruct ids as [|id r]; [apply calm_ret|].
  apply calm_bind; [now apply calm_one|]. intros [np sk] f' [n rest] E. apply (one_sound g _ (pt_sound g k)) in E. apply reads_suffix in E.
  destruct E as (i & pre & E). apply calm_bind; [|intros; apply calm_ret]. apply IH. rewrite E in H. apply quiet_tl in H. apply quiet_app in H. apply H.
Qed.
Lemma Parse_calm g k ids f p : quiet_ids g ids -> snd (Parse g k ids f) <> Panic p.
Proof.
  intros H. rewrite Parse_pt. cbn [snd]. pose proof (calm_pt g k ids H f) as N. destruct (pt g k ids f) as [f' [ms|e|q|]]; cbn [snd] in *; try discriminate. intros E. injection E as ->. now apply (N p).
Qed.

(** The parser does not fail otherwise than at the end of its identifiers. *)
Definition index_only {A} (m : M flags A) : Prop := forall f p, snd (m f) = Panic p -> p = PIndex.
Lemma io_bind {A B} (m : M flags A) (h : A -> M flags B) : index_only m -> (forall f f' a, m f = (f', Ok a) -> index_only (h a)) -> index_only (bind m h).
Proof.
  intros Hm Hh f p. unfold bind. specialize (Hm f). destruct (m f) as [f' [a|e|q|]] eqn:E; cbn [snd] in *; try discriminate; [eapply Hh; eauto|intros [= <-]; now apply Hm].
Qed.
Lemma io_ret {A} (a : A) : index_only (ret a). Proof. intros f p. discriminate. Qed.
Lemma io_fail {A} e : index_only (fail (A := A) e). Proof. intros f p. discriminate. Qed.
Lemma io_lookup g id : index_only (lookup g id).
Proof. intros f p E. now apply calm_lookup in E. Qed.
Section Index.
  Variable g : group.
  Variable k : nat.
  Hypothesis IH : forall ids, index_only (pt g k ids).
  Lemma io_sub split node : index_only (sub (pt g k) split node).
  Proof. unfold sub, pop. apply io_bind; [apply io_bind; [apply IH|]|]; intros; apply io_ret. Qed.
  Lemma io_subN n ids node : 0 <= n -> index_only (subN (pt g k) n ids node).
  Proof. intros Hn. unfold subN. replace (n <? 0) with false by lia. apply io_sub. Qed.
  Lemma io_bitmap ids : index_only (bitmap_one g (pt g k) ids).
  Proof.
    unfold bitmap_one. destruct ids as [|id r]; [intros f p [= <-]; reflexivity|]. apply io_bind; [apply io_lookup|]. intros _ _ d _.
    repeat match goal with |- index_only (if ?c then _ else _) => destruct c end; auto using io_ret, io_fail, io_sub.
  Qed.
  Lemma io_assess d a m r : index_only (assess_one g (pt g k) d a m r).
  Proof.
    unfold assess_one. apply io_bind; [apply io_bitmap|]. intros _ _ [bm r1] _. destruct (takeTill_list a r1). apply io_bind; [apply IH|]. intros. apply io_sub.
  Qed.
  Lemma io_operator id r : id_F id = 2 -> index_only (operator_one g (pt g k) id r).
  Proof.
    intros HF. unfold operator_one. apply io_bind; [apply io_lookup|]. intros f0 f0' d HL. cbv zeta.
    assert (HL' : Lookup g id = Ok d) by (unfold lookup, lift_res in HL; congruence). rewrite (Lookup_id _ _ _ HL').
    pose proof (F2_range _ HF) as HR. assert (HY : 0 <= id_Y id) by (rewrite y_mod by lia; lia).
    repeat match goal with
    | |- index_only (if ?c then _ else _) => destruct c eqn:?
    | |- index_only (ret _) => apply io_ret
    | |- index_only (fail _) => apply io_fail
    | |- index_only (sub _ _ _) => apply io_sub
    | |- index_only (subN _ _ _ _) => apply io_subN; lia
    | |- index_only (assess_one _ _ _ _ _ _) => apply io_assess
    | |- index_only (marked_one _ _ _ _ _ _) => unfold marked_one
    | |- index_only (bitmap_one _ _ _) => apply io_bitmap
    | |- index_only (bind (modify _) _) => intros f p; unfold bind at 1, modify
    end.
    - intros K. unfold defer in K. pose proof (io_subN 1 r (leaf KSkipLocal d) ltac:(lia) (fst f, true)) as N. destruct (subN _ _ _ _ _) as [f' x]. exact (N p K).
    - intros K. unfold defer in K. pose proof (io_subN (id_Y id) r (leaf KDataNotPresent d) ltac:(lia) (true, snd f)) as N. destruct (subN _ _ _ _ _) as [f' x]. exact (N p K).
  Qed.
  Lemma io_one id r : index_only (one g (pt g k) (id :: r)).
  Proof.
    unfold one, F_SEQUENCE, F_REPLICATION, F_OPERATOR, F_ELEMENT.
    destruct (Z.eqb_spec (id_F id) 3) as [H3|].
    { apply io_bind; [apply io_lookup|]. intros f f' d HL. assert (HL' : Lookup g id = Ok d) by (unfold lookup, lift_res in HL; congruence).
      pose proof (Lookup_kind _ _ _ HL') as (_ & _ & K). destruct (d_entry d) as [e| | |ms] eqn:He; try (exfalso; lia).
      apply io_bind; [|intros; apply io_ret]. unfold pop. apply io_bind; [|intros; apply io_ret]. apply IH. }
    destruct (Z.eqb_spec (id_F id) 1) as [H1|].
    { pose proof (F1_X _ H1). destruct (_ =? _); cbn [andb]; (apply io_bind; [apply io_lookup|]); intros f f' d HL;
        (assert (HL' : Lookup g id = Ok d) by (unfold lookup, lift_res in HL; congruence)); rewrite (Lookup_id _ _ _ HL'); (apply io_subN; lia). }
    cbn [andb]. destruct (Z.eqb_spec (id_F id) 2) as [H2|]; [now apply io_operator|].
    destruct (_ =? _); [|apply io_fail]. apply io_bind; [intros f p; discriminate|]. intros _ _ [|] _.
    - apply io_bind; [apply io_ret|]. intros. apply io_ret.
    - apply io_bind; [apply io_lookup|]. intros. apply io_ret.
  Qed.
End Index.
Lemma io_pt g k : forall ids, index_only (pt g k ids).
Proof.
  induction k as [|k IH]; intros ids; [intros f p; discriminate|]. cbn [pt]. destruct ids as [|id r]; [apply io_ret|].
  apply io_bind; [now apply io_one|]. intros _ _ [n rest] _. apply io_bind; [apply IH|intros; apply io_ret].
Qed.
Lemma Parse_index g k ids f p : snd (Parse g k ids f) = Panic p -> p = PIndex.
Proof.
  rewrite Parse_pt. cbn [snd]. pose proof (io_pt g k ids f) as N. destruct (pt g k ids f) as [f' [ms|e|q|]]; cbn [snd] in *; try discriminate. intros E. injection E as ->. now apply N.
Qed.

(** ** Chains of shipped tables *)
Definition shipped_chain (gs : list single) : Prop := Forall (fun g => exists k, (k < 40)%nat /\ is_table k g) gs.
(** Only 306020 and 306024 call each other: the first the second up to version 15, the second
    the first from version 19 on. *)
Definition all_rows (but : Z) (m : Z) : list (Z * list Z) :=
  filter (fun r => negb ((fst r =? but) && existsb (Z.eqb m) (snd r))) (map snd d_rows).
Definition ranks_of (rows : list (Z * list Z)) : ranks := Nat.iter 9 (rank_step rows) (PositiveMap.empty nat).
Lemma ranked_old : ranked (all_rows 306024 306020) (ranks_of (all_rows 306024 306020)) = true.
Proof. vm_compute. reflexivity. Qed.
Lemma ranked_new : ranked (all_rows 306020 306024) (ranks_of (all_rows 306020 306024)) = true.
Proof. vm_compute. reflexivity. Qed.
Definition defined_by (R : list (Z * list Z)) (i : Z) : list (list Z) := map snd (filter (fun r => fst r =? i) R).
Definition calls_in (R : list (Z * list Z)) (i j : Z) : bool := existsb (fun ms => existsb (Z.eqb j) ms) (defined_by R i).
Definition both_or_none (R : list (Z * list Z)) (i j : Z) : bool :=
  Bool.eqb (match defined_by R i with [] => true | _ => false end) (match defined_by R j with [] => true | _ => false end) &&
  negb (calls_in R i j && calls_in R j i).
Lemma all_both_or_none : forallb (fun k => both_or_none (rows_of k d_rows) 306020 306024) (seq 0 40) = true.
Proof. vm_compute. reflexivity. Qed.
Lemma in_defs (R : list (Z * list Z)) i ms : In ms (map snd (filter (fun r => fst r =? i) R)) <-> In (i, ms) R.
Proof.
  rewrite in_map_iff. split.
  - intros ([i' ms'] & <- & H). apply filter_In in H. destruct H as [H E]. cbn [fst snd] in *. apply Z.eqb_eq in E. now subst.
  - intros H. exists (i, ms). split; [reflexivity|]. apply filter_In. split; [exact H|]. apply Z.eqb_refl.
Qed.
Lemma both_R (R : list (Z * list Z)) (f : Z -> option (list Z)) i j : (forall id ms, f id = Some ms <-> In (id, ms) R) ->
  both_or_none R i j = true ->
  ((exists ms, f i = Some ms) <-> (exists ms, f j = Some ms)) /\
  (forall a b, f i = Some a -> f j = Some b -> In j a -> In i b -> False).
Proof.
  intros HT HA. unfold both_or_none, calls_in, defined_by in HA. apply andb_true_iff in HA. destruct HA as [H1 H2].
  assert (HE : forall i, (exists ms, f i = Some ms) <-> map snd (filter (fun r => fst r =? i) R) <> []).
  { intros i0. split.
    - intros [ms H] E. apply HT, in_defs in H. rewrite E in H. contradiction.
    - destruct (map snd (filter (fun r => fst r =? i0) R)) as [|ms l] eqn:E; [intros K; exfalso; apply K; reflexivity|]. intros _. exists ms. apply HT, in_defs. rewrite E. now left. }
  split.
  - rewrite !HE. destruct (map _ (filter (fun r => fst r =? i) _)), (map _ (filter (fun r => fst r =? j) _)); cbn in H1; try discriminate; split; intros ?; try discriminate; assumption.
  - intros a b Ha Hb Ia Ib. apply HT, in_defs in Ha, Hb. apply negb_true_iff, andb_false_iff in H2.
    assert (HX : forall i ms j, In ms (map snd (filter (fun r => fst r =? i) R)) -> In j ms ->
      existsb (fun ms => existsb (Z.eqb j) ms) (map snd (filter (fun r => fst r =? i) R)) = true).
    { intros i0 ms j0 Hm Hj. apply existsb_exists. exists ms. split; [exact Hm|]. apply existsb_exists. exists j0. split; [exact Hj|]. apply Z.eqb_refl. }
    rewrite (HX _ _ _ Ha Ia), (HX _ _ _ Hb Ib) in H2. destruct H2; discriminate.
Qed.
Lemma both_k k g : (k < 40)%nat -> is_table k g ->
  ((exists ms, s_d g 306020 = Some ms) <-> (exists ms, s_d g 306024 = Some ms)) /\
  (forall a b, s_d g 306020 = Some a -> s_d g 306024 = Some b -> In 306024 a -> In 306020 b -> False).
Proof.
  intros Hk (_ & _ & HT). pose proof all_both_or_none as HA. rewrite forallb_forall in HA.
  assert (HI : In k (seq 0 40)) by (apply in_seq; lia). specialize (HA k HI). cbv beta in HA.
  revert HT HA. generalize (rows_of k d_rows). intros R HT HA. exact (both_R R (s_d g) _ _ HT HA).
Qed.
Lemma chain_def gs id d ms : Lookup (GChain gs) id = Ok d -> d_entry d = ED ms ->
  exists pre g post, gs = pre ++ g :: post /\ s_d g id = Some ms /\ Forall (fun g' => s_d g' id = None) pre.
Proof.
  intros HL HE. pose proof (Lookup_kind _ _ _ HL) as (_ & _ & K). rewrite HE in K. destruct K as [H3 _].
  cbn [Lookup] in HL. apply chain_Lookup_ok in HL. destruct HL as (pre & g & post & -> & HK & HP). exists pre, g, post. split; [reflexivity|].
  unfold id_F in H3. split.
  - destruct HK as [(_ & e & _ & ->)|[(_ & ->)|[(_ & ->)|(_ & ms' & Hm & ->)]]]; cbn in HE; try discriminate. congruence.
  - eapply Forall_impl; [|exact HP]. intros g' N. destruct (s_d g' id) as [ms'|] eqn:E; [|reflexivity]. exfalso. apply (N (mkDesc id (ED ms') false)). right. right. right. eauto.
Qed.
Lemma in_all_rows {A} (D : list (A * (Z * list Z))) (but m id : Z) ms mk : In (mk, (id, ms)) D -> (id = but -> ~ In m ms) ->
  In (id, ms) (filter (fun r => negb ((fst r =? but) && existsb (Z.eqb m) (snd r))) (map snd D)).
Proof.
  intros Hi HN. apply filter_In. split; [apply in_map_iff; exists (mk, (id, ms)); auto|]. cbn [fst snd]. apply negb_true_iff, andb_false_iff.
  destruct (Z.eqb_spec id but) as [->|]; [right|left; reflexivity]. destruct (existsb (Z.eqb m) ms) eqn:E; [|reflexivity]. exfalso.
  apply existsb_exists in E. destruct E as (i & Hi' & Ei). apply Z.eqb_eq in Ei. subst i. now apply HN.
Qed.
Lemma rank_acyclic g R T : ranked R T = true ->
  (forall id d ms, Lookup g id = Ok d -> d_entry d = ED ms -> In (id, ms) R) -> acyclic g.
Proof.
  intros HR HS. exists (rank_in T). intros id d ms HL HE. pose proof (HS _ _ _ HL HE) as HI.
  unfold ranked in HR. rewrite forallb_forall in HR. specialize (HR _ HI). cbn [fst snd] in HR. rewrite forallb_forall in HR.
  apply Forall_forall. intros i Hi' HF. specialize (HR _ Hi'). rewrite HF in HR. cbn [negb Z.eqb orb] in HR. apply Nat.ltb_lt. exact HR.
Qed.
Lemma chain_rank gs but m T : ranked (all_rows but m) T = true -> shipped_chain gs ->
  (forall d ms, Lookup (GChain gs) but = Ok d -> d_entry d = ED ms -> ~ In m ms) -> acyclic (GChain gs).
Proof.
  intros HR HS HN. apply (rank_acyclic _ _ _ HR). intros id d ms HL HE. unfold all_rows.
  destruct (chain_def _ _ _ _ HL HE) as (pre & g & post & E & Hg & _). unfold shipped_chain in HS. rewrite E in HS. rewrite Forall_app, Forall_cons_iff in HS.
  destruct HS as (_ & (k & Hk & (_ & _ & HT)) & _). apply HT in Hg. clear HT HR.
  revert Hg. generalize d_rows. intros D Hg. apply In_rows in Hg. destruct Hg as (mk & Hi & _).
  apply (in_all_rows D but m id ms mk Hi). intros Ei. subst id. eapply HN; eauto.
Qed.
Lemma split_first {A} (P : A -> Prop) pre g post pre' g' post' : pre ++ g :: post = pre' ++ g' :: post' ->
  P g -> P g' -> Forall (fun x => ~ P x) pre -> Forall (fun x => ~ P x) pre' -> g = g'.
Proof.
  revert pre'. induction pre as [|a pre IH]; intros [|b pre'] E Hg Hg' Hp Hp'; cbn [app] in E; injection E as E1 E2.
  - exact E1.
  - subst b. inversion Hp'; subst. contradiction.
  - subst a. inversion Hp; subst. contradiction.
  - inversion Hp; inversion Hp'; subst. eauto.
Qed.
Lemma chain_acyclic gs : shipped_chain gs -> acyclic (GChain gs).
Proof.
  intros HS.
  assert (D : (exists d ms, Lookup (GChain gs) 306020 = Ok d /\ d_entry d = ED ms /\ In 306024 ms) \/
              (forall d ms, Lookup (GChain gs) 306020 = Ok d -> d_entry d = ED ms -> ~ In 306024 ms)).
  { destruct (Lookup_total (GChain gs) 306020) as [[d HL]|[[e HL] _]].
    - destruct (d_entry d) as [| | |ms] eqn:E; try (right; intros d' ms' HL' E'; rewrite HL in HL'; injection HL' as <-; congruence).
      destruct (in_dec Z.eq_dec 306024 ms) as [Hi|Hn]; [left; eauto|]. right. intros d' ms' HL' E'. rewrite HL in HL'. injection HL' as <-. congruence.
    - right. intros d' ms' HL' E'. congruence. }
  destruct D as [(d & a & HL & HE & Ia)|D].
  - apply (chain_rank gs 306024 306020 _ ranked_old HS). intros d' b HL' HE' Ib.
    destruct (chain_def _ _ _ _ HL HE) as (pre & g & post & -> & Hg & Hp). destruct (chain_def _ _ _ _ HL' HE') as (pre' & g' & post' & E & Hg' & Hp').
    assert (HB : forall x, In x (pre ++ g :: post) -> ((exists ms, s_d x 306020 = Some ms) <-> (exists ms, s_d x 306024 = Some ms)) /\
       (forall a b, s_d x 306020 = Some a -> s_d x 306024 = Some b -> In 306024 a -> In 306020 b -> False)).
    { intros x Hx. unfold shipped_chain in HS. rewrite Forall_forall in HS. destruct (HS x Hx) as (k & Hk & HT). eapply both_k; eauto. }
    assert (g = g').
    { apply (split_first (fun x => exists ms, s_d x 306020 = Some ms) _ _ _ _ _ _ E); [eauto| | |].
      - apply HB; [rewrite E; apply in_or_app; right; now left|eauto].
      - eapply Forall_impl; [|exact Hp]. cbv beta. intros x -> [ms K]. discriminate.
      - apply Forall_forall. intros x Hx [ms K]. rewrite Forall_forall in Hp'. pose proof (Hp' x Hx) as N.
        destruct (HB x) as [[HB1 _] _]; [rewrite E; apply in_or_app; left; exact Hx|]. destruct HB1 as [ms' K']; [eauto|]. congruence. }
    subst g'. destruct (HB g) as [_ HB2]; [apply in_or_app; right; now left|]. eapply HB2; eauto.
  - exact (chain_rank gs 306020 306024 _ ranked_new HS D).
Qed.
Lemma units_sane : forallb (fun r : Z * (Z * (string * Z * Z * Z)) => match r with (_, (_, (u, _, _, nb))) =>
  (0 <=? nb) && existsb (fun t => unit_is (unitOf (gs u)) t) [NUMERIC; STRING; NONNEG_CODE; FLAG] end) b_rows = true.
Proof. vm_compute. reflexivity. Qed.
Lemma chain_loaded gs : shipped_chain gs -> loaded_tables (GChain gs).
Proof.
  intros HS id d e HL HE. destruct (chain_EB _ _ _ _ HL HE) as (g & Hg & Hs). unfold shipped_chain in HS. rewrite Forall_forall in HS.
  destruct (HS g Hg) as (k & Hk & (H1 & _)). destruct (H1 _ _ Hs) as ([[[u sc] rv] nb] & Hr & (_ & -> & _ & _ & ->)).
  apply In_rows in Hr. destruct Hr as (mk & Hr & _). pose proof units_sane as HU. rewrite forallb_forall in HU. specialize (HU _ Hr). cbv beta iota in HU.
  apply andb_true_iff in HU. destruct HU as [HU1 HU2]. split; [lia|]. apply existsb_exists in HU2. destruct HU2 as (t & Ht & E). apply unit_is_eq in E. now rewrite E.
Qed.
Lemma NewSingle_shipped fs m c s v : shipped_fs fs ->
  match NewSingleTableGroup fs m c s v with Ok g => exists k, (k < 40)%nat /\ is_table k g | Err _ => True | _ => False end.
Proof.
  intros HF. destruct (in_dec (fun a b : Z * Z * Z * Z => ltac:(repeat decide equality) : {a = b} + {a <> b}) (m, c, s, v) shipped_tables) as [HI|HI].
  - apply In_nth_error in HI. destruct HI as (k & Hk). destruct (proj1 HF k m c s v Hk) as (g & Hg & Ht). apply NewSingle_present in Hg. rewrite Hg.
    exists k. split; [eapply table_lt, Hk|exact Ht].
  - pose proof (proj2 HF m c s v HI) as HB. rewrite (proj2 (NewSingle_absent fs m c s v) (or_introl HB)). exact I.
Qed.
Lemma shipped_usable fs : shipped_fs fs -> usable fs.
Proof.
  intros HF m c s wv lv. destruct (AddLocalAndWmoTableGroups fs m c s wv lv []) as [l x] eqn:E.
  assert (HK : shipped_chain l /\ match x with Ok _ | Err _ => True | _ => False end).
  { assert (H1 : forall c s v l0 l' x, shipped_chain l0 -> AddSingleTableGroup fs m c s v l0 = (l', x) -> shipped_chain l' /\ match x with Ok _ | Err _ => True | _ => False end).
    { intros c0 s0 v0 l0 l' x0 H0 E0. rewrite AddSingle_step in E0. pose proof (NewSingle_shipped fs m c0 s0 v0 HF) as HN.
      destruct (NewSingleTableGroup fs m c0 s0 v0) as [g|e|p|]; try contradiction; injection E0 as <- <-; auto. split; [|exact I]. apply Forall_app. auto. }
    assert (H0 : shipped_chain []) by constructor. revert E. unfold AddLocalAndWmoTableGroups. destruct (negb _); [|intros E; eapply H1; eauto].
    destruct (AddSingleTableGroup fs m c s lv []) as [l1 x1] eqn:E1. destruct (H1 _ _ _ _ _ _ H0 E1) as [HC1 HX1].
    destruct x1 as [u|e|p|]; try contradiction; [intros E; eapply H1; eauto|].
    destruct (is_not_exist e); [|intros E; injection E as <- <-; auto]. unfold bind. destruct (AddSingleTableGroup fs m c 0 lv l1) as [l2 x2] eqn:E2.
    destruct (H1 _ _ _ _ _ _ HC1 E2) as [HC2 HX2]. destruct x2 as [u|e2|p|]; try contradiction; [intros E; eapply H1; eauto|]. intros E; injection E as <- <-; auto. }
  destruct HK as [HC HX]. destruct x as [u|e|p|]; try contradiction; auto. split; [now apply chain_acyclic|now apply chain_loaded].
Qed.
