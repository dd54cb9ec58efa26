(** Invariant of the table cache machine (C17). *)
From Verif Require Export SpecManager ProofsTable.

Section Proofs.
  Context {C : Type}.
  Implicit Types (s : mstate C) (c : pc C) (t : tobj C).

  Definition b2n (b : bool) : nat := if b then 1%nat else 0%nat.

  Lemma count_cons {A} (f : A -> bool) a l : count f (a :: l) = (b2n (f a) + count f l)%nat.
  Proof. unfold count. cbn [filter]. destruct (f a); reflexivity. Qed.
  Lemma count_set {A} (f : A -> bool) l : forall i old new, nth_error l i = Some old ->
    (count f (set_nth l i new) + b2n (f old) = count f l + b2n (f new))%nat.
  Proof.
    induction l as [|a l IH]; intros [|i] old new H; cbn [nth_error set_nth] in *; try discriminate.
    - injection H as ->. rewrite !count_cons. lia.
    - rewrite !count_cons. specialize (IH i old new H). lia.
  Qed.
  Lemma count_pos {A} (f : A -> bool) l i a : nth_error l i = Some a -> f a = true -> (0 < count f l)%nat.
  Proof.
    revert i. induction l as [|x l IH]; intros [|i] H Hf; cbn [nth_error] in H; try discriminate.
    - injection H as ->. rewrite count_cons, Hf. cbn. lia.
    - rewrite count_cons. specialize (IH i H Hf). lia.
  Qed.
  Lemma count_unique {A} (f : A -> bool) l i j a b : (count f l <= 1)%nat ->
    nth_error l i = Some a -> f a = true -> nth_error l j = Some b -> f b = true -> i = j.
  Proof.
    revert i j. induction l as [|x l IH]; intros i j Hc Hi Hfa Hj Hfb; [destruct i; discriminate|].
    rewrite count_cons in Hc. destruct i as [|i], j as [|j]; cbn [nth_error] in Hi, Hj; auto.
    - injection Hi as ->. rewrite Hfa in Hc. cbn [b2n] in Hc.
      pose proof (count_pos f l j b Hj Hfb). lia.
    - injection Hj as ->. rewrite Hfb in Hc. cbn [b2n] in Hc.
      pose proof (count_pos f l i a Hi Hfa). lia.
    - f_equal. eapply IH; eauto. lia.
  Qed.
  Lemma count_zero_in {A} (f : A -> bool) l a : count f l = 0%nat -> In a l -> f a = false.
  Proof.
    unfold count. intros H Hin. destruct (f a) eqn:E; [|reflexivity].
    assert (In a (filter f l)) by (apply filter_In; auto). destruct (filter f l); [contradiction|discriminate].
  Qed.
  Lemma count_zero {A} (f : A -> bool) l : (forall a, In a l -> f a = false) -> count f l = 0%nat.
  Proof.
    induction l as [|a l IH]; intros H; [reflexivity|]. rewrite count_cons, (H a (or_introl eq_refl)).
    cbn [b2n]. apply IH. intros b Hb. apply H. now right.
  Qed.
  Lemma nth_set_same {A} (l : list A) i a old : nth_error l i = Some old -> nth_error (set_nth l i a) i = Some a.
  Proof. revert i. induction l as [|x l IH]; intros [|i] H; cbn in *; try discriminate; auto. Qed.
  Lemma nth_set_other {A} (l : list A) i j a : i <> j -> nth_error (set_nth l i a) j = nth_error l j.
  Proof. revert i j. induction l as [|x l IH]; intros [|i] [|j] H; cbn; auto; try congruence. Qed.
  Lemma length_set {A} (l : list A) i a : length (set_nth l i a) = length l.
  Proof. revert i. induction l as [|x l IH]; intros [|i]; cbn; auto. Qed.

  Lemma gs_eqb_refl p : gs_eqb p p = true.
  Proof. now apply gs_eqb_eq. Qed.

  (** What the private data of one call promises. *)
  Definition call_ok s c : Prop :=
    match c with
    | PRUnlock p (Some t) => map_get (m_map s) p = Some t
    | PLoad p => map_get (m_map s) p = None
    | PStore p t => In (p, Ok t) (m_loads s) /\ map_get (m_map s) p = None
    | PUnlock p r | PDone p r =>
        match r with
        | Ok t => map_get (m_map s) p = Some t
        | Err e => In (p, Err e) (m_loads s)
        | _ => False
        end
    | _ => True
    end.

  Record Inv s : Prop := {
    inv_readers : m_readers s = count holds_read (m_calls s);
    inv_writer : b2n (m_writer s) = count holds_write (m_calls s);
    inv_excl : m_writer s = true -> m_readers s = 0%nat;
    inv_calls : forall i c, call_at s i c -> call_ok s c;
    inv_map : forall p t, map_get (m_map s) p = Some t -> In (p, Ok t) (m_loads s);
    inv_loaded : forall p t, In (p, Ok t) (m_loads s) ->
      map_get (m_map s) p = Some t \/ exists i, call_at s i (PStore p t);
    inv_once : forall p, (good_loads s p <= 1)%nat;
    inv_fresh : forall p t, In (p, Ok t) (m_loads s) -> (to_id t < m_next s)%nat;
    inv_ids : forall p q t u, In (p, Ok t) (m_loads s) -> In (q, Ok u) (m_loads s) ->
      to_id t = to_id u -> p = q /\ t = u;
    inv_failed : forall p, failed_calls s p = bad_loads s p }.

  Lemma inv_start paths : Inv (mstart paths).
  Proof.
    assert (Hc : forall i c, call_at (mstart paths) i c -> exists p, c = PRLock p).
    { intros i c H. apply nth_error_In in H. cbn [mstart m_calls] in H. apply in_map_iff in H.
      destruct H as (p & <- & _). eauto. }
    assert (Hin : forall c, In c (m_calls (mstart paths)) -> exists p, c = PRLock p).
    { intros c H. apply In_nth_error in H. destruct H as [i H]. eapply Hc; eauto. }
    constructor; cbn [mstart m_readers m_writer m_map m_loads m_next]; try contradiction; try discriminate; auto.
    - symmetry. apply count_zero. intros c H. destruct (Hin c H) as [p ->]. reflexivity.
    - symmetry. apply count_zero. intros c H. destruct (Hin c H) as [p ->]. reflexivity.
    - intros i c H. destruct (Hc i c H) as [p ->]. exact I.
    - intros p. unfold failed_calls. rewrite count_zero; [reflexivity|].
      intros c H. destruct (Hin c H) as [q ->]. reflexivity.
  Qed.

  (** The part of the invariant about other calls survives when the map and the loads only grow. *)
  Lemma call_at_set s rd w m n l i old new j c :
    call_at s i old -> call_at (mkM rd w m (set_call s i new) n l) j c ->
    j = i /\ c = new \/ j <> i /\ call_at s j c.
  Proof.
    unfold call_at, set_call. cbn [m_calls]. intros Ho H.
    destruct (Nat.eq_dec i j) as [<-|Hne].
    - rewrite (nth_set_same _ _ _ _ Ho) in H. injection H as <-. auto.
    - rewrite nth_set_other in H by exact Hne. auto.
  Qed.

  Lemma writer_alone s i c : Inv s -> call_at s i c -> holds_write c = true ->
    m_writer s = true /\ m_readers s = 0%nat /\
    (forall j d, call_at s j d -> holds_read d = false) /\
    (forall j d, call_at s j d -> holds_write d = true -> j = i /\ d = c).
  Proof.
    intros HI Hi Hw.
    pose proof (count_pos _ _ _ _ Hi Hw) as Hp. pose proof (inv_writer s HI) as Hwr.
    assert (Hwt : m_writer s = true) by (destruct (m_writer s); [reflexivity|cbn in Hwr; lia]).
    assert (Hr := inv_excl s HI Hwt). split; [exact Hwt|]. split; [exact Hr|]. split.
    - intros j d Hd. destruct (holds_read d) eqn:E; [|reflexivity].
      pose proof (count_pos _ _ _ _ Hd E). rewrite <- (inv_readers s HI) in H. lia.
    - intros j d Hd Hwd. rewrite Hwt in Hwr. cbn [b2n] in Hwr.
      assert (j = i) as -> by (eapply (count_unique holds_write); eauto; lia).
      split; [reflexivity|]. unfold call_at in *. congruence.
  Qed.

  Lemma good_cons s rd w m cs n q (r : res (tobj C)) p :
    good_loads (mkM rd w m cs n ((q, r) :: m_loads s)) p
    = (b2n (gs_eqb q p && is_ok r) + good_loads s p)%nat.
  Proof. unfold good_loads. cbn [m_loads]. now rewrite count_cons. Qed.
  Lemma bad_cons s rd w m cs n q (r : res (tobj C)) p :
    bad_loads (mkM rd w m cs n ((q, r) :: m_loads s)) p
    = (b2n (gs_eqb q p && negb (is_ok r)) + bad_loads s p)%nat.
  Proof. unfold bad_loads. cbn [m_loads]. now rewrite count_cons. Qed.

  (** Steps that leave map and loads alone. *)
  Lemma inv_quiet s i old new rd w :
    Inv s -> call_at s i old ->
    (rd + b2n (holds_read old) = m_readers s + b2n (holds_read new))%nat ->
    (b2n w + b2n (holds_write old) = b2n (m_writer s) + b2n (holds_write new))%nat ->
    (w = true -> rd = 0%nat) ->
    call_ok s new -> (forall p, failed_call p new = failed_call p old) ->
    (forall p t, old <> PStore p t) ->
    Inv (mkM rd w (m_map s) (set_call s i new) (m_next s) (m_loads s)).
  Proof.
    intros HI Hi Hrd Hw Hex Hok Hf Hns.
    constructor; cbn [m_readers m_writer m_map m_calls m_next m_loads].
    - unfold set_call. pose proof (count_set holds_read _ _ _ new Hi). pose proof (inv_readers s HI). lia.
    - unfold set_call. pose proof (count_set holds_write _ _ _ new Hi). pose proof (inv_writer s HI). lia.
    - exact Hex.
    - intros j c Hj. apply (call_at_set s _ _ _ _ _ i old new) in Hj; [|exact Hi].
      destruct Hj as [[-> ->]|[_ Hj]]; [exact Hok|exact (inv_calls s HI j c Hj)].
    - apply (inv_map s HI).
    - intros p t Hin. destruct (inv_loaded s HI p t Hin) as [H|[j Hj]]; [left; exact H|].
      right. exists j. unfold call_at, set_call in *. cbn [m_calls].
      assert (i <> j) by (intros <-; rewrite Hi in Hj; injection Hj as Hj; eapply Hns; eauto).
      rewrite nth_set_other by assumption. exact Hj.
    - apply (inv_once s HI).
    - apply (inv_fresh s HI).
    - apply (inv_ids s HI).
    - intros p. unfold failed_calls, set_call. cbn [m_calls].
      pose proof (count_set (failed_call p) _ _ _ new Hi) as Hc. rewrite (Hf p) in Hc.
      pose proof (inv_failed s HI p) as H. unfold failed_calls in H.
      change (bad_loads _ p) with (bad_loads s p). lia.
  Qed.

  Lemma inv_step s i s' : Inv s -> step s i s' -> Inv s'.
  Proof.
    intros HI Hs. inversion Hs as [j p Hi Hw|j p Hi|j p hit Hi|j p Hi Hw Hr|j p Hi|j p c Hi|j p e Hi|j p t Hi|j p r Hi];
      subst j s'; clear Hs; change (call_at s i) with (call_at s i) in *; fold (call_at s i) in Hi.
    - (* RLock *) eapply (inv_quiet s i (PRLock p)); eauto; cbn [b2n holds_read holds_write]; try lia; try discriminate.
      + rewrite Hw. reflexivity.
      + exact I.
    - (* Read *) eapply (inv_quiet s i (PRead p)); eauto; cbn [b2n holds_read holds_write]; try lia; try discriminate.
      + apply (inv_excl s HI).
      + cbn [call_ok]. destruct (map_get (m_map s) p) eqn:E; [reflexivity|exact I].
    - (* RUnlock *)
      assert (Hpos : (0 < m_readers s)%nat).
      { rewrite (inv_readers s HI). eapply count_pos; [exact Hi|reflexivity]. }
      eapply (inv_quiet s i (PRUnlock p hit)); eauto; try discriminate.
      + destruct hit; cbn [b2n holds_read]; lia.
      + destruct hit; cbn [b2n holds_write]; lia.
      + intros Hw. pose proof (inv_excl s HI Hw). lia.
      + pose proof (inv_calls s HI _ _ Hi) as Hok. destruct hit; [exact Hok|exact I].
      + intros q. destruct hit; cbn [failed_call is_ok negb]; [apply andb_false_r|reflexivity].
    - (* Lock *) eapply (inv_quiet s i (PLock p)); eauto; cbn [b2n holds_read holds_write]; try lia; try discriminate.
      + rewrite Hw. reflexivity.
      + exact I.
    - (* Check *) eapply (inv_quiet s i (PCheck p)); eauto; try discriminate.
      + destruct (map_get (m_map s) p); cbn [b2n holds_read]; lia.
      + destruct (map_get (m_map s) p); cbn [b2n holds_write]; lia.
      + apply (inv_excl s HI).
      + destruct (map_get (m_map s) p) eqn:E; exact E.
      + intros q. destruct (map_get (m_map s) p); cbn [failed_call is_ok negb]; [apply andb_false_r|reflexivity].
    - (* Load, success *)
      destruct (writer_alone s i _ HI Hi eq_refl) as (Hwt & Hr0 & Hnr & Hone).
      assert (Hnone : map_get (m_map s) p = None) by apply (inv_calls s HI _ _ Hi).
      assert (Hno : forall t, ~ In (p, Ok t) (m_loads s)).
      { intros t Hin. destruct (inv_loaded s HI p t Hin) as [H|[j Hj]]; [congruence|].
        destruct (Hone j _ Hj eq_refl) as [_ H]. discriminate. }
      constructor; cbn [m_readers m_writer m_map m_calls m_next m_loads].
      + unfold set_call. pose proof (count_set holds_read _ _ _ (PStore p (mkT (m_next s) c)) Hi).
        pose proof (inv_readers s HI). cbn [b2n holds_read] in *. lia.
      + unfold set_call. pose proof (count_set holds_write _ _ _ (PStore p (mkT (m_next s) c)) Hi).
        pose proof (inv_writer s HI). cbn [b2n holds_write] in *. lia.
      + intros _. exact Hr0.
      + intros j d Hj. apply (call_at_set s _ _ _ _ _ i _ _ _ _ Hi) in Hj.
        destruct Hj as [[-> ->]|[Hne Hj]].
        * cbn [call_ok m_map m_loads]. split; [now left|exact Hnone].
        * pose proof (inv_calls s HI j d Hj) as Hok. destruct d; cbn [call_ok m_map m_loads] in *; auto.
          -- destruct Hok; split; [now right|assumption].
          -- destruct r; auto. now right.
          -- destruct r; auto. now right.
      + intros q t Hq. right. now apply (inv_map s HI).
      + intros q t [E|Hin].
        * injection E as <- <-. right. exists i. unfold call_at, set_call. cbn [m_calls].
          eapply nth_set_same; exact Hi.
        * destruct (inv_loaded s HI q t Hin) as [H|[j Hj]]; [auto|].
          destruct (Hone j _ Hj eq_refl) as [_ H]. discriminate.
      + intros q. rewrite good_cons. cbn [is_ok]. rewrite andb_true_r.
        destruct (gs_eqb p q) eqn:E; [|apply (inv_once s HI q)]. apply gs_eqb_eq in E. subst q.
        unfold good_loads. rewrite count_zero; [cbn; lia|]. intros [q r] Hin. cbn [fst snd].
        destruct (gs_eqb q p) eqn:E; [|reflexivity]. apply gs_eqb_eq in E. subst q.
        destruct r; try reflexivity. now apply Hno in Hin.
      + intros q t [E|Hin]; [injection E as <- <-; cbn; lia|]. pose proof (inv_fresh s HI q t Hin). lia.
      + intros q q' t u [E|Hin] [E'|Hin'] Hid.
        * injection E as <- <-. injection E' as <- <-. auto.
        * injection E as <- <-. cbn [to_id] in Hid. pose proof (inv_fresh s HI _ _ Hin'). lia.
        * injection E' as <- <-. cbn [to_id] in Hid. pose proof (inv_fresh s HI _ _ Hin). lia.
        * apply (inv_ids s HI q q' t u); assumption.
      + intros q. rewrite bad_cons. cbn [is_ok negb]. rewrite andb_false_r. cbn [b2n plus].
        unfold failed_calls, set_call. cbn [m_calls].
        pose proof (count_set (failed_call q) _ _ _ (PStore p (mkT (m_next s) c)) Hi) as Hc.
        cbn [failed_call b2n] in Hc. pose proof (inv_failed s HI q) as H. unfold failed_calls in H. lia.
    - (* Load, failure *)
      destruct (writer_alone s i _ HI Hi eq_refl) as (Hwt & Hr0 & Hnr & Hone).
      constructor; cbn [m_readers m_writer m_map m_calls m_next m_loads].
      + unfold set_call. pose proof (count_set holds_read _ _ _ (PUnlock p (@Err (tobj C) e)) Hi).
        pose proof (inv_readers s HI). cbn [b2n holds_read] in *. lia.
      + unfold set_call. pose proof (count_set holds_write _ _ _ (PUnlock p (@Err (tobj C) e)) Hi).
        pose proof (inv_writer s HI). cbn [b2n holds_write] in *. lia.
      + intros _. exact Hr0.
      + intros j d Hj. apply (call_at_set s _ _ _ _ _ i _ _ _ _ Hi) in Hj.
        destruct Hj as [[-> ->]|[Hne Hj]].
        * cbn [call_ok m_map m_loads]. now left.
        * pose proof (inv_calls s HI j d Hj) as Hok. destruct d; cbn [call_ok m_map m_loads] in *; auto.
          -- destruct Hok; split; [now right|assumption].
          -- destruct r; auto. now right.
          -- destruct r; auto. now right.
      + intros q t Hq. right. now apply (inv_map s HI).
      + intros q t [E|Hin]; [discriminate|].
        destruct (inv_loaded s HI q t Hin) as [H|[j Hj]]; [auto|].
        destruct (Hone j _ Hj eq_refl) as [_ H]. discriminate.
      + intros q. rewrite good_cons. cbn [is_ok]. rewrite andb_false_r. apply (inv_once s HI q).
      + intros q t [E|Hin]; [discriminate|]. now apply (inv_fresh s HI q t).
      + intros q q' t u [E|Hin] [E'|Hin'] Hid; try discriminate. apply (inv_ids s HI q q' t u); assumption.
      + intros q. rewrite bad_cons. cbn [is_ok negb]. rewrite andb_true_r.
        unfold failed_calls, set_call. cbn [m_calls].
        pose proof (count_set (failed_call q) _ _ _ (PUnlock p (@Err (tobj C) e)) Hi) as Hc.
        cbn [failed_call b2n is_ok negb] in Hc. rewrite andb_true_r in Hc.
        pose proof (inv_failed s HI q) as H. unfold failed_calls in H. lia.
    - (* Store *)
      destruct (writer_alone s i _ HI Hi eq_refl) as (Hwt & Hr0 & Hnr & Hone).
      assert (Hst : In (p, Ok t) (m_loads s) /\ map_get (m_map s) p = None) by apply (inv_calls s HI _ _ Hi).
      destruct Hst as [Hin Hnone].
      assert (Hkeep : forall q u, map_get (m_map s) q = Some u ->
                map_get ((p, t) :: m_map s) q = Some u).
      { intros q u H. cbn [map_get]. destruct (gs_eqb p q) eqn:E; [|exact H].
        apply gs_eqb_eq in E. subst q. congruence. }
      constructor; cbn [m_readers m_writer m_map m_calls m_next m_loads].
      + unfold set_call. pose proof (count_set holds_read _ _ _ (PUnlock p (Ok t)) Hi).
        pose proof (inv_readers s HI). cbn [b2n holds_read] in *. lia.
      + unfold set_call. pose proof (count_set holds_write _ _ _ (PUnlock p (Ok t)) Hi).
        pose proof (inv_writer s HI). cbn [b2n holds_write] in *. lia.
      + intros _. exact Hr0.
      + intros j d Hj. apply (call_at_set s _ _ _ _ _ i _ _ _ _ Hi) in Hj.
        destruct Hj as [[-> ->]|[Hne Hj]].
        * cbn [call_ok m_map m_loads map_get]. now rewrite gs_eqb_refl.
        * pose proof (inv_calls s HI j d Hj) as Hok.
          destruct d; cbn [call_ok m_map m_loads] in *; auto.
          -- destruct hit; auto.
          -- destruct (Hone j _ Hj eq_refl) as [? _]. contradiction.
          -- destruct (Hone j _ Hj eq_refl) as [? _]. contradiction.
          -- destruct (Hone j _ Hj eq_refl) as [? _]. contradiction.
          -- destruct r; auto.
      + intros q u H. cbn [map_get] in H. destruct (gs_eqb p q) eqn:E.
        * injection H as <-. apply gs_eqb_eq in E. now subst q.
        * now apply (inv_map s HI).
      + intros q u Hq. destruct (inv_loaded s HI q u Hq) as [H|[j Hj]].
        * left. now apply Hkeep.
        * destruct (Hone j _ Hj eq_refl) as [_ H]. injection H as -> ->.
          left. cbn [map_get]. now rewrite gs_eqb_refl.
      + apply (inv_once s HI).
      + apply (inv_fresh s HI).
      + apply (inv_ids s HI).
      + intros q. unfold failed_calls, set_call. cbn [m_calls].
        pose proof (count_set (failed_call q) _ _ _ (PUnlock p (Ok t)) Hi) as Hc.
        cbn [failed_call b2n is_ok negb] in Hc. rewrite andb_false_r in Hc. cbn [b2n] in Hc.
        pose proof (inv_failed s HI q) as H. unfold failed_calls in H.
        change (bad_loads _ q) with (bad_loads s q). lia.
    - (* Unlock *)
      destruct (writer_alone s i _ HI Hi eq_refl) as (Hwt & Hr0 & Hnr & Hone).
      eapply (inv_quiet s i (PUnlock p r)); eauto; try discriminate.
      + rewrite Hwt. reflexivity.
      + apply (inv_calls s HI _ _ Hi).
  Qed.

  Lemma inv_steps s is s' : Inv s -> steps s is s' -> Inv s'.
  Proof. intros HI H. induction H; eauto using inv_step. Qed.
  Lemma inv_reach paths is s : steps (mstart paths) is s -> Inv s.
  Proof. intros H. eapply inv_steps; [apply inv_start|exact H]. Qed.

  (** Paths never change. *)
  Lemma step_paths s i s' : step s i s' -> map pc_path (m_calls s') = map pc_path (m_calls s).
  Proof.
    assert (Hset : forall (l : list (pc C)) i old new, nth_error l i = Some old -> pc_path new = pc_path old ->
                map pc_path (set_nth l i new) = map pc_path l).
    { induction l as [|x l IH]; intros [|k] old new H E; cbn in *; try discriminate.
      - injection H as ->. now rewrite E.
      - f_equal. eauto. }
    intros H. inversion H; subst; cbn [m_calls]; unfold set_call; eapply Hset; eauto.
    - destruct hit; reflexivity.
    - destruct (map_get (m_map s) p); reflexivity.
  Qed.
  Lemma steps_paths s is s' : steps s is s' -> map pc_path (m_calls s') = map pc_path (m_calls s).
  Proof. induction 1; [reflexivity|]. rewrite IHsteps. eapply step_paths; eauto. Qed.

  (** Progress and length of executions. *)
  Definition rank (c : pc C) : nat :=
    match c with
    | PRLock _ => 8 | PRead _ => 7 | PRUnlock _ _ => 6 | PLock _ => 5 | PCheck _ => 4
    | PLoad _ => 3 | PStore _ _ => 2 | PUnlock _ _ => 1 | PDone _ _ => 0
    end%nat.
  Definition total (l : list (pc C)) : nat := fold_right (fun c n => rank c + n)%nat 0%nat l.
  Lemma total_set l : forall i old new, nth_error l i = Some old ->
    (total (set_nth l i new) + rank old = total l + rank new)%nat.
  Proof.
    induction l as [|a l IH]; intros [|i] old new H; cbn [nth_error set_nth] in *; try discriminate.
    - injection H as ->. cbn [total fold_right]. lia.
    - cbn [total fold_right]. specialize (IH i old new H). unfold total in IH. lia.
  Qed.
  Lemma step_total s i s' : step s i s' -> (total (m_calls s') < total (m_calls s))%nat.
  Proof.
    intros H. inversion H; subst; cbn [m_calls]; unfold set_call;
      match goal with Hn : nth_error _ _ = Some _ |- context [set_nth _ _ ?new] =>
        pose proof (total_set _ _ _ new Hn) as Ht end; cbn [rank] in Ht; try lia.
    - destruct hit; cbn [rank] in Ht; lia.
    - destruct (map_get (m_map s) p); cbn [rank] in Ht; lia.
  Qed.
  Lemma steps_total s is s' : steps s is s' -> (total (m_calls s') + length is <= total (m_calls s))%nat.
  Proof. induction 1; cbn [length]; [lia|]. apply step_total in H. lia. Qed.
  Lemma total_start paths : total (m_calls (mstart (C := C) paths)) = (8 * length paths)%nat.
  Proof. cbn [mstart m_calls]. induction paths as [|p l IH]; cbn; [reflexivity|]. unfold total in IH. lia. Qed.

  Lemma progress s : Inv s -> all_returned s \/ exists i s', step s i s'.
  Proof.
    intros HI.
    assert (Hw : (exists i c, call_at s i c /\ holds_write c = true) \/ m_writer s = false).
    { pose proof (inv_writer s HI) as Hw. destruct (m_writer s); [|auto]. left. cbn [b2n] in Hw.
      unfold count in Hw. destruct (filter holds_write (m_calls s)) as [|c l] eqn:E; [cbn in Hw; lia|].
      assert (Hin : In c (filter holds_write (m_calls s))) by (rewrite E; now left).
      apply filter_In in Hin. destruct Hin as [Hin Hc]. apply In_nth_error in Hin. destruct Hin as [i Hi].
      exists i, c. auto. }
    destruct Hw as [(i & c & Hi & Hc)|Hw].
    { right. destruct c; try discriminate; exists i.
      - eexists. eapply StCheck; eauto.
      - eexists. eapply (StLoadErr s i p EEof); eauto.
      - eexists. eapply StStore; eauto.
      - eexists. eapply StUnlock; eauto. }
    assert (Hr : (exists i c, call_at s i c /\ holds_read c = true) \/ m_readers s = 0%nat).
    { pose proof (inv_readers s HI) as Hr. unfold count in Hr.
      destruct (filter holds_read (m_calls s)) as [|c l] eqn:E; [auto|].
      assert (Hin : In c (filter holds_read (m_calls s))) by (rewrite E; now left).
      apply filter_In in Hin. destruct Hin as [Hin Hc]. apply In_nth_error in Hin. destruct Hin as [i Hi].
      left. exists i, c. auto. }
    destruct Hr as [(i & c & Hi & Hc)|Hr].
    { right. destruct c; try discriminate; exists i.
      - eexists. eapply StRead; eauto.
      - eexists. eapply StRUnlock; eauto. }
    assert (Hd : (exists i c, call_at s i c /\ ~ exists p r, c = PDone p r) \/ all_returned s).
    { unfold all_returned, call_at. clear - C. induction (m_calls s) as [|c l [IH|IH]].
      - right. intros [|i] c H; discriminate.
      - left. destruct IH as (i & d & H & Hn). exists (S i), d. auto.
      - assert (Hc : (exists p r, c = PDone p r) \/ ~ exists p r, c = PDone p r).
        { destruct c; try (right; intros (? & ? & ?); discriminate). left; eauto. }
        destruct Hc as [Hc|Hc].
        + right. intros [|i] d H; cbn in H; [injection H as <-; exact Hc|eauto].
        + left. exists 0%nat, c. auto. }
    destruct Hd as [(i & c & Hi & Hc)|Hd]; [|auto]. right.
    destruct c as [p|p|p hit|p|p|p|p t|p r|p r].
    - exists i. eexists. eapply StRLock; eauto.
    - exists i. eexists. eapply StRead; eauto.
    - exists i. eexists. eapply StRUnlock; eauto.
    - exists i. eexists. eapply StLock; eauto.
    - exists i. eexists. eapply StCheck; eauto.
    - exists i. eexists. eapply (StLoadErr s i p EEof); eauto.
    - exists i. eexists. eapply StStore; eauto.
    - exists i. eexists. eapply StUnlock; eauto.
    - exfalso. apply Hc. eauto.
  Qed.
  (** Enabled whatever the files contain: a load may end in any way. *)

  (** The statements of C17. *)
  Lemma c17_locks paths is s i j c d : steps (mstart paths) is s ->
    call_at s i c -> call_at s j d -> holds_write c = true ->
    holds_read d = false /\ (holds_write d = true -> i = j).
  Proof.
    intros H Hi Hj Hc. apply inv_reach in H.
    destruct (writer_alone s i c H Hi Hc) as (_ & _ & H1 & H2). split; [eauto|].
    intros Hd. destruct (H2 j d Hj Hd). congruence.
  Qed.
  Lemma c17_race paths is s i j c d : steps (mstart paths) is s ->
    call_at s i c -> call_at s j d -> writes_map c = true -> i <> j ->
    reads_map d = false /\ writes_map d = false.
  Proof.
    intros H Hi Hj Hc Hne.
    destruct (c17_locks paths is s i j c d H Hi Hj) as [H1 H2]; [destruct c; try discriminate; reflexivity|].
    destruct d; try discriminate; auto; cbn in *; exfalso; apply Hne; apply H2; reflexivity.
  Qed.
  Lemma c17_once paths is s p : steps (mstart paths) is s -> (good_loads s p <= 1)%nat.
  Proof. intros H. apply inv_reach in H. apply (inv_once s H). Qed.
  Lemma c17_result paths is s i p r : steps (mstart paths) is s -> returned s i p r ->
    (exists t, r = Ok t) \/ (exists e, r = Err e).
  Proof.
    intros H Hr. apply inv_reach in H. pose proof (inv_calls s H _ _ Hr) as Hok.
    cbn [call_ok] in Hok. destruct r; try contradiction; eauto.
  Qed.
  Lemma c17_loaded paths is s i p r : steps (mstart paths) is s -> returned s i p r -> In (p, r) (m_loads s).
  Proof.
    intros H Hr. apply inv_reach in H. pose proof (inv_calls s H _ _ Hr) as Hok.
    cbn [call_ok] in Hok. destruct r; try contradiction; auto. now apply (inv_map s H).
  Qed.
  Lemma c17_same paths is s i j p t u : steps (mstart paths) is s ->
    returned s i p (Ok t) -> returned s j p (Ok u) -> t = u.
  Proof.
    intros H Hi Hj. apply inv_reach in H.
    pose proof (inv_calls s H _ _ Hi) as H1. pose proof (inv_calls s H _ _ Hj) as H2.
    cbn [call_ok] in *. congruence.
  Qed.
  Lemma c17_distinct paths is s i j p q t u : steps (mstart paths) is s ->
    returned s i p (Ok t) -> returned s j q (Ok u) -> p <> q -> to_id t <> to_id u.
  Proof.
    intros H Hi Hj Hne Hid. assert (HI := inv_reach _ _ _ H).
    pose proof (c17_loaded _ _ _ _ _ _ H Hi) as H1. pose proof (c17_loaded _ _ _ _ _ _ H Hj) as H2.
    destruct (inv_ids s HI p q t u H1 H2 Hid). contradiction.
  Qed.
  Lemma c17_failures paths is s p : steps (mstart paths) is s -> failed_calls s p = bad_loads s p.
  Proof. intros H. apply inv_reach in H. apply (inv_failed s H). Qed.
  Lemma c17_path paths is s i p r : steps (mstart paths) is s -> returned s i p r -> nth_error paths i = Some p.
  Proof.
    intros H Hr. apply steps_paths in H. cbn [mstart m_calls] in H. rewrite map_map in H. cbn [pc_path] in H.
    rewrite map_id in H. rewrite <- H.
    unfold returned, call_at in Hr. apply (map_nth_error pc_path) in Hr. exact Hr.
  Qed.
  Lemma c17_bounded paths is s : steps (mstart paths) is s -> (length is <= 8 * length paths)%nat.
  Proof. intros H. apply steps_total in H. rewrite total_start in H. lia. Qed.
  Lemma c17_progress paths is s : steps (mstart paths) is s -> all_returned s \/ exists i s', step s i s'.
  Proof. intros H. apply inv_reach in H. now apply progress. Qed.
End Proofs.
