(** The visitor's success is exactly execution in the reference semantics, part 2. *)
From Coq Require Import ZifyBool ZifyNat.
From Verif Require Export ProofsRun3.

Notation hrel := (history -> reader -> history -> reader -> Prop).
Lemma deferM_inv {S A} (f : M S unit) (m : M S A) s s' a : (forall x y e, f x <> (y, Err e)) ->
  deferM f m s = (s', Ok a) -> exists s1, m s = (s1, Ok a) /\ f s1 = (s', Ok tt).
Proof.
  intros Hf H. unfold deferM in H. destruct (m s) as [s1 [x|e|p|]] eqn:E; destruct (f s1) as [s2 [[]|e'|p'|]] eqn:E2; try discriminate H.
  - apply ok_inv in H. destruct H as [-> ->]. eauto.
  - exfalso. eapply Hf. exact E2.
Qed.
Lemma deferM_ok {S A} (f : M S unit) (m : M S A) s s1 s' a : m s = (s1, Ok a) -> f s1 = (s', Ok tt) -> deferM f m s = (s', Ok a).
Proof. intros H1 H2. unfold deferM. now rewrite H1, H2. Qed.

Section Does.
  Variable cf : config.
  Hypothesis Hp : (0 < lanes cf)%nat.

  (** [m] succeeds exactly as [R] says. *)
  Definition does (m : M vst unit) (R : hrel) : Prop :=
    (forall h s s', rep cf h s -> m s = (s', Ok tt) ->
       exists h', R h (v_r s) h' (v_r s') /\ rep cf h' s' /\ same_place s s') /\
    (forall h s h' r', rep cf h s -> R h (v_r s) h' r' ->
       exists s', m s = (s', Ok tt) /\ v_r s' = r' /\ rep cf h' s' /\ same_place s s').
  Definition seq (R1 R2 : hrel) : hrel := fun h r h' r' => exists h1 r1, R1 h r h1 r1 /\ R2 h1 r1 h' r'.
  Definition idr : hrel := fun h r h' r' => h' = h /\ r' = r.
  Definition push_ev (e : event) : hrel := fun h r h' r' => h' = e :: h /\ r' = r.

  Lemma does_iff m R R' : (forall h r h' r', R h r h' r' <-> R' h r h' r') -> does m R -> does m R'.
  Proof.
    intros H [H1 H2]. split.
    - intros h s s' Hr E. destruct (H1 h s s' Hr E) as (h' & HR & Q). exists h'. split; [now apply H|exact Q].
    - intros h s h' r' Hr HR. apply H in HR. eauto.
  Qed.
  Lemma does_ext m m' R : (forall s, m s = m' s) -> does m R -> does m' R.
  Proof. intros H [H1 H2]. split; intros; rewrite <- ?H in *; eauto. Qed.
  Lemma does_wrap tag m R : does m R -> does (wrap tag m) R.
  Proof.
    intros [H1 H2]. split.
    - intros h s s' Hr E. apply wrap_inv in E. eauto.
    - intros h s h' r' Hr HR. destruct (H2 h s h' r' Hr HR) as (s' & E & Q). exists s'. split; [now apply wrap_ok|exact Q].
  Qed.
  Lemma does_ret : does (ret tt) idr.
  Proof.
    split.
    - intros h s s' Hr E. apply ok_inv in E. destruct E as [<- _]. exists h. split; [split; reflexivity|]. split; [exact Hr|apply same_place_refl].
    - intros h s h' r' Hr [-> ->]. exists s. split; [reflexivity|]. split; [reflexivity|]. split; [exact Hr|apply same_place_refl].
  Qed.
  Lemma does_bind m1 m2 R1 R2 : does m1 R1 -> does m2 R2 -> does (bind m1 (fun _ => m2)) (seq R1 R2).
  Proof.
    intros [A1 A2] [B1 B2]. split.
    - intros h s s' Hr E. binv E. destruct a. destruct (A1 _ _ _ Hr E0) as (h1 & HR1 & Hr1 & P1).
      destruct (B1 _ _ _ Hr1 E) as (h2 & HR2 & Hr2 & P2). exists h2. split; [exists h1, (v_r s0); auto|].
      split; [exact Hr2|eapply same_place_trans; eauto].
    - intros h s h' r' Hr (h1 & r1 & HR1 & HR2). destruct (A2 _ _ _ _ Hr HR1) as (s1 & E1 & <- & Hr1 & P1).
      destruct (B2 _ _ _ _ Hr1 HR2) as (s2 & E2 & Er & Hr2 & P2). exists s2. split; [rewrite (bind_ok _ _ _ _ _ E1); exact E2|].
      split; [exact Er|]. split; [exact Hr2|eapply same_place_trans; eauto].
  Qed.
  Lemma does_heap m : (forall s, exists s', m s = (s', Ok tt) /\ only_heap s s') -> does m idr.
  Proof.
    intros H. split.
    - intros h s s' Hr E. destruct (H s) as (s1 & E1 & H1). rewrite E1 in E. apply ok_inv in E. destruct E as [<- _].
      exists h. split; [split; [reflexivity|apply H1]|]. split; [eapply rep_only_heap; eauto|apply H1].
    - intros h s h' r' Hr [-> ->]. destruct (H s) as (s1 & E1 & H1). exists s1. split; [exact E1|]. split; [apply H1|].
      split; [eapply rep_only_heap; eauto|apply H1].
  Qed.
  Lemma does_event m e : (forall h s, rep cf h s -> exists s', m s = (s', Ok tt) /\ v_r s' = v_r s /\ rep cf (e :: h) s' /\ same_place s s') ->
    does m (push_ev e).
  Proof.
    intros H. split.
    - intros h s s' Hr E. destruct (H h s Hr) as (s1 & E1 & H1 & H2 & H3). rewrite E1 in E. apply ok_inv in E. destruct E as [<- _].
      exists (e :: h). split; [split; auto|]. auto.
    - intros h s h' r' Hr [-> ->]. destruct (H h s Hr) as (s1 & E1 & H1). exists s1. auto.
  Qed.
  Lemma seq_id_l R h r h' r' : seq idr R h r h' r' <-> R h r h' r'.
  Proof. split; [intros (? & ? & (-> & ->) & H); exact H|]. intros H. exists h, r. split; [split; reflexivity|exact H]. Qed.
  Lemma does_heap_bind m1 m2 R : (forall s, exists s', m1 s = (s', Ok tt) /\ only_heap s s') -> does m2 R -> does (bind m1 (fun _ => m2)) R.
  Proof. intros H1 H2. eapply does_iff; [|apply does_bind; [apply does_heap; exact H1|exact H2]]. intros. apply seq_id_l. Qed.

  (** ** Lists and repetitions *)
  Definition run_of (n : anode) : hrel := fun h r h' r' => runs cf h r n h' r'.
  Lemma does_list (f : anode -> M vst unit) l : Forall (fun n => does (f n) (run_of n)) l ->
    does (mapM_ f l) (fun h r h' r' => runs_list cf h r l h' r').
  Proof.
    induction 1 as [|n l Hn Hl IH]; cbn [mapM_].
    - eapply does_iff; [|apply does_ret]. intros h r h' r'. split; [intros [-> ->]; constructor|]. intros H. inversion H; subst. split; reflexivity.
    - eapply does_iff; [|apply does_bind; eauto]. intros h r h' r'. split.
      + intros (h1 & r1 & H1 & H2). econstructor; eauto.
      + intros H. inversion H; subst. do 2 eexists. split; eauto.
  Qed.
  Lemma does_iter m l : does m (fun h r h' r' => runs_list cf h r l h' r') -> forall n,
    does (iterN n m) (fun h r h' r' => runs_times cf n h r l h' r').
  Proof.
    intros Hm. induction n as [|n IH]; cbn [iterN].
    - eapply does_iff; [|apply does_ret]. intros h r h' r'. split; [intros [-> ->]; constructor|]. intros H. inversion H; subst. split; reflexivity.
    - eapply does_iff; [|apply does_bind; eauto]. intros h r h' r'. split.
      + intros (h1 & r1 & H1 & H2). econstructor; eauto.
      + intros H. inversion H; subst. do 2 eexists. split; eauto.
  Qed.

  (** ** Nested nodes *)
  Definition pushed (k : nkind) (s : vst) : vst :=
    let t := v_tree s in
    set_tree (mkTree (t_heap t ++ [mkHnode k []]) (length (t_heap t)) (t_node t :: t_stack t)) s.
  Definition enter (k : nkind) (m : M vst unit) : M vst unit := fun s => deferM tree_Pop m (pushed k s).
  Lemma rep_pushed k h s : rep cf h s -> rep cf h (pushed k s).
  Proof. intros [R1 R2 R3]. now constructor. Qed.
  Lemma pop_ok k s s1 : same_place (pushed k s) s1 ->
    exists s2, tree_Pop s1 = (s2, Ok tt) /\ same_place s s2 /\ v_r s2 = v_r s1 /\ forall h, rep cf h s1 -> rep cf h s2.
  Proof.
    intros (H1 & H2 & H3). cbn in H1. unfold tree_Pop. rewrite H1. eexists. split; [reflexivity|]. split; [split; [|split]; [reflexivity|reflexivity|exact H3]|].
    split; [reflexivity|]. intros h [R1 R2 R3]. now constructor.
  Qed.
  Lemma pop_no_err x y e : tree_Pop x <> (y, Err e).
  Proof. unfold tree_Pop. destruct (t_stack (v_tree x)); discriminate. Qed.
  Lemma does_enter k m R : does m R -> does (enter k m) R.
  Proof.
    intros [H1 H2]. split.
    - intros h s s' Hr E. apply deferM_inv in E; [|apply pop_no_err]. destruct E as (s1 & E1 & E2).
      destruct (H1 h _ _ (rep_pushed k _ _ Hr) E1) as (h' & HR & Hr' & P). destruct (pop_ok k s s1 P) as (s2 & E3 & P2 & Hv & Hrep).
      rewrite E3 in E2. apply ok_inv in E2. destruct E2 as [<- _]. exists h'. rewrite Hv. auto.
    - intros h s h' r' Hr HR. destruct (H2 h (pushed k s) h' r' (rep_pushed k _ _ Hr) HR) as (s1 & E1 & Hv & Hr' & P).
      destruct (pop_ok k s s1 P) as (s2 & E3 & P2 & Hv2 & Hrep). exists s2. split; [eapply deferM_ok; eauto|]. rewrite Hv2. auto.
  Qed.
  (** Every run extends the history. *)
  Definition grows (h h' : history) : Prop := exists l, h' = l ++ h.
  Lemma grows_refl h : grows h h. Proof. now exists []. Qed.
  Lemma grows_trans a b c : grows a b -> grows b c -> grows a c.
  Proof. intros [l ->] [l' ->]. exists (l' ++ l). now rewrite app_assoc. Qed.
  Lemma grows_ev e h : grows h (e :: h). Proof. now exists [e]. Qed.
  Lemma grows_ev' e h h' : grows (e :: h) h' -> grows h h'.
  Proof. intros H. eapply grows_trans; [apply grows_ev|exact H]. Qed.
  Lemma grows_evr e h h' : grows h h' -> grows h (e :: h').
  Proof. intros H. eapply grows_trans; [exact H|apply grows_ev]. Qed.
  Scheme runs_mut := Induction for runs Sort Prop
    with runs_list_mut := Induction for runs_list Sort Prop
    with runs_times_mut := Induction for runs_times Sort Prop.
  Lemma runs_grows h r n h' r' : runs cf h r n h' r' -> grows h h'.
  Proof.
    intros H. induction H using runs_mut
      with (P0 := fun h _ _ h' _ _ => grows h h') (P1 := fun _ h _ _ h' _ _ => grows h h');
    eauto 6 using grows_refl, grows_ev, grows_ev', grows_evr, grows_trans.
  Qed.
  Lemma runs_list_grows h r n h' r' : runs_list cf h r n h' r' -> grows h h'.
  Proof. induction 1; eauto using grows_refl, grows_trans, runs_grows. Qed.
  Lemma grows_data h h' : grows h h' -> exists l, data h' = data h ++ l.
  Proof.
    intros [l ->]. induction l as [|e l [l' IH]]; cbn [app data]; [exists []; now rewrite app_nil_r|].
    exists (l' ++ ev_data e). now rewrite IH, app_assoc.
  Qed.
  Lemma grows_ncells h h' : grows h h' -> (ncells h <= ncells h')%nat.
  Proof. clear. intros H. destruct (grows_data _ _ H) as [l E]. unfold ncells. rewrite E, app_length. lia. Qed.
End Does.
