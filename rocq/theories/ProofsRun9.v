(** Transparency, justification of events, delayed replication. *)
From Coq Require Import ZifyBool ZifyNat.
From Verif Require Export ProofsRun8.
From Verif Require Import ProofsParser3 ProofsParser4 ProofsParser5.

(** ** Transparency *)
Section Unfold.
  Variable cf : config.
  Lemma runs_list_app a b h r h' r' : runs_list cf h r (a ++ b) h' r' <->
    exists h1 r1, runs_list cf h r a h1 r1 /\ runs_list cf h1 r1 b h' r'.
  Proof.
    revert h r. induction a as [|n a IH]; intros h r; cbn [app].
    - split; [intros H; exists h, r; split; [constructor|exact H]|]. intros (h1 & r1 & H1 & H2). inversion H1; subst. exact H2.
    - split.
      + intros H. inversion H as [|h0 r0 n0 ns0 h1 r1 h2' r2' H1 H2]; subst. apply IH in H2. destruct H2 as (h2 & r2 & K1 & K2). exists h2, r2. split; [econstructor; eauto|exact K2].
      + intros (h1 & r1 & H1 & H2). inversion H1; subst. econstructor; [eassumption|]. apply IH. eauto.
  Qed.
  Lemma runs_list_one n h r h' r' : runs_list cf h r [n] h' r' <-> runs cf h r n h' r'.
  Proof.
    split; intros H.
    - inversion H as [|h0 r0 n0 ns0 h1 r1 h2 r2 H1 H2]; subst. inversion H2; subst. exact H1.
    - econstructor; [exact H|constructor].
  Qed.
  Lemma runs_times_concat n ms h r h' r' : runs_times cf n h r ms h' r' <-> runs_list cf h r (concat (repeat ms n)) h' r'.
  Proof.
    revert h r. induction n as [|n IH]; intros h r; cbn [repeat concat].
    - split; intros H; inversion H; subst; constructor.
    - rewrite runs_list_app. split.
      + intros H. inversion H; subst. do 2 eexists. split; [eassumption|]. now apply IH.
      + intros (h1 & r1 & H1 & H2). econstructor; [exact H1|]. now apply IH.
  Qed.
  Definition same_runs (a b : list anode) : Prop := forall h r h' r', runs_list cf h r a h' r' <-> runs_list cf h r b h' r'.
  Lemma same_refl a : same_runs a a. Proof. intros h r h' r'. reflexivity. Qed.
  Lemma same_sym a b : same_runs a b -> same_runs b a. Proof. intros H h r h' r'. symmetry. apply H. Qed.
  Lemma same_app a a' b b' : same_runs a a' -> same_runs b b' -> same_runs (a ++ b) (a' ++ b').
  Proof. intros H1 H2 h r h' r'. rewrite !runs_list_app. split; intros (h1 & r1 & K1 & K2); exists h1, r1; (split; [now apply H1|now apply H2]). Qed.
  Lemma same_times n a b : same_runs a b -> same_runs (concat (repeat a n)) (concat (repeat b n)).
  Proof. intros H. induction n; cbn [repeat concat]; [apply same_refl|]. now apply same_app. Qed.
  Ltac notop := match goal with H : In _ _ |- _ => destruct H as [H|[H|[H|[H|[]]]]]; discriminate end.
  Lemma within_half k od ms ms' b b' a a' h r h' r' :
    In k [KSequence; KFixed; KAssocField; KDataNotPresent; KAssessment; KBitmap] ->
    same_runs ms ms' -> option_map (fun _ => tt) b = option_map (fun _ => tt) b' ->
    (forall x x', b = Some x -> b' = Some x' -> same_runs [x] [x']) -> same_runs a a' ->
    runs cf h r (ANode k od ms b a) h' r' -> runs cf h r (ANode k od ms' b' a') h' r'.
  Proof.
    intros Hk Hms Hbb Hb Ha H. repeat (destruct Hk as [<-|Hk]); [..|destruct Hk]; inversion H; subst; try notop.
    - constructor. now apply Hms.
    - constructor. apply runs_times_concat. apply (same_times _ _ _ Hms). now apply runs_times_concat.
    - constructor; [assumption|]. now apply Hms.
    - constructor. now apply Hms.
    - destruct b' as [bm'|]; [|discriminate Hbb].
      econstructor; [eassumption| | | | |eassumption].
      + apply runs_list_one. apply (Hb _ _ eq_refl eq_refl). apply runs_list_one. eassumption.
      + apply Ha. eassumption.
      + eassumption.
      + apply Hms. eassumption.
    - constructor; assumption.
    - econstructor; [assumption|eassumption| |assumption]. now apply Hms.
  Qed.
  Lemma unfolds_same a b : unfolds a b -> same_runs a b.
  Proof.
    induction 1 as [od ms b a|d ms b a|l|a a' b b' H1 IH1 H2 IH2|k od ms ms' b b' a a' Hk H1 IH1 Hbb Hb IHb H2 IH2|od m m' ms ms' b a H1 IH1 H2 IH2|a b H IH|a b c H1 IH1 H2 IH2].
    - intros h r h' r'. rewrite runs_list_one. split; intros H; [inversion H; subst; try notop; assumption|now constructor].
    - intros h r h' r'. rewrite runs_list_one, <- runs_times_concat. split; intros H; [inversion H; subst; try notop; assumption|now constructor].
    - apply same_refl.
    - now apply same_app.
    - intros h r h' r'. rewrite !runs_list_one. split; apply within_half; auto.
      + now apply same_sym.
      + intros x x' -> ->. apply same_sym. now apply IHb.
      + now apply same_sym.
    - intros h r h' r'. rewrite !runs_list_one. split; intros H; inversion H; subst; try notop; (econstructor; [|eassumption|]).
      + apply runs_list_one, IH1, runs_list_one. eassumption.
      + apply runs_times_concat. apply (same_times _ _ _ IH2). now apply runs_times_concat.
      + apply runs_list_one, IH1, runs_list_one. eassumption.
      + apply runs_times_concat. apply (same_times _ _ _ IH2). now apply runs_times_concat.
    - now apply same_sym.
    - intros h r h' r'. rewrite (IH1 _ _ _ _). apply IH2.
  Qed.
  Lemma same_subsets a b n r hs r' : same_runs a b -> subsets_run cf a n r hs r' -> subsets_run cf b n r hs r'.
  Proof. intros HS. induction 1; econstructor; eauto. now apply HS. Qed.
  Lemma same_executes a b r hs r' : same_runs a b -> executes cf a r hs r' -> executes cf b r hs r'.
  Proof.
    intros HS. unfold executes. destruct (columns cf).
    - intros (h & -> & H). exists h. split; [reflexivity|]. now apply HS.
    - now apply same_subsets.
  Qed.
End Unfold.
Lemma lane_views k ds l l' : lane_ok k ds l -> lane_ok k ds l' -> map view l = map view l'.
Proof.
  intros [L1 H1] [L2 H2]. apply nth_ext with (d := view (mkCell (mkVnode 0 (mkDesc 0 (ED []) false) (plain_info NUMERIC 0) 0 VNil 0) VNil))
    (d' := view (mkCell (mkVnode 0 (mkDesc 0 (ED []) false) (plain_info NUMERIC 0) 0 VNil 0) VNil)); [rewrite !map_length; congruence|].
  intros i Hi. rewrite map_length in Hi. rewrite !map_nth.
  destruct (nth_error l i) as [c|] eqn:E1; [|apply nth_error_None in E1; lia].
  destruct (nth_error l' i) as [c'|] eqn:E2; [|apply nth_error_None in E2; lia].
  destruct (nth_error ds i) as [d|] eqn:E3; [|apply nth_error_None in E3; lia].
  rewrite (nth_error_nth _ _ _ E1), (nth_error_nth _ _ _ E2). specialize (H1 _ _ _ E3 E1). specialize (H2 _ _ _ E3 E2).
  destruct H1 as (A1 & A2 & A3 & A4 & A5 & A6), H2 as (B1 & B2 & B3 & B4 & B5 & B6). unfold view. congruence.
Qed.
Lemma shows_views cf hs p p' : shows cf hs p -> shows cf hs p' -> views p = views p'.
Proof.
  unfold shows, views. destruct (columns cf).
  - intros (h & -> & L1 & H1) (h' & E & L2 & H2). injection E as <-.
    assert (L : length p = length p') by congruence. clear L1 L2.
    assert (K : forall k, (forall i sb, nth_error p i = Some sb -> lane_ok (k + i) (data h) (sb_cells sb)) ->
                (forall i sb, nth_error p' i = Some sb -> lane_ok (k + i) (data h) (sb_cells sb)) ->
                map (fun sb => map view (sb_cells sb)) p = map (fun sb => map view (sb_cells sb)) p'); [|now apply (K 0%nat)].
    clear H1 H2. revert p' L. induction p as [|sb p IH]; intros [|sb' p'] L k H1 H2; try discriminate L; [reflexivity|]. cbn [map]. f_equal.
    + eapply lane_views; [apply (H1 0%nat); reflexivity|apply (H2 0%nat); reflexivity].
    + apply (IH p') with (k := S k); [now injection L| |].
      * intros i sb0 E. replace (S k + i)%nat with (k + S i)%nat by lia. now apply H1.
      * intros i sb0 E. replace (S k + i)%nat with (k + S i)%nat by lia. now apply H2.
  - intros H1. revert p'. induction H1 as [|h sb hs p H1 H2 IH]; intros p' H; inversion H; subst; [reflexivity|]. cbn [map]. f_equal; [|now apply IH].
    eapply lane_views; eauto.
Qed.
Lemma no_base_rootless ms : Forall no_base ms <-> rootless ms.
Proof. reflexivity. Qed.
Theorem unfold_payload cf a b r s : rootless a -> rootless b -> unfolds a b -> some_subset cf ->
  run_payload cf (root a) (vst0 r) = (s, Ok tt) ->
  exists s', run_payload cf (root b) (vst0 r) = (s', Ok tt) /\ v_r s' = v_r s /\ views (v_pay s') = views (v_pay s).
Proof.
  intros Ha Hb HU Hs H. destruct (run_payload_sound cf a r s Ha Hs H) as (hs & HX & HS).
  apply (same_executes cf a b) in HX; [|now apply unfolds_same].
  destruct (run_payload_complete cf b r hs _ Hb Hs HX) as (s' & E & Er & HS'). exists s'. split; [exact E|]. split; [exact Er|]. eapply shows_views; eauto.
Qed.

(** ** Justification *)
Section Justify.
  Variable cf : config.
  Lemma justified_nil : justified cf [].
  Proof. intros [|x l] e b H; discriminate. Qed.
  Lemma justified_cons e h : justified cf h -> event_ok cf h e -> justified cf (e :: h).
  Proof. intros H1 H2 [|x l] e' b E; cbn in E; injection E as -> ->; [exact H2|]. eapply H1. reflexivity. Qed.
  Lemma decodes_desc d info r x r' : decodes cf d info r x r' -> dt_desc x = d /\ dt_info x = info.
  Proof. intros H. inversion H; subst; split; reflexivity. Qed.
  Lemma fields_descs d ws r fs r' : fields cf d ws r fs r' ->
    map dt_info fs = map (plain_info NONNEG_CODE) ws /\ Forall (fun f => dt_desc f = DecorateDescriptor d) fs.
  Proof.
    induction 1 as [r|w ws r x r1 xs r' HD HF [IH1 IH2]]; [split; constructor|]. apply decodes_desc in HD. destruct HD as [D1 D2].
    cbn [map]. rewrite D2, IH1. split; [reflexivity|]. constructor; assumption.
  Qed.
  Lemma zero_justified od r z r' h : zero_cell cf od r z r' -> event_ok cf h (EvZero z).
  Proof.
    intros H. inversion H; subst; try exact I. cbn. match goal with HD : decodes _ _ _ _ _ _ |- _ => apply decodes_desc in HD as [_ HD] end. auto.
  Qed.
  Lemma runs_justified h r n h' r' : runs cf h r n h' r' -> justified cf h -> justified cf h'.
  Proof.
    intros H. induction H using runs_mut
      with (P0 := fun h _ _ h' _ _ => justified cf h -> justified cf h') (P1 := fun _ h _ _ h' _ _ => justified cf h -> justified cf h');
    intros HJ; auto; try (apply justified_cons; [solve [auto]|exact I]).
    - apply justified_cons; [exact HJ|]. destruct (decodes_desc _ _ _ _ _ d0) as [D1 D2]. destruct (fields_descs _ _ _ _ _ f) as [F1 F2]. cbn [event_ok].
      rewrite D1. split; [eauto|]. split; [exact F1|exact F2].
    - apply justified_cons; [exact HJ|]. destruct (decodes_desc _ _ _ _ _ d0) as [D1 D2]. cbn [event_ok]. rewrite D1. eauto.
    - apply IHruns. apply justified_cons; [auto|exact I].
    - apply justified_cons; [exact HJ|]. match goal with HD : decodes _ _ _ _ _ _ |- _ => destruct (decodes_desc _ _ _ _ _ HD) as [D1 D2] end.
      cbn [event_ok]. now rewrite D1.
    - apply justified_cons; [exact HJ|]. match goal with HD : decodes _ _ _ _ _ _ |- _ => destruct (decodes_desc _ _ _ _ _ HD) as [D1 D2] end.
      cbn [event_ok]. eauto.
    - apply IHruns. apply justified_cons; [auto|exact I].
    - apply IHruns1, justified_cons; [|assumption]. apply IHruns0, IHruns. apply justified_cons; [apply justified_cons; [exact HJ|exact I]|].
      eapply zero_justified; eassumption.
    - apply justified_cons; [exact HJ|]. match goal with HD : decodes _ _ _ _ _ _ |- _ => destruct (decodes_desc _ _ _ _ _ HD) as [D1 D2] end.
      cbn [event_ok]. do 4 eexists. split; [eassumption|]. split; [eassumption|]. split; [eassumption|exact D2].
    - apply justified_cons; [|exact I]. apply justified_cons; [exact HJ|]. eapply zero_justified; eassumption.
    - apply justified_cons; [|exact I]. apply IHruns, justified_cons; [|exact I]. apply justified_cons; [exact HJ|]. eapply zero_justified; eassumption.
  Qed.
  Lemma runs_list_justified h r ns h' r' : runs_list cf h r ns h' r' -> justified cf h -> justified cf h'.
  Proof. induction 1; eauto using runs_justified. Qed.
  Lemma executes_justified ms r hs r' : executes cf ms r hs r' -> Forall (justified cf) hs.
  Proof.
    unfold executes. destruct (columns cf).
    - intros (h & -> & H). constructor; [|constructor]. eapply runs_list_justified; [exact H|apply justified_nil].
    - induction 1; constructor; auto. eapply runs_list_justified; [eassumption|apply justified_nil].
  Qed.
End Justify.
