(** A run depends only on the bits it consumes. *)
From Coq Require Import ZifyBool ZifyNat.
From Verif Require Export ProofsSafe.
From Verif Require Import ProofsBase ProofsRun4 ProofsRun6 ProofsRun7.

Section Moves.
  Variable cf : config.
  Hypothesis Hj : cf_json cf = false.
  (** [R] relates readers: what it does on the bits [seg] it does whatever follows. *)
  Definition moves (R : reader -> reader -> Prop) (r r' : reader) (l : list bool) : Prop :=
    exists seg rest, l = seg ++ rest /\ binary_reader r' rest /\
      forall rest' e q, exists q', R (RBit (mkBR (seg ++ rest') e q)) (RBit (mkBR rest' e q')).
  Lemma moves_same (R : reader -> reader -> Prop) r l : binary_reader r l -> (forall r, R r r) -> moves R r r l.
  Proof. intros H K. exists [], l. split; [reflexivity|]. split; [exact H|]. intros. exists q. apply K. Qed.
  Lemma moves_step (R1 R2 R : reader -> reader -> Prop) r r1 r2 l : moves R1 r r1 l -> (forall l1, binary_reader r1 l1 -> moves R2 r1 r2 l1) ->
    (forall a b c, R1 a b -> R2 b c -> R a c) -> moves R r r2 l.
  Proof.
    intros (s1 & l1 & -> & B1 & K1) H2 HR. destruct (H2 l1 B1) as (s2 & l2 & -> & B2 & K2).
    exists (s1 ++ s2), l2. split; [now rewrite app_assoc|]. split; [exact B2|]. intros rest' e q. destruct (K1 (s2 ++ rest') e q) as (q1 & E1).
    destruct (K2 rest' e q1) as (q2 & E2). exists q2. rewrite <- app_assoc. eauto.
  Qed.
  Lemma moves_impl (R R' : reader -> reader -> Prop) r r' l : (forall a b, R a b -> R' a b) -> moves R r r' l -> moves R' r r' l.
  Proof.
    intros H (s & rest & E & B & K). exists s, rest. split; [exact E|]. split; [exact B|]. intros rest' e q. destruct (K rest' e q) as (q' & K'). exists q'. auto.
  Qed.
  Lemma moves_decodes d info r x r' l : decodes cf d info r x r' -> binary_reader r l -> no_nil_binary x ->
    moves (fun a b => decodes cf d info a x b) r r' l.
  Proof.
    intros HD (e & p & ->) Hx. inversion HD as [v r0 _ Hc E|v r0 Hj' E|c r0 _ Hc E]; subst; [|congruence|].
    - destruct (unpack_local _ _ _ _ _ _ _ E) as (seg & rest & p' & -> & -> & K). { intros ->. now apply Hx. }
      exists seg, rest. split; [reflexivity|]. split; [do 2 eexists; reflexivity|]. intros rest' e' q. destruct (K rest' e' q) as (q' & E').
      exists q'. now constructor.
    - destruct (compressed_local _ _ _ _ _ _ _ _ _ E) as (seg & rest & p' & -> & -> & K).
      exists seg, rest. split; [reflexivity|]. split; [do 2 eexists; reflexivity|]. intros rest' e' q. destruct (K rest' e' q) as (q' & E').
      exists q'. now constructor.
  Qed.
  Lemma moves_fields d ws r fs r' : fields cf d ws r fs r' -> forall l, binary_reader r l -> Forall no_nil_binary fs ->
    moves (fun a b => fields cf d ws a fs b) r r' l.
  Proof.
    induction 1 as [r|w ws r x r1 xs r' HD HF IH]; intros l Hl HN; [apply moves_same; [exact Hl|]; intros; constructor|]. inversion HN; subst.
    eapply moves_step; [eapply moves_decodes; eauto|intros l1 Hl1; apply IH; eauto|]. intros a b c. cbv beta. apply fields_cons.
  Qed.
  Lemma moves_zero od r z r' l : zero_cell cf od r z r' -> binary_reader r l -> (forall x, z = Some x -> no_nil_binary x) ->
    moves (fun a b => zero_cell cf od a z b) r r' l.
  Proof.
    intros HZ Hl HN. inversion HZ as [Hc|d x r0 Hc Hd HD|d r0 Hc Hd [e HU]]; subst.
    - apply moves_same; [exact Hl|]. intros. now constructor.
    - eapply moves_impl; [|eapply moves_decodes; eauto]. intros a b K. cbv beta in *. econstructor; eauto.
    - exfalso. rewrite Hj in HU. destruct (cf_compressed cf); [|discriminate HU].
      unfold compressed_Unpack, make_values in HU. cbn in HU. destruct (cf_nsubsets cf <? 0); discriminate HU.
  Qed.
  Definition movable (h h' : history) (R : reader -> reader -> Prop) (r r' : reader) : Prop :=
    forall l, binary_reader r l -> Forall no_nil_binary (data h') -> moves R r r' l.
  Lemma nil_one h x e : ev_data e = [x] -> Forall no_nil_binary (data (e :: h)) -> no_nil_binary x.
  Proof. intros E H. cbn [data] in H. rewrite E in H. apply Forall_app in H. destruct H as [_ H]. now inversion H. Qed.
  Lemma nil_zero h z : Forall no_nil_binary (data (EvZero z :: h)) -> forall x, z = Some x -> no_nil_binary x.
  Proof. intros H x ->. exact (nil_one h x (EvZero (Some x)) eq_refl H). Qed.
  Lemma times_grows n h r ms h' r' : runs_times cf n h r ms h' r' -> grows h h'.
  Proof. induction 1; eauto using grows_refl, grows_trans, runs_list_grows. Qed.
  Lemma runs_movable h r n h' r' : runs cf h r n h' r' -> movable h h' (fun a b => runs cf h a n h' b) r r'.
  Proof.
    intros H. induction H using runs_mut
      with (P0 := fun h r ns h' r' _ => movable h h' (fun a b => runs_list cf h a ns h' b) r r')
           (P1 := fun k h r ns h' r' _ => movable h h' (fun a b => runs_times cf k h a ns h' b) r r'); intros bs Hl HF.
    - apply moves_same; [exact Hl|]. intros; constructor.
    - cbn [data ev_data] in *. apply Forall_app in HF. destruct HF as [_ HF]. apply Forall_app in HF. destruct HF as [HF1 HF2]. inversion HF2; subst.
      eapply moves_step; [eapply moves_fields; eauto|intros; eapply moves_decodes; eauto|]. cbv beta. intros a0 b0 c0 K1 K2. eapply run_element; eauto.
    - eapply moves_impl; [|eapply moves_decodes; eauto; eapply nil_one; [|exact HF]; reflexivity]. cbv beta. intros. econstructor; eauto.
    - eapply moves_impl; [|apply IHruns; eauto]. cbv beta. intros. econstructor; eauto.
    - eapply moves_impl; [|apply IHruns; eauto]. cbv beta. intros. econstructor; eauto.
    - eapply moves_step; [apply IHruns; eauto; eapply grows_Forall; [eapply times_grows; eauto|exact HF]|intros; apply IHruns0; eauto|]. cbv beta. intros. econstructor; eauto.
    - apply moves_same; [exact Hl|]. intros; econstructor; eauto.
    - apply moves_same; [exact Hl|]. intros; apply run_refval; auto.
    - eapply moves_impl; [|apply IHruns; eauto]. cbv beta. intros. econstructor; eauto.
    - eapply moves_impl; [|eapply moves_decodes; eauto; eapply nil_one; [|exact HF]; reflexivity]. cbv beta. intros. econstructor; eauto.
    - eapply moves_impl; [|eapply moves_decodes; eauto; eapply nil_one; [|exact HF]; reflexivity]. cbv beta. intros. econstructor; eauto.
    - eapply moves_impl; [|apply IHruns; eauto]. cbv beta. intros. econstructor; eauto.
    - assert (G2 := runs_grows _ _ _ _ _ _ H). 
      match goal with A : runs_list _ h2 _ _ h3 _, B : runs_list _ (EvTargets ps :: h3) _ _ h4 _ |- _ =>
        pose proof (runs_list_grows _ _ _ _ _ _ A) as G3; pose proof (runs_list_grows _ _ _ _ _ _ B) as G4 end.
      apply grows_ev' in G4. assert (F3 := grows_Forall _ _ G4 HF). assert (F2 := grows_Forall _ _ G3 F3). assert (F1 := grows_Forall _ _ G2 F2).
      eapply moves_step with (R1 := fun a b => zero_cell cf od a z b)
        (R2 := fun a b => exists c d, runs cf (EvZero z :: EvAssess od :: h) a bm h2 c /\ runs_list cf h2 c at_ h3 d /\ runs_list cf (EvTargets ps :: h3) d ms h4 b);
        [eapply moves_zero; eauto; eapply nil_zero; exact F1| |].
      + intros l1 Hl1. eapply moves_step with (R2 := fun a b => exists d, runs_list cf h2 a at_ h3 d /\ runs_list cf (EvTargets ps :: h3) d ms h4 b); [apply IHruns; eauto| |].
        * intros l2 Hl2. eapply moves_step; [apply IHruns0; eauto|intros l3 Hl3; apply IHruns1; eauto|]. cbv beta. eauto.
        * cbv beta. intros a b c K1 (d & K2 & K3). eauto.
      + cbv beta. intros a b c K1 (d1 & d2 & K2 & K3 & K4). econstructor; eauto.
    - eapply moves_impl; [|eapply moves_decodes; eauto; eapply nil_one; [|exact HF]; reflexivity]. cbv beta. intros. econstructor; eauto.
    - apply moves_same; [exact Hl|]. intros; constructor.
    - apply moves_same; [exact Hl|]. intros; constructor.
    - eapply moves_impl; [|eapply moves_zero; eauto; eapply nil_zero; rewrite data_same in HF by reflexivity; exact HF]. cbv beta. intros. econstructor; eauto.
    - match goal with A : runs_list _ (EvDefine :: _) _ _ _ _ |- _ => pose proof (runs_list_grows _ _ _ _ _ _ A) as G2 end.
      rewrite data_same in HF by reflexivity. apply grows_ev' in G2. assert (F1 := grows_Forall _ _ G2 HF).
      eapply moves_step; [eapply moves_zero; eauto; eapply nil_zero; exact F1|intros; apply IHruns; eauto|]. cbv beta. intros. eapply run_define; eauto.
    - apply moves_same; [exact Hl|]. intros; constructor.
    - eapply moves_step; [apply IHruns; eauto; eapply grows_Forall; [eapply runs_list_grows; eauto|exact HF]|intros; apply IHruns0; eauto|]. cbv beta. intros. econstructor; eauto.
    - apply moves_same; [exact Hl|]. intros; constructor.
    - eapply moves_step; [apply IHruns; eauto; eapply grows_Forall; [eapply times_grows; eauto|exact HF]|intros; apply IHruns0; eauto|]. cbv beta. intros. econstructor; eauto.
  Qed.
  Lemma list_movable h r ns h' r' : runs_list cf h r ns h' r' -> movable h h' (fun a b => runs_list cf h a ns h' b) r r'.
  Proof.
    induction 1 as [h r|h r n ns h1 r1 h2 r2 H1 H2 IH]; intros l Hl HF; [apply moves_same; [exact Hl|]; intros; constructor|].
    eapply moves_step; [eapply runs_movable; eauto; eapply grows_Forall; [eapply runs_list_grows; eauto|exact HF]|intros; apply IH; eauto|]. cbv beta. intros. econstructor; eauto.
  Qed.
  Lemma subsets_movable ms n r hs r' : subsets_run cf ms n r hs r' -> forall l, binary_reader r l -> Forall (fun h => Forall no_nil_binary (data h)) hs ->
    moves (fun a b => subsets_run cf ms n a hs b) r r' l.
  Proof.
    induction 1 as [r|n r h r1 hs r2 HR HS IH]; intros l Hl HF; [apply moves_same; [exact Hl|]; intros; constructor|]. inversion HF; subst.
    eapply moves_step; [eapply list_movable; eauto|intros; apply IH; eauto|]. cbv beta. intros. econstructor; eauto.
  Qed.
  Lemma executes_movable ms r hs r' l : executes cf ms r hs r' -> binary_reader r l -> Forall (fun h => Forall no_nil_binary (data h)) hs ->
    moves (fun a b => executes cf ms a hs b) r r' l.
  Proof.
    unfold executes. destruct (columns cf).
    - intros (h & -> & H) Hl HF. inversion HF; subst. eapply moves_impl; [|eapply list_movable; eauto]. cbv beta. eauto.
    - intros. now apply subsets_movable.
  Qed.
  Lemma shows_no_nil hs pay : some_subset cf -> shows cf hs pay -> clean pay -> Forall (fun h => Forall no_nil_binary (data h)) hs.
  Proof.
    intros Hs HH Hc. assert (L : forall ds sb, In sb pay -> lane_ok 0 ds (sb_cells sb) -> Forall no_nil_binary ds).
    { intros ds sb Hi [Hl Hk]. unfold clean in Hc. rewrite Forall_forall in Hc. specialize (Hc _ Hi). apply Forall_forall. intros x Hx. apply In_nth_error in Hx. destruct Hx as [i Hx].
      assert (HL : (i < length (sb_cells sb))%nat) by (rewrite Hl; apply nth_error_Some; congruence). apply nth_error_Some in HL. destruct (nth_error (sb_cells sb) i) as [c|] eqn:E; [|congruence].
      destruct (Hk i x c Hx E) as (_ & _ & _ & _ & _ & Hv). unfold no_nil_binary. destruct (dt_vals x) as [|v vs]; [discriminate|]. cbn in *. injection Hv as ->.
      rewrite Forall_forall in Hc. intros [= K]. exact (Hc c (nth_error_In _ _ E) K). }
    unfold shows, some_subset in *. destruct (columns cf).
    - destruct HH as (h & -> & Hlen & HK). specialize (Hs eq_refl). destruct pay as [|sb pay]; [cbn in Hlen; lia|]. constructor; [|constructor].
      apply (L _ sb); [now left|]. now apply (HK 0%nat).
    - clear Hc Hs. induction HH as [|h sb hs pay H _ IH]; constructor; [apply (L _ sb); [now left|exact H]|]. apply IH. intros ds sb' Hi. apply L. now right.
  Qed.
  (** Nothing is decoded from less than what was consumed. *)
  Lemma prefix_fails ms l more rest e e' p p' s s' : Forall no_base ms -> some_subset cf -> more <> [] ->
    run_payload cf (root ms) (vst0 (RBit (mkBR (l ++ more ++ rest) e p))) = (s, Ok tt) -> binary_reader (v_r s) rest ->
    run_payload cf (root ms) (vst0 (RBit (mkBR l e' p'))) = (s', Ok tt) -> ~ clean (v_pay s').
  Proof.
    intros Hb Hs Hm H1 H2 H3 Hc. destruct (run_payload_sound cf ms _ s' Hb Hs H3) as (hs & HX & HH).
    destruct (executes_movable ms _ hs _ l HX) as (seg & rest0 & -> & B & K); [do 2 eexists; reflexivity|eapply shows_no_nil; eauto|].
    destruct (K (rest0 ++ more ++ rest) e p) as (q' & HX'). destruct (run_payload_complete cf ms _ hs _ Hb Hs HX') as (s2 & E & Er & _).
    rewrite <- app_assoc in H1. rewrite H1 in E. injection E as <-. destruct H2 as (e2 & p2 & H2). rewrite H2 in Er. injection Er as Er _ _.
    assert (L : length rest = length (rest0 ++ more ++ rest)) by now rewrite <- Er. rewrite !app_length in L. destruct more; [congruence|]. cbn in L. lia.
  Qed.
End Moves.
