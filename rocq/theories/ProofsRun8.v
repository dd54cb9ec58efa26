(** State invariants of the visitor; subset counts, independence, the node tree. *)
From Coq Require Import ZifyBool ZifyNat.
From Verif Require Export ProofsRun7.
From Verif Require Import ProofsParser3 ProofsParser4 ProofsParser5.

(** ** Invariants kept by every visit *)
Section Keeps.
  Variable cf : config.
  Variable I : vst -> Prop.
  Variable allowed : akind -> Prop.
  Definition keeps {A} (m : M vst A) : Prop := forall s, I s -> I (fst (m s)).
  Definition nested_kind (k : akind) : bool := match k with KSequence | KFixed | KDelayed => true | _ => false end.
  Hypothesis Hr : forall s r, I s -> I (set_r r s).
  Hypothesis Hg : forall s g, I s -> I (set_regs g s).
  Hypothesis Hb : forall s b, I s -> I (set_bm b s).
  Hypothesis Hmember : forall i m, keeps (AddMember i m).
  Hypothesis Halloc : forall k, keeps (alloc k).
  Hypothesis Hvalued : forall d info u, keeps (add_valued d info u).
  Hypothesis Hpush : forall k i, allowed k -> nested_kind k = true -> keeps (tree_Push i).
  Hypothesis Hpop : forall k, allowed k -> nested_kind k = true -> keeps tree_Pop.
  Hypothesis Hreset : allowed KBase -> keeps (reset cf).

  Lemma ke_pure {A} (m : M vst A) : (forall s, fst (m s) = s) -> keeps m.
  Proof. intros H s Hs. now rewrite H. Qed.
  Lemma ke_bind {A B} (m : M vst A) (f : A -> M vst B) : keeps m -> (forall a, keeps (f a)) -> keeps (bind m f).
  Proof. intros H1 H2 s Hs. unfold bind. specialize (H1 s Hs). destruct (m s) as [s1 [a|e|q|]]; cbn [fst] in *; auto. now apply H2. Qed.
  Lemma ke_wrap {A} tag (m : M vst A) : keeps m -> keeps (wrap tag m).
  Proof. intros H s Hs. unfold wrap. specialize (H s Hs). destruct (m s) as [s1 [a|e|q|]]; exact H. Qed.
  Lemma ke_deferM {A} f (m : M vst A) : keeps f -> keeps m -> keeps (deferM f m).
  Proof.
    intros H1 H2 s Hs. unfold deferM. specialize (H2 s Hs). destruct (m s) as [s1 r]. cbn [fst] in *. specialize (H1 s1 H2).
    destruct (f s1) as [s2 [a|e|q|]]; exact H1.
  Qed.
  Lemma ke_mapM_ {A B} (f : A -> M vst B) l : Forall (fun a => keeps (f a)) l -> keeps (mapM_ f l).
  Proof. induction 1; cbn [mapM_]; [now apply ke_pure|apply ke_bind; auto]. Qed.
  Lemma ke_mapM_all {A B} (f : A -> M vst B) l : (forall a, keeps (f a)) -> keeps (mapM_ f l).
  Proof. intros H. apply ke_mapM_. induction l; auto. Qed.
  Lemma ke_mapM {A B} (f : A -> M vst B) l : (forall a, keeps (f a)) -> keeps (mapM f l).
  Proof. intros H. induction l; cbn [mapM]; [now apply ke_pure|]. apply ke_bind; [apply H|]. intros b. apply ke_bind; [exact IHl|]. intros; now apply ke_pure. Qed.
  Lemma ke_iterN n m : keeps m -> keeps (iterN n m).
  Proof. intros H. induction n; cbn [iterN]; [now apply ke_pure|apply ke_bind; auto]. Qed.
  Lemma ke_iter z m : keeps m -> keeps (iter_Z z m).
  Proof. intros H s Hs. rewrite iter_Z_nat. now apply ke_iterN. Qed.
  Lemma ke_if {A} (b : bool) (m m' : M vst A) : keeps m -> keeps m' -> keeps (if b then m else m').
  Proof. destruct b; auto. Qed.
  Lemma ke_attach : forall sn i ts an, keeps (attach i ts sn an).
  Proof.
    induction sn as [|x sn IH]; intros i ts an; cbn [attach]; [now apply ke_pure|]. apply ke_bind; [now apply ke_pure|]. intros t.
    apply ke_bind; [apply Hmember|]. intros _. apply ke_bind; [apply ke_mapM_all; intros a; apply Hmember|]. intros _. apply IH.
  Qed.
  Lemma ke_regs f : keeps (upd_regs f). Proof. intros s Hs. now apply Hg. Qed.
  Lemma ke_add i : keeps (tree_Add i). Proof. apply ke_bind; [now apply ke_pure|]. intros; apply Hmember. Qed.
  Lemma ke_valueless d : keeps (add_valueless d). Proof. apply ke_bind; [apply Halloc|]. intros; apply ke_add. Qed.
  Lemma ke_Unpack info : keeps (Unpack cf info).
  Proof. intros s Hs. unfold Unpack, zoom. destruct (_ (v_r s)) as [r' x]. now apply Hr. Qed.
  Lemma ke_build d info : keeps (buildValuedNodeWithInfo cf d info).
  Proof. apply ke_bind; [apply ke_wrap, ke_Unpack|]. intros; apply Hvalued. Qed.
  Lemma ke_calc d : keeps (calcPackingInfo d).
  Proof.
    unfold calcPackingInfo. destruct (d_entry d) as [b| | |]; try now apply ke_pure. apply ke_bind; [now apply ke_pure|]. intros g.
    destruct (be_unit b); try now apply ke_pure. cbv zeta. apply ke_bind; [|intros; now apply ke_pure].
    destruct (match g_newRefvals g with Some m => assoc_get m (d_id d) | None => None end); [|now apply ke_pure].
    apply ke_bind; [now apply ke_pure|]. intros eq. apply ke_if; [now apply ke_pure|]. apply ke_bind; [now apply ke_pure|]. intros c.
    apply ke_bind; [apply ke_wrap; now apply ke_pure|]. intros; now apply ke_pure.
  Qed.
  Lemma ke_buildValued d : keeps (buildValuedNode cf d).
  Proof. apply ke_bind; [apply ke_wrap, ke_calc|]. intros; apply ke_build. Qed.
  Lemma ke_need od : keeps (need od). Proof. apply ke_pure. now destruct od. Qed.
  Lemma ke_zero od : keeps (buildZeroNode cf od).
  Proof.
    intros s Hs. unfold buildZeroNode. destruct (cf_compatible cf); [|now apply ke_valueless].
    pose proof (ke_bind _ (fun dd => buildValuedNodeWithInfo cf dd (plain_info NONNEG_CODE 0)) (ke_need od) (fun dd => ke_build dd _) s Hs) as E.
    destruct (bind _ _ s) as [s1 [a|e|q|]]; exact E.
  Qed.
  Lemma ke_assoc d : keeps (buildAssocNodes cf d).
  Proof.
    apply ke_bind; [now apply ke_pure|]. intros g. apply ke_if; [now apply ke_pure|]. apply ke_mapM. intros a.
    apply ke_bind; [apply ke_wrap, ke_build|]. intros n. apply ke_bind; [apply Hmember|]. intros; now apply ke_pure.
  Qed.
  Lemma ke_element np od : keeps (visit_element cf np od).
  Proof.
    apply ke_if; [apply ke_valueless|]. apply ke_bind; [apply ke_need|]. intros d. apply ke_bind; [apply ke_wrap, ke_assoc|]. intros l.
    apply ke_bind; [apply ke_wrap, ke_buildValued|]. intros e. apply ke_mapM_all. intros; apply Hmember.
  Qed.
  Lemma ke_aPop : keeps assoc_Pop.
  Proof. intros s Hs. unfold assoc_Pop. destruct (g_assoc (v_regs s)); [exact Hs|now apply Hg]. Qed.
  Lemma ke_bm f : keeps (modify (fun s => set_bm (f s) s)). Proof. intros s Hs. now apply Hb. Qed.
  Lemma ke_bm1 b : keeps (modify (set_bm b)). Proof. intros s Hs. now apply Hb. Qed.
  Lemma ke_NewAssessment : keeps NewAssessment.
  Proof. apply ke_bind; [now apply ke_pure|]. intros b. apply ke_if; [|now apply ke_pure]. apply ke_bind; [now apply ke_pure|]. intros; apply ke_bm1. Qed.
  Lemma ke_NewBitmap r : keeps (NewBitmap r).
  Proof. apply ke_bind; [now apply ke_pure|]. intros b. apply ke_bind; [now apply ke_pure|]. intros; apply ke_bm1. Qed.
  Lemma ke_End : keeps EndBitmap.
  Proof. apply ke_bind; [now apply ke_pure|]. intros b. destruct (m_current b); [|now apply ke_pure]. apply ke_bind; [now apply ke_pure|]. intros; apply ke_bm1. Qed.
  Lemma ke_Next : keeps NextTargetNode.
  Proof. intros s Hs. unfold NextTargetNode. destruct (m_targets (v_bm s)); [exact Hs|now apply Hb]. Qed.
  Lemma ke_Init : keeps (InitTargetNodes (cf_plat cf)).
  Proof.
    apply ke_bind.
    - apply ke_bind; [now apply ke_pure|]. intros b. apply ke_bind; [now apply ke_pure|]. intros c. destruct (m_current b); [|now apply ke_pure].
      destruct (nth_error (m_bitmaps b) n) as [[i0 i1]|]; [|now apply ke_pure]. apply ke_if; now apply ke_pure.
    - intros bits. apply ke_bind; [now apply ke_pure|]. intros b. apply ke_bind; [now apply ke_pure|]. intros c. apply ke_bind; [now apply ke_pure|]. intros l.
      apply ke_if; [now apply ke_pure|]. cbv zeta. apply ke_bind; [apply ke_bm1|]. intros; now apply ke_pure.
  Qed.
  Lemma ke_since a0 : keeps (nodes_since a0).
  Proof. apply ke_bind; [now apply ke_pure|]. intros a1. apply ke_if; [now apply ke_pure|]. apply ke_bind; [now apply ke_pure|]. intros; now apply ke_pure. Qed.
  Lemma ke_marker od : keeps (visit_marker cf od).
  Proof.
    apply ke_bind; [apply ke_Next|]. intros t. apply ke_bind; [apply ke_calc|]. intros i. cbv zeta.
    apply ke_bind; [apply ke_need|]. intros d. apply ke_bind; [apply ke_build|]. intros; now apply ke_pure.
  Qed.
  Lemma ke_refval info m : keeps (visit_refval_member cf info m).
  Proof.
    apply ke_bind; [apply ke_need|]. intros d. apply ke_bind; [apply ke_wrap, ke_build|]. intros n. apply ke_bind; [now apply ke_pure|]. intros g.
    destruct (g_newRefvals g); [apply ke_regs|now apply ke_pure].
  Qed.
  Lemma all_nodes_Forall P l : fold_right (fun m Q => all_nodes P m /\ Q) True l -> Forall (all_nodes P) l.
  Proof. induction l; cbn; [constructor|]. intros [H1 H2]. constructor; auto. Qed.
  Ltac ke := repeat first
    [ assumption | apply ke_buildValued | apply ke_build | apply ke_zero | apply ke_Init | apply ke_since
    | apply ke_NewAssessment | apply ke_NewBitmap | apply ke_End | apply ke_Next | apply ke_calc | apply ke_marker | apply ke_attach
    | apply ke_element | apply ke_aPop | apply ke_valueless | apply ke_need | apply ke_regs | apply Halloc | apply Hmember
    | eapply Hpush; [eassumption|reflexivity] | eapply Hpop; [eassumption|reflexivity] | apply Hreset; assumption
    | apply ke_bind; [|intros ?] | apply ke_wrap | apply ke_deferM | apply ke_mapM_; assumption | apply ke_iter
    | apply ke_mapM_all; intros; apply ke_refval | apply ke_bm | apply ke_if | solve [now apply ke_pure] ].
  Lemma ke_visit n : all_nodes (fun n => allowed (an_kind n)) n -> keeps (visit cf n).
  Proof.
    induction n as [k od ms b at_ Hm Hbm Ha] using anode_full_ind. cbn [all_nodes an_kind]. intros (Hk & H1 & H2 & H3).
    apply all_nodes_Forall in H1. apply all_nodes_Forall in H3.
    assert (Hm' : Forall (fun n => keeps (visit cf n)) ms) by (clear - H1 Hm; induction Hm; inversion H1; subst; constructor; auto).
    assert (Ha' : Forall (fun n => keeps (visit cf n)) at_) by (clear - H3 Ha; induction Ha; inversion H3; subst; constructor; auto).
    clear Hm Ha H1 H3. destruct k; cbn [visit]; ke.
    - destruct ms as [|m0 rest]; [now apply ke_pure|]. inversion Hm'; subst. ke.
    - destruct ms as [|m0 rest]; [now apply ke_pure|]. ke.
    - destruct b; [|now apply ke_pure]. cbn in Hbm. auto.
    - destruct od; ke.
  Qed.
End Keeps.

(** ** Numbers and indices of subsets *)
Lemma iterN_pay_length cf t k n : (forall s s', pass cf t s = (s', Ok tt) -> length (v_pay s') = (length (v_pay s) + k)%nat) ->
  forall s s', iterN n (pass cf t) s = (s', Ok tt) -> length (v_pay s') = (length (v_pay s) + n * k)%nat.
Proof.
  intros H. induction n as [|n IH]; intros s s' E; cbn [iterN] in E.
  - apply ok_inv in E. destruct E as [<- _]. lia.
  - binv E. destruct a. apply H in E0. apply IH in E. lia.
Qed.
Lemma indexed_add heap root ls p : indexed p -> indexed (p ++ numbered (length p) heap root ls).
Proof.
  intros H k sb E. destruct (Nat.lt_ge_cases k (length p)) as [Hk|Hk].
  - rewrite nth_error_app1 in E by exact Hk. now apply H.
  - rewrite nth_error_app2 in E by exact Hk. rewrite numbered_nth in E. destruct (nth_error ls _); [|discriminate].
    injection E as <-. cbn. lia.
Qed.
Lemma visit_pay cf n s : v_pay (fst (visit cf n s)) = v_pay s.
Proof. pose proof (fr_visit cf n (v_pay s) s) as H. destruct s as [r t c g b p]. cbn [set_pay v_r v_tree v_cells v_regs v_bm v_pay] in H. rewrite H at 1. reflexivity. Qed.
Lemma pass_inv cf t s s' : pass cf t s = (s', Ok tt) -> exists s1, visit cf t s = (s1, Ok tt) /\ t_stack (v_tree s1) = [] /\ v_r s' = v_r s1 /\
  v_pay s' = v_pay s ++ produced (length (v_pay s)) (v_cells s1) (t_heap (v_tree s1)) (t_node (v_tree s1)).
Proof.
  unfold pass. intros H. binv H. destruct a. pose proof (visit_pay cf t s) as HP. rewrite E in HP. cbn [fst] in HP.
  exists s0. split; [exact E|]. unfold Produce, tree_Root in H. binv H. destruct (t_stack (v_tree s0)); [|discriminate].
  apply ok_inv in E0. destruct E0 as [<- <-]. unfold modify in H. apply ok_inv in H. destruct H as [<- _].
  split; [reflexivity|]. split; [reflexivity|]. cbn [set_pay v_pay]. rewrite add_numbered, HP. reflexivity.
Qed.
Lemma iterN_indexed cf t n : forall s s', indexed (v_pay s) -> iterN n (pass cf t) s = (s', Ok tt) -> indexed (v_pay s').
Proof.
  induction n as [|n IH]; intros s s' Hs E; cbn [iterN] in E; [apply ok_inv in E; destruct E as [<- _]; exact Hs|].
  binv E. destruct a. eapply IH; [|exact E]. apply pass_inv in E0. destruct E0 as (s1 & _ & _ & _ & ->). now apply indexed_add.
Qed.
Lemma no_lanes_left cf n s : cf_nsubsets cf = 0 -> columns cf = true -> v_cells s = CCells [] -> v_cells (fst (visit cf n s)) = CCells [].
Proof.
  intros Hn Hc. apply (ke_visit cf (fun s => v_cells s = CCells []) (fun _ => True)); try (intros; assumption); try (intros; intros ? ?; assumption).
  - intros d info u s0 H. unfold add_valued, bind, Len. rewrite H. cbn. exact H.
  - intros k _ _ s0 H. unfold tree_Pop. destruct (t_stack (v_tree s0)); exact H.
  - intros _ s0 H. unfold reset. fold (columns cf). rewrite Hc, Hn. reflexivity.
  - clear. induction n as [k od ms b at_ Hm Hb Ha] using anode_full_ind. rewrite all_nodes_eq. split; [exact I|]. split; [|split]; auto.
Qed.
Lemma payload_count cf ms r s' : Forall no_base ms -> run_payload cf (root ms) (vst0 r) = (s', Ok tt) ->
  Z.of_nat (length (v_pay s')) = Z.max 0 (cf_nsubsets cf).
Proof.
  intros Hm H. destruct (Z.eq_dec (cf_nsubsets cf) 0) as [Hz|Hz]; [|destruct (Z.ltb_spec (cf_nsubsets cf) 0)].
  - rewrite run_payload_eq in H. destruct (columns cf) eqn:Hc.
    + cbn [iterN] in H. binv H. apply ok_inv in H. destruct H as [<- _]. destruct a. apply pass_inv in E. destruct E as (s1 & E & _ & _ & ->).
      change (visit cf (root ms)) with (reset cf ;; wrap "cannot process member node" (mapM_ (visit cf) ms))%M in E. binv E. destruct a.
      assert (H0 : v_cells s0 = CCells []).
      { unfold reset in E0. fold (columns cf) in E0. rewrite Hc, Hz in E0. apply ok_inv in E0. now destruct E0 as [<- _]. }
      apply wrap_inv in E. assert (H1 : v_cells s1 = CCells []).
      { clear - E H0 Hz Hc. revert s0 H0 E. induction ms as [|m ms IH]; intros s0 H0 E; cbn [mapM_] in E; [apply ok_inv in E; destruct E as [<- _]; exact H0|].
        binv E. destruct a. eapply IH; [|exact E]. pose proof (no_lanes_left cf m s0 Hz Hc H0) as K. now rewrite E0 in K. }
      rewrite H1. cbn. lia.
    + rewrite Hz in *. cbn [Z.to_nat iterN] in H. apply ok_inv in H. destruct H as [<- _]. reflexivity.
  - rewrite run_payload_eq in H. destruct (columns cf) eqn:Hc.
    + cbn [iterN] in H. binv H. destruct a. apply pass_inv in E. destruct E as (s1 & E & _).
      change (visit cf (root ms)) with (reset cf ;; wrap "cannot process member node" (mapM_ (visit cf) ms))%M in E. binv E.
      unfold reset in E0. fold (columns cf) in E0. rewrite Hc in E0. assert (cf_nsubsets cf <? 0 = true) as Hlt by lia. rewrite Hlt in E0. discriminate.
    + replace (Z.to_nat (cf_nsubsets cf)) with 0%nat in H by lia. apply ok_inv in H. destruct H as [<- _]. cbn. lia.
  - destruct (run_payload_sound cf ms r s' Hm) as (hs & HX & HS); [intros _; lia|exact H|].
    unfold executes, shows in *. destruct (columns cf).
    + destruct HS as (h & _ & HL & _). lia.
    + assert (HE : length hs = length (v_pay s')) by (clear - HS; induction HS; cbn; congruence). rewrite <- HE. clear - HX. assert (length hs = Z.to_nat (cf_nsubsets cf)) as E; [|lia].
      revert HX. generalize (Z.to_nat (cf_nsubsets cf)). intros n HX. induction HX; cbn; congruence.
Qed.
Lemma payload_indexed cf t r s' : run_payload cf t (vst0 r) = (s', Ok tt) -> indexed (v_pay s').
Proof. rewrite run_payload_eq. apply iterN_indexed. intros [|k] sb E; discriminate. Qed.
Lemma payload_shared cf ms r s' : Forall no_base ms -> columns cf = true -> run_payload cf (root ms) (vst0 r) = (s', Ok tt) ->
  forall a b, In a (v_pay s') -> In b (v_pay s') ->
    sb_root a = sb_root b /\ sb_heap a = sb_heap b /\ map c_node (sb_cells a) = map c_node (sb_cells b).
Proof.
  intros Hm Hc H a b Ha Hb. destruct (Z.leb_spec (cf_nsubsets cf) 0) as [Hz|Hz].
  { pose proof (payload_count cf ms r s' Hm H). destruct (v_pay s'); [destruct Ha|cbn [length] in *; lia]. }
  rewrite run_payload_eq, Hc in H. cbn [iterN] in H. binv H. apply ok_inv in H. destruct H as [<- _]. destruct a0.
  assert (Hp : (0 < lanes cf)%nat) by (unfold lanes; rewrite Hc; lia).
  destruct (pass_sound _ (root ms) ms _ _ eq_refl Hm Hp E) as (h & c & heap & HR & R & HP). cbn [vst0 v_pay app length] in HP. rewrite HP in *.
  destruct (produced_columns cf _ 0%nat c heap 0%nat R Hc) as [_ H2].
  apply In_nth_error in Ha, Hb. destruct Ha as [i Hi], Hb as [j Hj]. destruct (H2 _ _ Hi) as (_ & -> & -> & ->), (H2 _ _ Hj) as (_ & -> & -> & ->). auto.
Qed.

(** ** Subsets are independent of each other *)
Lemma visit_subsets cf n m : columns cf = false -> forall s, visit (with_subsets cf m) n s = visit cf n s.
Proof.
  intros H s. destruct cf as [[] [] c k pl f]; try discriminate H; reflexivity.
Qed.
Lemma renumber_numbered k heap root ls : forall i, map (renumber k) (numbered i heap root ls) = numbered (k + i) heap root ls.
Proof. induction ls as [|l ls IH]; intros i; cbn [numbered map]; [reflexivity|]. rewrite IH, Nat.add_succ_r. reflexivity. Qed.
Lemma renumber_renumber a b l : map (renumber a) (map (renumber b) l) = map (renumber (a + b)) l.
Proof. rewrite map_map. apply map_ext. intros [i c h r]. unfold renumber. cbn. now rewrite Nat.add_assoc. Qed.
Lemma after_after p q o : after p (after q o) = after (p ++ map (renumber (length p)) q) o.
Proof. destruct o as [[r l] x]. cbn [after]. rewrite app_length, map_length, map_app, app_assoc, renumber_renumber. reflexivity. Qed.
Lemma pass_fresh cf t ms s : root_members t = Some ms -> columns cf = false ->
  result_of (pass cf t s) = after (v_pay s) (result_of (pass cf t (vst0 (v_r s)))).
Proof.
  intros Ht Hc. unfold pass, bind. rewrite (visit_fresh cf t ms s Ht (or_intror Hc)).
  pose proof (visit_pay cf t (vst0 (v_r s))) as HP. destruct (visit cf t (vst0 (v_r s))) as [s1 [[]|e|p|]]; cbn [fst snd] in *; cbn [vst0 v_pay] in HP;
    try (cbn [result_of fst snd set_pay v_r v_pay after]; rewrite HP; cbn [map]; now rewrite app_nil_r).
  unfold Produce, tree_Root, bind. cbn [set_pay v_tree]. destruct (t_stack (v_tree s1)).
  - unfold modify. cbn [result_of fst snd set_pay v_r v_pay after v_tree v_cells]. rewrite !add_numbered, HP. cbn [length app].
    rewrite renumber_numbered, Nat.add_0_r. reflexivity.
  - cbn [result_of fst snd set_pay v_r v_pay after]; rewrite HP; cbn [map]; now rewrite app_nil_r.
Qed.
Lemma passes_fresh cf t ms n : root_members t = Some ms -> columns cf = false -> forall s,
  result_of (iterN n (pass cf t) s) = after (v_pay s) (result_of (iterN n (pass cf t) (vst0 (v_r s)))).
Proof.
  intros Ht Hc. induction n as [|n IH]; intros s; cbn [iterN].
  - cbn. now rewrite app_nil_r.
  - pose proof (pass_fresh cf t ms s Ht Hc) as HP. unfold bind. destruct (pass cf t s) as [sa xa]. destruct (pass cf t (vst0 (v_r s))) as [sb xb].
    unfold result_of in HP at 1 2. cbn [fst snd after] in HP. apply pair_equal_spec in HP. destruct HP as [HP ->].
    apply pair_equal_spec in HP. destruct HP as [Hr HP]. destruct xb as [[]|e|p|]; try (unfold result_of; cbn [fst snd after]; now rewrite Hr, HP).
    rewrite (IH sa), (IH sb), after_after, Hr, HP. reflexivity.
Qed.
Lemma iterN_plus (m : M vst unit) a b : forall s, iterN (a + b) m s = bind (iterN a m) (fun _ => iterN b m) s.
Proof.
  induction a as [|a IH]; intros s; cbn [Nat.add iterN]; [reflexivity|]. unfold bind in *. destruct (m s) as [s1 [[]|e|p|]]; auto.
Qed.
Lemma iterN_ext (m m' : M vst unit) n : (forall s, m s = m' s) -> forall s, iterN n m s = iterN n m' s.
Proof. intros H. induction n; intros s; cbn [iterN]; [reflexivity|]. unfold bind. rewrite H. destruct (m' s) as [s1 [[]|e|p|]]; auto. Qed.
Lemma run_with cf t n r : columns cf = false ->
  run_payload (with_subsets cf n) t (vst0 r) = iterN (Z.to_nat n) (pass cf t) (vst0 r).
Proof.
  intros Hc. rewrite run_payload_eq. change (columns (with_subsets cf n)) with (columns cf). rewrite Hc. cbn [cf_nsubsets with_subsets].
  apply iterN_ext. intros s. unfold pass, bind. rewrite visit_subsets by exact Hc. reflexivity.
Qed.
Lemma payload_split cf ms a b r : columns cf = false -> 0 <= a -> 0 <= b ->
  result_of (run_payload (with_subsets cf (a + b)) (root ms) (vst0 r)) =
  match run_payload (with_subsets cf a) (root ms) (vst0 r) with
  | (s1, Ok _) => after (v_pay s1) (result_of (run_payload (with_subsets cf b) (root ms) (vst0 (v_r s1))))
  | x => result_of x
  end.
Proof.
  intros Hc Ha Hb. rewrite !run_with by exact Hc. rewrite Z2Nat.inj_add, iterN_plus by assumption. unfold bind.
  destruct (iterN (Z.to_nat a) (pass cf (root ms)) (vst0 r)) as [s1 [[]|e|p|]]; try reflexivity.
  rewrite run_with by exact Hc. now apply (passes_fresh cf (root ms) ms).
Qed.

(** ** Trees without sequences and replications *)
Definition J (p : list subset) (s : vst) : Prop :=
  v_pay s = p /\ t_node (v_tree s) = 0%nat /\ exists n0 rest, t_heap (v_tree s) = n0 :: rest /\
  forall l c, In l (cell_lanes (v_cells s)) -> In c l ->
    In (Some (vn_id (c_node c))) (h_members n0) /\
    exists n, nth_error (n0 :: rest) (vn_id (c_node c)) = Some n /\ h_kind n = NValued (c_node c).
Lemma heap_add_head n0 rest i m : exists n0' rest', heap_add (n0 :: rest) i m = n0' :: rest' /\
  (forall x, In x (h_members n0) -> In x (h_members n0')).
Proof. destruct i; cbn [heap_add]; do 2 eexists; (split; [reflexivity|]); cbn; intros; [apply in_or_app; now left|assumption]. Qed.
Lemma heap_add_kind h : forall i m j n, nth_error h j = Some n -> exists n', nth_error (heap_add h i m) j = Some n' /\ h_kind n' = h_kind n.
Proof.
  induction h as [|x h IH]; intros i m j n H; [destruct j; discriminate|]. destruct i, j; cbn [heap_add nth_error] in *.
  - injection H as ->. eexists. split; reflexivity.
  - eauto.
  - eauto.
  - eauto.
Qed.
Lemma J_member p i m s : J p s -> J p (fst (AddMember i m s)).
Proof.
  intros (H1 & H2 & n0 & rest & H3 & H4). split; [exact H1|]. split; [exact H2|]. cbn. rewrite H3.
  destruct (heap_add_head n0 rest i m) as (n0' & rest' & E & HI). exists n0', rest'. split; [exact E|]. intros l c Hl Hc.
  destruct (H4 l c Hl Hc) as (K1 & n & K2 & K3). split; [auto|]. destruct (heap_add_kind _ i m _ _ K2) as (n' & K4 & K5). exists n'.
  rewrite <- E. split; [exact K4|congruence].
Qed.
Lemma J_alloc p k s : J p s -> J p (fst (alloc k s)).
Proof.
  intros (H1 & H2 & n0 & rest & H3 & H4). split; [exact H1|]. split; [exact H2|]. cbn. rewrite H3. exists n0, (rest ++ [mkHnode k []]). split; [reflexivity|].
  intros l c Hl Hc. destruct (H4 l c Hl Hc) as (K1 & n & K2 & K3). split; [exact K1|]. exists n. split; [|exact K3].
  change (n0 :: rest ++ [mkHnode k []]) with ((n0 :: rest) ++ [mkHnode k []]). rewrite nth_error_app1; [exact K2|]. apply nth_error_Some. congruence.
Qed.
Lemma add_column_in n ts : forall vs ts', add_column n ts vs = Ok ts' -> forall l c, In l ts' -> In c l -> c_node c = n \/ exists l0, In l0 ts /\ In c l0.
Proof.
  induction ts as [|t ts IH]; intros [|v vs] ts' H l c Hl Hc; cbn [add_column] in H; try discriminate; try (injection H as <-; right; eauto; fail).
  destruct (add_column n ts vs) as [r|e|q|] eqn:E; try discriminate. cbn in H. injection H as <-. destruct Hl as [<-|Hl].
  - apply in_app_or in Hc. destruct Hc as [Hc|[<-|[]]]; [|now left]. right. exists t. split; [now left|assumption].
  - destruct (IH _ _ E l c Hl Hc) as [K|(l0 & K1 & K2)]; [now left|]. right. exists l0. split; [now right|assumption].
Qed.
Lemma J_valued p d info u s : J p s -> J p (fst (add_valued d info u s)).
Proof.
  intros HJ. unfold add_valued, bind at 1. unfold Len. destruct (cells_Len (v_cells s)) as [idx|e|q|]; [|exact HJ..].
  unfold bind at 1, gets at 1. cbv beta iota. cbv zeta. set (n := mkVnode _ d info idx _ _).
  unfold bind at 1. pose proof (J_alloc p (NValued n) s HJ) as J1. destruct (alloc (NValued n) s) as [s1 [i|e|q|]] eqn:E1; try discriminate E1. cbn [fst] in J1.
  unfold bind at 1. unfold tree_Add, gets, bind at 1. pose proof (J_member p (t_node (v_tree s1)) (Some i) s1 J1) as J2.
  destruct (AddMember (t_node (v_tree s1)) (Some i) s1) as [s2 [[]|e|q|]] eqn:E2; try discriminate E2. cbn [fst] in J2.
  assert (Hn : exists n0 rest, t_heap (v_tree s2) = n0 :: rest /\ In (Some (vn_id n)) (h_members n0) /\
    exists hn, nth_error (n0 :: rest) (vn_id n) = Some hn /\ h_kind hn = NValued n).
  { destruct J1 as (_ & Hn0 & n0 & rest & Hh & _). unfold AddMember, modify in E2. apply ok_inv in E2. destruct E2 as [<- _]. cbn [set_tree v_tree t_heap].
    rewrite Hh, Hn0. cbn [heap_add]. do 2 eexists. split; [reflexivity|]. unfold alloc in E1. apply ok_inv in E1. destruct E1 as [<- <-].
    cbn [set_tree v_tree t_heap] in Hh. cbn [vn_id n h_members]. split; [apply in_or_app; right; now left|].
    destruct HJ as (_ & _ & m0 & mr & Hm & _). rewrite Hm in *. cbn [app length] in *. injection Hh as <- <-. cbn [nth_error].
    rewrite nth_error_app2 by lia. rewrite Nat.sub_diag. cbn. eexists. split; reflexivity. }
  clear E1 E2 J1 HJ. destruct J2 as (P1 & P2 & n0 & rest & P3 & P4).
  destruct Hn as (n0' & rest' & Hh & Hi & Hk). rewrite P3 in Hh. injection Hh as <- <-.
  unfold bind. destruct (v_cells s2) as [l|ts] eqn:Ec, u as [v|c]; cbn [throw fst]; try (split; [exact P1|split; [exact P2|exists n0, rest; rewrite Ec; auto]]).
  - split; [exact P1|]. split; [exact P2|]. exists n0, rest. split; [exact P3|]. cbn [modify fst set_cells v_cells cell_lanes]. intros l0 c [<-|[]] Hc.
    apply in_app_or in Hc. destruct Hc as [Hc|[<-|[]]]; [|split; [exact Hi|exact Hk]]. apply (P4 l c); [cbn; auto|exact Hc].
  - unfold lift_res. destruct (add_column n ts (cv_vals c)) as [ts'|e|q|] eqn:Ea; cbn [fst]; try (split; [exact P1|split; [exact P2|exists n0, rest; rewrite Ec; auto]]).
    split; [exact P1|]. split; [exact P2|]. exists n0, rest. split; [exact P3|]. cbn [modify fst set_cells v_cells cell_lanes]. intros l0 c0 Hl Hc.
    destruct (add_column_in _ _ _ _ Ea l0 c0 Hl Hc) as [->|(l1 & K1 & K2)]; [split; [exact Hi|exact Hk]|]. apply (P4 l1 c0); [cbn; auto|exact K2].
Qed.
Lemma J_visit cf p n s : all_nodes (fun n => flat_kind (an_kind n)) n -> J p s -> J p (fst (visit cf n s)).
Proof.
  intros Hn. apply (ke_visit cf (J p) flat_kind); try (intros s0 x HJ; exact HJ); try exact Hn.
  - intros i m s0. apply J_member.
  - intros k s0. apply J_alloc.
  - intros d info u s0. apply J_valued.
  - intros [] i H E; try discriminate E; destruct H.
  - intros [] H E; try discriminate E; destruct H.
  - intros [].
Qed.
Definition all_in_tree (sb : subset) : Prop := forall c, In c (sb_cells sb) -> in_tree sb c.
Lemma flat_pass cf ms s s' : Forall (all_nodes (fun n => flat_kind (an_kind n))) ms -> Forall all_in_tree (v_pay s) ->
  pass cf (root ms) s = (s', Ok tt) -> Forall all_in_tree (v_pay s').
Proof.
  intros Hm HF E. apply pass_inv in E. destruct E as (s1 & E & _ & _ & ->). apply Forall_app. split; [exact HF|].
  change (visit cf (root ms)) with (reset cf ;; wrap "cannot process member node" (mapM_ (visit cf) ms))%M in E. binv E. apply wrap_inv in E.
  assert (J0 : J (v_pay s) s0).
  { unfold reset in E0. destruct (cf_compressed cf && negb (cf_json cf)).
    - destruct (cf_nsubsets cf <? 0); [discriminate|]. apply ok_inv in E0. destruct E0 as [<- _]. split; [reflexivity|]. split; [reflexivity|].
      do 2 eexists. split; [reflexivity|]. cbn. intros l c Hl Hc. apply repeat_spec in Hl. subst l. destruct Hc.
    - apply ok_inv in E0. destruct E0 as [<- _]. split; [reflexivity|]. split; [reflexivity|].
      do 2 eexists. split; [reflexivity|]. cbn. intros l c [<-|[]] []. }
  assert (J1 : J (v_pay s) s1).
  { clear - E J0 Hm. revert s0 J0 E. induction Hm as [|m ms H1 H2 IH]; intros s0 J0 E; cbn [mapM_] in E; [apply ok_inv in E; destruct E as [<- _]; exact J0|].
    binv E. eapply IH; [|exact E]. pose proof (J_visit cf _ m s0 H1 J0) as K. now rewrite E0 in K. }
  destruct J1 as (_ & Hn & n0 & rest & Hh & HI). rewrite Hn, Hh. apply Forall_forall. intros sb Hsb c Hc.
  apply In_nth_error in Hsb. destruct Hsb as [k Hk]. unfold produced in Hk. rewrite numbered_nth in Hk.
  destruct (nth_error _ k) as [l|] eqn:El; [|discriminate]. injection Hk as <-. cbn [sb_cells] in Hc. apply nth_error_In in El.
  destruct (HI l c) as (K1 & K2); [destruct (v_cells s1); exact El|exact Hc|]. split; [|exact K2].
  eapply reach_member; [reflexivity|exact K1|constructor].
Qed.
Lemma flat_in_tree cf ms r s' : Forall (all_nodes (fun n => flat_kind (an_kind n))) ms ->
  run_payload cf (root ms) (vst0 r) = (s', Ok tt) -> Forall all_in_tree (v_pay s').
Proof.
  intros Hm. rewrite run_payload_eq. generalize (if columns cf then 1%nat else Z.to_nat (cf_nsubsets cf)). intros n.
  assert (H0 : Forall all_in_tree (v_pay (vst0 r))) by constructor. revert H0. generalize (vst0 r). induction n as [|n IH]; intros s H0 E; cbn [iterN] in E.
  - apply ok_inv in E. now destruct E as [<- _].
  - binv E. destruct a. eapply IH; [|exact E]. eapply flat_pass; eauto.
Qed.
