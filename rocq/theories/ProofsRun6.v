(** Whole payloads. *)
From Coq Require Import ZifyBool ZifyNat.
From Verif Require Export ProofsRun5.
From Verif Require Import ProofsParser3 ProofsParser4 ProofsParser5.

(** ** The produced subsets do not influence decoding *)
Definition frames {A} (m : M vst A) : Prop := forall p s, m (set_pay p s) = (set_pay p (fst (m s)), snd (m s)).
Lemma fr_ret {A} (a : A) : frames (ret a). Proof. intros p s; reflexivity. Qed.
Lemma fr_fail {A} e : frames (@fail vst A e). Proof. intros p s; reflexivity. Qed.
Lemma fr_throw {A} e : frames (@throw vst A e). Proof. intros p s; reflexivity. Qed.
Lemma fr_lift {A} (r : res A) : frames (lift_res r). Proof. intros p s; reflexivity. Qed.
Lemma fr_bind {A B} (m : M vst A) (f : A -> M vst B) : frames m -> (forall a, frames (f a)) -> frames (bind m f).
Proof. intros H1 H2 p s. unfold bind. rewrite H1. destruct (m s) as [s1 [a|e|q|]]; cbn [fst snd]; auto. apply H2. Qed.
Lemma fr_wrap {A} tag (m : M vst A) : frames m -> frames (wrap tag m).
Proof. intros H p s. unfold wrap. rewrite H. destruct (m s) as [s1 [a|e|q|]]; reflexivity. Qed.
Lemma fr_deferM {A} f (m : M vst A) : frames f -> frames m -> frames (deferM f m).
Proof.
  intros H1 H2 p s. unfold deferM. rewrite H2. destruct (m s) as [s1 r]. cbn [fst snd]. rewrite H1.
  destruct (f s1) as [s2 [a|e|q|]]; reflexivity.
Qed.
Lemma fr_mapM_ {A B} (f : A -> M vst B) l : Forall (fun a => frames (f a)) l -> frames (mapM_ f l).
Proof. induction 1; cbn [mapM_]; [apply fr_ret|apply fr_bind; auto]. Qed.
Lemma fr_mapM {A B} (f : A -> M vst B) l : (forall a, frames (f a)) -> frames (mapM f l).
Proof. intros H. induction l; cbn [mapM]; [apply fr_ret|]. apply fr_bind; [apply H|]. intros b. apply fr_bind; [exact IHl|]. intros; apply fr_ret. Qed.
Lemma fr_mapM_all {A B} (f : A -> M vst B) l : (forall a, frames (f a)) -> frames (mapM_ f l).
Proof. intros H. apply fr_mapM_. induction l; auto. Qed.
Lemma fr_iter z m : frames m -> frames (iter_Z z m).
Proof.
  intros H. assert (HN : forall n, frames (iterN n m)) by (induction n; cbn [iterN]; [apply fr_ret|apply fr_bind; auto]).
  intros p s. rewrite !iter_Z_nat. apply HN.
Qed.
Lemma fr_if {A} (b : bool) (m m' : M vst A) : frames m -> frames m' -> frames (if b then m else m').
Proof. destruct b; auto. Qed.
Lemma fr_attach : forall sn i ts an, frames (attach i ts sn an).
Proof.
  induction sn as [|x sn IH]; intros i ts an; cbn [attach]; [apply fr_ret|]. apply fr_bind; [apply fr_lift|]. intros t.
  apply fr_bind; [intros p s; reflexivity|]. intros _. apply fr_bind; [apply fr_mapM_all; intros a p s; reflexivity|]. intros _. apply IH.
Qed.
Section Frames.
  Variable cf : config.
  Ltac triv := intros ? ?; reflexivity.
  Lemma fr_Unpack info : frames (Unpack cf info).
  Proof. intros p s. unfold Unpack, zoom. cbn [v_r set_pay]. destruct (_ (v_r s)) as [r' x]. reflexivity. Qed.
  Lemma fr_add_valued d info u : frames (add_valued d info u).
  Proof.
    unfold add_valued. apply fr_bind; [triv|]. intros n. apply fr_bind; [triv|]. intros i0. cbv zeta. apply fr_bind; [triv|]. intros i. apply fr_bind; [triv|]. intros u0.
    apply fr_bind; [triv|]. intros cs. apply fr_bind; [|intros; apply fr_ret].
    destruct cs as [l|ts], u as [v|c]; try triv. apply fr_bind; [apply fr_lift|]. intros; triv.
  Qed.
  Lemma fr_build d info : frames (buildValuedNodeWithInfo cf d info).
  Proof. apply fr_bind; [apply fr_wrap, fr_Unpack|]. intros; apply fr_add_valued. Qed.
  Lemma fr_calc d : frames (calcPackingInfo d).
  Proof.
    unfold calcPackingInfo. destruct (d_entry d) as [b| | |]; try apply fr_throw. apply fr_bind; [triv|]. intros g.
    destruct (be_unit b); try apply fr_ret. cbv zeta. apply fr_bind; [|intros; apply fr_ret].
    destruct (match g_newRefvals g with Some m => assoc_get m (d_id d) | None => None end); [|apply fr_ret].
    apply fr_bind; [triv|]. intros eq. apply fr_if; [apply fr_fail|]. apply fr_bind; [triv|]. intros c.
    apply fr_bind; [apply fr_wrap, fr_lift|]. intros; apply fr_ret.
  Qed.
  Lemma fr_buildValued d : frames (buildValuedNode cf d).
  Proof. apply fr_bind; [apply fr_wrap, fr_calc|]. intros; apply fr_build. Qed.
  Lemma fr_need od : frames (need od). Proof. destruct od; triv. Qed.
  Lemma fr_zero od : frames (buildZeroNode cf od).
  Proof.
    intros p s. unfold buildZeroNode. destruct (cf_compatible cf); [|reflexivity].
    pose proof (fr_bind _ (fun dd => buildValuedNodeWithInfo cf dd (plain_info NONNEG_CODE 0)) (fr_need od) (fun dd => fr_build dd _) p s) as E.
    rewrite E. destruct (bind _ _ s) as [s1 [a|e|q|]]; reflexivity.
  Qed.
  Lemma fr_assoc d : frames (buildAssocNodes cf d).
  Proof.
    apply fr_bind; [triv|]. intros g. apply fr_if; [apply fr_ret|]. apply fr_mapM. intros a.
    apply fr_bind; [apply fr_wrap, fr_build|]. intros n. apply fr_bind; [triv|]. intros; apply fr_ret.
  Qed.
  Lemma fr_element np od : frames (visit_element cf np od).
  Proof.
    apply fr_if; [triv|]. apply fr_bind; [apply fr_need|]. intros d. apply fr_bind; [apply fr_wrap, fr_assoc|]. intros l.
    apply fr_bind; [apply fr_wrap, fr_buildValued|]. intros e. apply fr_mapM_all. intros; triv.
  Qed.
  Lemma fr_Pop : frames tree_Pop.
  Proof. intros p s. unfold tree_Pop. cbn [v_tree set_pay]. destruct (t_stack (v_tree s)); reflexivity. Qed.
  Lemma fr_aPop : frames assoc_Pop.
  Proof. intros p s. unfold assoc_Pop. cbn [v_regs set_pay]. destruct (g_assoc (v_regs s)); reflexivity. Qed.
  Lemma fr_NewAssessment : frames NewAssessment.
  Proof. apply fr_bind; [triv|]. intros b. apply fr_if; [|apply fr_ret]. apply fr_bind; [triv|]. intros n. triv. Qed.
  Lemma fr_NewBitmap r : frames (NewBitmap r).
  Proof. apply fr_bind; [triv|]. intros b. apply fr_bind; [triv|]. intros n. triv. Qed.
  Lemma fr_End : frames EndBitmap.
  Proof. apply fr_bind; [triv|]. intros b. destruct (m_current b); [|apply fr_throw]. apply fr_bind; [triv|]. intros ?. triv. Qed.
  Lemma fr_Recall : frames RecallBitmap. Proof. triv. Qed.
  Lemma fr_Next : frames NextTargetNode.
  Proof. intros p s. unfold NextTargetNode. cbn [v_bm set_pay]. destruct (m_targets (v_bm s)); reflexivity. Qed.
  Lemma fr_Init : frames (InitTargetNodes (cf_plat cf)).
  Proof.
    apply fr_bind.
    - apply fr_bind; [triv|]. intros b. apply fr_bind; [triv|]. intros c. destruct (m_current b); [|apply fr_throw].
      destruct (nth_error (m_bitmaps b) n) as [[i0 i1]|]; [|apply fr_throw]. repeat first [apply fr_if | apply fr_throw | apply fr_lift].
    - intros bits. apply fr_bind; [triv|]. intros b. apply fr_bind; [triv|]. intros c. apply fr_bind; [apply fr_lift|]. intros l.
      apply fr_if; [apply fr_fail|]. cbv zeta. apply fr_bind; [triv|]. intros; apply fr_ret.
  Qed.
  Lemma fr_since a0 : frames (nodes_since a0).
  Proof. apply fr_bind; [triv|]. intros a1. apply fr_if; [apply fr_throw|]. apply fr_bind; [triv|]. intros; apply fr_lift. Qed.
  Lemma fr_reset : frames (reset cf).
  Proof. intros p s. unfold reset. destruct (cf_compressed cf && negb (cf_json cf)); [|reflexivity]. destruct (cf_nsubsets cf <? 0); reflexivity. Qed.
  Lemma fr_marker od : frames (visit_marker cf od).
  Proof.
    apply fr_bind; [apply fr_Next|]. intros t. apply fr_bind; [apply fr_calc|]. intros i. cbv zeta.
    apply fr_bind; [apply fr_need|]. intros d. apply fr_bind; [apply fr_build|]. intros; apply fr_ret.
  Qed.
  Lemma fr_refval info m : frames (visit_refval_member cf info m).
  Proof.
    apply fr_bind; [apply fr_need|]. intros d. apply fr_bind; [apply fr_wrap, fr_build|]. intros n. apply fr_bind; [triv|]. intros g.
    destruct (g_newRefvals g); [triv|apply fr_throw].
  Qed.
  Ltac fr := repeat first
    [ assumption | apply fr_buildValued | apply fr_build | apply fr_zero | apply fr_Init | apply fr_since | apply fr_bind; [|intros ?] | apply fr_wrap | apply fr_deferM | apply fr_mapM_; assumption | apply fr_iter
    | apply fr_need | apply fr_build | apply fr_zero | apply fr_element | apply fr_Pop | apply fr_aPop | apply fr_NewAssessment | apply fr_NewBitmap | apply fr_End
    | apply fr_Init | apply fr_since | apply fr_reset | apply fr_Next | apply fr_calc | apply fr_marker | apply fr_attach | apply fr_buildValued
    | apply fr_mapM_all; intros; apply fr_refval | apply fr_if | apply fr_fail | apply fr_throw | apply fr_lift | solve [triv] ].
  Lemma fr_visit n : frames (visit cf n).
  Proof.
    induction n as [k od ms b at_ Hm Hb Ha] using anode_full_ind. destruct k; cbn [visit]; fr.
    - destruct ms as [|m0 rest]; [apply fr_throw|]. inversion Hm; subst. fr.
    - destruct ms as [|m0 rest]; [apply fr_throw|]. fr.
    - destruct b; [assumption|apply fr_throw].
    - destruct od; fr.
    - destruct (m_current _); fr.
  Qed.
End Frames.

(** ** A template's root starts afresh *)
Definition root_members (t : anode) : option (list anode) :=
  match t with ANode KBase _ ms _ _ => Some ms | _ => None end.
Lemma reset_state cf s : 0 <= cf_nsubsets cf \/ columns cf = false ->
  exists c, reset cf s = (mkV (v_r s) (mkTree [mkHnode NBlock []] 0 []) c regs0 bm0 (v_pay s), Ok tt) /\
    c = if columns cf then CCells (repeat [] (lanes cf)) else UCells [].
Proof.
  intros H. unfold reset, lanes. fold (columns cf). destruct (columns cf); [|eexists; split; reflexivity].
  destruct H as [H|H]; [|discriminate]. assert (cf_nsubsets cf <? 0 = false) as -> by lia. eexists. split; reflexivity.
Qed.
(** Decoding from any state is decoding from the initial state. *)
Lemma visit_fresh cf t ms s : root_members t = Some ms -> 0 <= cf_nsubsets cf \/ columns cf = false ->
  visit cf t s = (set_pay (v_pay s) (fst (visit cf t (vst0 (v_r s)))), snd (visit cf t (vst0 (v_r s)))).
Proof.
  intros Ht Hn. destruct t as [[] d l b a]; try discriminate Ht. cbn [root_members] in Ht. injection Ht as ->.
  change (visit cf (ANode KBase d ms b a)) with (reset cf ;; wrap "cannot process member node" (mapM_ (visit cf) ms))%M.
  destruct (reset_state cf s Hn) as (c & E & Hc). destruct (reset_state cf (vst0 (v_r s)) Hn) as (c' & E' & Hc').
  rewrite (bind_ok _ _ _ _ _ E), (bind_ok _ _ _ _ _ E'). subst c c'. cbn [vst0 v_r v_pay].
  assert (F : frames (wrap "cannot process member node" (mapM_ (visit cf) ms))).
  { apply fr_wrap, fr_mapM_all. intros; apply fr_visit. }
  rewrite <- (F (v_pay s)). reflexivity.
Qed.

(** ** One pass over the template *)
Definition start (cf : config) (r : reader) (p : list subset) : vst :=
  mkV r (mkTree [mkHnode NBlock []] 0 []) (if columns cf then CCells (repeat [] (lanes cf)) else UCells []) regs0 bm0 p.
Lemma rep_start cf r p : rep cf [] (start cf r p).
Proof.
  constructor; cbn [start v_cells v_regs v_bm].
  - constructor; cbn [data].
    + destruct (columns cf); reflexivity.
    + unfold lanes. destruct (columns cf); [apply repeat_length|reflexivity].
    + intros k l H. assert (l = []) as ->.
      { destruct (columns cf); [|destruct k; [injection H as <-; reflexivity|destruct k; discriminate]].
        apply nth_error_In in H. now apply repeat_spec in H. }
      split; [reflexivity|]. intros i d c Hd. destruct i; discriminate.
    + intros l H. assert (l = []) as ->.
      { destruct (columns cf); cbn in H; [now apply repeat_spec in H|destruct H as [<-|[]]; reflexivity]. }
      unfold lane0. destruct (columns cf); [|reflexivity]. cbn. now destruct (lanes cf).
    + constructor.
  - constructor; reflexivity.
  - constructor; cbn; auto.
Qed.
Fixpoint numbered (i : nat) (heap : list hnode) (root : nat) (ls : list (list cell)) : list subset :=
  match ls with [] => [] | l :: ls' => mkSubset i l heap root :: numbered (S i) heap root ls' end.
Lemma add_numbered heap root ls : forall p, add_subsets heap root ls p = p ++ numbered (length p) heap root ls.
Proof.
  induction ls as [|l ls IH]; intros p; cbn [add_subsets numbered]; [now rewrite app_nil_r|].
  rewrite IH, <- app_assoc, app_length. cbn [length app]. now rewrite Nat.add_1_r.
Qed.
Lemma numbered_nth heap root ls : forall i k, nth_error (numbered i heap root ls) k =
  option_map (fun l => mkSubset (i + k) l heap root) (nth_error ls k).
Proof.
  induction ls as [|l ls IH]; intros i [|k]; cbn [numbered nth_error option_map]; try reflexivity.
  - now rewrite Nat.add_0_r.
  - rewrite IH. now rewrite Nat.add_succ_r.
Qed.
Lemma numbered_length heap root ls : forall i, length (numbered i heap root ls) = length ls.
Proof. induction ls; intros i; cbn [numbered length]; [reflexivity|]. now rewrite IHls. Qed.
Definition produced (i : nat) (c : cellsb) (heap : list hnode) (root : nat) : list subset :=
  numbered i heap root match c with UCells l => [l] | CCells ts => ts end.
Definition pass (cf : config) (t : anode) : M vst unit := (visit cf t ;; Produce)%M.
Lemma visit_root cf t ms s : root_members t = Some ms -> 0 <= cf_nsubsets cf \/ columns cf = false ->
  visit cf t s = wrap "cannot process member node" (mapM_ (visit cf) ms) (start cf (v_r s) (v_pay s)).
Proof.
  intros Ht Hn. destruct t as [[] d l b a]; try discriminate Ht. cbn [root_members] in Ht. injection Ht as ->.
  change (visit cf (ANode KBase d ms b a)) with (reset cf ;; wrap "cannot process member node" (mapM_ (visit cf) ms))%M.
  destruct (reset_state cf s Hn) as (c & E & Hc). rewrite (bind_ok _ _ _ _ _ E). subst c. reflexivity.
Qed.
Lemma all_does_nb cf ms : (0 < lanes cf)%nat -> Forall no_base ms -> all_does cf ms.
Proof. intros Hp H. eapply Forall_impl; [|exact H]. intros n Hn. now apply visit_does. Qed.
Lemma lanes_guard cf : (0 < lanes cf)%nat -> 0 <= cf_nsubsets cf \/ columns cf = false.
Proof. unfold lanes. destruct (columns cf); [lia|auto]. Qed.
Lemma pass_sound cf t ms s s' : root_members t = Some ms -> Forall no_base ms -> (0 < lanes cf)%nat ->
  pass cf t s = (s', Ok tt) ->
  exists h c heap, runs_list cf [] (v_r s) ms h (v_r s') /\ rep_cells cf (data h) c /\ v_pay s' = v_pay s ++ produced (length (v_pay s)) c heap 0.
Proof.
  intros Ht Hm Hp H. unfold pass in H. binv H. destruct a. rewrite (visit_root cf t ms s Ht (lanes_guard cf Hp)) in E. apply wrap_inv in E.
  destruct (vlist_does cf ms (all_does_nb cf ms Hp Hm)) as [V1 _].
  destruct (V1 _ _ _ (rep_start cf (v_r s) (v_pay s)) E) as (h & HR & R & (P1 & P2 & P3)). cbn [start v_tree t_stack t_node v_pay] in P1, P2, P3.
  unfold Produce, tree_Root in H. binv H. rewrite P1 in E0. apply ok_inv in E0. destruct E0 as [<- <-].
  unfold modify in H. apply ok_inv in H. destruct H as [<- _]. cbn [set_pay v_r v_pay]. exists h, (v_cells s0), (t_heap (v_tree s0)).
  split; [exact HR|]. split; [apply R|]. now rewrite add_numbered, P2, P3.
Qed.
Lemma pass_complete cf t ms s h r' : root_members t = Some ms -> Forall no_base ms -> (0 < lanes cf)%nat ->
  runs_list cf [] (v_r s) ms h r' -> exists s', pass cf t s = (s', Ok tt) /\ v_r s' = r' /\
    exists c heap, rep_cells cf (data h) c /\ v_pay s' = v_pay s ++ produced (length (v_pay s)) c heap 0.
Proof.
  intros Ht Hm Hp HR. destruct (vlist_does cf ms (all_does_nb cf ms Hp Hm)) as [_ V2].
  destruct (V2 _ (start cf (v_r s) (v_pay s)) _ _ (rep_start cf (v_r s) (v_pay s)) HR) as (s1 & E & Hr & R & (P1 & P2 & P3)).
  cbn [start v_tree t_stack t_node v_pay] in P1, P2, P3.
  unfold pass. erewrite bind_ok by (rewrite (visit_root cf t ms s Ht (lanes_guard cf Hp)); apply wrap_ok; exact E).
  unfold Produce, tree_Root. erewrite bind_ok by (rewrite P1; reflexivity). eexists. split; [reflexivity|]. split; [exact Hr|].
  exists (v_cells s1), (t_heap (v_tree s1)). split; [apply R|]. cbn [set_pay v_pay]. now rewrite add_numbered, P2, P3.
Qed.

(** ** All passes *)
Lemma produced_columns cf ds i c heap root : rep_cells cf ds c -> columns cf = true ->
  length (produced i c heap root) = Z.to_nat (cf_nsubsets cf) /\
  (forall k sb, nth_error (produced i c heap root) k = Some sb -> lane_ok k ds (sb_cells sb) /\ sb_heap sb = heap /\ sb_root sb = root /\
     map c_node (sb_cells sb) = map c_node (lane0 c)).
Proof.
  intros [K1 K2 K3 K4 K5] Hc. unfold lanes in K2. rewrite Hc in *. destruct c as [l|ts]; [discriminate|]. unfold produced. cbn [cell_lanes] in *.
  split; [now rewrite numbered_length|]. intros k sb H. rewrite numbered_nth in H. destruct (nth_error ts k) as [l|] eqn:E; [|discriminate].
  injection H as <-. cbn [sb_cells sb_heap sb_root]. split; [now apply K3|]. split; [reflexivity|]. split; [reflexivity|].
  apply K4. eapply nth_error_In; eauto.
Qed.
Lemma produced_plain cf ds i c heap root : rep_cells cf ds c -> columns cf = false ->
  exists l, produced i c heap root = [mkSubset i l heap root] /\ lane_ok 0 ds l.
Proof.
  intros [K1 K2 K3 K4 K5] Hc. rewrite Hc in *. destruct c as [l|ts]; [|discriminate]. exists l. split; [reflexivity|]. now apply K3.
Qed.
Lemma passes_sound cf t ms n : root_members t = Some ms -> Forall no_base ms -> columns cf = false -> forall s s',
  iterN n (pass cf t) s = (s', Ok tt) ->
  exists hs new, subsets_run cf ms n (v_r s) hs (v_r s') /\ v_pay s' = v_pay s ++ new /\
    Forall2 (fun h sb => lane_ok 0 (data h) (sb_cells sb)) hs new.
Proof.
  intros Ht Hm Hc. assert (Hp : (0 < lanes cf)%nat) by (unfold lanes; rewrite Hc; lia).
  induction n as [|n IH]; intros s s' H; cbn [iterN] in H.
  - apply ok_inv in H. destruct H as [<- _]. exists [], []. split; [constructor|]. split; [now rewrite app_nil_r|constructor].
  - binv H. destruct a. destruct (pass_sound _ _ _ _ _ Ht Hm Hp E) as (h & c & heap & HR & R & HP).
    destruct (produced_plain _ _ (length (v_pay s)) _ heap 0%nat R Hc) as (l & El & Hl).
    destruct (IH _ _ H) as (hs & new & HS & HP2 & HF). exists (h :: hs), (mkSubset (length (v_pay s)) l heap 0 :: new). split; [econstructor; eauto|].
    split; [rewrite HP2, HP, El, <- app_assoc; reflexivity|]. constructor; auto.
Qed.
Lemma passes_complete cf t ms n : root_members t = Some ms -> Forall no_base ms -> columns cf = false -> forall s hs r',
  subsets_run cf ms n (v_r s) hs r' -> exists s', iterN n (pass cf t) s = (s', Ok tt) /\ v_r s' = r' /\
    exists new, v_pay s' = v_pay s ++ new /\ Forall2 (fun h sb => lane_ok 0 (data h) (sb_cells sb)) hs new.
Proof.
  intros Ht Hm Hc. assert (Hp : (0 < lanes cf)%nat) by (unfold lanes; rewrite Hc; lia).
  induction n as [|n IH]; intros s hs r' H; inversion H; subst; cbn [iterN].
  - exists s. split; [reflexivity|]. split; [reflexivity|]. exists []. split; [now rewrite app_nil_r|constructor].
  - match goal with HR : runs_list _ _ _ _ ?h ?r1 |- _ => destruct (pass_complete _ _ _ _ _ _ Ht Hm Hp HR) as (s1 & E & Er & c & heap & R & HP) end.
    destruct (produced_plain _ _ (length (v_pay s)) _ heap 0%nat R Hc) as (l & El & Hl). subst r1.
    match goal with HS : subsets_run _ _ _ _ _ _ |- _ => destruct (IH _ _ _ HS) as (s2 & E2 & Er2 & new & HP2 & HF) end.
    exists s2. split; [rewrite (bind_ok _ _ _ _ _ E); exact E2|]. split; [exact Er2|].
    exists (mkSubset (length (v_pay s)) l heap 0 :: new). split; [rewrite HP2, HP, El, <- app_assoc; reflexivity|]. constructor; auto.
Qed.
Lemma run_payload_eq cf t s : run_payload cf t s = iterN (if columns cf then 1 else Z.to_nat (cf_nsubsets cf)) (pass cf t) s.
Proof. unfold run_payload. rewrite iter_Z_nat. fold (columns cf). unfold pass. destruct (columns cf); reflexivity. Qed.

(** Decoding succeeds exactly as the reference semantics says. *)
Lemma some_subset_lanes cf : some_subset cf -> (0 < lanes cf)%nat.
Proof. unfold some_subset, lanes. destruct (columns cf); [intros H; specialize (H eq_refl); lia|lia]. Qed.
Theorem run_payload_sound cf ms r s' : Forall no_base ms -> some_subset cf ->
  run_payload cf (root ms) (vst0 r) = (s', Ok tt) ->
  exists hs, executes cf ms r hs (v_r s') /\ shows cf hs (v_pay s').
Proof.
  intros Hm Hs. assert (Hp := some_subset_lanes cf Hs). assert (Ht : root_members (root ms) = Some ms) by reflexivity.
  rewrite run_payload_eq. unfold executes, shows. destruct (columns cf) eqn:Hc; intros H.
  - cbn [iterN] in H. binv H. apply ok_inv in H. destruct H as [<- _]. destruct a.
    destruct (pass_sound _ _ _ _ _ Ht Hm Hp E) as (h & c & heap & HR & R & HP). cbn [vst0 v_pay v_r app] in HP, HR.
    exists [h]. split; [eauto|]. exists h. split; [reflexivity|].
    rewrite HP. destruct (produced_columns cf _ 0%nat c heap 0%nat R Hc) as [H1 H2]. split; [exact H1|].
    intros k sb Hk. now apply H2.
  - destruct (passes_sound cf _ ms _ Ht Hm Hc _ _ H) as (hs & new & HS & HP & HF). exists hs. split; [exact HS|]. now rewrite HP.
Qed.
Theorem run_payload_complete cf ms r hs r' : Forall no_base ms -> some_subset cf ->
  executes cf ms r hs r' -> exists s', run_payload cf (root ms) (vst0 r) = (s', Ok tt) /\ v_r s' = r' /\ shows cf hs (v_pay s').
Proof.
  intros Hm Hs. assert (Hp := some_subset_lanes cf Hs). assert (Ht : root_members (root ms) = Some ms) by reflexivity.
  rewrite run_payload_eq. unfold executes, shows. destruct (columns cf) eqn:Hc.
  - intros (h & -> & HR). destruct (pass_complete cf _ ms (vst0 r) h r' Ht Hm Hp HR) as (s' & E & Er & c & heap & R & HP).
    exists s'. split; [cbn [iterN]; rewrite (bind_ok _ _ _ _ _ E); reflexivity|]. split; [exact Er|]. exists h. split; [reflexivity|].
    cbn [vst0 v_pay app] in HP. rewrite HP. destruct (produced_columns cf _ 0%nat c heap 0%nat R Hc) as [H1 H2]. split; [exact H1|].
    intros k sb Hk. now apply H2.
  - intros HS. destruct (passes_complete cf _ ms _ Ht Hm Hc (vst0 r) hs r' HS) as (s' & E & Er & new & HP & HF).
    exists s'. split; [exact E|]. split; [exact Er|]. now rewrite HP.
Qed.

(** ** Parsed templates *)
Lemma documented_not_base id : documented id <> Some KBase.
Proof. unfold documented. cbv zeta. repeat match goal with |- (if ?b then _ else _) <> _ => destruct b | |- (match ?x with _ => _ end) <> _ => destruct x end; discriminate. Qed.
Lemma right_kind_not_base n : right_kind n -> an_kind n <> KBase.
Proof.
  unfold right_kind. destruct (an_desc n) as [d|]; [|intros ->; discriminate].
  pose proof (documented_not_base (d_id d)) as Hd.
  destruct (id_F (d_id d)) as [|[[|[]|]|[]|]|]; intros H E; try contradiction; try congruence; rewrite H in E;
    try destruct (_ =? _); try discriminate.
Qed.
Lemma all_nodes_mono (P Q : anode -> Prop) n : (forall m, P m -> Q m) -> all_nodes P n -> all_nodes Q n.
Proof.
  intros HPQ. induction n as [k d ms b at_ Hm Hb Ha] using anode_full_ind. rewrite !all_nodes_eq. intros (H1 & H2 & H3 & H4).
  split; [auto|]. split; [|split].
  - clear - H2 Hm. induction Hm; inversion H2; subst; constructor; auto.
  - destruct b; auto.
  - clear - H4 Ha. induction Ha; inversion H4; subst; constructor; auto.
Qed.
Lemma parsed_no_base g ids ms : parsed g ids ms -> Forall no_base ms.
Proof.
  intros H. apply parsed_iff in H. apply right_kinds in H. eapply Forall_impl; [|exact H]. intros n. apply all_nodes_mono. exact right_kind_not_base.
Qed.
