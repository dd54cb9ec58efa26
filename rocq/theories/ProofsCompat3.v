From Coq Require Import ZifyBool ZifyNat.
From Verif Require Import ProofsBase ProofsParser3 ProofsParser4 ProofsRun4 ProofsRun6 ProofsRun9 ProofsRun12 SpecCompat ProofsCompat ProofsCompat2.

(** ** One cell per operator *)
Section N.
  Variable cf : config.
  Definition balanced (h h' : history) : Prop := (nz h' + operators h = operators h' + nz h)%nat.
  Lemma balanced_runs h r n h' r' : runs cf h r n h' r' -> balanced h h'.
  Proof.
    unfold balanced. intros H. induction H using runs_mut
      with (P0 := fun h _ _ h' _ _ => balanced h h') (P1 := fun _ h _ _ h' _ _ => balanced h h');
    unfold balanced in *; cbn [nz operators] in *; try lia.
  Qed.
  Lemma balanced_list h r ms h' r' : runs_list cf h r ms h' r' -> balanced h h'.
  Proof. induction 1; unfold balanced in *; [lia|]. apply balanced_runs in H. unfold balanced in H. lia. Qed.
End N.

(** ** Lists and payloads *)
Section L.
  Variables (cf : config) (on : bool).
  Hypothesis Hbin : cf_json cf = false.
  Hypothesis Hsub : cf_compressed cf = true -> 0 <= cf_nsubsets cf.
  Notation cfz := (with_compat cf on).
  Lemma sim_list h r ms h' r' : runs_list cf h r ms h' r' -> Forall okn ms -> short_bitmaps h' -> sealed h ->
    forall hz, wz h hz -> exists hz', runs_list cfz hz r ms hz' r' /\ wz h' hz'.
  Proof.
    induction 1 as [|h r n ns h1 r1 h2 r2 R RL IH]; intros Q Sh S hz W; [exists hz; split; [constructor|exact W]|].
    inversion Q as [|? ? Q1 Q2]; subst.
    destruct (sim_all cf on Hbin Hsub _ _ _ _ _ R Q1 (short_later _ _ Sh (later_list cf _ _ _ _ _ RL)) S hz W) as (hz1 & R1 & W1).
    destruct (IH Q2 Sh (sealed_runs cf _ _ _ _ _ R (proj1 Q1) S) hz1 W1) as (hz2 & R2 & W2).
    exists hz2. split; [econstructor; eassumption|exact W2].
  Qed.
  Lemma sealed_nil : sealed [].
  Proof. intros [|] h' E; discriminate. Qed.
  Lemma sim_subset r ms h r' : runs_list cf [] r ms h r' -> Forall okn ms -> short_bitmaps h ->
    exists hz, runs_list cfz [] r ms hz r' /\ wz h hz.
  Proof. intros R Q Sh. exact (sim_list _ _ _ _ _ R Q Sh sealed_nil [] wz_nil). Qed.
  Lemma sim_subsets ms n r hs r' : subsets_run cf ms n r hs r' -> Forall okn ms -> Forall short_bitmaps hs ->
    exists hzs, subsets_run cfz ms n r hzs r' /\ Forall2 wz hs hzs.
  Proof.
    induction 1 as [|n r h r1 hs r2 R S IH]; intros Q Sh; [exists []; split; constructor|].
    inversion Sh as [|? ? S1 S2]; subst. destruct (sim_subset _ _ _ _ R Q S1) as (hz & Rz & Z).
    destruct (IH Q S2) as (hzs & Sz & F). exists (hz :: hzs). split; econstructor; eassumption.
  Qed.
  Lemma columns_on : columns cfz = columns cf.
  Proof. reflexivity. Qed.
  Lemma sim_executes ms r hs r' : executes cf ms r hs r' -> Forall okn ms -> Forall short_bitmaps hs ->
    exists hzs, executes cfz ms r hzs r' /\ Forall2 wz hs hzs.
  Proof.
    unfold executes. rewrite columns_on. destruct (columns cf).
    - intros (h & -> & R) Q Sh. inversion Sh; subst. destruct (sim_subset _ _ _ _ R Q H1) as (hz & Rz & Z).
      exists [hz]. split; [eauto|]. repeat constructor. exact Z.
    - apply sim_subsets.
  Qed.

  Lemma zeros_as_cons (b : bool) (e : event) h : match e with EvZero z => if b then exists x, z = Some x /\ zero_datum x else z = None | _ => True end ->
    zeros_as b h -> zeros_as b (e :: h).
  Proof. constructor; assumption. Qed.
  Lemma zero_as d r z r' : zeroed (d_id d) -> zero_cell cf (Some d) r z r' ->
    if cf_compatible cf then exists x, z = Some x /\ zero_datum x else z = None.
  Proof.
    intros Zd H. apply (zero_cell_as cf Hbin Hsub) in H. destruct H as [_ ->]. destruct (cf_compatible cf); [|reflexivity].
    exists (the_zero cf d). split; [reflexivity|]. now apply the_zero_datum.
  Qed.
  Lemma zeros_runs h r n h' r' : runs cf h r n h' r' -> all_nodes op_node n -> zeros_as (cf_compatible cf) h -> zeros_as (cf_compatible cf) h'.
  Proof.
    intros H. induction H using runs_mut
      with (P0 := fun h _ ms h' _ _ => Forall (all_nodes op_node) ms -> zeros_as (cf_compatible cf) h -> zeros_as (cf_compatible cf) h')
           (P1 := fun _ h _ ms h' _ _ => Forall (all_nodes op_node) ms -> zeros_as (cf_compatible cf) h -> zeros_as (cf_compatible cf) h');
    try (intros Q; apply all_nodes_eq in Q; destruct Q as (Q & Qm & Qb & Qa)); try (intros S);
    try (apply zeros_as_cons; [exact I|assumption]); auto.
    - inversion Qm; subst. auto.
    - apply IHruns; auto. now apply zeros_as_cons.
    - apply IHruns; auto. now apply zeros_as_cons.
    - apply IHruns1; auto. apply zeros_as_cons; [exact I|]. apply IHruns0; auto. apply IHruns; auto.
      destruct Q as (d & -> & Zd). apply zeros_as_cons; [eapply zero_as; eauto|]. now apply zeros_as_cons.
    - cbn [op_node] in Q. apply zeros_as_cons; [exact I|]. apply zeros_as_cons; [eapply zero_as; eauto|exact S].
    - cbn [op_node] in Q. apply zeros_as_cons; [exact I|]. apply IHruns; auto. apply zeros_as_cons; [exact I|].
      apply zeros_as_cons; [eapply zero_as; eauto|exact S].
    - intros S'. inversion S; subst. auto.
  Qed.
  Lemma zeros_list h r ms h' r' : runs_list cf h r ms h' r' -> Forall okn ms -> zeros_as (cf_compatible cf) h -> zeros_as (cf_compatible cf) h'.
  Proof. induction 1; intros Q S; [exact S|]. inversion Q as [|? ? Q1 Q2]; subst. apply IHruns_list; auto. eapply zeros_runs; eauto. apply Q1. Qed.
  Lemma zeros_executes ms r hs r' : executes cf ms r hs r' -> Forall okn ms ->
    Forall (fun h => zeros_as (cf_compatible cf) h /\ nz h = operators h) hs.
  Proof.
    intros X Q. assert (K : forall r h r', runs_list cf [] r ms h r' -> zeros_as (cf_compatible cf) h /\ nz h = operators h).
    { intros r0 h r1 R. split; [eapply zeros_list; eauto; constructor|]. apply balanced_list in R. unfold balanced in R. cbn in R. lia. }
    unfold executes in X. destruct (columns cf).
    - destruct X as (h & -> & R). constructor; [eapply K, R|constructor].
    - induction X; constructor; eauto.
  Qed.
End L.

(** ** Cells *)
Definition lane_from (k i : nat) (ds : list datum) (l : list cell) : Prop :=
  length l = length ds /\ forall j d c, nth_error ds j = Some d -> nth_error l j = Some c -> is_cell k (i + j) d c.
Lemma lane_from_inv k i d ds l : lane_from k i (d :: ds) l -> exists c l', l = c :: l' /\ is_cell k i d c /\ lane_from k (S i) ds l'.
Proof.
  intros [L H]. destruct l as [|c l]; [discriminate|]. exists c, l. split; [reflexivity|]. split.
  - specialize (H 0%nat d c eq_refl eq_refl). now rewrite Nat.add_0_r in H.
  - split; [cbn in L; lia|]. intros j d' c' A B. specialize (H (S j) d' c' A B). now rewrite Nat.add_succ_r in H.
Qed.
Lemma same_datum_cell k i i' d c c' : is_cell k i d c -> is_cell k i' d c' -> same_but_index c c'.
Proof.
  intros (A1 & A2 & _ & A4 & A5 & A6) (B1 & B2 & _ & B4 & B5 & B6). unfold same_but_index.
  rewrite A1, A2, A4, A5, B1, B2, B4, B5. repeat split; congruence.
Qed.
Lemma zeros_cells k ds ds' n : zeros_added ds ds' n -> forall i i' l l', lane_from k i ds l -> lane_from k i' ds' l' ->
  zero_cells_added l l' n.
Proof.
  induction 1 as [|x ds ds' n _ IH|x ds ds' n (Z1 & Z2 & Z3) _ IH]; intros i i' l l' A B.
  - destruct A as [A _], B as [B _]. destruct l, l'; try discriminate. constructor.
  - apply lane_from_inv in A. destruct A as (c & m & -> & Ac & Am). apply lane_from_inv in B. destruct B as (c' & m' & -> & Bc & Bm).
    constructor; [eapply same_datum_cell; eassumption|]. eapply IH; eassumption.
  - apply lane_from_inv in B. destruct B as (c' & m' & -> & (B1 & B2 & _ & _ & _ & B6) & Bm).
    constructor; [|eapply IH; eassumption]. unfold zero_of_operator. rewrite B1, B2. split; [exact Z1|]. split; [exact Z2|].
    rewrite Forall_forall in Z3. symmetry. apply Z3. eapply nth_error_In, B6.
Qed.
Lemma lane_from_0 k ds l : lane_ok k ds l -> lane_from k 0 ds l.
Proof. intros H. exact H. Qed.
Lemma Forall2_nth {A B} (R : A -> B -> Prop) l m : Forall2 R l m -> forall k x y, nth_error l k = Some x -> nth_error m k = Some y -> R x y.
Proof. induction 1; intros [|k] a b; cbn; try discriminate; [congruence|apply IHForall2]. Qed.
Lemma Forall2_nth_l {A B} (R : A -> B -> Prop) l m : Forall2 R l m -> forall k x, nth_error l k = Some x -> exists y, nth_error m k = Some y.
Proof. induction 1; intros [|k] a; cbn; try discriminate; [eauto|apply IHForall2]. Qed.
Lemma Forall2_len {A B} (R : A -> B -> Prop) l m : Forall2 R l m -> length l = length m.
Proof. induction 1; cbn; congruence. Qed.
Lemma zeros_shown cf hs hzs pay pay' : shows cf hs pay -> shows (compatible cf) hzs pay' ->
  Forall2 (fun h hz => zeros_added (data h) (data hz) (operators h)) hs hzs -> zeros_in_subsets cf hs pay pay'.
Proof.
  unfold shows, zeros_in_subsets, history_of. change (columns (compatible cf)) with (columns cf). destruct (columns cf).
  - intros (h & -> & L & A) (hz & -> & Lz & B) F. inversion F as [|? ? ? ? Z _]; subst. split; [cbn in Lz; lia|].
    intros k sb sb' h' E E' [= <-]. eapply zeros_cells; [exact Z| |]; apply lane_from_0; [eapply A, E|eapply B, E'].
  - intros A B F. split.
    + apply Forall2_len in A. apply Forall2_len in B. apply Forall2_len in F. lia.
    + intros k sb sb' h E E' Eh. destruct (Forall2_nth_l _ _ _ F _ _ Eh) as (hz & Ez).
      eapply zeros_cells; [eapply (Forall2_nth _ _ _ F); eassumption| |]; apply lane_from_0;
        [eapply (Forall2_nth _ _ _ A k); eassumption|eapply (Forall2_nth _ _ _ B k); eassumption].
Qed.

(** ** Parsed templates *)
Lemma documented_zeroed id k : documented id = Some k -> k = KAssessment \/ k = KBitmap -> zeroed id.
Proof.
  unfold documented, zeroed. intros H K.
  assert (E : id = 1000 * (id / 1000) + id mod 1000) by (apply Z.div_mod; lia).
  set (a := id / 1000) in *. set (b := id mod 1000) in *. clearbody a b. subst id. cbn [In].
  repeat match type of H with
  | match ?x with _ => _ end = _ => destruct x; try discriminate
  end; injection H as <-; destruct K as [K|K]; try discriminate; lia.
Qed.
Lemma right_op n : right_kind n -> op_node n.
Proof.
  destruct n as [k od ms b a]. unfold right_kind, op_node. cbn [an_desc an_kind]. intros H.
  destruct od as [d|]; [|subst k; exact I].
  destruct (id_F (d_id d)) as [|p|p]; [destruct (d_id d =? 31021); subst k; exact I| |contradiction].
  destruct p as [p|p|]; [| |destruct (id_Y (d_id d) =? 0); subst k; exact I].
  - destruct p; try contradiction. subst k. exact I.
  - destruct p; try contradiction. symmetry in H. destruct k; try exact I; [eexists; split; [reflexivity|]|]; eapply documented_zeroed; eauto.
Qed.
Lemma parsed_okn g ids ms : parsed g ids ms -> Forall simple ms -> Forall okn ms.
Proof.
  intros Hp Hs. assert (HK : Forall (all_nodes right_kind) ms) by (apply parsed_iff in Hp; eapply right_kinds; eauto).
  rewrite Forall_forall in *. intros n Hn. split; [auto|]. eapply all_nodes_mono; [|exact (HK n Hn)]. exact right_op.
Qed.

Lemma with_on cf : compatible cf = with_compat cf true.
Proof. reflexivity. Qed.
Lemma with_off cf : cf_compatible cf = false -> with_compat (compatible cf) false = cf.
Proof. destruct cf. cbn. now intros ->. Qed.
Lemma wz_all_data hs hzs : Forall2 wz hs hzs -> Forall (fun h => zeros_as false h /\ nz h = operators h) hs ->
  Forall (fun h => zeros_as true h /\ nz h = operators h) hzs ->
  Forall2 (fun h hz => zeros_added (data h) (data hz) (operators h)) hs hzs.
Proof.
  induction 1 as [|h hz hs hzs W _ IH]; intros A B; constructor; inversion A as [|? ? [A1 A2] A3]; inversion B as [|? ? [B1 B2] B3]; subst; auto.
  rewrite <- A2. now apply wz_data.
Qed.
Section P.
  Variables (g : group) (ids : list Z) (ms : list anode) (cf : config) (r : reader).
  Hypothesis Hp : parsed g ids ms.
  Hypothesis Hm : Forall simple ms.
  Hypothesis Hj : cf_json cf = false.
  Hypothesis Hc : cf_compatible cf = false.
  Hypothesis Hs : some_subset cf.
  Lemma Hn : cf_compressed cf = true -> 0 <= cf_nsubsets cf.
  Proof. intros E. unfold some_subset, columns in Hs. rewrite E, Hj in Hs. cbn in Hs. specialize (Hs eq_refl). lia. Qed.
  Theorem compat_payload s : run_payload cf (root ms) (vst0 r) = (s, Ok tt) ->
    exists hs, executes cf ms r hs (v_r s) /\ shows cf hs (v_pay s) /\
      (Forall short_bitmaps hs -> exists s', run_payload (compatible cf) (root ms) (vst0 r) = (s', Ok tt) /\
         v_r s' = v_r s /\ zeros_in_subsets cf hs (v_pay s) (v_pay s')).
  Proof.
    intros H. pose proof (parsed_no_base _ _ _ Hp) as Hb. pose proof (parsed_okn _ _ _ Hp Hm) as Ho.
    destruct (run_payload_sound cf ms r s Hb Hs H) as (hs & HX & HH).
    exists hs. split; [exact HX|]. split; [exact HH|]. intros Sh.
    destruct (sim_executes cf true Hj Hn _ _ _ _ HX Ho Sh) as (hzs & Xz & F). rewrite <- with_on in Xz.
    destruct (run_payload_complete (compatible cf) ms r hzs (v_r s) Hb Hs Xz) as (s' & E & Er & Hz).
    exists s'. split; [exact E|]. split; [exact Er|]. eapply zeros_shown; [eassumption|eassumption|].
    pose proof (zeros_executes cf Hj Hn _ _ _ _ HX Ho) as A. rewrite Hc in A.
    pose proof (zeros_executes (compatible cf) Hj Hn _ _ _ _ Xz Ho) as B. now apply wz_all_data.
  Qed.
  Theorem compat_payload_back s : run_payload (compatible cf) (root ms) (vst0 r) = (s, Ok tt) ->
    exists hs, executes (compatible cf) ms r hs (v_r s) /\ shows (compatible cf) hs (v_pay s) /\
      (Forall short_bitmaps hs -> exists s', run_payload cf (root ms) (vst0 r) = (s', Ok tt) /\
         v_r s' = v_r s /\ zeros_in_subsets cf hs (v_pay s') (v_pay s)).
  Proof.
    intros H. pose proof (parsed_no_base _ _ _ Hp) as Hb. pose proof (parsed_okn _ _ _ Hp Hm) as Ho.
    destruct (run_payload_sound (compatible cf) ms r s Hb Hs H) as (hs & HX & HH).
    exists hs. split; [exact HX|]. split; [exact HH|]. intros Sh.
    destruct (sim_executes (compatible cf) false Hj Hn _ _ _ _ HX Ho Sh) as (hzs & Xz & F). rewrite (with_off _ Hc) in Xz.
    destruct (run_payload_complete cf ms r hzs (v_r s) Hb Hs Xz) as (s' & E & Er & Hz).
    exists s'. split; [exact E|]. split; [exact Er|].
    pose proof (zeros_executes (compatible cf) Hj Hn _ _ _ _ HX Ho) as A.
    pose proof (zeros_executes cf Hj Hn _ _ _ _ Xz Ho) as B. rewrite Hc in B.
    assert (F' : Forall2 wz hzs hs) by (clear - F; induction F; constructor; auto using wz_sym).
    pose proof (zeros_shown cf hzs hs (v_pay s') (v_pay s) Hz HH (wz_all_data _ _ F' B A)) as [L K].
    split; [exact L|]. intros k sb sb' h E1 E2 E3.
    assert (G : exists h', history_of cf hzs k = Some h' /\ operators h' = operators h).
    { clear - F E3. unfold history_of in *. destruct (columns cf); destruct (Forall2_nth_l _ _ _ F _ _ E3) as (h' & E');
        (exists h'; split; [exact E'|]; apply wz_operators; eapply (Forall2_nth _ _ _ F); eassumption). }
    destruct G as (h' & G1 & <-). eapply K; eassumption.
  Qed.
End P.

(** ** One reference point *)
Section R.
  Variable cf : config.
  Definition assessed (h : history) : Prop := exists od, In (EvAssess od) h.
  Definition ref_ok (h : history) : Prop := forall later e before, h = later ++ e :: before ->
    match e with
    | EvCancelBackref => False
    | EvZero _ | EvTargets _ => assessed before
    | EvAssess _ => (0 < ncells before)%nat
    | _ => True
    end.
  Lemma ref_ok_cons e h : ref_ok h -> match e with
    | EvCancelBackref => False
    | EvZero _ | EvTargets _ => assessed h
    | EvAssess _ => (0 < ncells h)%nat
    | _ => True
    end -> ref_ok (e :: h).
  Proof. intros H He [|x later] e' before E; injection E as -> E; [subst; exact He|eapply H, E]. Qed.
  Lemma assessed_later h h' : assessed h -> (exists l, h' = l ++ h) -> assessed h'.
  Proof. intros (od & H) (l & ->). exists od. apply in_or_app. now right. Qed.
  Lemma ncells_later h h' : (0 < ncells h)%nat -> (exists l, h' = l ++ h) -> (0 < ncells h')%nat.
  Proof. intros H (l & ->). rewrite ncells_app. lia. Qed.
  Lemma one_inv k d ms b a : all_nodes one_reference_node (ANode k d ms b a) -> k <> KCancelBackRef /\
    (Forall (all_nodes one_reference_node) ms /\ Forall (fun m => an_kind m <> KBitmap) ms) /\
    match b with Some b => all_nodes one_reference_node b | None => True end /\
    (Forall (all_nodes one_reference_node) a /\ Forall (fun m => an_kind m <> KBitmap) a).
  Proof.
    intros H. apply all_nodes_eq in H. destruct H as ((H1 & H2) & H3 & H4 & H5). apply Forall_app in H2. tauto.
  Qed.
  Lemma ncells_cons e h : ncells (e :: h) = (ncells h + length (ev_data e))%nat.
  Proof. unfold ncells. cbn [data]. now rewrite app_length. Qed.
  Definition refs (h : history) (ms : list anode) (h' : history) : Prop :=
    Forall (all_nodes one_reference_node) ms -> Forall (fun m => an_kind m <> KBitmap) ms ->
    (0 < ncells h)%nat -> ref_ok h -> ref_ok h'.
  Lemma ref_runs h r n h' r' : runs cf h r n h' r' -> all_nodes one_reference_node n ->
    (an_kind n = KBitmap -> assessed h) -> (0 < ncells h)%nat -> ref_ok h -> ref_ok h'.
  Proof.
    intros H. induction H using runs_mut
      with (P0 := fun h _ ms h' _ _ => refs h ms h') (P1 := fun _ h _ ms h' _ _ => refs h ms h');
    try (intros Q; apply one_inv in Q; destruct Q as (Qk & [Qm Qm'] & Qb & [Qa Qa'])); try (lazymatch goal with |- (_ = KBitmap -> _) -> _ => intros A N O end);
    unfold refs in *; try (now apply ref_ok_cons); auto.
    - inversion Qm; inversion Qm'; subst. apply IHruns0; auto.
      + eapply ncells_later; [exact N|]. eapply later_all; eassumption.
      + apply IHruns; auto. congruence.
    - apply IHruns; auto; [rewrite ncells_cons; lia|]. now apply ref_ok_cons.
    - apply IHruns; auto; [rewrite ncells_cons; lia|]. now apply ref_ok_cons.
    - assert (L2 := later_all cf _ _ _ _ _ H). assert (L3 := later_list cf _ _ _ _ _ r0).
      assert (L1 : assessed (EvZero z :: EvAssess od :: h)) by (exists od; cbn; auto).
      assert (O1 : ref_ok (EvZero z :: EvAssess od :: h)).
      { apply ref_ok_cons; [apply ref_ok_cons; [exact O|exact N]|]. exists od. now left. }
      assert (N1 : (0 < ncells (EvZero z :: EvAssess od :: h))%nat) by (rewrite !ncells_cons; lia).
      apply IHruns1; auto.
      + rewrite ncells_cons. pose proof (ncells_later _ _ (ncells_later _ _ N1 L2) L3). lia.
      + apply ref_ok_cons; [|exact (assessed_later _ _ (assessed_later _ _ L1 L2) L3)].
        apply IHruns0; auto. exact (ncells_later _ _ N1 L2).
    - apply ref_ok_cons; [|exact I]. apply ref_ok_cons; [exact O|]. now apply A.
    - apply ref_ok_cons; [|exact I]. apply IHruns; auto; [rewrite !ncells_cons; lia|].
      apply ref_ok_cons; [|exact I]. apply ref_ok_cons; [exact O|]. now apply A.
    - intros Q Q' N O. inversion Q; inversion Q'; subst. apply IHruns0; auto.
      + eapply ncells_later; [exact N|]. eapply later_all; eassumption.
      + apply IHruns; auto. congruence.
    - intros Q Q' N O. apply IHruns0; auto.
      eapply ncells_later; [exact N|]. eapply later_list; eassumption.
  Qed.
  Lemma ref_list h r ms h' r' : runs_list cf h r ms h' r' -> refs h ms h'.
  Proof.
    induction 1; intros Q Q' N O; [exact O|]. inversion Q; inversion Q'; subst. apply IHruns_list; auto.
    - eapply ncells_later; [exact N|]. eapply later_all; eassumption.
    - eapply ref_runs; eauto. congruence.
  Qed.
  Lemma ref_start r ms h r' : runs_list cf [] r ms h r' -> one_reference ms -> ref_ok h.
  Proof.
    intros R (Q & Q' & m & ms' & -> & Km). inversion R as [|? ? ? ? h1 r1 ? ? R1 R2]; subst.
    inversion Q; inversion Q'; subst. remember (@nil event) as h0 eqn:E0. destruct R1; cbn [an_kind] in Km; try discriminate Km; subst.
    eapply ref_list; eauto.
    - rewrite ncells_cons. cbn [ev_data]. rewrite app_length. cbn. lia.
    - apply ref_ok_cons; [|exact I]. intros later e0 before E. destruct later; discriminate.
    - exfalso. cbn in H. decompose [or] H; try contradiction; congruence.
  Qed.
  Lemma ref_before l e h : ref_ok (l ++ e :: h) -> ref_ok h.
  Proof. intros H later e' before ->. apply (H (l ++ e :: later) e' before). now rewrite <- app_assoc. Qed.
  Lemma recent_all h : (forall later z before, h = later ++ EvZero z :: before -> False) -> recent h = ncells h.
  Proof.
    induction h as [|e h IH]; intros H; [reflexivity|]. rewrite ncells_cons. cbn [recent].
    rewrite IH by (intros later z before ->; exact (H (e :: later) z before eq_refl)).
    destruct e; try reflexivity. exfalso. exact (H [] _ h eq_refl).
  Qed.
  Lemma ref_first h : ref_ok h -> assessed h -> exists ref, reference h = Some ref /\ (0 < ncells ref)%nat /\ recent ref = ncells ref.
  Proof.
    induction h as [|e h IH]; intros O (od & A); [destruct A|].
    assert (O' : ref_ok h) by exact (ref_before [] e h O). specialize (O [] e h eq_refl).
    assert (D : reference h = None \/ assessed h).
    { clear. induction h as [|e h IH]; [now left|]. cbn [reference].
      destruct e; try (destruct IH as [IH|[od IH]]; [left; exact IH|right; exists od; now right]); [|now left].
      right. exists d. now left. }
    assert (K : assessed h -> exists ref, reference h = Some ref /\ (0 < ncells ref)%nat /\ recent ref = ncells ref) by (apply IH; exact O').
    destruct e; cbn [reference]; try (apply K; exists od; destruct A as [A|A]; [discriminate|exact A]); [|contradiction].
    destruct D as [D|D].
    - rewrite D. exists h. split; [reflexivity|]. split; [exact O|]. apply recent_all. intros later z before E.
      pose proof (O' later _ before E) as X. cbn in X. subst h.
      assert (X' : assessed (later ++ EvZero z :: before)) by (eapply assessed_later; [exact X|exists (later ++ [EvZero z]); now rewrite <- app_assoc]).
      destruct (K X') as (? & E & _). congruence.
    - destruct (K D) as (ref & E & X). rewrite E. eauto.
  Qed.
  Lemma ref_short h : ref_ok h -> justified cf h -> short_bitmaps h.
  Proof.
    intros O J later ps before E. pose proof (J _ _ _ E) as (bits & (i0 & i1 & Eb & Le & _ & Lb) & Lr & Ne & _).
    pose proof (O _ _ _ E) as A. cbn in A. subst h. apply ref_before in O.
    destruct (ref_first _ O A) as (ref & Er & Np & Rc). exists ref. split; [exact Er|].
    intros j0 j1 Ej. rewrite Eb in Ej. injection Ej as <- <-. rewrite (backref_reference _ _ Er Np) in *.
    assert (bits <> []) by (intros ->; specialize (Ne eq_refl); lia).
    destruct bits; [congruence|]. cbn [length] in *. lia.
  Qed.
  Lemma one_reference_short ms r hs r' : executes cf ms r hs r' -> one_reference ms -> Forall short_bitmaps hs.
  Proof.
    intros X Q. pose proof (executes_justified cf _ _ _ _ X) as J. unfold executes in X. destruct (columns cf).
    - destruct X as (h & -> & R). inversion J; subst. constructor; [|constructor]. apply ref_short; [eapply ref_start; eauto|assumption].
    - induction X as [|n r h r1 hs r2 R X IH]; [constructor|]. inversion J; subst. constructor; [|auto].
      apply ref_short; [eapply ref_start; eauto|assumption].
  Qed.
End R.
