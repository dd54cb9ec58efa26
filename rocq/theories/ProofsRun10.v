(** Delayed replication. *)
From Coq Require Import ZifyBool ZifyNat.
From Verif Require Export ProofsRun9.
From Verif Require Import ProofsParser3 ProofsParser4 ProofsParser5.

Section Delayed.
  Variable cf : config.
  Hypothesis Hp : (0 < lanes cf)%nat.
  Ltac notop := match goal with H : In _ _ |- _ => destruct H as [H|[H|[H|[H|[]]]]]; discriminate end.
  Definition delayed od m ms b a := ANode KDelayed od (m :: ms) b a.
  Lemma delayed_runs pre od m ms b a post h r h' r' :
    runs_list cf h r (pre ++ delayed od m ms b a :: post) h' r' <->
    exists h1 r1 n, runs_list cf h r (pre ++ [m]) h1 r1 /\ factor cf h1 n /\ runs_list cf h1 r1 (concat (repeat ms n) ++ post) h' r'.
  Proof.
    rewrite runs_list_app. split.
    - intros (h0 & r0 & H1 & H2). inversion H2 as [|? ? ? ? h2 r2 ? ? H3 H4]; subst. inversion H3; subst; try notop.
      do 3 eexists. split; [apply runs_list_app; do 2 eexists; split; [exact H1|apply runs_list_one; eassumption]|]. split; [eassumption|].
      apply runs_list_app. do 2 eexists. split; [apply runs_times_concat; eassumption|exact H4].
    - intros (h1 & r1 & n & H1 & H2 & H3). apply runs_list_app in H1. destruct H1 as (h0 & r0 & H0 & H1). apply runs_list_one in H1.
      apply runs_list_app in H3. destruct H3 as (h2 & r2 & H3 & H4). apply runs_times_concat in H3.
      exists h0, r0. split; [exact H0|]. econstructor; [|exact H4]. econstructor; eassumption.
  Qed.
  Lemma runs_vals ms r h r' : Forall no_base ms -> runs_list cf [] r ms h r' -> Forall (fun d => length (dt_vals d) = lanes cf) (data h).
  Proof.
    intros Hm H. destruct (vlist_does cf ms (all_does_nb cf ms Hp Hm)) as [_ V].
    destruct (V [] (start cf r []) h r' (rep_start cf r []) H) as (s' & _ & _ & R & _). apply (rc_vals _ _ _ (rp_cells _ _ _ R)).
  Qed.
  Lemma nth_map_last {A} (ds : list A) x : nth_error (ds ++ [x]) (length (ds ++ [x]) - 1) = Some x.
  Proof. clear. rewrite app_length. cbn. rewrite nth_error_app2 by lia. replace (_ - _)%nat with 0%nat by lia. reflexivity. Qed.
  Lemma lane_last k ds x l : lane_ok k (ds ++ [x]) l -> nth_error (map c_val l) (length l - 1) = nth_error (dt_vals x) k.
  Proof.
    clear. intros [HL HI]. rewrite nth_error_map. destruct (nth_error l (length l - 1)) as [c|] eqn:E.
    - cbn. rewrite HL in E. destruct (HI _ x c (nth_map_last ds x) E) as (_ & _ & _ & _ & _ & ->). reflexivity.
    - apply nth_error_None in E. rewrite app_length in HL. cbn in HL. lia.
  Qed.
  Lemma lane_empty k l : lane_ok k [] l -> l = [].
  Proof. intros [HL _]. now destruct l. Qed.
  Lemma shown_last h ds x pay : one_pass cf -> shows cf [h] pay -> data h = ds ++ [x] -> length (dt_vals x) = lanes cf ->
    last_values pay = map Some (dt_vals x).
  Proof.
    intros HS H Ed HL. unfold shows, last_values, lanes in *. destruct (columns cf) eqn:Hc.
    - destruct H as (h0 & E & Hlen & HI). injection E as <-. rewrite Ed in HI.
      rewrite <- Hlen in HL. clear Hlen Hp. 
      assert (K : forall p vs, (forall i sb, nth_error p i = Some sb -> nth_error (map c_val (sb_cells sb)) (length (sb_cells sb) - 1) = nth_error vs i) -> length vs = length p ->
        map (fun sb => nth_error (map c_val (sb_cells sb)) (length (sb_cells sb) - 1)) p = map Some vs).
      { induction p as [|sb p IH]; intros [|v vs] Hi Hl; try discriminate Hl; [reflexivity|]. cbn [map]. f_equal.
        - apply (Hi 0%nat sb eq_refl).
        - apply IH; [intros i; apply (Hi (S i))|now injection Hl]. }
      apply (K pay); [|exact HL]. intros i sb E. eapply lane_last. apply HI. exact E.
    - inversion H as [|? sb ? ? H1 H2]; subst. inversion H2; subst. cbn [map]. rewrite Ed in H1. rewrite (lane_last _ _ _ _ H1).
      destruct (dt_vals x) as [|v [|]]; try discriminate HL. reflexivity.
  Qed.
  Lemma shown_none h pay : one_pass cf -> shows cf [h] pay -> data h = [] -> Forall (fun o => o = None) (last_values pay).
  Proof.
    intros HS H Ed. unfold shows, last_values in *. destruct (columns cf) eqn:Hc.
    - destruct H as (h0 & E & Hlen & HI). injection E as <-. rewrite Ed in HI. apply Forall_forall. intros o Ho. apply in_map_iff in Ho.
      destruct Ho as (sb & <- & Hi). apply In_nth_error in Hi. destruct Hi as [k Hk]. apply HI, lane_empty in Hk. now rewrite Hk.
    - inversion H as [|? sb ? ? H1 H2]; subst. inversion H2; subst. rewrite Ed in H1. apply lane_empty in H1. cbn [map]. rewrite H1. repeat constructor.
  Qed.
  Lemma map_Some_inj {A} (l l' : list A) : map Some l = map Some l' -> l = l'.
  Proof. revert l'. induction l; intros [|] H; try discriminate H; [reflexivity|]. injection H as <- H. f_equal. auto. Qed.
  Lemma agreed_factor ms r h r' pay : Forall no_base ms -> one_pass cf -> runs_list cf [] r ms h r' -> shows cf [h] pay ->
    forall n, factor cf h n <-> exists z, agreed (cf_plat cf) pay z /\ n = Z.to_nat z.
  Proof.
    intros Hm HS HR Hh n. pose proof (runs_vals ms r h r' Hm HR) as HV.
    destruct (rev_cases (data h)) as [Ed|(ds & x & Ed)].
    - pose proof (shown_none h pay HS Hh Ed) as HN. split.
      + intros (ds & x & v & vs & z & E & _). rewrite Ed in E. destruct ds; discriminate.
      + intros (z & (v & vs & E & _) & _). rewrite E in HN. inversion HN. discriminate.
    - rewrite Ed in HV. apply Forall_app in HV. destruct HV as [_ HV]. inversion HV as [|? ? HL _]; subst.
      pose proof (shown_last h ds x pay HS Hh Ed HL) as E. unfold agreed. rewrite E. split.
      + intros (ds1 & x1 & v & vs & z & E1 & E2 & E3 & E4 & ->). rewrite Ed in E1. apply app_inj_tail in E1. destruct E1 as [<- <-].
        exists z. split; [|reflexivity]. exists v, vs. rewrite E2. auto.
      + intros (z & (v & vs & E1 & E2 & E3) & ->). exists ds, x, v, vs, z. split; [exact Ed|]. split; [|auto].
        change (Some v :: map Some vs) with (map Some (v :: vs)) in E1. now apply map_Some_inj in E1.
  Qed.
  Lemma single_sound ms r s : Forall no_base ms -> one_pass cf -> run_payload cf (root ms) (vst0 r) = (s, Ok tt) ->
    exists h, runs_list cf [] r ms h (v_r s) /\ shows cf [h] (v_pay s).
  Proof.
    intros Hm HS H. destruct (run_payload_sound cf ms r s Hm) as (hs & HX & HH); [|exact H|].
    { intros Hc. unfold lanes in Hp. rewrite Hc in Hp. lia. }
    unfold executes in HX. destruct (columns cf) eqn:Hc.
    - destruct HX as (h & -> & HR). eauto.
    - destruct HS as [HS|HS]; [congruence|]. rewrite HS in HX. change (Z.to_nat 1) with 1%nat in HX.
      inversion HX as [|? ? h r1 hs1 r2 HR HX2]; subst. inversion HX2; subst. eauto.
  Qed.
  Lemma single_complete ms r h r' : Forall no_base ms -> one_pass cf -> runs_list cf [] r ms h r' ->
    exists s, run_payload cf (root ms) (vst0 r) = (s, Ok tt) /\ v_r s = r' /\ shows cf [h] (v_pay s).
  Proof.
    intros Hm HS HR. apply run_payload_complete; [exact Hm| |].
    { intros Hc. unfold lanes in Hp. rewrite Hc in Hp. lia. }
    unfold executes. destruct (columns cf) eqn:Hc; [eauto|]. destruct HS as [HS|HS]; [congruence|]. rewrite HS. change (Z.to_nat 1) with 1%nat.
    econstructor; [exact HR|constructor].
  Qed.
  Lemma rootless_parts pre m ms od b a post : rootless (pre ++ delayed od m ms b a :: post) ->
    rootless pre /\ no_base m /\ rootless ms /\ rootless post.
  Proof.
    intros H. apply Forall_app in H. destruct H as [H1 H2]. inversion H2 as [|? ? H3 H4]; subst.
    unfold delayed in H3. cbn [all_nodes fold_right] in H3. destruct H3 as (_ & (H5 & H6) & _).
    apply all_nodes_Forall in H6. auto.
  Qed.
  Lemma rootless_repeat ms n : rootless ms -> rootless (concat (repeat ms n)).
  Proof. intros H. induction n; cbn [repeat concat]; [constructor|]. apply Forall_app. auto. Qed.
  Lemma rootless_snoc pre m : rootless pre -> no_base m -> rootless (pre ++ [m]).
  Proof. intros H1 H2. apply Forall_app. split; [exact H1|]. repeat constructor. exact H2. Qed.
  Lemma delayed_payload pre od m ms b a post r s : rootless (pre ++ delayed od m ms b a :: post) -> one_pass cf ->
    run_payload cf (root (pre ++ delayed od m ms b a :: post)) (vst0 r) = (s, Ok tt) ->
    exists s1 s2 z, run_payload cf (root (pre ++ [m])) (vst0 r) = (s1, Ok tt) /\ agreed (cf_plat cf) (v_pay s1) z /\
      run_payload cf (root (pre ++ [m] ++ concat (repeat ms (Z.to_nat z)) ++ post)) (vst0 r) = (s2, Ok tt) /\
      v_r s2 = v_r s /\ views (v_pay s2) = views (v_pay s).
  Proof.
    intros Hb HS H. destruct (rootless_parts _ _ _ _ _ _ _ Hb) as (B1 & B2 & B3 & B4).
    destruct (single_sound _ _ _ Hb HS H) as (h & HR & HH). apply delayed_runs in HR. destruct HR as (h1 & r1 & n & HR1 & HF & HR2).
    destruct (single_complete _ _ _ _ (rootless_snoc _ _ B1 B2) HS HR1) as (s1 & E1 & Er1 & HH1).
    apply (agreed_factor _ _ _ _ _ (rootless_snoc _ _ B1 B2) HS HR1 HH1) in HF. destruct HF as (z & HA & ->).
    assert (HR : runs_list cf [] r (pre ++ [m] ++ concat (repeat ms (Z.to_nat z)) ++ post) h (v_r s)).
    { rewrite app_assoc. apply runs_list_app. eauto. }
    destruct (single_complete (pre ++ [m] ++ concat (repeat ms (Z.to_nat z)) ++ post) r h (v_r s)) as (s2 & E2 & Er2 & HH2); [|exact HS|exact HR|].
    { rewrite app_assoc. apply Forall_app. split; [now apply rootless_snoc|]. apply Forall_app. split; [now apply rootless_repeat|exact B4]. }
    exists s1, s2, z. split; [exact E1|]. split; [exact HA|]. split; [exact E2|]. split; [exact Er2|]. eapply shows_views; eauto.
  Qed.
  Lemma delayed_payload_back pre od m ms b a post r s1 s2 z : rootless (pre ++ delayed od m ms b a :: post) -> one_pass cf ->
    run_payload cf (root (pre ++ [m])) (vst0 r) = (s1, Ok tt) -> agreed (cf_plat cf) (v_pay s1) z ->
    run_payload cf (root (pre ++ [m] ++ concat (repeat ms (Z.to_nat z)) ++ post)) (vst0 r) = (s2, Ok tt) ->
    exists s, run_payload cf (root (pre ++ delayed od m ms b a :: post)) (vst0 r) = (s, Ok tt) /\
      v_r s2 = v_r s /\ views (v_pay s2) = views (v_pay s).
  Proof.
    intros Hb HS H1 HA H2. destruct (rootless_parts _ _ _ _ _ _ _ Hb) as (B1 & B2 & B3 & B4).
    destruct (single_sound _ _ _ (rootless_snoc _ _ B1 B2) HS H1) as (h1 & HR1 & HH1).
    assert (B5 : rootless (pre ++ [m] ++ concat (repeat ms (Z.to_nat z)) ++ post)).
    { rewrite app_assoc. apply Forall_app. split; [now apply rootless_snoc|]. apply Forall_app. split; [now apply rootless_repeat|exact B4]. }
    destruct (single_sound _ _ _ B5 HS H2) as (h2 & HR2 & HH2).
    rewrite app_assoc in HR2. apply runs_list_app in HR2. destruct HR2 as (h1' & r1' & HR1' & HR2).
    destruct (single_complete _ _ _ _ (rootless_snoc _ _ B1 B2) HS HR1') as (s1' & E1 & Er1 & HH1').
    assert (s1' = s1) by congruence. subst s1'.
    assert (HF : factor cf h1' (Z.to_nat z)). { apply (agreed_factor _ _ _ _ _ (rootless_snoc _ _ B1 B2) HS HR1' HH1'). eauto. }
    assert (HR : runs_list cf [] r (pre ++ delayed od m ms b a :: post) h2 (v_r s2)). { apply delayed_runs. do 3 eexists. split; [exact HR1'|]. split; [exact HF|exact HR2]. }
    destruct (single_complete _ _ _ _ Hb HS HR) as (s & E & Er & HH). exists s. split; [exact E|]. split; [now symmetry|]. eapply shows_views; eauto.
  Qed.

  (** ** Errors *)
  Definition ends (x : res Z) : Prop := (exists z, x = Ok z) \/ exists e, x = Err e.
  Lemma value_eq_total v w : (forall b, v <> VBytes b) -> exists q, value_eq v w = Ok q.
  Proof. intros H. destruct v, w; cbn [value_eq]; eauto; try (exfalso; eapply H; reflexivity). all: try destruct b; eauto. all: destruct b0; eauto. Qed.
  Lemma last_equal_ends v0 v i ts : (forall b, v <> VBytes b) -> (forall t, In t ts -> exists c, go_nth t i = Ok c) ->
    exists q, last_equal (mkCell v0 v) i ts = Ok q.
  Proof.
    intros Hv. induction ts as [|t ts IH]; intros H; cbn [last_equal]; [eauto|]. destruct (H t (or_introl eq_refl)) as [c Hc]. rewrite Hc. cbn [rbind c_val].
    destruct (value_eq_total v (c_val c) Hv) as [q ->]. cbn [rbind]. destruct q; [|eauto]. apply IH. intros t' Ht. apply H. now right.
  Qed.
  Lemma UintValue_ends pl v : ends (UintValue pl v).
  Proof. unfold ends. destruct v; cbn [UintValue]; eauto. Qed.
  Lemma get_factor_ends h s ds x v vs : rep cf h s -> data h = ds ++ [x] -> dt_vals x = v :: vs -> ((forall b, v <> VBytes b) \/ vs = []) ->
    exists q, get_factor cf s = (s, q) /\ ends q.
  Proof.
    intros [R1 _ _] Ed Ev Hv. unfold get_factor. rewrite Ed in R1.
    assert (HQ : exists q, cells_LastCellEquality (v_cells s) = Ok q).
    { pose proof (rc_lanes _ _ _ R1) as HL. pose proof (rc_lane _ _ _ R1) as HR. destruct (v_cells s) as [l|[|t ts]] eqn:Ec; cbn [cells_LastCellEquality].
      - eauto.
      - cbn in HL. lia.
      - destruct (HR 0%nat t eq_refl) as [Ht Hi]. cbn [cell_lanes] in *. rewrite app_length in Ht. cbn in Ht.
        assert (Hn : forall k l, nth_error (t :: ts) k = Some l -> exists c, go_nth l (Z.of_nat (length t) - 1) = Ok c).
        { intros k l Hk. destruct (HR k l Hk) as [Hll _]. rewrite app_length in Hll. cbn in Hll. unfold go_nth.
          assert (Z.of_nat (length t) - 1 <? 0 = false) as -> by lia.
          destruct (nth_error l (Z.to_nat (Z.of_nat (length t) - 1))) eqn:E; [eauto|]. apply nth_error_None in E. lia. }
        destruct (Hn 0%nat t eq_refl) as [c Hc]. rewrite Hc. cbn [rbind]. destruct c as [c0 cv].
        assert (cv = v) as ->.
        { unfold go_nth in Hc. destruct (_ <? 0); [discriminate|]. destruct (nth_error t _) as [c1|] eqn:E; [|discriminate]. injection Hc as ->.
          replace (Z.to_nat (Z.of_nat (length t) - 1)) with (length ds) in E by lia.
          assert (E2 : nth_error (ds ++ [x]) (length ds) = Some x) by (rewrite nth_error_app2, Nat.sub_diag by lia; reflexivity).
          destruct (Hi (length ds) x _ E2 E) as (_ & _ & _ & _ & _ & H). rewrite Ev in H. cbn in H. congruence. }
        destruct Hv as [Hv| ->].
        + apply last_equal_ends; [exact Hv|]. intros t' Ht'. apply In_nth_error in Ht'. destruct Ht' as [k Hk]. apply (Hn (S k)). exact Hk.
        + pose proof (rc_vals _ _ _ R1) as HV. apply Forall_app in HV. destruct HV as [_ HV]. inversion HV as [|? ? HV1 _]; subst.
          rewrite Ev in HV1. cbn in HV1, HL. destruct ts; [|cbn in HL; lia]. cbn. eauto. }
    destruct HQ as [q HQ]. unfold bind at 1. unfold LastCellEquality. rewrite HQ. destruct q; cbn [negb]; [|eexists; split; [reflexivity|right; eauto]].
    erewrite bind_ok by (unfold Len; rewrite (rep_len cf _ _ R1 Hp); reflexivity).
    destruct (rep_lane0 cf _ _ R1 Hp) as [H1 _].
    unfold bind. unfold CellAt. rewrite (rep_cell cf _ _ _ R1 Hp). rewrite app_length. cbn [length].
    unfold go_nth. assert (Z.of_nat (length ds + 1) - 1 <? 0 = false) as -> by lia.
    destruct (nth_error (lane0 (v_cells s)) (Z.to_nat (Z.of_nat (length ds + 1) - 1))) as [c|] eqn:E.
    2:{ apply nth_error_None in E. rewrite H1, app_length in E. cbn in E. lia. }
    unfold wrap, lift_res. destruct (UintValue_ends (cf_plat cf) (c_val c)) as [[z ->]|[e ->]]; eexists; (split; [reflexivity|]); [left|right]; eauto.
  Qed.
  Lemma delayed_model od m ms b a s : visit cf (delayed od m ms b a) s =
    enter (NValueless od) (wrap "cannot process delayed replication factor" (visit cf m) ;;
        nrep <- get_factor cf ;; iter_Z nrep (wrap "cannot process delayed replication" (vblock cf ms)))%M s.
  Proof.
    unfold enter. set (X := pushed (NValueless od) s).
    change (visit cf (delayed od m ms b a) s) with
         (deferM tree_Pop (wrap "cannot process delayed replication factor" (visit cf m) ;;
                   eq <- LastCellEquality ;;
                   if negb eq
                   then fail (EMsg "delayed replication factor not equal across all (compressed) subsets")
                   else
                     len <- Len ;;
                     c <- CellAt (len - 1) ;;
                     nrep <- wrap "cannot get delayed replication value as uint"
                               (lift_res (UintValue (cf_plat cf) (c_val c))) ;;
                     iter_Z nrep (wrap "cannot process delayed replication" (vblock cf ms)))%M X).
    unfold deferM. erewrite bind_ext; [reflexivity|]. intros [] s1. unfold get_factor. rewrite bind_assoc. apply bind_ext. intros q s2.
    destruct (negb q); [reflexivity|]. rewrite bind_assoc. apply bind_ext. intros l s3. rewrite bind_assoc. reflexivity.
  Qed.
  Lemma mapM_app {A} (f : A -> M vst unit) l l' s : mapM_ f (l ++ l') s = bind (mapM_ f l) (fun _ => mapM_ f l') s.
  Proof.
    revert s. induction l as [|x l IH]; intros s; cbn [app mapM_]; [reflexivity|]. unfold bind in *. destruct (f x s) as [s1 [[]|e|p|]]; auto.
  Qed.
  Lemma delayed_error pre od m ms b a post r s1 v vs : rootless (pre ++ delayed od m ms b a :: post) -> one_pass cf ->
    run_payload cf (root (pre ++ [m])) (vst0 r) = (s1, Ok tt) -> last_values (v_pay s1) = Some v :: map Some vs ->
    ((forall b, v <> VBytes b) \/ vs = []) -> (forall z, ~ agreed (cf_plat cf) (v_pay s1) z) ->
    exists s e, run_payload cf (root (pre ++ delayed od m ms b a :: post)) (vst0 r) = (s, Err e).
  Proof.
    intros Hb HS H1 HL Hv HN. destruct (rootless_parts _ _ _ _ _ _ _ Hb) as (B1 & B2 & B3 & B4).
    destruct (single_sound _ _ _ (rootless_snoc _ _ B1 B2) HS H1) as (h1 & HR1 & HH1).
    assert (HR := HR1). apply runs_list_app in HR. destruct HR as (h0 & r0 & HR0 & HRm). apply runs_list_one in HRm.
    destruct (vlist_does cf pre (all_does_nb cf pre Hp B1)) as [_ V].
    destruct (V [] (start cf r []) h0 r0 (rep_start cf r []) HR0) as (sa & Ea & Era & Ra & Pa).
    destruct (visit_does cf Hp m B2) as [_ Vm].
    destruct (Vm h0 (pushed (NValueless od) sa) h1 (v_r s1) (rep_pushed cf _ _ _ Ra)) as (sb & Eb & Erb & Rb & Pb).
    { cbn [pushed set_tree v_r]. rewrite Era. exact HRm. }
    assert (HF : exists e, get_factor cf sb = (sb, Err e)).
    { destruct (rev_cases (data h1)) as [Ed|(ds & x & Ed)].
      { pose proof (shown_none h1 _ HS HH1 Ed) as K. rewrite HL in K. inversion K. discriminate. }
      pose proof (runs_vals _ _ _ _ (rootless_snoc _ _ B1 B2) HR1) as HV. rewrite Ed in HV. apply Forall_app in HV. destruct HV as [_ HV]. inversion HV as [|? ? HV1 _]; subst.
      pose proof (shown_last h1 ds x _ HS HH1 Ed HV1) as E. rewrite HL in E. change (Some v :: map Some vs) with (map Some (v :: vs)) in E. apply map_Some_inj in E.
      destruct (get_factor_ends h1 sb ds x v vs Rb Ed (eq_sym E) Hv) as (q & Eq & [[z ->]|[e ->]]); [|eauto].
      exfalso. apply (factor_iff cf Hp h1) in Eq; [|exact Rb]. destruct Eq as [_ (ds1 & x1 & v1 & vs1 & K1 & K2 & K3 & K4)].
      apply (HN z). exists v1, vs1. rewrite HL. rewrite Ed in K1. apply app_inj_tail in K1. destruct K1 as [<- <-]. rewrite K2 in E. injection E as -> ->. auto. }
    destruct HF as [e HF].
    assert (EV : exists s', visit cf (delayed od m ms b a) sa = (s', Err e)).
    { rewrite delayed_model. unfold enter, deferM. rewrite (bind_ok _ _ _ _ _ (wrap_ok _ _ _ _ _ Eb)). unfold bind. rewrite HF.
      destruct (pop_ok cf _ _ _ Pb) as (s2 & E2 & _). rewrite E2. eauto. }
    destruct EV as [s' EV]. rewrite run_payload_eq.
    assert ((if columns cf then 1%nat else Z.to_nat (cf_nsubsets cf)) = 1%nat) as ->.
    { destruct HS as [HS|HS]; [now rewrite HS|]. rewrite HS. now destruct (columns cf). }
    cbn [iterN]. unfold bind at 1. unfold pass. unfold bind at 1.
    rewrite (visit_root cf _ (pre ++ delayed od m ms b a :: post)); [|reflexivity|now apply lanes_guard].
    unfold wrap. cbn [vst0 v_r v_pay]. rewrite mapM_app. fold (vlist cf pre). rewrite (bind_ok _ _ _ _ _ Ea). cbn [mapM_]. unfold bind. rewrite EV. eauto.
  Qed.
End Delayed.
