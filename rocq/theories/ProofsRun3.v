(** The visitor's success is exactly execution in the reference semantics. *)
From Coq Require Import ZifyBool ZifyNat.
From Verif Require Export ProofsRun2.

(** ** Induction on trees *)
Section AnodeInd.
  Variable P : anode -> Prop.
  Hypothesis H : forall k d ms b at_, Forall P ms -> match b with Some b => P b | None => True end -> Forall P at_ ->
    P (ANode k d ms b at_).
  Fixpoint anode_full_ind (n : anode) : P n :=
    match n with
    | ANode k d ms b at_ =>
        H k d ms b at_
          ((fix go l : Forall P l := match l with [] => Forall_nil _ | x :: l' => Forall_cons x (anode_full_ind x) (go l') end) ms)
          (match b with Some b => anode_full_ind b | None => I end)
          ((fix go l : Forall P l := match l with [] => Forall_nil _ | x :: l' => Forall_cons x (anode_full_ind x) (go l') end) at_)
    end.
End AnodeInd.
Definition no_base (n : anode) : Prop := all_nodes (fun m => an_kind m <> KBase) n.
Lemma fold_Forall (P : anode -> Prop) l : fold_right (fun m Q => P m /\ Q) True l <-> Forall P l.
Proof.
  induction l as [|a l IH]; cbn; [split; auto|]. rewrite IH. split; [intros [? ?]; now constructor|]. intros H; inversion H; auto.
Qed.
Lemma no_base_inv k d ms b at_ : no_base (ANode k d ms b at_) ->
  k <> KBase /\ Forall no_base ms /\ match b with Some b => no_base b | None => True end /\ Forall no_base at_.
Proof. unfold no_base. cbn. rewrite !fold_Forall. tauto. Qed.

Section Main.
  Variable cf : config.
  Hypothesis Hp : (0 < lanes cf)%nat.

  (** ** Bitmap bookkeeping *)
  Lemma assess_rep od h s : rep cf h s ->
    exists s', NewAssessment s = (s', Ok tt) /\ v_r s' = v_r s /\ rep cf (EvAssess od :: h) s' /\ same_place s s'.
  Proof.
    intros R. pose proof R as [R1 R2 [B1 B2 B3 B4]].
    assert (Hd : data (EvAssess od :: h) = data h) by (cbn; now rewrite app_nil_r).
    unfold NewAssessment. erewrite bind_ok by reflexivity. unfold refNotSet.
    destruct (Z.eqb_spec (m_backref1 (v_bm s)) (-1)) as [E|E].
    - erewrite bind_ok by (unfold Len; rewrite (rep_len cf _ _ R1 Hp); reflexivity).
      eexists. split; [reflexivity|]. split; [reflexivity|]. split; [|repeat split].
      constructor; cbn [set_bm v_cells v_regs v_bm]; [now rewrite Hd|now apply rep_regs_event|].
      constructor; cbn [m_backref1 m_targets m_bitmaps m_reusable m_current]; auto.
      cbn [backref]. assert (backref h = 0%nat) as -> by lia. unfold ncells. lia.
    - exists s. split; [reflexivity|]. split; [reflexivity|]. split; [|repeat split].
      constructor; [now rewrite Hd|now apply rep_regs_event|]. constructor; auto.
      cbn [backref]. destruct (backref h) eqn:Eb; lia.
  Qed.
  Lemma cancel_backref_rep h s : rep cf h s ->
    exists s', CancelBackref s = (s', Ok tt) /\ v_r s' = v_r s /\ rep cf (EvCancelBackref :: h) s' /\ same_place s s'.
  Proof.
    intros [R1 R2 [B1 B2 B3 B4]]. eexists. split; [reflexivity|]. split; [reflexivity|]. split; [|repeat split].
    constructor; cbn [set_bm v_cells v_regs v_bm]; [cbn; now rewrite app_nil_r|now apply rep_regs_event|]. constructor; cbn; auto.
  Qed.
  Lemma cancel_bitmap_rep h s : rep cf h s ->
    exists s', CancelBitmap s = (s', Ok tt) /\ v_r s' = v_r s /\ rep cf (EvCancelBitmap :: h) s' /\ same_place s s'.
  Proof.
    intros [R1 R2 [B1 B2 B3 B4]]. eexists. split; [reflexivity|]. split; [reflexivity|]. split; [|repeat split].
    constructor; cbn [set_bm v_cells v_regs v_bm]; [cbn; now rewrite app_nil_r|now apply rep_regs_event|]. constructor; cbn; auto.
  Qed.
  Lemma recall_rep h s : rep cf h s ->
    exists s', RecallBitmap s = (s', Ok tt) /\ v_r s' = v_r s /\ rep cf (EvRecall :: h) s' /\ same_place s s'.
  Proof.
    intros [R1 R2 [B1 B2 B3 B4]]. eexists. split; [reflexivity|]. split; [reflexivity|]. split; [|repeat split].
    constructor; cbn [set_bm v_cells v_regs v_bm]; [cbn; now rewrite app_nil_r|now apply rep_regs_event|].
    constructor; cbn [m_backref1 m_targets m_bitmaps m_reusable m_current]; auto. now rewrite B2.
  Qed.
  Lemma define_rep h s : rep cf h s ->
    exists s', NewBitmap true s = (s', Ok tt) /\ v_r s' = v_r s /\ rep cf (EvDefine :: h) s' /\ same_place s s'.
  Proof.
    intros R. pose proof R as [R1 R2 [B1 B2 B3 B4]]. unfold NewBitmap.
    erewrite bind_ok by (unfold Len; rewrite (rep_len cf _ _ R1 Hp); reflexivity). erewrite bind_ok by reflexivity. cbv zeta.
    eexists. split; [reflexivity|]. split; [reflexivity|]. split; [|repeat split].
    constructor; cbn [set_bm v_cells v_regs v_bm]; [cbn; now rewrite app_nil_r|now apply rep_regs_event|].
    constructor; cbn [m_backref1 m_targets m_bitmaps m_reusable m_current]; auto.
    cbn [bitmap]. exists (ncells h), 0%nat. split; [|reflexivity]. rewrite nth_error_app2, Nat.sub_diag by lia. reflexivity.
  Qed.
  Lemma set_index1_nth l : forall i a b x, nth_error l i = Some (a, b) -> nth_error (set_index1 l i x) i = Some (a, x).
  Proof. induction l as [|[a0 b0] l IH]; intros [|i] a b x H; cbn in H |- *; try discriminate; [now injection H as -> _|eauto]. Qed.
  Lemma end_sound h s s' : rep cf h s -> EndBitmap s = (s', Ok tt) ->
    bitmap h <> None /\ v_r s' = v_r s /\ rep cf (EvDefined :: h) s' /\ same_place s s'.
  Proof.
    intros R H. pose proof R as [R1 R2 [B1 B2 B3 B4]]. unfold EndBitmap in H. erewrite bind_ok in H by reflexivity.
    destruct (m_current (v_bm s)) as [i|] eqn:Em; [|discriminate H].
    erewrite bind_ok in H by (unfold Len; rewrite (rep_len cf _ _ R1 Hp); reflexivity). apply ok_inv in H. destruct H as [<- _].
    destruct B3 as (i0 & i1 & E & Eb). split; [congruence|]. split; [reflexivity|]. split; [|repeat split].
    constructor; cbn [set_bm v_cells v_regs v_bm]; [cbn; now rewrite app_nil_r|now apply rep_regs_event|].
    constructor; cbn [m_backref1 m_targets m_bitmaps m_reusable m_current]; auto.
    cbn [bitmap]. rewrite Eb. exists i0, (ncells h). split; [|reflexivity]. eapply set_index1_nth. exact E.
  Qed.
  Lemma end_complete h s : rep cf h s -> bitmap h <> None -> exists s', EndBitmap s = (s', Ok tt).
  Proof.
    intros [R1 R2 [B1 B2 B3 B4]] Hb. unfold EndBitmap. erewrite bind_ok by reflexivity.
    destruct (m_current (v_bm s)) as [i|]; [|contradiction].
    erewrite bind_ok by (unfold Len; rewrite (rep_len cf _ _ R1 Hp); reflexivity). eexists. reflexivity.
  Qed.

  (** ** Markers *)
  Lemma marker_info t info h e : info = packing h e ->
    (if id_Operator (d_id t) =? 225
     then mkInfo (pi_unit info) (pi_scale info)
            (f64_of_Z (i64 (- i64 (if (0 <=? pi_nbits info) && (pi_nbits info <? 64) then 2 ^ pi_nbits info else 0))))
            (pi_nbits info + 1)
     else info) = marker_packing h t e.
  Proof. intros ->. reflexivity. Qed.
  Lemma marker_rep h s s' x n : rep cf h s -> built cf (data h) x n s s' -> rep_bm (EvItem KMarker x :: h) (lane0 (v_cells s)) (v_bm s) -> 
    rep cf (EvItem KMarker x :: h) s' /\ same_place s s'.
  Proof.
    intros R (H1 & H2 & H3 & H4 & (c & H5 & _) & _) HB. split; [|exact H1]. constructor; [exact H4| |].
    - rewrite H2. apply rep_regs_event; [reflexivity|apply R].
    - rewrite H3, H5. now apply rep_bm_app.
  Qed.
  Definition pop_target (s : vst) : vst :=
    let b := v_bm s in set_bm (mkBm (m_backref1 b) (tl (m_targets b)) (m_bitmaps b) (m_reusable b) (m_current b)) s.
  Lemma marker_sound h od s s' : rep cf h s -> visit_marker cf od s = (s', Ok tt) ->
    exists d p ps t e x, od = Some d /\ targets_left h = p :: ps /\ nth_error (data h) p = Some t /\
      d_entry (dt_desc t) = EB e /\ decodes cf d (marker_packing h (dt_desc t) e) (v_r s) x (v_r s') /\
      rep cf (EvItem KMarker x :: h) s' /\ same_place s s'.
  Proof.
    intros R H. pose proof R as [R1 R2 [B1 B2 B3 B4]]. unfold visit_marker in H. binv H. unfold NextTargetNode in E.
    destruct (m_targets (v_bm s)) as [|v vs] eqn:Et; [discriminate E|]. apply ok_inv in E. destruct E as [<- <-].
    inversion B4 as [|? p ? ps (c & Hc & Hv) HT E1 E2]; subst. binv H.
    destruct (rep_lane0 cf _ _ R1 Hp) as [Hl HL].
    destruct (nth_error (data h) p) as [t|] eqn:Ex.
    2: { apply nth_error_None in Ex. assert (nth_error (lane0 (v_cells s)) p <> None) as Hn by congruence. apply nth_error_Some in Hn. lia. }
    destruct (HL p t c Ex Hc) as (Hdesc & _). rewrite Hdesc in *. destruct (calc_inv _ _ _ _ E) as [e He].
    rewrite (calc_ok h _ e) in E; [|exact R2|exact He]. apply ok_inv in E. destruct E as [<- <-].
    binv H. destruct od as [d|]; [|discriminate E]. cbn in E. apply ok_inv in E. destruct E as [<- <-].
    rewrite (marker_info _ _ h e eq_refl) in H. binv H. apply ok_inv in H. destruct H as [<- _].
    match type of E with _ ?X = _ => destruct (build_sound cf (data h) d (marker_packing h (dt_desc t) e) X s0 a Hp R1 E) as (x & HD & HB) end.
    exists d, p, ps, t, e, x. repeat (split; [first [reflexivity|assumption|congruence]|]).
    destruct HB as (H1 & H2 & H3 & H4 & (c' & H5 & _) & _). split; [|exact H1]. constructor; [exact H4| |].
    - rewrite H2. now apply rep_regs_event.
    - rewrite H3, H5. apply rep_bm_app. constructor; cbn [set_bm v_bm v_cells m_backref1 m_targets m_bitmaps m_reusable m_current]; auto.
      cbn [targets_left]. now rewrite <- E2.
  Qed.
  Lemma marker_complete h d p ps t e x r1 s : rep cf h s -> targets_left h = p :: ps -> nth_error (data h) p = Some t ->
    d_entry (dt_desc t) = EB e -> decodes cf d (marker_packing h (dt_desc t) e) (v_r s) x r1 ->
    exists s', visit_marker cf (Some d) s = (s', Ok tt) /\ v_r s' = r1 /\ rep cf (EvItem KMarker x :: h) s' /\ same_place s s'.
  Proof.
    intros R Ht Ex He HD. pose proof R as [R1 R2 [B1 B2 B3 B4]]. rewrite Ht in B4.
    inversion B4 as [|v ? vs ? (c & Hc & Hv) HT E1 E2]; subst.
    destruct (rep_lane0 cf _ _ R1 Hp) as [Hl HL]. destruct (HL p t c Ex Hc) as (Hdesc & _).
    assert (EN : NextTargetNode s = (pop_target s, Ok (c_node c))) by (unfold NextTargetNode, pop_target; now rewrite <- E1).
    destruct (build_complete cf (data h) d _ (pop_target s) x r1 Hp R1 HD) as (s' & n & E & Hr & HB).
    exists s'. split; [|split; [exact Hr|]].
    - unfold visit_marker. erewrite bind_ok by exact EN. rewrite Hdesc.
      erewrite bind_ok by (apply (calc_ok h _ e); [exact R2|exact He]). cbn [need]. erewrite bind_ok by reflexivity.
      rewrite (marker_info _ _ h e eq_refl). erewrite bind_ok by exact E. reflexivity.
    - destruct HB as (H1 & H2 & H3 & H4 & (c' & H5 & _) & _). split; [|exact H1]. constructor; [exact H4| |].
      + rewrite H2. now apply rep_regs_event.
      + rewrite H3, H5. apply rep_bm_app. constructor; cbn [pop_target set_bm v_bm v_cells m_backref1 m_targets m_bitmaps m_reusable m_current]; auto.
        cbn [targets_left]. rewrite Ht, <- E1. exact HT.
  Qed.

  (** ** Source nodes *)
  Lemma cell_nodes_ok ds c : rep_cells cf ds c -> forall n i, (i + n <= length ds)%nat ->
    exists l, cell_nodes c (Z.of_nat i) n = Ok l /\ length l = n /\ l = firstn n (skipn i (map c_node (lane0 c))).
  Proof.
    intros R. induction n as [|n IH]; intros i Hi; cbn [cell_nodes]; [exists []; auto|].
    pose proof (cell0 cf Hp ds c i R) as Hc. destruct (nth_error ds i) as [x|] eqn:Ex; [|apply nth_error_None in Ex; lia].
    destruct Hc as (ce & vs & -> & Hn & _). cbn [rbind]. replace (Z.of_nat i + 1) with (Z.of_nat (S i)) by lia.
    destruct (IH (S i) ltac:(lia)) as (l & -> & Hl & El). cbn [rbind]. eexists. split; [reflexivity|]. split; [cbn; now rewrite Hl|].
    rewrite (skipn_nth (map c_node (lane0 c)) i), (map_nth_error c_node _ _ Hn). cbn [firstn]. now rewrite El.
  Qed.
  Lemma nodes_since_ok h s a0 : rep cf h s -> (a0 <= ncells h)%nat ->
    exists l, nodes_since (Z.of_nat a0) s = (s, Ok l) /\ length l = (ncells h - a0)%nat /\
      l = skipn a0 (map c_node (lane0 (v_cells s))).
  Proof.
    intros R Ha. unfold ncells in *. unfold nodes_since. erewrite bind_ok by (unfold Len; rewrite (rep_len cf (data h)); [reflexivity|apply R|exact Hp]).
    assert (Z.of_nat (length (data h)) - Z.of_nat a0 <? 0 = false) as -> by lia. erewrite bind_ok by reflexivity. unfold lift_res.
    replace (Z.to_nat (Z.of_nat (length (data h)) - Z.of_nat a0)) with (length (data h) - a0)%nat by lia.
    destruct (cell_nodes_ok (data h) (v_cells s) ltac:(apply R) (length (data h) - a0) a0 ltac:(lia)) as (l & -> & Hl & El).
    exists l. split; [reflexivity|]. split; [exact Hl|]. rewrite El. apply firstn_all2. rewrite skipn_length, map_length.
    destruct (rep_lane0 cf (data h) (v_cells s) ltac:(apply R) Hp) as [-> _]. lia.
  Qed.
  Lemma attach_ok : forall snodes i targets anodes s, (Z.to_nat i + length snodes <= length targets)%nat -> 0 <= i ->
    exists s', attach i targets snodes anodes s = (s', Ok tt) /\ only_heap s s'.
  Proof.
    clear. induction snodes as [|sn sns IH]; intros i targets anodes s Hle Hi; cbn [attach]; [exists s; split; [reflexivity|apply only_heap_refl]|].
    cbn [length] in Hle. unfold go_nth. assert (i <? 0 = false) as -> by lia.
    destruct (nth_error targets (Z.to_nat i)) as [t|] eqn:Et; [|apply nth_error_None in Et; lia].
    unfold lift_res. erewrite bind_ok by reflexivity.
    destruct (AddMember_ok (vn_id t) (Some (vn_id sn)) s) as (s1 & E1 & H1). erewrite bind_ok by exact E1.
    destruct (mapM_AddMember (fun _ : vnode => vn_id sn) (fun an : vnode => Some (vn_id an)) anodes s1) as (s2 & E2 & H2).
    erewrite bind_ok by exact E2. destruct (IH (i + 1) targets anodes s2) as (s3 & E3 & H3); [lia|lia|].
    exists s3. split; [exact E3|]. eapply only_heap_trans; [exact H1|]. eapply only_heap_trans; eauto.
  Qed.
  Lemma attach_inv : forall snodes i targets anodes s s', attach i targets snodes anodes s = (s', Ok tt) -> 0 <= i ->
    (Z.to_nat i <= length targets)%nat -> (Z.to_nat i + length snodes <= length targets)%nat.
  Proof.
    clear. induction snodes as [|sn sns IH]; intros i targets anodes s s' H Hi Hle; cbn [attach] in H; [cbn; lia|].
    binv H. unfold lift_res, go_nth in E. assert (i <? 0 = false) as Hz by lia. rewrite Hz in E.
    destruct (nth_error targets (Z.to_nat i)) as [t|] eqn:Et; [|discriminate E].
    assert (nth_error targets (Z.to_nat i) <> None) as Hn by congruence. apply nth_error_Some in Hn.
    binv H. binv H. specialize (IH _ _ _ _ _ H ltac:(lia)). cbn [length]. lia.
  Qed.

  (** ** Delayed replication factor *)
  Lemma equal_values_iff v w : value_eq v w = Ok true <-> equal_values v w.
  Proof.
    destruct v as [|x|x|x|x|[x|]], w as [|y|y|y|y|[y|]]; cbn [value_eq equal_values]; try (split; [discriminate|contradiction]); try tauto.
    - rewrite <- Z.eqb_eq. split; [now intros [= ->]|now intros ->].
    - rewrite <- Z.eqb_eq. split; [now intros [= ->]|now intros ->].
    - unfold f64_eqb, SFeqb. destruct (SFcompare x y) as [[]|]; split; congruence.
  Qed.
  Lemma last_equal_iff ds x c : (forall k l, nth_error c k = Some l -> lane_ok (S k) (ds ++ [x]) l) ->
    forall v0, length (dt_vals x) = S (length c) ->
    (last_equal (mkCell v0 (hd VNil (dt_vals x))) (Z.of_nat (length ds)) c = Ok true <->
     Forall (equal_values (hd VNil (dt_vals x))) (tl (dt_vals x))).
  Proof.
    intros HL v0 Hlen. destruct (dt_vals x) as [|v vs] eqn:Ev; [discriminate Hlen|]. cbn [hd tl] in *. injection Hlen as Hlen.
    assert (HL' : forall k l, nth_error c k = Some l -> exists ce, nth_error l (length ds) = Some ce /\ nth_error vs k = Some (c_val ce)).
    { intros k l Hk. destruct (HL k l Hk) as [H1 H2]. destruct (nth_error l (length ds)) as [ce|] eqn:Ec.
      - exists ce. split; [reflexivity|]. destruct (H2 (length ds) x ce) as (_ & _ & _ & _ & _ & H3); auto.
        + rewrite nth_error_app2, Nat.sub_diag by lia. reflexivity.
        + rewrite Ev in H3. exact H3.
      - apply nth_error_None in Ec. rewrite H1, app_length in Ec. cbn in Ec. lia. }
    clear HL Ev. revert vs Hlen HL'. induction c as [|l c IH]; intros vs Hlen HL'.
    - destruct vs; [|discriminate]. split; [constructor|reflexivity].
    - destruct vs as [|w vs]; [discriminate|]. injection Hlen as Hlen. cbn [last_equal]. destruct (HL' 0%nat l eq_refl) as (ce & Hc & Hw).
      cbn in Hw. injection Hw as ->. unfold go_nth at 1. assert (Z.of_nat (length ds) <? 0 = false) as -> by lia. rewrite Nat2Z.id, Hc.
      cbn [rbind c_val]. specialize (IH vs Hlen (fun k l Hk => HL' (S k) l Hk)).
      pose proof (equal_values_iff v (c_val ce)) as HQ. destruct (value_eq v (c_val ce)) as [[|]|e|p|] eqn:E; cbn [rbind].
      + rewrite IH. split; [intros; constructor; [now apply HQ|assumption]|]. intros HF. now inversion HF.
      + split; [discriminate|]. intros HF. inversion HF; subst. discriminate (proj2 HQ ltac:(assumption)).
      + split; [discriminate|]. intros HF. inversion HF; subst. discriminate (proj2 HQ ltac:(assumption)).
      + split; [discriminate|]. intros HF. inversion HF; subst. discriminate (proj2 HQ ltac:(assumption)).
      + split; [discriminate|]. intros HF. inversion HF; subst. discriminate (proj2 HQ ltac:(assumption)).
  Qed.
  Lemma rev_cases {A} (l : list A) : l = [] \/ exists l' x, l = l' ++ [x].
  Proof. destruct l using rev_ind; eauto. Qed.
  (** The steps between factor and repetitions. *)
  Definition get_factor : M vst Z :=
    (eq <- LastCellEquality ;;
     if negb eq
     then fail (EMsg "delayed replication factor not equal across all (compressed) subsets")
     else
       len <- Len ;;
       c <- CellAt (len - 1) ;;
       wrap "cannot get delayed replication value as uint" (lift_res (UintValue (cf_plat cf) (c_val c))))%M.
  Lemma factor_iff h s s' z : rep cf h s ->
    get_factor s = (s', Ok z) <-> s' = s /\ exists ds x v vs, data h = ds ++ [x] /\ dt_vals x = v :: vs /\
      Forall (equal_values v) vs /\ UintValue (cf_plat cf) v = Ok z.
  Proof.
    intros [R1 _ _]. unfold get_factor. destruct (rev_cases (data h)) as [Ed|(ds0 & x0 & Ed)]; rewrite Ed in *.
    - (* no cell at all *)
      split.
      + intros H. binv H. unfold LastCellEquality in E. exfalso. destruct (negb a); [discriminate H|].
        erewrite bind_ok in H by (unfold Len; injection E as <- _; rewrite (rep_len cf _ _ R1 Hp); reflexivity).
        binv H. unfold CellAt in E0. injection E as <- _. rewrite (rep_cell cf _ _ _ R1 Hp) in E0. discriminate E0.
      + intros [_ (ds & x & v & vs & E & _)]. destruct ds; discriminate.
    - pose proof (rc_vals _ _ _ R1) as HV. apply Forall_app in HV. destruct HV as [_ HV]. inversion HV as [|? ? Hx _]; subst. clear HV.
      pose proof (rc_lanes _ _ _ R1) as HL.
      assert (exists v vs, dt_vals x0 = v :: vs) as (v & vs & Ev). { destruct (dt_vals x0); [cbn in Hx; lia|eauto]. }
      assert (Hc0 : exists ce, nth_error (lane0 (v_cells s)) (length ds0) = Some ce /\ c_val ce = v).
      { destruct (rep_lane0 cf _ _ R1 Hp) as [H1 H2]. destruct (nth_error (lane0 (v_cells s)) (length ds0)) as [ce|] eqn:Ec.
        - exists ce. split; [reflexivity|]. destruct (H2 (length ds0) x0 ce) as (_ & _ & _ & _ & _ & H3); auto.
          + rewrite nth_error_app2, Nat.sub_diag by lia. reflexivity.
          + rewrite Ev in H3. cbn in H3. congruence.
        - apply nth_error_None in Ec. rewrite H1, app_length in Ec. cbn in Ec. lia. }
      destruct Hc0 as (ce & Hce & Hcv).
      assert (HE : cells_LastCellEquality (v_cells s) = Ok true <-> Forall (equal_values v) vs).
      { pose proof (rc_kind _ _ _ R1) as Hk. pose proof (rc_lane _ _ _ R1) as HR. destruct (v_cells s) as [l|[|t ts]]; cbn [cells_LastCellEquality cell_lanes] in *.
        - cbn in HL. rewrite <- HL in Hx. rewrite Ev in Hx. destruct vs; [|discriminate Hx]. split; [constructor|reflexivity].
        - cbn in HL. lia.
        - cbn in Hce. destruct (HR 0%nat t eq_refl) as [Ht _]. rewrite Ht, app_length. cbn [length].
          replace (Z.of_nat (length ds0 + 1) - 1) with (Z.of_nat (length ds0)) by lia.
          unfold go_nth at 1. assert (Z.of_nat (length ds0) <? 0 = false) as -> by lia. rewrite Nat2Z.id, Hce. cbn [rbind].
          destruct ce as [nd cv]. cbn in Hcv. subst cv.
          replace v with (hd VNil (dt_vals x0)) at 1 by now rewrite Ev.
          replace vs with (tl (dt_vals x0)) by now rewrite Ev.
          replace v with (hd VNil (dt_vals x0)) by now rewrite Ev.
          apply (last_equal_iff ds0 x0 ts).
          + intros k l Hk'. apply (HR (S k) l Hk').
          + cbn in HL. lia. }
      assert (HC : CellAt (Z.of_nat (length (ds0 ++ [x0])) - 1) s = (s, Ok ce)).
      { unfold CellAt. f_equal. rewrite (rep_cell cf _ _ _ R1 Hp). rewrite app_length. cbn [length].
        replace (Z.of_nat (length ds0 + 1) - 1) with (Z.of_nat (length ds0)) by lia.
        unfold go_nth. assert (Z.of_nat (length ds0) <? 0 = false) as -> by lia. now rewrite Nat2Z.id, Hce. }
      split.
      + intros H. binv H. unfold LastCellEquality in E. apply pair_equal_spec in E. destruct E as [<- E].
        destruct a; [|discriminate H]. cbn [negb] in H. apply HE in E.
        erewrite bind_ok in H by (unfold Len; rewrite (rep_len cf _ _ R1 Hp); reflexivity).
        rewrite (bind_ok _ _ _ _ _ HC) in H. rewrite Hcv in H. apply wrap_inv in H. unfold lift_res in H. apply pair_equal_spec in H. destruct H as [<- H].
        split; [reflexivity|]. exists ds0, x0, v, vs. auto.
      + intros [-> (ds1 & x1 & v1 & vs1 & E1 & E2 & E3 & E4)]. apply app_inj_tail in E1. destruct E1 as [<- <-].
        assert (v1 = v /\ vs1 = vs) as [-> ->] by (rewrite Ev in E2; injection E2; auto).
        unfold LastCellEquality. erewrite bind_ok by (rewrite (proj2 HE E3); reflexivity). cbn [negb].
        erewrite bind_ok by (unfold Len; rewrite (rep_len cf _ _ R1 Hp); reflexivity).
        rewrite (bind_ok _ _ _ _ _ HC), Hcv. apply wrap_ok. unfold lift_res. now rewrite E4.
  Qed.
End Main.
