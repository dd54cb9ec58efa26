(** The visitor implements the reference semantics SpecRun. *)
From Coq Require Import ZifyBool ZifyNat.
From Verif Require Export SpecRun ProofsBase.
From Verif Require Import ProofsUnpack.

(** ** Representation of a history by the visitor's state *)

Definition cell_lanes (c : cellsb) : list (list cell) := match c with UCells l => [l] | CCells ts => ts end.
Definition lane0 (c : cellsb) : list cell := hd [] (cell_lanes c).
Record rep_cells (cf : config) (ds : list datum) (c : cellsb) : Prop := mkRepCells {
  rc_kind : columns cf = match c with UCells _ => false | CCells _ => true end;
  rc_lanes : length (cell_lanes c) = lanes cf;
  rc_lane : forall k l, nth_error (cell_lanes c) k = Some l -> lane_ok k ds l;
  rc_nodes : forall l, In l (cell_lanes c) -> map c_node l = map c_node (lane0 c);
  rc_vals : Forall (fun d => length (dt_vals d) = lanes cf) ds }.

Record rep_regs (h : history) (g : regs) : Prop := mkRepRegs {
  rg_201 : g_nbitsOffset g = offset 201 h;
  rg_202 : g_scaleOffset g = offset 202 h;
  rg_203 : g_newRefvals g = None;
  rg_204 : map fst (g_assoc g) = open_fields h;
  rg_207n : g_nbitsIncrement g = (let y := last_operand 207 h in if y =? 0 then 0 else go_quot (10 * y + 2) 3);
  rg_207s : g_scaleIncrement g = last_operand 207 h;
  rg_207r : g_refvalFactor g = last_operand 207 h;
  rg_208 : g_nbitsString g = 8 * last_operand 208 h }.

Definition target_at (l : list cell) (v : vnode) (p : nat) : Prop := exists c, nth_error l p = Some c /\ c_node c = v.
Record rep_bm (h : history) (l : list cell) (b : bmstate) : Prop := mkRepBm {
  rb_back : m_backref1 b = Z.of_nat (backref h) - 1;
  rb_same : m_reusable b = m_current b;
  rb_cur : match m_current b with
           | None => bitmap h = None
           | Some i => exists i0 i1, nth_error (m_bitmaps b) i = Some (Z.of_nat i0, Z.of_nat i1) /\ bitmap h = Some (i0, i1)
           end;
  rb_targets : Forall2 (target_at l) (m_targets b) (targets_left h) }.

Record rep (cf : config) (h : history) (s : vst) : Prop := mkRep {
  rp_cells : rep_cells cf (data h) (v_cells s);
  rp_regs : rep_regs h (v_regs s);
  rp_bm : rep_bm h (lane0 (v_cells s)) (v_bm s) }.

(** ** Parts of the state an operation leaves alone *)
Definition extends (s s' : vst) : Prop := exists l, lane0 (v_cells s') = lane0 (v_cells s) ++ l.
Definition same_place (s s' : vst) : Prop :=
  t_stack (v_tree s') = t_stack (v_tree s) /\ t_node (v_tree s') = t_node (v_tree s) /\ v_pay s' = v_pay s.
Lemma same_place_refl s : same_place s s. Proof. repeat split. Qed.
Lemma same_place_trans a b c : same_place a b -> same_place b c -> same_place a c.
Proof. unfold same_place. intuition congruence. Qed.
Definition only_heap (s s' : vst) : Prop :=
  same_place s s' /\ v_r s' = v_r s /\ v_cells s' = v_cells s /\ v_regs s' = v_regs s /\ v_bm s' = v_bm s.
Lemma only_heap_refl s : only_heap s s. Proof. repeat split. Qed.
Lemma only_heap_trans a b c : only_heap a b -> only_heap b c -> only_heap a c.
Proof. unfold only_heap. intros (H1 & H2 & H3 & H4 & H5) (K1 & K2 & K3 & K4 & K5). split; [eapply same_place_trans; eauto|]. intuition congruence. Qed.
Lemma rep_only_heap cf h s s' : only_heap s s' -> rep cf h s -> rep cf h s'.
Proof. intros (_ & H2 & H3 & H4 & H5) [R1 R2 R3]. constructor; rewrite ?H3, ?H4, ?H5; assumption. Qed.

Lemma AddMember_ok i m s : exists s', AddMember i m s = (s', Ok tt) /\ only_heap s s'.
Proof. eexists. split; [reflexivity|]. repeat split. Qed.
Lemma add_valueless_ok d s : exists s', add_valueless d s = (s', Ok tt) /\ only_heap s s'.
Proof. eexists. split; [reflexivity|]. repeat split. Qed.
Lemma mapM_AddMember {A} (f : A -> nat) (g : A -> option nat) l : forall s,
  exists s', mapM_ (fun x => AddMember (f x) (g x)) l s = (s', Ok tt) /\ only_heap s s'.
Proof.
  induction l as [|a l IH]; intros s; cbn [mapM_]; [eexists; split; [reflexivity|apply only_heap_refl]|].
  destruct (AddMember_ok (f a) (g a) s) as (s1 & E1 & H1). destruct (IH s1) as (s2 & E2 & H2).
  exists s2. split; [|eapply only_heap_trans; eauto]. rewrite (bind_ok _ _ _ _ _ E1). exact E2.
Qed.

(** ** Cells *)
Lemma lane_ok_snoc k ds l d c : lane_ok k ds l -> is_cell k (length ds) d c -> lane_ok k (ds ++ [d]) (l ++ [c]).
Proof.
  intros [Hl H] Hc. split; [rewrite !app_length; cbn; lia|]. intros i d' c' Hd Hc'.
  destruct (Nat.lt_ge_cases i (length ds)) as [Hi|Hi].
  - rewrite nth_error_app1 in Hd by lia. rewrite nth_error_app1 in Hc' by lia. eauto.
  - rewrite nth_error_app2 in Hd by lia. rewrite nth_error_app2 in Hc' by lia.
    rewrite Hl in Hc'. destruct (i - length ds)%nat as [|j] eqn:E; [|destruct j; discriminate].
    cbn in Hd, Hc'. injection Hd as <-. injection Hc' as <-. now replace i with (length ds) by lia.
Qed.
Lemma add_column_ok n ts vs : length vs = length ts ->
  exists ts', add_column n ts vs = Ok ts' /\ length ts' = length ts /\
    forall k l', nth_error ts' k = Some l' -> exists l v, nth_error ts k = Some l /\ nth_error vs k = Some v /\ l' = l ++ [mkCell n v].
Proof.
  revert vs. induction ts as [|t ts IH]; intros [|v vs] Hl; try discriminate Hl.
  - exists []. repeat split. intros [|k]; discriminate.
  - cbn in Hl. destruct (IH vs ltac:(lia)) as (ts' & E & Hl' & H). cbn [add_column]. rewrite E. cbn [rbind].
    eexists. split; [reflexivity|]. split; [cbn; lia|]. intros [|k] l' Hk; cbn in Hk |- *; [injection Hk as <-; eauto|eauto].
Qed.
(** Number of cells, cell access. *)
Lemma rep_len cf ds c : rep_cells cf ds c -> (0 < lanes cf)%nat -> cells_Len c = Ok (Z.of_nat (length ds)).
Proof.
  intros R Hp. pose proof (rc_lanes _ _ _ R) as Hl. pose proof (rc_lane _ _ _ R 0%nat) as H.
  destruct c as [l|[|t ts]]; cbn in Hl |- *; [| lia |]; destruct (H _ eq_refl) as [-> _]; reflexivity.
Qed.
Lemma rep_cell cf ds c i : rep_cells cf ds c -> (0 < lanes cf)%nat -> cells_Cell c i = go_nth (lane0 c) i.
Proof.
  intros R Hp. pose proof (rc_lanes _ _ _ R) as Hl. destruct c as [l|[|t ts]]; cbn in Hl |- *; [reflexivity|lia|reflexivity].
Qed.
Lemma rep_lane0 cf ds c : rep_cells cf ds c -> (0 < lanes cf)%nat -> lane_ok 0 ds (lane0 c).
Proof.
  intros R Hp. pose proof (rc_lanes _ _ _ R) as Hl. pose proof (rc_lane _ _ _ R 0%nat) as H.
  unfold lane0 in *. destruct (cell_lanes c) as [|l ls]; [cbn in Hl; lia|]. apply H. reflexivity.
Qed.

(** ** Decoding one item *)
Definition unpack_reader (cf : config) (info : pinfo) : M reader uval :=
  if cf_json cf then json_Unpack (cf_plat cf) info
  else if cf_compressed cf then compressed_Unpack (cf_plat cf) (cf_fuel cf) (cf_nsubsets cf) info
  else uncompressed_Unpack (cf_plat cf) info.
Lemma Unpack_eq cf info s : Unpack cf info s = (set_r (fst (unpack_reader cf info (v_r s))) s, snd (unpack_reader cf info (v_r s))).
Proof. unfold Unpack, zoom. fold (unpack_reader cf info). now destruct (unpack_reader cf info (v_r s)). Qed.
Lemma bind_UV {A} (m : M reader A) (f : A -> value) r r' u :
  (x <- m ;; ret (UV (f x)))%M r = (r', Ok u) -> exists v, u = UV v.
Proof. intros H. apply bind_inv in H. destruct H as (r1 & a & _ & H). injection H as _ <-. eauto. Qed.
Lemma uncompressed_UV pl info r r' u : uncompressed_Unpack pl info r = (r', Ok u) -> exists v, u = UV v.
Proof.
  unfold uncompressed_Unpack. destruct (pi_unit info); intros H; try (eapply bind_UV; exact H).
  all: destruct (pi_nbits info =? 0); [injection H as _ <-; eauto|eapply bind_UV; exact H].
Qed.
Lemma json_UV pl info r r' u : json_Unpack pl info r = (r', Ok u) -> exists v, u = UV v.
Proof.
  unfold json_Unpack. destruct (pi_unit info); intros H; apply bind_inv in H; destruct H as (r1 & a & _ & H); injection H as _ <-; eauto.
Qed.
Lemma replicateM_length {S A} n (m : M S A) s s' l : replicateM n m s = (s', Ok l) -> length l = n.
Proof.
  revert s s' l. induction n as [|n IH]; intros s s' l H; cbn [replicateM] in H; [injection H as _ <-; reflexivity|].
  apply bind_inv in H. destruct H as (s1 & a & _ & H). apply bind_inv in H. destruct H as (s2 & l0 & H1 & H).
  injection H as _ <-. cbn. f_equal. eapply IH. exact H1.
Qed.
Ltac binv H := apply bind_inv in H; destruct H as (?s & ?a & ?E & H).
Lemma others_length pl n info f r r' c : c_unpackOthers pl n info f r = (r', Ok c) -> length (cv_vals c) = Z.to_nat n.
Proof.
  unfold c_unpackOthers. intros H. binv H. binv H. binv H. destruct (a0 =? 0).
  - binv H. injection H as _ <-. cbn. apply repeat_length.
  - destruct (IsMissing _ _); [discriminate|]. binv H. injection H as _ <-. cbn. eapply replicateM_length. eassumption.
Qed.
Lemma compressed_UC pl fuel n info r r' u : compressed_Unpack pl fuel n info r = (r', Ok u) ->
  exists c, u = UC c /\ length (cv_vals c) = Z.to_nat n.
Proof.
  unfold compressed_Unpack. intros H. binv H. injection H as _ <-. exists a. split; [reflexivity|].
  destruct (pi_unit info).
  - eapply others_length; eassumption.
  - unfold c_unpackString in E. binv E. binv E. binv E. destruct (a1 =? 0); [injection E as _ <-; cbn; apply repeat_length|].
    destruct (negb _); [discriminate|]. binv E. injection E as _ <-. cbn. eapply replicateM_length; eassumption.
  - destruct (pi_nbits info =? 0); [|eapply others_length; eassumption]. binv E. injection E as _ <-. cbn. apply repeat_length.
  - unfold c_unpackCode in E. binv E. binv E. binv E. destruct (a1 =? 0); [injection E as _ <-; cbn; apply repeat_length|].
    binv E. injection E as _ <-. cbn. eapply replicateM_length; eassumption.
  - destruct (pi_nbits info =? 0); [|eapply others_length; eassumption]. binv E. injection E as _ <-. cbn. apply repeat_length.
  - eapply others_length; eassumption.
Qed.
Definition datum_of (d : descriptor) (info : pinfo) (u : uval) : datum :=
  match u with
  | UV v => mkDatum d info VNil 0 [v]
  | UC c => mkDatum d info (cv_min c) (cv_diff c) (cv_vals c)
  end.
Lemma decodes_iff cf d info r x r' :
  decodes cf d info r x r' <-> exists u, unpack_reader cf info r = (r', Ok u) /\ x = datum_of d info u.
Proof.
  unfold unpack_reader. split.
  - intros H. inversion H as [v r0 Hj Hc E|v r0 Hj E|c r0 Hj Hc E]; subst; rewrite Hj, ?Hc; eauto.
  - intros (u & E & ->). destruct (cf_json cf) eqn:Hj; [|destruct (cf_compressed cf) eqn:Hc].
    + destruct (json_UV _ _ _ _ _ E) as [v ->]. now apply dec_json.
    + destruct (compressed_UC _ _ _ _ _ _ _ E) as (c & -> & _). now apply dec_column.
    + destruct (uncompressed_UV _ _ _ _ _ E) as [v ->]. now apply dec_bits.
Qed.
Lemma unpack_lanes cf info r r' u : unpack_reader cf info r = (r', Ok u) ->
  (if columns cf then exists c, u = UC c else exists v, u = UV v) /\ forall d, length (dt_vals (datum_of d info u)) = lanes cf.
Proof.
  unfold unpack_reader, columns, lanes. intros E. destruct (cf_json cf) eqn:Hj; [|destruct (cf_compressed cf) eqn:Hc].
  - destruct (json_UV _ _ _ _ _ E) as [v ->]. unfold columns. rewrite Hj, andb_false_r. cbn. eauto.
  - destruct (compressed_UC _ _ _ _ _ _ _ E) as (c & -> & Hl). unfold columns. rewrite Hj, Hc. cbn. eauto.
  - destruct (uncompressed_UV _ _ _ _ _ E) as [v ->]. unfold columns. rewrite Hc. cbn. eauto.
Qed.

(** What building a node changes. *)
Definition built (cf : config) (ds : list datum) (x : datum) (n : vnode) (s s' : vst) : Prop :=
  same_place s s' /\ v_regs s' = v_regs s /\ v_bm s' = v_bm s /\ rep_cells cf (ds ++ [x]) (v_cells s') /\
  (exists c, lane0 (v_cells s') = lane0 (v_cells s) ++ [c] /\ c_node c = n) /\
  vn_id n = length (t_heap (v_tree s)).
Lemma add_valued_ok cf ds d info u s : (0 < lanes cf)%nat -> rep_cells cf ds (v_cells s) ->
  (if columns cf then exists c, u = UC c else exists v, u = UV v) -> length (dt_vals (datum_of d info u)) = lanes cf ->
  exists s' n, add_valued d info u s = (s', Ok n) /\ v_r s' = v_r s /\ built cf ds (datum_of d info u) n s s'.
Proof.
  intros Hp R Hu Hl. unfold add_valued.
  erewrite bind_ok by (unfold Len; rewrite (rep_len cf ds _ R Hp); reflexivity).
  erewrite bind_ok by reflexivity. cbv zeta. set (n := mkVnode _ _ _ _ _ _).
  unfold alloc. erewrite bind_ok by reflexivity. unfold tree_Add, AddMember.
  erewrite bind_ok by reflexivity. erewrite bind_ok by reflexivity. cbn [v_cells set_tree].
  pose proof (rc_kind _ _ _ R) as Hk. pose proof (rc_lanes _ _ _ R) as HL. pose proof (rc_lane _ _ _ R) as HR.
  pose proof (rc_nodes _ _ _ R) as HN. pose proof (rc_vals _ _ _ R) as HV.
  assert (HV' : Forall (fun d => length (dt_vals d) = lanes cf) (ds ++ [datum_of d info u])).
  { apply Forall_app. split; [exact HV|]. constructor; [exact Hl|constructor]. }
  destruct (v_cells s) as [l|ts] eqn:Ec.
  - rewrite Hk in Hu. destruct Hu as [v ->]. unfold modify. erewrite bind_ok by reflexivity.
    eexists. exists n. split; [reflexivity|]. split; [reflexivity|]. unfold built. cbn [v_regs v_bm v_cells set_cells set_tree v_tree].
    rewrite Ec. split; [repeat split|]. split; [reflexivity|]. split; [reflexivity|]. split; [|split; [eexists; split; reflexivity|reflexivity]].
    constructor; cbn [cell_lanes] in *; auto.
    + intros [|k] l' H; [|destruct k; discriminate]. cbn in H. injection H as <-.
      apply lane_ok_snoc; [now apply HR|]. repeat split.
    + intros l' [<-|[]]. reflexivity.
  - rewrite Hk in Hu. destruct Hu as [c ->]. cbn [cell_lanes datum_of dt_vals] in *.
    destruct (add_column_ok n ts (cv_vals c) ltac:(congruence)) as (ts' & E & Hl' & HT). rewrite E.
    unfold lift_res. erewrite bind_ok by (unfold modify; erewrite bind_ok by reflexivity; reflexivity).
    eexists. exists n. split; [reflexivity|]. split; [reflexivity|]. unfold built. cbn [v_regs v_bm v_cells set_cells set_tree v_tree].
    rewrite Ec. split; [repeat split|]. split; [reflexivity|]. split; [reflexivity|].
    assert (H0 : exists c, lane0 (CCells ts') = lane0 (CCells ts) ++ [c] /\ c_node c = n).
    { destruct ts' as [|l' ts']; [cbn in Hl'; lia|]. destruct (HT 0%nat l' eq_refl) as (l & v & H1 & H2 & ->).
      destruct ts as [|l1 ts]; [discriminate|]. cbn in H1. injection H1 as ->. cbn. eexists. split; reflexivity. }
    split; [|split; [exact H0|reflexivity]]. constructor; cbn [cell_lanes] in *; auto; [congruence| |].
    + intros k l' H. destruct (HT k l' H) as (l & v & H1 & H2 & ->). apply lane_ok_snoc; [now apply HR|]. repeat split. exact H2.
    + intros l' H. apply In_nth_error in H. destruct H as [k H]. destruct (HT k l' H) as (l & v & H1 & H2 & ->).
      destruct H0 as (c0 & -> & Hc0). rewrite !map_app. f_equal; [|cbn; now rewrite Hc0]. apply HN. eapply nth_error_In. exact H1.
Qed.
(** Building a node with given packing succeeds exactly when the item decodes. *)
Lemma build_sound cf ds d info s s' n : (0 < lanes cf)%nat -> rep_cells cf ds (v_cells s) ->
  buildValuedNodeWithInfo cf d info s = (s', Ok n) ->
  exists x, decodes cf d info (v_r s) x (v_r s') /\ built cf ds x n s s'.
Proof.
  intros Hp R H. unfold buildValuedNodeWithInfo in H. binv H. unfold wrap in E. rewrite Unpack_eq in E.
  destruct (unpack_reader cf info (v_r s)) as [r' [u|e|p|]] eqn:E1; cbn [fst snd] in E; try discriminate E.
  apply pair_equal_spec in E. destruct E as [<- E]. injection E as <-.
  destruct (unpack_lanes _ _ _ _ _ E1) as [Hk Hl].
  destruct (add_valued_ok cf ds d info u (set_r r' s) Hp R Hk (Hl d)) as (s2 & n2 & E2 & Hr & HB).
  rewrite E2 in H. apply pair_equal_spec in H. destruct H as [<- H]. injection H as <-.
  exists (datum_of d info u). split; [|exact HB]. apply decodes_iff. exists u. rewrite Hr. cbn. auto.
Qed.
Lemma build_complete cf ds d info s x r' : (0 < lanes cf)%nat -> rep_cells cf ds (v_cells s) ->
  decodes cf d info (v_r s) x r' ->
  exists s' n, buildValuedNodeWithInfo cf d info s = (s', Ok n) /\ v_r s' = r' /\ built cf ds x n s s'.
Proof.
  intros Hp R H. apply decodes_iff in H. destruct H as (u & E & ->).
  destruct (unpack_lanes _ _ _ _ _ E) as [Hk Hl].
  destruct (add_valued_ok cf ds d info u (set_r r' s) Hp R Hk (Hl d)) as (s2 & n2 & E2 & Hr & HB).
  exists s2, n2. split; [|split; [exact Hr|exact HB]].
  unfold buildValuedNodeWithInfo. erewrite bind_ok; [exact E2|]. unfold wrap. rewrite Unpack_eq, E. reflexivity.
Qed.

(** ** Events without effect on operators, or on bitmaps *)
Definition is_op (e : event) : bool := match e with EvOp _ _ => true | _ => false end.
Lemma rep_regs_event e h g : is_op e = false -> rep_regs h g -> rep_regs (e :: h) g.
Proof. intros He [H1 H2 H3 H4 H5 H6 H7 H8]. destruct e; try discriminate He; constructor; cbn; auto. Qed.
Definition plain_event (e : event) : bool :=
  match e with
  | EvOp _ _ | EvNote _ | EvElement _ _ | EvZero _ | EvRecall => true
  | EvItem KMarker _ => false
  | EvItem _ _ => true
  | _ => false
  end.
Lemma target_at_app l l' v p : target_at l v p -> target_at (l ++ l') v p.
Proof.
  intros (c & H & Hc). exists c. split; [|exact Hc]. rewrite nth_error_app1; [exact H|]. apply nth_error_Some. congruence.
Qed.
Lemma targets_app l l' vs ps : Forall2 (target_at l) vs ps -> Forall2 (target_at (l ++ l')) vs ps.
Proof. induction 1; constructor; auto using target_at_app. Qed.
Lemma rep_bm_app h l l' b : rep_bm h l b -> rep_bm h (l ++ l') b.
Proof. intros [H1 H2 H3 H4]. constructor; auto using targets_app. Qed.
Lemma rep_bm_event e h l b : plain_event e = true -> rep_bm h l b -> rep_bm (e :: h) l b.
Proof.
  intros He [H1 H2 H3 H4]. destruct e as [| | |k|  | | | | | | |]; try discriminate He; try (constructor; cbn; auto; fail).
  destruct k; try discriminate He; constructor; cbn; auto.
Qed.
Lemma backref_le h : (backref h <= ncells h)%nat.
Proof.
  unfold ncells. induction h as [|e h IH]; cbn; [lia|]. rewrite app_length.
  destruct e; try (cbn in *; lia). destruct (backref h); cbn; unfold ncells; lia.
Qed.

(** ** Packing information *)
Lemma calc_ok h d e s : rep_regs h (v_regs s) -> d_entry d = EB e ->
  calcPackingInfo d s = (s, Ok (packing h e)).
Proof.
  intros [H1 H2 H3 H4 H5 H6 H7 H8] He. unfold calcPackingInfo, packing. rewrite He.
  erewrite bind_ok by reflexivity. destruct (be_unit e); try reflexivity.
  - rewrite H3. erewrite bind_ok by reflexivity. rewrite H1, H2, H5, H6, H7. reflexivity.
  - rewrite H8. cbv zeta. unfold ret. do 3 f_equal. destruct (Z.eqb_spec (8 * last_operand 208 h) 0), (Z.eqb_spec (last_operand 208 h) 0); cbn; lia || reflexivity.
Qed.
Lemma calc_inv d s s' info : calcPackingInfo d s = (s', Ok info) -> exists e, d_entry d = EB e.
Proof. unfold calcPackingInfo. destruct (d_entry d); try discriminate. eauto. Qed.
Lemma wrap_inv {S A} tag (m : M S A) s s' a : wrap tag m s = (s', Ok a) -> m s = (s', Ok a).
Proof. unfold wrap. destruct (m s) as [s1 [a1|e|p|]]; try discriminate; auto. Qed.
Lemma wrap_ok {S A} tag (m : M S A) s s' a : m s = (s', Ok a) -> wrap tag m s = (s', Ok a).
Proof. intros H. unfold wrap. now rewrite H. Qed.
Lemma ok_inv {S A} (s s' : S) (a a' : A) : (s, Ok a) = (s', Ok a') -> s = s' /\ a = a'.
Proof. intros H. injection H. auto. Qed.
Lemma node_sound cf h ds d s s' n : (0 < lanes cf)%nat -> rep_cells cf ds (v_cells s) -> rep_regs h (v_regs s) ->
  buildValuedNode cf d s = (s', Ok n) ->
  exists e x, d_entry d = EB e /\ decodes cf d (packing h e) (v_r s) x (v_r s') /\ built cf ds x n s s'.
Proof.
  intros Hp R G H. unfold buildValuedNode in H. binv H. apply wrap_inv in E.
  destruct (calc_inv _ _ _ _ E) as [e He]. rewrite (calc_ok h d e s G He) in E. apply ok_inv in E. destruct E as [<- <-].
  destruct (build_sound _ _ _ _ _ _ _ Hp R H) as (x & HD & HB). eauto.
Qed.
Lemma node_complete cf h ds d e s x r' : (0 < lanes cf)%nat -> rep_cells cf ds (v_cells s) -> rep_regs h (v_regs s) ->
  d_entry d = EB e -> decodes cf d (packing h e) (v_r s) x r' ->
  exists s' n, buildValuedNode cf d s = (s', Ok n) /\ v_r s' = r' /\ built cf ds x n s s'.
Proof.
  intros Hp R G He HD. unfold buildValuedNode. erewrite bind_ok by (apply wrap_ok, (calc_ok h d e s G He)).
  now apply build_complete.
Qed.

(** ** Associated fields *)
Definition built_list (cf : config) (ds xs : list datum) (s s' : vst) : Prop :=
  same_place s s' /\ v_regs s' = v_regs s /\ v_bm s' = v_bm s /\ rep_cells cf (ds ++ xs) (v_cells s') /\ extends s s'.
Lemma built_list_nil cf ds s : rep_cells cf ds (v_cells s) -> built_list cf ds [] s s.
Proof.
  intros H. unfold built_list. rewrite app_nil_r. split; [apply same_place_refl|]. split; [reflexivity|].
  split; [reflexivity|]. split; [exact H|]. exists []. now rewrite app_nil_r.
Qed.
Lemma built_cons cf ds x n xs s s1 s1' s2 : built cf ds x n s s1 -> only_heap s1 s1' -> built_list cf (ds ++ [x]) xs s1' s2 ->
  built_list cf ds (x :: xs) s s2.
Proof.
  intros (H1 & H2 & H3 & H4 & (c & H5 & _) & _) (K1 & K2 & K3 & K4 & K5) (L1 & L2 & L3 & L4 & (l & L5)).
  unfold built_list. split; [eapply same_place_trans; [exact H1|]; eapply same_place_trans; eauto|].
  split; [congruence|]. split; [congruence|]. split; [now rewrite <- app_assoc in L4|].
  exists ([c] ++ l). rewrite L5, K3, H5. now rewrite <- app_assoc.
Qed.
Lemma assoc_sound cf d ws : (0 < lanes cf)%nat -> forall ds s s' ns, rep_cells cf ds (v_cells s) ->
  mapM (fun p : Z * option nat =>
            n <- wrap "cannot build associated field node"
                   (buildValuedNodeWithInfo cf (DecorateDescriptor d) (plain_info NONNEG_CODE (fst p))) ;;
            AddMember (vn_id n) (snd p) ;;
            ret n)%M ws s = (s', Ok ns) ->
  exists xs, fields cf d (map fst ws) (v_r s) xs (v_r s') /\ built_list cf ds xs s s'.
Proof.
  intros Hp. induction ws as [|w ws IH]; intros ds s s' ns R H; cbn [mapM map] in *.
  - apply ok_inv in H. destruct H as [<- _]. exists []. split; [constructor|]. now apply built_list_nil.
  - binv H. binv E. apply wrap_inv in E0. destruct (build_sound _ _ _ _ _ _ _ Hp R E0) as (x & HD & HB).
    destruct (AddMember_ok (vn_id a0) (snd w) s1) as (s3 & E3 & H3). rewrite (bind_ok _ _ _ _ _ E3) in E.
    apply ok_inv in E. destruct E as [<- <-]. binv H. apply ok_inv in H. destruct H as [<- _].
    assert (R3 : rep_cells cf (ds ++ [x]) (v_cells s3)).
    { destruct H3 as (_ & _ & -> & _). apply HB. }
    destruct (IH _ _ _ _ R3 E) as (xs & HF & HB2). exists (x :: xs). split.
    + econstructor; [exact HD|]. replace (v_r s1) with (v_r s3) by apply H3. exact HF.
    + eapply built_cons; eauto.
Qed.
Lemma assoc_complete cf d ws : (0 < lanes cf)%nat -> forall ds s xs r', rep_cells cf ds (v_cells s) ->
  fields cf d (map fst ws) (v_r s) xs r' ->
  exists s' ns, mapM (fun p : Z * option nat =>
            n <- wrap "cannot build associated field node"
                   (buildValuedNodeWithInfo cf (DecorateDescriptor d) (plain_info NONNEG_CODE (fst p))) ;;
            AddMember (vn_id n) (snd p) ;;
            ret n)%M ws s = (s', Ok ns) /\ v_r s' = r' /\ built_list cf ds xs s s'.
Proof.
  intros Hp. induction ws as [|w ws IH]; intros ds s xs r' R H; cbn [mapM map] in *; inversion H; subst.
  - exists s, []. split; [reflexivity|]. split; [reflexivity|]. now apply built_list_nil.
  - match goal with X : decodes _ _ _ _ _ _, Y : fields _ _ _ _ _ _ |- _ => rename X into HD; rename Y into HF end.
    destruct (build_complete _ _ _ _ _ _ _ Hp R HD) as (s1 & n & E1 & Hr & HB).
    destruct (AddMember_ok (vn_id n) (snd w) s1) as (s3 & E3 & H3).
    match type of HF with fields _ _ _ _ ?X _ => destruct (IH (ds ++ [x]) s3 X r') as (s' & ns & E & Hr' & HB2) end.
    { destruct H3 as (_ & _ & -> & _). apply HB. }
    { replace (v_r s3) with r1 by (symmetry; rewrite <- Hr; apply H3). exact HF. }
    exists s', (n :: ns). split; [|split; [exact Hr'|eapply built_cons; eauto]].
    erewrite bind_ok by (erewrite bind_ok by (apply wrap_ok; exact E1); erewrite bind_ok by exact E3; reflexivity).
    erewrite bind_ok by exact E. reflexivity.
Qed.

(** ** Leaves *)
Lemma rep_built cf e h s s' xs : rep cf h s -> built_list cf (data h) xs s s' -> ev_data e = xs ->
  is_op e = false -> plain_event e = true -> rep cf (e :: h) s' /\ same_place s s'.
Proof.
  intros [R1 R2 R3] (H1 & H2 & H3 & H4 & (l & H5)) <- Ho He. split; [|exact H1]. constructor.
  - exact H4.
  - rewrite H2. now apply rep_regs_event.
  - rewrite H3, H5. apply rep_bm_event; [exact He|]. now apply rep_bm_app.
Qed.
Lemma built_one cf ds x n s s' : built cf ds x n s s' -> built_list cf ds [x] s s'.
Proof.
  intros (H1 & H2 & H3 & H4 & (c & H5 & _) & _). unfold built_list, extends. eauto 10.
Qed.
Lemma built_snoc cf ds xs x n s s1 s2 : built_list cf ds xs s s1 -> built cf (ds ++ xs) x n s1 s2 -> built_list cf ds (xs ++ [x]) s s2.
Proof.
  intros (L1 & L2 & L3 & L4 & (l & L5)) (H1 & H2 & H3 & H4 & (c & H5 & _) & _).
  unfold built_list. split; [eapply same_place_trans; eauto|]. split; [congruence|]. split; [congruence|].
  split; [now rewrite <- app_assoc in H4|]. exists (l ++ [c]). rewrite H5, L5. now rewrite <- app_assoc.
Qed.
Lemma built_heap cf ds xs s s1 s2 : built_list cf ds xs s s1 -> only_heap s1 s2 -> built_list cf ds xs s s2.
Proof.
  intros (L1 & L2 & L3 & L4 & (l & L5)) (K1 & K2 & K3 & K4 & K5).
  unfold built_list. split; [eapply same_place_trans; eauto|]. split; [congruence|]. split; [congruence|].
  rewrite K3. split; [exact L4|]. exists l. now rewrite K3.
Qed.
Lemma refit_last (l : list (Z * option nat)) i : l <> [] -> map fst (removelast l ++ [(fst (last l (0, None)), Some i)]) = map fst l.
Proof.
  intros H. rewrite map_app. cbn [map fst]. rewrite (app_removelast_last (0, None) H) at 3. now rewrite map_app.
Qed.
Section Leaves.
  Variable cf : config.
  Hypothesis Hp : (0 < lanes cf)%nat.

  Lemma element_sound h od s s' : rep cf h s -> visit_element cf false od s = (s', Ok tt) ->
    exists d e fs x r1, od = Some d /\ d_entry d = EB e /\
      fields cf d (if id_X (d_id d) =? 31 then [] else open_fields h) (v_r s) fs r1 /\
      decodes cf d (packing h e) r1 x (v_r s') /\ rep cf (EvElement fs x :: h) s' /\ same_place s s'.
  Proof.
    intros R H. unfold visit_element in H. binv H. destruct od as [d|]; [|discriminate]. cbn in E. apply ok_inv in E.
    destruct E as [<- <-]. binv H. apply wrap_inv in E. unfold buildAssocNodes in E. binv E. apply ok_inv in E0. destruct E0 as [<- <-].
    assert (exists fs, fields cf d (if id_X (d_id d) =? 31 then [] else open_fields h) (v_r s) fs (v_r s0) /\ built_list cf (data h) fs s s0) as (fs & HF & HB).
    { destruct (id_X (d_id d) =? 31).
      - apply ok_inv in E. destruct E as [<- <-]. exists []. split; [constructor|]. apply built_list_nil. apply R.
      - rewrite <- (rg_204 _ _ (rp_regs _ _ _ R)). eapply assoc_sound; eauto. apply R. }
    binv H. apply wrap_inv in E0.
    destruct (node_sound cf h (data h ++ fs) d s0 s1 a0) as (e & x & He & HD & HB2); auto.
    { apply HB. } { destruct HB as (_ & -> & _). apply R. }
    destruct (mapM_AddMember (fun _ : vnode => vn_id a0) (fun n : vnode => Some (vn_id n)) a s1) as (s3 & E3 & H3).
    rewrite E3 in H. apply ok_inv in H. destruct H as [<- _].
    exists d, e, fs, x, (v_r s0). repeat (split; [first [reflexivity | assumption]|]).
    split. { replace (v_r s3) with (v_r s1) by (symmetry; apply H3). exact HD. }
    eapply rep_built; [exact R| |reflexivity|reflexivity|reflexivity].
    eapply built_heap; [|exact H3]. eapply built_snoc; eauto.
  Qed.
  Lemma element_complete h d e fs x r1 r2 s : rep cf h s -> d_entry d = EB e ->
    fields cf d (if id_X (d_id d) =? 31 then [] else open_fields h) (v_r s) fs r1 ->
    decodes cf d (packing h e) r1 x r2 ->
    exists s', visit_element cf false (Some d) s = (s', Ok tt) /\ v_r s' = r2 /\ rep cf (EvElement fs x :: h) s' /\ same_place s s'.
  Proof.
    intros R He HF HD.
    assert (exists s0 ns, buildAssocNodes cf d s = (s0, Ok ns) /\ v_r s0 = r1 /\ built_list cf (data h) fs s s0) as (s0 & ns & E0 & Hr0 & HB).
    { unfold buildAssocNodes. erewrite bind_ok by reflexivity. destruct (id_X (d_id d) =? 31).
      - inversion HF; subst. exists s, []. split; [reflexivity|]. split; [reflexivity|]. apply built_list_nil. apply R.
      - rewrite <- (rg_204 _ _ (rp_regs _ _ _ R)) in HF. eapply assoc_complete; eauto. apply R. }
    destruct (node_complete cf h (data h ++ fs) d e s0 x r2) as (s1 & n & E1 & Hr1 & HB2); auto.
    { apply HB. } { destruct HB as (_ & -> & _). apply R. } { now rewrite Hr0. }
    destruct (mapM_AddMember (fun _ : vnode => vn_id n) (fun n : vnode => Some (vn_id n)) ns s1) as (s3 & E3 & H3).
    exists s3. split; [|split; [rewrite <- Hr1; apply H3|]].
    - unfold visit_element. cbn [need]. erewrite bind_ok by reflexivity. erewrite bind_ok by (apply wrap_ok; exact E0).
      erewrite bind_ok by (apply wrap_ok; exact E1). exact E3.
    - eapply rep_built; [exact R| |reflexivity|reflexivity|reflexivity].
      eapply built_heap; [|exact H3]. eapply built_snoc; eauto.
  Qed.

  Lemma SetNode_rep h i s : rep cf h s ->
    exists s', assoc_SetNode i s = (s', Ok tt) /\ v_r s' = v_r s /\ rep cf h s' /\ same_place s s'.
  Proof.
    intros [R1 [H1 H2 H3 H4 H5 H6 H7 H8] R3]. eexists. split; [reflexivity|]. split; [reflexivity|]. split; [|repeat split].
    constructor; [exact R1| |exact R3]. cbn [v_regs set_regs]. destruct (g_assoc (v_regs s)) as [|p l] eqn:E; [now constructor; rewrite ?E|].
    constructor; try assumption. cbn [g_assoc set_assoc]. rewrite <- H4. apply refit_last. discriminate.
  Qed.
  Lemma sig_sound h od s s' : rep cf h s -> visit_031021 cf od s = (s', Ok tt) ->
    exists d e x, od = Some d /\ d_entry d = EB e /\ decodes cf d (packing h e) (v_r s) x (v_r s') /\
      rep cf (EvItem KE031021 x :: h) s' /\ same_place s s'.
  Proof.
    intros R H. unfold visit_031021 in H. binv H. destruct od as [d|]; [|discriminate]. cbn in E. apply ok_inv in E.
    destruct E as [<- <-]. binv H. apply wrap_inv in E.
    destruct (node_sound cf h (data h) d s s0 a Hp) as (e & x & He & HD & HB); try apply R; auto.
    destruct (rep_built cf (EvItem KE031021 x) h s s0 [x] R) as [R1 P1]; try reflexivity; [eapply built_one; eauto|].
    destruct (SetNode_rep (EvItem KE031021 x :: h) (vn_id a) s0 R1) as (s2 & E2 & Hr & R2 & P2).
    rewrite E2 in H. apply ok_inv in H. destruct H as [<- _]. exists d, e, x. rewrite Hr.
    repeat (split; [first [reflexivity | assumption]|]). eapply same_place_trans; eauto.
  Qed.
  Lemma sig_complete h d e x r1 s : rep cf h s -> d_entry d = EB e -> decodes cf d (packing h e) (v_r s) x r1 ->
    exists s', visit_031021 cf (Some d) s = (s', Ok tt) /\ v_r s' = r1 /\ rep cf (EvItem KE031021 x :: h) s' /\ same_place s s'.
  Proof.
    intros R He HD.
    destruct (node_complete cf h (data h) d e s x r1 Hp) as (s0 & n & E & Hr & HB); try apply R; auto.
    destruct (rep_built cf (EvItem KE031021 x) h s s0 [x] R) as [R1 P1]; try reflexivity; [eapply built_one; eauto|].
    destruct (SetNode_rep (EvItem KE031021 x :: h) (vn_id n) s0 R1) as (s2 & E2 & Hr2 & R2 & P2).
    exists s2. split; [|split; [congruence|split; [exact R2|eapply same_place_trans; eauto]]].
    unfold visit_031021. cbn [need]. erewrite bind_ok by reflexivity. erewrite bind_ok by (apply wrap_ok; exact E). exact E2.
  Qed.

  (** A node with given packing, as an item. *)
  Lemma item_sound h k d info s s' n : rep cf h s -> k <> KMarker ->
    buildValuedNodeWithInfo cf d info s = (s', Ok n) ->
    exists x, decodes cf d info (v_r s) x (v_r s') /\ rep cf (EvItem k x :: h) s' /\ same_place s s'.
  Proof.
    intros R Hk H. destruct (build_sound cf (data h) d info s s' n Hp) as (x & HD & HB); [apply R|exact H|].
    exists x. split; [exact HD|]. eapply rep_built; eauto using built_one. destruct k; auto; contradiction.
  Qed.
  Lemma item_complete h k d info s x r' : rep cf h s -> k <> KMarker -> decodes cf d info (v_r s) x r' ->
    exists s' n, buildValuedNodeWithInfo cf d info s = (s', Ok n) /\ v_r s' = r' /\ rep cf (EvItem k x :: h) s' /\ same_place s s'.
  Proof.
    intros R Hk HD. destruct (build_complete cf (data h) d info s x r' Hp) as (s' & n & E & Hr & HB); [apply R|exact HD|].
    exists s', n. split; [exact E|]. split; [exact Hr|]. eapply rep_built; eauto using built_one. destruct k; auto; contradiction.
  Qed.
  Lemma zero_sound h od s s' : rep cf h s -> buildZeroNode cf od s = (s', Ok tt) ->
    exists z, zero_cell cf od (v_r s) z (v_r s') /\ rep cf (EvZero z :: h) s' /\ same_place s s'.
  Proof.
    intros R H. unfold buildZeroNode in H. destruct (cf_compatible cf) eqn:Hc.
    - destruct od as [d|]; [|discriminate H]. cbn [need] in H. erewrite bind_ok in H by reflexivity.
      destruct (buildValuedNodeWithInfo cf d (plain_info NONNEG_CODE 0) s) as [s1 [n|e|p|]] eqn:E; try discriminate H.
      + apply ok_inv in H. destruct H as [<- _].
        destruct (build_sound cf (data h) d (plain_info NONNEG_CODE 0) s s1 n Hp) as (x & HD & HB); [apply R|exact E|].
        exists (Some x). split; [eapply zero_some; eauto|]. eapply rep_built; eauto using built_one.
      + apply ok_inv in H. destruct H as [<- _]. exists None.
        unfold buildValuedNodeWithInfo, bind, wrap in E. rewrite Unpack_eq in E.
        destruct (unpack_reader cf (plain_info NONNEG_CODE 0) (v_r s)) as [r' [u|e'|p|]] eqn:E1; cbn [fst snd] in E; try discriminate E.
        * exfalso. destruct (unpack_lanes _ _ _ _ _ E1) as [Hk Hl].
          destruct (add_valued_ok cf (data h) d (plain_info NONNEG_CODE 0) u (set_r r' s) Hp ltac:(apply R) Hk (Hl d)) as (s2 & n2 & E2 & _).
          rewrite E2 in E. discriminate E.
        * injection E as <- _. split; [eapply zero_failed; eauto; exists e'; exact E1|].
          split; [|repeat split]. destruct R as [R1 R2 R3]. constructor; cbn [set_r v_cells v_regs v_bm].
          -- cbn. now rewrite app_nil_r.
          -- now apply rep_regs_event.
          -- now apply rep_bm_event.
    - destruct (add_valueless_ok od s) as (s1 & E1 & H1). rewrite E1 in H. apply ok_inv in H. destruct H as [<- _].
      exists None. replace (v_r s1) with (v_r s) by (symmetry; apply H1). split; [now constructor|]. split; [|apply H1].
      eapply rep_only_heap; [exact H1|]. destruct R as [R1 R2 R3]. constructor.
      + cbn. now rewrite app_nil_r.
      + now apply rep_regs_event.
      + now apply rep_bm_event.
  Qed.
  Lemma zero_complete h od s z r' : rep cf h s -> zero_cell cf od (v_r s) z r' ->
    exists s', buildZeroNode cf od s = (s', Ok tt) /\ v_r s' = r' /\ rep cf (EvZero z :: h) s' /\ same_place s s'.
  Proof.
    intros R H. unfold buildZeroNode. inversion H as [Hc|d x r0 Hc Hd HD|d r0 Hc Hd [e HU]]; subst; rewrite Hc.
    - destruct (add_valueless_ok od s) as (s1 & E1 & H1). exists s1. split; [exact E1|]. split; [apply H1|]. split; [|apply H1].
      eapply rep_only_heap; [exact H1|]. destruct R as [R1 R2 R3]. constructor.
      + cbn. now rewrite app_nil_r.
      + now apply rep_regs_event.
      + now apply rep_bm_event.
    - destruct (build_complete cf (data h) d _ s x r' Hp ltac:(apply R) HD) as (s' & n & E & Hr & HB).
      exists s'. cbn [need]. erewrite bind_ok by reflexivity. change bare with plain_info in E. rewrite E. split; [reflexivity|]. split; [exact Hr|].
      eapply rep_built; eauto using built_one.
    - exists (set_r r' s). cbn [need]. erewrite bind_ok by reflexivity.
      assert (E : buildValuedNodeWithInfo cf d (plain_info NONNEG_CODE 0) s = (set_r r' s, Err (EWrap "cannot unpack value" e))).
      { unfold buildValuedNodeWithInfo, bind, wrap. rewrite Unpack_eq. change bare with plain_info in HU. fold (unpack_reader cf (plain_info NONNEG_CODE 0)) in HU. rewrite HU. reflexivity. }
      rewrite E. split; [reflexivity|]. split; [reflexivity|]. split; [|repeat split].
      destruct R as [R1 R2 R3]. constructor; cbn [set_r v_cells v_regs v_bm].
      + cbn. now rewrite app_nil_r.
      + now apply rep_regs_event.
      + now apply rep_bm_event.
  Qed.
End Leaves.
