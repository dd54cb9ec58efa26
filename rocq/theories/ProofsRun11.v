(** Payload-level consequences used by the property theorems. *)
From Coq Require Import ZifyBool ZifyNat Sorted.
From Verif Require Export ProofsRun10.
From Verif Require Import ProofsBits ProofsUnpack ProofsParser3 ProofsParser4 ProofsParser5 ProofsTable.
Ltac notop := match goal with H : In _ _ |- _ => destruct H as [H|[H|[H|[H|[]]]]]; discriminate end.

(** ** Segments *)
Lemma shown_nil_binary cf hs pay : some_subset cf -> shows cf hs pay ->
  (forall sb c, In sb pay -> In c (sb_cells sb) -> c_val c <> VBin None) ->
  Forall (fun h => Forall no_nil_binary (data h)) hs.
Proof.
  intros Hs H HN.
  assert (K : forall k h sb, k = 0%nat -> In sb pay -> lane_ok k (data h) (sb_cells sb) -> Forall no_nil_binary (data h)).
  { intros k h sb -> Hi [HL HI]. apply Forall_forall. intros x Hx E. apply In_nth_error in Hx. destruct Hx as [i Hx].
    destruct (nth_error (sb_cells sb) i) as [c|] eqn:Ec; [|apply nth_error_None in Ec; assert (nth_error (data h) i <> None) as Hn by congruence; apply nth_error_Some in Hn; lia].
    destruct (HI i x c Hx Ec) as (_ & _ & _ & _ & _ & Hv). apply (HN sb c Hi); [eapply nth_error_In; eauto|].
    destruct (dt_vals x) as [|v vs]; [discriminate|]. cbn in *. congruence. }
  unfold shows in H. unfold some_subset in Hs. destruct (columns cf).
  - destruct H as (h & -> & HL & HI). specialize (Hs eq_refl). destruct pay as [|sb pay]; [cbn in HL; lia|].
    constructor; [|constructor]. eapply (K 0%nat); [reflexivity|left; reflexivity|]. now apply (HI 0%nat).
  - clear Hs HN. assert (K' : forall h sb, In sb pay -> lane_ok 0 (data h) (sb_cells sb) -> Forall no_nil_binary (data h)) by (intros h sb; now apply K).
    clear K. induction H as [|h sb hs pay H1 H2 IH]; [constructor|]. constructor.
    + eapply K'; [left; reflexivity|exact H1].
    + apply IH. intros h0 sb0 Hi. apply K'. now right.
Qed.
Lemma payload_segments cf ms r l s' : cf_json cf = false -> rootless ms -> some_subset cf -> binary_reader r l ->
  run_payload cf (root ms) (vst0 r) = (s', Ok tt) ->
  (forall sb c, In sb (v_pay s') -> In c (sb_cells sb) -> c_val c <> VBin None) ->
  exists hs segs rest, executes cf ms r hs (v_r s') /\ shows cf hs (v_pay s') /\
    l = concat (map (@concat bool) segs) ++ rest /\ binary_reader (v_r s') rest /\
    Forall2 (fun h ss => Forall2 (bits_of cf) (data h) ss) hs segs.
Proof.
  intros Hj Hm Hs Hl H HN. destruct (run_payload_sound cf ms r s' Hm Hs H) as (hs & HX & HH).
  pose proof (shown_nil_binary cf hs _ Hs HH HN) as HF. exists hs. unfold executes in *. destruct (columns cf) eqn:Hc.
  - destruct HX as (h & -> & HR). inversion HF as [|? ? HF1 _]; subst.
    destruct (runs_list_segmented cf Hj _ _ _ _ _ HR l Hl HF1) as (new & ss & rest & E & -> & Hb & H2). cbn [data app] in E. subst new.
    exists [ss], rest. split; [eauto|]. split; [exact HH|]. split; [cbn; now rewrite app_nil_r|]. auto.
  - destruct (subsets_segmented cf Hj _ _ _ _ _ HX l Hl HF) as (segs & rest & -> & Hb & H2). exists segs, rest. auto.
Qed.
Lemma bits_of_plain cf x seg : cf_json cf = false -> cf_compressed cf = false -> bits_of cf x seg ->
  dt_vals x = [decode_value (dt_info x) seg] /\ blen seg = bits_needed (dt_info x).
Proof.
  intros Hj Hc H. set (n := Z.to_nat (bits_needed (dt_info x))).
  destruct (H (repeat false n) EEof 0) as (p' & HD). inversion HD as [v r0 _ _ E Ex|v r0 Hj' E|c r0 _ Hc' E]; try congruence. clear HD.
  assert (Hlen : blen (repeat false n) = bits_needed (dt_info x)).
  { unfold blen. rewrite repeat_length. subst n. pose proof (bits_needed_nonneg (dt_info x)). lia. }
  assert (Hd : pi_unit (dt_info x) = BINARY \/ pi_unit (dt_info x) <> BINARY) by (destruct (pi_unit (dt_info x)); auto; right; discriminate); destruct Hd as [Hu|Hu].
  - destruct (cut_bits (seg ++ repeat false n) (bits_needed (dt_info x)) (bits_needed_nonneg _)) as (seg' & rest' & Es & Hs').
    { rewrite blen_app. pose proof (blen_nonneg seg). lia. }
    rewrite Es in E. rewrite unpack_whole in E; [|exact Hs'|congruence]. apply pair_equal_spec in E. destruct E as [E1 E2].
    injection E1 as E1 _. injection E2 as E2. subst rest'. apply app_inv_tail in Es. subst seg'. rewrite <- Ex. cbn [dt_vals dt_info]. now rewrite E2.
  - apply unpack_ok_iff in E; [|exact Hu]. destruct E as (seg' & rest' & Es & Hs' & _ & Er & Ev). injection Er as Er _. subst rest'.
    apply app_inv_tail in Es. subst seg'. rewrite <- Ex. cbn [dt_vals dt_info]. now rewrite Ev.
Qed.
Lemma bits_of_column cf x seg : cf_json cf = false -> cf_compressed cf = true -> 0 <= cf_nsubsets cf -> 0 <= pi_nbits (dt_info x) ->
  compressed_number (dt_info x) = true -> bits_of cf x seg ->
  exists col, seg = column_bits col /\ column_of (pi_nbits (dt_info x)) (cf_nsubsets cf) col /\ dt_vals x = column_values (dt_info x) (cf_nsubsets cf) col.
Proof.
  intros Hj Hc Hn Hw Hu H. destruct (H [] EEof 0) as (p' & HD). inversion HD as [v r0 _ Hc' E|v r0 Hj' E|c r0 _ _ E Ex]; try congruence. clear HD.
  apply compressed_iff in E; [|assumption..]. destruct E as (col & rest & Es & Hcol & Er & Ev). injection Er as Er _. subst rest. rewrite !app_nil_r in Es.
  injection Ev as ->. exists col. split; [exact Es|]. split; [exact Hcol|]. rewrite <- Ex. reflexivity.
Qed.

(** ** Operators that never succeed *)
Lemma runs_list_in cf n ms h r h' r' : runs_list cf h r ms h' r' -> In n ms -> exists h1 r1 h2 r2, runs cf h1 r1 n h2 r2.
Proof. intros H. induction H; intros Hi; [destruct Hi|]. destruct Hi as [->|Hi]; eauto. Qed.
Lemma never_runs cf ms n r s' : rootless ms -> 0 < cf_nsubsets cf -> In n ms -> (forall h r h' r', ~ runs cf h r n h' r') ->
  run_payload cf (root ms) (vst0 r) <> (s', Ok tt).
Proof.
  intros Hm Hs Hi Hn H. destruct (run_payload_sound cf ms r s' Hm (fun _ => Hs) H) as (hs & HX & _).
  unfold executes in HX. destruct (columns cf).
  - destruct HX as (h & _ & HR). destruct (runs_list_in _ _ _ _ _ _ _ HR Hi) as (? & ? & ? & ? & K). eapply Hn, K.
  - inversion HX; subst; [lia|]. destruct (runs_list_in cf n ms _ _ _ _ ltac:(eassumption) Hi) as (? & ? & ? & ? & K). eapply Hn, K.
Qed.
Lemma refval_never cf d ms b a h r h' r' : id_Operand (d_id d) <> 255 -> ms <> [] -> ~ runs cf h r (ANode KNewRefval (Some d) ms b a) h' r'.
Proof. intros H1 H2 H. inversion H; subst; try notop. tauto. Qed.
Lemma ad_hoc_never cf od ms bms bb ba a h r h' r' : ~ runs cf h r (ANode KAssessment od ms (Some (ANode KBitmap None bms bb ba)) a) h' r'.
Proof. intros H. inversion H; subst; try notop. match goal with K : runs _ _ _ (ANode KBitmap None _ _ _) _ _ |- _ => inversion K; subst; notop end. Qed.

(** ** Bitmaps *)
Lemma zero_positions_iff bits : forall q p, In p (zero_positions q bits) <-> exists j, nth_error bits j = Some 0 /\ p = (q + j)%nat.
Proof.
  induction bits as [|b bits IH]; intros q p; cbn [zero_positions].
  - split; [intros []|]. intros (j & H & _). destruct j; discriminate.
  - destruct (Z.eqb_spec b 0) as [->|Hb].
    + cbn [In]. rewrite IH. split.
      * intros [<-|(j & H & ->)]; [exists 0%nat; split; [reflexivity|lia]|]. exists (S j). split; [exact H|lia].
      * intros ([|j] & H & ->); [left; lia|]. right. exists j. split; [exact H|lia].
    + rewrite IH. split.
      * intros (j & H & ->). exists (S j). split; [exact H|lia].
      * intros ([|j] & H & ->); [cbn in H; congruence|]. exists j. split; [exact H|lia].
Qed.
Lemma zero_positions_sorted bits : forall q, StronglySorted lt (zero_positions q bits).
Proof.
  induction bits as [|b bits IH]; intros q; cbn [zero_positions]; [constructor|]. destruct (b =? 0); [|apply IH]. constructor; [apply IH|].
  apply Forall_forall. intros p Hp. apply zero_positions_iff in Hp. destruct Hp as (j & _ & ->). lia.
Qed.

(** ** Descriptors of cells *)
Definition fitting (d : descriptor) : Prop := forall b, d_entry d = EB b -> id_F (d_id d) = 0.
Definition fitting_node (n : anode) : Prop := forall d, an_desc n = Some d -> fitting d.
Lemma lookup_fitting g id d : Lookup g id = Ok d -> fitting d.
Proof. intros H b E. apply Lookup_kind in H. destruct H as (-> & _ & H). rewrite E in H. tauto. Qed.
Lemma parsed_fitting g ids ns : parsed g ids ns -> Forall (all_nodes fitting_node) ns.
Proof.
  intros H. apply parsed_iff in H. revert H. generalize false at 1. generalize false.
  assert (E : forall d, fitting d -> fitting_node (element_node d)).
  { intros d Hd d' Hd'. rewrite element_desc in Hd'. injection Hd' as <-. exact Hd. }
  assert (E2 : forall id d k ms b a, Lookup g id = Ok d -> fitting_node (ANode k (Some d) ms b a)).
  { intros id d k ms b a HL d' Hd'. injection Hd' as <-. eapply lookup_fitting; eauto. }
  intros sk' sk. revert sk ids ns sk'.
  refine (proj1 (grammar_nodes g fitting_node _ _ _ _ _ _ _ _ _ _ _ _)); intros; eauto using lookup_fitting.
  - apply E. intros b Hb. exact H.
  - intros d H. discriminate.
Qed.
Section Fit.
  Variable cf : config.
  Definition fits (h : history) : Prop := Forall (fun x => fitting (dt_desc x)) (data h).
  Lemma fits_ev e h : Forall (fun x => fitting (dt_desc x)) (ev_data e) -> fits h -> fits (e :: h).
  Proof. intros H1 H2. unfold fits. cbn [data]. apply Forall_app. auto. Qed.
  Lemma decodes_fits d info r x r' : decodes cf d info r x r' -> fitting d -> fitting (dt_desc x).
  Proof. intros H Hd. apply decodes_desc in H. destruct H as [-> _]. exact Hd. Qed.
  Lemma zero_fits od r z r' h : zero_cell cf od r z r' -> (forall d, od = Some d -> fitting d) -> fits h -> fits (EvZero z :: h).
  Proof. intros H Hd Hh. inversion H; subst; apply fits_ev; auto; try (now constructor). constructor; [|constructor]. eapply decodes_fits; eauto. Qed.
  Ltac nodes H := rewrite all_nodes_eq in H; destruct H as (? & ? & ? & ?).
  Lemma runs_fits h r n h' r' : runs cf h r n h' r' -> all_nodes fitting_node n -> fits h -> fits h'.
  Proof.
    intros H. induction H using runs_mut
      with (P0 := fun h _ ns h' _ _ => Forall (all_nodes fitting_node) ns -> fits h -> fits h')
           (P1 := fun _ h _ ns h' _ _ => Forall (all_nodes fitting_node) ns -> fits h -> fits h'); intros HN HH;
    try (match type of HN with all_nodes _ _ => nodes HN end); auto;
    try (apply fits_ev; [exact (Forall_nil _)|solve [auto]]);
    try (apply fits_ev; [|exact HH]; constructor; [|constructor]; eapply decodes_fits; [eassumption|]; match goal with K : fitting_node _ |- _ => apply K; reflexivity end).
    - apply fits_ev; [|exact HH]. apply Forall_app. split.
      + destruct (fields_descs cf _ _ _ _ _ f) as [_ F]. eapply Forall_impl; [|exact F]. cbn. intros y ->. intros b0 Hb0. cbn in *. eapply H; [reflexivity|exact Hb0].
      + constructor; [|constructor]. eapply decodes_fits; [eassumption|]. apply H; reflexivity.
    - match goal with K : Forall _ (m :: ms) |- _ => inversion K; subst end. auto.
    - apply IHruns; [assumption|]. apply fits_ev; [constructor|exact HH].
    - apply fits_ev; [|exact HH]. constructor; [|constructor]. eapply decodes_fits; [eassumption|].
      match goal with K : Forall _ (m :: ms) |- _ => inversion K as [|? ? K1 ?]; subst end. destruct m. apply all_nodes_eq in K1. now apply (proj1 K1).
    - apply IHruns; [assumption|]. apply fits_ev; [constructor|exact HH].
    - apply IHruns1; [assumption|]. apply fits_ev; [constructor|]. apply IHruns0; [assumption|]. apply IHruns; [assumption|].
      eapply zero_fits; [eassumption| |apply fits_ev; [constructor|exact HH]]. match goal with K : fitting_node _ |- _ => exact K end.
    - apply fits_ev; [constructor|]. eapply zero_fits; [eassumption| |exact HH]. match goal with K : fitting_node _ |- _ => exact K end.
    - apply fits_ev; [constructor|]. apply IHruns; [assumption|]. apply fits_ev; [constructor|]. eapply zero_fits; [eassumption| |exact HH].
      match goal with K : fitting_node _ |- _ => exact K end.
    - inversion HN; subst. auto.
  Qed.
  Lemma runs_list_fits h r ns h' r' : runs_list cf h r ns h' r' -> Forall (all_nodes fitting_node) ns -> fits h -> fits h'.
  Proof. induction 1; intros HN HH; [exact HH|]. inversion HN; subst. eauto using runs_fits. Qed.
  Lemma executes_fits ms r hs r' : executes cf ms r hs r' -> Forall (all_nodes fitting_node) ms -> Forall fits hs.
  Proof.
    intros H HN. assert (H0 : fits []) by constructor. unfold executes in H. destruct (columns cf).
    - destruct H as (h & -> & H). constructor; [|constructor]. eapply runs_list_fits; eauto.
    - induction H; constructor; auto. eapply runs_list_fits; eauto.
  Qed.
End Fit.
Lemma marker_plain h t b : fitting t -> d_entry t = EB b -> marker_packing h t b = packing h b.
Proof.
  intros HF HE. specialize (HF b HE). unfold marker_packing. destruct (Z.eqb_spec (id_Operator (d_id t)) 225) as [E|]; [|reflexivity].
  unfold id_F, id_Operator in *. exfalso. Z.to_euclidean_division_equations. lia.
Qed.
Lemma fits_before later e before : fits (later ++ e :: before) -> fits before.
Proof.
  intros H. assert (G : grows before (later ++ e :: before)) by (exists (later ++ [e]); now rewrite <- app_assoc).
  destruct (grows_data _ _ G) as [l E]. unfold fits in *. rewrite E in H. apply Forall_app in H. tauto.
Qed.
Lemma justified_markers cf h : justified cf h -> fits h -> forall later x before, h = later ++ EvItem KMarker x :: before ->
  exists p ps t b, targets_left before = p :: ps /\ nth_error (data before) p = Some t /\ d_entry (dt_desc t) = EB b /\ dt_info x = packing before b.
Proof.
  intros HJ HF later x before E. pose proof (HJ _ _ _ E) as (p & ps & t & b & H1 & H2 & H3 & H4). exists p, ps, t, b.
  split; [exact H1|]. split; [exact H2|]. split; [exact H3|]. rewrite H4. apply marker_plain; [|exact H3]. subst h. apply fits_before in HF.
  unfold fits in HF. rewrite Forall_forall in HF. apply HF. eapply nth_error_In; eauto.
Qed.
