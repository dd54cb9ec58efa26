(** Executed order, and what it determines. *)
From Coq Require Import ZifyBool ZifyNat Sorted.
From Verif Require Export ProofsRun11.
From Verif Require Import ProofsBits ProofsUnpack ProofsParser3 ProofsParser4 ProofsParser5 ProofsTable.

(** ** Operators are what their identifiers say *)
Definition says (k : akind) (id : Z) : Prop :=
  match k with
  | KElement _ | KE031021 => id_F id = 0
  | KNbitsOffset => id_Operator id = 201
  | KScaleOffset => id_Operator id = 202
  | KNewRefval => id_Operator id = 203
  | KAssocField => id_Operator id = 204
  | KInsertString => id_Operator id = 205
  | KModifyPacking => id_Operator id = 207
  | KSetStringLength => id_Operator id = 208
  | _ => True
  end.
Lemma documented_says id k : id_F id = 2 -> Some k = documented id -> says k id.
Proof.
  intros HF. assert (E : id_Operator id = id / 1000).
  { unfold id_F, id_Operator in *. Z.to_euclidean_division_equations. lia. }
  unfold documented. intros H.
  assert (K : forall v k', (if id / 1000 =? v then True else False) -> says k' id -> says k' id) by auto. clear K.
  destruct (id / 1000) as [|p|p] eqn:Ed; try discriminate H.
  repeat (match type of H with
          | Some _ = match ?x with _ => _ end => is_var x; destruct x; try discriminate H
          end); try (injection H as ->; exact E);
  repeat (match type of H with
          | Some _ = match ?x with _ => _ end => destruct x; try discriminate H
          end); injection H as ->; try exact I; exact E.
Qed.
Lemma documented_other id : documented id <> Some KE031021 /\ forall b, documented id <> Some (KElement b).
Proof.
  unfold documented. cbv zeta. split; [|intros b];
  repeat match goal with |- (if ?b then _ else _) <> _ => destruct b | |- (match ?x with _ => _ end) <> _ => destruct x end; discriminate.
Qed.
Lemma right_kind_says k d ms b a : right_kind (ANode k (Some d) ms b a) -> says k (d_id d).
Proof.
  unfold right_kind. cbn [an_desc an_kind]. pose proof (documented_says (d_id d) k) as H1. pose proof (documented_other (d_id d)) as [H2 H3].
  destruct (id_F (d_id d)) as [|[p|[|[]|]|]|] eqn:HF; try contradiction; intros H.
  - destruct (d_id d =? 31021); subst k; exact HF.
  - destruct p; try contradiction. subst k. exact I.
  - auto.
  - destruct (id_Y (d_id d) =? 0); subst k; exact I.
Qed.
Definition labelled_event (e : SpecRun.event) : Prop :=
  match e with
  | EvOp op d => id_Operator (d_id d) = op
  | EvElement _ x | EvItem KE031021 x => id_F (d_id (dt_desc x)) = 0
  | EvItem KInsertString x => id_Operator (d_id (dt_desc x)) = 205
  | _ => True
  end.
Definition labelled : history -> Prop := Forall labelled_event.
Section Label.
  Variable cf : config.
  Ltac nodes H := rewrite all_nodes_eq in H; destruct H as (? & ? & ? & ?).
  Lemma zero_labelled od r z r' h : zero_cell cf od r z r' -> labelled h -> labelled (EvZero z :: h).
  Proof. intros _ H. constructor; [exact I|exact H]. Qed.
  Ltac says := match goal with K : right_kind _ |- _ => exact (right_kind_says _ _ _ _ _ K) end.
  Ltac says_x := match goal with K : decodes cf _ _ _ ?x _ |- _ => rewrite (proj1 (decodes_desc cf _ _ _ _ _ K)) end; says.
  Lemma runs_labelled h r n h' r' : runs cf h r n h' r' -> all_nodes right_kind n -> labelled h -> labelled h'.
  Proof.
    intros H. induction H using runs_mut
      with (P0 := fun h _ ns h' _ _ => Forall (all_nodes right_kind) ns -> labelled h -> labelled h')
           (P1 := fun _ h _ ns h' _ _ => Forall (all_nodes right_kind) ns -> labelled h -> labelled h'); intros HN HH;
    try (match type of HN with all_nodes _ _ => nodes HN end); auto;
    try (constructor; [exact I|solve [auto]]);
    try (constructor; [cbn [labelled_event]; says|solve [auto]]);
    try (constructor; [cbn [labelled_event]; says_x|solve [auto]]).
    - match goal with K : Forall _ (m :: ms) |- _ => inversion K; subst end. auto.
    - match goal with K : In (k, op) _ |- _ => rename K into Hi end. constructor; [|exact HH]. cbn [labelled_event].
      match goal with K : right_kind _ |- _ => apply right_kind_says in K; rename K into Hk end.
      destruct Hi as [Hi|[Hi|[Hi|[Hi|[]]]]]; injection Hi as <- <-; exact Hk.
    - apply IHruns; [assumption|]. constructor; [cbn [labelled_event]; says|exact HH].
    - apply IHruns; [assumption|]. constructor; [exact I|exact HH].
    - apply IHruns1; [assumption|]. constructor; [exact I|]. apply IHruns0; [assumption|]. apply IHruns; [assumption|].
      constructor; [exact I|]. constructor; [exact I|exact HH].
    - constructor; [exact I|]. constructor; [exact I|exact HH].
    - constructor; [exact I|]. apply IHruns; [assumption|]. constructor; [exact I|]. constructor; [exact I|exact HH].
    - inversion HN; subst. auto.
  Qed.
  Lemma runs_list_labelled h r ns h' r' : runs_list cf h r ns h' r' -> Forall (all_nodes right_kind) ns -> labelled h -> labelled h'.
  Proof. induction 1; intros HN HH; [exact HH|]. inversion HN; subst. eauto using runs_labelled. Qed.
End Label.

(** ** Histories and identifiers *)
Lemma op_not_element id op : id_F id = 0 -> 200 < op -> id_Operator id =? op = false.
Proof. unfold id_F, id_Operator. intros. apply Z.eqb_neq. Z.to_euclidean_division_equations. lia. Qed.
Lemma latest_snoc op ids i : latest op (ids ++ i) = fold_left (fun y id => if id_Operator id =? op then id_Operand id else y) i (latest op ids).
Proof. unfold latest. now rewrite fold_left_app. Qed.
Lemma open_after_app ws a b : open_after ws (a ++ b) = open_after (open_after ws a) b.
Proof. unfold open_after. now rewrite fold_left_app. Qed.
Lemma widths_snoc ids i : widths (ids ++ i) = open_after (widths ids) i.
Proof. apply open_after_app. Qed.
Lemma nested_open ids : nested ids -> forall ws, open_after ws ids = ws.
Proof.
  induction 1 as [|id ids H1 H2 IH|w inner c ids H1 H2 H3 IH3 H4 H5 H6 IH6]; intros ws; [reflexivity| |].
  - unfold open_after in *. cbn [fold_left]. apply Z.eqb_neq in H1. rewrite H1. apply IH.
  - change (w :: inner ++ c :: ids) with ([w] ++ inner ++ [c] ++ ids). rewrite !open_after_app, IH6, IH3. unfold open_after. cbn [fold_left].
    apply Z.eqb_neq in H2. rewrite H1, H2, H4, H5. cbn. apply removelast_last.
Qed.
Lemma last_operand_executed op h : labelled h -> 200 < op -> op <> 205 -> last_operand op h = latest op (executed h).
Proof.
  intros H Ho H5. induction H as [|e h He Hh IH]; [reflexivity|]. cbn [executed]. rewrite latest_snoc, <- IH. destruct e; try reflexivity.
  - cbn [last_operand ev_ids fold_left labelled_event] in *. rewrite He. reflexivity.
  - cbn [last_operand ev_ids fold_left labelled_event] in *. now rewrite op_not_element.
  - destruct k; try reflexivity; cbn [last_operand ev_ids fold_left labelled_event] in *; [now rewrite op_not_element|].
    rewrite He. destruct (Z.eqb_spec 205 op); [congruence|reflexivity].
Qed.
Lemma open_fields_executed h : labelled h -> open_fields h = widths (executed h).
Proof.
  intros H. induction H as [|e h He Hh IH]; [reflexivity|]. cbn [executed]. rewrite widths_snoc, <- IH. destruct e; try reflexivity.
  - unfold open_after; cbn [open_fields ev_ids fold_left labelled_event] in *. rewrite He. reflexivity.
  - unfold open_after; cbn [open_fields ev_ids fold_left labelled_event] in *. rewrite op_not_element by (assumption || lia). reflexivity.
  - destruct k; try reflexivity; unfold open_after; cbn [open_fields ev_ids fold_left labelled_event] in *; [rewrite op_not_element by (assumption || lia); reflexivity|].
    rewrite He. reflexivity.
Qed.
Lemma packing_executed h b : labelled h -> packing h b = packing_after (executed h) b.
Proof.
  intros H. unfold packing, packing_after, offset. cbv zeta. rewrite !last_operand_executed by (assumption || lia). reflexivity.
Qed.

(** ** Order *)
Section Order.
  Variable cf : config.
  Ltac nodes H := apply all_nodes_eq in H; destruct H as (? & ? & ? & ?).
  Lemma runs_order h r n h' r' : runs cf h r n h' r' -> straight n -> executed h' = executed h ++ order n.
  Proof.
    intros H. induction H using runs_mut
      with (P0 := fun h _ ns h' _ _ => Forall straight ns -> executed h' = executed h ++ flat_map order ns)
           (P1 := fun k h _ ns h' _ _ => Forall straight ns -> executed h' = executed h ++ concat (repeat (flat_map order ns) k)); intros HN;
    try (match type of HN with straight _ => nodes HN; cbn [straight_kind an_kind] in *; try contradiction; try discriminate end);
    cbn [executed ev_ids order flat_map repeat concat]; rewrite ?app_nil_r; auto.
    - match goal with K : decodes cf _ _ _ x _ |- _ => now rewrite (proj1 (decodes_desc cf _ _ _ _ _ K)) end.
    - match goal with K : decodes cf _ _ _ x _ |- _ => now rewrite (proj1 (decodes_desc cf _ _ _ _ _ K)) end.
    - match goal with K : In (k, op) _ |- _ => destruct K as [Hi|[Hi|[Hi|[Hi|[]]]]] end; injection Hi as <- <-; reflexivity.
    - rewrite IHruns by assumption. cbn [executed ev_ids]. now rewrite <- app_assoc.
    - match goal with K : decodes cf _ _ _ x _ |- _ => now rewrite (proj1 (decodes_desc cf _ _ _ _ _ K)) end.
    - rewrite IHruns by assumption. cbn [executed ev_ids]. now rewrite app_nil_r.
    - inversion HN; subst. rewrite IHruns0, IHruns by assumption. now rewrite <- app_assoc.
    - rewrite IHruns0, IHruns by assumption. now rewrite <- app_assoc.
  Qed.
  Lemma runs_list_order h r ns h' r' : runs_list cf h r ns h' r' -> Forall straight ns -> executed h' = executed h ++ flat_map order ns.
  Proof.
    induction 1 as [|h r n ns h1 r1 h2 r2 H1 H2 IH]; intros HN; cbn [flat_map]; [now rewrite app_nil_r|]. inversion HN; subst.
    rewrite IH, (runs_order _ _ _ _ _ H1) by assumption. now rewrite <- app_assoc.
  Qed.
End Order.

(** ** Payloads *)
Lemma lane_what k ds l : lane_ok k ds l -> map cell_what l = map what ds.
Proof.
  intros [HL HI]. revert l HL HI. assert (G : forall o l, length l = length ds -> (forall i d c, nth_error ds i = Some d -> nth_error l i = Some c -> is_cell k (o + i) d c) -> map cell_what l = map what ds).
  { induction ds as [|d ds IH]; intros o [|c l] HL HI; try discriminate HL; [reflexivity|]. cbn [map]. f_equal.
    - destruct (HI 0%nat d c eq_refl eq_refl) as (H1 & H2 & _). unfold cell_what, what. congruence.
    - apply (IH (S o)); [now injection HL|]. intros i d' c' H1 H2. replace (S o + i)%nat with (o + S i)%nat by lia. now apply HI. }
  intros l HL HI. now apply (G 0%nat).
Qed.
Lemma executes_labelled cf ms r hs r' : executes cf ms r hs r' -> Forall (all_nodes right_kind) ms -> Forall labelled hs.
Proof.
  intros H HN. assert (H0 : labelled []) by constructor. unfold executes in H. destruct (columns cf).
  - destruct H as (h & -> & H). constructor; [|constructor]. eapply runs_list_labelled; eauto.
  - induction H; constructor; auto. eapply runs_list_labelled; eauto.
Qed.
Lemma executes_order cf ms r hs r' : executes cf ms r hs r' -> Forall straight ms -> Forall (fun h => executed h = flat_map order ms) hs.
Proof.
  intros H HN. unfold executes in H. destruct (columns cf).
  - destruct H as (h & -> & H). constructor; [|constructor]. now apply runs_list_order in H.
  - induction H as [|n r h r1 hs r2 H1 H2 IH]; constructor; auto. now apply runs_list_order in H1.
Qed.
Lemma labelled_before later e before : labelled (later ++ e :: before) -> labelled before.
Proof. intros H. apply Forall_app in H. destruct H as [_ H]. now inversion H. Qed.
Lemma element_what cf h fs x later before : justified cf h -> labelled h -> h = later ++ EvElement fs x :: before ->
  exists b, d_entry (dt_desc x) = EB b /\ map what (fs ++ [x]) = element_cells (executed before) (dt_desc x) b.
Proof.
  intros HJ HL E. pose proof (HJ _ _ _ E) as ((b & Hb & Hi) & Hf & Hd). exists b. split; [exact Hb|]. subst h. apply labelled_before in HL.
  unfold element_cells. rewrite map_app. f_equal.
  - rewrite <- open_fields_executed by exact HL. clear - Hf Hd. revert Hf. generalize (if id_X (d_id (dt_desc x)) =? 31 then [] else open_fields before).
    induction Hd as [|f fs H1 H2 IH]; intros [|w ws] Hf; try discriminate Hf; [reflexivity|]. cbn [map] in *. injection Hf as E1 E2. rewrite (IH ws E2).
    unfold what at 1. now rewrite H1, E1.
  - cbn [map]. unfold what. rewrite Hi. now rewrite packing_executed.
Qed.
Lemma runs_element_node cf h r d b h' r' : d_entry d = EB b -> runs cf h r (element_node d) h' r' -> labelled h ->
  exists xs, data h' = data h ++ xs /\ map what xs = element_cells (executed h) d b.
Proof.
  intros Hb H HL. unfold element_node in H. destruct (Z.eqb_spec (d_id d) 31021) as [E|_].
  - inversion H; subst; try notop. eexists. split; [reflexivity|]. cbn [map ev_data]. unfold element_cells.
    assert (id_X (d_id d) =? 31 = true) as -> by now rewrite E. cbn [map app].
    match goal with K : decodes cf _ _ _ x _ |- _ => apply decodes_desc in K; destruct K as [K1 K2] end. unfold what. rewrite K1, K2.
    match goal with K : d_entry d = EB ?e |- _ => assert (e = b) as -> by congruence end. now rewrite packing_executed.
  - inversion H; subst; try notop. eexists. split; [reflexivity|]. cbn [ev_data]. unfold element_cells. rewrite map_app. f_equal.
    + rewrite <- open_fields_executed by exact HL. match goal with K : fields cf _ _ _ _ _ |- _ => apply fields_descs in K; destruct K as [K1 K2] end.
      revert K1. generalize (if id_X (d_id d) =? 31 then [] else open_fields h). clear - K2.
      induction K2 as [|f fs H1 H2 IH]; intros [|w ws] Hf; try discriminate Hf; [reflexivity|]. cbn [map] in *. injection Hf as E1 E2. rewrite (IH ws E2).
      unfold what at 1. now rewrite H1, E1.
    + cbn [map]. match goal with K : decodes cf _ _ _ x _ |- _ => apply decodes_desc in K; destruct K as [K1 K2] end. unfold what. rewrite K1, K2.
      match goal with K : d_entry d = EB ?e |- _ => assert (e = b) as -> by congruence end. now rewrite packing_executed.
Qed.
Lemma single_lanes cf h pay k sb : some_subset cf -> shows cf [h] pay -> nth_error pay k = Some sb -> exists k', lane_ok k' (data h) (sb_cells sb).
Proof.
  intros _ H Hk. unfold shows in H. destruct (columns cf).
  - destruct H as (h0 & E & _ & H). injection E as <-. eauto.
  - inversion H as [|? ? ? ? H1 H2]; subst. inversion H2; subst. destruct k as [|k]; [|destruct k; discriminate]. injection Hk as <-. eauto.
Qed.
Lemma element_in_payload cf pre d b post r s : (0 < lanes cf)%nat -> one_pass cf -> Forall straight pre ->
  rootless (pre ++ element_node d :: post) -> Forall (all_nodes right_kind) pre -> d_entry d = EB b ->
  run_payload cf (root (pre ++ element_node d :: post)) (vst0 r) = (s, Ok tt) ->
  exists s1, run_payload cf (root pre) (vst0 r) = (s1, Ok tt) /\
    forall k sb1 sb, nth_error (v_pay s1) k = Some sb1 -> nth_error (v_pay s) k = Some sb ->
    exists rest, map cell_what (sb_cells sb) = map cell_what (sb_cells sb1) ++ element_cells (flat_map order pre) d b ++ rest.
Proof.
  intros Hp HS Hs Hb Hk He H. destruct (single_sound cf Hp _ _ _ Hb HS H) as (h & HR & HH).
  apply runs_list_app in HR. destruct HR as (h0 & r0 & HR0 & HR). inversion HR as [|? ? ? ? h1 r1 ? ? HR1 HR2]; subst.
  assert (Hpre : rootless pre) by (apply Forall_app in Hb; tauto).
  destruct (single_complete cf Hp pre r h0 r0 Hpre HS HR0) as (s1 & E1 & _ & HH1). exists s1. split; [exact E1|]. intros k sb1 sb K1 K2.
  assert (HSS : some_subset cf) by (unfold some_subset; intros Hc; unfold lanes in Hp; rewrite Hc in Hp; lia).
  destruct (single_lanes _ _ _ _ _ HSS HH K2) as (k2 & L2). destruct (single_lanes _ _ _ _ _ HSS HH1 K1) as (k1 & L1).
  assert (HL0 : labelled h0) by (eapply runs_list_labelled; [exact HR0|exact Hk|constructor]).
  destruct (runs_element_node _ _ _ _ _ _ _ He HR1 HL0) as (xs & Ex & Wx).
  assert (G : exists l, data h = data h1 ++ l).
  { apply grows_data. eapply runs_list_grows. exact HR2. }
  destruct G as [l El]. exists (map what l). rewrite (lane_what _ _ _ L2), (lane_what _ _ _ L1), El, Ex, !map_app, Wx.
  rewrite (runs_list_order _ _ _ _ _ _ HR0 Hs). cbn [executed app]. now rewrite app_assoc.
Qed.
(** The factor of a delayed replication is the element's own cell. *)
Lemma factor_cell cf pre d r s : (0 < lanes cf)%nat -> one_pass cf -> rootless (pre ++ [element_node d]) ->
  run_payload cf (root (pre ++ [element_node d])) (vst0 r) = (s, Ok tt) ->
  forall sb, In sb (v_pay s) -> exists cs c, sb_cells sb = cs ++ [c] /\ vn_desc (c_node c) = d.
Proof.
  intros Hp HS Hb H sb Hi. destruct (single_sound cf Hp _ _ _ Hb HS H) as (h & HR & HH).
  apply runs_list_app in HR. destruct HR as (h0 & r0 & HR0 & HR). apply runs_list_one in HR.
  apply In_nth_error in Hi. destruct Hi as [k K].
  assert (HSS : some_subset cf) by (unfold some_subset; intros Hc; unfold lanes in Hp; rewrite Hc in Hp; lia).
  destruct (single_lanes _ _ _ _ _ HSS HH K) as (k2 & [L1 L2]).
  assert (G : exists xs x, data h = xs ++ [x] /\ dt_desc x = d).
  { unfold element_node in HR. destruct (d_id d =? 31021); inversion HR; subst; try notop; cbn [data ev_data].
    - eexists _, x. split; [reflexivity|]. match goal with D : decodes cf _ _ _ x _ |- _ => apply decodes_desc in D; tauto end.
    - rewrite app_assoc. eexists _, x. split; [reflexivity|]. match goal with D : decodes cf _ _ _ x _ |- _ => apply decodes_desc in D; tauto end. }
  destruct G as (xs & x & E & Ed). rewrite E in *. rewrite app_length in L1. cbn [length] in L1.
  destruct (exists_last (l := sb_cells sb)) as (cs & c & Ec); [intros E0; rewrite E0 in L1; cbn in L1; lia|]. exists cs, c. split; [exact Ec|].
  rewrite Ec in *. rewrite app_length in L1. cbn [length] in L1. rewrite <- Ed.
  apply (L2 (length xs) x c); [|replace (length xs) with (length cs) by lia]; rewrite nth_error_app2, Nat.sub_diag by lia; reflexivity.
Qed.

(** ** Every cell was decoded with its descriptor and packing *)
Section Sourced.
  Variable cf : config.
  Definition from_stream (x : datum) : Prop := exists r r', decodes cf (dt_desc x) (dt_info x) r x r'.
  Definition sourced (h : history) : Prop := Forall from_stream (data h).
  Lemma sourced_ev e h : Forall from_stream (ev_data e) -> sourced h -> sourced (e :: h).
  Proof. intros H1 H2. unfold sourced. cbn [data]. apply Forall_app. auto. Qed.
  Lemma decodes_from d info r x r' : decodes cf d info r x r' -> from_stream x.
  Proof. intros H. pose proof (decodes_desc _ _ _ _ _ _ H) as [E1 E2]. exists r, r'. now rewrite E1, E2. Qed.
  Lemma fields_from d ws r fs r' : fields cf d ws r fs r' -> Forall from_stream fs.
  Proof. induction 1; constructor; eauto using decodes_from. Qed.
  Lemma zero_from od r z r' h : zero_cell cf od r z r' -> sourced h -> sourced (EvZero z :: h).
  Proof. intros H Hh. inversion H; subst; apply sourced_ev; auto; try (now constructor). constructor; [|constructor]. eapply decodes_from; eauto. Qed.
  Lemma runs_sourced h r n h' r' : runs cf h r n h' r' -> sourced h -> sourced h'.
  Proof.
    intros H. induction H using runs_mut
      with (P0 := fun h _ ns h' _ _ => sourced h -> sourced h') (P1 := fun _ h _ ns h' _ _ => sourced h -> sourced h'); intros HH; auto;
    try (apply sourced_ev; [exact (Forall_nil _)|solve [auto]]);
    try (apply sourced_ev; [|exact HH]; constructor; [eapply decodes_from; eassumption|constructor]).
    - apply sourced_ev; [|exact HH]. apply Forall_app. split; [eapply fields_from; eassumption|]. constructor; [eapply decodes_from; eassumption|constructor].
    - apply IHruns. apply sourced_ev; [constructor|exact HH].
    - apply IHruns. apply sourced_ev; [constructor|exact HH].
    - apply IHruns1. apply sourced_ev; [constructor|]. apply IHruns0. apply IHruns.
      eapply zero_from; [eassumption|apply sourced_ev; [constructor|exact HH]].
    - apply sourced_ev; [constructor|]. eapply zero_from; [eassumption|exact HH].
    - apply sourced_ev; [constructor|]. apply IHruns. apply sourced_ev; [constructor|]. eapply zero_from; [eassumption|exact HH].
  Qed.
  Lemma runs_list_sourced h r ns h' r' : runs_list cf h r ns h' r' -> sourced h -> sourced h'.
  Proof. induction 1; intros HH; [exact HH|]. eauto using runs_sourced. Qed.
  Lemma executes_sourced ms r hs r' : executes cf ms r hs r' -> Forall sourced hs.
  Proof.
    intros H. assert (H0 : sourced []) by constructor. unfold executes in H. destruct (columns cf).
    - destruct H as (h & -> & H). constructor; [|constructor]. eapply runs_list_sourced; eauto.
    - induction H; constructor; auto. eapply runs_list_sourced; eauto.
  Qed.
End Sourced.
Lemma shown_lane cf hs pay k sb : shows cf hs pay -> nth_error pay k = Some sb ->
  exists h, In h hs /\ lane_ok (if columns cf then k else 0%nat) (data h) (sb_cells sb).
Proof.
  intros H Hk. unfold shows in H. destruct (columns cf).
  - destruct H as (h & -> & _ & H). exists h. split; [now left|auto].
  - revert k Hk. induction H as [|h sb' hs pay H1 H2 IH]; intros [|k] Hk; try discriminate Hk.
    + injection Hk as <-. exists h. split; [now left|exact H1].
    + destruct (IH k Hk) as (h' & Hi & L). exists h'. split; [now right|exact L].
Qed.
Lemma lane_cell k ds l i c : lane_ok k ds l -> nth_error l i = Some c -> exists x, nth_error ds i = Some x /\ is_cell k i x c.
Proof.
  intros [HL HI] Hc. destruct (nth_error ds i) as [x|] eqn:E; [eauto|]. apply nth_error_None in E.
  assert (nth_error l i <> None) as Hn by congruence. apply nth_error_Some in Hn. lia.
Qed.
Lemma cell_decoded cf ms r s : rootless ms -> some_subset cf -> run_payload cf (root ms) (vst0 r) = (s, Ok tt) ->
  forall k sb i c, nth_error (v_pay s) k = Some sb -> nth_error (sb_cells sb) i = Some c ->
    vn_index (c_node c) = Z.of_nat i /\
    exists x r1 r2, decodes cf (vn_desc (c_node c)) (vn_info (c_node c)) r1 x r2 /\
      nth_error (dt_vals x) (if columns cf then k else 0%nat) = Some (c_val c).
Proof.
  intros Hm Hs H k sb i c Hk Hi. destruct (run_payload_sound cf ms r s Hm Hs H) as (hs & HX & HH).
  destruct (shown_lane _ _ _ _ _ HH Hk) as (h & Hh & L). destruct (lane_cell _ _ _ _ _ L Hi) as (x & Ex & (I1 & I2 & I3 & _ & _ & I6)).
  split; [exact I3|]. apply executes_sourced in HX. rewrite Forall_forall in HX. specialize (HX h Hh). unfold sourced in HX. rewrite Forall_forall in HX.
  destruct (HX x) as (r1 & r2 & D); [eapply nth_error_In; eauto|]. exists x, r1, r2. rewrite I1, I2. auto.
Qed.

(** ** Cells and their bits *)
Lemma plain_cells cf hs pay segs : cf_json cf = false -> cf_compressed cf = false -> shows cf hs pay ->
  Forall2 (fun h ss => Forall2 (bits_of cf) (data h) ss) hs segs ->
  Forall2 (fun sb ss => Forall2 (fun c seg => blen seg = bits_needed (vn_info (c_node c)) /\
    c_val c = decode_value (vn_info (c_node c)) seg) (sb_cells sb) ss) pay segs.
Proof.
  intros Hj Hc H H2. unfold shows, columns in H. rewrite Hc in H. cbn [andb] in H. revert segs H2.
  induction H as [|h sb hs pay H1 HH IH]; intros segs H2; inversion H2; subst; constructor; auto.
  match goal with K : Forall2 (bits_of cf) _ _ |- _ => rename K into HB end. destruct H1 as [HL HI]. clear - HL HI HB Hj Hc.
  assert (G : forall o ds l ss, length l = length ds -> (forall i d c, nth_error ds i = Some d -> nth_error l i = Some c -> is_cell 0 (o + i) d c) ->
    Forall2 (bits_of cf) ds ss -> Forall2 (fun c seg => blen seg = bits_needed (vn_info (c_node c)) /\
    c_val c = decode_value (vn_info (c_node c)) seg) l ss).
  { intros o ds l ss E F K. revert o l E F. induction K as [|d seg ds ss K1 K2 IH]; intros o [|c l] E F; try discriminate E; constructor.
    - destruct (F 0%nat d c eq_refl eq_refl) as (_ & I2 & _ & _ & _ & I6). apply bits_of_plain in K1; [|assumption..]. destruct K1 as [K1 K3].
      rewrite I2. split; [exact K3|]. rewrite K1 in I6. cbn in I6. congruence.
    - apply (IH (S o)); [now injection E|]. intros i d' c' A B. replace (S o + i)%nat with (o + S i)%nat by lia. now apply F. }
  eapply (G 0%nat); eauto.
Qed.
Lemma zero_positions_spec q bits ps : ps = zero_positions q bits ->
  StronglySorted lt ps /\ forall p, In p ps <-> exists j, nth_error bits j = Some 0 /\ p = (q + j)%nat.
Proof. intros ->. split; [apply zero_positions_sorted|]. intros p. apply zero_positions_iff. Qed.
