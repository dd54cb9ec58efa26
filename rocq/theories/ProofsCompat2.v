From Coq Require Import ZifyBool ZifyNat.
From Verif Require Import ProofsBase ProofsParser3 ProofsParser4 ProofsRun4 ProofsRun6 ProofsRun12 SpecCompat ProofsCompat.

Section C.
  Variable cf : config.

  (** ** What a run adds *)
  Lemma later_refl (h : history) : exists l, h = l ++ h.
  Proof. now exists []. Qed.
  Lemma later_one (e : event) (h : history) : exists l, e :: h = l ++ h.
  Proof. now exists [e]. Qed.
  Lemma later_trans (a b c : history) : (exists l, b = l ++ a) -> (exists l, c = l ++ b) -> exists l, c = l ++ a.
  Proof. intros (l & ->) (m & ->). exists (m ++ l). now rewrite app_assoc. Qed.
  Lemma later_drop e (a b : history) : (exists l, b = l ++ e :: a) -> exists l, b = l ++ a.
  Proof. intros (l & ->). exists (l ++ [e]). now rewrite <- app_assoc. Qed.
  Lemma later_add e (a b : history) : (exists l, b = l ++ a) -> exists l, e :: b = l ++ a.
  Proof. intros (l & ->). now exists (e :: l). Qed.
  Lemma later_all h r n h' r' : runs cf h r n h' r' -> exists l, h' = l ++ h.
  Proof.
    intros H. induction H using runs_mut
      with (P0 := fun h _ _ h' _ _ => exists l, h' = l ++ h) (P1 := fun _ h _ _ h' _ _ => exists l, h' = l ++ h);
    eauto 7 using later_refl, later_one, later_trans, later_drop, later_add.
  Qed.
  Lemma later_list h r ms h' r' : runs_list cf h r ms h' r' -> exists l, h' = l ++ h.
  Proof. induction 1; [apply later_refl|]. eapply later_trans; [eapply later_all; eassumption|assumption]. Qed.
  Lemma later_times k h r ms h' r' : runs_times cf k h r ms h' r' -> exists l, h' = l ++ h.
  Proof. induction 1; [apply later_refl|]. eapply later_trans; [eapply later_list; eassumption|assumption]. Qed.

  Definition quietly (h h' : history) : Prop := exists l, h' = l ++ h /\ Forall quiet_ev l.
  Lemma quietly_refl h : quietly h h.
  Proof. exists []. auto. Qed.
  Lemma quietly_one e h : quiet_ev e -> quietly h (e :: h).
  Proof. exists [e]. auto. Qed.
  Lemma quietly_trans a b c : quietly a b -> quietly b c -> quietly a c.
  Proof. intros (l & -> & L) (m & -> & K). exists (m ++ l). rewrite app_assoc. split; [reflexivity|]. now apply Forall_app. Qed.
  Lemma quiet_inv k d ms b a : quiet (ANode k d ms b a) -> (k <> KAssessment /\ k <> KBitmap) /\ Forall quiet ms.
  Proof. intros H. apply all_nodes_eq in H. destruct H as (H & H1 & _). split; [exact H|exact H1]. Qed.
  Lemma quiet_runs h r n h' r' : runs cf h r n h' r' -> quiet n -> quietly h h'.
  Proof.
    intros H. induction H using runs_mut
      with (P0 := fun h _ ms h' _ _ => Forall quiet ms -> quietly h h') (P1 := fun _ h _ ms h' _ _ => Forall quiet ms -> quietly h h');
    try (intros Q; apply quiet_inv in Q; destruct Q as ([Q1 Q2] & Qm)); try (exfalso; congruence);
    try (apply quietly_one; exact I); auto.
    - inversion Qm; subst. eapply quietly_trans; eauto.
    - eapply quietly_trans; [apply (quietly_one (EvOp 204 d)); exact I|auto].
    - eapply quietly_trans; [apply (quietly_one (EvNote od)); exact I|auto].
    - intros _. apply quietly_refl.
    - intros Q. inversion Q; subst. eapply quietly_trans; eauto.
    - intros _. apply quietly_refl.
    - intros Q. eapply quietly_trans; eauto.
  Qed.
  Lemma quiet_list h r ms h' r' : runs_list cf h r ms h' r' -> Forall quiet ms -> quietly h h'.
  Proof.
    induction 1; intros Q; [apply quietly_refl|]. inversion Q; subst. eapply quietly_trans; [eapply quiet_runs; eassumption|auto].
  Qed.

  Lemma simple_inv k d ms b a : simple (ANode k d ms b a) -> simple_node (ANode k d ms b a) /\ Forall simple ms /\
    match b with Some b => simple b | None => True end /\ Forall simple a.
  Proof. intros H. apply all_nodes_eq in H. exact H. Qed.

  Lemma sealed_runs h r n h' r' : runs cf h r n h' r' -> simple n -> sealed h -> sealed h'.
  Proof.
    intros H. induction H using runs_mut
      with (P0 := fun h _ ms h' _ _ => Forall simple ms -> sealed h -> sealed h')
           (P1 := fun _ h _ ms h' _ _ => Forall simple ms -> sealed h -> sealed h');
    try (intros Q; apply simple_inv in Q; destruct Q as (Q & Qm & Qb & Qa)); try (intros S);
    try (apply sealed_cons; [discriminate|assumption]); auto.
    - inversion Qm; subst. auto.
    - apply IHruns; auto. apply sealed_cons; [discriminate|assumption].
    - apply IHruns; auto. apply sealed_cons; [discriminate|assumption].
    - apply IHruns1; auto. apply sealed_cons; [discriminate|]. apply IHruns0; auto.
      apply IHruns; auto. do 2 (apply sealed_cons; [discriminate|]). exact S.
    - do 2 (apply sealed_cons; [discriminate|]). exact S.
    - assert (S' : sealed h') by (apply IHruns; auto; do 2 (apply sealed_cons; [discriminate|]); exact S).
      intros later h1 E. destruct later as [|x later]; cbn in E.
      + injection E as <-. destruct (quiet_list _ _ _ _ _ r0 Q) as (l & -> & L). eauto.
      + injection E as _ E. eapply S', E.
    - intros S'. inversion S; subst. auto.
  Qed.
  Lemma sealed_list h r ms h' r' : runs_list cf h r ms h' r' -> Forall simple ms -> sealed h -> sealed h'.
  Proof. induction 1; intros Q S; [exact S|]. inversion Q; subst. apply IHruns_list; auto. eapply sealed_runs; eauto. Qed.

End C.

(** ** The simulation *)
Definition with_compat (cf : config) (b : bool) : config :=
  mkConfig (cf_compressed cf) (cf_json cf) b (cf_nsubsets cf) (cf_plat cf) (cf_fuel cf).
Section D.
  Variables (cf : config) (on : bool).
  Hypothesis Hbin : cf_json cf = false.
  Hypothesis Hsub : cf_compressed cf = true -> 0 <= cf_nsubsets cf.
  Notation cfz := (with_compat cf on).

  Lemma decodes_on d info r x r' : decodes cf d info r x r' -> decodes cfz d info r x r'.
  Proof. intros H. destruct H; [apply dec_bits|apply dec_json|apply dec_column]; assumption. Qed.
  Lemma fields_on d ws r xs r' : fields cf d ws r xs r' -> fields cfz d ws r xs r'.
  Proof. induction 1; econstructor; eauto using decodes_on. Qed.
  Definition the_zero (d : descriptor) : datum :=
    if cf_compressed cf
    then mkDatum d (plain_info NONNEG_CODE 0) (VUint 0) 0 (repeat (VUint 0) (Z.to_nat (cf_nsubsets cf)))
    else mkDatum d (plain_info NONNEG_CODE 0) VNil 0 [VUint 0].
  Lemma the_zero_datum d : zeroed (d_id d) -> zero_datum (the_zero d).
  Proof.
    intros Zd. unfold the_zero. destruct (cf_compressed cf); (split; [exact Zd|split; [reflexivity|]]); [|repeat constructor].
    apply Forall_forall; intros v Hv; symmetry; eapply repeat_spec, Hv.
  Qed.
  Lemma the_zero_compressed r : cf_compressed cf = true ->
    compressed_Unpack (cf_plat cf) (cf_fuel cf) (cf_nsubsets cf) (plain_info NONNEG_CODE 0) r =
    (r, Ok (UC (mkCval (VUint 0) 0 (repeat (VUint 0) (Z.to_nat (cf_nsubsets cf)))))).
  Proof.
    intros Ec. unfold compressed_Unpack, make_values, bind, ret. cbn [pi_unit pi_nbits plain_info Z.eqb].
    specialize (Hsub Ec). destruct (cf_nsubsets cf <? 0) eqn:E; [lia|]. reflexivity.
  Qed.
  Lemma the_zero_decodes d r : decodes cf d (plain_info NONNEG_CODE 0) r (the_zero d) r.
  Proof.
    pose proof (the_zero_compressed r) as T. unfold the_zero. destruct (cf_compressed cf) eqn:Ec.
    - exact (dec_column cf d _ r (mkCval (VUint 0) 0 (repeat (VUint 0) (Z.to_nat (cf_nsubsets cf)))) r Hbin Ec (T eq_refl)).
    - apply dec_bits; [exact Hbin|exact Ec|reflexivity].
  Qed.
  Lemma zero_only d r x r' : decodes cf d (plain_info NONNEG_CODE 0) r x r' -> x = the_zero d /\ r' = r.
  Proof.
    pose proof (the_zero_compressed r) as T. unfold the_zero. destruct 1 as [v r' J C E|v r' J E|c r' J C E]; try congruence; rewrite C.
    - cbv in E. injection E as <- <-. auto.
    - rewrite (T C) in E. injection E as <- <-. auto.
  Qed.
  Lemma zero_readable r r' : ~ unreadable cf (plain_info NONNEG_CODE 0) r r'.
  Proof.
    intros (e & H). unfold unreadable in H. rewrite Hbin in H. pose proof (the_zero_compressed r) as T. destruct (cf_compressed cf) eqn:Ec.
    - rewrite (T eq_refl) in H. discriminate.
    - cbv in H. discriminate.
  Qed.
  Lemma zero_cell_as d r z r' : zero_cell cf (Some d) r z r' -> r' = r /\ z = (if cf_compatible cf then Some (the_zero d) else None).
  Proof.
    destruct 1 as [C|d0 x r' C [= <-] D|d0 r' C [= <-] D]; rewrite C; auto.
    - apply zero_only in D. destruct D as [-> ->]. auto.
    - now apply zero_readable in D.
  Qed.
  Lemma zero_on d r z r' : zero_cell cf (Some d) r z r' -> r' = r /\ exists z', zero_cell cfz (Some d) r z' r.
  Proof.
    intros H. apply zero_cell_as in H. destruct H as [-> _]. split; [reflexivity|]. destruct on eqn:On.
    - exists (Some (the_zero d)). eapply zero_some; [reflexivity|reflexivity|].
      pose proof (decodes_on _ _ _ _ _ (the_zero_decodes d r)) as X. rewrite On in X. exact X.
    - exists None. now apply zero_none.
  Qed.

  Definition op_node (n : anode) : Prop :=
    match n with
    | ANode KAssessment od _ _ _ => exists d, od = Some d /\ zeroed (d_id d)
    | ANode KBitmap (Some d) _ _ _ => zeroed (d_id d)
    | _ => True
    end.
  Definition okn (n : anode) : Prop := simple n /\ all_nodes op_node n.
  Lemma okn_inv k d ms b a : okn (ANode k d ms b a) -> simple_node (ANode k d ms b a) /\ op_node (ANode k d ms b a) /\
    Forall okn ms /\ match b with Some b => okn b | None => True end /\ Forall okn a.
  Proof.
    intros [H1 H2]. apply all_nodes_eq in H1. apply all_nodes_eq in H2.
    destruct H1 as (A1 & B1 & C1 & D1). destruct H2 as (A2 & B2 & C2 & D2). unfold okn.
    split; [exact A1|]. split; [exact A2|]. split; [|split].
    - rewrite Forall_forall in *. intros x Hx. split; [exact (B1 x Hx)|exact (B2 x Hx)].
    - destruct b; auto.
    - rewrite Forall_forall in *. intros x Hx. split; [exact (D1 x Hx)|exact (D2 x Hx)].
  Qed.
  Lemma okn_simple l : Forall okn l -> Forall simple l.
  Proof. apply Forall_impl. intros n H. apply H. Qed.

  Lemma short_before l h : short_bitmaps (l ++ h) -> short_bitmaps h.
  Proof. intros H later ps before ->. apply (H (l ++ later) ps before). now rewrite app_assoc. Qed.
  Lemma short_later h h' : short_bitmaps h' -> (exists l, h' = l ++ h) -> short_bitmaps h.
  Proof. intros H (l & ->). eapply short_before, H. Qed.

  Lemma selects_on h hz ps : wz h hz -> sealed h -> short_bitmaps (EvTargets ps :: h) -> selects cf h ps ->
    exists ps', selects cfz hz ps' /\ Forall2 (same_cell h hz) ps ps' /\ length ps' = length ps.
  Proof.
    intros W S Sh (bits & (i0 & i1 & Eb & Le & Fb & Lb) & Lr & _ & Eps).
    destruct (Sh [] ps h eq_refl) as (ref & Er & Hr). specialize (Hr _ _ Eb).
    pose proof (wz_reference _ _ W) as Wr. rewrite Er in Wr. destruct Wr as (refz & Erz & Wref).
    destruct (wz_recent _ _ Wref) as (A & Az & T & Ed & Edz & LT).
    assert (N : ncells ref = (length A + length T)%nat) by (unfold ncells; now rewrite Ed, app_length).
    assert (Nz : ncells refz = (length Az + length T)%nat) by (unfold ncells; now rewrite Edz, app_length).
    assert (B : backref h = ncells ref) by (apply backref_reference; [exact Er|lia]).
    assert (Bz : backref hz = ncells refz) by (apply backref_reference; [exact Erz|lia]).
    destruct (proj2 (wz_bitmap _ _ W S) _ _ Eb ltac:(lia)) as (j0 & j1 & Ebz & Lez & Ej & Es).
    exists (zero_positions (backref hz - length bits) bits).
    assert (R : Forall2 (same_cell h hz) ps (zero_positions (backref hz - length bits) bits)).
    { rewrite Eps. apply zero_positions_related. intros j Hj.
      destruct (reference_grows _ _ Er) as (l & El). destruct (reference_grows _ _ Erz) as (lz & Elz).
      subst h hz. apply same_grows.
      assert (X : (length T - length bits + j < length T)%nat) by lia. apply nth_error_Some in X.
      destruct (nth_error T (length T - length bits + j)) as [x|] eqn:Ex; [|congruence]. exists x.
      rewrite B, Bz, Ed, Edz, N, Nz. split; (rewrite nth_error_app2 by lia; rewrite <- Ex; f_equal; lia). }
    split; [|split; [exact R|symmetry; clear - R; induction R; cbn; congruence]].
    exists bits. split; [|split; [lia|split; [|reflexivity]]].
    - exists j0, j1. split; [exact Ebz|]. split; [exact Lez|]. rewrite Es, Ej. split; [exact Fb|exact Lb].
    - intros ->. cbn in Lb. lia.
  Qed.

  Definition sim (h : history) (r : reader) (n : anode) (h' : history) (r' : reader) : Prop :=
    okn n -> short_bitmaps h' -> sealed h -> forall hz, wz h hz -> exists hz', runs cfz hz r n hz' r' /\ wz h' hz'.
  Definition sims (h : history) (r : reader) (ns : list anode) (h' : history) (r' : reader) : Prop :=
    Forall okn ns -> short_bitmaps h' -> sealed h -> forall hz, wz h hz -> exists hz', runs_list cfz hz r ns hz' r' /\ wz h' hz'.
  Lemma sim_all h r n h' r' : runs cf h r n h' r' -> sim h r n h' r'.
  Proof.
    intros H. induction H using runs_mut
      with (P0 := fun h r ms h' r' _ => sims h r ms h' r')
           (P1 := fun k h r ms h' r' _ => Forall okn ms -> short_bitmaps h' -> sealed h -> forall hz, wz h hz ->
                    exists hz', runs_times cfz k hz r ms hz' r' /\ wz h' hz');
    try (intros Q; apply okn_inv in Q; destruct Q as (Q & Qo & Qm & Qb & Qa); intros Sh S hz W).
    - eexists. split; [apply run_absent|]. now apply wz_same.
    - eexists. split; [eapply run_element|apply wz_same; [exact I|exact W]].
      + eassumption.
      + rewrite (wz_open_fields _ _ W). apply fields_on. eassumption.
      + rewrite (wz_packing _ _ _ W). now apply decodes_on.
    - eexists. split; [eapply run_031021|apply wz_same; [exact I|exact W]]; [eassumption|].
      rewrite (wz_packing _ _ _ W). now apply decodes_on.
    - destruct (IHruns Qm Sh S hz W) as (hz' & R & W'). exists hz'. split; [now apply run_sequence|exact W'].
    - destruct (IHruns Qm Sh S hz W) as (hz' & R & W'). exists hz'. split; [now apply run_fixed|exact W'].
    - (* delayed *)
      inversion Qm as [|? ? Qm0 Qms]; subst. assert (L := later_times cf _ _ _ _ _ _ r0).
      destruct (IHruns Qm0 (short_later _ _ Sh L) S hz W) as (hz1 & R1 & W1).
      assert (S1 : sealed h1) by (eapply sealed_runs; [exact H|apply Qm0|exact S]).
      destruct (IHruns0 Qms Sh S1 hz1 W1) as (hz' & R & W'). exists hz'. split; [|exact W'].
      eapply run_delayed; [exact R1| |exact R].
      destruct f as (ds & x & v & vs & z & Ed & Ev & Fv & Eu & En).
      assert (X : exists l, data hz1 = l ++ [x]).
      { cbn [simple_node] in Q. destruct H; cbn [an_kind] in Q; destruct Q as [Q|Q]; try discriminate;
          try (exfalso; rewrite Q in *; match goal with X : In _ _ |- _ => cbn [In] in X; decompose [or] X end; congruence).
        - inversion W1 as [| | |? ? ? ? W0]; subst. cbn [data ev_data] in *. rewrite app_assoc in Ed |- *.
          apply app_inj_tail in Ed. destruct Ed as [_ ->]. eauto.
        - inversion W1 as [| | |? ? ? ? W0]; subst. cbn [data ev_data] in *.
          apply app_inj_tail in Ed. destruct Ed as [_ ->]. eauto. }
      destruct X as (dsz & Edz). exists dsz, x, v, vs, z. auto.
    - eexists. split; [eapply run_plain_op; eassumption|]. apply wz_same; [exact I|exact W].
    - eexists. split; [eapply run_refval; eassumption|]. apply wz_same; [exact I|exact W].
    - (* assoc *)
      destruct (IHruns Qm Sh (sealed_cons (EvOp 204 d) _ ltac:(discriminate) S) (EvOp 204 d :: hz) (wz_same (EvOp 204 d) _ _ I W)) as (hz' & R & W').
      exists hz'. split; [|exact W']. apply run_assoc; [|exact R]. rewrite (wz_open_fields _ _ W). assumption.
    - eexists. split; [eapply run_insert, decodes_on; eassumption|]. apply wz_same; [exact I|exact W].
    - eexists. split; [eapply run_local; [eassumption|]; apply decodes_on; eassumption|]. apply wz_same; [exact I|exact W].
    - destruct (IHruns Qm Sh (sealed_cons (EvNote od) _ ltac:(discriminate) S) (EvNote od :: hz) (wz_same (EvNote od) _ _ I W)) as (hz' & R & W').
      exists hz'. split; [|exact W']. now apply run_not_present.
    - (* assessment *)
      destruct Qo as (d & -> & Zd). destruct (zero_on d r z r1 z0) as (-> & z' & Zz).
      assert (L3 := later_list cf _ _ _ _ _ r0). assert (L4 := later_list cf _ _ _ _ _ r5).
      assert (ShT : short_bitmaps (EvTargets ps :: h3)) by exact (short_later _ _ Sh L4).
      assert (Sh3 : short_bitmaps h3) by exact (short_before [_] _ ShT).
      assert (Sh2 : short_bitmaps h2) by exact (short_later _ _ Sh3 L3).
      assert (S0 : sealed (EvZero z :: EvAssess (Some d) :: h)) by (do 2 (apply sealed_cons; [discriminate|]); exact S).
      destruct (IHruns Qb Sh2 S0 (EvZero z' :: EvAssess (Some d) :: hz)) as (hz2 & R2 & W2).
      { apply wz_zero. apply wz_same; [exact I|exact W]. }
      assert (S2 : sealed h2) by (eapply sealed_runs; [exact H|apply Qb|exact S0]).
      destruct (IHruns0 Qa Sh3 S2 hz2 W2) as (hz3 & R3 & W3).
      assert (S3 : sealed h3) by (eapply sealed_list; [exact r0|apply okn_simple, Qa|exact S2]).
      destruct (selects_on h3 hz3 ps W3 S3 ShT s) as (ps' & Sz & Fp & Lp).
      assert (S3' : sealed (EvTargets ps :: h3)) by (apply sealed_cons; [discriminate|exact S3]).
      destruct (IHruns1 Qm Sh S3' (EvTargets ps' :: hz3)) as (hz4 & R4 & W4); [now apply wz_targets|].
      exists hz4. split; [|exact W4]. eapply run_assess; [exact Zz|exact R2|exact R3|exact Sz|exact R4|].
      cbn [simple_node] in Q. destruct (quiet_list cf _ _ _ _ _ r5 Q) as (m & Em & Fm). subst h4.
      destruct (wz_quiet _ _ _ Fm W4) as (hz5 & E5 & W5).
      destruct (later_list cfz _ _ _ _ _ R4) as (m' & Em').
      assert (Emm : m' = m /\ EvTargets ps' :: hz3 = hz5).
      { rewrite E5 in Em'. pose proof (wz_length _ _ W5) as La. pose proof (wz_length _ _ W3) as Lb.
        assert (Lm : length m = length m').
        { apply (f_equal (@length event)) in Em'. rewrite !app_length in Em'. cbn [length] in *. lia. }
        clear - Em' Lm. revert m' Em' Lm. induction m as [|e m IH]; intros [|e' m'] E L; cbn in *; try lia; [auto|].
        injection E as -> E. destruct (IH m' E ltac:(lia)) as [-> ->]. auto. }
      destruct Emm as [-> <-]. rewrite Em'. rewrite !ncells_app in *.
      assert (Et : forall qs x, ncells (EvTargets qs :: x) = ncells x) by (intros; unfold ncells; cbn [data ev_data]; now rewrite app_nil_r).
      rewrite !Et in *. rewrite Lp. lia.
    - (* marker *)
      pose proof (wz_targets_left _ _ W) as F. rewrite e0 in F. inversion F as [|? p' ? ps' (y & Y1 & Y2) F']; subst.
      assert (y = t) by congruence. subst y.
      eexists. split; [eapply run_marker; [symmetry; eassumption|exact Y2|eassumption|]|apply wz_same; [exact I|exact W]].
      rewrite (wz_marker _ _ _ _ W). apply decodes_on. eassumption.
    - eexists. split; [apply run_cancel_backref|]. apply wz_same; [exact I|exact W].
    - eexists. split; [apply run_cancel_bitmap|]. apply wz_same; [exact I|exact W].
    - (* recall *)
      destruct (zero_on d r z r1 z0) as (-> & z' & Zz).
      eexists. split; [apply run_recall; [assumption|exact Zz]|]. apply wz_same; [exact I|]. now apply wz_zero.
    - (* define *)
      destruct (zero_on d r z r1 z0) as (-> & z' & Zz).
      assert (S0 : sealed (EvDefine :: EvZero z :: h)) by (do 2 (apply sealed_cons; [discriminate|]); exact S).
      destruct (IHruns Qm (short_before [_] _ Sh) S0 (EvDefine :: EvZero z' :: hz)) as (hz' & R & W').
      { apply wz_same; [exact I|]. now apply wz_zero. }
      exists (EvDefined :: hz'). split; [|apply wz_same; [exact I|exact W']].
      eapply run_define; [assumption|exact Zz|exact R|].
      assert (S' : sealed h') by (eapply sealed_list; [exact r0|apply okn_simple, Qm|exact S0]).
      intros E. apply n0. apply (proj1 (wz_bitmap _ _ W' S')). exact E.
    - intros _ _ _ hz W. exists hz. split; [constructor|exact W].
    - intros Q Sh S hz W. inversion Q as [|? ? Q1 Q2]; subst. assert (L := later_list cf _ _ _ _ _ r0).
      destruct (IHruns Q1 (short_later _ _ Sh L) S hz W) as (hz1 & R1 & W1).
      assert (S1 : sealed h1) by (eapply sealed_runs; [exact H|apply Q1|exact S]).
      destruct (IHruns0 Q2 Sh S1 hz1 W1) as (hz2 & R2 & W2). exists hz2. split; [econstructor; eassumption|exact W2].
    - intros _ _ _ hz W. exists hz. split; [constructor|exact W].
    - intros Q Sh S hz W. assert (L := later_times cf _ _ _ _ _ _ r3).
      destruct (IHruns Q (short_later _ _ Sh L) S hz W) as (hz1 & R1 & W1).
      assert (S1 : sealed h1) by (eapply sealed_list; [eassumption|apply okn_simple, Q|exact S]).
      destruct (IHruns0 Q Sh S1 hz1 W1) as (hz2 & R2 & W2). exists hz2. split; [econstructor; eassumption|exact W2].
  Qed.
End D.
