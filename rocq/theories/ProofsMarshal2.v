(** Payloads and their JSON forms (C58). *)
From Verif Require Import ProofsRun ProofsRun6 ProofsRun4 ProofsParser3 ProofsJson SpecJson ProofsBase ProofsPack3.
From Verif Require Export ProofsMarshal.
From Coq Require Import Lia ZifyBool ZifyNat.

Lemma equal_uint pl v w z : equal_values v w -> UintValue pl v = Ok z -> UintValue pl w = Ok z.
Proof.
  destruct v as [|u|i|x|b|[b|]], w as [|u'|i'|x'|b'|[b'|]]; cbn; try contradiction; try discriminate; intros E H.
  - congruence.
  - congruence.
  - rewrite <- H. do 1 f_equal.
    destruct x as [s|s| |s m e], x' as [s'|s'| |s' m' e']; try discriminate E; try (destruct s; discriminate E); try (destruct s'; discriminate E).
    + reflexivity.
    + destruct s, s'; try discriminate E; reflexivity.
    + unfold SFcompare in E. destruct s, s'; try discriminate E; destruct (Z.compare_spec e e') as [->| |]; try discriminate E;
        destruct (Pos.compare_cont Eq m m') eqn:Ec; try discriminate E; apply Pos.compare_eq in Ec; now subst.
Qed.

Section Follow.
  Variable cf : config.
  Hypothesis Hj : cf_json cf = false.
  Variable k : nat.
  Let pl := cf_plat cf.
  Let cfj := from_json cf.
  Definition good (x : datum) : Prop := exists v, nth_error (dt_vals x) k = Some v /\ survives pl v.
  Definition tokd (x : datum) : token := match marshal_value (nth k (dt_vals x) VNil) with Ok t => t | _ => TNull end.

  Lemma good_nth x v : nth_error (dt_vals x) k = Some v -> nth k (dt_vals x) VNil = v.
  Proof. apply nth_error_nth. Qed.
  Lemma decodes_follow d info r x r' : decodes cf d info r x r' -> good x ->
    forall rj rest, pend rj (tokd x :: rest) -> exists rj', pend rj' rest /\ decodes cfj d info rj (proj k x) rj'.
  Proof.
    intros H (v & Hv & Hs) rj rest Hp. assert (HT := decodes_typed cf d info r x r' Hj H). rewrite Forall_forall in HT.
    assert (Ht : typed info v) by (apply HT; eapply nth_error_In; eassumption).
    assert (Ex : dt_desc x = d /\ dt_info x = info) by (destruct H; split; reflexivity). destruct Ex as [E1 E2].
    unfold tokd, proj in *. rewrite (good_nth _ _ Hv) in *. destruct (survives_form pl v Hs) as [t Em]. rewrite Em in Hp.
    destruct (json_unpack_pend pl info rj (t :: rest) Hp) as (rj' & Hp' & E). exists rj'. split; [exact Hp'|]. rewrite E1, E2.
    apply dec_json; [reflexivity|]. change (cf_plat cfj) with pl. rewrite E.
    apply (survives_iff pl info v t Ht Em) in Hs. now rewrite Hs.
  Qed.
  Lemma fields_follow d ws r xs r' : fields cf d ws r xs r' -> Forall good xs ->
    forall rj rest, pend rj (map tokd xs ++ rest) -> exists rj', pend rj' rest /\ fields cfj d ws rj (map (proj k) xs) rj'.
  Proof.
    induction 1 as [r|w ws r x r1 xs r' HD HF IH]; intros HG rj rest Hp.
    - exists rj. split; [exact Hp|constructor].
    - inversion HG; subst. cbn [map app] in Hp. destruct (decodes_follow _ _ _ _ _ HD ltac:(assumption) _ _ Hp) as (rj1 & Hp1 & D1).
      destruct (IH ltac:(assumption) _ _ Hp1) as (rj2 & Hp2 & D2). exists rj2. split; [exact Hp2|]. cbn [map]. econstructor; eassumption.
  Qed.
  Lemma zero_follow od r z r' : zero_cell cf od r z r' -> Forall good (match z with Some x => [x] | None => [] end) ->
    forall rj rest, pend rj (map tokd (match z with Some x => [x] | None => [] end) ++ rest) ->
    exists rj', pend rj' rest /\ zero_cell cfj od rj (option_map (proj k) z) rj'.
  Proof.
    intros H HG rj rest Hp. destruct H as [Hc|d x r' Hc Ho HD|d r' Hc Ho (e & HU)].
    - exists rj. split; [exact Hp|]. now apply zero_none.
    - inversion HG; subst. cbn [map app] in Hp. destruct (decodes_follow _ _ _ _ _ HD ltac:(assumption) _ _ Hp) as (rj1 & Hp1 & D1).
      exists rj1. split; [exact Hp1|]. eapply zero_some; [exact Hc|reflexivity|exact D1].
    - exfalso. rewrite Hj in HU. destruct (cf_compressed cf).
      + unfold compressed_Unpack, plain_info in HU. cbn [pi_unit pi_nbits Z.eqb] in HU. unfold bind, make_values in HU.
        destruct (cf_nsubsets cf <? 0); discriminate HU.
      + discriminate HU.
  Qed.
  Lemma good_vals x v vs : dt_vals x = v :: vs -> good x -> exists w, nth k (dt_vals x) VNil = w /\ (w = v \/ In w vs).
  Proof.
    intros E (w & Hw & _). exists w. split; [now apply good_nth|]. rewrite E in Hw. destruct k as [|k']; cbn in Hw.
    - injection Hw as ->. auto.
    - right. eapply nth_error_In; eassumption.
  Qed.
  Lemma factor_follow h n : factor cf h n -> Forall good (data h) -> factor cfj (ph k h) n.
  Proof.
    intros (ds & x & v & vs & z & ED & EV & HF & HU & Hn) HG. rewrite ED in HG. apply Forall_app in HG. destruct HG as [_ HG]. inversion HG; subst.
    destruct (good_vals x v vs EV ltac:(assumption)) as (w & Ew & HW).
    exists (map (proj k) ds), (proj k x), w, [], z. rewrite ph_data, ED, map_app. split; [reflexivity|].
    split; [unfold proj; cbn [dt_vals]; now rewrite Ew|]. split; [constructor|]. split; [|reflexivity].
    destruct HW as [->|HI]; [exact HU|]. rewrite Forall_forall in HF. eapply equal_uint; [now apply HF|exact HU].
  Qed.
  Definition fit (h : history) : Prop := Forall good (data h) /\ (k = 0%nat \/ same_bits h).
  Lemma selects_follow h ps : fit (EvTargets ps :: h) -> selects cf h ps -> selects cfj (ph k h) ps.
  Proof.
    intros [HG Hk] (bits & (i0 & i1 & HB & Hi & HF & HL) & H1 & H2 & H3). exists bits. rewrite ph_backref. split; [|auto].
    exists i0, i1. rewrite ph_bitmap, ph_data. split; [exact HB|]. split; [exact Hi|]. split; [|exact HL].
    cbn [data ev_data] in HG. rewrite app_nil_r in HG.
    assert (HG' : Forall good (firstn (i1 - i0) (skipn i0 (data h)))).
    { rewrite <- (firstn_skipn i0 (data h)) in HG. apply Forall_app in HG. destruct HG as [_ HG]. rewrite <- (firstn_skipn (i1 - i0) (skipn i0 (data h))) in HG. now apply Forall_app in HG. }
    assert (HS : k = 0%nat \/ Forall (fun x => exists v, Forall (eq v) (dt_vals x)) (firstn (i1 - i0) (skipn i0 (data h)))).
    { destruct Hk as [Hk|Hk]; [now left|right]. exact (Hk [] ps h i0 i1 eq_refl HB). }
    rewrite skipn_map, firstn_map. clear - HF HG' HS. induction HF as [|x b l l' (v & vs & E & HU) _ IH]; cbn [map]; constructor.
    - inversion HG' as [|? ? (w & Hw & _) _]; subst. exists w, []. split; [unfold proj; cbn [dt_vals]; now rewrite (good_nth _ _ Hw)|].
      assert (w = v) as ->; [|exact HU]. destruct HS as [Hk|HS].
      + rewrite Hk, E in Hw. now injection Hw.
      + inversion HS as [|? ? (u & Hu) _]; subst. rewrite Forall_forall in Hu. rewrite <- (Hu w) by (eapply nth_error_In; eassumption). apply Hu. rewrite E. now left.
    - apply IH; [now inversion HG'|]. destruct HS as [|HS]; [now left|right; now inversion HS].
  Qed.
  Lemma hist_data l h : data (l ++ h) = data h ++ data l.
  Proof. induction l as [|e l IH]; [now rewrite app_nil_r|]. cbn [app data]. now rewrite IH, app_assoc. Qed.
  Lemma fit_before l h : fit (l ++ h) -> fit h.
  Proof.
    intros [HD HS]. split; [rewrite hist_data in HD; now apply Forall_app in HD|]. destruct HS as [|HS]; [now left|right].
    intros later ps before i0 i1 E B. apply (HS (l ++ later) ps before i0 i1); [now rewrite E, app_assoc|exact B].
  Qed.

  (** Lane [k] of a run is a run on the JSON form. *)
  Definition follows (h : history) (h' : history) (P : reader -> reader -> Prop) : Prop :=
    exists l, h' = l ++ h /\
    (fit h' -> forall rj rest, pend rj (map tokd (data l) ++ rest) -> exists rj', pend rj' rest /\ P rj rj').
  Lemma follows_event h ev (P : reader -> reader -> Prop) : ev_data ev = [] -> (fit (ev :: h) -> forall rj, P rj rj) -> follows h (ev :: h) P.
  Proof.
    intros E HP. exists [ev]. split; [reflexivity|]. cbn [data app]. rewrite E. intros HF rj rest Hp. exists rj. auto.
  Qed.
  Lemma follows_none h (P : reader -> reader -> Prop) : (forall rj, P rj rj) -> follows h h P.
  Proof. intros HP. exists []. split; [reflexivity|]. intros _ rj rest Hp. exists rj. auto. Qed.
  Lemma follows_one h ev x (P : reader -> reader -> Prop) d info r r' : ev_data ev = [x] -> decodes cf d info r x r' ->
    (forall rj rj', decodes cfj d info rj (proj k x) rj' -> P rj rj') -> follows h (ev :: h) P.
  Proof.
    intros E HD HP. exists [ev]. split; [reflexivity|]. cbn [data app]. rewrite E. intros [HG _] rj rest Hp. cbn [data app] in HG. rewrite E in HG. apply Forall_app in HG. destruct HG as [_ HG]. inversion HG; subst.
    destruct (decodes_follow _ _ _ _ _ HD ltac:(assumption) _ _ Hp) as (rj' & Hp' & D). exists rj'. auto.
  Qed.
  Lemma follows_then h h1 h2 (P Q R : reader -> reader -> Prop) : follows h h1 P -> follows h1 h2 Q ->
    (fit h1 -> fit h2 -> forall a b c, P a b -> Q b c -> R a c) -> follows h h2 R.
  Proof.
    intros (l1 & -> & F1) (l2 & -> & F2) HR. exists (l2 ++ l1). split; [now rewrite app_assoc|].
    intros HF rj rest Hp. rewrite hist_data, map_app, <- app_assoc in Hp. pose proof (fit_before _ _ HF) as HF1.
    destruct (F1 HF1 _ _ Hp) as (rj1 & Hp1 & P1). destruct (F2 HF _ _ Hp1) as (rj2 & Hp2 & P2). exists rj2. eauto.
  Qed.
  Lemma follows_impl h h' (P Q : reader -> reader -> Prop) : follows h h' P -> (forall a b, P a b -> Q a b) -> follows h h' Q.
  Proof. intros (l & E & F) HQ. exists l. split; [exact E|]. intros HF rj rest Hp. destruct (F HF _ _ Hp) as (rj' & H1 & H2). exists rj'. auto. Qed.
  Lemma follows_zero h od r z r' : zero_cell cf od r z r' ->
    follows h (EvZero z :: h) (fun rj rj' => zero_cell cfj od rj (option_map (proj k) z) rj').
  Proof.
    intros H. exists [EvZero z]. split; [reflexivity|]. assert (E : ev_data (EvZero z) = match z with Some x => [x] | None => [] end) by now destruct z.
    cbn [data app]. rewrite E. intros [HG _]. apply (zero_follow od r z r' H). cbn [data] in HG. rewrite E in HG. now apply Forall_app in HG.
  Qed.

  Lemma runs_follow h r n h' r' : runs cf h r n h' r' -> follows h h' (fun rj rj' => runs cfj (ph k h) rj n (ph k h') rj').
  Proof.
    intros H. induction H using runs_mut with
      (P0 := fun h r ns h' r' _ => follows h h' (fun rj rj' => runs_list cfj (ph k h) rj ns (ph k h') rj'))
      (P1 := fun m h r ns h' r' _ => follows h h' (fun rj rj' => runs_times cfj m (ph k h) rj ns (ph k h') rj')).
    - apply follows_event; [reflexivity|]. intros _ rj. constructor.
    - exists [EvElement fs x]. split; [reflexivity|]. intros [HG _] rj rest Hp. cbn [data ev_data app] in HG, Hp. apply Forall_app in HG. destruct HG as [_ HG].
      apply Forall_app in HG. destruct HG as [HG1 HG2]. inversion HG2; subst.
      rewrite map_app, <- app_assoc in Hp. destruct (fields_follow _ _ _ _ _ f HG1 _ _ Hp) as (rj1 & Hp1 & D1).
      destruct (decodes_follow _ _ _ _ _ d0 ltac:(assumption) _ _ Hp1) as (rj2 & Hp2 & D2). exists rj2. split; [exact Hp2|].
      cbn [ph map pev]. eapply run_element; [eassumption| |]; fold (ph k h); rewrite ?ph_fields, ?ph_packing; eassumption.
    - eapply follows_one; [reflexivity|eassumption|]. intros rj rj' D. cbn [ph map pev]. eapply run_031021; [eassumption|].
      fold (ph k h). rewrite ph_packing. exact D.
    - eapply follows_impl; [exact IHruns|]. intros a0 b0 K. now apply run_sequence.
    - eapply follows_impl; [exact IHruns|]. intros a0 b0 K. now apply run_fixed.
    - eapply follows_then; [exact IHruns|exact IHruns0|]. cbv beta. intros [HG _] _ x0 y0 z0 P1 P2. eapply run_delayed; [exact P1| |exact P2]. now apply factor_follow.
    - apply follows_event; [reflexivity|]. intros _ rj. cbn [ph map pev]. now apply run_plain_op.
    - apply follows_event; [reflexivity|]. intros _ rj. cbn [ph map pev]. now apply run_refval.
    - eapply follows_then with (P := @eq reader); [apply (follows_event h (EvOp 204 d)); [reflexivity|auto]|exact IHruns|]. cbv beta. intros _ _ x0 y0 z0 <- K.
      apply run_assoc; [now rewrite ph_fields|exact K].
    - eapply follows_one; [reflexivity|eassumption|]. intros rj rj' D. cbn [ph map pev]. now apply run_insert.
    - eapply follows_one; [reflexivity|eassumption|]. intros rj rj' D. cbn [ph map pev]. eapply run_local; eassumption.
    - eapply follows_then with (P := @eq reader); [apply (follows_event h (EvNote od)); [reflexivity|auto]|exact IHruns|]. cbv beta. intros _ _ x0 y0 z0 <- K. now apply run_not_present.
    - eapply follows_then with (P := @eq reader); [apply (follows_event h (EvAssess od)); [reflexivity|auto]| |].
      { eapply follows_then with (R := fun a c => exists q1 q2 q3, zero_cell cfj od a (option_map (proj k) z) q1 /\ runs cfj (ph k (EvZero z :: EvAssess od :: h)) q1 bm (ph k h2) q2 /\
           runs_list cfj (ph k h2) q2 at_ (ph k h3) q3 /\ selects cfj (ph k h3) ps /\ runs_list cfj (ph k (EvTargets ps :: h3)) q3 ms (ph k h4) c); [eapply follows_zero; eassumption| |].
        - eapply follows_then with (R := fun q1 c => exists q2 q3, runs cfj (ph k (EvZero z :: EvAssess od :: h)) q1 bm (ph k h2) q2 /\
             runs_list cfj (ph k h2) q2 at_ (ph k h3) q3 /\ selects cfj (ph k h3) ps /\ runs_list cfj (ph k (EvTargets ps :: h3)) q3 ms (ph k h4) c); [exact IHruns| |].
          + eapply follows_then with (R := fun q2 c => exists q3, runs_list cfj (ph k h2) q2 at_ (ph k h3) q3 /\ selects cfj (ph k h3) ps /\ runs_list cfj (ph k (EvTargets ps :: h3)) q3 ms (ph k h4) c); [exact IHruns0| |].
            * eapply follows_then with (P := fun a b => a = b /\ selects cfj (ph k h3) ps); [apply (follows_event h3 (EvTargets ps)); [reflexivity|]|exact IHruns1|].
              -- intros HF rj. split; [reflexivity|]. eapply selects_follow; eassumption.
              -- cbv beta. intros _ _ x0 y0 z1 [<- K1] K2. exact (conj K1 K2).
            * cbv beta. intros _ _ x0 y0 z1 K1 K2. eauto.
          + cbv beta. intros _ _ x0 y0 z1 K1 (q3 & K2). eauto.
        - cbv beta. intros _ _ x0 y0 z1 K1 (q2 & q3 & K2). eauto 6. }
      cbv beta. intros _ _ x0 y0 z1 <- (q1 & q2 & q3 & K1 & K2 & K3 & K4 & K5). eapply run_assess; [exact K1|exact K2|exact K3|exact K4|exact K5|]. now rewrite !ph_ncells.
    - eapply follows_one; [reflexivity|eassumption|]. intros rj rj' D. cbn [ph map pev].
      eapply run_marker with (t := proj k t); fold (ph k h); [rewrite ph_targets; eassumption| |exact e2|].
      + rewrite ph_data, nth_error_map, e1. reflexivity.
      + cbn [proj dt_desc]. rewrite ph_marker. exact D.
    - apply follows_event; [reflexivity|]. intros _ rj. constructor.
    - apply follows_event; [reflexivity|]. intros _ rj. constructor.
    - eapply follows_then with (Q := @eq reader); [eapply follows_zero; eassumption|apply follows_event; [reflexivity|auto]|]. cbv beta. intros _ _ a0 b0 c0 K <-. cbn [ph map pev]. now apply run_recall.
    - eapply follows_then with (Q := fun a b => runs_list cfj (ph k (EvDefine :: EvZero z :: h)) a ms (ph k h') b); [eapply follows_zero; eassumption| |].
      + eapply follows_then with (P := @eq reader); [apply (follows_event (EvZero z :: h) EvDefine); [reflexivity|auto]| |].
        * eapply follows_then with (Q := @eq reader); [exact IHruns|apply (follows_event h' EvDefined); [reflexivity|auto]|]. cbv beta. intros _ _ x0 y0 z1 K <-. exact K.
        * cbv beta. intros _ _ x0 y0 z1 <- K. exact K.
      + cbv beta. intros _ _ x0 y0 z1 K1 K2. cbn [ph map pev]. eapply run_define; [assumption|exact K1|exact K2|]. fold (ph k h'). now rewrite ph_bitmap.
    - apply follows_none. intros rj. constructor.
    - eapply follows_then; [exact IHruns|exact IHruns0|]. cbv beta. intros _ _ x0 y0 z0 K1 K2. econstructor; eassumption.
    - apply follows_none. intros rj. constructor.
    - eapply follows_then; [exact IHruns|exact IHruns0|]. cbv beta. intros _ _ x0 y0 z0 K1 K2. econstructor; eassumption.
  Qed.
End Follow.

(** Without assessment operators no bitmap is used. *)
Definition untargeted (h : history) : Prop := forall ps, ~ In (EvTargets ps) h.
Lemma untargeted_cons e h : untargeted h -> (forall ps, e <> EvTargets ps) -> untargeted (e :: h).
Proof. intros H He ps [K|K]; [now apply (He ps)|now apply (H ps)]. Qed.
Lemma runs_untargeted cf h r n h' r' : runs cf h r n h' r' -> all_nodes (fun n => an_kind n <> KAssessment) n -> untargeted h -> untargeted h'.
Proof.
  intros H. induction H using runs_mut with
    (P0 := fun h r ns h' r' _ => Forall (all_nodes (fun n => an_kind n <> KAssessment)) ns -> untargeted h -> untargeted h')
    (P1 := fun m h r ns h' r' _ => Forall (all_nodes (fun n => an_kind n <> KAssessment)) ns -> untargeted h -> untargeted h');
  intros HC HU; try rewrite all_nodes_eq in HC; try (apply untargeted_cons; [assumption|discriminate]); try tauto.
  - destruct HC as (_ & HC & _). inversion HC; subst. auto.
  - apply IHruns; [tauto|]. apply untargeted_cons; [assumption|discriminate].
  - apply IHruns; [tauto|]. apply untargeted_cons; [assumption|discriminate].
  - repeat (apply untargeted_cons; [|discriminate]). assumption.
  - apply untargeted_cons; [|discriminate]. apply IHruns; [tauto|]. repeat (apply untargeted_cons; [|discriminate]). assumption.
  - inversion HC; subst. auto.
Qed.
Lemma runs_list_untargeted cf h r ns h' r' : runs_list cf h r ns h' r' -> no_assessment ns -> untargeted h -> untargeted h'.
Proof.
  induction 1; intros HC HU; [assumption|]. inversion HC; subst. eauto using runs_untargeted.
Qed.
Lemma untargeted_same h : untargeted h -> same_bits h.
Proof. intros H later ps before i0 i1 E. exfalso. apply (H ps). rewrite E. apply in_elt. Qed.
