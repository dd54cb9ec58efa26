(** Payloads read back from their JSON forms (C58). *)
From Verif Require Import ProofsRun ProofsRun6 ProofsRun4 ProofsRun12 ProofsParser3 ProofsJson SpecJson ProofsBase ProofsPack3.
From Verif Require Export ProofsMarshal2.
From Coq Require Import Lia ZifyBool ZifyNat.

(** ** Documents *)
Lemma scalars_app a b : scalars (a ++ b) = scalars a ++ scalars b.
Proof. apply filter_app. Qed.
Lemma marshal_all_scalars {A} (f : A -> res (list token)) (g : A -> list token) l : (forall x t, f x = Ok t -> scalars t = g x) ->
  forall ts, marshal_all f l = Ok ts -> scalars ts = flat_map g l.
Proof.
  intros Hf. induction l as [|x l IH]; intros ts H; cbn [marshal_all] in H.
  - injection H as <-. reflexivity.
  - destruct (f x) as [t| | |] eqn:E; try discriminate H. destruct (marshal_all f l) as [ts'| | |]; try discriminate H. injection H as <-.
    cbn [flat_map]. rewrite scalars_app, (Hf _ _ E), (IH ts' eq_refl). reflexivity.
Qed.
Lemma brackets_scalars x ts : brackets x = Ok ts -> exists t, x = Ok t /\ scalars ts = scalars t.
Proof.
  unfold brackets. destruct x as [t| | |]; try discriminate. intros H. injection H as <-. exists t. split; [reflexivity|].
  cbn [scalars filter is_scalar]. fold (scalars (t ++ [TDelim 93])). rewrite scalars_app. cbn. apply app_nil_r.
Qed.
Definition ctok (c : cell) : token := match marshal_value (c_val c) with Ok t => t | _ => TNull end.
Lemma marshal_scalar v t : marshal_value v = Ok t -> is_scalar t = true.
Proof.
  destruct v as [|u|i|x|b|[b|]]; cbn; try (intros H; injection H as <-; reflexivity).
  unfold marshal_float. destruct (is_finite64 x); [|discriminate]. intros H. injection H as <-. reflexivity.
Qed.
Lemma subset_scalars sb ts : marshal_subset sb = Ok ts -> scalars ts = map ctok (sb_cells sb).
Proof.
  unfold marshal_subset. intros H. destruct (brackets_scalars _ _ H) as (t & E & ->).
  etransitivity; [eapply (marshal_all_scalars _ (fun c => [ctok c])); [|exact E]|].
  - intros c t0. unfold one_token, ctok. destruct (marshal_value (c_val c)) as [x| | |] eqn:E0; try discriminate. intros H0. injection H0 as <-.
    cbn. now rewrite (marshal_scalar _ _ E0).
  - clear. induction (sb_cells sb) as [|c l IH]; [reflexivity|]. cbn. now rewrite IH.
Qed.
Lemma payload_scalars pay ts : marshal_payload pay = Ok ts -> exists rest, scalars ts = map ctok (all_cells pay) ++ rest /\ (pay <> [] -> rest = []).
Proof.
  unfold marshal_payload, marshal_slice. destruct pay as [|sb pay].
  - intros H. injection H as <-. exists [TNull]. split; [reflexivity|congruence].
  - intros H. exists []. split; [|reflexivity]. destruct (brackets_scalars _ _ H) as (t & E & ->).
    etransitivity; [eapply (marshal_all_scalars _ (fun sb => map ctok (sb_cells sb))); [|exact E]; intros x u Hx; now apply subset_scalars|].
    rewrite app_nil_r. unfold all_cells. clear. induction (sb :: pay) as [|x l IH]; [reflexivity|]. cbn [flat_map]. now rewrite map_app, IH.
Qed.
Lemma marshal_all_ok {A} (f : A -> res (list token)) l : (exists ts, marshal_all f l = Ok ts) <-> Forall (fun x => exists t, f x = Ok t) l.
Proof.
  induction l as [|x l IH]; cbn [marshal_all].
  - split; [constructor|eauto].
  - split.
    + intros (ts & H). destruct (f x) as [t| | |] eqn:E; try discriminate H. destruct (marshal_all f l) as [ts'| | |] eqn:E2; try discriminate H.
      constructor; [eauto|]. apply IH. eauto.
    + intros H. inversion H as [|? ? (t & E) HF]; subst. apply IH in HF. destruct HF as (ts & ->). rewrite E. eauto.
Qed.
Lemma brackets_ok x : (exists ts, brackets x = Ok ts) <-> exists t, x = Ok t.
Proof. unfold brackets. destruct x; split; intros (t & H); try discriminate H; eauto. Qed.
Lemma value_ok v : (exists t, marshal_value v = Ok t) <-> has_form v.
Proof.
  destruct v as [|u|i|x|b|[b|]]; cbn; try (split; [intros _; exact I|intros _; eauto]). unfold marshal_float.
  destruct (is_finite64 x); split; eauto; [intros (t & H); discriminate H|discriminate].
Qed.
Lemma payload_form pay : (exists ts, marshal_payload pay = Ok ts) <-> Forall (fun c => has_form (c_val c)) (all_cells pay).
Proof.
  assert (E : (exists ts, marshal_payload pay = Ok ts) <-> Forall (fun sb => exists t, marshal_subset sb = Ok t) pay).
  { unfold marshal_payload, marshal_slice. destruct pay as [|sb pay]; [split; [constructor|eauto]|]. rewrite brackets_ok. apply marshal_all_ok. }
  rewrite E. unfold all_cells.
  assert (G : forall sb, (exists t, marshal_subset sb = Ok t) <-> Forall (fun c => has_form (c_val c)) (sb_cells sb)).
  { intros sb. unfold marshal_subset. rewrite brackets_ok, marshal_all_ok. split; intros H; eapply Forall_impl; try exact H; intros c K.
    - apply value_ok. destruct K as (t & K). unfold one_token in K. destruct (marshal_value (c_val c)); try discriminate K. eauto.
    - apply value_ok in K. destruct K as (t & K). unfold one_token. rewrite K. eauto. }
  clear E. induction pay as [|sb pay IH]; cbn [flat_map]; [split; constructor|]. rewrite Forall_app, <- IH, <- (G sb). split.
  - intros H. inversion H; subst. auto.
  - intros [H1 H2]. constructor; auto.
Qed.
Lemma form_all pay ts : marshal_payload pay = Ok ts -> Forall (fun c => marshal_value (c_val c) = Ok (ctok c)) (all_cells pay).
Proof.
  intros H. assert (K : exists ts, marshal_payload pay = Ok ts) by eauto. apply payload_form in K. eapply Forall_impl; [|exact K].
  intros c Hc. apply value_ok in Hc. destruct Hc as (t & Ht). unfold ctok. now rewrite Ht.
Qed.

(** ** Lanes and cells *)
Definition shown (k : nat) (d : datum) (c : cell) : Prop := cell_what c = what d /\ nth_error (dt_vals d) k = Some (c_val c).
Lemma lane_shown k ds l : lane_ok k ds l -> Forall2 (shown k) ds l.
Proof.
  intros [HL HI]. apply Forall2_nth; [now symmetry|]. intros i d c Hd Hc. destruct (HI i d c Hd Hc) as (K1 & K2 & _ & _ & _ & K6).
  split; [unfold cell_what, what; congruence|exact K6].
Qed.
Lemma shown_tokens k ds l : Forall2 (shown k) ds l -> map ctok l = map (tokd k) ds.
Proof.
  induction 1 as [|d c ds l [_ H] _ IH]; [reflexivity|]. cbn [map]. f_equal; [|exact IH]. unfold ctok, tokd. now rewrite (nth_error_nth _ _ VNil H).
Qed.
Lemma shown_good cf k ds l : Forall2 (shown k) ds l -> Forall (fun c => survives (cf_plat cf) (c_val c)) l -> Forall (good cf k) ds.
Proof.
  induction 1 as [|d c ds l [_ H] _ IH]; intros HF; [constructor|]. inversion HF; subst. constructor; [|auto]. exists (c_val c). auto.
Qed.
Definition seen (c : cell) : descriptor * pinfo * value := (cell_what c, c_val c).
Definition dseen (k : nat) (d : datum) : descriptor * pinfo * value := (what d, nth k (dt_vals d) VNil).
Lemma shown_values k ds l : Forall2 (shown k) ds l -> map seen l = map (dseen k) ds.
Proof.
  induction 1 as [|d c ds l [H1 H2] _ IH]; [reflexivity|]. cbn [map]. f_equal; [|exact IH]. unfold seen, dseen.
  now rewrite H1, (nth_error_nth _ _ VNil H2).
Qed.
Lemma dseen_proj k d : dseen 0 (proj k d) = dseen k d.
Proof. reflexivity. Qed.

(** ** Forth *)
Section Forth.
  Variable cf : config.
  Hypothesis Hj : cf_json cf = false.
  Lemma list_follow k ms h r h' r' : runs_list cf h r ms h' r' ->
    follows cf k h h' (fun rj rj' => runs_list (from_json cf) (ph k h) rj ms (ph k h') rj').
  Proof.
    induction 1 as [h r|h r n ns h1 r1 h2 r2 H _ IH].
    - apply follows_none. intros rj. constructor.
    - eapply follows_then; [apply (runs_follow cf Hj k _ _ _ _ _ H)|apply IH|].
      cbv beta. intros _ _ x0 y0 z0 K1 K2. econstructor; eassumption.
  Qed.
  Lemma subsets_follow ms n r hs r' : subsets_run cf ms n r hs r' -> Forall (fun h => Forall (good cf 0) (data h)) hs ->
    forall rj rest, pend rj (flat_map (fun h => map (tokd 0) (data h)) hs ++ rest) ->
    exists rj', pend rj' rest /\ subsets_run (from_json cf) ms n rj (map (ph 0) hs) rj'.
  Proof.
    induction 1 as [r|n r h r1 hs r2 HR _ IH]; intros HG rj rest Hp.
    - exists rj. split; [exact Hp|constructor].
    - inversion HG; subst. cbn [flat_map] in Hp. rewrite <- app_assoc in Hp.
      destruct (list_follow 0 ms [] r h r1 HR) as (l & El & F). rewrite app_nil_r in El. subst l.
      destruct (F ltac:(split; auto) _ _ Hp) as (rj1 & Hp1 & P1). destruct (IH ltac:(assumption) _ _ Hp1) as (rj2 & Hp2 & P2).
      exists rj2. split; [exact Hp2|]. cbn [map]. econstructor; eassumption.
  Qed.
  Lemma lanes_follow ms r h r' ks : runs_list cf [] r ms h r' -> Forall (fun k => k = 0%nat \/ same_bits h) ks ->
    Forall (fun k => Forall (good cf k) (data h)) ks ->
    forall rj rest, pend rj (flat_map (fun k => map (tokd k) (data h)) ks ++ rest) ->
    exists rj', pend rj' rest /\ subsets_run (from_json cf) ms (length ks) rj (map (fun k => ph k h) ks) rj'.
  Proof.
    intros HR. induction ks as [|k ks IH]; intros HC HG rj rest Hp.
    - exists rj. split; [exact Hp|constructor].
    - inversion HG; subst. inversion HC; subst. cbn [flat_map] in Hp. rewrite <- app_assoc in Hp.
      destruct (list_follow k ms [] r h r' HR) as (l & El & F). rewrite app_nil_r in El. subst l.
      destruct (F ltac:(split; assumption) _ _ Hp) as (rj1 & Hp1 & P1). destruct (IH ltac:(assumption) ltac:(assumption) _ _ Hp1) as (rj2 & Hp2 & P2).
      exists rj2. split; [exact Hp2|]. cbn [map length]. econstructor; eassumption.
  Qed.
  Lemma columns_json : columns (from_json cf) = false.
  Proof. unfold columns. cbn. apply andb_false_r. Qed.
  Lemma pend_new ts e : pend (RJson (new_jsonreader ts e)) (scalars ts).
  Proof. exists (new_jsonreader ts e). repeat split. Qed.

  Theorem json_forth ms r s ts e : Forall no_base ms -> some_subset cf ->
    (columns cf = true -> cf_nsubsets cf <= 1 \/ no_assessment ms \/ exists h r', executes cf ms r [h] r' /\ same_bits h) ->
    run_payload cf (root ms) (vst0 r) = (s, Ok tt) -> marshal_payload (v_pay s) = Ok ts ->
    Forall (fun c => survives (cf_plat cf) (c_val c)) (all_cells (v_pay s)) ->
    exists s', run_payload (from_json cf) (root ms) (vst0 (RJson (new_jsonreader ts e))) = (s', Ok tt) /\
      payload_values (v_pay s') = payload_values (v_pay s).
  Proof.
    intros HB HS HA H HM HV.
    assert (X : exists hs, executes cf ms r hs (v_r s) /\ shows cf hs (v_pay s) /\ (columns cf = true -> cf_nsubsets cf <= 1 \/ forall h, hs = [h] -> same_bits h)).
    { destruct (run_payload_sound cf ms r s HB HS H) as (hs & HX & HH).
      destruct (columns cf) eqn:HC; [|exists hs; split; [exact HX|]; split; [exact HH|discriminate]].
      destruct (HA eq_refl) as [Hn|[Hn|(h & r' & HR & Hn)]]; [exists hs; auto| |].
      - exists hs. split; [exact HX|]. split; [exact HH|]. intros _. right. intros h ->. unfold executes in HX. rewrite HC in HX. destruct HX as (h' & Eh & HR). injection Eh as <-.
        eapply untargeted_same, runs_list_untargeted; [exact HR|exact Hn|intros ps []].
      - exists [h]. destruct (run_payload_complete cf ms r [h] r' HB HS HR) as (s' & E & Er & HSh). rewrite E in H. injection H as <-.
        rewrite Er. split; [exact HR|]. split; [exact HSh|]. intros _. right. intros h' Eh. injection Eh as <-. exact Hn. }
    clear HA. destruct X as (hs & HX & HH & HA).
    destruct (payload_scalars _ _ HM) as (rest & ES & _).
    assert (HSj : some_subset (from_json cf)) by (intros K; rewrite columns_json in K; discriminate K).
    assert (G : exists hs' rj', subsets_run (from_json cf) ms (Z.to_nat (cf_nsubsets cf)) (RJson (new_jsonreader ts e)) hs' rj' /\
      map (fun h => map (dseen 0) (data h)) hs' = payload_values (v_pay s)).
    { unfold executes in HX. unfold shows in HH. destruct (columns cf) eqn:HC.
      - destruct HX as (h & -> & HR). destruct HH as (h' & Eh & HL & HK). injection Eh as <-.
        assert (HS2 : forall k sb, nth_error (v_pay s) k = Some sb -> Forall2 (shown k) (data h) (sb_cells sb)) by (intros k sb Hk; now apply lane_shown, HK).
        set (ks := seq 0 (Z.to_nat (cf_nsubsets cf))).
        assert (EQ : forall o pay, (forall k sb, nth_error pay k = Some sb -> Forall2 (shown (o + k)) (data h) (sb_cells sb)) ->
           map ctok (all_cells pay) = flat_map (fun k => map (tokd k) (data h)) (seq o (length pay)) /\
           payload_values pay = map (fun k => map (dseen k) (data h)) (seq o (length pay)) /\
           (Forall (fun c => survives (cf_plat cf) (c_val c)) (all_cells pay) -> Forall (fun k => Forall (good cf k) (data h)) (seq o (length pay)))).
        { clear. intros o pay. revert o. induction pay as [|sb pay IH]; intros o K; [repeat split; constructor|].
          pose proof (K 0%nat sb eq_refl) as K0. rewrite Nat.add_0_r in K0.
          destruct (IH (S o)) as (I1 & I2 & I3). { intros k sb' Hk. replace (S o + k)%nat with (o + S k)%nat by lia. now apply K. }
          cbn [length seq flat_map map all_cells]. fold (all_cells pay). split; [|split].
          - rewrite map_app, I1, (shown_tokens _ _ _ K0). reflexivity.
          - unfold payload_values in *. cbn [map]. f_equal; [exact (shown_values _ _ _ K0)|exact I2].
          - intros HF. apply Forall_app in HF. destruct HF as [F1 F2]. constructor; [eapply shown_good; eassumption|auto]. }
        destruct (EQ 0%nat (v_pay s) HS2) as (Q1 & Q2 & Q3). rewrite HL in Q1, Q2, Q3. fold ks in Q1, Q2, Q3.
        destruct (lanes_follow ms r h (v_r s) ks HR) with (rj := RJson (new_jsonreader ts e)) (rest := rest) as (rj' & _ & SR).
        + apply Forall_forall. intros k Hk. unfold ks in Hk. apply in_seq in Hk. destruct (HA eq_refl) as [Hn|Hn]; [left; lia|right; now apply Hn].
        + now apply Q3.
        + rewrite <- Q1, <- ES. apply pend_new.
        + unfold ks in SR. rewrite seq_length in SR. exists (map (fun k => ph k h) ks), rj'. split; [exact SR|]. rewrite Q2, map_map. apply map_ext. intros k.
          rewrite ph_data, map_map. apply map_ext. intros d. apply dseen_proj.
      - assert (EQ : map ctok (all_cells (v_pay s)) = flat_map (fun h => map (tokd 0) (data h)) hs /\
           payload_values (v_pay s) = map (fun h => map (dseen 0) (data h)) hs /\
           (Forall (fun c => survives (cf_plat cf) (c_val c)) (all_cells (v_pay s)) -> Forall (fun h => Forall (good cf 0) (data h)) hs)).
        { clear - HH. induction HH as [|h sb hs pay L _ (I1 & I2 & I3)]; [repeat split; constructor|]. apply lane_shown in L.
          cbn [flat_map map all_cells]. fold (all_cells pay). split; [|split].
          - rewrite map_app, I1, (shown_tokens _ _ _ L). reflexivity.
          - unfold payload_values in *. cbn [map]. f_equal; [exact (shown_values _ _ _ L)|exact I2].
          - intros HF. apply Forall_app in HF. destruct HF as [F1 F2]. constructor; [eapply shown_good; eassumption|auto]. }
        destruct EQ as (Q1 & Q2 & Q3).
        destruct (subsets_follow ms _ r hs (v_r s) HX (Q3 HV) (RJson (new_jsonreader ts e)) rest) as (rj' & _ & SR).
        { rewrite <- Q1, <- ES. apply pend_new. }
        exists (map (ph 0) hs), rj'. split; [exact SR|]. rewrite Q2, map_map. apply map_ext. intros h.
        rewrite ph_data, map_map. apply map_ext. intros d. apply dseen_proj. }
    destruct G as (hs' & rj' & SR & EV).
    destruct (run_payload_complete (from_json cf) ms (RJson (new_jsonreader ts e)) hs' rj' HB HSj) as (s' & E & _ & SH).
    { unfold executes. rewrite columns_json. exact SR. }
    exists s'. split; [exact E|]. rewrite <- EV. unfold shows in SH. rewrite columns_json in SH. clear - SH. unfold payload_values.
    induction SH as [|h sb hs pay L _ IH]; [reflexivity|]. cbn [map]. f_equal; [|exact IH]. apply lane_shown in L. exact (shown_values _ _ _ L).
  Qed.
End Forth.

(** ** Back: a JSON run takes one scalar per cell *)
Section Back.
  Variable cf : config.
  Hypothesis Hj : cf_json cf = true.
  Definition reads (x : datum) (t : token) : Prop := exists v, dt_vals x = [v] /\ json_conv (cf_plat cf) (dt_info x) t = Ok v.
  Definition eats (h : history) (rj : reader) (h' : history) (rj' : reader) : Prop :=
    exists new, data h' = data h ++ new /\ forall l, pend rj l -> exists toks rest, l = toks ++ rest /\ pend rj' rest /\
      (length new <= length toks)%nat /\ (length new = length toks -> Forall2 reads new toks).
  Lemma eats_none h h' rj : data h' = data h -> eats h rj h' rj.
  Proof. intros E. exists []. rewrite app_nil_r. split; [exact E|]. intros l Hp. exists [], l. repeat split; auto. Qed.
  Lemma eats_trans h r h1 r1 h2 r2 : eats h r h1 r1 -> eats h1 r1 h2 r2 -> eats h r h2 r2.
  Proof.
    intros (n1 & E1 & F1) (n2 & E2 & F2). exists (n1 ++ n2). split; [now rewrite E2, E1, app_assoc|]. intros l Hp.
    destruct (F1 l Hp) as (t1 & l1 & -> & Hp1 & L1 & G1). destruct (F2 l1 Hp1) as (t2 & l2 & -> & Hp2 & L2 & G2).
    exists (t1 ++ t2), l2. rewrite app_assoc, !app_length. split; [reflexivity|]. split; [exact Hp2|]. split; [lia|].
    intros E. apply Forall2_app; [apply G1|apply G2]; lia.
  Qed.
  Lemma eats_data h h0 r h' r' : data h0 = data h -> eats h0 r h' r' -> eats h r h' r'.
  Proof. intros E (n & E1 & F). exists n. split; [now rewrite E1, E|exact F]. Qed.
  Lemma eats_end h r h' h'' r' : data h'' = data h' -> eats h r h' r' -> eats h r h'' r'.
  Proof. intros E (n & E1 & F). exists n. split; [now rewrite E, E1|exact F]. Qed.
  Lemma decodes_reads d info r x r' l : decodes cf d info r x r' -> pend r l ->
    exists t rest, l = t :: rest /\ pend r' rest /\ reads x t.
  Proof.
    intros H Hp. destruct H as [v r' Hj' _ H|v r' _ H|c r' Hj' _ H]; try congruence.
    destruct (json_unpack_pend (cf_plat cf) info r l Hp) as (r1 & Hp1 & E). destruct l as [|t l].
    - destruct E as (e & E). rewrite E in H. discriminate H.
    - rewrite E in H. destruct (json_conv (cf_plat cf) info t) as [v'| | |] eqn:EC; try discriminate H. injection H as <- <-.
      exists t, l. split; [reflexivity|]. split; [exact Hp1|]. exists v'. split; [reflexivity|exact EC].
  Qed.
  Lemma eats_one h h' x d info r r' : data h' = data h ++ [x] -> decodes cf d info r x r' -> eats h r h' r'.
  Proof.
    intros E HD. exists [x]. split; [exact E|]. intros l Hp. destruct (decodes_reads _ _ _ _ _ _ HD Hp) as (t & rest & -> & Hp' & HR).
    exists [t], rest. split; [reflexivity|]. split; [exact Hp'|]. split; [apply le_n|]. intros _. constructor; [exact HR|constructor].
  Qed.
  Lemma fields_reads d ws r xs r' : fields cf d ws r xs r' -> forall l, pend r l -> exists toks rest, l = toks ++ rest /\ pend r' rest /\ Forall2 reads xs toks.
  Proof.
    induction 1 as [r|w ws r x r1 xs r' HD HF IH]; intros l Hp.
    - exists [], l. repeat split; auto.
    - destruct (decodes_reads _ _ _ _ _ _ HD Hp) as (t & rest & -> & Hp1 & HR). destruct (IH _ Hp1) as (ts & rest' & -> & Hp2 & HF2).
      exists (t :: ts), rest'. split; [reflexivity|]. split; [exact Hp2|]. now constructor.
  Qed.
  Lemma eats_zero h od r z r' : zero_cell cf od r z r' -> eats h r (EvZero z :: h) r'.
  Proof.
    intros H. destruct H as [Hc|d x r' Hc Ho HD|d r' Hc Ho (e & HU)].
    - apply eats_none. cbn. apply app_nil_r.
    - eapply eats_one; [reflexivity|exact HD].
    - rewrite Hj in HU. exists []. split; [reflexivity|]. intros l Hp.
      destruct (json_unpack_pend (cf_plat cf) (bare NONNEG_CODE 0) r l Hp) as (r1 & Hp1 & E). destruct l as [|t l].
      + destruct E as (e' & E). rewrite E in HU. injection HU as <- _. exists [], []. repeat split; auto.
      + rewrite E in HU. assert (r' = r1) by congruence. subst r'. exists [t], l. split; [reflexivity|]. split; [exact Hp1|]. cbn. split; [lia|discriminate].
  Qed.
  Ltac nodata := cbn [data ev_data]; rewrite ?app_nil_r; reflexivity.
  Lemma runs_eats h r n h' r' : runs cf h r n h' r' -> eats h r h' r'.
  Proof.
    intros H. induction H using runs_mut with
      (P0 := fun h r ns h' r' _ => eats h r h' r') (P1 := fun m h r ns h' r' _ => eats h r h' r'); try assumption.
    - apply eats_none. nodata.
    - exists (fs ++ [x]). split; [reflexivity|]. intros l Hp. destruct (fields_reads _ _ _ _ _ f l Hp) as (ts & rest & -> & Hp1 & HF).
      destruct (decodes_reads _ _ _ _ _ _ d0 Hp1) as (t & rest' & -> & Hp2 & HR). exists (ts ++ [t]), rest'. rewrite <- app_assoc.
      split; [reflexivity|]. split; [exact Hp2|]. split.
      + rewrite !app_length. cbn. clear -HF. induction HF; cbn; lia.
      + intros _. apply Forall2_app; [exact HF|]. constructor; [exact HR|constructor].
    - eapply eats_one; [reflexivity|eassumption].
    - eapply eats_trans; eassumption.
    - apply eats_none. nodata.
    - apply eats_none. nodata.
    - eapply eats_data; [|eassumption]. nodata.
    - eapply eats_one; [reflexivity|eassumption].
    - eapply eats_one; [reflexivity|eassumption].
    - eapply eats_data; [|eassumption]. nodata.
    - apply (eats_data h (EvAssess od :: h)); [nodata|]. eapply eats_trans; [eapply eats_zero; eassumption|].
      eapply eats_trans; [eassumption|]. eapply eats_trans; [eassumption|]. eapply eats_data; [|eassumption]. nodata.
    - eapply eats_one; [reflexivity|eassumption].
    - apply eats_none. nodata.
    - apply eats_none. nodata.
    - eapply eats_end; [|eapply eats_zero; eassumption]. nodata.
    - eapply eats_end; [|eapply eats_trans; [eapply eats_zero; eassumption|eapply eats_data; [|eassumption]; nodata]]. nodata.
    - now apply eats_none.
    - eapply eats_trans; eassumption.
    - now apply eats_none.
    - eapply eats_trans; eassumption.
  Qed.
  Lemma list_eats h r ns h' r' : runs_list cf h r ns h' r' -> eats h r h' r'.
  Proof. induction 1; [now apply eats_none|]. eapply eats_trans; [eapply runs_eats; eassumption|assumption]. Qed.
  Lemma subsets_eat ms n r hs r' : subsets_run cf ms n r hs r' -> forall l, pend r l -> exists toks rest, l = toks ++ rest /\
    (length (flat_map data hs) <= length toks)%nat /\ (length (flat_map data hs) = length toks -> Forall2 reads (flat_map data hs) toks).
  Proof.
    induction 1 as [r|n r h r1 hs r2 HR _ IH]; intros l Hp.
    - exists [], l. cbn. repeat split; auto.
    - destruct (list_eats _ _ _ _ _ HR) as (new & ED & F). cbn [data app] in ED. subst new.
      destruct (F l Hp) as (t1 & l1 & -> & Hp1 & L1 & G1). destruct (IH l1 Hp1) as (t2 & l2 & -> & L2 & G2).
      exists (t1 ++ t2), l2. cbn [flat_map]. rewrite app_assoc, !app_length. split; [reflexivity|]. split; [lia|].
      intros E. apply Forall2_app; [apply G1|apply G2]; lia.
  Qed.
End Back.
Lemma seen_all pay : concat (payload_values pay) = map seen (all_cells pay).
Proof. unfold payload_values, all_cells. induction pay as [|sb pay IH]; [reflexivity|]. cbn [map concat flat_map]. now rewrite IH, map_app. Qed.
Theorem json_back cf ms r s ts e s' : cf_json cf = false -> Forall no_base ms -> some_subset cf ->
  run_payload cf (root ms) (vst0 r) = (s, Ok tt) -> marshal_payload (v_pay s) = Ok ts ->
  run_payload (from_json cf) (root ms) (vst0 (RJson (new_jsonreader ts e))) = (s', Ok tt) ->
  payload_values (v_pay s') = payload_values (v_pay s) ->
  Forall (fun c => survives (cf_plat cf) (c_val c)) (all_cells (v_pay s)).
Proof.
  intros Hj HB HS H HM H' EV.
  assert (HT : Forall (fun c => typed (vn_info (c_node c)) (c_val c)) (all_cells (v_pay s))).
  { apply Forall_forall. intros c Hc. unfold all_cells in Hc. apply in_flat_map in Hc. destruct Hc as (sb & H1 & H2).
    apply In_nth_error in H1. destruct H1 as [k H1]. apply In_nth_error in H2. destruct H2 as [i H2].
    destruct (cell_decoded cf ms r s HB HS H k sb i c H1 H2) as (_ & x & r1 & r2 & HD & Hv).
    apply decodes_typed in HD; [|exact Hj]. rewrite Forall_forall in HD. apply HD. eapply nth_error_In; eassumption. }
  assert (HSj : some_subset (from_json cf)) by (intros K; rewrite columns_json in K; discriminate K).
  destruct (run_payload_sound (from_json cf) ms _ s' HB HSj H') as (hs & HX & HH). unfold executes, shows in HX, HH. rewrite columns_json in HX, HH.
  destruct (subsets_eat (from_json cf) eq_refl ms _ _ hs _ HX (scalars ts) (pend_new ts e)) as (toks & rest & EL & L1 & L2).
  destruct (payload_scalars _ _ HM) as (rest0 & ES & HR0). pose proof (form_all _ _ HM) as HFm.
  assert (HSH : Forall2 (shown 0) (flat_map data hs) (all_cells (v_pay s'))).
  { clear -HH. unfold all_cells. induction HH as [|h sb hs pay L _ IH]; [constructor|]. cbn [flat_map]. apply Forall2_app; [now apply lane_shown|exact IH]. }
  assert (EV2 : map seen (all_cells (v_pay s')) = map seen (all_cells (v_pay s))) by now rewrite <- !seen_all, EV.
  destruct (v_pay s) as [|sb0 pay0] eqn:EP; [constructor|]. rewrite <- EP in *. rewrite HR0 in ES by (rewrite EP; discriminate). clear HR0 EP sb0 pay0.
  rewrite app_nil_r in ES.
  assert (N : length (flat_map data hs) = length (all_cells (v_pay s))).
  { rewrite (Forall2_len _ _ _ HSH), <- (map_length seen), EV2. apply map_length. }
  assert (N2 : (length toks + length rest)%nat = length (all_cells (v_pay s))).
  { rewrite <- app_length, <- EL, ES. apply map_length. }
  specialize (L2 ltac:(lia)). destruct rest; [|cbn in N2; lia]. rewrite app_nil_r in EL. rewrite ES in EL. subst toks. clear -L2 HSH HT HFm EV2.
  revert HT HFm EV2 L2. generalize (all_cells (v_pay s)). revert HSH. generalize (all_cells (v_pay s')). generalize (flat_map data hs).
  intros ds cs' H. induction H as [|d c' ds cs' [W V] _ IH]; intros [|c cs] HT HF EV L2; try discriminate EV; [constructor|].
  cbn [map] in EV, L2. inversion HT; subst. inversion HF; subst. inversion L2 as [|? ? ? ? (v & Hv & Hc) L3]; subst. injection EV as EW Ev ET.
  constructor; [|eapply IH; eassumption]. rewrite Hv in V. cbn in V. injection V as ->.
  match goal with HT1 : typed _ (c_val c), HM1 : marshal_value (c_val c) = _ |- _ => apply (survives_iff _ _ _ _ HT1 HM1) end.
  unfold seen, cell_what in EW. unfold cell_what, what in W. assert (EI : dt_info d = vn_info (c_node c)) by congruence.
  rewrite <- EI. cbn in Hc. congruence.
Qed.
