(** Trees of data (C34, C59) are layouts; what is decoded is a layout. *)
From Verif Require Import ProofsRun12 ProofsRun6 ProofsRun9 ProofsRun7 ProofsParser3 ProofsParser4 ProofsUnpack ProofsBitProps ProofsBits.
From Verif Require Export ProofsPlan.
From Coq Require Import Lia ZifyBool ZifyNat.

Section Carried.
  Context {A : Type}.
  Variable cf : config.
  Variable ok : pinfo -> A -> Prop.
  Variable count : pinfo -> A -> nat -> Prop.
  Variable vals : pinfo -> A -> list value.
  Hypothesis Hcount : forall info x n, ok info x -> count info x n ->
    exists v vs z, vals info x = v :: vs /\ Forall (equal_values v) vs /\
      UintValue (cf_plat cf) v = Ok z /\ n = Z.to_nat z.
  Definition sketch (it : placed A) : datum := planned (fst (fst it)) (snd (fst it)) (vals (snd (fst it)) (snd it)).
  Definition comes (ids' : list Z) (its : list (placed A)) (h h' : history) : Prop :=
    labelled h' /\ executed h' = ids' /\ data h' = data h ++ map sketch its.
  Lemma comes_trans ids1 its1 ids2 its2 h h1 h2 : comes ids1 its1 h h1 -> comes ids2 its2 h1 h2 -> comes ids2 (its1 ++ its2) h h2.
  Proof. intros (_ & _ & D1) (L2 & E2 & D2). split; [exact L2|]. split; [exact E2|]. now rewrite D2, D1, map_app, app_assoc. Qed.
  Lemma comes_refl h : labelled h -> comes (executed h) [] h h.
  Proof. intros H. split; [exact H|]. split; [reflexivity|]. cbn. now rewrite app_nil_r. Qed.
  Lemma sketch_fields d ws : forall xs : list A, length ws = length xs ->
    Forall2 (fun w f => holds (DecorateDescriptor d) (plain_info NONNEG_CODE w) f) ws
      (map sketch (combine (map (fun w => (DecorateDescriptor d, plain_info NONNEG_CODE w)) ws) xs)).
  Proof. induction ws as [|w ws IH]; intros [|x xs] H; try discriminate; cbn; constructor; [eexists; reflexivity|]. apply IH. now injection H. Qed.
  Ltac node H := apply all_nodes_eq in H; destruct H as (? & ? & ? & ?).
  Lemma carries_lays ids n t ids' its : carries ok count ids n t ids' its -> all_nodes right_kind n ->
    forall h, labelled h -> executed h = ids -> exists h', lays cf h n h' /\ comes ids' its h h'.
  Proof.
    intros H. induction H using carries_mut with
      (P0 := fun ids ns ts ids' its _ => Forall (all_nodes right_kind) ns -> forall h, labelled h -> executed h = ids -> exists h', lays_list cf h ns h' /\ comes ids' its h h')
      (P1 := fun ids ns tss ids' its _ => Forall (all_nodes right_kind) ns -> forall h, labelled h -> executed h = ids -> exists h', lays_times cf (length tss) h ns h' /\ comes ids' its h h');
    intros HN h HL HE.
    - pose proof HN as HN'. node HN'. match goal with K : right_kind _ |- _ => rename K into HK end.
      rewrite <- HE in *. clear HE ids. set (ws := if id_X (d_id d) =? 31 then [] else widths (executed h)) in *.
      assert (EC : element_cells (executed h) d e = map (fun w => (DecorateDescriptor d, plain_info NONNEG_CODE w)) ws ++ [(d, packing_after (executed h) e)]) by reflexivity.
      rewrite EC in *. apply Forall2_app_inv_l in f. destruct f as (xs1 & xs2 & F1 & F2 & ->). inversion F2 as [|? x ? ? Hx F3]; subst. inversion F3; subst. clear F2 F3.
      assert (LEN : length (map (fun w => (DecorateDescriptor d, plain_info NONNEG_CODE w)) ws) = length xs1) by (clear -F1; induction F1; cbn; congruence).
      rewrite (combine_snoc _ _ _ _ LEN). rewrite map_length in LEN. set (ys := map sketch (combine (map (fun w => (DecorateDescriptor d, plain_info NONNEG_CODE w)) ws) xs1)).
      set (y := sketch (d, packing_after (executed h) e, x)).
      assert (Hg : forall ev, ev_data ev = ys ++ [y] -> ev_ids ev = [d_id d] -> labelled_event ev ->
        comes (executed h ++ [d_id d]) (combine (map (fun w => (DecorateDescriptor d, plain_info NONNEG_CODE w)) ws) xs1 ++ [(d, packing_after (executed h) e, x)]) h (ev :: h)).
      { intros ev V1 V2 V3. split; [constructor; assumption|]. split; [cbn [executed]; now rewrite V2|]. cbn [data]. rewrite V1, map_app. reflexivity. }
      destruct i as [<-|[<-|[]]].
      + exists (EvElement ys y :: h). split.
        * eapply lay_element; [eassumption| |rewrite (packing_executed h e HL); eexists; reflexivity]. rewrite (open_fields_executed h HL). fold ws. now apply sketch_fields.
        * apply Hg; [reflexivity|reflexivity|]. cbn [labelled_event y sketch planned dt_desc fst snd]. exact (right_kind_says _ _ _ _ _ HK).
      + assert (Hid : d_id d = 31021).
        { unfold right_kind in HK. cbn [an_desc an_kind] in HK. pose proof (documented_other (d_id d)) as [H2' H3']. revert HK.
          destruct (id_F (d_id d)) as [|[q|[|[]|]|]|] eqn:HF; try (intros []; fail); try discriminate.
          - destruct (Z.eqb_spec (d_id d) 31021); [auto|discriminate].
          - destruct q; try (intros []; fail); discriminate.
          - intros K. exfalso. now apply H2'.
          - destruct (id_Y (d_id d) =? 0); discriminate. }
        assert (Hws : ws = []) by (unfold ws; rewrite Hid; reflexivity).
        exists (EvItem KE031021 y :: h). split; [eapply lay_031021; [eassumption|]; rewrite (packing_executed h e HL); eexists; reflexivity|].
        apply Hg; [|reflexivity|cbn [labelled_event y sketch planned dt_desc fst snd]; exact (right_kind_says _ _ _ _ _ HK)].
        unfold ys. rewrite Hws in *. destruct xs1; [reflexivity|discriminate].
    - node HN. exists (EvItem KInsertString (sketch (d, plain_info STRING (8 * id_Y (d_id d)), x)) :: h). split; [constructor; eexists; reflexivity|].
      split; [constructor; [cbn [labelled_event sketch planned dt_desc fst snd]; eapply (right_kind_says KInsertString); eassumption|exact HL]|]. split; [cbn; now rewrite HE|reflexivity].
    - node HN. exists (EvItem KSkipLocal (sketch (md, plain_info BINARY (id_Y (d_id d)), x)) :: h). split; [econstructor; [eassumption|eexists; reflexivity]|].
      split; [constructor; [exact I|exact HL]|]. split; [cbn; now rewrite app_nil_r|reflexivity].
    - node HN. match goal with K : right_kind _ |- _ => pose proof (right_kind_says _ _ _ _ _ K) as HS end.
      assert (exists op, In (k, op) [(KNbitsOffset, 201); (KScaleOffset, 202); (KModifyPacking, 207); (KSetStringLength, 208)] /\ id_Operator (d_id d) = op) as (op & Hi & Ho).
      { destruct i as [<-|[<-|[<-|[<-|[]]]]]; cbn [says] in HS; eexists; (split; [|exact HS]); cbn; auto. }
      exists (EvOp op d :: h). split; [now constructor|]. split; [constructor; assumption|]. split; [cbn; now rewrite HE|]. reflexivity.
    - pose proof HN as HN'. node HN'. match goal with K : right_kind _ |- _ => pose proof (right_kind_says _ _ _ _ _ K) as HS end. cbn [says] in HS.
      destruct (IHcarries ltac:(assumption) (EvOp 204 d :: h)) as (h' & R & G). { constructor; assumption. } { cbn. now rewrite HE. }
      exists h'. split.
      + eapply lay_assoc; [|exact R]. intros Y. rewrite open_fields_executed by exact HL. rewrite HE. auto.
      + destruct G as (G1 & G2 & G3). split; [exact G1|]. split; [exact G2|]. rewrite G3. cbn [data ev_data]. now rewrite app_nil_r.
    - node HN. destruct (IHcarries ltac:(assumption) h HL HE) as (h' & R & G). exists h'. split; [now constructor|exact G].
    - node HN. destruct (IHcarries ltac:(assumption) h HL HE) as (h' & R & G). exists h'. split; [|exact G]. constructor. rewrite <- e. exact R.
    - node HN. match goal with K : Forall _ (m :: ms) |- _ => inversion K; subst end.
      destruct (IHcarries ltac:(assumption) h HL eq_refl) as (h1 & R1 & G1). pose proof G1 as (L1 & E1 & D1).
      destruct (IHcarries0 ltac:(assumption) h1 L1 E1) as (h2 & R2 & G2).
      exists h2. split; [|eapply comes_trans; eassumption].
      eapply lay_delayed; [exact R1| |exact R2].
      assert (OKx : ok info x) by (match goal with K : carries _ _ _ m _ _ _ |- _ => apply carries_fits in K; apply Forall_app in K; destruct K as [_ K]; now inversion K end).
      destruct (Hcount _ _ _ OKx c) as (v & vs & z & V1 & V2 & V3 & V4). unfold factor.
      exists (data h ++ map sketch its0), (sketch (d, info, x)), v, vs, z. split; [now rewrite D1, map_app, app_assoc|]. split; [exact V1|]. auto.
    - exists h. split; [constructor|]. rewrite <- HE. now apply comes_refl.
    - inversion HN; subst. destruct (IHcarries ltac:(assumption) h HL eq_refl) as (h1 & R1 & G1).
      pose proof G1 as (L1 & E1 & _). destruct (IHcarries0 ltac:(assumption) h1 L1 E1) as (h2 & R2 & G2).
      exists h2. split; [econstructor; eassumption|eapply comes_trans; eassumption].
    - exists h. split; [constructor|]. rewrite <- HE. now apply comes_refl.
    - destruct (IHcarries ltac:(assumption) h HL HE) as (h1 & R1 & G1).
      pose proof G1 as (L1 & E1 & _). destruct (IHcarries0 ltac:(assumption) h1 L1 E1) as (h2 & R2 & G2).
      exists h2. split; [econstructor; eassumption|eapply comes_trans; eassumption].
  Qed.
  Lemma carries_list_lays ns : forall ids ts ids' its, carries_list ok count ids ns ts ids' its -> Forall (all_nodes right_kind) ns ->
    forall h, labelled h -> executed h = ids -> exists h', lays_list cf h ns h' /\ comes ids' its h h'.
  Proof.
    induction ns as [|n ns IH]; intros ids ts ids' its H HN h HL HE; inversion H; subst.
    - exists h. split; [constructor|now apply comes_refl].
    - inversion HN; subst. destruct (carries_lays _ _ _ _ _ ltac:(eassumption) ltac:(assumption) h HL eq_refl) as (h1 & R1 & G1).
      pose proof G1 as (L1 & E1 & _). destruct (IH _ _ _ _ ltac:(eassumption) ltac:(assumption) h1 L1 E1) as (h2 & R2 & G2).
      exists h2. split; [econstructor; eassumption|eapply comes_trans; eassumption].
  Qed.
End Carried.
Lemma subset_data_laid cf ms its : Forall (all_nodes right_kind) ms -> subset_data (cf_plat cf) ms its -> laid cf ms its.
Proof.
  intros HN (ts & ids & H). split; [|eapply carries_list_fits; eassumption].
  destruct (carries_list_lays cf raw_fits _ raw_vals (Hcount_raw cf) ms _ _ _ _ H HN []) as (h & L & _ & _ & D); [constructor|reflexivity|]. exists h. split; [exact L|exact D].
Qed.
Lemma compressed_data_laid cf n ms its : 0 < n -> Forall (all_nodes right_kind) ms -> compressed_data (cf_plat cf) n ms its -> laid_columns cf n ms its.
Proof.
  intros Hn HN (ts & ids & H). split; [|eapply carries_list_fits; eassumption].
  assert (HC : forall info c k, column_fits n info c ->
      (exists x, Forall (fun y => y = x) (cc_vals c) /\ repeats (cf_plat cf) (raw_value info x) k) ->
      exists v vs z, col_vals info c = v :: vs /\ Forall (equal_values v) vs /\ UintValue (cf_plat cf) v = Ok z /\ k = Z.to_nat z).
  { intros info c k (HL & _) (x & Hx & Hr1 & z & Hr2 & Hr3). destruct (cc_vals c) as [|y ys] eqn:Ev; [cbn in HL; lia|].
    exists (raw_value info x), (map (raw_value info) ys), z. unfold col_vals. rewrite Ev. cbn [map]. inversion Hx; subst. split; [reflexivity|].
    split; [|auto]. apply Forall_map. eapply Forall_impl; [|eassumption]. intros a ->. exact Hr1. }
  destruct (carries_list_lays cf (column_fits n) _ col_vals HC ms _ _ _ _ H HN []) as (h & L & _ & _ & D); [constructor|reflexivity|]. exists h. split; [exact L|exact D].
Qed.
