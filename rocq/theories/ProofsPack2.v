(** Trees of data and the runs that decode them (C34, C59). *)
From Verif Require Import ProofsRun12 ProofsRun6 ProofsRun9 ProofsRun7 ProofsParser3 ProofsParser4 ProofsUnpack ProofsBitProps ProofsBits.
From Verif Require Export ProofsPack.
From Coq Require Import Lia ZifyBool ZifyNat.

Scheme carries_mut := Induction for carries Sort Prop
  with carries_list_mut := Induction for carries_list Sort Prop
  with carries_times_mut := Induction for carries_times Sort Prop.

Lemma carries_fits {A} (ok : pinfo -> A -> Prop) count ids n t ids' its : carries ok count ids n t ids' its -> Forall (fun it => ok (snd (fst it)) (snd it)) its.
Proof.
  intros H. induction H using carries_mut with
    (P0 := fun _ _ _ _ its _ => Forall (fun it => ok (snd (fst it)) (snd it)) its)
    (P1 := fun _ _ _ _ its _ => Forall (fun it => ok (snd (fst it)) (snd it)) its);
  try (constructor; fail); try (constructor; [assumption|constructor]); try assumption; try (apply Forall_app; split; assumption).
  revert f. generalize (element_cells ids d e). induction xs as [|x xs IH]; intros cs F; inversion F; subst; cbn [combine]; constructor; auto.
Qed.

Section Gen.
  Context {A : Type}.
  Variable cf : config.
  Variable ok : pinfo -> A -> Prop.
  Variable count : pinfo -> A -> nat -> Prop.
  Variable bits : pinfo -> A -> list bool.
  Variable vals : pinfo -> A -> list value.
  Hypothesis Hok : forall info x d, ok info x ->
    exists y, dt_desc y = d /\ dt_info y = info /\ dt_vals y = vals info x /\ bits_of cf y (bits info x).
  Hypothesis Hcount : forall info x n, ok info x -> count info x n ->
    exists v vs z, vals info x = v :: vs /\ Forall (equal_values v) vs /\
      UintValue (cf_plat cf) v = Ok z /\ n = Z.to_nat z.

  Definition bits_all (its : list (placed A)) : list bool := flat_map (fun it => bits (snd (fst it)) (snd it)) its.
  Definition is_datum (it : placed A) (x : datum) : Prop := what x = fst it /\ dt_vals x = vals (snd (fst it)) (snd it).
  Lemma bits_all_app a b : bits_all (a ++ b) = bits_all a ++ bits_all b.
  Proof. apply flat_map_app. Qed.
  Lemma one_decodes d info x rest e p : ok info x ->
    exists y p', decodes cf d info (RBit (mkBR (bits info x ++ rest) e p)) y (RBit (mkBR rest e p')) /\ is_datum (d, info, x) y.
  Proof.
    intros H. destruct (Hok info x d H) as (y & H1 & H2 & H3 & H4). destruct (H4 rest e p) as [p' H5]. rewrite H1, H2 in H5.
    exists y, p'. split; [exact H5|]. split; [unfold what; cbn; congruence|exact H3].
  Qed.
  Lemma many_fields d ws : forall xs rest e p, Forall2 (fun c x => ok (snd c) x) (map (fun w => (DecorateDescriptor d, plain_info NONNEG_CODE w)) ws) xs ->
    exists ys p', fields cf d ws (RBit (mkBR (bits_all (combine (map (fun w => (DecorateDescriptor d, plain_info NONNEG_CODE w)) ws) xs) ++ rest) e p)) ys (RBit (mkBR rest e p')) /\
      Forall2 is_datum (combine (map (fun w => (DecorateDescriptor d, plain_info NONNEG_CODE w)) ws) xs) ys.
  Proof.
    induction ws as [|w ws IH]; intros xs rest e p H; inversion H; subst; cbn [map combine].
    - exists [], p. split; constructor.
    - cbn [snd] in *. cbn [bits_all flat_map fst snd]. rewrite <- app_assoc.
      destruct (one_decodes (DecorateDescriptor d) (plain_info NONNEG_CODE w) y (bits_all (combine (map (fun w => (DecorateDescriptor d, plain_info NONNEG_CODE w)) ws) l') ++ rest) e p ltac:(assumption)) as (z & p1 & K1 & K2).
      destruct (IH l' rest e p1 ltac:(assumption)) as (zs & p2 & K3 & K4).
      exists (z :: zs), p2. split; [econstructor; eassumption|]. constructor; assumption.
  Qed.
  Lemma combine_snoc {B C} (l : list B) (l' : list C) a b : length l = length l' -> combine (l ++ [a]) (l' ++ [b]) = combine l l' ++ [(a, b)].
  Proof. revert l'. induction l as [|x l IH]; intros [|y l'] H; try discriminate; [reflexivity|]. cbn. f_equal. apply IH. now injection H. Qed.

  Definition goes (ids' : list Z) (its : list (placed A)) (h h' : history) : Prop :=
    labelled h' /\ executed h' = ids' /\ exists xs, data h' = data h ++ xs /\ Forall2 is_datum its xs.
  Lemma goes_trans ids1 its1 ids2 its2 h h1 h2 : goes ids1 its1 h h1 -> goes ids2 its2 h1 h2 -> goes ids2 (its1 ++ its2) h h2.
  Proof.
    intros (_ & _ & xs & D1 & F1) (L2 & E2 & ys & D2 & F2). split; [exact L2|]. split; [exact E2|].
    exists (xs ++ ys). split; [now rewrite D2, D1, app_assoc|]. now apply Forall2_app.
  Qed.
  Ltac node H := apply all_nodes_eq in H; destruct H as (? & ? & ? & ?).
  Lemma carries_runs ids n t ids' its : carries ok count ids n t ids' its -> all_nodes right_kind n ->
    forall h rest e p, labelled h -> executed h = ids ->
    exists h' p', runs cf h (RBit (mkBR (bits_all its ++ rest) e p)) n h' (RBit (mkBR rest e p')) /\ goes ids' its h h'.
  Proof.
    intros H. induction H using carries_mut with
      (P0 := fun ids ns ts ids' its _ => Forall (all_nodes right_kind) ns -> forall h rest e p, labelled h -> executed h = ids ->
         exists h' p', runs_list cf h (RBit (mkBR (bits_all its ++ rest) e p)) ns h' (RBit (mkBR rest e p')) /\ goes ids' its h h')
      (P1 := fun ids ns tss ids' its _ => Forall (all_nodes right_kind) ns -> forall h rest e p, labelled h -> executed h = ids ->
         exists h' p', runs_times cf (length tss) h (RBit (mkBR (bits_all its ++ rest) e p)) ns h' (RBit (mkBR rest e p')) /\ goes ids' its h h');
    intros HN h rest ee p HL HE.
    - (* element *)
      pose proof HN as HN'. node HN'. match goal with K : right_kind _ |- _ => rename K into HK end.
      rewrite <- HE in *. clear HE ids. set (ws := if id_X (d_id d) =? 31 then [] else widths (executed h)) in *.
      assert (EC : element_cells (executed h) d e = map (fun w => (DecorateDescriptor d, plain_info NONNEG_CODE w)) ws ++ [(d, packing_after (executed h) e)]) by reflexivity.
      rewrite EC in *. apply Forall2_app_inv_l in f. destruct f as (xs1 & xs2 & F1 & F2 & ->). inversion F2 as [|? x ? ? Hx F3]; subst. inversion F3; subst. clear F2 F3.
      assert (LEN : length (map (fun w => (DecorateDescriptor d, plain_info NONNEG_CODE w)) ws) = length xs1) by (clear -F1; induction F1; cbn; congruence).
      rewrite combine_snoc by exact LEN. rewrite bits_all_app, <- app_assoc. cbn [bits_all flat_map fst snd app].
      destruct (many_fields d ws xs1 (bits (packing_after (executed h) e) x ++ rest) ee p F1) as (ys & p1 & R1 & D1).
      destruct (one_decodes d (packing_after (executed h) e) x rest ee p1 Hx) as (y & p2 & R2 & D2).
      destruct (decodes_desc _ _ _ _ _ _ R2) as [Hyd _].
      assert (Hg : forall ev, ev_data ev = ys ++ [y] -> ev_ids ev = [d_id d] -> labelled_event ev ->
        goes (executed h ++ [d_id d]) (combine (map (fun w => (DecorateDescriptor d, plain_info NONNEG_CODE w)) ws) xs1 ++ [(d, packing_after (executed h) e, x)]) h (ev :: h)).
      { intros ev V1 V2 V3. split; [constructor; assumption|]. split; [cbn [executed]; now rewrite V2|]. exists (ys ++ [y]). split; [cbn [data]; now rewrite V1|].
        apply Forall2_app; [exact D1|]. constructor; [exact D2|constructor]. }
      rewrite app_nil_r.
      destruct i as [<-|[<-|[]]].
      + exists (EvElement ys y :: h), p2. split.
        * eapply run_element; [eassumption| |rewrite (packing_executed h e HL); exact R2]. rewrite (open_fields_executed h HL). fold ws. exact R1.
        * apply Hg; [reflexivity|cbn; now rewrite Hyd|]. cbn [labelled_event]. rewrite Hyd. exact (right_kind_says _ _ _ _ _ HK).
      + assert (Hid : d_id d = 31021).
        { unfold right_kind in HK. cbn [an_desc an_kind] in HK. pose proof (documented_other (d_id d)) as [H2' H3']. revert HK.
          destruct (id_F (d_id d)) as [|[q|[|[]|]|]|] eqn:HF; try (intros []; fail); try discriminate.
          - destruct (Z.eqb_spec (d_id d) 31021); [auto|discriminate].
          - destruct q; try (intros []; fail); discriminate.
          - intros K. exfalso. now apply H2'.
          - destruct (id_Y (d_id d) =? 0); discriminate. }
        assert (Hws : ws = []) by (unfold ws; rewrite Hid; reflexivity). rewrite Hws in *. cbn [map combine] in *. destruct xs1; [|inversion F1]. destruct ys; [|inversion D1]. assert (p1 = p) as -> by (now inversion R1).
        exists (EvItem KE031021 y :: h), p2. split; [eapply run_031021; [eassumption|]; rewrite (packing_executed h e HL); exact R2|]. apply Hg; [reflexivity|cbn; now rewrite Hyd|].
        cbn [labelled_event]. rewrite Hyd. exact (right_kind_says _ _ _ _ _ HK).
    - (* 205 *)
      node HN. cbn [bits_all flat_map fst snd]. rewrite app_nil_r.
      destruct (one_decodes d _ x rest ee p o) as (y & p2 & R2 & D2). destruct (decodes_desc _ _ _ _ _ _ R2) as [Hyd _].
      exists (EvItem KInsertString y :: h), p2. split; [constructor; exact R2|]. split; [constructor; [cbn [labelled_event]; rewrite Hyd; eapply (right_kind_says KInsertString); eassumption|exact HL]|].
      split; [cbn; now rewrite Hyd, HE|]. exists [y]. split; [reflexivity|]. constructor; [exact D2|constructor].
    - (* 206 *)
      node HN. cbn [bits_all flat_map fst snd]. rewrite app_nil_r.
      destruct (one_decodes md _ x rest ee p o) as (y & p2 & R2 & D2).
      exists (EvItem KSkipLocal y :: h), p2. split; [econstructor; eassumption|]. split; [constructor; [exact I|exact HL]|].
      split; [cbn; now rewrite app_nil_r|]. exists [y]. split; [reflexivity|]. constructor; [exact D2|constructor].
    - (* operators *)
      node HN. cbn [bits_all flat_map app]. match goal with K : right_kind _ |- _ => pose proof (right_kind_says _ _ _ _ _ K) as HS end.
      assert (exists op, In (k, op) [(KNbitsOffset, 201); (KScaleOffset, 202); (KModifyPacking, 207); (KSetStringLength, 208)] /\ id_Operator (d_id d) = op) as (op & Hi & Ho).
      { destruct i as [<-|[<-|[<-|[<-|[]]]]]; cbn [says] in HS; eexists; (split; [|exact HS]); cbn; auto. }
      exists (EvOp op d :: h), p. split; [now constructor|]. split; [constructor; assumption|]. split; [cbn; now rewrite HE|].
      exists []. split; [reflexivity|constructor].
    - (* 204 *)
      pose proof HN as HN'. node HN'. match goal with K : right_kind _ |- _ => pose proof (right_kind_says _ _ _ _ _ K) as HS end. cbn [says] in HS.
      destruct (IHcarries ltac:(assumption) (EvOp 204 d :: h) rest ee p) as (h' & p' & R & G).
      { constructor; assumption. } { cbn. now rewrite HE. }
      exists h', p'. split.
      + eapply run_assoc; [|exact R]. intros Y. rewrite open_fields_executed by exact HL. rewrite HE. auto.
      + destruct G as (G1 & G2 & xs & G3 & G4). split; [exact G1|]. split; [exact G2|]. exists xs. split; [|exact G4]. rewrite G3. cbn [data ev_data]. now rewrite app_nil_r.
    - (* sequence *)
      node HN. destruct (IHcarries ltac:(assumption) h rest ee p HL HE) as (h' & p' & R & G). exists h', p'. split; [now constructor|exact G].
    - (* fixed *)
      node HN. destruct (IHcarries ltac:(assumption) h rest ee p HL HE) as (h' & p' & R & G). exists h', p'. split; [|exact G].
      constructor. rewrite <- e. exact R.
    - (* delayed *)
      node HN. match goal with K : Forall _ (m :: ms) |- _ => inversion K; subst end.
      rewrite bits_all_app, <- app_assoc.
      destruct (IHcarries ltac:(assumption) h (bits_all its ++ rest) ee p HL eq_refl) as (h1 & p1 & R1 & G1).
      pose proof G1 as (L1 & E1 & xs & D1 & F1).
      destruct (IHcarries0 ltac:(assumption) h1 rest ee p1 L1 E1) as (h2 & p2 & R2 & G2).
      exists h2, p2. split; [|eapply goes_trans; eassumption].
      eapply run_delayed; [exact R1| |exact R2]. apply Forall2_app_inv_l in F1. destruct F1 as (xs1 & xs2 & _ & F2 & ->).
      inversion F2 as [|? y ? ? Hy F3]; subst. inversion F3; subst. destruct Hy as [_ Hy]. cbn [fst snd] in Hy.
      assert (OKx : ok info x) by (match goal with K : carries _ _ _ m _ _ _ |- _ => apply carries_fits in K; apply Forall_app in K; destruct K as [_ K]; now inversion K end).
      destruct (Hcount _ _ _ OKx c) as (v & vs & z & V1 & V2 & V3 & V4). unfold factor.
      exists (data h ++ xs1), y, v, vs, z. split; [now rewrite D1, app_assoc|]. split; [now rewrite Hy|]. auto.
    - exists h, p. split; [constructor|]. split; [exact HL|]. split; [exact HE|]. exists []. split; [now rewrite app_nil_r|constructor].
    - inversion HN; subst. rewrite bits_all_app, <- app_assoc.
      destruct (IHcarries ltac:(assumption) h (bits_all its2 ++ rest) ee p HL eq_refl) as (h1 & p1 & R1 & G1).
      pose proof G1 as (L1 & E1 & _). destruct (IHcarries0 ltac:(assumption) h1 rest ee p1 L1 E1) as (h2 & p2 & R2 & G2).
      exists h2, p2. split; [econstructor; eassumption|eapply goes_trans; eassumption].
    - exists h, p. split; [constructor|]. split; [exact HL|]. split; [exact HE|]. exists []. split; [now rewrite app_nil_r|constructor].
    - rewrite bits_all_app, <- app_assoc.
      destruct (IHcarries ltac:(assumption) h (bits_all its2 ++ rest) ee p HL HE) as (h1 & p1 & R1 & G1).
      pose proof G1 as (L1 & E1 & _). destruct (IHcarries0 ltac:(assumption) h1 rest ee p1 L1 E1) as (h2 & p2 & R2 & G2).
      exists h2, p2. split; [econstructor; eassumption|eapply goes_trans; eassumption].
  Qed.
  Lemma carries_list_runs ids ns ts ids' its : carries_list ok count ids ns ts ids' its -> Forall (all_nodes right_kind) ns ->
    forall h rest e p, labelled h -> executed h = ids ->
    exists h' p', runs_list cf h (RBit (mkBR (bits_all its ++ rest) e p)) ns h' (RBit (mkBR rest e p')) /\ goes ids' its h h'.
  Proof.
    induction 1 as [ids|ids n ns t ts ids1 its1 ids2 its2 H1 H2 IH]; intros HN h rest e p HL HE.
    - exists h, p. split; [constructor|]. split; [exact HL|]. split; [exact HE|]. exists []. split; [now rewrite app_nil_r|constructor].
    - inversion HN; subst. rewrite bits_all_app, <- app_assoc.
      destruct (carries_runs _ _ _ _ _ H1 ltac:(assumption) h (bits_all its2 ++ rest) e p HL eq_refl) as (h1 & p1 & R1 & G1).
      pose proof G1 as (L1 & E1 & _). destruct (IH ltac:(assumption) h1 rest e p1 L1 E1) as (h2 & p2 & R2 & G2).
      exists h2, p2. split; [econstructor; eassumption|eapply goes_trans; eassumption].
  Qed.
End Gen.
