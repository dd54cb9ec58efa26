(** The visitor's success is exactly execution in the reference semantics, part 3. *)
From Coq Require Import ZifyBool ZifyNat.
From Verif Require Export ProofsRun4.

Section Visits.
  Variable cf : config.
  Hypothesis Hp : (0 < lanes cf)%nat.
  Notation does := (does cf).
  Notation run_of := (run_of cf).

  Ltac notop := match goal with H : In _ _ |- _ => destruct H as [H|[H|[H|[H|[]]]]]; discriminate end.
  (** A leaf: direct proofs of both directions. *)
  Lemma does_leaf m (R : hrel) :
    (forall h s s', rep cf h s -> m s = (s', Ok tt) -> exists h', R h (v_r s) h' (v_r s') /\ rep cf h' s' /\ same_place s s') ->
    (forall h s h' r', rep cf h s -> R h (v_r s) h' r' -> exists s', m s = (s', Ok tt) /\ v_r s' = r' /\ rep cf h' s' /\ same_place s s') ->
    does m R.
  Proof. split; assumption. Qed.

  Lemma v_element np od ms b a : does (visit cf (ANode (KElement np) od ms b a)) (run_of (ANode (KElement np) od ms b a)).
  Proof.
    change (visit cf (ANode (KElement np) od ms b a)) with (visit_element cf np od). destruct np.
    - eapply does_iff; [|apply (does_event cf) with (e := EvNote od)].
      + intros. split; [intros [-> ->]; constructor|]. intros H. inversion H; subst; try notop. split; reflexivity.
      + intros h s R. destruct (add_valueless_ok od s) as (s1 & E1 & H1). exists s1. split; [exact E1|]. split; [apply H1|].
        split; [|apply H1]. eapply rep_only_heap; [exact H1|]. now apply rep_event.
    - split.
      + intros h s s' R H. destruct (element_sound cf Hp h od s s' R H) as (d & e & fs & x & r1 & -> & He & HF & HD & HR & P).
        exists (EvElement fs x :: h). split; [econstructor; eauto|]. auto.
      + intros h s h' r' R H. inversion H; subst; try notop. eapply element_complete; eauto.
  Qed.
  Lemma v_sig od ms b a : does (visit cf (ANode KE031021 od ms b a)) (run_of (ANode KE031021 od ms b a)).
  Proof.
    change (visit cf (ANode KE031021 od ms b a)) with (visit_031021 cf od). split.
    - intros h s s' R H. destruct (sig_sound cf Hp h od s s' R H) as (d & e & x & -> & He & HD & HR & P).
      exists (EvItem KE031021 x :: h). split; [econstructor; eauto|]. auto.
    - intros h s h' r' R H. inversion H; subst; try notop. eapply sig_complete; eauto.
  Qed.
  Lemma v_marker od ms b a : does (visit cf (ANode KMarker od ms b a)) (run_of (ANode KMarker od ms b a)).
  Proof.
    change (visit cf (ANode KMarker od ms b a)) with (visit_marker cf od). split.
    - intros h s s' R H. destruct (marker_sound cf Hp h od s s' R H) as (d & p & ps & t & e & x & -> & Ht & Ex & He & HD & HR & P).
      exists (EvItem KMarker x :: h). split; [eapply run_marker; eauto|]. auto.
    - intros h s h' r' R H. inversion H; subst; try notop. eapply marker_complete; eauto.
  Qed.
  (** add_valueless, then a register update, then an operator event *)
  Lemma does_op op od (f : descriptor -> regs -> regs) :
    (forall d h g, od = Some d -> rep_regs h g -> rep_regs (EvOp op d :: h) (f d g)) ->
    does (add_valueless od ;; d <- need od ;; upd_regs (f d))%M
         (fun h r h' r' => exists d, od = Some d /\ h' = EvOp op d :: h /\ r' = r).
  Proof.
    intros Hf. apply (does_heap_bind cf); [intros; apply add_valueless_ok|]. destruct od as [d|].
    - eapply does_iff; [|apply (does_event cf) with (e := EvOp op d)].
      + intros. split; [intros [-> ->]; eauto|]. intros (d' & E & -> & ->). injection E as <-. split; reflexivity.
      + intros h s R. eexists. split; [cbn [need]; erewrite bind_ok by reflexivity; reflexivity|]. split; [reflexivity|].
        split; [|repeat split]. apply rep_set_regs; [exact R|]. apply Hf; [reflexivity|]. apply R.
    - split; [intros h s s' R H; discriminate H|]. intros h s h' r' R (d & E & _). discriminate E.
  Qed.
  Lemma v_op k op (f : descriptor -> regs -> regs) od ms b a :
    In (k, op) [(KNbitsOffset, 201); (KScaleOffset, 202); (KModifyPacking, 207); (KSetStringLength, 208)] ->
    (forall d h g, rep_regs h g -> rep_regs (EvOp op d :: h) (f d g)) ->
    (forall s, visit cf (ANode k od ms b a) s = (add_valueless od ;; d <- need od ;; upd_regs (f d))%M s) ->
    does (visit cf (ANode k od ms b a)) (run_of (ANode k od ms b a)).
  Proof.
    intros Hin Hf E. eapply does_ext; [intros s; symmetry; apply E|]. eapply does_iff; [|apply (does_op op od f); auto].
    intros h r h' r'. split.
    - intros (d & -> & -> & ->). now constructor.
    - intros H. unfold ProofsRun4.run_of in H. destruct Hin as [Hi|[Hi|[Hi|[Hi|[]]]]]; injection Hi as <- <-; inversion H; subst;
        match goal with X : In _ _ |- _ => destruct X as [X|[X|[X|[X|[]]]]]; try discriminate X; injection X as <- end; eauto.
  Qed.

  (** ** Nested kinds *)
  Definition vlist ms : M vst unit := mapM_ (visit cf) ms.
  Definition rlist ms : hrel := fun h r h' r' => runs_list cf h r ms h' r'.
  Definition all_does ms := Forall (fun n => does (visit cf n) (run_of n)) ms.
  Lemma vlist_does ms : all_does ms -> does (vlist ms) (rlist ms).
  Proof. apply does_list. Qed.
  Lemma v_sequence od ms b a : all_does ms -> does (visit cf (ANode KSequence od ms b a)) (run_of (ANode KSequence od ms b a)).
  Proof.
    intros Hm. eapply does_ext with (m := enter (NValueless od) (wrap "cannot process sequence members" (vlist ms))); [reflexivity|].
    eapply does_iff; [|apply does_enter, does_wrap, vlist_does, Hm]. intros. split; [intros; now constructor|].
    intros H. inversion H; subst; try notop. assumption.
  Qed.
  Definition vblock ms : M vst unit := enter NBlock (wrap "cannot process replicated block" (vlist ms)).
  Lemma block_does tag ms : all_does ms -> does (wrap tag (vblock ms)) (rlist ms).
  Proof. intros Hm. apply does_wrap, does_enter, does_wrap, vlist_does, Hm. Qed.
  Lemma iter_does tag z ms : all_does ms ->
    does (iter_Z z (wrap tag (vblock ms))) (fun h r h' r' => runs_times cf (Z.to_nat z) h r ms h' r').
  Proof.
    intros Hm. eapply does_ext; [intros s; symmetry; apply iter_Z_nat|]. apply does_iter. now apply block_does.
  Qed.
  Lemma v_fixed od ms b a : all_does ms -> does (visit cf (ANode KFixed od ms b a)) (run_of (ANode KFixed od ms b a)).
  Proof.
    intros Hm. eapply does_ext with (m := enter (NValueless od) (d <- need od ;;
      iter_Z (id_Y (d_id d)) (wrap "cannot process fixed replication node" (vblock ms)))%M); [reflexivity|].
    apply does_enter. destruct od as [d|].
    - eapply does_ext with (m := iter_Z (id_Y (d_id d)) (wrap "cannot process fixed replication node" (vblock ms))); [reflexivity|].
      eapply does_iff; [|apply iter_does, Hm]. intros. split; [intros; now constructor|]. intros H. inversion H; subst; try notop. assumption.
    - split; [intros h s s' R H; discriminate H|]. intros h s h' r' R H. inversion H; subst; notop.
  Qed.
  Lemma v_delayed od ms b a : all_does ms -> does (visit cf (ANode KDelayed od ms b a)) (run_of (ANode KDelayed od ms b a)).
  Proof.
    intros Hm. destruct ms as [|m0 rest].
    - eapply does_ext with (m := enter (NValueless od) (throw PIndex)); [reflexivity|]. apply does_iff with (R := fun _ _ _ _ => False).
      + intros. split; [intros []|]. intros H. inversion H; subst; notop.
      + apply does_enter. split; [intros h s s' R H; discriminate H|]. intros ? ? ? ? ? [].
    - eapply does_ext with (m := enter (NValueless od) (wrap "cannot process delayed replication factor" (visit cf m0) ;;
        nrep <- get_factor cf ;; iter_Z nrep (wrap "cannot process delayed replication" (vblock rest)))%M).
      { intros s. unfold enter. set (X := pushed (NValueless od) s).
        change (visit cf (ANode KDelayed od (m0 :: rest) b a) s) with
         (deferM tree_Pop (wrap "cannot process delayed replication factor" (visit cf m0) ;;
                   eq <- LastCellEquality ;;
                   if negb eq
                   then fail (EMsg "delayed replication factor not equal across all (compressed) subsets")
                   else
                     len <- Len ;;
                     c <- CellAt (len - 1) ;;
                     nrep <- wrap "cannot get delayed replication value as uint"
                               (lift_res (UintValue (cf_plat cf) (c_val c))) ;;
                     iter_Z nrep (wrap "cannot process delayed replication" (vblock rest)))%M X).
        unfold deferM. erewrite bind_ext; [reflexivity|]. intros [] s1. unfold get_factor. rewrite bind_assoc. apply bind_ext. intros q s2.
        destruct (negb q); [reflexivity|]. rewrite bind_assoc. apply bind_ext. intros l s3. rewrite bind_assoc. reflexivity. }
      apply does_enter. inversion Hm as [|? ? Hm0 Hrest]; subst.
      eapply does_iff; [|apply does_bind; [apply does_wrap, Hm0|]].
      2: { apply does_leaf with (R := fun h r h' r' => exists n, factor cf h n /\ runs_times cf n h r rest h' r').
        - intros h s s' R H. binv H. apply (factor_iff cf Hp h) in E; [|exact R]. destruct E as [-> (ds & x & v & vs & E1 & E2 & E3 & E4)].
          destruct (iter_does "cannot process delayed replication" a0 rest Hrest) as [I1 _].
          destruct (I1 h s s' R H) as (h' & HR & R' & P). exists h'. split; [|auto]. exists (Z.to_nat a0). split; [|exact HR].
          exists ds, x, v, vs, a0. auto.
        - intros h s h' r' R (n & (ds & x & v & vs & z & E1 & E2 & E3 & E4 & ->) & HR).
          destruct (iter_does "cannot process delayed replication" z rest Hrest) as [_ I2].
          destruct (I2 h s h' r' R HR) as (s' & E & Q). exists s'. split; [|exact Q].
          erewrite bind_ok by (apply (factor_iff cf Hp h); [exact R|]; split; [reflexivity|]; exists ds, x, v, vs; repeat split; eassumption). exact E. }
      intros h r h' r'. split.
      + intros (h1 & r1 & H1 & n & Hn & H2). econstructor; eauto.
      + intros H. inversion H; subst; try notop. do 2 eexists. split; [eassumption|]. eauto.
  Qed.
  Lemma v_not_present od ms b a : all_does ms -> does (visit cf (ANode KDataNotPresent od ms b a)) (run_of (ANode KDataNotPresent od ms b a)).
  Proof.
    intros Hm. eapply does_ext with (m := (add_valueless od ;; wrap "cannot process data not presented node" (vlist ms))%M); [reflexivity|].
    eapply does_iff; [|apply does_bind; [apply (does_event cf) with (e := EvNote od)|apply does_wrap, vlist_does, Hm]].
    - intros h r h' r'. split; [intros (h1 & r1 & (-> & ->) & H2); now constructor|].
      intros H. inversion H; subst; try notop. do 2 eexists. split; [split; reflexivity|]. assumption.
    - intros h s R. destruct (add_valueless_ok od s) as (s1 & E1 & H1). exists s1. split; [exact E1|]. split; [apply H1|].
      split; [|apply H1]. eapply rep_only_heap; [exact H1|]. now apply rep_event.
  Qed.
  Lemma v_assoc od ms b a : all_does ms -> does (visit cf (ANode KAssocField od ms b a)) (run_of (ANode KAssocField od ms b a)).
  Proof.
    intros Hm. eapply does_ext with (m := (add_valueless od ;; d <- need od ;;
       (if id_Y (d_id d) =? 0 then assoc_Pop else assoc_Push (id_Y (d_id d))) ;;
       wrap "cannot process assoc field significance" (vlist ms))%M); [reflexivity|].
    apply (does_heap_bind cf); [intros; apply add_valueless_ok|]. destruct od as [d|].
    2: { split; [intros h s s' R H; discriminate H|]. intros h s h' r' R H. inversion H; subst; notop. }
    eapply does_ext with (m := ((if id_Y (d_id d) =? 0 then assoc_Pop else assoc_Push (id_Y (d_id d))) ;;
       wrap "cannot process assoc field significance" (vlist ms))%M); [reflexivity|].
    eapply does_iff; [|apply does_bind; [|apply does_wrap, vlist_does, Hm]].
    2: { apply does_leaf with (R := fun h r h' r' => (id_Y (d_id d) = 0 -> open_fields h <> []) /\ h' = EvOp 204 d :: h /\ r' = r).
      - intros h s s' R H. destruct (Z.eqb_spec (id_Y (d_id d)) 0) as [Hy|Hy].
        + unfold assoc_Pop in H. destruct (g_assoc (v_regs s)) as [|p l] eqn:Eg; [discriminate H|]. apply ok_inv in H. destruct H as [<- _].
          eexists. split; [split; [|split; reflexivity]|].
          * intros _. rewrite <- (rg_204 _ _ (rp_regs _ _ _ R)), Eg. discriminate.
          * split; [|repeat split]. apply rep_set_regs; [exact R|]. rewrite <- Eg. apply op204_close; [apply R|exact Hy].
        + apply ok_inv in H. destruct H as [<- _]. eexists. split; [split; [intros; contradiction|split; reflexivity]|].
          split; [|repeat split]. apply rep_set_regs; [exact R|]. apply op204_open; [apply R|exact Hy].
      - intros h s h' r' R (Ho & -> & ->). destruct (Z.eqb_spec (id_Y (d_id d)) 0) as [Hy|Hy].
        + unfold assoc_Pop. destruct (g_assoc (v_regs s)) as [|p l] eqn:Eg.
          { exfalso. apply (Ho Hy). now rewrite <- (rg_204 _ _ (rp_regs _ _ _ R)), Eg. }
          eexists. split; [reflexivity|]. split; [reflexivity|]. split; [|repeat split].
          apply rep_set_regs; [exact R|]. rewrite <- Eg. apply op204_close; [apply R|exact Hy].
        + eexists. split; [reflexivity|]. split; [reflexivity|]. split; [|repeat split].
          apply rep_set_regs; [exact R|]. apply op204_open; [apply R|exact Hy]. }
    intros h r h' r'. split.
    - intros (h1 & r1 & (Ho & -> & ->) & H2). now constructor.
    - intros H. inversion H; subst; try notop. do 2 eexists. split; [split; [eassumption|split; reflexivity]|]. assumption.
  Qed.
  Lemma v_refval od ms b a : does (visit cf (ANode KNewRefval od ms b a)) (run_of (ANode KNewRefval od ms b a)).
  Proof.
    eapply does_ext with (m := (add_valueless od ;; d <- need od ;;
        if negb (id_Operand (d_id d) =? 255)
        then mapM_ (visit_refval_member cf (plain_info CODE (id_Operand (d_id d)))) ms else ret tt)%M); [reflexivity|].
    apply (does_heap_bind cf); [intros; apply add_valueless_ok|]. destruct od as [d|].
    2: { split; [intros h s s' R H; discriminate H|]. intros h s h' r' R H. inversion H; subst; notop. }
    split.
    - intros h s s' R H. cbn [need] in H. erewrite bind_ok in H by reflexivity.
      assert (id_Operand (d_id d) = 255 \/ ms = []) as Ho.
      { destruct (Z.eqb_spec (id_Operand (d_id d)) 255); [auto|]. cbn [negb] in H. destruct ms as [|m ms]; [auto|]. exfalso.
        cbn [mapM_] in H. binv H. unfold visit_refval_member in E. binv E. destruct (an_desc m) as [md|]; [|discriminate E0].
        cbn in E0. apply ok_inv in E0. destruct E0 as [<- <-]. binv E. apply wrap_inv in E0.
        destruct (build_sound cf (data h) md _ s s1 a1 Hp ltac:(apply R) E0) as (x & HD & (_ & Hg & _)).
        erewrite bind_ok in E by reflexivity. rewrite Hg, (rg_203 _ _ (rp_regs _ _ _ R)) in E. discriminate E. }
      assert (s' = s) as ->.
      { destruct Ho as [Ho| ->]; [rewrite Ho in H; cbn in H; injection H as <-; reflexivity|].
        destruct (negb _); cbn in H; injection H as <-; reflexivity. }
      exists (EvOp 203 d :: h). split; [now constructor|]. split; [|repeat split].
      destruct R as [R1 R2 R3]. constructor; [cbn [data ev_data]; now rewrite app_nil_r|now apply op203|now apply rep_bm_event].
    - intros h s h' r' R H. inversion H; subst; try notop. exists s.
      split; [cbn [need]; erewrite bind_ok by reflexivity; match goal with X : _ \/ _ |- _ => destruct X as [X| ->]; [rewrite X|destruct (negb _)] end; reflexivity|].
      split; [reflexivity|]. split; [|repeat split].
      destruct R as [R1 R2 R3]. constructor; [cbn [data ev_data]; now rewrite app_nil_r|now apply op203|now apply rep_bm_event].
  Qed.
  Lemma v_insert od ms b a : does (visit cf (ANode KInsertString od ms b a)) (run_of (ANode KInsertString od ms b a)).
  Proof.
    eapply does_ext with (m := (d <- need od ;;
       buildValuedNodeWithInfo cf d (plain_info STRING (id_Y (d_id d) * NBITS_PER_BYTE)) ;; ret tt)%M); [reflexivity|].
    destruct od as [d|]. 2: { split; [intros h s s' R H; discriminate H|]. intros h s h' r' R H. inversion H; subst; notop. }
    split.
    - intros h s s' R H. cbn [need] in H. erewrite bind_ok in H by reflexivity. binv H. apply ok_inv in H. destruct H as [<- _].
      destruct (item_sound cf Hp h KInsertString d _ s s0 a0 R ltac:(discriminate) E) as (x & HD & HR & P).
      rewrite Z.mul_comm in HD. eexists. split; [econstructor; exact HD|]. auto.
    - intros h s h' r' R H. inversion H as [| | | | | | | | |h0 r0 d0 x r1 ms0 b0 a0 HD| | | | | | | |]; subst; try notop.
      change 8 with NBITS_PER_BYTE in HD. rewrite Z.mul_comm in HD.
      destruct (item_complete cf Hp h KInsertString d _ s x r' R ltac:(discriminate) HD) as (s' & n & E & Hr & HR & P).
      exists s'. split; [|auto]. cbn [need]. erewrite bind_ok by reflexivity. erewrite bind_ok by exact E. reflexivity.
  Qed.
  Lemma v_local od ms b a : does (visit cf (ANode KSkipLocal od ms b a)) (run_of (ANode KSkipLocal od ms b a)).
  Proof.
    eapply does_ext with (m := (add_valueless od ;; d <- need od ;;
             match ms with
             | [] => throw PIndex
             | m0 :: _ =>
                 md <- need (an_desc m0) ;;
                 buildValuedNodeWithInfo cf md (plain_info BINARY (id_Y (d_id d))) ;; ret tt
             end)%M); [reflexivity|].
    apply (does_heap_bind cf); [intros; apply add_valueless_ok|].
    destruct od as [d|]. 2: { split; [intros h s s' R H; discriminate H|]. intros h s h' r' R H. inversion H; subst; notop. }
    destruct ms as [|m ms]. { split; [intros h s s' R H; discriminate H|]. intros h s h' r' R H. inversion H; subst; notop. }
    split.
    - intros h s s' R H. cbn [need] in H. erewrite bind_ok in H by reflexivity. destruct (an_desc m) as [md|] eqn:Em; [|discriminate H].
      cbn [need] in H. erewrite bind_ok in H by reflexivity. binv H. apply ok_inv in H. destruct H as [<- _].
      destruct (item_sound cf Hp h KSkipLocal md _ s s0 a0 R ltac:(discriminate) E) as (x & HD & HR & P).
      eexists. split; [econstructor; eassumption|]. auto.
    - intros h s h' r' R H. inversion H as [| | | | | | | | | |h0 r0 d0 m0 md x r1 ms0 b0 a0 Em HD| | | | | | |]; subst; try notop.
      destruct (item_complete cf Hp h KSkipLocal md _ s x r' R ltac:(discriminate) HD) as (s' & n & E & Hr & HR & P).
      exists s'. split; [|auto]. cbn [need]. erewrite bind_ok by reflexivity. rewrite Em. cbn [need]. erewrite bind_ok by reflexivity.
      erewrite bind_ok by exact E. reflexivity.
  Qed.
  Lemma v_cancel_backref od ms b a : does (visit cf (ANode KCancelBackRef od ms b a)) (run_of (ANode KCancelBackRef od ms b a)).
  Proof.
    eapply does_iff; [|apply (does_event cf) with (e := EvCancelBackref); intros; now apply cancel_backref_rep].
    intros. split; [intros [-> ->]; constructor|]. intros H. inversion H; subst; try notop. split; reflexivity.
  Qed.
  Lemma v_cancel_bitmap od ms b a : does (visit cf (ANode KCancelBitmap od ms b a)) (run_of (ANode KCancelBitmap od ms b a)).
  Proof.
    eapply does_iff; [|apply (does_event cf) with (e := EvCancelBitmap); intros; now apply cancel_bitmap_rep].
    intros. split; [intros [-> ->]; constructor|]. intros H. inversion H; subst; try notop. split; reflexivity.
  Qed.
  Lemma zero_does od : does (buildZeroNode cf od) (fun h r h' r' => exists z, zero_cell cf od r z r' /\ h' = EvZero z :: h).
  Proof.
    split.
    - intros h s s' R H. destruct (zero_sound cf Hp h od s s' R H) as (z & HZ & HR & P). exists (EvZero z :: h). eauto.
    - intros h s h' r' R (z & HZ & ->). now apply zero_complete.
  Qed.
  Lemma end_no_err x y e : EndBitmap x <> (y, Err e).
  Proof.
    unfold EndBitmap, bind, gets. destruct (m_current (v_bm x)); [|discriminate]. unfold Len, cells_Len.
    destruct (v_cells x) as [l|[|t ts]]; discriminate.
  Qed.
  Lemma v_bitmap od ms b a : all_does ms -> does (visit cf (ANode KBitmap od ms b a)) (run_of (ANode KBitmap od ms b a)).
  Proof.
    intros Hm. eapply does_ext with (m := (match od with Some _ => buildZeroNode cf od | None => ret tt end ;;
             d <- need od ;;
             if d_id d =? ID_237000 then RecallBitmap
             else NewBitmap true ;; deferM EndBitmap (vlist ms))%M); [reflexivity|].
    destruct od as [d|]. 2: { split; [intros h s s' R H; discriminate H|]. intros h s h' r' R H. inversion H; subst; notop. }
    destruct (Z.eqb_spec (d_id d) ID_237000) as [Hd|Hd].
    - eapply does_ext with (m := (buildZeroNode cf (Some d) ;; RecallBitmap)%M).
      { intros s. apply bind_ext. intros [] s'. cbn [need]. symmetry. etransitivity; [apply bind_ok; reflexivity|]. cbv beta. now rewrite (proj2 (Z.eqb_eq _ _) Hd). }
      eapply does_iff; [|apply does_bind; [apply zero_does|apply (does_event cf) with (e := EvRecall); intros; now apply recall_rep]].
      intros h r h' r'. split.
      + intros (h1 & r1 & (z & HZ & ->) & -> & ->). now constructor.
      + intros H. inversion H; subst; try notop; [|contradiction]. do 2 eexists. split; [eauto|]. split; reflexivity.
    - eapply does_ext with (m := (buildZeroNode cf (Some d) ;; NewBitmap true ;; deferM EndBitmap (vlist ms))%M).
      { intros s. apply bind_ext. intros [] s'. cbn [need]. symmetry. etransitivity; [apply bind_ok; reflexivity|]. cbv beta. now rewrite (proj2 (Z.eqb_neq _ _) Hd). }
      eapply does_iff; [|apply does_bind; [apply zero_does|apply does_bind; [apply (does_event cf) with (e := EvDefine); intros; now apply define_rep|]]].
      2: { apply does_leaf with (R := fun h r h' r' => exists h1, runs_list cf h r ms h1 r' /\ bitmap h1 <> None /\ h' = EvDefined :: h1).
        - intros h s s' R H. apply deferM_inv in H; [|apply end_no_err]. destruct H as (s1 & E1 & E2).
          destruct (vlist_does ms Hm) as [I1 _]. destruct (I1 h s s1 R E1) as (h1 & HR & R1 & P1).
          destruct (end_sound cf Hp h1 s1 s' R1 E2) as (Hb & Hv & R2 & P2). exists (EvDefined :: h1). rewrite Hv.
          split; [eauto|]. split; [exact R2|eapply same_place_trans; eauto].
        - intros h s h' r' R (h1 & HR & Hb & ->). destruct (vlist_does ms Hm) as [_ I2].
          destruct (I2 h s h1 r' R HR) as (s1 & E1 & Hv & R1 & P1). destruct (end_complete cf Hp h1 s1 R1 Hb) as (s2 & E2).
          destruct (end_sound cf Hp h1 s1 s2 R1 E2) as (_ & Hv2 & R2 & P2). exists s2. split; [eapply deferM_ok; eauto|].
          split; [congruence|]. split; [exact R2|eapply same_place_trans; eauto]. }
      intros h r h' r'. split.
      + intros (h1 & r1 & (z & HZ & ->) & h2 & r2 & (-> & ->) & h3 & HR & Hb & ->). eapply run_define; eauto.
      + intros H. inversion H; subst; try notop; [contradiction|]. do 2 eexists. split; [eauto|]. do 2 eexists. split; [split; reflexivity|]. eauto.
  Qed.
  Lemma len_ok h s : rep cf h s -> Len s = (s, Ok (Z.of_nat (ncells h))).
  Proof. intros R. unfold Len. f_equal. apply (rep_len cf); [apply R|exact Hp]. Qed.
  Lemma v_assess od ms b a : all_does ms -> match b with Some b => does (visit cf b) (run_of b) | None => True end -> all_does a ->
    does (visit cf (ANode KAssessment od ms b a)) (run_of (ANode KAssessment od ms b a)).
  Proof.
    intros Hm Hb Ha. destruct b as [b|].
    2: { split.
      - intros h s s' R H. exfalso. change (visit cf (ANode KAssessment od ms None a) s) with
         ((NewAssessment ;; buildZeroNode cf od ;; (throw PNil : M vst unit) ;;
           a0 <- Len ;;
             wrap "cannot deserialize sandwiched nodes" (vlist a) ;;
             anodes <- nodes_since a0 ;;
             targets <- wrap "cannot get bitmapping target nodes" (InitTargetNodes (cf_plat cf)) ;;
             s0 <- Len ;;
             wrap "cannot deserialize bitmapping source nodes" (vlist ms) ;;
             snodes <- nodes_since s0 ;;
             attach 0 targets snodes anodes)%M s) in H.
        do 3 binv H. discriminate E1.
      - intros h s h' r' R H. inversion H; subst; notop. }
    eapply does_ext with (m := (NewAssessment ;; buildZeroNode cf od ;; visit cf b ;;
             (a0 <- Len ;;
             wrap "cannot deserialize sandwiched nodes" (vlist a) ;;
             anodes <- nodes_since a0 ;;
             targets <- wrap "cannot get bitmapping target nodes" (InitTargetNodes (cf_plat cf)) ;;
             s0 <- Len ;;
             wrap "cannot deserialize bitmapping source nodes" (vlist ms) ;;
             snodes <- nodes_since s0 ;;
             attach 0 targets snodes anodes))%M); [reflexivity|].
    eapply does_iff; [|apply does_bind; [apply (does_event cf) with (e := EvAssess od); intros; now apply assess_rep|
       apply does_bind; [apply zero_does|apply does_bind; [exact Hb|]]]].
    2: { destruct (vlist_does a Ha) as [A1 A2]. destruct (vlist_does ms Hm) as [M1 M2].
      apply does_leaf with (R := fun h r h' r' => exists h3 r3 ps, runs_list cf h r a h3 r3 /\ selects cf h3 ps /\
         runs_list cf (EvTargets ps :: h3) r3 ms h' r' /\ (ncells h' - ncells h3 <= length ps)%nat).
      - intros h s s' R H. rewrite (bind_ok _ _ _ _ _ (len_ok h s R)) in H. binv H. apply wrap_inv in E. destruct a0.
        destruct (A1 h s s0 R E) as (h3 & HR3 & R3 & P3). pose proof (runs_list_grows _ _ _ _ _ _ HR3) as G3. apply grows_ncells in G3.
        destruct (nodes_since_ok cf Hp h3 s0 (ncells h) R3 G3) as (an & Ean & _). rewrite (bind_ok _ _ _ _ _ Ean) in H.
        binv H. apply wrap_inv in E0. destruct (Init_sound cf Hp h3 s0 s1 a0 R3 E0) as (ps & HS & R4 & HL & _ & P4 & Hr4 & _).
        rewrite (bind_ok _ _ _ _ _ (len_ok _ s1 R4)) in H. binv H. apply wrap_inv in E1. destruct a1.
        destruct (M1 _ s1 s2 R4 E1) as (h4 & HR4 & R5 & P5). pose proof (runs_list_grows _ _ _ _ _ _ HR4) as G4. apply grows_ncells in G4.
        destruct (nodes_since_ok cf Hp h4 s2 (ncells (EvTargets ps :: h3)) R5 G4) as (sn & Esn & Lsn & _). rewrite (bind_ok _ _ _ _ _ Esn) in H.
        pose proof (attach_inv _ _ _ _ _ _ H ltac:(lia) ltac:(cbn; lia)) as Hle.
        destruct (attach_ok sn 0 a0 an s2 ltac:(exact Hle) ltac:(lia)) as (s3 & E3 & O3). rewrite H in E3. apply ok_inv in E3. destruct E3 as [<- _].
        assert (ncells (EvTargets ps :: h3) = ncells h3) as Hn by (unfold ncells; cbn; now rewrite app_nil_r).
        exists h4. split.
        + exists h3, (v_r s0), ps. split; [exact HR3|]. split; [exact HS|]. rewrite <- Hr4. replace (v_r s') with (v_r s2) by (symmetry; apply O3).
          split; [exact HR4|]. cbn in Hle. lia.
        + split; [eapply rep_only_heap; eauto|]. repeat (eapply same_place_trans; [eassumption|]). apply O3.
      - intros h s h' r' R (h3 & r3 & ps & HR3 & HS & HR4 & Hle). rewrite (bind_ok _ _ _ _ _ (len_ok h s R)).
        destruct (A2 h s h3 r3 R HR3) as (s0 & E0 & Hr0 & R3 & P3). pose proof (runs_list_grows _ _ _ _ _ _ HR3) as G3. apply grows_ncells in G3.
        destruct (nodes_since_ok cf Hp h3 s0 (ncells h) R3 G3) as (an & Ean & _).
        destruct (Init_complete cf Hp h3 s0 ps R3 HS) as (s1 & ts & E1 & R4 & HL & P4 & Hr4 & _).
        rewrite <- Hr0, <- Hr4 in HR4.
        destruct (M2 _ s1 h' r' R4 HR4) as (s2 & E2 & Hr2 & R5 & P5). pose proof (runs_list_grows _ _ _ _ _ _ HR4) as G4. apply grows_ncells in G4.
        destruct (nodes_since_ok cf Hp h' s2 (ncells (EvTargets ps :: h3)) R5 G4) as (sn & Esn & Lsn & _).
        assert (ncells (EvTargets ps :: h3) = ncells h3) as Hn by (unfold ncells; cbn; now rewrite app_nil_r).
        destruct (attach_ok sn 0 ts an s2 ltac:(cbn; lia) ltac:(lia)) as (s3 & E3 & O3).
        exists s3. split.
        + erewrite bind_ok by (apply wrap_ok; exact E0). rewrite (bind_ok _ _ _ _ _ Ean). erewrite bind_ok by (apply wrap_ok; exact E1).
          rewrite (bind_ok _ _ _ _ _ (len_ok _ s1 R4)). erewrite bind_ok by (apply wrap_ok; exact E2). rewrite (bind_ok _ _ _ _ _ Esn). exact E3.
        + split; [rewrite <- Hr2; apply O3|]. split; [eapply rep_only_heap; eauto|]. repeat (eapply same_place_trans; [eassumption|]). apply O3. }
    intros h r h' r'. split.
    - intros (h1 & r1 & (-> & ->) & h2 & r2 & (z & HZ & ->) & h3 & r3 & HB & h4 & r4 & ps & HA & HS & HM & Hle).
      eapply run_assess; eauto.
    - intros H. inversion H; subst; try notop. do 2 eexists. split; [split; reflexivity|]. do 2 eexists. split; [eauto|].
      do 2 eexists. split; [eassumption|]. do 3 eexists. eauto.
  Qed.

  Theorem visit_does : forall n, no_base n -> does (visit cf n) (run_of n).
  Proof.
    induction n as [k d ms b at_ IHm IHb IHa] using anode_full_ind. intros Hn. apply no_base_inv in Hn. destruct Hn as (Hk & Hm & Hb & Ha).
    assert (Hm' : all_does ms) by (revert IHm Hm; clear; induction 1; intros HF; inversion HF; subst; constructor; auto; apply IHIHm; auto).
    assert (Ha' : all_does at_) by (revert IHa Ha; clear; induction 1; intros HF; inversion HF; subst; constructor; auto; apply IHIHa; auto).
    assert (Hb' : match b with Some b => does (visit cf b) (run_of b) | None => True end) by (destruct b; auto).
    destruct k.
    - contradiction.
    - apply v_element.
    - apply v_sig.
    - now apply v_sequence.
    - now apply v_fixed.
    - now apply v_delayed.
    - apply v_op with (op := 201) (f := fun d => set_nbitsOffset (if id_Operand (d_id d) =? 0 then id_Operand (d_id d) else id_Operand (d_id d) - 128)); [cbn; tauto|intros; now apply op201|reflexivity].
    - apply v_op with (op := 202) (f := fun d => set_scaleOffset (if id_Operand (d_id d) =? 0 then id_Operand (d_id d) else id_Operand (d_id d) - 128)); [cbn; tauto|intros; now apply op202|reflexivity].
    - apply v_refval.
    - now apply v_assoc.
    - apply v_insert.
    - apply v_local.
    - apply v_op with (op := 207) (f := fun d => if id_Operand (d_id d) =? 0 then set_packing 0 0 0
        else set_packing (go_quot (10 * id_Operand (d_id d) + 2) 3) (id_Operand (d_id d)) (id_Operand (d_id d))); [cbn; tauto|intros; now apply op207|reflexivity].
    - apply v_op with (op := 208) (f := fun d => set_nbitsString (id_Y (d_id d) * NBITS_PER_BYTE)); [cbn; tauto|intros; now apply op208|reflexivity].
    - now apply v_not_present.
    - now apply v_assess.
    - apply v_marker.
    - apply v_cancel_backref.
    - now apply v_bitmap.
    - apply v_cancel_bitmap.
  Qed.
End Visits.
