From Coq Require Import ZifyBool ZifyNat.
From Verif Require Import ProofsBase ProofsParser4 ProofsParser3 ProofsRun3 SpecAst.

Section W.
  Variable w : nat -> option err.
  Definition emits (p : nat) (m : M dumpst unit) (ps : list adpiece) : Prop :=
    forall k out,
      (writes_ok w k (length ps) -> m (mkDump p k out) = (mkDump p (k + length ps) (out ++ ps), Ok tt)) /\
      (forall i e, (i < length ps)%nat -> first_failure w k i e ->
         exists p', (p <= p')%nat /\ m (mkDump p k out) = (mkDump p' (k + S i) (out ++ firstn i ps), Err e)).

  Lemma emits_nil p : emits p (ret tt) [].
  Proof.
    intros k out. split; [intros _; cbn; now rewrite Nat.add_0_r, app_nil_r|]. cbn. intros i e H. lia.
  Qed.
  Lemma emits_bind p m1 m2 ps1 ps2 : emits p m1 ps1 -> emits p m2 ps2 -> emits p (bind m1 (fun _ => m2)) (ps1 ++ ps2).
  Proof.
    intros H1 H2 k out. destruct (H1 k out) as [A1 B1]. destruct (H2 (k + length ps1)%nat (out ++ ps1)) as [A2 B2].
    rewrite app_length. split.
    - intros W. unfold bind. rewrite A1, A2, <- app_assoc, Nat.add_assoc; [reflexivity| |].
      + intros i Hi. rewrite <- Nat.add_assoc. apply W. lia.
      + intros i Hi. apply W. lia.
    - intros i e Hi [F W]. destruct (Nat.ltb_spec i (length ps1)) as [L|L].
      + destruct (B1 i e L (conj F W)) as (p' & Hp & E). exists p'. split; [exact Hp|]. unfold bind. rewrite E.
        rewrite firstn_app. assert (i - length ps1 = 0)%nat as -> by lia. cbn. now rewrite app_nil_r.
      + destruct (B2 (i - length ps1)%nat e ltac:(lia)) as (p' & Hp & E).
        { split; [rewrite <- F; f_equal; lia|]. intros j Hj. rewrite <- Nat.add_assoc. apply W. lia. }
        exists p'. split; [exact Hp|]. unfold bind. rewrite A1 by (intros j Hj; apply W; lia). rewrite E.
        rewrite firstn_app, (firstn_all2 ps1) by lia. rewrite <- app_assoc. f_equal. f_equal. lia.
  Qed.
  Lemma emits_write p q : emits p (dv_write w q) [q].
  Proof.
    intros k out. unfold dv_write. cbn [dp_writes dp_prefix dp_out length]. split.
    - intros W. specialize (W O ltac:(lia)). rewrite Nat.add_0_r in W. rewrite W. f_equal. f_equal. lia.
    - intros i e Hi [F W]. assert (i = 0)%nat as -> by lia. rewrite Nat.add_0_r in F. rewrite F. exists p.
      split; [lia|]. cbn. rewrite app_nil_r. f_equal. f_equal. lia.
  Qed.
  Lemma emits_printf p d t : emits p (dv_printf w d t) [WPrefix p; WLine d t].
  Proof.
    intros k out. unfold dv_printf, bind at 1, gets. cbn [dp_prefix].
    apply (emits_bind p _ _ [WPrefix p] [WLine d t]); apply emits_write.
  Qed.
  Lemma emits_inside p m ps : emits (S p) m ps -> emits p (dv_indent ;; deferM dv_dedent m)%M ps.
  Proof.
    intros H k out. destruct (H k out) as [A B].
    unfold bind, dv_indent, modify. cbn [dp_prefix dp_writes dp_out]. unfold deferM. split.
    - intros W. now rewrite (A W).
    - intros i e Hi F. destruct (B i e Hi F) as (p' & Hp & E). rewrite E. destruct p' as [|p']; [lia|].
      exists p'. split; [lia|]. reflexivity.
  Qed.
  Lemma emits_around p m rest ps1 ps2 : emits (S p) m ps1 -> emits p rest ps2 ->
    emits p (dv_indent ;; m ;; dv_dedent ;; rest)%M (ps1 ++ ps2).
  Proof.
    intros H1 H2. intros k out.
    destruct (H1 k out) as [A1 B1]. destruct (H2 (k + length ps1)%nat (out ++ ps1)) as [A2 B2].
    rewrite app_length. unfold bind, dv_indent, modify. cbn [dp_prefix dp_writes dp_out]. split.
    - intros W. rewrite A1 by (intros i Hi; apply W; lia). cbn [dv_dedent dp_prefix dp_writes dp_out].
      rewrite A2, <- app_assoc, Nat.add_assoc; [reflexivity|].
      intros i Hi. rewrite <- Nat.add_assoc. apply W. lia.
    - intros i e Hi [F W]. destruct (Nat.ltb_spec i (length ps1)) as [L|L].
      + destruct (B1 i e L (conj F W)) as (p' & Hp & E). exists p'. split; [lia|]. rewrite E.
        rewrite firstn_app. assert (i - length ps1 = 0)%nat as -> by lia. cbn. now rewrite app_nil_r.
      + destruct (B2 (i - length ps1)%nat e ltac:(lia)) as (p' & Hp & E).
        { split; [rewrite <- F; f_equal; lia|]. intros j Hj. rewrite <- Nat.add_assoc. apply W. lia. }
        exists p'. split; [exact Hp|]. rewrite A1 by (intros j Hj; apply W; lia).
        cbn [dv_dedent dp_prefix dp_writes dp_out]. rewrite E.
        rewrite firstn_app, (firstn_all2 ps1) by lia. rewrite <- app_assoc. f_equal. f_equal. lia.
  Qed.

  Definition dumpable (n : anode) : Prop :=
    match n with
    | ANode KDelayed _ ms _ _ => ms <> []
    | ANode KAssessment _ _ b _ => b <> None
    | _ => True
    end.

  Definition visited (n : anode) : Prop := all_nodes dumpable n -> forall p,
    exists ls, dumped p n ls /\ emits p (dump_visit w n) (flat_map written ls).
  Lemma emits_list l : Forall visited l -> Forall (all_nodes dumpable) l -> forall p,
    exists lss, Forall2 (dumped p) l lss /\ emits p (mapM_ (dump_visit w) l) (flat_map written (concat lss)).
  Proof.
    induction 1 as [|n l Hn _ IH]; intros D p.
    - exists []. split; [constructor|]. apply emits_nil.
    - inversion D as [|? ? D1 D2]; subst. destruct (Hn D1 p) as (ls & A & B). destruct (IH D2 p) as (lss & C & E).
      exists (ls :: lss). split; [now constructor|]. cbn [concat mapM_]. rewrite flat_map_app. now apply emits_bind.
  Qed.
  Lemma visit_dumps n : visited n.
  Proof.
    induction n as [k d ms b at_ Hms Hb Hat] using anode_full_ind. intros D p.
    apply all_nodes_eq in D. destruct D as (D & Dms & Db & Dat).
    assert (G : forall ls0 l, Forall visited l -> Forall (all_nodes dumpable) l -> shown_below (ANode k d ms b at_) = l ->
       ls0 = (p, d, Some k) :: map (fun f => (p, an_desc f, None)) (factor (ANode k d ms b at_)) ->
       forall pr, emits p pr (flat_map written ls0) ->
       exists ls, dumped p (ANode k d ms b at_) ls /\
        emits p (bind pr (fun _ => bind dv_indent (fun _ => deferM dv_dedent (mapM_ (dump_visit w) l)))) (flat_map written ls)).
    { intros ls0 l V Dl Es Ef pr Hpr. destruct (emits_list l V Dl (S p)) as (lss & A & B).
      exists (ls0 ++ concat lss). split.
      - subst ls0. rewrite <- app_comm_cons. apply (Dumped p (ANode k d ms b at_)). now rewrite Es.
      - rewrite flat_map_app. apply emits_bind; [exact Hpr|]. now apply emits_inside. }
    destruct k; cbn [dump_visit];
      try (eapply (G _ ms Hms Dms eq_refl eq_refl); cbn [factor map flat_map written app]; apply emits_printf).
    - (* delayed *) destruct ms as [|m0 ms]; [cbn in D; congruence|].
      inversion Hms; inversion Dms; subst.
      destruct (G _ ms ltac:(assumption) ltac:(assumption) eq_refl eq_refl
                 (dv_printf w d (Some KDelayed) ;; dv_printf w (an_desc m0) None)%M) as (ls & A & B).
      { cbn [factor firstn map flat_map written app].
        apply (emits_bind p _ _ [WPrefix p; WLine d (Some KDelayed)] [WPrefix p; WLine (an_desc m0) None]); apply emits_printf. }
      exists ls. split; [exact A|]. intros kk out. specialize (B kk out). rewrite bind_assoc in B. exact B.
    - (* assessment *) destruct b as [b|]; [|cbn in D; congruence].
      destruct (Hb Db (S p)) as (lb & A1 & B1).
      destruct (emits_list at_ Hat Dat (S p)) as (la & A2 & B2).
      destruct (emits_list ms Hms Dms (S p)) as (lm & A3 & B3).
      exists ((p, d, Some KAssessment) :: lb ++ concat la ++ concat lm). split.
      + replace (lb ++ concat la ++ concat lm) with (concat (lb :: la ++ lm)) by (cbn; now rewrite concat_app).
        apply (Dumped p (ANode KAssessment d ms (Some b) at_) (lb :: la ++ lm)). cbn [shown_below app]. constructor; [exact A1|].
        now apply Forall2_app.
      + cbn [flat_map written]. rewrite !flat_map_app.
        apply emits_bind; [apply emits_printf|]. apply emits_around; [exact B1|].
        apply emits_bind; apply emits_inside; assumption.
  Qed.
End W.

Lemma parsed_dumpable g sk ids ns sk' : parses g sk ids ns sk' -> Forall (all_nodes dumpable) ns.
Proof.
  revert sk ids ns sk'. apply (grammar_nodes g dumpable).
  - intros id d _ _. unfold element_node. now destruct (d_id d =? 31021).
  - intros id _. unfold element_node. now destruct (d_id (local_element id) =? 31021).
  - intros; exact I.
  - intros; exact I.
  - intros sk id d block ms sk' HF _ _ L Hp. pose proof (F1_X _ HF). destruct Hp; [cbn in L; lia|]. cbn. discriminate.
  - intros id d k _ Hs _. unfold standalone in Hs.
    repeat match type of Hs with context [if ?c then _ else _] => destruct c; [injection Hs as <-; exact I|] end. discriminate.
  - intros sk id d k n block ms sk' _ Hs _ _ _. unfold with_operands in Hs.
    repeat match type of Hs with context [if ?c then _ else _] => destruct c; [injection Hs as <-; exact I|] end. discriminate.
  - intros; exact I.
  - intros; exact I.
  - intros. cbn. discriminate.
  - intros; exact I.
  - intros; exact I.
Qed.
Lemma root_dumpable g ids ns : parsed g ids ns -> all_nodes dumpable (root ns).
Proof.
  intros H. apply parsed_iff in H. apply parsed_dumpable in H. apply all_nodes_eq. repeat split; auto.
Qed.

(** ** The lines of a dump *)
Lemma Forall2_det {A B} (R : A -> B -> Prop) l : Forall (fun a => forall b b', R a b -> R a b' -> b = b') l ->
  forall m m', Forall2 R l m -> Forall2 R l m' -> m = m'.
Proof.
  induction 1 as [|a l Ha _ IH]; intros m m' H H'; inversion H; inversion H'; subst; [reflexivity|].
  f_equal; [now eapply Ha|now apply IH].
Qed.
Lemma dumped_inv p n ls : dumped p n ls -> exists lss, Forall2 (dumped (S p)) (shown_below n) lss /\
  ls = (p, an_desc n, Some (an_kind n)) :: map (fun f => (p, an_desc f, None)) (factor n) ++ concat lss.
Proof. intros H. destruct H. eauto. Qed.
Lemma dumped_det n : forall p ls ls', dumped p n ls -> dumped p n ls' -> ls = ls'.
Proof.
  induction n as [k d ms b at_ Hms Hb Hat] using anode_full_ind. intros p ls ls' H H'.
  apply dumped_inv in H. apply dumped_inv in H'. destruct H as (lss & A & ->). destruct H' as (lss' & A' & ->).
  f_equal. f_equal. f_equal. eapply Forall2_det; [|exact A|exact A'].
  assert (HS : Forall (fun n => forall p ls ls', dumped p n ls -> dumped p n ls' -> ls = ls') (shown_below (ANode k d ms b at_))).
  { destruct k; cbn [shown_below]; try exact Hms.
    - destruct Hms; cbn; [constructor|assumption].
    - apply Forall_app. split; [destruct b; constructor; auto|]. apply Forall_app. now split. }
  eapply Forall_impl; [|exact HS]. intros a Ha b0 b' X Y. eapply Ha; eauto.
Qed.

(** Only assessments have a bitmap or attributes. *)
Definition tidy (n : anode) : Prop :=
  match n with
  | ANode KAssessment _ _ _ _ => True
  | ANode _ _ _ b at_ => b = None /\ at_ = []
  end.
Lemma parsed_tidy g sk ids ns sk' : parses g sk ids ns sk' -> Forall (all_nodes tidy) ns.
Proof.
  revert sk ids ns sk'. apply (grammar_nodes g tidy);
    try (intros; cbn; auto; fail).
  - intros id d _ _. unfold element_node. now destruct (d_id d =? 31021).
  - intros id _. unfold element_node. now destruct (d_id (local_element id) =? 31021).
  - intros. destruct k; cbn; auto.
  - intros. destruct k; cbn; auto.
Qed.
Lemma root_tidy g ids ns : parsed g ids ns -> all_nodes tidy (root ns).
Proof.
  intros H. apply parsed_iff in H. apply parsed_tidy in H. apply all_nodes_eq. repeat split; auto.
Qed.

Definition descr_of (l : dline) : option descriptor := snd (fst l).
Lemma dumped_preorder n : all_nodes tidy n -> plain_factors n -> forall p ls, dumped p n ls ->
  map descr_of ls = map an_desc (preorder n).
Proof.
  unfold plain_factors. induction n as [k d ms b at_ Hms Hb Hat] using anode_full_ind. intros T F p ls H.
  apply all_nodes_eq in T. destruct T as (T & Tms & Tb & Tat). apply all_nodes_eq in F. destruct F as (F & Fms & Fb & Fat).
  apply dumped_inv in H. destruct H as (lss & A & ->).
  set (good := fun n : anode => forall p ls, dumped p n ls -> map descr_of ls = map an_desc (preorder n)).
  assert (L : forall l lss, Forall good l -> Forall2 (dumped (S p)) l lss ->
     map descr_of (concat lss) = map an_desc (flat_map preorder l)).
  { intros l lss0 G. revert lss0. induction G as [|x l Gx _ IH]; intros lss0 E; inversion E; subst; [reflexivity|].
    cbn [concat flat_map]. rewrite !map_app. f_equal; [eapply Gx; eassumption|now apply IH]. }
  assert (Gms : Forall good ms).
  { rewrite Forall_forall in *. intros x Hx. exact (Hms x Hx (Tms x Hx) (Fms x Hx)). }
  assert (Gat : Forall good at_).
  { rewrite Forall_forall in *. intros x Hx. exact (Hat x Hx (Tat x Hx) (Fat x Hx)). }
  assert (N : k <> KAssessment -> k <> KDelayed ->
    map descr_of ((p, d, Some k) :: concat lss) = map an_desc (preorder (ANode k d ms b at_))).
  { intros N1 N2. assert (TT : b = None /\ at_ = []) by (destruct k; congruence || exact T). destruct TT as [-> ->].
    assert (E : shown_below (ANode k d ms None []) = ms) by (destruct k; congruence || reflexivity). rewrite E in A.
    cbn [map preorder app flat_map]. f_equal. exact (L ms lss Gms A). }
  cbn [an_desc an_kind].
  destruct k; cbn [factor]; try (cbn [map app]; apply N; discriminate).
  - clear N. destruct T as [-> ->]. cbn [shown_below] in A. cbn [preorder app flat_map map]. f_equal.
    destruct ms as [|m0 ms]; [inversion A; reflexivity|]. cbn [firstn map app tl flat_map] in *.
    cbn [factor firstn] in F. inversion F as [|? ? F0 _]; subst. rewrite F0. cbn [app map]. f_equal.
    inversion Gms; subst. now apply L.
  - clear N. cbn [shown_below] in A. cbn [map app preorder flat_map]. f_equal.
    assert (Gb : Forall good (match b with Some b => [b] | None => [] end)).
    { destruct b as [b|]; [|constructor]. constructor; [|constructor]. exact (Hb Tb Fb). }
    rewrite (L _ _ (proj2 (Forall_app _ _ _) (conj Gb (proj2 (Forall_app _ _ _) (conj Gat Gms)))) A).
    rewrite !flat_map_app. f_equal. f_equal. destruct b; cbn; [now rewrite app_nil_r|reflexivity].
Qed.

(** ** Lint *)
Lemma takes_nil n b r : takes n [] b r -> r = [].
Proof. intros [[E _]|(_ & H & _)]; [|exact H]. symmetry in E. apply app_eq_nil in E. tauto. Qed.
Lemma until_nil p b r : until p [] b r -> r = [].
Proof. intros (E & _). symmetry in E. apply app_eq_nil in E. tauto. Qed.
Lemma first_run_nil p b r : first_run p [] b r -> r = [].
Proof. intros (E & _). symmetry in E. apply app_eq_nil in E. tauto. Qed.
Lemma reads_nil g sk n rest sk' : ~ reads g sk [] n rest sk'.
Proof. intros H. inversion H; subst. cbn in *. lia. Qed.
Lemma parses_nil g sk ns sk' : parses g sk [] ns sk' -> ns = [].
Proof. intros H. inversion H; subst; [reflexivity|]. exfalso. eapply reads_nil; eassumption. Qed.
Lemma reads_one g sk i n rest sk' : reads g sk [i] n rest sk' -> rest = [].
Proof.
  intros H. inversion H; subst; auto;
    repeat match goal with
    | T : takes _ [] _ _ |- _ => apply takes_nil in T
    | T : until _ [] _ _ |- _ => apply until_nil in T
    | T : bitmap_reads _ _ [] _ _ _ |- _ => inversion T
    end; auto.
  match goal with B : bitmap_reads _ _ [i] _ _ _ |- _ => inversion B; subst end; auto.
  - match goal with B : first_run _ [] _ _ |- _ => exact (first_run_nil _ _ _ B) end.
  - exfalso. cbn in *. match goal with X : _ \/ _, Y : _ \/ _ |- _ => destruct X as [X|X]; destruct Y as [Y|Y]; subst; discriminate end.
Qed.
Lemma reads_desc g sk ids n rest sk' : reads g sk ids n rest sk' -> exists d, an_desc n = Some d.
Proof.
  intros H. inversion H; subst; cbn; eauto.
  - unfold element_node. destruct (d_id d =? 31021); cbn; eauto.
  - unfold element_node. destruct (d_id (local_element id) =? 31021); cbn; eauto.
  - match goal with B : bitmap_reads _ _ _ _ _ _ |- _ => inversion B; subst end; cbn; eauto.
    exfalso. cbn in *. match goal with X : _ \/ _, Y : _ \/ _ |- _ => destruct X as [X|X]; destruct Y as [Y|Y]; subst; discriminate end.
Qed.
Lemma parses_one g sk i ns sk' : parses g sk [i] ns sk' -> exists n d, ns = [n] /\ an_desc n = Some d.
Proof.
  intros H. inversion H as [|? ? n rest ? ns' ? R P]; subst. pose proof (reads_one _ _ _ _ _ _ R). subst rest.
  apply parses_nil in P. subst ns'. destruct (reads_desc _ _ _ _ _ _ R) as (d & Ed). eauto.
Qed.
Lemma parses_elements g ids : Forall (fun i => id_F i = 0) ids -> forall sk ns sk', parses g sk ids ns sk' ->
  Forall2 (fun i n => exists d, an_desc n = Some d /\ d_id d = i) ids ns.
Proof.
  induction 1 as [|i ids Fi _ IH]; intros sk ns sk' P.
  { apply parses_nil in P. subst. constructor. }
  inversion P as [|? ? n rest ? ns' ? R P']; subst.
  inversion R; subst; try congruence.
  - constructor; [|eapply IH; eassumption]. exists d. split; [unfold element_node; destruct (d_id d =? 31021); reflexivity|].
    eapply Lookup_id; eassumption.
  - constructor; [|eapply IH; eassumption]. exists (local_element i).
    split; [unfold element_node; destruct (d_id (local_element i) =? 31021)|]; reflexivity.
  - exfalso. cbn in *. match goal with X : _ \/ _ |- _ => destruct X; subst; discriminate end.
Qed.
