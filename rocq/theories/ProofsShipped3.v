(** More fuel does not change an answer of the parser; parsing of composed templates. *)
From Coq Require Import Lia ZifyBool ZifyNat.
From Verif Require Import SpecShipped ProofsParser ProofsParser2 ProofsParser3 ProofsShipped ProofsShipped2.

(** [m'] gives the answer of [m] wherever [m] gives one. *)
Definition extends {A} (m m' : M flags A) : Prop := forall f, snd (m f) = NoFuel \/ m' f = m f.
Lemma extends_refl {A} (m : M flags A) : extends m m.
Proof. intros f. right. reflexivity. Qed.
Lemma extends_bind {A B} (m m' : M flags A) (h h' : A -> M flags B) :
  extends m m' -> (forall a, extends (h a) (h' a)) -> extends (bind m h) (bind m' h').
Proof.
  intros Hm Hh f. unfold bind. destruct (Hm f) as [H|H].
  - left. destruct (m f) as [f' r]. cbn in H. subst r. reflexivity.
  - rewrite H. destruct (m f) as [f' [a|e|p|]]; [apply Hh|auto..].
Qed.
Lemma extends_defer {A} h (m m' : M flags A) : extends m m' -> extends (defer h m) (defer h m').
Proof.
  intros Hm f. unfold defer. destruct (Hm f) as [H|H].
  - left. destruct (m f) as [f' r]. cbn in *. exact H.
  - right. rewrite H. reflexivity.
Qed.
Section Extends.
  Variable g : group.
  Variable p p' : list Z -> M flags (list anode).
  Hypothesis HP : forall ids, extends (p ids) (p' ids).
  Lemma extends_sub s n : extends (sub p s n) (sub p' s n).
  Proof. apply extends_bind; [apply extends_bind; [apply HP|intros; apply extends_refl]|intros; apply extends_refl]. Qed.
  Lemma extends_subN k ids n : extends (subN p k ids n) (subN p' k ids n).
  Proof. unfold subN. destruct (_ <? _); [apply extends_refl|apply extends_sub]. Qed.
  Ltac ext := repeat match goal with
    | |- extends ?m ?m => apply extends_refl
    | |- extends (if ?b then _ else _) (if ?b then _ else _) => destruct b
    | |- extends (bind (lookup g ?i) _) (bind (lookup g ?i) _) => apply extends_bind; [apply extends_refl|intros]
    | |- extends (bind (modify ?i) _) (bind (modify ?i) _) => apply extends_bind; [apply extends_refl|intros]
    | |- extends (defer _ _) _ => apply extends_defer
    | |- extends (sub _ _ _) _ => apply extends_sub
    | |- extends (subN _ _ _ _) _ => apply extends_subN
    end.
  Lemma extends_bitmap ids : extends (bitmap_one g p ids) (bitmap_one g p' ids).
  Proof. destruct ids as [|id r]; [apply extends_refl|]. cbn [bitmap_one]. ext. Qed.
  Lemma extends_assess d a m ids : extends (assess_one g p d a m ids) (assess_one g p' d a m ids).
  Proof.
    apply extends_bind; [apply extends_bitmap|]. intros [bm r1]. destruct (takeTill_list a r1) as [aids r2].
    apply extends_bind; [apply HP|]. intros attrs. apply extends_sub.
  Qed.
  Lemma extends_marked a b d r : extends (marked_one g p a b d r) (marked_one g p' a b d r).
  Proof. unfold marked_one. ext. apply extends_assess. Qed.
  Lemma extends_operator id r : extends (operator_one g p id r) (operator_one g p' id r).
  Proof.
    unfold operator_one. ext; cbv zeta; ext; try apply extends_marked; try apply extends_assess; try apply extends_bitmap.
  Qed.
  Lemma extends_one ids : extends (one g p ids) (one g p' ids).
  Proof.
    destruct ids as [|id r]; [apply extends_refl|]. cbn [one]. ext; try apply extends_operator.
    destruct (d_entry a) as [| | |ms]; try apply extends_refl.
    apply extends_bind; [apply extends_bind; [apply HP|intros; apply extends_refl]|intros; apply extends_refl].
  Qed.
End Extends.
Lemma pt_extends g : forall k ids, extends (pt g k ids) (pt g (S k) ids).
Proof.
  induction k as [|k IH]; intros ids; [intros f; left; reflexivity|].
  change (pt g (S (S k)) ids) with (match ids with [] => ret [] | _ => (x <- one g (pt g (S k)) ids ;; let '(n, rest) := x in ns <- pt g (S k) rest ;; ret (n :: ns))%M end).
  change (pt g (S k) ids) with (match ids with [] => ret [] | _ => (x <- one g (pt g k) ids ;; let '(n, rest) := x in ns <- pt g k rest ;; ret (n :: ns))%M end).
  destruct ids as [|id r]; [apply extends_refl|]. apply extends_bind; [apply extends_one, IH|].
  intros [n rest]. apply extends_bind; [apply IH|intros; apply extends_refl].
Qed.
Lemma pt_more g ids f : forall j k, snd (pt g k ids f) <> NoFuel -> pt g (j + k) ids f = pt g k ids f.
Proof.
  induction j as [|j IH]; intros k H; [reflexivity|]. cbn [Nat.add]. destruct (pt_extends g (j + k) ids f) as [E|E].
  - rewrite (IH k H) in E. contradiction.
  - rewrite E. apply IH, H.
Qed.
(** One run that returns decides whether the template parses. *)
Lemma parsed_by_run g k ids : snd (pt g k ids parser0) <> NoFuel ->
  (exists ns, parsed g ids ns) <-> exists ns, snd (pt g k ids parser0) = Ok ns.
Proof.
  intros H. split.
  - intros (ns & j & HP). rewrite Parse_pt in HP. cbn [snd] in HP. destruct (snd (pt g j ids parser0)) as [ms| | |] eqn:E; try discriminate.
    exists ms. rewrite <- (pt_more g ids parser0 j k H). rewrite Nat.add_comm. rewrite (pt_more g ids parser0 k j); [exact E|]. rewrite E. discriminate.
  - intros (ns & E). exists ns, k. rewrite Parse_pt. cbn [snd]. rewrite E. reflexivity.
Qed.

(** ** Which sequences parse *)
Definition verdict (k : nat) (g : group) (id : Z) : option bool :=
  match snd (pt g k [id] parser0) with Ok _ => Some true | NoFuel => None | _ => Some false end.
Lemma verdict_parses k g id : (verdict k g id = Some true -> exists ns, parsed g [id] ns) /\
  (verdict k g id = Some false -> ~ exists ns, parsed g [id] ns).
Proof.
  unfold verdict. destruct (snd (pt g k [id] parser0)) as [ms|e|p|] eqn:E; split; intros H; try discriminate.
  - apply (parsed_by_run g k); [rewrite E; discriminate|]. eauto.
  - rewrite (parsed_by_run g k) by (rewrite E; discriminate). intros (ns & Hn). congruence.
  - rewrite (parsed_by_run g k) by (rewrite E; discriminate). intros (ns & Hn). congruence.
Qed.
Lemma covers_parsed g g' ids : covers g g' -> (exists ns, parsed g ids ns) -> exists ns, parsed g' ids ns.
Proof.
  intros HC (ns & H). apply parsed_iff in H. destruct (parses_covers g g' HC) as (HX & _). destruct (HX _ _ _ _ H) as (ns' & H').
  exists ns'. apply parsed_iff, H'.
Qed.

(** ** Composed templates *)
Lemma parses_composed g (known : Z -> Prop) :
  (forall id, known id -> id_F id = 0 -> exists d, Lookup g id = Ok d) ->
  (forall id, known id -> id_F id = 3 -> exists ns, parsed g [id] ns) ->
  (forall id, id_F id = 1 \/ id_F id = 2 -> exists d, Lookup g id = Ok d) ->
  forall ids, composed known ids -> exists ns, parses g false ids ns false.
Proof.
  intros HE HS HO ids H. induction H as [|id rest HF HK H IH|id k rest HF HS' H IH|id sig rest HF H2 H3 H4 HK H IH|id block rest HF HY HL H1 IH1 H2 IH2|id f block rest HF HY Hf HK HL H1 IH1 H2 IH2].
  - eexists. constructor.
  - destruct IH as (ns & IH). destruct HF as [HF|HF].
    + destruct (HE id HK HF) as (d & Hd). eexists. econstructor; [apply ItElement; eauto|exact IH].
    + destruct (HS id HK HF) as (ms & Hm). apply parsed_iff in Hm. inversion Hm as [|? ? n rest0 sk1 ns0 sk2 HR HP]; subst.
      inversion HR; subst; try congruence; try (cbn [hd] in *; match goal with H : _ \/ _ |- _ => destruct H; subst; discriminate end).
      inversion HP; subst; [eexists; econstructor; [eapply ItSequence; eauto|exact IH]|].
      match goal with H : reads _ _ [] _ _ _ |- _ => inversion H; subst; cbn [hd] in *; lia end.
  - destruct IH as (ns & IH). destruct (HO id (or_intror HF)) as (d & Hd). eexists. econstructor; [eapply ItStandalone; eauto|exact IH].
  - destruct IH as (ns & IH). destruct (HO id (or_intror HF)) as (d & Hd). destruct (HE sig HK H4) as (d' & Hd').
    eexists. econstructor; [|exact IH]. eapply (ItOperands g false id d KAssocField 1 (sig :: rest) [sig] rest); eauto.
    + unfold with_operands. rewrite H2. cbn [Z.eqb Pos.eqb andb]. destruct (Z.eqb_spec (id mod 1000) 0); [contradiction|reflexivity].
    + left. split; reflexivity.
    + econstructor; [apply ItElement; eauto|constructor].
  - destruct IH1 as (ms & IH1), IH2 as (ns & IH2). destruct (HO id (or_introl HF)) as (d & Hd). eexists. econstructor; [|exact IH2].
    eapply (ItFixed g false id d (block ++ rest) block rest); eauto. left. auto.
  - destruct IH1 as (ms & IH1), IH2 as (ns & IH2). destruct (HO id (or_introl HF)) as (d & Hd). destruct (HE f HK Hf) as (d' & Hd').
    eexists. econstructor; [|exact IH2]. eapply (ItDelayed g false id d (f :: block ++ rest) (f :: block) rest); eauto.
    + left. split; [reflexivity|]. cbn [length]. lia.
    + econstructor; [apply ItElement; eauto|exact IH1].
Qed.

(** ** Deciding which sequences parse, from their definitions *)
Fixpoint shape (known : Z -> bool) (n : nat) (ids : list Z) : bool :=
  match n, ids with
  | _, [] => true
  | O, _ => false
  | S n, id :: rest =>
      if (id_F id =? 0) || (id_F id =? 3) then known id && shape known n rest
      else if id_F id =? 2 then
        match standalone id, rest with
        | Some _, _ => shape known n rest
        | None, sig :: rest' =>
            (id / 1000 =? 204) && negb (id mod 1000 =? 0) && (id_F sig =? 0) && known sig && shape known n rest'
        | None, [] => false
        end
      else if id_F id =? 1 then
        if id_Y id =? 0 then
          match rest with
          | f :: rest' =>
              (id_F f =? 0) && known f && (0 <=? id_X id) && (id_X id <=? Z.of_nat (length rest')) &&
              shape known n (firstn (Z.to_nat (id_X id)) rest') && shape known n (skipn (Z.to_nat (id_X id)) rest')
          | [] => false
          end
        else (0 <=? id_X id) && (id_X id <=? Z.of_nat (length rest)) &&
             shape known n (firstn (Z.to_nat (id_X id)) rest) && shape known n (skipn (Z.to_nat (id_X id)) rest)
      else false
  end.
Lemma shape_composed known : forall n ids, shape known n ids = true -> composed (fun id => known id = true) ids.
Proof.
  induction n as [|n IH]; intros [|id rest] H; cbn [shape] in H; try discriminate; try apply CoNil.
  destruct ((id_F id =? 0) || (id_F id =? 3)) eqn:E.
  { apply andb_prop in H. destruct H. apply CoPlain; [lia|assumption|apply IH; assumption]. }
  destruct (Z.eqb_spec (id_F id) 2) as [H2|H2].
  { destruct (standalone id) as [k|] eqn:Es; [eapply CoOperator; eauto|]. destruct rest as [|sig rest]; [discriminate|].
    rewrite !andb_true_iff in H. destruct H as ((((H3 & H4) & H5) & H6) & H7). apply CoAssociated; auto; lia. }
  destruct (Z.eqb_spec (id_F id) 1) as [H1|H1]; [|discriminate].
  destruct (Z.eqb_spec (id_Y id) 0) as [HY|HY].
  - destruct rest as [|f rest]; [discriminate|]. rewrite !andb_true_iff in H. destruct H as (((((H3 & H4) & H5) & H6) & H7) & H8).
    rewrite <- (firstn_skipn (Z.to_nat (id_X id)) rest). apply CoDelayed; auto; try lia. rewrite firstn_length. lia.
  - rewrite !andb_true_iff in H. destruct H as (((H5 & H6) & H7) & H8).
    rewrite <- (firstn_skipn (Z.to_nat (id_X id)) rest). apply CoFixed; auto; try lia. rewrite firstn_length. lia.
Qed.
Lemma composed_weaken (P Q : Z -> Prop) ids : (forall id, In id ids -> P id -> Q id) -> composed P ids -> composed Q ids.
Proof.
  intros H HC. induction HC as [|id rest HF HK HC IH|id k rest HF HS' HC IH|id sig rest HF H2 H3 H4 HK HC IH|id block rest HF HY HL H1 IH1 H2 IH2|id f block rest HF HY Hf HK HL H1 IH1 H2 IH2].
  - apply CoNil.
  - apply CoPlain; auto with datatypes.
  - eapply CoOperator; eauto; apply IH; auto with datatypes.
  - apply CoAssociated; auto with datatypes.
  - apply CoFixed; auto; [apply IH1|apply IH2]; intros; apply H; auto; right; apply in_or_app; auto.
  - apply CoDelayed; auto with datatypes; [apply IH1|apply IH2]; intros; apply H; auto; right; right; apply in_or_app; auto.
Qed.
Lemma mem_spec id bad : existsb (Z.eqb id) bad = true <-> In id bad.
Proof.
  rewrite existsb_exists. split; [intros (x & Hx & E); apply Z.eqb_eq in E; subst; exact Hx|].
  intros Hx. exists id. split; [exact Hx|lia].
Qed.
Definition sound (g : group) (bad : list Z) (m : Z) : Prop :=
  (exists d, Lookup g m = Ok d) /\ (id_F m = 3 -> ~ In m bad).
Lemma sequences_parse g bad : acyclic g ->
  (forall id, id_F id = 1 \/ id_F id = 2 -> exists d, Lookup g id = Ok d) ->
  (forall id d, id_F id = 3 -> Lookup g id = Ok d -> exists ms, d_entry d = ED ms /\
     (In id bad -> ~ exists ns, parsed g [id] ns) /\
     (~ In id bad -> (exists ns, parsed g [id] ns) \/ composed (sound g bad) ms)) ->
  forall id d, id_F id = 3 -> Lookup g id = Ok d -> ((exists ns, parsed g [id] ns) <-> ~ In id bad).
Proof.
  intros (rank & HR) HO HF id. remember (rank id) as n eqn:En. revert id En.
  induction n as [n IH] using lt_wf_ind. intros id -> d H3 HL.
  destruct (HF _ _ H3 HL) as (ms & Ed & Hb & Hg). split; [intros X Y; apply (Hb Y X)|].
  intros Hn. destruct (Hg Hn) as [X|HC]; [exact X|]. clear Hb Hg.
  pose proof (HR _ _ _ HL Ed) as Hms. rewrite Forall_forall in Hms.
  eapply composed_weaken in HC; [|intros m Hm Hs; exact (conj Hs (Hms m Hm))].
  edestruct (parses_composed g) as (ns & Hp); [| |exact HO|exact HC|].
  - intros m ((Hm & _) & _) _. exact Hm.
  - intros m (((d' & Hm) & Hb) & Hr) Hm3. apply (IH (rank m) (Hr Hm3) m eq_refl _ Hm3 Hm). auto.
  - exists [ANode KSequence (Some d) ns None []]. apply parsed_iff. econstructor; [eapply ItSequence; eauto|constructor].
Qed.
