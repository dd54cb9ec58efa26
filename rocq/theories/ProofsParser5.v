(** Termination of the parser (C23). *)
From Coq Require Import ZifyBool ZifyNat.
From Verif Require Export ProofsParser4.

Definition settled {A} (m : nat -> M flags A) (f : flags) : Prop :=
  exists k v, snd v <> NoFuel /\ forall k', (k <= k')%nat -> m k' f = v.
Lemma settled_const {A} (m : M flags A) f : snd (m f) <> NoFuel -> settled (fun _ => m) f.
Proof. intros H. exists 0%nat, (m f). auto. Qed.
Lemma settled_bind {A B} (m : nat -> M flags A) (h : nat -> A -> M flags B) f :
  settled m f ->
  (forall k f' a, m k f = (f', Ok a) -> settled (fun k => h k a) f') ->
  settled (fun k => bind (m k) (h k)) f.
Proof.
  intros (k & [f' r] & Hv & Hr) Hh. destruct r as [a|e|p|]; [|..|cbn in Hv; congruence].
  - destruct (Hh k f' a (Hr k (le_n k))) as (k2 & v & Hv2 & H2). exists (Nat.max k k2), v. split; [exact Hv2|].
    intros k' Hk. unfold bind. rewrite Hr by lia. apply H2. lia.
  - exists k, (f', Err e). split; [cbn; congruence|]. intros k' Hk. unfold bind. now rewrite Hr.
  - exists k, (f', Panic p). split; [cbn; congruence|]. intros k' Hk. unfold bind. now rewrite Hr.
Qed.
Lemma settled_S {A} (m : nat -> M flags A) f : settled (fun k => m (S k)) f -> settled m f.
Proof. intros (k & v & Hv & H). exists (S k), v. split; [exact Hv|]. intros [|k'] Hk; [lia|]. apply H. lia. Qed.
Lemma settled_defer {A} h (m : nat -> M flags A) f : settled m f -> settled (fun k => defer h (m k)) f.
Proof.
  intros (k & [f' r] & Hv & H). exists k, (h f', r). split; [exact Hv|]. intros k' Hk. unfold defer. now rewrite H.
Qed.
Lemma settled_modify {A} t (m : nat -> M flags A) f : settled m (t f) -> settled (fun k => modify t ;; m k) f.
Proof. intros H. exact H. Qed.

(** Identifiers other than elements. *)
Definition nz (ids : list Z) : nat := length (filter (fun i => negb (id_F i =? 0)) ids).
Lemma nz_app a b : nz (a ++ b) = (nz a + nz b)%nat.
Proof. unfold nz. now rewrite filter_app, app_length. Qed.
Lemma nz_zeros n : nz (repeat 0 n) = 0%nat.
Proof. induction n; [reflexivity|exact IHn]. Qed.

Section Term.
  Variable g : group.
  Variable rank : Z -> nat.
  Variable R : nat.
  (** every sequence in [l] has a rank below [R] *)
  Definition low (l : list Z) : Prop := Forall (fun m => id_F m = 3 -> (rank m < R)%nat) l.
  Lemma low_app a b : low (a ++ b) <-> low a /\ low b.
  Proof. apply Forall_app. Qed.
  Lemma low_zeros n : low (repeat 0 n).
  Proof. unfold low. induction n; cbn [repeat]; constructor; auto. intros H. discriminate. Qed.

  Variable N : nat.
  (** nested parses over no more operators than [N] return *)
  Hypothesis IH : forall l f, low l -> (nz l <= N)%nat -> settled (fun k => pt g k l) f.

  Lemma settled_sub split node f : low (fst split) -> (nz (fst split) <= N)%nat ->
    settled (fun k => sub (pt g k) split node) f.
  Proof.
    intros Hl Hn. unfold sub, pop. apply settled_bind; [apply settled_bind; [now apply IH|]|];
      intros; apply settled_const; discriminate.
  Qed.
  Lemma settled_subN n ids node f : low ids -> (nz ids <= N)%nat -> settled (fun k => subN (pt g k) n ids node) f.
  Proof.
    intros Hl Hn. unfold subN. destruct (n <? 0); [apply settled_const; discriminate|].
    apply settled_sub; unfold takeN_list; cbn [fst].
    - rewrite <- (firstn_skipn (Z.to_nat n) ids), low_app in Hl. apply low_app. split; [tauto|apply low_zeros].
    - rewrite nz_app, nz_zeros. rewrite <- (firstn_skipn (Z.to_nat n) ids), nz_app in Hn. lia.
  Qed.
  Lemma settled_prefix ids a b node f : ids = a ++ b -> low ids -> (nz ids <= N)%nat ->
    settled (fun k => sub (pt g k) (a, b) node) f.
  Proof.
    intros -> Hl Hn. rewrite low_app in Hl. rewrite nz_app in Hn. apply settled_sub; cbn [fst]; [tauto|lia].
  Qed.
  Lemma settled_while p ids node f : low ids -> (nz ids <= N)%nat ->
    settled (fun k => sub (pt g k) (takeWhile_list p false ids) node) f.
  Proof.
    intros Hl Hn. destruct (takeWhile_list p false ids) as [a b] eqn:E. apply first_run_iff in E.
    destruct E as [E _]. eapply settled_prefix; eauto.
  Qed.
  Lemma settled_till p ids node f : low ids -> (nz ids <= N)%nat ->
    settled (fun k => sub (pt g k) (takeTill_list p ids) node) f.
  Proof.
    intros Hl Hn. destruct (takeTill_list p ids) as [a b] eqn:E. apply until_iff in E.
    destruct E as [E _]. eapply settled_prefix; eauto.
  Qed.
  Lemma settled_lookup {B} id (h : nat -> descriptor -> M flags B) f :
    (forall d, Lookup g id = Ok d -> settled (fun k => h k d) f) ->
    settled (fun k => bind (lookup g id) (h k)) f.
  Proof.
    intros H. unfold bind, lookup, lift_res. destruct (Lookup_total g id) as [[d HL]|[[e HL] _]].
    - destruct (H d HL) as (k & v & Hv & E). exists k, v. split; [exact Hv|]. intros k' Hk. rewrite HL. auto.
    - exists 0%nat, (f, Err e). split; [discriminate|]. intros k' _. now rewrite HL.
  Qed.
  Lemma settled_bitmap ids f : low ids -> (nz ids <= N)%nat -> settled (fun k => bitmap_one g (pt g k) ids) f.
  Proof.
    intros Hl Hn. destruct ids as [|id r]; [apply settled_const; discriminate|].
    unfold bitmap_one. apply settled_lookup. intros d HL.
    destruct (_ =? _); [apply settled_const; discriminate|].
    destruct (_ || _); [now apply settled_while|].
    destruct (_ =? _); [|apply settled_const; discriminate].
    apply settled_while; [now inversion Hl|]. change (id :: r) with ([id] ++ r) in Hn. rewrite nz_app in Hn. lia.
  Qed.
  Lemma bitmap_suffix k ids f f' bm r : bitmap_one g (pt g k) ids f = (f', Ok (bm, r)) -> exists pre, ids = pre ++ r.
  Proof.
    destruct f as [np sk]. intros H. apply (bitmap_sound g _ (pt_sound g k)) in H.
    apply bitmap_reads_ids in H. destruct H as (b & _ & H). eauto.
  Qed.
  Lemma settled_assess d a m ids f : low ids -> (nz ids <= N)%nat ->
    settled (fun k => assess_one g (pt g k) d a m ids) f.
  Proof.
    intros Hl Hn. unfold assess_one. apply settled_bind; [now apply settled_bitmap|].
    intros k f' [bm r1] H. apply bitmap_suffix in H. destruct H as [pre ->].
    rewrite low_app in Hl. rewrite nz_app in Hn.
    destruct (takeTill_list a r1) as [aids r2] eqn:E. apply until_iff in E. destruct E as [-> _].
    rewrite low_app in Hl. rewrite nz_app in Hn.
    apply settled_bind; [apply IH; [tauto|lia]|]. intros k2 f2 attrs _. apply settled_while; [tauto|lia].
  Qed.
  Lemma settled_marked i0 i255 d ids f : low ids -> (nz ids <= N)%nat ->
    settled (fun k => marked_one g (pt g k) i0 i255 d ids) f.
  Proof.
    intros Hl Hn. unfold marked_one. destruct (_ =? _); [now apply settled_assess|].
    destruct (_ =? _); apply settled_const; discriminate.
  Qed.
  Lemma settled_bitmap_op id r f : id_F id = 2 -> low r -> (nz r <= N)%nat ->
    settled (fun k => bitmap_one g (pt g k) (id :: r)) f.
  Proof.
    intros HF Hl Hn. unfold bitmap_one. apply settled_lookup. intros d HL. rewrite (Lookup_id _ _ _ HL), HF.
    destruct (_ =? _); [apply settled_const; discriminate|].
    assert ((2 =? 1) || (id =? ID_031031) = false) as ->.
    { unfold ID_031031. destruct (Z.eqb_spec id 31031) as [->|]; [discriminate|reflexivity]. }
    destruct (_ =? _); [now apply settled_while|apply settled_const; discriminate].
  Qed.
  Lemma settled_operator id r f : id_F id = 2 -> low r -> (nz r <= N)%nat ->
    settled (fun k => operator_one g (pt g k) id r) f.
  Proof.
    intros HF Hl Hn. unfold operator_one. apply settled_lookup. intros d HL. cbv zeta.
    repeat match goal with
    | |- settled (fun k => if ?c then _ else _) _ => destruct c
    | |- settled (fun k => ret _) _ => apply settled_const; discriminate
    | |- settled (fun k => fail _) _ => apply settled_const; discriminate
    | |- settled (fun k => sub (pt g k) (takeTill_list _ _) _) _ => now apply settled_till
    | |- settled (fun k => subN _ _ _ _) _ => now apply settled_subN
    | |- settled (fun k => assess_one _ _ _ _ _ _) _ => now apply settled_assess
    | |- settled (fun k => marked_one _ _ _ _ _ _) _ => now apply settled_marked
    | |- settled (fun k => bitmap_one _ _ _) _ => now apply settled_bitmap_op
    | |- settled (fun k => bind (modify _) _) _ => apply settled_modify, settled_defer
    end.
  Qed.
End Term.

Lemma reads_suffix g sk ids n rest sk' : reads g sk ids n rest sk' ->
  exists i pre, ids = i :: pre ++ rest.
Proof.
  assert (Ht : forall n ids block rest, takes n ids block rest -> exists pre, ids = pre ++ rest).
  { intros m i b r [[-> _]|(_ & -> & _)]; [eauto|]. exists i. now rewrite app_nil_r. }
  intros H. inversion H; subst; try (exists id, []; reflexivity).
  - destruct (Ht _ _ _ _ H3) as [pre ->]. eauto.
  - destruct (Ht _ _ _ _ H3) as [pre ->]. eauto.
  - destruct (Ht _ _ _ _ H3) as [pre ->]. eauto.
  - destruct (Ht _ _ _ _ H3) as [pre ->]. eauto.
  - destruct H4 as [-> _]. eauto.
  - destruct (bitmap_reads_ids _ _ _ _ _ _ H1) as (b & Hb & ->).
    inversion Hb; subst.
    + exists 237000, []. auto.
    + eauto.
    + destruct H4 as [E _]. destruct b; [|eauto].
      rewrite <- E in H0. cbn [hd] in H0. exfalso.
      destruct H3 as [H3| ->]; [destruct H0; subst id; vm_compute in H3; discriminate|destruct H0; discriminate].
  - destruct (bitmap_reads_ids _ _ _ _ _ _ H3) as (b & Hb & ->). destruct H4 as [-> _]. destruct H6 as [-> _].
    exists id, (b ++ attrs ++ mids). cbn [app]. now rewrite <- !app_assoc.
Qed.

Lemma pt_returns g : acyclic g -> forall ids f, settled (fun k => pt g k ids) f.
Proof.
  intros [rank Hr].
  assert (HR : forall R N L ids f, low rank R ids -> (nz ids <= N)%nat -> (length ids <= L)%nat ->
     settled (fun k => pt g k ids) f).
  { induction R as [R IHR] using (well_founded_induction lt_wf).
    induction N as [N IHN] using (well_founded_induction lt_wf).
    induction L as [|L IHL]; intros ids f Hl Hn HL.
    { destruct ids; [|cbn in HL; lia]. apply settled_S. apply settled_const. discriminate. }
    apply settled_S. destruct ids as [|id r]; [exact (settled_const (ret []) f (fun H => ltac:(discriminate H)))|].
    assert (Hl' : low rank R r) by now inversion Hl.
    assert (Hn' : (nz r <= N)%nat) by (change (id :: r) with ([id] ++ r) in Hn; rewrite nz_app in Hn; lia).
    assert (Hn'' : id_F id <> 0 -> (nz r < N)%nat).
    { intros HF. change (id :: r) with ([id] ++ r) in Hn. rewrite nz_app in Hn. unfold nz at 1 in Hn.
      cbn [filter] in Hn. assert (negb (id_F id =? 0) = true) as E by lia. rewrite E in Hn. cbn [length] in Hn. lia. }
    cbn [length] in HL.
    assert (Hnest : id_F id <> 0 -> forall l f, low rank R l -> (nz l <= nz r)%nat -> settled (fun k => pt g k l) f).
    { intros HF l f' Hll Hln. apply (IHN (nz r)) with (L := length l); auto. }
    cbn [pt].
    apply settled_bind.
    - unfold one, F_SEQUENCE, F_REPLICATION, F_OPERATOR, F_ELEMENT.
      destruct (Z.eqb_spec (id_F id) 3) as [H3|].
      { apply settled_lookup. intros d HLk. pose proof (Hr id d) as Hd. destruct (d_entry d) as [| | |ms] eqn:He; try (apply settled_const; discriminate).
        apply settled_bind; [|intros; apply settled_const; discriminate].
        unfold pop. apply settled_bind; [|intros; apply settled_const; discriminate].
        apply (IHR (rank id)) with (N := nz ms) (L := length ms); auto.
        - inversion Hl; auto.
        - unfold low. now apply Hd. }
      destruct (Z.eqb_spec (id_F id) 1) as [H1|].
      { destruct (_ =? _); cbn [andb]; apply settled_lookup; intros d HLk;
          apply (settled_subN g rank R (nz r)); auto; apply Hnest; lia. }
      cbn [andb]. destruct (Z.eqb_spec (id_F id) 2) as [H2|].
      { apply (settled_operator g rank R (nz r)); auto. apply Hnest; lia. }
      destruct (_ =? _); [|apply settled_const; discriminate].
      unfold bind at 1. unfold gets. destruct f as [np [|]]; cbn [snd].
      + apply settled_const. discriminate.
      + apply settled_lookup. intros d HLk. apply settled_const. discriminate.
    - intros k [np' sk'] [n rest] H. destruct f as [np sk]. apply (one_sound g _ (pt_sound g k)) in H.
      apply reads_suffix in H. destruct H as (i & pre & E). injection E as <- ->.
      apply settled_bind; [|intros; apply settled_const; discriminate].
      apply low_app in Hl'. rewrite nz_app in Hn'. rewrite app_length in HL. apply IHL; [tauto|lia|lia]. }
  intros ids f.
  apply (HR (S (fold_right Nat.max 0%nat (map rank ids))) (nz ids) (length ids)); auto.
  apply Forall_forall. intros m Hm _.
  assert (H : forall l, In m l -> (rank m <= fold_right Nat.max 0 (map rank l))%nat).
  { clear. induction l as [|a l IH]; [intros []|]. intros [->|H]; cbn [map fold_right]; [lia|]. specialize (IH H). lia. }
  specialize (H _ Hm). lia.
Qed.
Lemma Parse_returns g : acyclic g -> forall ids f, exists k v, snd v <> NoFuel /\
  forall k', (k <= k')%nat -> Parse g k' ids f = v.
Proof.
  intros H ids f. destruct (pt_returns g H ids f) as (k & [f' r] & Hv & E).
  exists k. eexists. split; [|intros k' Hk; rewrite Parse_pt, (E k' Hk); reflexivity].
  cbn [snd fst] in *. destruct r; congruence.
Qed.
Lemma pt_cycle g k : forall id d post rest f, Lookup g id = Ok d -> d_entry d = ED (id :: post) ->
  snd (pt g k (id :: rest) f) = NoFuel.
Proof.
  induction k as [|k IH]; intros id d post rest f HL He; [reflexivity|].
  pose proof (Lookup_kind _ _ _ HL) as (Hid & _ & Hk). rewrite He in Hk. destruct Hk as [H3 _].
  cbn [pt]. unfold bind at 1. unfold one. rewrite H3. cbn [F_SEQUENCE Z.eqb Pos.eqb].
  unfold lookup, lift_res, bind at 1. rewrite HL, He. unfold pop, bind.
  pose proof (IH id d post post f HL He) as H. destruct (pt g k (id :: post) f) as [f' r]. cbn [snd] in H. subst r. reflexivity.
Qed.
Lemma Parse_cycle g fuel id d post rest f : Lookup g id = Ok d -> d_entry d = ED (id :: post) ->
  snd (Parse g fuel (id :: rest) f) = NoFuel.
Proof. intros HL He. rewrite Parse_pt. cbn [snd]. now rewrite (pt_cycle g fuel id d post rest f HL He). Qed.


(** ** Further consequences *)
Lemma all_nodes_imp (P Q : anode -> Prop) : (forall n, P n -> Q n) -> forall n, all_nodes P n -> all_nodes Q n.
Proof.
  intros HPQ. fix IH 1. intros [k d ms bm attrs] H. cbn [all_nodes] in *. destruct H as (H & Hm & Hb & Ha).
  assert (Hl : forall l, fold_right (fun m X => all_nodes P m /\ X) True l -> fold_right (fun m X => all_nodes Q m /\ X) True l).
  { clear - IH. fix IHl 1. intros [|n l]; [trivial|]. cbn [fold_right]. intros [H1 H2]. split; [now apply IH|now apply IHl]. }
  split; [now apply HPQ|]. split; [now apply Hl|]. split; [|now apply Hl].
  destruct bm as [b|]; [now apply IH|trivial].
Qed.
Lemma never_marked g ids ns : parsed g ids ns -> Forall (all_nodes (fun n => an_kind n <> KElement true)) ns.
Proof.
  intros H. apply not_ok_context in H. eapply Forall_impl; [|exact H]. clear. intros n. apply all_nodes_imp. clear.
  intros [k [d|] ms bm attrs]; unfold right_kind; cbn [an_desc an_kind]; [|congruence].
  destruct (id_F (d_id d)) as [|[p|p|]|p] eqn:E; intros H; try (destruct p); try contradiction; subst.
  all: try (destruct (d_id d =? 31021); discriminate); try (destruct (id_Y (d_id d) =? 0); discriminate); try discriminate.
  intros ->. unfold documented in H.
  repeat match type of H with context [match ?x with _ => _ end] => destruct x; try discriminate end.
Qed.
Lemma own_descriptor g id ids ns : id_F id = 2 -> parsed g (id :: ids) ns ->
  exists n ns' d, ns = n :: ns' /\ an_desc n = Some d /\ d_id d = id /\ documented id = Some (an_kind n).
Proof.
  intros HF H. pose proof (not_ok_context _ _ _ H) as Hr. apply parsed_iff in H. inversion H; subst.
  assert (Hd : exists d, an_desc n = Some d /\ d_id d = id).
  { inversion H0; subst; try congruence;
      try (eexists; split; [reflexivity|eapply Lookup_id; eassumption]).
    clear H2. inversion H3; subst; try (eexists; split; [reflexivity|eapply Lookup_id; eassumption]).
    exfalso. match goal with X : _ \/ id = 31031 |- _ => destruct X as [X| ->]; [congruence|discriminate] end. }
  destruct Hd as (d & Hd & Hid). exists n, ns0, d. repeat split; auto.
  inversion Hr; subst. destruct n as [k d' ms bm attrs]. cbn [all_nodes an_desc an_kind] in *. destruct H4 as [H4 _].
  subst d'. unfold right_kind in H4. cbn [an_desc an_kind] in H4. rewrite HF in H4. now symmetry.
Qed.
Lemma doc_node (P : anode -> Prop) : forall n i, all_nodes P n -> In i (doc n) ->
  exists n' d, P n' /\ an_desc n' = Some d /\ d_id d = i.
Proof.
  fix IH 1. intros [k d ms bm attrs] i H Hi. cbn [all_nodes doc] in *. destruct H as (H & Hm & Hb & Ha).
  assert (Hl : forall l, fold_right (fun m X => all_nodes P m /\ X) True l -> In i (flat_map doc l) ->
     exists n' d, P n' /\ an_desc n' = Some d /\ d_id d = i).
  { clear - IH. fix IHl 1. intros [|n l]; [intros _ []|]. cbn [fold_right flat_map]. intros [H1 H2] Hin.
    apply in_app_or in Hin. destruct Hin as [Hin|Hin]; [now apply (IH n)|now apply (IHl l)]. }
  apply in_app_or in Hi. destruct Hi as [Hi|Hi].
  { destruct d as [d|]; [|destruct Hi]. destruct Hi as [Hi|[]]. exists (ANode k (Some d) ms bm attrs), d. auto. }
  apply in_app_or in Hi. destruct Hi as [Hi|Hi].
  { destruct bm as [b|]; [|destruct Hi]. now apply (IH b). }
  apply in_app_or in Hi. destruct Hi as [Hi|Hi]; [now apply (Hl attrs)|].
  apply (Hl ms); [assumption|]. destruct k; try exact Hi; destruct Hi.
Qed.
Lemma zero_padded_in ids l i : zero_padded ids l -> In i ids -> In i l.
Proof. induction 1; intros H1; [destruct H1|destruct H1 as [->|H1]; [now left|right; auto]|right; auto]. Qed.
Lemma undocumented_anywhere g before id rest ns : id_F id = 2 -> documented id = None ->
  ~ parsed g (before ++ id :: rest) ns.
Proof.
  intros HF Hd H. pose proof (not_ok_context _ _ _ H) as Hr. apply parsed_iff in H.
  apply (proj1 (grammar_padded g)) in H. apply zero_padded_in with (i := id) in H; [|apply in_elt].
  apply in_flat_map in H. destruct H as (n & Hn & Hi). rewrite Forall_forall in Hr.
  destruct (doc_node right_kind n id (Hr n Hn) Hi) as (n' & d & H1 & H2 & H3).
  unfold right_kind in H1. rewrite H2, H3, HF, Hd in H1. discriminate.
Qed.
Lemma truncated g id block ns : (forall d, Lookup g 0 <> Ok d) -> id_F id = 1 ->
  Z.of_nat (length block) < (if id_Y id =? 0 then id_X id + 1 else id_X id) ->
  Forall no_local ns -> ~ parsed g (id :: block) ns.
Proof.
  intros H0 HF Hlen Hl H. pose proof (parsed_exact _ _ _ H0 H Hl) as Hex. apply parsed_iff in H.
  pose proof (proj1 (announced g H0) _ _ _ _ H eq_refl Hl) as Ha.
  inversion H; subst. apply (reads_rep _ _ _ _ _ _ _ HF) in H1.
  destruct H1 as (d & b & ms & HL & Ht & Hb & ->). inversion Ha; subst. cbn [all_nodes] in H4. destruct H4 as [H4 _].
  pose proof (f_equal (@length Z) Hex) as E. cbn [flat_map doc app length] in E. rewrite !app_length in E.
  unfold holds_announced in H4. rewrite (Lookup_id _ _ _ HL) in H4.
  destruct (id_Y id =? 0); cbn [app flat_map] in *; lia.
Qed.
