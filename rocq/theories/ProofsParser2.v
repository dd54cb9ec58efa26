(** The parser follows the template grammar (C24-C30). *)
From Coq Require Import ZifyBool ZifyNat.
From Verif Require Export ProofsParser.
Ltac Zify.zify_post_hook ::= Z.div_mod_to_equations.

(** ** Splitting *)
Lemma takes_list n ids : 0 <= n -> takes n ids (fst (takeN_list n ids)) (snd (takeN_list n ids)).
Proof.
  intros Hn. unfold takes, takeN_list. cbn [fst snd].
  destruct (Nat.le_gt_cases (Z.to_nat n) (length ids)) as [H|H].
  - left. rewrite firstn_length_le by exact H. rewrite Nat.sub_diag. cbn [repeat]. rewrite app_nil_r.
    split; [symmetry; apply firstn_skipn|]. rewrite firstn_length_le by exact H. lia.
  - right. rewrite firstn_all2, skipn_all2 by lia. repeat split. lia.
Qed.
Lemma takes_fun n ids b r : 0 <= n -> takes n ids b r -> takeN_list n ids = (b, r).
Proof.
  intros Hn [[-> Hl]|(Hl & -> & ->)]; unfold takeN_list.
  - replace (Z.to_nat n) with (length b) by lia.
    rewrite firstn_app, firstn_all, skipn_app, skipn_all, Nat.sub_diag. cbn [firstn skipn app].
    rewrite app_nil_r, Nat.sub_diag. cbn [repeat]. now rewrite app_nil_r.
  - rewrite firstn_all2, skipn_all2 by lia. reflexivity.
Qed.
Lemma takeWhile_started p ids : forall b r, takeWhile_list p true ids = (b, r) <->
  ids = b ++ r /\ Forall (fun i => p i = true) b /\ match r with [] => True | i :: _ => p i = false end.
Proof.
  induction ids as [|i ids IH]; intros b r; cbn [takeWhile_list].
  - split; [intros [= <- <-]; auto|]. intros (H & _). symmetry in H. apply app_eq_nil in H. destruct H as [-> ->]. reflexivity.
  - rewrite andb_true_r, orb_true_l. destruct (p i) eqn:Ep; cbn [negb].
    + destruct (takeWhile_list p true ids) as [a c] eqn:E. split.
      * intros [= <- <-]. destruct (proj1 (IH a c) eq_refl) as (-> & Hf & Hr). repeat split; auto.
      * intros (H & Hf & Hr). destruct b as [|j b].
        { cbn [app] in H. subst r. congruence. }
        injection H as <- ->. inversion Hf; subst.
        assert (Some (a, c) = Some (b, r)) as [= -> ->]; [|reflexivity].
        f_equal. apply (IH b r). auto.
    + split.
      * intros [= <- <-]. repeat split; auto.
      * intros (H & Hf & Hr). destruct b as [|j b]; [cbn [app] in H; now subst r|].
        injection H as <- ->. inversion Hf; subst. congruence.
Qed.
Lemma first_run_iff p ids : forall b r, takeWhile_list p false ids = (b, r) <-> first_run p ids b r.
Proof.
  unfold first_run. induction ids as [|i ids IH]; intros b r; cbn [takeWhile_list].
  - split.
    + intros [= <- <-]. split; [reflexivity|]. exists [], []. auto.
    + intros (H & _). symmetry in H. apply app_eq_nil in H. destruct H as [-> ->]. reflexivity.
  - rewrite andb_false_r, orb_false_l. destruct (p i) eqn:Ep.
    + destruct (takeWhile_list p true ids) as [a c] eqn:E. apply takeWhile_started in E. destruct E as (-> & Ha & Hc). split.
      * intros [= <- <-]. split; [reflexivity|]. exists [], (i :: a).
        repeat split; auto. destruct c; auto. split; [exact Hc|congruence].
      * intros (H & pre & run & -> & Hpre & Hrun & Hr). destruct pre as [|j pre].
        2:{ injection H as <- H. inversion Hpre; congruence. }
        cbn [app] in H. destruct run as [|j run].
        { cbn [app] in H. subst r. destruct Hr; congruence. }
        injection H as <- H. cbn [app].
        assert (E : takeWhile_list p true (a ++ c) = (a, c)) by (apply takeWhile_started; auto).
        assert (E' : takeWhile_list p true (a ++ c) = (run, r)).
        { apply takeWhile_started. inversion Hrun; subst. repeat split; auto. destruct r; tauto. }
        rewrite E in E'. injection E' as -> ->. reflexivity.
    + destruct (takeWhile_list p false ids) as [a c] eqn:E.
      destruct (proj1 (IH a c) eq_refl) as (-> & pre & run & -> & Hpre & Hrun & Hc). split.
      * intros [= <- <-]. split; [reflexivity|]. exists (i :: pre), run. repeat split; auto.
      * intros (H & pre' & run' & -> & Hpre' & Hrun' & Hr').
        destruct pre' as [|j pre'].
        { destruct run' as [|j run'].
          - cbn [app] in H. subst r. destruct Hr'; congruence.
          - injection H as <- H. inversion Hrun'; congruence. }
        injection H as <- H. cbn [app].
        assert (E' : Some (pre ++ run, c) = Some (pre' ++ run', r)).
        { f_equal. apply IH. split; [exact H|]. exists pre', run'. inversion Hpre'; subst. auto. }
        injection E' as -> ->. reflexivity.
Qed.
Lemma until_iff p ids : forall b r, takeTill_list p ids = (b, r) <-> until p ids b r.
Proof.
  unfold until. induction ids as [|i ids IH]; intros b r; cbn [takeTill_list].
  - split; [intros [= <- <-]; auto|]. intros (H & _). symmetry in H. apply app_eq_nil in H. destruct H as [-> ->]. reflexivity.
  - destruct (p i) eqn:Ep.
    + split; [intros [= <- <-]; auto|]. intros (H & Hf & Hr). destruct b as [|j b]; [cbn [app] in H; now subst r|].
      injection H as <- ->. inversion Hf; congruence.
    + destruct (takeTill_list p ids) as [a c] eqn:E. destruct (proj1 (IH a c) eq_refl) as (-> & Ha & Hc). split.
      * intros [= <- <-]. repeat split; auto.
      * intros (H & Hf & Hr). destruct b as [|j b]; [cbn [app] in H; subst r; congruence|].
        injection H as <- H. inversion Hf; subst.
        assert (E' : Some (a, c) = Some (b, r)) by (f_equal; apply IH; auto).
        injection E' as -> ->. reflexivity.
Qed.
Lemma takeWhile_ext p q : (forall i, p i = q i) -> forall ids st, takeWhile_list p st ids = takeWhile_list q st ids.
Proof. intros H. induction ids as [|i ids IH]; intros st; cbn [takeWhile_list]; [reflexivity|]. now rewrite H, IH. Qed.
Lemma takeTill_ext p q : (forall i, p i = q i) -> forall ids, takeTill_list p ids = takeTill_list q ids.
Proof. intros H. induction ids as [|i ids IH]; cbn [takeTill_list]; [reflexivity|]. now rewrite H, IH. Qed.

(** ** Identifiers *)
Lemma F_rep i : (id_F i =? 1) = replication i.
Proof. unfold replication, id_F. destruct (Z.quot_rem' i 100000). 
  destruct (Z.le_gt_cases 0 i); [rewrite Z.quot_div_nonneg by lia; reflexivity|].
  assert (Z.quot i 100000 <= 0) by (apply Z.quot_le_upper_bound; lia). lia. Qed.
Lemma qa_ext i : qa_member i = (i / 100000 =? 0) && (i / 1000 mod 100 =? 33).
Proof.
  unfold qa_member, id_F, id_X. destruct (Z.le_gt_cases 0 i) as [H|H].
  - rewrite Z.quot_div_nonneg by lia. rewrite Z.quot_div_nonneg by lia.
    rewrite Z.rem_mod_nonneg; [reflexivity|apply Z.div_pos; lia|lia].
  - assert (i / 100000 < 0) by (apply Z.div_lt_upper_bound; lia).
    assert (Z.rem (Z.quot i 1000) 100 <= 0).
    { apply Z.rem_nonpos; [lia|]. apply Z.quot_le_upper_bound; lia. }
    lia.
Qed.
Lemma F2_range id : id_F id = 2 -> 200000 <= id < 300000.
Proof.
  unfold id_F. intros H. destruct (Z.le_gt_cases 0 id) as [H0|H0].
  - rewrite Z.quot_div_nonneg in H by lia. lia.
  - assert (Z.quot id 100000 <= 0) by (apply Z.quot_le_upper_bound; lia). lia.
Qed.
Lemma F1_X id : id_F id = 1 -> 0 <= id_X id <= 99.
Proof.
  unfold id_F, id_X. intros H. destruct (Z.le_gt_cases 0 id) as [H0|H0].
  - rewrite Z.quot_div_nonneg by lia. rewrite Z.rem_mod_nonneg by (lia || apply Z.div_pos; lia). lia.
  - assert (Z.quot id 100000 <= 0) by (apply Z.quot_le_upper_bound; lia). lia.
Qed.
Lemma op_div id : 0 <= id -> id_Operator id = id / 1000.
Proof. intros. unfold id_Operator. now rewrite Z.quot_div_nonneg by lia. Qed.
Lemma y_mod id : 0 <= id -> id_Y id = id mod 1000.
Proof. intros. unfold id_Y. now rewrite Z.rem_mod_nonneg by lia. Qed.

Scheme parses_m := Minimality for parses Sort Prop
  with item_m := Minimality for reads Sort Prop
  with bitmap_m := Minimality for bitmap_reads Sort Prop.
Combined Scheme parses_mut from parses_m, item_m, bitmap_m.

(** ** Soundness *)
Section Sound.
  Variable g : group.
  Variable proc : list Z -> M flags (list anode).
  Hypothesis Hp : forall ids np sk f ns, proc ids (np, sk) = (f, Ok ns) -> parses g sk ids ns (snd f).

  Lemma sub_ok split node f f' n r : sub proc split node f = (f', Ok (n, r)) ->
    exists ms, proc (fst split) f = (f', Ok ms) /\ n = with_members node ms /\ r = snd split.
  Proof.
    unfold sub, pop, bind, ret. destruct (proc (fst split) f) as [f1 [ms|e|p|]]; [|discriminate..].
    intros [= <- <- <-]. eauto.
  Qed.
  Lemma sub_parses split node np sk f' n r : sub proc split node (np, sk) = (f', Ok (n, r)) ->
    exists ms, parses g sk (fst split) ms (snd f') /\ n = with_members node ms /\ r = snd split.
  Proof. intros H. apply sub_ok in H. destruct H as (ms & H & E). apply Hp in H. eauto. Qed.
  Lemma subN_parses m ids node np sk f' n r : subN proc m ids node (np, sk) = (f', Ok (n, r)) ->
    exists block ms, takes m ids block r /\ parses g sk block ms (snd f') /\ n = with_members node ms.
  Proof.
    unfold subN. destruct (m <? 0) eqn:Hm; [discriminate|]. intros H. apply sub_parses in H.
    destruct H as (ms & H & En & Er). subst. exists (fst (takeN_list m ids)), ms.
    split; [apply takes_list; lia|auto].
  Qed.
  Lemma lookup_ok {A} id (f : descriptor -> M flags A) fl fl' a :
    (d <- lookup g id ;; f d) fl = (fl', Ok a) -> exists d, Lookup g id = Ok d /\ f d fl = (fl', Ok a).
  Proof. unfold lookup, bind, lift_res. destruct (Lookup g id); [eauto|discriminate..]. Qed.

  Lemma bitmap_sound ids np sk f' n r : bitmap_one g proc ids (np, sk) = (f', Ok (n, r)) ->
    bitmap_reads g sk ids n r (snd f').
  Proof.
    destruct ids as [|id ids]; [discriminate|]. intros H. apply lookup_ok in H. destruct H as (d & HL & H).
    rewrite (Lookup_id _ _ _ HL) in H. unfold ID_237000, ID_031031, ID_236000 in H.
    destruct (Z.eqb_spec id 237000) as [->|].
    { injection H as <- <- <-. now constructor. }
    destruct ((id_F id =? 1) || (id =? 31031)) eqn:E.
    { apply sub_parses in H. destruct H as (ms & H & -> & ->).
      eapply BmAdHoc; [lia|exact HL| |exact H]. apply first_run_iff. apply surjective_pairing. }
    destruct (Z.eqb_spec id 236000) as [->|]; [|discriminate].
    apply sub_parses in H. destruct H as (ms & H & -> & ->).
    eapply BmDefine; [exact HL| |exact H]. apply first_run_iff. apply surjective_pairing.
  Qed.
  Lemma assess_sound id d attrP memP mem ids np sk f' n r : id_F id = 2 -> Lookup g id = Ok d ->
    assessment id = Some mem -> (forall i, attrP i = replication i || mem i) -> (forall i, memP i = mem i) ->
    assess_one g proc d attrP memP ids (np, sk) = (f', Ok (n, r)) -> reads g sk (id :: ids) n r (snd f').
  Proof.
    intros HF HL Ha HaP HmP H. unfold assess_one in H. unfold bind at 1 in H.
    destruct (bitmap_one g proc ids (np, sk)) as [[np1 sk1] [[bm r1]|e|p|]] eqn:Eb; [|discriminate..].
    apply bitmap_sound in Eb. destruct (takeTill_list attrP r1) as [aids r2] eqn:Et.
    rewrite (takeTill_ext _ _ HaP) in Et. apply until_iff in Et.
    unfold bind in H. destruct (proc aids (np1, sk1)) as [[np2 sk2] [attrs|e|p|]] eqn:Ep; [|discriminate..].
    apply Hp in Ep. apply sub_parses in H. destruct H as (ms & H & -> & ->).
    cbn [with_members]. eapply ItAssessment; eauto.
    rewrite (takeWhile_ext _ _ HmP). apply first_run_iff.
    apply surjective_pairing.
  Qed.
  Lemma standalone_sound id d k r np sk f' n rest : id_F id = 2 -> Lookup g id = Ok d -> standalone id = Some k ->
    @ret flags _ (leaf k d, r) (np, sk) = (f', Ok (n, rest)) -> reads g sk (id :: r) n rest (snd f').
  Proof. intros HF HL Hk [= <- <- <-]. now apply ItStandalone. Qed.
  Lemma marked_sound id d id0 id255 mem r np sk f' n rest : id_F id = 2 -> Lookup g id = Ok d ->
    assessment id0 = Some mem -> (forall i, (i =? id255) = mem i) -> standalone id255 = Some KMarker ->
    marked_one g proc id0 id255 d r (np, sk) = (f', Ok (n, rest)) -> reads g sk (id :: r) n rest (snd f').
  Proof.
    intros HF HL Ha Hm Hk H. unfold marked_one in H. rewrite (Lookup_id _ _ _ HL) in H.
    destruct (Z.eqb_spec id id0) as [->|].
    { eapply assess_sound; [exact HF|exact HL|exact Ha| |exact Hm|exact H].
      intros i. cbn beta. now rewrite F_rep, Hm. }
    destruct (Z.eqb_spec id id255) as [->|]; [|discriminate].
    eapply standalone_sound; eauto.
  Qed.

  Lemma operator_sound id r np sk f' n rest : id_F id = 2 ->
    operator_one g proc id r (np, sk) = (f', Ok (n, rest)) -> reads g sk (id :: r) n rest (snd f').
  Proof.
    intros HF H. apply lookup_ok in H. destruct H as (d & HL & H). cbv zeta in H.
    pose proof (F2_range _ HF) as HR.
    rewrite (Lookup_id _ _ _ HL) in H. unfold id_Operand in H.
    rewrite op_div, y_mod in H by lia.
    Ltac sa := eapply standalone_sound; [eassumption|eassumption| |eassumption];
      unfold standalone; cbv zeta.
    destruct (Z.eqb_spec (id / 1000) 201) as [E|_]; [sa; rewrite E; reflexivity|].
    destruct (Z.eqb_spec (id / 1000) 202) as [E|_]; [sa; rewrite E; reflexivity|].
    destruct (Z.eqb_spec (id / 1000) 203) as [E|_].
    { destruct (Z.eqb_spec (id mod 1000) 255) as [Ey|Ey].
      - assert (id = 203255) as -> by lia. sa; reflexivity.
      - apply sub_parses in H. destruct H as (ms & H & -> & ->). cbn [with_members leaf].
        eapply ItNewRefval; eauto; [lia|]. apply until_iff. apply surjective_pairing. }
    destruct (Z.eqb_spec (id / 1000) 204) as [E|_].
    { destruct (Z.eqb_spec (id mod 1000) 0) as [Ey|Ey]; cbn [negb] in H.
      - assert (id = 204000) as -> by lia. sa; reflexivity.
      - apply subN_parses in H. destruct H as (b & ms & Ht & H & ->). cbn [with_members leaf].
        eapply ItOperands; eauto. unfold with_operands. cbv zeta.
        assert ((id / 1000 =? 204) && negb (id mod 1000 =? 0) = true) as -> by lia. reflexivity. }
    destruct (Z.eqb_spec (id / 1000) 205) as [E|_]; [sa; rewrite E; reflexivity|].
    destruct (Z.eqb_spec (id / 1000) 206) as [E|_].
    { unfold bind at 1, modify in H. unfold defer in H. cbn [fst] in H.
      destruct (subN proc 1 r (leaf KSkipLocal d) (np, true)) as [f1 [[n1 r1]|e|p|]] eqn:Es; [|discriminate..].
      injection H as <- <- <-. apply subN_parses in Es. destruct Es as (b & ms & Ht & Es & ->).
      cbn [with_members leaf snd]. eapply ItSkip; eauto. }
    destruct (Z.eqb_spec (id / 1000) 207) as [E|_]; [sa; rewrite E; reflexivity|].
    destruct (Z.eqb_spec (id / 1000) 208) as [E|_]; [sa; rewrite E; reflexivity|].
    destruct (Z.eqb_spec (id / 1000) 221) as [E|_].
    { unfold bind at 1, modify in H. unfold defer in H. cbn [snd] in H.
      destruct (subN proc (id mod 1000) r (leaf KDataNotPresent d) (true, sk)) as [f1 [[n1 r1]|e|p|]] eqn:Es; [|discriminate..].
      injection H as <- <- <-. apply subN_parses in Es. destruct Es as (b & ms & Ht & Es & ->).
      cbn [with_members leaf snd]. eapply ItOperands; eauto. unfold with_operands. cbv zeta. rewrite E. reflexivity. }
    destruct (Z.eqb_spec (id / 1000) 222) as [E|_].
    { unfold ID_222000 in H. destruct (Z.eqb_spec id 222000) as [->|]; cbn [negb] in H; [|discriminate].
      eapply assess_sound; [exact HF|exact HL|reflexivity| | |exact H]; intros i; cbn beta; now rewrite ?F_rep, qa_ext. }
    destruct (Z.eqb_spec (id / 1000) 223) as [E|_]; [eapply marked_sound; eauto; reflexivity|].
    destruct (Z.eqb_spec (id / 1000) 224) as [E|_]; [eapply marked_sound; eauto; reflexivity|].
    destruct (Z.eqb_spec (id / 1000) 225) as [E|_]; [eapply marked_sound; eauto; reflexivity|].
    destruct (Z.eqb_spec (id / 1000) 232) as [E|_]; [eapply marked_sound; eauto; reflexivity|].
    destruct (Z.eqb_spec (id / 1000) 235) as [E|_]; [sa; rewrite E; reflexivity|].
    assert (Hbm : bitmap_one g proc (id :: r) (np, sk) = (f', Ok (n, rest)) ->
              id / 1000 = 236 \/ id / 1000 = 237 -> reads g sk (id :: r) n rest (snd f')).
    { intros Hb Ho. apply bitmap_sound in Hb. apply ItBitmap; [|exact Hb].
      inversion Hb; subst; cbn [hd]; auto. exfalso. destruct H2; [lia|]. subst. lia. }
    destruct (Z.eqb_spec (id / 1000) 236) as [E|_]; [auto|].
    destruct (Z.eqb_spec (id / 1000) 237) as [E|_].
    { destruct (Z.eqb_spec (id mod 1000) 255) as [Ey|Ey].
      - assert (id = 237255) as -> by lia. sa; reflexivity.
      - auto. }
    destruct (_ || _ || _); discriminate.
  Qed.

  Lemma one_sound ids np sk f' n rest :
    one g proc ids (np, sk) = (f', Ok (n, rest)) -> reads g sk ids n rest (snd f').
  Proof.
    destruct ids as [|id r]; [discriminate|]. unfold one, F_SEQUENCE, F_REPLICATION, F_OPERATOR, F_ELEMENT.
    destruct (Z.eqb_spec (id_F id) 3) as [E3|].
    { intros H. apply lookup_ok in H. destruct H as (d & HL & H). destruct (d_entry d) as [| | |def] eqn:He; try discriminate.
      apply (sub_parses (def, r)) in H. destruct H as (ms & H & -> & ->). cbn [with_members leaf fst snd] in *.
      eapply ItSequence; eauto. }
    destruct (Z.eqb_spec (id_F id) 1) as [E1|].
    { destruct (Z.eqb_spec (id_Y id) 0) as [EY|EY]; cbn [andb];
        intros H; apply lookup_ok in H; destruct H as (d & HL & H); rewrite (Lookup_id _ _ _ HL) in H;
        apply subN_parses in H; destruct H as (b & ms & Ht & H & ->); cbn [with_members leaf].
      - eapply ItDelayed; eauto.
      - eapply ItFixed; eauto. }
    cbn [andb]. destruct (Z.eqb_spec (id_F id) 2) as [E2|]; [apply operator_sound; exact E2|].
    destruct (Z.eqb_spec (id_F id) 0) as [E0|]; [|discriminate].
    unfold bind at 1, gets. cbn [snd]. destruct sk.
    - intros [= <- <- <-]. now apply ItLocal.
    - intros H. apply lookup_ok in H. destruct H as (d & HL & [= <- <- <-]). now apply ItElement.
  Qed.
End Sound.

Lemma pt_sound g k : forall ids np sk f ns, pt g k ids (np, sk) = (f, Ok ns) -> parses g sk ids ns (snd f).
Proof.
  induction k as [|k IH]; intros ids np sk f ns H; [discriminate|].
  cbn [pt] in H. destruct ids as [|id r].
  { injection H as <- <-. constructor. }
  unfold bind at 1 in H. destruct (one g (pt g k) (id :: r) (np, sk)) as [[np1 sk1] [[n r1]|e|p|]] eqn:E; [|discriminate..].
  apply (one_sound g _ IH) in E. unfold bind in H.
  destruct (pt g k r1 (np1, sk1)) as [f2 [ns2|e|p|]] eqn:E2; [|discriminate..]. apply IH in E2.
  injection H as <- <-. econstructor; eauto.
Qed.

(** ** Completeness *)
(** [m] returns [a] whenever it is given at least some amount of fuel. *)
Definition runs_to {A} (m : nat -> M flags A) (sk sk' : bool) (a : A) : Prop :=
  exists k, forall k' np, (k <= k')%nat -> exists np', m k' (np, sk) = ((np', sk'), Ok a).

Lemma runs_ret {A} sk (a : A) : runs_to (fun _ => ret a) sk sk a.
Proof. exists 0%nat. intros k' np _. exists np. reflexivity. Qed.
Lemma runs_bind {A B} (m : nat -> M flags A) (f : nat -> A -> M flags B) sk sk1 sk2 a b :
  runs_to m sk sk1 a -> runs_to (fun k => f k a) sk1 sk2 b -> runs_to (fun k => bind (m k) (f k)) sk sk2 b.
Proof.
  intros [k1 H1] [k2 H2]. exists (Nat.max k1 k2). intros k' np Hk.
  destruct (H1 k' np ltac:(lia)) as [np1 E1]. destruct (H2 k' np1 ltac:(lia)) as [np2 E2].
  exists np2. unfold bind. now rewrite E1.
Qed.
Lemma runs_ext {A} (m m' : nat -> M flags A) sk sk' a : (forall k f, m k f = m' k f) ->
  runs_to m sk sk' a -> runs_to m' sk sk' a.
Proof. intros E [k H]. exists k. intros k' np Hk. rewrite <- E. auto. Qed.
Lemma runs_lookup {B} g id d (f : nat -> descriptor -> M flags B) sk sk' b : Lookup g id = Ok d ->
  runs_to (fun k => f k d) sk sk' b -> runs_to (fun k => bind (lookup g id) (f k)) sk sk' b.
Proof.
  intros HL [k H]. exists k. intros k' np Hk. unfold bind, lookup, lift_res. rewrite HL. auto.
Qed.
Lemma runs_sub g split node sk sk' b r ms n : split = (b, r) -> runs_to (fun k => pt g k b) sk sk' ms ->
  n = with_members node ms -> runs_to (fun k => sub (pt g k) split node) sk sk' (n, r).
Proof.
  intros -> [k H] ->. exists k. intros k' np Hk. destruct (H k' np Hk) as [np' E].
  exists np'. unfold sub, pop, bind. cbn [fst snd]. rewrite E. reflexivity.
Qed.
Lemma runs_subN g m ids node sk sk' b r ms n : 0 <= m -> takes m ids b r ->
  runs_to (fun k => pt g k b) sk sk' ms ->
  n = with_members node ms -> runs_to (fun k => subN (pt g k) m ids node) sk sk' (n, r).
Proof.
  intros Hm Ht H Hn. unfold subN. assert (m <? 0 = false) as -> by lia.
  eapply runs_sub; eauto. now apply takes_fun.
Qed.
Lemma runs_defer {A} (m : nat -> M flags A) (h : flags -> flags) sk sk1 sk2 a : (forall np, snd (h (np, sk1)) = sk2) ->
  runs_to m sk sk1 a -> runs_to (fun k => defer h (m k)) sk sk2 a.
Proof.
  intros Hh [k H]. exists k. intros k' np Hk. destruct (H k' np Hk) as [np' E].
  unfold defer. rewrite E. exists (fst (h (np', sk1))). specialize (Hh np').
  destruct (h (np', sk1)) as [x y]. cbn [fst snd] in *. now subst.
Qed.

Lemma runs_bitmap_assess g sk id d mem ids bm rest1 aids rest2 mids rest anodes ms sk1 sk2 sk3 attrP memP :
  assessment id = Some mem ->
  (forall i, attrP i = replication i || mem i) -> (forall i, memP i = mem i) ->
  runs_to (fun k => bitmap_one g (pt g k) ids) sk sk1 (bm, rest1) ->
  until (fun i => replication i || mem i) rest1 aids rest2 ->
  runs_to (fun k => pt g k aids) sk1 sk2 anodes ->
  first_run mem rest2 mids rest ->
  runs_to (fun k => pt g k mids) sk2 sk3 ms ->
  runs_to (fun k => assess_one g (pt g k) d attrP memP ids) sk sk3
    (ANode KAssessment (Some d) ms (Some bm) anodes, rest).
Proof.
  intros Ha HaP HmP Hb Hu Hat Hf Hms. unfold assess_one.
  eapply runs_bind; [exact Hb|]. cbv beta iota.
  rewrite (takeTill_ext _ _ HaP). apply until_iff in Hu. rewrite Hu.
  eapply runs_bind; [exact Hat|]. cbv beta iota.
  eapply runs_sub; [|exact Hms|reflexivity].
  rewrite (takeWhile_ext _ _ HmP). now apply first_run_iff.
Qed.

Lemma runs_standalone g id d k sk rest : id_F id = 2 -> standalone id = Some k -> Lookup g id = Ok d ->
  runs_to (fun m => operator_one g (pt g m) id rest) sk sk (ANode k (Some d) [] None [], rest).
Proof.
  intros HF Hs HL. pose proof (F2_range _ HF) as HR. unfold operator_one.
  eapply runs_lookup; [exact HL|]. cbv beta zeta. rewrite (Lookup_id _ _ _ HL). unfold id_Operand.
  rewrite op_div, y_mod by lia. unfold standalone in Hs. cbv zeta in Hs.
  destruct (Z.eqb_spec (id / 1000) 201) as [E|N201]; [injection Hs as <-; apply runs_ret|].
  destruct (Z.eqb_spec (id / 1000) 202) as [E|N202]; [injection Hs as <-; apply runs_ret|].
  destruct (Z.eqb_spec (id / 1000) 205) as [E|N205]; [injection Hs as <-; rewrite E; apply runs_ret|].
  destruct (Z.eqb_spec (id / 1000) 207) as [E|N207]; [injection Hs as <-; rewrite E; apply runs_ret|].
  destruct (Z.eqb_spec (id / 1000) 208) as [E|N208]; [injection Hs as <-; rewrite E; apply runs_ret|].
  destruct (Z.eqb_spec (id / 1000) 235) as [E|N235]; [injection Hs as <-; rewrite E; apply runs_ret|].
  destruct (Z.eqb_spec id 203255) as [->|_]; [injection Hs as <-; apply runs_ret|].
  destruct ((id / 1000 =? 204) && (id mod 1000 =? 0)) eqn:E204.
  { injection Hs as <-. assert (id / 1000 = 204 /\ id mod 1000 = 0) as [-> ->] by lia. apply runs_ret. }
  destruct ((id =? 223255) || (id =? 224255) || (id =? 225255) || (id =? 232255)) eqn:Em.
  { injection Hs as <-. unfold marked_one. rewrite (Lookup_id _ _ _ HL).
    assert (id = 223255 \/ id = 224255 \/ id = 225255 \/ id = 232255) as [->|[->|[->| ->]]] by lia; apply runs_ret. }
  destruct (Z.eqb_spec id 237255) as [->|_]; [injection Hs as <-; apply runs_ret|discriminate].
Qed.
Lemma runs_operands g id d k n ids block rest ms sk sk' : id_F id = 2 -> with_operands id = Some (k, n) ->
  Lookup g id = Ok d -> takes n ids block rest -> runs_to (fun m => pt g m block) sk sk' ms ->
  runs_to (fun m => operator_one g (pt g m) id ids) sk sk' (ANode k (Some d) ms None [], rest).
Proof.
  intros HF Hs HL Ht Hms. pose proof (F2_range _ HF) as HR. unfold operator_one.
  eapply runs_lookup; [exact HL|]. cbv beta zeta. rewrite (Lookup_id _ _ _ HL). unfold id_Operand.
  rewrite op_div, y_mod by lia. unfold with_operands in Hs. cbv zeta in Hs.
  destruct ((id / 1000 =? 204) && negb (id mod 1000 =? 0)) eqn:E204.
  { injection Hs as <- <-. assert (id / 1000 = 204) as -> by lia. cbn [Z.eqb Pos.eqb].
    assert (negb (id mod 1000 =? 0) = true) as -> by lia. eapply runs_subN; eauto. lia. }
  destruct (Z.eqb_spec (id / 1000) 221) as [E|]; [|discriminate]. injection Hs as <- <-.
  rewrite E. cbn [Z.eqb Pos.eqb].
  assert (R : runs_to (fun m => defer (fun f => (false, snd f)) (subN (pt g m) (id mod 1000) ids (leaf KDataNotPresent d)))
      sk sk' (ANode KDataNotPresent (Some d) ms None [], rest)).
  { eapply runs_defer with (sk1 := sk'); [reflexivity|]. eapply runs_subN; eauto. lia. }
  destruct R as [k R]. exists k. intros k' np Hk. exact (R k' true Hk).
Qed.

Lemma complete g :
  (forall sk ids ns sk', parses g sk ids ns sk' -> runs_to (fun k => pt g k ids) sk sk' ns) /\
  (forall sk ids n rest sk', reads g sk ids n rest sk' ->
     runs_to (fun k => one g (pt g k) ids) sk sk' (n, rest)) /\
  (forall sk ids n rest sk', bitmap_reads g sk ids n rest sk' ->
     runs_to (fun k => bitmap_one g (pt g k) ids) sk sk' (n, rest)).
Proof.
  apply parses_mut.
  - intros sk. exists 1%nat. intros [|k'] np Hk; [lia|]. exists np. reflexivity.
  - intros sk ids n rest sk1 ns sk2 _ IH1 _ IH2.
    assert (R : runs_to (fun k => (x <- one g (pt g k) ids ;; let '(n, rest) := x in
              ns <- pt g k rest ;; ret (n :: ns))) sk sk2 (n :: ns)).
    { eapply runs_bind; [exact IH1|]. cbv beta iota. eapply runs_bind; [exact IH2|]. apply runs_ret. }
    destruct R as [k R]. exists (S k). intros [|k'] np Hk; [lia|].
    destruct (R k' np ltac:(lia)) as [np' E]. exists np'. cbn [pt]. destruct ids as [|id ids]; [|exact E].
    cbn [one] in E. discriminate.
  - intros id d rest HF HL. unfold one. rewrite HF. exists 0%nat. intros k' np _. exists np.
    cbn [F_SEQUENCE F_REPLICATION F_OPERATOR F_ELEMENT Z.eqb Pos.eqb andb]. unfold bind, gets, lookup, lift_res. cbn [snd]. now rewrite HL.
  - intros id rest HF. unfold one. rewrite HF. exists 0%nat. intros k' np _. exists np. reflexivity.
  - intros sk id d def ms rest sk' HF HL He _ IH. unfold one. rewrite HF.
    cbn [F_SEQUENCE F_REPLICATION F_OPERATOR F_ELEMENT Z.eqb Pos.eqb andb].
    eapply runs_lookup; [exact HL|]. cbv beta. rewrite He.
    exact (runs_sub g (def, rest) (leaf KSequence d) sk sk' def rest ms _ eq_refl IH eq_refl).
  - intros sk id d ids block rest ms sk' HF HY HL Ht _ IH. unfold one. rewrite HF.
    cbn [F_SEQUENCE F_REPLICATION F_OPERATOR F_ELEMENT Z.eqb Pos.eqb andb].
    assert (id_Y id =? 0 = false) as -> by lia.
    eapply runs_lookup; [exact HL|]. cbv beta. rewrite (Lookup_id _ _ _ HL).
    pose proof (F1_X _ HF). eapply runs_subN; [lia|exact Ht|exact IH|reflexivity].
  - intros sk id d ids block rest ms sk' HF HY HL Ht _ IH. unfold one. rewrite HF.
    cbn [F_SEQUENCE F_REPLICATION F_OPERATOR F_ELEMENT Z.eqb Pos.eqb andb].
    assert (id_Y id =? 0 = true) as -> by lia.
    eapply runs_lookup; [exact HL|]. cbv beta. rewrite (Lookup_id _ _ _ HL).
    pose proof (F1_X _ HF). eapply runs_subN; [lia|exact Ht|exact IH|reflexivity].
  - intros sk id d k rest HF Hs HL. unfold one. rewrite HF. now apply runs_standalone.
  - intros sk id d k n ids block rest ms sk' HF Hs HL Ht _ IH. unfold one. rewrite HF.
    eapply runs_operands; eauto.
  - intros sk id d ids block rest ms sk' HF Hop HL Ht _ IH. unfold one. rewrite HF.
    cbn [F_SEQUENCE F_REPLICATION F_OPERATOR F_ELEMENT Z.eqb Pos.eqb andb].
    pose proof (F2_range _ HF) as HR. unfold operator_one.
    eapply runs_lookup; [exact HL|]. cbv beta zeta. rewrite (Lookup_id _ _ _ HL). rewrite op_div, Hop by lia.
    cbn [Z.eqb Pos.eqb].
    assert (R : runs_to (fun m => defer (fun f => (fst f, false)) (subN (pt g m) 1 ids (leaf KSkipLocal d)))
      true false (ANode KSkipLocal (Some d) ms None [], rest)).
    { eapply runs_defer with (sk1 := sk'); [reflexivity|]. eapply runs_subN; [lia|exact Ht|exact IH|reflexivity]. }
    destruct R as [k R]. exists k. intros k' np Hk. exact (R k' np Hk).
  - intros sk id d ids block rest ms sk' HF Hop Hn HL Hu _ IH. unfold one. rewrite HF.
    cbn [F_SEQUENCE F_REPLICATION F_OPERATOR F_ELEMENT Z.eqb Pos.eqb andb].
    pose proof (F2_range _ HF) as HR. unfold operator_one.
    eapply runs_lookup; [exact HL|]. cbv beta zeta. rewrite (Lookup_id _ _ _ HL). unfold id_Operand.
    rewrite op_div, y_mod, Hop by lia. cbn [Z.eqb Pos.eqb].
    assert (id mod 1000 =? 255 = false) as -> by lia.
    eapply runs_sub; [|exact IH|reflexivity]. now apply until_iff.
  - intros sk ids bm rest sk' Hh Hb IH.
    destruct ids as [|id ids]; [inversion Hb|]. cbn [hd] in Hh.
    assert (HL : exists d, Lookup g id = Ok d) by (inversion Hb; subst; eauto). destruct HL as [d HL].
    assert (HF : id_F id = 2) by (destruct Hh as [-> | ->]; reflexivity).
    unfold one. rewrite HF. cbn [F_SEQUENCE F_REPLICATION F_OPERATOR F_ELEMENT Z.eqb Pos.eqb andb].
    unfold operator_one. eapply runs_lookup; [exact HL|]. cbv beta zeta. rewrite (Lookup_id _ _ _ HL).
    destruct Hh as [-> | ->]; exact IH.
  - intros sk id d mem ids bm rest1 attrs rest2 mids rest anodes ms sk1 sk2 sk3 HF Ha HL Hb IHb Hu _ IHa Hfr _ IHm.
    unfold one. rewrite HF. cbn [F_SEQUENCE F_REPLICATION F_OPERATOR F_ELEMENT Z.eqb Pos.eqb andb].
    unfold operator_one. eapply runs_lookup; [exact HL|]. cbv beta zeta. rewrite (Lookup_id _ _ _ HL).
    unfold marked_one. rewrite (Lookup_id _ _ _ HL).
    pose proof Ha as Ha'. unfold assessment in Ha'.
    destruct (Z.eqb_spec id 222000) as [->|_].
    { cbn [id_Operator Z.eqb Pos.eqb ID_222000 negb]. injection Ha' as <-.
      eapply runs_bitmap_assess; [exact Ha| | |exact IHb|exact Hu|exact IHa|exact Hfr|exact IHm];
        intros i; cbn beta; now rewrite ?F_rep, qa_ext. }
    destruct (Z.eqb_spec id 223000) as [->|_].
    { injection Ha' as <-. eapply runs_bitmap_assess; [exact Ha| | |exact IHb|exact Hu|exact IHa|exact Hfr|exact IHm];
        intros i; cbn beta; now rewrite ?F_rep. }
    destruct (Z.eqb_spec id 224000) as [->|_].
    { injection Ha' as <-. eapply runs_bitmap_assess; [exact Ha| | |exact IHb|exact Hu|exact IHa|exact Hfr|exact IHm];
        intros i; cbn beta; now rewrite ?F_rep. }
    destruct (Z.eqb_spec id 225000) as [->|_].
    { injection Ha' as <-. eapply runs_bitmap_assess; [exact Ha| | |exact IHb|exact Hu|exact IHa|exact Hfr|exact IHm];
        intros i; cbn beta; now rewrite ?F_rep. }
    destruct (Z.eqb_spec id 232000) as [->|_]; [|discriminate].
    injection Ha' as <-. eapply runs_bitmap_assess; [exact Ha| | |exact IHb|exact Hu|exact IHa|exact Hfr|exact IHm];
        intros i; cbn beta; now rewrite ?F_rep.
  - intros sk d rest HL. unfold bitmap_one. eapply runs_lookup; [exact HL|]. cbv beta. rewrite (Lookup_id _ _ _ HL). apply runs_ret.
  - intros sk d ids block rest ms sk' HL Hf _ IH. unfold bitmap_one. eapply runs_lookup; [exact HL|]. cbv beta.
    rewrite (Lookup_id _ _ _ HL). eapply runs_sub; [|exact IH|reflexivity]. now apply first_run_iff.
  - intros sk id d ids block rest ms sk' Hid HL Hf _ IH. unfold bitmap_one. eapply runs_lookup; [exact HL|]. cbv beta.
    rewrite (Lookup_id _ _ _ HL). unfold ID_237000, ID_031031.
    assert (id =? 237000 = false) as ->.
    { destruct Hid as [H|H]; [|lia]. destruct (Z.eqb_spec id 237000) as [->|]; [discriminate|reflexivity]. }
    assert ((id_F id =? 1) || (id =? 31031) = true) as -> by lia.
    eapply runs_sub; [|exact IH|reflexivity]. now apply first_run_iff.
Qed.

Lemma Parse_grammar g ids tree : 
  (exists fuel fl, Parse g fuel ids parser0 = (fl, Ok tree)) <->
  exists ns sk', parses g false ids ns sk' /\ tree = root ns.
Proof.
  split.
  - intros (k & fl & H). rewrite Parse_pt in H.
    destruct (pt g k ids parser0) as [f [ns|e|p|]] eqn:E; cbn [fst snd] in H; try discriminate.
    injection H as <- <-. apply pt_sound in E. exists ns, (snd f). auto.
  - intros (ns & sk' & H & ->). apply complete in H. destruct H as [k H].
    destruct (H k false ltac:(lia)) as [np' E]. exists k, (np', sk'). rewrite Parse_pt.
    unfold parser0. rewrite E. reflexivity.
Qed.
