(** Node kinds, announced operands, and termination of the parser. *)
From Coq Require Import ZifyBool ZifyNat.
From Verif Require Export ProofsParser3.
Ltac Zify.zify_post_hook ::= Z.div_mod_to_equations.

Lemma standalone_documented id k : 0 <= id -> standalone id = Some k -> documented id = Some k.
Proof.
  intros H0. unfold standalone, documented. cbv zeta.
  destruct (Z.eqb_spec (id / 1000) 201) as [->|]; [auto|].
  destruct (Z.eqb_spec (id / 1000) 202) as [->|]; [auto|].
  destruct (Z.eqb_spec (id / 1000) 205) as [->|]; [auto|].
  destruct (Z.eqb_spec (id / 1000) 207) as [->|]; [auto|].
  destruct (Z.eqb_spec (id / 1000) 208) as [->|]; [auto|].
  destruct (Z.eqb_spec (id / 1000) 235) as [->|]; [auto|].
  destruct (Z.eqb_spec id 203255) as [->|]; [auto|].
  destruct ((id / 1000 =? 204) && (id mod 1000 =? 0)) eqn:E.
  { assert (id / 1000 = 204) as -> by lia. auto. }
  destruct ((id =? 223255) || (id =? 224255) || (id =? 225255) || (id =? 232255)) eqn:E'.
  { assert (id = 223255 \/ id = 224255 \/ id = 225255 \/ id = 232255) as [->|[->|[->| ->]]] by lia; auto. }
  destruct (Z.eqb_spec id 237255) as [->|]; [auto|discriminate].
Qed.
Lemma operands_documented id k n : with_operands id = Some (k, n) -> documented id = Some k.
Proof.
  unfold with_operands, documented. cbv zeta. destruct (_ && _) eqn:E.
  { assert (id / 1000 = 204) as -> by lia. now intros [= <- _]. }
  destruct (Z.eqb_spec (id / 1000) 221) as [->|]; [now intros [= <- _]|discriminate].
Qed.
Lemma assessment_ids id mem : assessment id = Some mem ->
  id = 222000 \/ id = 223000 \/ id = 224000 \/ id = 225000 \/ id = 232000.
Proof.
  unfold assessment. destruct (id =? 222000) eqn:?; [lia|]. destruct (id =? 223000) eqn:?; [lia|].
  destruct (id =? 224000) eqn:?; [lia|]. destruct (id =? 225000) eqn:?; [lia|].
  destruct (id =? 232000) eqn:?; [lia|]. discriminate.
Qed.
Lemma assessment_documented id mem : assessment id = Some mem -> documented id = Some KAssessment.
Proof.
  intros H. apply assessment_ids in H. destruct H as [->|[->|[->|[->| ->]]]]; reflexivity.
Qed.
Lemma element_kind d : an_kind (element_node d) = if d_id d =? 31021 then KE031021 else KElement false.
Proof. unfold element_node. destruct (d_id d =? 31021); reflexivity. Qed.
Lemma element_desc d : an_desc (element_node d) = Some d.
Proof. unfold element_node. destruct (d_id d =? 31021); reflexivity. Qed.

Lemma right_kinds g ids ns sk sk' : parses g sk ids ns sk' -> Forall (all_nodes right_kind) ns.
Proof.
  revert sk ids ns sk'.
  refine (proj1 (grammar_nodes g right_kind _ _ _ _ _ _ _ _ _ _ _ _)); unfold right_kind.
  - intros id d HF HL. rewrite element_desc, element_kind, (Lookup_id _ _ _ HL), HF. reflexivity.
  - intros id HF. rewrite element_desc, element_kind. cbn [local_element d_id]. now rewrite HF.
  - intros sk id d def ms sk' HF HL _ _. cbn [an_desc an_kind]. now rewrite (Lookup_id _ _ _ HL), HF.
  - intros sk id d def ms sk' HF HY HL _ _. cbn [an_desc an_kind]. rewrite (Lookup_id _ _ _ HL), HF.
    now assert (id_Y id =? 0 = false) as -> by lia.
  - intros sk id d def ms sk' HF HY HL _ _. cbn [an_desc an_kind]. rewrite (Lookup_id _ _ _ HL), HF.
    now assert (id_Y id =? 0 = true) as -> by lia.
  - intros id d k HF Hs HL. cbn [an_desc an_kind]. rewrite (Lookup_id _ _ _ HL), HF. symmetry.
    apply standalone_documented; [|exact Hs]. pose proof (F2_range _ HF). lia.
  - intros sk id d k n block ms sk' HF Hs HL _ _. cbn [an_desc an_kind]. rewrite (Lookup_id _ _ _ HL), HF. symmetry.
    eapply operands_documented; eauto.
  - intros id d block ms sk' HF Hs HL _ _. cbn [an_desc an_kind]. rewrite (Lookup_id _ _ _ HL), HF.
    unfold documented. now rewrite Hs.
  - intros id d ms HF Hs HL. cbn [an_desc an_kind]. rewrite (Lookup_id _ _ _ HL), HF.
    unfold documented. now rewrite Hs.
  - intros id d mem ms bm attrs HF Hs HL. cbn [an_desc an_kind]. rewrite (Lookup_id _ _ _ HL), HF. symmetry.
    eapply assessment_documented; eauto.
  - intros id d ms Hid HL. cbn [an_desc an_kind]. rewrite (Lookup_id _ _ _ HL). destruct Hid as [-> | ->]; reflexivity.
  - reflexivity.
Qed.
Lemma all_members_parsed g ids ns sk sk' : parses g sk ids ns sk' -> Forall (all_nodes (members_parsed g)) ns.
Proof.
  revert sk ids ns sk'.
  assert (Hel : forall d, members_parsed g (element_node d)).
  { intros d. unfold element_node. destruct (d_id d =? 31021); exact I. }
  refine (proj1 (grammar_nodes g (members_parsed g) _ _ _ _ _ _ _ _ _ _ _ _)); unfold members_parsed; cbv beta iota zeta.
  - intros id d _ _. apply Hel.
  - intros id _. apply Hel.
  - intros sk id d def ms sk' HF HL He Hp. exists sk, sk', def. auto.
  - intros sk id d def ms sk' HF HY HL Hl Hp. rewrite (Lookup_id _ _ _ HL). exists sk, sk', def. auto.
  - intros sk id d def ms sk' HF HY HL Hl Hp. rewrite (Lookup_id _ _ _ HL). exists sk, sk', def. auto.
  - intros id d k HF Hs HL. rewrite (Lookup_id _ _ _ HL).
    assert (Hk : k = KAssocField -> id_Y id = 0).
    { intros ->. unfold standalone in Hs. cbv zeta in Hs. pose proof (F2_range _ HF). rewrite y_mod by lia.
      repeat match type of Hs with (if ?c then _ else _) = _ => destruct c eqn:?; [try discriminate; lia|] end. discriminate. }
    assert (k <> KDataNotPresent /\ k <> KSkipLocal /\ k <> KFixed /\ k <> KDelayed /\ k <> KSequence).
    { unfold standalone in Hs. cbv zeta in Hs.
      repeat match type of Hs with (if ?c then _ else _) = _ => destruct c; [injection Hs as <-; repeat split; discriminate|] end. discriminate. }
    destruct k; try exact I; try tauto. rewrite Hk by reflexivity. exists true, true, []. split; [reflexivity|constructor].
  - intros sk id d k n block ms sk' HF Hs HL Hl Hp. rewrite (Lookup_id _ _ _ HL). pose proof (F2_range _ HF).
    unfold with_operands in Hs. cbv zeta in Hs. rewrite y_mod by lia. destruct (_ && _) eqn:E.
    { injection Hs as <- <-. assert (id mod 1000 =? 0 = false) as -> by lia. exists sk, sk', block. auto. }
    destruct (_ =? 221); [|discriminate]. injection Hs as <- <-. exists sk, sk', block. auto.
  - intros id d block ms sk' HF Hs HL Hl Hp. exists true, sk', block. split; [lia|exact Hp].
  - auto.
  - auto.
  - auto.
  - auto.
Qed.

(** C30: nothing is lacking. *)
Lemma takes_len n ids block rest : 0 <= n -> takes n ids block rest -> Z.of_nat (length block) = n.
Proof. intros Hn [[_ H]|(Hl & _ & ->)]; [exact H|]. rewrite app_length, repeat_length. lia. Qed.
Lemma announced g (H0 : forall d, Lookup g 0 <> Ok d) :
  (forall sk ids ns sk', parses g sk ids ns sk' -> sk = false -> Forall no_local ns ->
     Forall (all_nodes holds_announced) ns) /\
  (forall sk ids n rest sk', reads g sk ids n rest sk' -> sk = false -> no_local n ->
     all_nodes holds_announced n) /\
  (forall sk ids n rest sk', bitmap_reads g sk ids n rest sk' -> sk = false -> no_local n ->
     all_nodes holds_announced n).
Proof.
  assert (Hdoc : forall block ms sk', parses g false block ms sk' -> Forall no_local ms -> flat_map doc ms = block).
  { intros block ms sk' Hp Hl. exact (proj1 (proj1 (parses_no_zero g H0) _ _ _ _ Hp eq_refl Hl)). }
  assert (Hel : forall d, all_nodes holds_announced (element_node d)).
  { intros d. unfold element_node. destruct (d_id d =? 31021); apply all_nodes_eq; repeat split; constructor. }
  apply parses_mut.
  - constructor.
  - intros sk ids n rest sk1 ns sk2 Hr IH1 Hp IH2 -> Hl. inversion Hl; subst.
    assert (sk1 = false) as -> by eauto using low_p, low_r, low_b. auto.
  - auto.
  - auto.
  - intros sk id d def ms rest sk' HF HL _ _ IH -> Hn. apply all_nodes_eq in Hn. apply all_nodes_eq.
    repeat split; auto. apply IH; [reflexivity|]. tauto.
  - intros sk id d ids block rest ms sk' HF HY HL Ht Hp IH -> Hn. apply all_nodes_eq in Hn. apply all_nodes_eq.
    destruct Hn as (_ & Hn & _). repeat split; auto. cbn [holds_announced]. rewrite (Hdoc _ _ _ Hp Hn), (Lookup_id _ _ _ HL).
    pose proof (F1_X _ HF). eapply takes_len; eauto. lia.
  - intros sk id d ids block rest ms sk' HF HY HL Ht Hp IH -> Hn. apply all_nodes_eq in Hn. apply all_nodes_eq.
    destruct Hn as (_ & Hn & _). repeat split; auto. cbn [holds_announced]. rewrite (Hdoc _ _ _ Hp Hn), (Lookup_id _ _ _ HL).
    pose proof (F1_X _ HF). eapply takes_len; eauto. lia.
  - intros sk id d k rest HF Hs HL _ Hn. apply all_nodes_eq. repeat split; auto.
    pose proof (right_kinds g [id] [ANode k (Some d) [] None []] false false) as Hk.
    assert (Hm : all_nodes (members_parsed g) (ANode k (Some d) [] None [])).
    { assert (Hp : parses g false [id] [ANode k (Some d) [] None []] false)
        by (econstructor; [apply ItStandalone; eauto|constructor]).
      apply all_members_parsed in Hp. now inversion Hp. }
    apply all_nodes_eq in Hm. destruct Hm as [Hm _]. cbn [members_parsed holds_announced flat_map length] in *.
    destruct k; try exact I; destruct Hm as (sk1 & sk2 & block & Hl & Hp); inversion Hp; subst; exact Hl.
  - intros sk id d k n ids block rest ms sk' HF Hs HL Ht Hp IH -> Hn. apply all_nodes_eq in Hn. apply all_nodes_eq.
    destruct Hn as (_ & Hn & _). repeat split; auto. pose proof (F2_range _ HF).
    unfold with_operands in Hs. cbv zeta in Hs. destruct (_ && _) eqn:E.
    { injection Hs as <- <-. cbn [holds_announced]. rewrite (Hdoc _ _ _ Hp Hn), (Lookup_id _ _ _ HL), y_mod by lia.
      assert (id mod 1000 =? 0 = false) as -> by lia. eapply takes_len; eauto. lia. }
    destruct (_ =? 221); [|discriminate]. injection Hs as <- <-. cbn [holds_announced].
    rewrite (Hdoc _ _ _ Hp Hn), (Lookup_id _ _ _ HL), y_mod by lia. eapply takes_len; eauto. lia.
  - intros sk id d ids block rest ms sk' HF Hs HL Ht Hp IH -> Hn. apply all_nodes_eq in Hn. destruct Hn as [Hn _].
    now destruct Hn.
  - intros sk id d ids block rest ms sk' HF Hs _ HL Ht Hp IH -> Hn. apply all_nodes_eq in Hn. apply all_nodes_eq.
    destruct Hn as (_ & Hn & _). repeat split; auto.
  - auto.
  - intros sk id d mem ids bm rest1 attrs rest2 mids rest anodes ms sk1 sk2 sk3 HF Ha HL Hb IHb _ Hpa IHa _ Hpm IHm -> Hn.
    apply all_nodes_eq in Hn. apply all_nodes_eq. destruct Hn as (_ & Hms & Hbm & Hat).
    assert (sk1 = false) as -> by eauto using low_p, low_r, low_b.
    assert (sk2 = false) as -> by eauto using low_p, low_r, low_b. repeat split; auto.
  - intros. apply all_nodes_eq. repeat split; auto.
  - intros sk d ids block rest ms sk' HL Hf _ IH -> Hn. apply all_nodes_eq in Hn. apply all_nodes_eq.
    destruct Hn as (_ & Hn & _). repeat split; auto.
  - intros sk id d ids block rest ms sk' _ HL Hf _ IH -> Hn. apply all_nodes_eq in Hn. apply all_nodes_eq.
    destruct Hn as (_ & Hn & _). repeat split; auto.
Qed.

(** C28: undocumented operators are errors. *)
Lemma undocumented g fuel id rest f : id_F id = 2 -> documented id = None ->
  exists e, snd (Parse g (S fuel) (id :: rest) f) = Err e.
Proof.
  intros HF Hd. rewrite Parse_pt. cbn [snd pt]. unfold bind at 1. unfold one. rewrite HF.
  cbn [F_SEQUENCE F_REPLICATION F_OPERATOR F_ELEMENT Z.eqb Pos.eqb andb].
  unfold operator_one. unfold lookup, lift_res. unfold bind at 1.
  destruct (Lookup_total g id) as [[d HL]|[[e HL] _]]; rewrite HL; [|cbn; eauto]. cbv zeta.
  rewrite (Lookup_id _ _ _ HL). unfold id_Operand. pose proof (F2_range _ HF) as HR.
  rewrite op_div, y_mod by lia. unfold documented in Hd.
  assert (Hb : (id / 1000 = 236 \/ id / 1000 = 237) -> id <> 236000 -> id <> 237000 ->
             exists e, snd (bitmap_one g (pt g fuel) (id :: rest) f) = Err e).
  { intros Ho H1 H2. unfold bitmap_one, bind, lookup, lift_res. rewrite HL. rewrite (Lookup_id _ _ _ HL), HF.
    unfold ID_237000, ID_031031, ID_236000. assert (id =? 237000 = false) as -> by lia.
    assert ((2 =? 1) || (id =? 31031) = false) as -> by lia. assert (id =? 236000 = false) as -> by lia.
    eexists. reflexivity. }
  assert (Hfin : forall (m : M flags (anode * list Z)) (h : (anode * list Z) -> M flags (list anode)),
     (exists e, snd (m f) = Err e) -> exists e,
       snd (let '(s', r) := m f in match r with Ok a => h a s' | Err e => (s', Err e) | Panic p => (s', Panic p)
              | NoFuel => (s', NoFuel) end) = @Err (list anode) e).
  { intros m h [e E]. destruct (m f) as [s' r]. cbn [snd] in E. subst r. eexists. reflexivity. }
  match goal with |- exists e, match snd ?x with _ => _ end = _ => assert (Hx : exists e, snd x = Err e) end.
  2:{ destruct Hx as [e ->]. eauto. }
  apply Hfin. cbn [snd].
  destruct (Z.eqb_spec (id / 1000) 201) as [E|]; [rewrite E in Hd; discriminate|].
  destruct (Z.eqb_spec (id / 1000) 202) as [E|]; [rewrite E in Hd; discriminate|].
  destruct (Z.eqb_spec (id / 1000) 203) as [E|]; [rewrite E in Hd; discriminate|].
  destruct (Z.eqb_spec (id / 1000) 204) as [E|]; [rewrite E in Hd; discriminate|].
  destruct (Z.eqb_spec (id / 1000) 205) as [E|]; [rewrite E in Hd; discriminate|].
  destruct (Z.eqb_spec (id / 1000) 206) as [E|]; [rewrite E in Hd; discriminate|].
  destruct (Z.eqb_spec (id / 1000) 207) as [E|]; [rewrite E in Hd; discriminate|].
  destruct (Z.eqb_spec (id / 1000) 208) as [E|]; [rewrite E in Hd; discriminate|].
  destruct (Z.eqb_spec (id / 1000) 221) as [E|]; [rewrite E in Hd; discriminate|].
  assert (Hm : forall op, id / 1000 = op -> (op = 222 \/ op = 223 \/ op = 224 \/ op = 225 \/ op = 232) ->
      id <> op * 1000 /\ (op <> 222 -> id <> op * 1000 + 255)).
  { intros op E Ho. split.
    - intros Ei. assert (Ey : id mod 1000 = 0) by lia. rewrite E, Ey in Hd. destruct Ho as [->|[->|[->|[->| ->]]]]; discriminate.
    - intros N Ei. assert (Ey : id mod 1000 = 255) by lia. rewrite E, Ey in Hd. destruct Ho as [->|[->|[->|[->| ->]]]]; try discriminate. congruence. }
  unfold marked_one. rewrite (Lookup_id _ _ _ HL).
  unfold ID_222000, ID_223000, ID_223255, ID_224000, ID_224255, ID_225000, ID_225255, ID_232000, ID_232255.
  destruct (Z.eqb_spec (id / 1000) 222) as [E|].
  { destruct (Hm 222 E) as [H1 _]; [tauto|]. assert (id =? 222000 = false) as -> by lia. cbn. eauto. }
  destruct (Z.eqb_spec (id / 1000) 223) as [E|].
  { destruct (Hm 223 E) as [H1 H2]; [tauto|]. specialize (H2 ltac:(lia)).
    assert (id =? 223000 = false) as -> by lia. assert (id =? 223255 = false) as -> by lia. cbn. eauto. }
  destruct (Z.eqb_spec (id / 1000) 224) as [E|].
  { destruct (Hm 224 E) as [H1 H2]; [tauto|]. specialize (H2 ltac:(lia)).
    assert (id =? 224000 = false) as -> by lia. assert (id =? 224255 = false) as -> by lia. cbn. eauto. }
  destruct (Z.eqb_spec (id / 1000) 225) as [E|].
  { destruct (Hm 225 E) as [H1 H2]; [tauto|]. specialize (H2 ltac:(lia)).
    assert (id =? 225000 = false) as -> by lia. assert (id =? 225255 = false) as -> by lia. cbn. eauto. }
  destruct (Z.eqb_spec (id / 1000) 232) as [E|].
  { destruct (Hm 232 E) as [H1 H2]; [tauto|]. specialize (H2 ltac:(lia)).
    assert (id =? 232000 = false) as -> by lia. assert (id =? 232255 = false) as -> by lia. cbn. eauto. }
  destruct (Z.eqb_spec (id / 1000) 235) as [E|]; [rewrite E in Hd; discriminate|].
  destruct (Z.eqb_spec (id / 1000) 236) as [E|].
  { apply Hb; [tauto| |lia]. intros ->. discriminate. }
  destruct (Z.eqb_spec (id / 1000) 237) as [E|].
  { destruct (Z.eqb_spec (id mod 1000) 255) as [Ey|]; [rewrite E, Ey in Hd; discriminate|].
    apply Hb; [tauto|lia|]. intros ->. discriminate. }
  destruct (_ || _ || _); cbn; eauto.
Qed.
Lemma not_ok_context g ids ns : parsed g ids ns -> Forall (all_nodes right_kind) ns.
Proof. rewrite parsed_iff. apply right_kinds. Qed.

(** C29 *)
Lemma bitmap_reads_ids g sk ids bm rest sk' : bitmap_reads g sk ids bm rest sk' ->
  exists bids, bitmap_ids ids bids rest /\ ids = bids ++ rest.
Proof.
  intros H. inversion H; subst.
  - exists [237000]. split; [constructor|reflexivity].
  - exists (236000 :: block). split; [now constructor|]. destruct H1 as [-> _]. reflexivity.
  - exists block. split; [now constructor|]. now destruct H2 as [-> _].
Qed.
Lemma partition g id ids ns mem : assessment id = Some mem -> parsed g (id :: ids) ns ->
  exists bids aids mids rest d bm attrs ms more,
    ids = bids ++ aids ++ mids ++ rest /\
    bitmap_ids ids bids (aids ++ mids ++ rest) /\
    until (fun i => replication i || mem i) (aids ++ mids ++ rest) aids (mids ++ rest) /\
    first_run mem (mids ++ rest) mids rest /\
    Lookup g id = Ok d /\
    ns = ANode KAssessment (Some d) ms (Some bm) attrs :: more /\
    bitmap_reads g false ids bm (aids ++ mids ++ rest) false /\
    parsed g aids attrs /\ parsed g mids ms /\ parsed g rest more.
Proof.
  intros Ha H. apply parsed_iff in H. inversion H; subst.
  assert (HF : id_F id = 2).
  { pose proof (assessment_ids _ _ Ha) as [->|[->|[->|[->| ->]]]]; reflexivity. }
  pose proof (assessment_ids _ _ Ha) as Hid.
  inversion H0; subst; try congruence.
  - exfalso. destruct Hid as [->|[->|[->|[->| ->]]]]; discriminate.
  - exfalso. destruct Hid as [->|[->|[->|[->| ->]]]]; discriminate.
  - exfalso. destruct Hid as [->|[->|[->|[->| ->]]]]; discriminate.
  - exfalso. destruct Hid as [->|[->|[->|[->| ->]]]]; discriminate.
  - exfalso. cbn [hd] in H2. destruct H2; subst; discriminate.
  - rewrite Ha in H5. injection H5 as <-.
    destruct (bitmap_reads_ids _ _ _ _ _ _ H7) as (bids & Hb & Eb).
    pose proof H8 as [Er1 _]. pose proof H11 as [Er2 _].
    assert (sk0 = false) as -> by eauto using low_p, low_r, low_b.
    assert (sk2 = false) as -> by eauto using low_p, low_r, low_b.
    assert (sk1 = false) as -> by eauto using low_p, low_r, low_b.
    rewrite Er2 in *. rewrite Er1 in *.
    exists bids, attrs, mids, rest, d, bm, anodes, ms, ns0. rewrite !parsed_iff.
    repeat (split; [assumption || reflexivity|]). assumption.
Qed.
