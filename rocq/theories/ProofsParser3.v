(** Consequences of the template grammar, parser state and termination (C23-C30). *)
From Coq Require Import ZifyBool ZifyNat.
From Verif Require Export ProofsParser2.
Ltac Zify.zify_post_hook ::= Z.div_mod_to_equations.

(** ** Parser state (C26) *)
Definition le_flags (a b : flags) : Prop := (fst a = true -> fst b = true) /\ (snd a = true -> snd b = true).
Lemma le_refl a : le_flags a a.
Proof. split; auto. Qed.
Lemma le_tr a b c : le_flags a b -> le_flags b c -> le_flags a c.
Proof. unfold le_flags. tauto. Qed.
Definition lowers {A} (m : M flags A) : Prop := forall f, le_flags (fst (m f)) f.
Lemma lowers_bind {A B} (m : M flags A) (h : A -> M flags B) :
  lowers m -> (forall a, lowers (h a)) -> lowers (bind m h).
Proof.
  intros Hm Hh f. unfold bind. specialize (Hm f). destruct (m f) as [f' [a|e|p|]]; cbn [fst] in *; try exact Hm.
  eapply le_tr; [apply Hh|exact Hm].
Qed.
Lemma lowers_const {A} (r : res A) : lowers (fun f => (f, r)).
Proof. intros f. apply le_refl. Qed.

Section Lowers.
  Variable g : group.
  Variable proc : list Z -> M flags (list anode).
  Hypothesis Hp : forall ids, lowers (proc ids).
  Lemma lowers_sub split node : lowers (sub proc split node).
  Proof.
    unfold sub, pop. apply lowers_bind; [apply lowers_bind; [apply Hp|]|]; intros a; apply lowers_const.
  Qed.
  Lemma lowers_subN n ids node : lowers (subN proc n ids node).
  Proof. unfold subN. destruct (n <? 0); [apply lowers_const|apply lowers_sub]. Qed.
  Lemma lowers_bitmap ids : lowers (bitmap_one g proc ids).
  Proof.
    destruct ids; [apply lowers_const|]. unfold bitmap_one. apply lowers_bind; [apply lowers_const|]. intros d.
    destruct (_ =? _); [apply lowers_const|]. destruct (_ || _); [apply lowers_sub|].
    destruct (_ =? _); [apply lowers_sub|apply lowers_const].
  Qed.
  Lemma lowers_assess d a m ids : lowers (assess_one g proc d a m ids).
  Proof.
    unfold assess_one. apply lowers_bind; [apply lowers_bitmap|]. intros [bm r1].
    destruct (takeTill_list a r1). apply lowers_bind; [apply Hp|]. intros attrs. apply lowers_sub.
  Qed.
  Lemma lowers_marked a b d ids : lowers (marked_one g proc a b d ids).
  Proof. unfold marked_one. destruct (_ =? _); [apply lowers_assess|]. destruct (_ =? _); apply lowers_const. Qed.
  Lemma lowers_operator id r : lowers (operator_one g proc id r).
  Proof.
    unfold operator_one. apply lowers_bind; [apply lowers_const|]. intros d. cbv zeta.
    repeat match goal with
    | |- lowers (if _ =? 206 then _ else _) => destruct (_ =? 206)
    | |- lowers (if _ =? 221 then _ else _) => destruct (_ =? 221)
    | |- lowers (if ?c then _ else _) => destruct c
    | |- lowers (ret _) => apply lowers_const
    | |- lowers (fail _) => apply lowers_const
    | |- lowers (sub _ _ _) => apply lowers_sub
    | |- lowers (subN _ _ _ _) => apply lowers_subN
    | |- lowers (assess_one _ _ _ _ _ _) => apply lowers_assess
    | |- lowers (marked_one _ _ _ _ _ _) => apply lowers_marked
    | |- lowers (bitmap_one _ _ _) => apply lowers_bitmap
    end.
    - intros [np sk]. unfold bind, modify, defer. cbn [fst].
      pose proof (lowers_subN 1 r (leaf KSkipLocal d) (np, true)) as H.
      destruct (subN proc 1 r (leaf KSkipLocal d) (np, true)) as [[a b] x]. cbn [fst] in *.
      unfold le_flags in *. cbn [fst snd] in *. split; [tauto|discriminate].
    - intros [np sk]. unfold bind, modify, defer. cbn [snd].
      pose proof (lowers_subN (id_Y (d_id d)) r (leaf KDataNotPresent d) (true, sk)) as H.
      destruct (subN proc _ r (leaf KDataNotPresent d) (true, sk)) as [[a b] x]. cbn [fst] in *.
      unfold le_flags in *. cbn [fst snd] in *. split; [discriminate|tauto].
  Qed.
  Lemma lowers_one ids : lowers (one g proc ids).
  Proof.
    destruct ids as [|id r]; [apply lowers_const|]. unfold one.
    destruct (_ =? _).
    { apply lowers_bind; [apply lowers_const|]. intros d. destruct (d_entry d); try apply lowers_const.
      apply (lowers_sub (members, r)). }
    destruct (_ && _); [apply lowers_bind; [apply lowers_const|intros d; apply lowers_subN]|].
    destruct (_ =? _); [apply lowers_bind; [apply lowers_const|intros d; apply lowers_subN]|].
    destruct (_ =? _); [apply lowers_operator|]. destruct (_ =? _); [|apply lowers_const].
    intros [np [|]]; [apply le_refl|]. unfold bind, gets, lookup, lift_res. cbn [snd].
    destruct (Lookup g id); apply le_refl.
  Qed.
End Lowers.
Lemma lowers_pt g k : forall ids, lowers (pt g k ids).
Proof.
  induction k as [|k IH]; intros ids; [apply lowers_const|]. cbn [pt]. destruct ids; [apply lowers_const|].
  apply lowers_bind; [apply lowers_one; exact IH|]. intros [n rest].
  apply lowers_bind; [apply IH|]. intros ns. apply lowers_const.
Qed.
Lemma Parse_flags g k ids : fst (Parse g k ids parser0) = parser0.
Proof.
  rewrite Parse_pt. cbn [fst]. pose proof (lowers_pt g k ids parser0) as H. unfold le_flags in H.
  destruct (fst (pt g k ids parser0)) as [[|] [|]]; cbn [fst snd parser0] in H; destruct H as [H1 H2];
    try discriminate (H1 eq_refl); try discriminate (H2 eq_refl). reflexivity.
Qed.
(** One parser used on any history of templates. *)
Lemma Parse_history g fuel : forall history last,
  (mapM_ (fun ids f => (fst (Parse g fuel ids f), Ok tt)) history ;; Parse g fuel last) parser0
  = Parse g fuel last parser0.
Proof.
  induction history as [|ids history IH]; intros last; [reflexivity|].
  specialize (IH last). unfold bind in *. cbn [mapM_]. unfold bind. rewrite Parse_flags. exact IH.
Qed.

(** ** Consequences of the grammar *)
Lemma lowers_parses g :
  (forall sk ids ns sk', parses g sk ids ns sk' -> sk = false -> sk' = false) /\
  (forall sk ids n rest sk', reads g sk ids n rest sk' -> sk = false -> sk' = false) /\
  (forall sk ids n rest sk', bitmap_reads g sk ids n rest sk' -> sk = false -> sk' = false).
Proof. apply parses_mut; intros; tauto. Qed.
Lemma low_p g ids ns sk' : parses g false ids ns sk' -> sk' = false.
Proof. intros H. exact (proj1 (lowers_parses g) _ _ _ _ H eq_refl). Qed.
Lemma low_r g ids n rest sk' : reads g false ids n rest sk' -> sk' = false.
Proof. intros H. exact (proj1 (proj2 (lowers_parses g)) _ _ _ _ _ H eq_refl). Qed.
Lemma low_b g ids n rest sk' : bitmap_reads g false ids n rest sk' -> sk' = false.
Proof. intros H. exact (proj2 (proj2 (lowers_parses g)) _ _ _ _ _ H eq_refl). Qed.
Lemma parsed_iff g ids ns : parsed g ids ns <-> parses g false ids ns false.
Proof.
  split.
  - intros [k H]. destruct (Parse g k ids parser0) as [f r] eqn:E. cbn [snd] in H. subst r.
    destruct (proj1 (Parse_grammar g ids (root ns)) (ex_intro _ k (ex_intro _ f E))) as (ns' & sk' & H & Heq).
    injection Heq as ->. assert (sk' = false) as -> by eauto using low_p, low_r, low_b. exact H.
  - intros H. destruct (proj2 (Parse_grammar g ids (root ns))) as (k & f & E); [eauto|].
    exists k. now rewrite E.
Qed.

(** C25 *)
Lemma takes_exact n block rest : Z.of_nat (length block) = n -> takes n (block ++ rest) block rest.
Proof. intros H. left. auto. Qed.
Lemma takes_inj n ids b r b' r' : 0 <= n -> takes n ids b r -> takes n ids b' r' -> b = b' /\ r = r'.
Proof. intros Hn H H'. apply takes_fun in H, H'; auto. rewrite H in H'. injection H' as -> ->. auto. Qed.
Lemma reads_rep g sk id ids n rest sk' : id_F id = 1 -> reads g sk (id :: ids) n rest sk' ->
  exists d block ms, Lookup g id = Ok d /\
    takes (if id_Y id =? 0 then id_X id + 1 else id_X id) ids block rest /\ parses g sk block ms sk' /\
    n = ANode (if id_Y id =? 0 then KDelayed else KFixed) (Some d) ms None [].
Proof.
  intros HF H. inversion H; subst; try congruence.
  - assert (id_Y id =? 0 = false) as -> by lia. eauto 10.
  - assert (id_Y id =? 0 = true) as -> by lia. eauto 10.
  - cbn [hd] in H0. destruct H0; subst; discriminate.
Qed.
Lemma parsed_replication g id block rest tree : id_F id = 1 ->
  Z.of_nat (length block) = (if id_Y id =? 0 then id_X id + 1 else id_X id) ->
  parsed g (id :: block ++ rest) tree <->
  exists d ms ns, Lookup g id = Ok d /\ parsed g block ms /\ parsed g rest ns /\
    tree = ANode (if id_Y id =? 0 then KDelayed else KFixed) (Some d) ms None [] :: ns.
Proof.
  intros HF Hl. rewrite parsed_iff. split.
  - intros H. inversion H; subst. apply (reads_rep _ _ _ _ _ _ _ HF) in H0.
    destruct H0 as (d & b & ms & HL & Ht & Hb & ->). pose proof (F1_X _ HF) as HX.
    assert (Hn : 0 <= if id_Y id =? 0 then id_X id + 1 else id_X id) by (destruct (id_Y id =? 0); lia).
    destruct (takes_inj _ _ _ _ block rest Hn Ht (takes_exact _ _ _ Hl)) as [-> ->].
    assert (sk1 = false) as -> by eauto using low_p, low_r, low_b.
    exists d, ms, ns. rewrite !parsed_iff. auto.
  - intros (d & ms & ns & HL & Hb & Hr & ->). rewrite parsed_iff in Hb, Hr. econstructor; [|exact Hr].
    destruct (Z.eqb_spec (id_Y id) 0).
    + eapply ItDelayed; eauto using takes_exact.
    + eapply ItFixed; eauto using takes_exact.
Qed.

(** C24 *)
Lemma padded_refl l : zero_padded l l.
Proof. induction l; constructor; auto. Qed.
Lemma padded_app a b c d : zero_padded a b -> zero_padded c d -> zero_padded (a ++ c) (b ++ d).
Proof. induction 1; intros H'; cbn [app]; try constructor; auto. Qed.
Lemma padded_trans a b : zero_padded a b -> forall c, zero_padded b c -> zero_padded a c.
Proof.
  induction 1 as [|i ids l H IH|ids l H IH]; intros c Hc; [exact Hc|..].
  - remember (i :: l) as x eqn:E. revert i l E H IH. induction Hc as [|j x c Hc IHc|x c Hc IHc]; intros i l E H IH.
    + discriminate.
    + injection E as -> ->. constructor. auto.
    + constructor. eapply IHc; eauto.
  - apply IH. clear H IH. remember (0 :: l) as x eqn:E. revert l E. induction Hc as [|j x c Hc IHc|x c Hc IHc]; intros l E.
    + discriminate.
    + injection E as -> ->. constructor. exact Hc.
    + constructor. auto.
Qed.
Lemma padded_zeros l n : zero_padded l (l ++ repeat 0 n).
Proof.
  induction l; cbn [app]; [|constructor; auto]. induction n; cbn [repeat]; constructor; auto.
Qed.
Lemma takes_padded n ids block rest ds : takes n ids block rest -> zero_padded block ds -> zero_padded ids (ds ++ rest).
Proof.
  intros [[-> _]|(_ & -> & ->)] H.
  - apply padded_app; [exact H|apply padded_refl].
  - rewrite app_nil_r. eapply padded_trans; [apply padded_zeros|exact H].
Qed.
Lemma doc_element d : doc (element_node d) = [d_id d].
Proof. unfold element_node. destruct (d_id d =? 31021); reflexivity. Qed.
Lemma not_seq_doc k (d : option descriptor) ms bm attrs : k <> KSequence ->
  doc (ANode k d ms bm attrs) = match d with Some d => [d_id d] | None => [] end
      ++ match bm with Some b => doc b | None => [] end ++ flat_map doc attrs ++ flat_map doc ms.
Proof. destruct k; try reflexivity. congruence. Qed.
Lemma standalone_not_seq id k : standalone id = Some k -> k <> KSequence.
Proof.
  unfold standalone. cbv zeta.
  repeat match goal with |- context [if ?c then _ else _] => destruct c; [intros [= <-]; discriminate|] end. discriminate.
Qed.
Lemma operands_not_seq id k n : with_operands id = Some (k, n) -> k <> KSequence.
Proof.
  unfold with_operands. cbv zeta.
  repeat match goal with |- context [if ?c then _ else _] => destruct c; [intros [= <- <-]; discriminate|] end. discriminate.
Qed.
Lemma grammar_padded g :
  (forall sk ids ns sk', parses g sk ids ns sk' -> zero_padded ids (flat_map doc ns)) /\
  (forall sk ids n rest sk', reads g sk ids n rest sk' -> zero_padded ids (doc n ++ rest)) /\
  (forall sk ids n rest sk', bitmap_reads g sk ids n rest sk' -> zero_padded ids (doc n ++ rest)).
Proof.
  apply parses_mut.
  - constructor.
  - intros sk ids n rest sk1 ns sk2 _ IH1 _ IH2. cbn [flat_map].
    eapply padded_trans; [exact IH1|]. apply padded_app; [apply padded_refl|exact IH2].
  - intros id d rest HF HL. rewrite doc_element, (Lookup_id _ _ _ HL). apply padded_refl.
  - intros id rest HF. rewrite doc_element. apply padded_refl.
  - intros sk id d def ms rest sk' HF HL _ _ _. cbn [doc app]. rewrite (Lookup_id _ _ _ HL). apply padded_refl.
  - intros sk id d ids block rest ms sk' HF HY HL Ht _ IH. cbn [doc app]. rewrite (Lookup_id _ _ _ HL).
    constructor. eapply takes_padded; eauto.
  - intros sk id d ids block rest ms sk' HF HY HL Ht _ IH. cbn [doc app]. rewrite (Lookup_id _ _ _ HL).
    constructor. eapply takes_padded; eauto.
  - intros sk id d k rest HF Hs HL. rewrite (not_seq_doc k) by (eapply standalone_not_seq; eauto).
    rewrite (Lookup_id _ _ _ HL). cbn [app flat_map]. apply padded_refl.
  - intros sk id d k n ids block rest ms sk' HF Hs HL Ht _ IH. rewrite (not_seq_doc k) by (eapply operands_not_seq; eauto).
    rewrite (Lookup_id _ _ _ HL). cbn [app flat_map]. constructor. eapply takes_padded; eauto.
  - intros sk id d ids block rest ms sk' HF _ HL Ht _ IH. cbn [doc app]. rewrite (Lookup_id _ _ _ HL).
    constructor. eapply takes_padded; eauto.
  - intros sk id d ids block rest ms sk' HF _ _ HL (-> & _) _ IH. cbn [doc app]. rewrite (Lookup_id _ _ _ HL).
    constructor. apply padded_app; [exact IH|apply padded_refl].
  - auto.
  - intros sk id d mem ids bm rest1 attrs rest2 mids rest anodes ms sk1 sk2 sk3 HF Ha HL _ IHb (-> & _) _ IHa (-> & _) _ IHm.
    cbn [doc app]. rewrite (Lookup_id _ _ _ HL). constructor.
    eapply padded_trans; [exact IHb|]. rewrite <- !app_assoc.
    apply padded_app; [apply padded_refl|]. apply padded_app; [exact IHa|].
    apply padded_app; [exact IHm|apply padded_refl].
  - intros sk d rest HL. cbn [doc app flat_map]. rewrite (Lookup_id _ _ _ HL). apply padded_refl.
  - intros sk d ids block rest ms sk' HL (-> & _) _ IH. cbn [doc app]. rewrite (Lookup_id _ _ _ HL).
    constructor. apply padded_app; [exact IH|apply padded_refl].
  - intros sk id d ids block rest ms sk' _ HL (-> & _) _ IH. cbn [doc app].
    apply padded_app; [exact IH|apply padded_refl].
Qed.

(** Exactness: no identifier is made up when identifier 0 is unknown and nothing is local. *)
Lemma all_nodes_eq P k d ms bm attrs : all_nodes P (ANode k d ms bm attrs) <->
  P (ANode k d ms bm attrs) /\ Forall (all_nodes P) ms /\
  match bm with Some b => all_nodes P b | None => True end /\ Forall (all_nodes P) attrs.
Proof. cbn [all_nodes]. now rewrite !fold_and. Qed.
Lemma parses_no_zero g (H0 : forall d, Lookup g 0 <> Ok d) :
  (forall sk ids ns sk', parses g sk ids ns sk' -> sk = false -> Forall no_local ns ->
     flat_map doc ns = ids /\ Forall (fun i => i <> 0) ids) /\
  (forall sk ids n rest sk', reads g sk ids n rest sk' -> sk = false -> no_local n ->
     doc n ++ rest = ids /\ exists used, ids = used ++ rest /\ Forall (fun i => i <> 0) used) /\
  (forall sk ids n rest sk', bitmap_reads g sk ids n rest sk' -> sk = false -> no_local n ->
     doc n ++ rest = ids /\ exists used, ids = used ++ rest /\ Forall (fun i => i <> 0) used).
Proof.
  assert (Hnz : forall id d, Lookup g id = Ok d -> id <> 0) by (intros id d HL ->; exact (H0 _ HL)).
  assert (Ht : forall n ids block rest, takes n ids block rest -> Forall (fun i => i <> 0) block ->
            ids = block ++ rest).
  { intros n ids block rest [[-> _]|(Hl & -> & Hb)] Hz; [reflexivity|]. exfalso. subst block.
    apply Forall_app in Hz. destruct Hz as [_ Hz]. destruct (Z.to_nat n - length ids)%nat eqn:E; [lia|].
    cbn [repeat] in Hz. inversion Hz; congruence. }
  apply parses_mut.
  - auto.
  - intros sk ids n rest sk1 ns sk2 Hr IH1 Hp IH2 -> Hl. inversion Hl; subst.
    destruct (IH1 eq_refl H2) as (E1 & used & -> & Hu).
    assert (sk1 = false) as -> by eauto using low_p, low_r, low_b.
    destruct (IH2 eq_refl H3) as (E2 & Hr2). cbn [flat_map]. rewrite E2. split; [exact E1|].
    apply Forall_app. auto.
  - intros id d rest HF HL _ _. rewrite doc_element, (Lookup_id _ _ _ HL). split; [reflexivity|].
    exists [id]. split; [reflexivity|]. constructor; [eauto|constructor].
  - discriminate.
  - intros sk id d def ms rest sk' HF HL _ _ _ _ _. cbn [doc app]. rewrite (Lookup_id _ _ _ HL).
    split; [reflexivity|]. exists [id]. split; [reflexivity|]. constructor; [eauto|constructor].
  - intros sk id d ids block rest ms sk' HF HY HL Htk _ IH -> Hn. apply all_nodes_eq in Hn.
    destruct (IH eq_refl (proj1 (proj2 Hn))) as (E & Hz). cbn [doc app]. rewrite (Lookup_id _ _ _ HL), E.
    rewrite (Ht _ _ _ _ Htk Hz). split; [reflexivity|]. exists (id :: block). split; [reflexivity|].
    constructor; eauto.
  - intros sk id d ids block rest ms sk' HF HY HL Htk _ IH -> Hn. apply all_nodes_eq in Hn.
    destruct (IH eq_refl (proj1 (proj2 Hn))) as (E & Hz). cbn [doc app]. rewrite (Lookup_id _ _ _ HL), E.
    rewrite (Ht _ _ _ _ Htk Hz). split; [reflexivity|]. exists (id :: block). split; [reflexivity|].
    constructor; eauto.
  - intros sk id d k rest HF Hs HL _ _. rewrite (not_seq_doc k) by (eapply standalone_not_seq; eauto).
    rewrite (Lookup_id _ _ _ HL). cbn [app flat_map]. split; [reflexivity|]. exists [id].
    split; [reflexivity|]. constructor; [eauto|constructor].
  - intros sk id d k n ids block rest ms sk' HF Hs HL Htk _ IH -> Hn. apply all_nodes_eq in Hn.
    destruct (IH eq_refl (proj1 (proj2 Hn))) as (E & Hz). rewrite (not_seq_doc k) by (eapply operands_not_seq; eauto).
    cbn [doc app flat_map]. rewrite (Lookup_id _ _ _ HL), E.
    rewrite (Ht _ _ _ _ Htk Hz). split; [reflexivity|]. exists (id :: block). split; [reflexivity|].
    constructor; eauto.
  - intros sk id d ids block rest ms sk' HF _ HL Htk _ _ _ Hn. apply all_nodes_eq in Hn.
    destruct Hn as [Hn _]. now destruct Hn.
  - intros sk id d ids block rest ms sk' HF _ _ HL (-> & _) _ IH -> Hn. apply all_nodes_eq in Hn.
    destruct (IH eq_refl (proj1 (proj2 Hn))) as (E & Hz). cbn [doc app flat_map]. rewrite (Lookup_id _ _ _ HL), E.
    split; [reflexivity|]. exists (id :: block). split; [reflexivity|]. constructor; eauto.
  - auto.
  - intros sk id d mem ids bm rest1 attrs rest2 mids rest anodes ms sk1 sk2 sk3 HF Ha HL Hb IHb (-> & _) Hpa IHa (-> & _) Hpm IHm -> Hn.
    apply all_nodes_eq in Hn. destruct Hn as (_ & Hms & Hbm & Hat).
    destruct (IHb eq_refl Hbm) as (E & used & Eu & Hu).
    assert (sk1 = false) as -> by eauto using low_p, low_r, low_b.
    destruct (IHa eq_refl Hat) as (Ea & Hza).
    assert (sk2 = false) as -> by eauto using low_p, low_r, low_b.
    destruct (IHm eq_refl Hms) as (Em & Hzm).
    cbn [doc app]. rewrite (Lookup_id _ _ _ HL), Ea, Em. split.
    + rewrite <- !app_assoc. now rewrite E.
    + exists (id :: used ++ attrs ++ mids). split; [rewrite Eu; cbn [app]; now rewrite <- !app_assoc|].
      constructor; [eauto|]. rewrite !Forall_app. auto.
  - intros sk d rest HL _ _. cbn [doc app flat_map]. rewrite (Lookup_id _ _ _ HL).
    split; [reflexivity|]. exists [237000]. split; [reflexivity|]. constructor; [eauto|constructor].
  - intros sk d ids block rest ms sk' HL (-> & _) _ IH -> Hn. apply all_nodes_eq in Hn.
    destruct (IH eq_refl (proj1 (proj2 Hn))) as (E & Hz). cbn [doc app flat_map]. rewrite (Lookup_id _ _ _ HL), E.
    split; [reflexivity|]. exists (236000 :: block). split; [reflexivity|]. constructor; eauto.
  - intros sk id d ids block rest ms sk' _ HL (Eb & _) _ IH -> Hn. apply all_nodes_eq in Hn.
    destruct (IH eq_refl (proj1 (proj2 Hn))) as (E & Hz). cbn [doc app flat_map]. rewrite E.
    split; [now rewrite Eb|]. eauto.
Qed.
Lemma parsed_exact g ids ns : (forall d, Lookup g 0 <> Ok d) -> parsed g ids ns ->
  Forall no_local ns -> flat_map doc ns = ids.
Proof. intros H0 H Hl. apply parsed_iff in H. eapply parses_no_zero in H; eauto. tauto. Qed.

(** ** Every node: properties of all nodes of a parsed tree *)
Lemma grammar_nodes g (P : anode -> Prop) :
  (forall id d, id_F id = 0 -> Lookup g id = Ok d -> P (element_node d)) ->
  (forall id, id_F id = 0 -> P (element_node (local_element id))) ->
  (forall sk id d def ms sk', id_F id = 3 -> Lookup g id = Ok d -> d_entry d = ED def -> parses g sk def ms sk' ->
     P (ANode KSequence (Some d) ms None [])) ->
  (forall sk id d block ms sk', id_F id = 1 -> id_Y id <> 0 -> Lookup g id = Ok d -> Z.of_nat (length block) = id_X id ->
     parses g sk block ms sk' -> P (ANode KFixed (Some d) ms None [])) ->
  (forall sk id d block ms sk', id_F id = 1 -> id_Y id = 0 -> Lookup g id = Ok d -> Z.of_nat (length block) = id_X id + 1 ->
     parses g sk block ms sk' -> P (ANode KDelayed (Some d) ms None [])) ->
  (forall id d k, id_F id = 2 -> standalone id = Some k -> Lookup g id = Ok d -> P (ANode k (Some d) [] None [])) ->
  (forall sk id d k n block ms sk', id_F id = 2 -> with_operands id = Some (k, n) -> Lookup g id = Ok d ->
     Z.of_nat (length block) = n -> parses g sk block ms sk' -> P (ANode k (Some d) ms None [])) ->
  (forall id d block ms sk', id_F id = 2 -> id / 1000 = 206 -> Lookup g id = Ok d -> length block = 1%nat ->
     parses g true block ms sk' -> P (ANode KSkipLocal (Some d) ms None [])) ->
  (forall id d ms, id_F id = 2 -> id / 1000 = 203 -> Lookup g id = Ok d -> P (ANode KNewRefval (Some d) ms None [])) ->
  (forall id d mem ms bm attrs, id_F id = 2 -> assessment id = Some mem -> Lookup g id = Ok d ->
     P (ANode KAssessment (Some d) ms (Some bm) attrs)) ->
  (forall id d ms, id = 236000 \/ id = 237000 -> Lookup g id = Ok d -> P (ANode KBitmap (Some d) ms None [])) ->
  (forall ms, P (ANode KBitmap None ms None [])) ->
  (forall sk ids ns sk', parses g sk ids ns sk' -> Forall (all_nodes P) ns) /\
  (forall sk ids n rest sk', reads g sk ids n rest sk' -> all_nodes P n) /\
  (forall sk ids n rest sk', bitmap_reads g sk ids n rest sk' -> all_nodes P n).
Proof.
  intros HE HLo HS HFi HDe HSt HOp HSk HNr HAs HBm HAd.
  assert (Htk : forall n ids block rest, 0 <= n -> takes n ids block rest -> Z.of_nat (length block) = n).
  { intros n ids block rest Hn [[_ H]|(Hl & _ & ->)]; [exact H|]. rewrite app_length, repeat_length. lia. }
  assert (Hel : forall d, P (element_node d) -> all_nodes P (element_node d)).
  { intros d. unfold element_node. destruct (d_id d =? 31021); intros H; apply all_nodes_eq; auto. }
  apply parses_mut.
  - constructor.
  - constructor; auto.
  - eauto.
  - eauto.
  - intros. apply all_nodes_eq. repeat split; eauto.
  - intros sk id d ids block rest ms sk' HF HY HL Ht Hp IH. apply all_nodes_eq. pose proof (F1_X _ HF).
    repeat split; auto. eapply HFi; eauto. eapply Htk; eauto. lia.
  - intros sk id d ids block rest ms sk' HF HY HL Ht Hp IH. apply all_nodes_eq. pose proof (F1_X _ HF).
    repeat split; auto. eapply HDe; eauto. eapply Htk; eauto. lia.
  - intros. apply all_nodes_eq. repeat split; eauto.
  - intros sk id d k n ids block rest ms sk' HF Hw HL Ht Hp IH. apply all_nodes_eq.
    repeat split; auto. eapply HOp; eauto. eapply Htk; eauto. pose proof (F2_range _ HF).
    unfold with_operands in Hw. cbv zeta in Hw. destruct (_ && _); [injection Hw as _ <-; lia|].
    destruct (_ =? 221); [injection Hw as _ <-; lia|discriminate].
  - intros sk id d ids block rest ms sk' HF Hw HL Ht Hp IH. apply all_nodes_eq. repeat split; auto. eapply HSk; eauto.
    apply Htk in Ht; lia.
  - intros. apply all_nodes_eq. repeat split; eauto.
  - auto.
  - intros. apply all_nodes_eq. repeat split; eauto.
  - intros. apply all_nodes_eq. repeat split; eauto.
  - intros. apply all_nodes_eq. repeat split; eauto.
  - intros. apply all_nodes_eq. repeat split; eauto.
Qed.
