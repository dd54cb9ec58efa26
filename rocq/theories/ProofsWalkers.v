(** Lemmas for C86: the goroutines of template walks. *)
From Verif Require Import ProofsTemplate.
From Verif Require Export SpecWalkers ModelWalkers.
From Coq Require Import Wellfounded.

Section W.
  Variable ins : bool.

  (** ** What remains to be sent *)
  Inductive yields : list instr -> list Z -> list event -> Prop :=
  | YNil : yields [] [] []
  | YSend e c cs es : yields c cs es -> yields (ISend e :: c) cs (e :: es)
  | YWalk n c cs es : yields (node_code ins n ++ c) cs es -> yields (IWalk n :: c) cs es
  | YAsk ms c v cs es : yields (replication_code v ms ++ c) cs es -> yields (IAsk ms :: c) (v :: cs) es.

  Lemma yields_app a : forall b cs es cs' es', yields a cs es -> yields b cs' es' ->
    yields (a ++ b) (cs ++ cs') (es ++ es').
  Proof.
    intros b cs es cs' es' H Hb.
    induction H as [|e c cs es H IH|n c cs es H IH|ms c v cs es H IH]; cbn [app].
    - exact Hb.
    - apply YSend. exact IH.
    - apply YWalk. rewrite app_assoc. exact IH.
    - apply YAsk. rewrite app_assoc. exact IH.
  Qed.
  Lemma yields_split k cs es : yields k cs es -> forall a b, k = a ++ b ->
    exists cs1 es1 cs2 es2, yields a cs1 es1 /\ yields b cs2 es2 /\ cs = cs1 ++ cs2 /\ es = es1 ++ es2.
  Proof.
    intros H. induction H as [|e c cs es H IH|n c cs es H IH|ms c v cs es H IH]; intros a b E.
    - symmetry in E. apply app_eq_nil in E as (-> & ->). exists [], [], [], []. repeat split; constructor.
    - destruct a as [|i a]; cbn [app] in E.
      + subst b. exists [], [], cs, (e :: es). repeat split; constructor; exact H.
      + injection E as <- E. destruct (IH _ _ E) as (cs1 & es1 & cs2 & es2 & H1 & H2 & -> & ->).
        exists cs1, (e :: es1), cs2, es2. repeat split; try assumption. apply YSend, H1.
    - destruct a as [|i a]; cbn [app] in E.
      + subst b. exists [], [], cs, es. repeat split; constructor; exact H.
      + injection E as <- E. subst c. destruct (IH (node_code ins n ++ a) b) as (cs1 & es1 & cs2 & es2 & H1 & H2 & -> & ->);
          [now rewrite app_assoc|].
        exists cs1, es1, cs2, es2. repeat split; try assumption. apply YWalk, H1.
    - destruct a as [|i a]; cbn [app] in E.
      + subst b. exists [], [], (v :: cs), es. repeat split; constructor; exact H.
      + injection E as <- E. subst c. destruct (IH (replication_code v ms ++ a) b) as (cs1 & es1 & cs2 & es2 & H1 & H2 & -> & ->);
          [now rewrite app_assoc|].
        exists (v :: cs1), es1, cs2, es2. repeat split; try assumption. apply YAsk, H1.
  Qed.

  Lemma yields_one e : yields [ISend e] [] [e].
  Proof. apply YSend, YNil. Qed.
  Lemma yields_one_inv e cs es : yields [ISend e] cs es -> cs = [] /\ es = [e].
  Proof. intros H. inversion H as [|? ? ? ? H'| |]; subst. inversion H'; subst. auto. Qed.

  Fixpoint copies (k : nat) (ms : list tnode) : list instr :=
    match k with
    | O => []
    | S k' => ISend (WE_BEGIN_BLOCK, None) :: map IWalk ms ++ ISend (WE_END_BLOCK, None) :: copies k' ms
    end.
  Lemma replication_copies v ms :
    replication_code v ms = ISend (WE_BEGIN_REPLICATION, None) :: copies (Z.to_nat v) ms
                              ++ [ISend (WE_END_REPLICATION, None)].
  Proof.
    unfold replication_code. f_equal. f_equal.
    induction (Z.to_nat v) as [|k IH]; [reflexivity|]. cbn [repeat concat copies].
    rewrite <- IH. cbn [app]. rewrite <- app_assoc. reflexivity.
  Qed.

  Lemma kind_cases d (H : 0 <= id_F (d_id d) <= 3) :
    id_F (d_id d) = 0 \/ id_F (d_id d) = 1 \/ id_F (d_id d) = 2 \/ id_F (d_id d) = 3.
  Proof. lia. Qed.
  Lemma node_code_cases d f ms :
    node_code ins (TNode d f ms) =
    match id_F (d_id d) with
    | 0 => [ISend (WE_ELEMENT_DESCRIPTOR, Some d)]
    | 1 => ISend (WE_REPLICATION_DESCRIPTOR, Some d)
             :: match f with
                | Some fd => ISend (WE_FACTOR, Some fd)
                               :: (if ins then [IAsk ms] else replication_code 1 ms)
                | None => replication_code (if ins then id_Y (d_id d) else 1) ms
                end
    | 2 => [ISend (WE_OPERATOR_DESCRIPTOR, Some d)]
    | 3 => [ISend (WE_SEQUENCE_DESCRIPTOR, Some d); ISend (WE_BEGIN_SEQUENCE, None)]
             ++ map IWalk ms ++ [ISend (WE_END_SEQUENCE, None)]
    | _ => []
    end.
  Proof.
    unfold node_code, F_ELEMENT, F_REPLICATION, F_OPERATOR, F_SEQUENCE.
    destruct (id_F (d_id d)) as [|[[p|p|]|[p|p|]|]|p]; reflexivity.
  Qed.

  (** ** The code sends what the grammar says *)
  Lemma walks_yields :
    (forall counts n evs, walks ins counts n evs -> yields (node_code ins n) counts evs) /\
    (forall counts ns evs, walks_list ins counts ns evs -> yields (map IWalk ns) counts evs) /\
    (forall k counts ms evs, walks_blocks ins k counts ms evs -> yields (copies k ms) counts evs).
  Proof.
    apply walks_mut.
    - intros d f ms E. rewrite node_code_cases, E. apply yields_one.
    - intros d f ms E. rewrite node_code_cases, E. apply yields_one.
    - intros d f ms counts evs E _ IH. rewrite node_code_cases, E. cbn [app]. do 2 apply YSend.
      rewrite <- (app_nil_r counts). apply yields_app; [exact IH|apply yields_one].
    - intros d ms counts evs E _ IH. rewrite node_code_cases, E. apply YSend.
      rewrite replication_copies. cbn [app]. apply YSend.
      rewrite <- (app_nil_r counts). apply yields_app; [|apply yields_one].
      destruct ins; exact IH.
    - intros d fd ms n counts evs E _ IH. rewrite node_code_cases, E. cbn [app].
      do 2 apply YSend. destruct ins.
      + cbn [app]. apply YAsk. rewrite app_nil_r, replication_copies. apply YSend.
        rewrite <- (app_nil_r counts). apply yields_app; [exact IH|apply yields_one].
      + rewrite replication_copies. apply YSend. cbn [app].
        rewrite <- (app_nil_r counts). apply yields_app; [exact IH|apply yields_one].
    - apply YNil.
    - intros n ns c cs e es _ IH1 _ IH2. cbn [map]. apply YWalk. apply yields_app; assumption.
    - intros ms. apply YNil.
    - intros k ms c cs e es _ IH1 _ IH2. cbn [copies app]. apply YSend. apply yields_app; [exact IH1|].
      apply YSend. exact IH2.
  Qed.

  Lemma known_members ms : fold_right (fun m P => known_kinds m /\ P) True ms <-> Forall known_kinds ms.
  Proof.
    induction ms as [|m ms IH]; cbn [fold_right].
    - split; [constructor|trivial].
    - rewrite IH. split; [intros (? & ?); constructor; assumption|intros H; inversion H; auto].
  Qed.
  Lemma yields_walk_members ms :
    Forall (fun n => forall cs es, yields (node_code ins n) cs es -> walks ins cs n es) ms ->
    forall cs es, yields (map IWalk ms) cs es -> walks_list ins cs ms es.
  Proof.
    induction 1 as [|n ms Hn _ IH]; intros cs es H.
    - inversion H; subst. constructor.
    - cbn [map] in H. inversion H as [| |? ? ? ? H'|]; subst.
      destruct (yields_split _ _ _ H' _ _ eq_refl) as (csA & esA & csB & esB & H1 & H2 & -> & ->).
      constructor; [apply Hn, H1|apply IH, H2].
  Qed.
  Lemma yields_walk_copies ms :
    (forall cs es, yields (map IWalk ms) cs es -> walks_list ins cs ms es) ->
    forall k cs es, yields (copies k ms) cs es -> walks_blocks ins k cs ms es.
  Proof.
    intros Hms k. induction k as [|k IH]; intros cs es H.
    - inversion H; subst. constructor.
    - cbn [copies] in H. inversion H as [|? ? ? ? H'| |]; subst.
      destruct (yields_split _ _ _ H' _ _ eq_refl) as (csA & esA & csB & esB & H1 & H2 & -> & ->).
      inversion H2 as [|? ? ? ? H3| |]; subst.
      apply (WbCons ins k ms csA csB esA); [apply Hms, H1|apply IH, H3].
  Qed.
  Lemma yields_walks n : known_kinds n ->
    forall cs es, yields (node_code ins n) cs es -> walks ins cs n es.
  Proof.
    induction n as [d f ms IH] using tnode_ind'. intros HK cs es H.
    cbn [known_kinds] in HK. destruct HK as (Hd & HK). apply known_members in HK.
    assert (Hms : forall cs es, yields (map IWalk ms) cs es -> walks_list ins cs ms es).
    { apply yields_walk_members. rewrite Forall_forall in *. intros n Hn. apply IH; [exact Hn|apply HK, Hn]. }
    assert (Hcopies := yields_walk_copies ms Hms).
    assert (Hrep : forall v cs es, yields (replication_code v ms) cs es ->
              exists es', es = (WE_BEGIN_REPLICATION, None) :: es' ++ [(WE_END_REPLICATION, None)] /\
                walks_blocks ins (Z.to_nat v) cs ms es').
    { intros v cs0 es0 H0. rewrite replication_copies in H0. inversion H0 as [|? ? ? ? H'| |]; subst.
      destruct (yields_split _ _ _ H' _ _ eq_refl) as (csA & esA & csB & esB & H1 & H2 & -> & ->).
      apply yields_one_inv in H2 as (-> & ->). rewrite app_nil_r. exists esA. split; [reflexivity|]. apply Hcopies, H1. }
    rewrite node_code_cases in H.
    destruct (kind_cases d Hd) as [E|[E|[E|E]]]; rewrite E in H.
    - apply yields_one_inv in H as (-> & ->). apply WkElement, E.
    - inversion H as [|? ? ? ? H'| |]; subst. destruct f as [fd|].
      + inversion H' as [|? ? ? ? H2| |]; subst. destruct ins eqn:Ei.
        * inversion H2 as [| | |? ? v ? ? H3]; subst. rewrite app_nil_r in H3. apply Hrep in H3 as (es' & -> & H3).
          match goal with |- walks true (v :: ?x) _ _ =>
            exact (WkDelayed true d fd ms v x es' E H3) end.
        * apply Hrep in H2 as (es' & -> & H3).
          exact (WkDelayed false d fd ms 0 cs es' E H3).
      + apply Hrep in H' as (es' & -> & H3). apply (WkFixed ins d ms cs es' E).
        destruct ins; exact H3.
    - apply yields_one_inv in H as (-> & ->). apply WkOperator, E.
    - cbn [app] in H. inversion H as [|? ? ? ? H'| |]; subst. inversion H' as [|? ? ? ? H2| |]; subst.
      destruct (yields_split _ _ _ H2 _ _ eq_refl) as (csA & esA & csB & esB & H3 & H4 & -> & ->).
      apply yields_one_inv in H4 as (-> & ->). rewrite app_nil_r. apply (WkSequence ins d f ms csA esA E). apply Hms, H3.
  Qed.

  Lemma template_yields members : Forall known_kinds members -> forall cs es,
    yields (template_code members) cs es <->
    exists evs, walks_list ins cs members evs /\ es = (WE_BEGIN_TEMPLATE, None) :: evs ++ [(WE_END_TEMPLATE, None)].
  Proof.
    intros HK cs es. unfold template_code. split.
    - intros H. inversion H as [|? ? ? ? H'| |]; subst.
      destruct (yields_split _ _ _ H' _ _ eq_refl) as (csA & esA & csB & esB & H3 & H4 & -> & ->).
      apply yields_one_inv in H4 as (-> & ->). rewrite app_nil_r. exists esA. split; [|reflexivity].
      apply yields_walk_members; [|exact H3]. rewrite Forall_forall in *. intros n Hn. apply yields_walks, HK, Hn.
    - intros (evs & H & ->). apply YSend. rewrite <- (app_nil_r cs). apply yields_app; [|apply yields_one].
      apply (proj1 (proj2 walks_yields)), H.
  Qed.

  (** ** States *)
  Definition held (w : walker) : list event := match w with Live (Some e) _ => [e] | _ => [] end.
  Definition helds (s : list walker) : list event := flat_map held s.
  Definition code (w : walker) : list instr := match w with Live _ c => c | Ended => [] end.
  Fixpoint kont (s : list walker) : list instr :=
    match s with [] => [] | w :: s' => kont s' ++ code w end.
  Lemma kont_app a b : kont (a ++ b) = kont b ++ kont a.
  Proof. induction a as [|w a IH]; cbn [app kont]; [now rewrite app_nil_r|]. now rewrite IH, app_assoc. Qed.
  Lemma helds_app a b : helds (a ++ b) = helds a ++ helds b.
  Proof. apply flat_map_app. Qed.

  Definition future (s : list walker) (cs : list Z) (es : list event) : Prop :=
    exists es', es = helds s ++ es' /\ yields (kont s) cs es'.

  Ltac fut := unfold helds; rewrite ?kont_app, ?flat_map_app; cbn [kont code held flat_map app]; rewrite ?app_nil_r.

  Lemma future_internal s s' : step ins s Internal s' -> forall cs es, future s cs es <-> future s' cs es.
  Proof.
    intros H cs es. unfold future. inversion H; subst; fut.
    - split.
      + intros (es' & -> & Hy). inversion Hy; subst. eexists. split; [|eassumption]. now rewrite <- app_assoc.
      + intros (es' & -> & Hy). exists (e :: es'). split; [now rewrite <- app_assoc|]. apply YSend, Hy.
    - rewrite <- app_assoc. split; intros (es' & E & Hy); exists es'; (split; [exact E|]).
      + inversion Hy; subst. assumption.
      + apply YWalk, Hy.
    - rewrite <- ?app_assoc. reflexivity.
    - reflexivity.
    - reflexivity.
  Qed.
  Lemma future_receive s e s' : step ins s (Receive e) s' -> forall cs es,
    future s cs es <-> exists es', es = e :: es' /\ future s' cs es'.
  Proof.
    intros H cs es. unfold future. inversion H; subst. fut. split.
    - intros (es' & -> & Hy). eexists. split; [reflexivity|]. exists es'. auto.
    - intros (es'' & -> & es' & -> & Hy). exists es'. auto.
  Qed.
  Lemma future_supply s v s' : step ins s (Supply v) s' -> forall cs es,
    future s (v :: cs) es <-> future s' cs es.
  Proof.
    intros H cs es. unfold future. inversion H; subst. fut. rewrite <- app_assoc.
    split; intros (es' & E & Hy); exists es'; (split; [exact E|]).
    - inversion Hy; subst. assumption.
    - apply YAsk, Hy.
  Qed.
  Lemma future_steps s tr s' : steps ins s tr s' -> forall cs es,
    future s' cs es -> future s (sent tr ++ cs) (received tr ++ es).
  Proof.
    induction 1 as [s|s a s1 tr s2 H _ IH]; intros cs es Hf; [exact Hf|].
    specialize (IH _ _ Hf). destruct a as [|e|v]; cbn [sent received flat_map app].
    - apply (future_internal _ _ H), IH.
    - apply (future_receive _ _ _ H). eexists. split; [reflexivity|exact IH].
    - apply (future_supply _ _ _ H), IH.
  Qed.

  (** ** Every state has a future *)
  Lemma can_yield : forall k, exists cs es, yields k cs es.
  Proof.
    assert (Hn : forall n, exists cs es, yields (node_code ins n) cs es).
    { intros n. induction n as [d f ms IH] using tnode_ind'.
      assert (Hms : exists cs es, yields (map IWalk ms) cs es).
      { induction IH as [|n ms (cs & es & Hn) _ (cs' & es' & IH)]; [do 2 eexists; apply YNil|].
        cbn [map]. do 2 eexists. apply YWalk. apply yields_app; [exact Hn|exact IH]. }
      assert (Hrep : forall v, exists cs es, yields (replication_code v ms) cs es).
      { intros v. rewrite replication_copies.
        assert (Hc : exists cs es, yields (copies (Z.to_nat v) ms) cs es).
        { destruct Hms as (cs & es & Hms). induction (Z.to_nat v) as [|k (cs' & es' & IHk)]; [do 2 eexists; apply YNil|].
          cbn [copies]. do 2 eexists. apply YSend. apply yields_app; [exact Hms|]. apply YSend, IHk. }
        destruct Hc as (cs & es & Hc). do 2 eexists. apply YSend. apply yields_app; [exact Hc|apply yields_one]. }
      rewrite node_code_cases.
      destruct (id_F (d_id d)) as [|[[p|p|]|[p|p|]|]|p]; try (do 2 eexists; first [apply YNil | apply yields_one]).
      - destruct Hms as (cs & es & Hms). cbn [app]. do 2 eexists. do 2 apply YSend. apply yields_app; [exact Hms|apply yields_one].
      - destruct f as [fd|].
        + destruct ins.
          * destruct (Hrep 0) as (cs & es & Hr). do 2 eexists. do 2 apply YSend. apply YAsk. rewrite app_nil_r. exact Hr.
          * destruct (Hrep 1) as (cs & es & Hr). do 2 eexists. do 2 apply YSend. exact Hr.
        + match goal with |- context [replication_code ?v ms] => destruct (Hrep v) as (cs & es & Hr) end.
          do 2 eexists. apply YSend. exact Hr. }
    assert (Hm : forall ms, exists cs es, yields (map IWalk ms) cs es).
    { intros ms. induction ms as [|n ms (cs' & es' & IH)]; [do 2 eexists; apply YNil|].
      destruct (Hn n) as (cs & es & H). cbn [map]. do 2 eexists. apply YWalk. apply yields_app; [exact H|exact IH]. }
    intros k. induction k as [|i k (cs & es & IH)]; [do 2 eexists; apply YNil|]. destruct i as [e|n|ms].
    - do 2 eexists. apply YSend, IH.
    - destruct (Hn n) as (cs' & es' & H). do 2 eexists. apply YWalk. apply yields_app; [exact H|exact IH].
    - do 2 eexists. apply (YAsk _ _ 0). rewrite replication_copies. cbn [Z.to_nat copies app]. do 2 apply YSend. exact IH.
  Qed.
  Lemma has_future s : exists cs es, future s cs es.
  Proof. destruct (can_yield (kont s)) as (cs & es & H). exists cs, (helds s ++ es). exists es. auto. Qed.

  Lemma start_future members cs es : future (walk_start members) cs es <-> yields (template_code members) cs es.
  Proof.
    unfold future, walk_start. cbn. split.
    - intros (es' & -> & H). exact H.
    - intros H. eexists. split; [reflexivity|exact H].
  Qed.
  Lemma over_future cs es : future [Ended] cs es <-> cs = [] /\ es = [].
  Proof.
    unfold future. cbn. split.
    - intros (es' & -> & H). inversion H; subst. auto.
    - intros (-> & ->). eexists. split; [reflexivity|constructor].
  Qed.

  (** ** The shape of states *)
  Inductive chain : list walker -> Prop :=
  | ChLast w : chain [w]
  | ChCons h c s : chain s -> chain (Live h c :: s).
  Lemma chain_app pre w s : chain (pre ++ w :: s) -> chain (w :: s) /\ (forall s', chain s' -> chain (pre ++ s')).
  Proof.
    induction pre as [|x pre IH]; cbn [app]; intros H; [split; [exact H|trivial]|].
    inversion H as [y Hy|h c s0 Hs Hy].
    - destruct pre; discriminate.
    - subst. apply IH in Hs as (Hs & Hpre). split; [exact Hs|]. intros s' H'. constructor. apply Hpre, H'.
  Qed.
  Lemma chain_step s a s' : step ins s a s' -> chain s -> chain s'.
  Proof.
    intros H Hc.
    assert (Hstart : forall pre w post, chain (pre ++ w :: post) -> forall s', chain s' -> chain (pre ++ s'))
      by (intros pre w post Hp; apply (chain_app _ _ _ Hp)).
    inversion H; subst;
      try (solve [apply (Hstart _ _ _ Hc); repeat constructor]).
    - apply (Hstart _ _ _ Hc). apply chain_app in Hc as (Hc & _). constructor. inversion Hc as [|? ? ? Hp]; subst.
      inversion Hp; subst; [apply ChLast|apply ChCons; assumption].
    - inversion Hc; subst; [constructor|]. constructor; assumption.
  Qed.

  (** ** Somebody can always do something *)
  Lemma progress s : chain s ->
    over s \/ (exists s', step ins s Internal s') \/ (exists e s', step ins s (Receive e) s') \/
    (helds s = [] /\ (exists ms c, kont s = IAsk ms :: c) /\ forall v, exists s', step ins s (Supply v) s').
  Proof.
    intros Hc.
    assert (G : over s \/ (exists pre h c s', s = Live h c :: s' /\ h <> None /\ pre = @nil walker) \/
      (exists s', step ins s Internal s') \/
      (helds s = [] /\ (exists ms c, kont s = IAsk ms :: c) /\ forall v, exists s', step ins s (Supply v) s')).
    { induction Hc as [w|h c s Hs IH].
      - destruct w as [[e|] c|]; [right; left; exists [], (Some e), c, []; repeat split; discriminate| |left; reflexivity].
        right. right. destruct c as [|[e|n|ms] c].
        + left. eexists. apply (StEnd ins []).
        + left. eexists. apply (StSend ins []).
        + left. eexists. apply (StGo ins []).
        + right. repeat split; [exists ms, c; reflexivity|]. intros v. eexists. apply (StAsk ins []).
      - destruct h as [e|]; [right; left; exists [], (Some e), c, s; repeat split; discriminate|].
        right. right.
        destruct IH as [E|[(pre & h & c' & s' & -> & Hh & _)|[(s' & Hst)|(Hh & (ms & k & Hk) & Hst)]]].
        + red in E. subst s. left. eexists. apply (StNotice ins []).
        + destruct h as [e|]; [|contradiction]. left. eexists. apply (StPass ins []).
        + assert (Hcons : forall x y, step ins x Internal y -> exists y', step ins (Live None c :: x) Internal y').
          { intros x y Hxy. inversion Hxy; subst; eexists; rewrite app_comm_cons;
              first [apply StSend | apply StGo | apply StPass | apply StEnd | apply StNotice]. }
          left. apply (Hcons _ _ Hst).
        + right. cbn [helds flat_map held app kont code]. fold (helds s). split; [exact Hh|]. split.
          * exists ms, (k ++ c). now rewrite Hk.
          * intros v. destruct (Hst v) as (s' & Hv). inversion Hv; subst. eexists. rewrite app_comm_cons. apply StAsk. }
    destruct G as [H|[(pre & h & c & s' & -> & Hh & _)|[H|H]]]; auto.
    destruct h as [e|]; [|contradiction]. right. right. left. exists e. eexists. apply StOut.
  Qed.

  (** ** Every execution ends *)
  Inductive kstep : list instr -> list instr -> Prop :=
  | KSend e c : kstep c (ISend e :: c)
  | KWalk n c : kstep (node_code ins n ++ c) (IWalk n :: c)
  | KAsk ms v c : kstep (replication_code v ms ++ c) (IAsk ms :: c).
  Definition safe_prefix (a : list instr) : Prop := forall k, Acc kstep k -> Acc kstep (a ++ k).
  Lemma safe_nil : safe_prefix [].
  Proof. intros k H. exact H. Qed.
  Lemma safe_app a b : safe_prefix a -> safe_prefix b -> safe_prefix (a ++ b).
  Proof. intros Ha Hb k Hk. rewrite <- app_assoc. apply Ha, Hb, Hk. Qed.
  Lemma safe_send e a : safe_prefix a -> safe_prefix (ISend e :: a).
  Proof. intros Ha k Hk. constructor. intros y Hy. inversion Hy; subst. apply Ha, Hk. Qed.
  Lemma safe_walk n a : safe_prefix (node_code ins n) -> safe_prefix a -> safe_prefix (IWalk n :: a).
  Proof. intros Hn Ha k Hk. constructor. intros y Hy. inversion Hy; subst. apply Hn, Ha, Hk. Qed.
  Lemma safe_ask ms a : (forall v, safe_prefix (replication_code v ms)) -> safe_prefix a -> safe_prefix (IAsk ms :: a).
  Proof. intros Hn Ha k Hk. constructor. intros y Hy. inversion Hy; subst. apply Hn, Ha, Hk. Qed.
  Lemma safe_members ms : Forall (fun n => safe_prefix (node_code ins n)) ms -> safe_prefix (map IWalk ms).
  Proof. induction 1; cbn [map]; [apply safe_nil|apply safe_walk; assumption]. Qed.
  Lemma safe_replication v ms : safe_prefix (map IWalk ms) -> safe_prefix (replication_code v ms).
  Proof.
    intros H. rewrite replication_copies. apply safe_send, safe_app; [|apply safe_send, safe_nil].
    induction (Z.to_nat v) as [|k IH]; [apply safe_nil|]. cbn [copies]. apply safe_send, safe_app; [exact H|]. apply safe_send, IH.
  Qed.
  Lemma safe_node n : safe_prefix (node_code ins n).
  Proof.
    induction n as [d f ms IH] using tnode_ind'. apply safe_members in IH. rewrite node_code_cases.
    assert (Hr := fun v => safe_replication v ms IH).
    destruct (id_F (d_id d)) as [|[[p|p|]|[p|p|]|]|p];
      try first [apply safe_nil | apply safe_send, safe_nil].
    - cbn [app]. do 2 apply safe_send. apply safe_app; [exact IH|apply safe_send, safe_nil].
    - apply safe_send. destruct f as [fd|]; [|apply Hr]. apply safe_send. destruct ins; [|apply Hr].
      apply safe_ask; [exact Hr|apply safe_nil].
  Qed.
  Lemma kstep_wf : well_founded kstep.
  Proof.
    intros k. rewrite <- (app_nil_r k). assert (H : safe_prefix k); [|apply H; constructor; intros y Hy; inversion Hy].
    induction k as [|[e|n|ms] k IH]; [apply safe_nil|apply safe_send, IH|apply safe_walk; [apply safe_node|exact IH]|].
    apply safe_ask; [|exact IH]. intros v. apply safe_replication, safe_members.
    induction ms; constructor; [apply safe_node|assumption].
  Qed.

  Fixpoint rest_work (i : nat) (s : list walker) : nat :=
    match s with
    | [] => 0
    | Ended :: s' => 1 + rest_work (S i) s'
    | Live None _ :: s' => 2 + rest_work (S i) s'
    | Live (Some _) _ :: s' => 3 + i + rest_work (S i) s'
    end%nat.
  Lemma rest_work_app a : forall i b, rest_work i (a ++ b) = (rest_work i a + rest_work (length a + i) b)%nat.
  Proof.
    induction a as [|w a IH]; intros i b; [reflexivity|]. cbn [app length].
    destruct w as [[e|] c|]; cbn [rest_work]; rewrite IH; replace (length a + S i)%nat with (S (length a) + i)%nat by lia; cbn [plus]; lia.
  Qed.
  Lemma step_decreases s a s' : step ins s a s' ->
    kstep (kont s') (kont s) \/ (kont s' = kont s /\ (rest_work 0 s' < rest_work 0 s)%nat).
  Proof.
    intros H. inversion H; subst; rewrite ?kont_app; cbn [kont code app]; rewrite ?app_nil_r, <- ?app_assoc.
    - left. apply KSend.
    - left. rewrite <- ?app_assoc. apply KWalk.
    - left. apply KAsk.
    - right. split; [reflexivity|]. rewrite !rest_work_app. cbn [rest_work]. lia.
    - right. split; [reflexivity|]. rewrite !rest_work_app. cbn [rest_work]. lia.
    - right. split; [reflexivity|]. rewrite !rest_work_app. cbn [rest_work]. lia.
    - right. split; [reflexivity|]. cbn [rest_work]. lia.
  Qed.
  Lemma step_wf : well_founded (fun s' s => exists a, step ins s a s').
  Proof.
    assert (G : forall k, Acc kstep k -> forall m s, kont s = k -> (rest_work 0 s < m)%nat ->
              Acc (fun s' s => exists a, step ins s a s') s).
    { induction 1 as [k _ IHk]. induction m as [|m IHm]; intros s Ek Hm; [lia|].
      constructor. intros s' (a & Hs). apply step_decreases in Hs as [Hs|(Es & Hs)].
      - rewrite Ek in Hs. apply (IHk _ Hs (S (rest_work 0 s')) s' eq_refl). lia.
      - apply IHm; [congruence|lia]. }
    intros s. apply (G (kont s) (kstep_wf _) (S (rest_work 0 s)) s eq_refl). lia.
  Qed.

  (** ** Every walk of the grammar can be had *)
  Lemma steps_chain s tr s' : steps ins s tr s' -> chain s -> chain s'.
  Proof. induction 1 as [|s a s1 tr s2 H _ IH]; [trivial|]. intros Hc. apply IH, (chain_step _ _ _ H Hc). Qed.
  Lemma run_to_end : forall s, chain s -> forall cs es, future s cs es ->
    exists tr, steps ins s tr [Ended] /\ sent tr = cs /\ received tr = es.
  Proof.
    intros s. induction s as [s IH] using (well_founded_induction step_wf). intros Hc cs es Hf.
    destruct (progress s Hc) as [E|[(s' & Hs)|[(e & s' & Hs)|(_ & (ms & c & Hk) & Hs)]]].
    - red in E. subst s. apply over_future in Hf as (-> & ->). exists []. repeat split. constructor.
    - destruct (IH s' (ex_intro _ _ Hs) (chain_step _ _ _ Hs Hc) cs es) as (tr & H & H1 & H2);
        [apply (future_internal _ _ Hs), Hf|].
      exists (Internal :: tr). repeat split; try assumption. econstructor; eassumption.
    - destruct (proj1 (future_receive _ _ _ Hs _ _) Hf) as (es' & Ees & Hf'). clear Hf. subst es. rename Hf' into Hf.
      destruct (IH s' (ex_intro _ _ Hs) (chain_step _ _ _ Hs Hc) cs es') as (tr & H & H1 & H2); [exact Hf|].
      exists (Receive e :: tr). split; [econstructor; eassumption|]. cbn [sent received flat_map app]. unfold sent, received in *. now subst.
    - assert (exists v cs', cs = v :: cs') as (v & cs' & ->).
      { destruct Hf as (es' & _ & Hy). rewrite Hk in Hy. inversion Hy; subst. eauto. }
      destruct (Hs v) as (s' & Hv).
      destruct (IH s' (ex_intro _ _ Hv) (chain_step _ _ _ Hv Hc) cs' es) as (tr & H & H1 & H2);
        [apply (future_supply _ _ _ Hv), Hf|].
      exists (Supply v :: tr). split; [econstructor; eassumption|]. cbn [sent received flat_map app]. unfold sent, received in *. now subst.
  Qed.

  (** ** Factors and counts *)
  Inductive paired : list instr -> Prop :=
  | PNil : paired []
  | PSend e c : is_factor e = false \/ ins = false -> paired c -> paired (ISend e :: c)
  | PFactor e ms c : ins = true -> is_factor e = true -> paired c -> paired (ISend e :: IAsk ms :: c)
  | PWalk n c : paired c -> paired (IWalk n :: c).
  Lemma paired_app a : paired a -> forall b, paired b -> paired (a ++ b).
  Proof.
    induction 1; intros b Hb; cbn [app]; [exact Hb|apply PSend|apply PFactor|apply PWalk]; auto.
  Qed.
  Lemma paired_members ms : paired (map IWalk ms).
  Proof. induction ms; cbn [map]; constructor; assumption. Qed.
  Lemma paired_replication v ms : paired (replication_code v ms).
  Proof.
    rewrite replication_copies. apply PSend; [left; reflexivity|]. apply paired_app; [|apply PSend; [left; reflexivity|constructor]].
    induction (Z.to_nat v) as [|k IH]; [constructor|]. cbn [copies]. apply PSend; [left; reflexivity|].
    apply paired_app; [apply paired_members|]. apply PSend; [left; reflexivity|exact IH].
  Qed.
  Lemma paired_node n : paired (node_code ins n).
  Proof.
    destruct n as [d f ms]. rewrite node_code_cases.
    destruct (id_F (d_id d)) as [|[[p|p|]|[p|p|]|]|p];
      try first [apply PNil | apply PSend; [left; reflexivity|apply PNil]].
    - cbn [app]. do 2 (apply PSend; [left; reflexivity|]). apply paired_app; [apply paired_members|].
      apply PSend; [left; reflexivity|constructor].
    - apply PSend; [left; reflexivity|]. destruct f as [fd|]; [|apply paired_replication].
      destruct ins eqn:E.
      + apply PFactor; [exact E|reflexivity|constructor].
      + apply PSend; [right; exact E|]. apply paired_replication.
  Qed.
  Lemma paired_template members : paired (template_code members).
  Proof.
    unfold template_code. apply PSend; [left; reflexivity|]. apply paired_app; [apply paired_members|].
    apply PSend; [left; reflexivity|constructor].
  Qed.

  Definition factors (es : list event) : nat := length (filter is_factor es).
  Lemma factors_app a b : factors (a ++ b) = (factors a + factors b)%nat.
  Proof. unfold factors. now rewrite filter_app, app_length. Qed.

  (** [em]: all events sent so far by the goroutine that is at work; [k]: counts received. *)
  Definition balanced (em : list event) (k : nat) (s : list walker) : Prop :=
    (paired (kont s) /\ (ins = true -> factors em = k)) \/
    (exists ms c l e, kont s = IAsk ms :: c /\ ins = true /\ paired c /\ em = l ++ [e] /\ is_factor e = true /\ factors em = S k).
  Lemma balanced_step s a s' : step ins s a s' -> forall rs k, balanced (rs ++ helds s) k s ->
    balanced ((rs ++ received [a]) ++ helds s') (k + length (sent [a]))%nat s'.
  Proof.
    intros H rs k Hb. unfold received, sent. cbn [flat_map]. rewrite <- app_assoc.
    inversion H; subst; cbn [app length]; rewrite ?Nat.add_0_r.
    - revert Hb. unfold balanced. fut. intros [(Hp & Hf)|(ms & c' & l & e' & Hk & _)]; [|discriminate].
      rewrite !app_assoc, factors_app. inversion Hp as [|? ? He Hp'|? ms ? Hi He Hp'|]; subst.
      + left. split; [exact Hp'|]. intros Hi. rewrite (Hf Hi). destruct He as [He|He]; [|congruence].
        unfold factors. cbn [filter]. rewrite He. cbn. lia.
      + right. exists ms. eexists. exists (rs ++ flat_map held pre), e. rewrite (Hf Hi). repeat split; auto.
        unfold factors. cbn [filter]. rewrite He. cbn. lia.
    - revert Hb. unfold balanced. fut. intros [(Hp & Hf)|(ms & c' & l & e' & Hk & _)]; [|discriminate].
      left. inversion Hp; subst. split; [|exact Hf]. rewrite <- app_assoc. apply paired_app; [apply paired_node|assumption].
    - revert Hb. unfold balanced. fut. intros [(Hp & Hf)|(ms' & c' & l & e' & Hk & Hi & Hp & E & He & Hf)]; [inversion Hp|].
      injection Hk as <- <-. left. rewrite <- app_assoc. split; [apply paired_app; [apply paired_replication|exact Hp]|].
      intros _. rewrite Hf. cbn. lia.
    - revert Hb. unfold balanced. fut. trivial.
    - revert Hb. unfold balanced. fut. trivial.
    - revert Hb. unfold balanced. fut. trivial.
    - revert Hb. unfold balanced. fut. trivial.
  Qed.
  Lemma received_app a b : received (a ++ b) = received a ++ received b.
  Proof. apply flat_map_app. Qed.
  Lemma sent_app a b : sent (a ++ b) = sent a ++ sent b.
  Proof. apply flat_map_app. Qed.
  Lemma balanced_steps s tr s' : steps ins s tr s' -> forall rs k, balanced (rs ++ helds s) k s ->
    balanced ((rs ++ received tr) ++ helds s') (k + length (sent tr))%nat s'.
  Proof.
    induction 1 as [s|s a s1 tr s2 H _ IH]; intros rs k Hb.
    - cbn. now rewrite app_nil_r, Nat.add_0_r.
    - apply (balanced_step _ _ _ H) in Hb. apply IH in Hb.
      change (a :: tr) with ([a] ++ tr). rewrite received_app, sent_app, app_length, !app_assoc, Nat.add_assoc. exact Hb.
  Qed.

  (** ** How many goroutines there are *)
  Definition code_depth (c : list instr) (k : nat) : Prop :=
    Forall (fun i => match i with ISend _ => True | IWalk n => (levels n <= k)%nat | IAsk ms => (depth ms <= k)%nat end) c.
  Lemma depth_member ms n : In n ms -> (levels n <= depth ms)%nat.
  Proof.
    induction ms as [|m ms IH]; [intros []|]. unfold depth. cbn [fold_right]. intros [->|H]; [lia|].
    apply IH in H. unfold depth in H. lia.
  Qed.
  Lemma code_depth_members ms k : (depth ms <= k)%nat -> code_depth (map IWalk ms) k.
  Proof.
    intros H. apply Forall_forall. intros i Hi. apply in_map_iff in Hi as (n & <- & Hn).
    apply depth_member in Hn. lia.
  Qed.
  Lemma code_depth_replication v ms k : (depth ms <= k)%nat -> code_depth (replication_code v ms) k.
  Proof.
    intros H. rewrite replication_copies. constructor; [trivial|]. apply Forall_app. split; [|repeat constructor].
    induction (Z.to_nat v) as [|j IH]; [constructor|]. cbn [copies]. constructor; [trivial|].
    apply Forall_app. split; [apply code_depth_members, H|]. constructor; [trivial|exact IH].
  Qed.
  Lemma code_depth_node n k : (levels n <= S k)%nat -> code_depth (node_code ins n) k.
  Proof.
    destruct n as [d f ms]. intros H. assert (Hm : (depth ms <= k)%nat) by (unfold depth; cbn [levels] in H; lia). clear H.
    rewrite node_code_cases.
    destruct (id_F (d_id d)) as [|[[p|p|]|[p|p|]|]|p]; try (repeat constructor).
    - apply Forall_app. split; [apply code_depth_members, Hm|repeat constructor].
    - destruct f as [fd|]; [|apply code_depth_replication, Hm]. constructor; [trivial|].
      destruct ins; [repeat constructor; exact Hm|apply code_depth_replication, Hm].
  Qed.
  Inductive fits : nat -> list walker -> Prop :=
  | FNil k : fits k []
  | FLast k w : code_depth (code w) k -> fits k [w]
  | FCons k w s : code_depth (code w) (S k) -> fits k s -> fits (S k) (w :: s).
  Lemma fits_head k w s : fits k (w :: s) -> code_depth (code w) k.
  Proof. intros H; inversion H; subst; assumption. Qed.
  Lemma fits_app pre : forall k s, s <> [] -> fits k (pre ++ s) -> exists j, (k = length pre + j)%nat /\ fits j s /\
    forall s', fits j s' -> fits k (pre ++ s').
  Proof.
    induction pre as [|w pre IH]; intros k s Hs H; [exists k; auto|].
    cbn [app] in H. inversion H as [|? ? Hw E|j w' s' Hw H']; subst.
    - destruct pre; [destruct s; [contradiction|discriminate]|discriminate].
    - destruct (IH _ _ Hs H') as (i & -> & Hi & Hf). exists i. split; [reflexivity|]. split; [exact Hi|].
      intros s' Hs'. cbn [app]. apply FCons; [exact Hw|apply Hf, Hs'].
  Qed.
  Lemma fits_step s a s' : step ins s a s' -> forall k, fits k s -> fits k s'.
  Proof.
    intros H k Hf. inversion H; subst.
    - apply fits_app in Hf as (j & -> & Hj & Hf); [|discriminate]. apply Hf. apply fits_head in Hj. inversion Hj; subst. apply FLast. assumption.
    - apply fits_app in Hf as (j & -> & Hj & Hf); [|discriminate]. apply Hf. apply fits_head in Hj. inversion Hj as [|? ? Hn Hc]; subst.
      destruct j as [|j]; [destruct n; cbn [levels] in Hn; lia|]. apply FCons; [exact Hc|]. apply FLast. apply code_depth_node, Hn.
    - apply fits_app in Hf as (j & -> & Hj & Hf); [|discriminate]. apply Hf. apply fits_head in Hj. inversion Hj as [|? ? Hn Hc]; subst.
      apply FLast. apply Forall_app. split; [apply code_depth_replication, Hn|exact Hc].
    - apply fits_app in Hf as (j & -> & Hj & Hf); [|discriminate]. apply Hf.
      inversion Hj as [| |i w s0 Hw H0]; subst. apply FCons; [exact Hw|]. inversion H0; subst; [apply FLast|apply FCons]; assumption.
    - apply fits_app in Hf as (j & -> & Hj & Hf); [|discriminate]. apply Hf. apply FLast. constructor.
    - apply fits_app in Hf as (j & -> & Hj & Hf); [|discriminate]. apply Hf. apply fits_head in Hj. apply FLast. exact Hj.
    - inversion Hf; subst; [apply FLast|apply FCons]; assumption.
  Qed.
  Lemma fits_length k s : fits k s -> (length s <= S k)%nat.
  Proof. induction 1; cbn [length]; lia. Qed.
  Lemma fits_steps s tr s' : steps ins s tr s' -> forall k, fits k s -> fits k s'.
  Proof. induction 1 as [|s a s1 tr s2 H _ IH]; [trivial|]. intros k Hf. apply IH, (fits_step _ _ _ H _ Hf). Qed.
  Lemma filter_length_le {A} (f : A -> bool) l : (length (filter f l) <= length l)%nat.
  Proof. induction l as [|x l IH]; cbn [filter length]; [lia|]. destruct (f x); cbn [length]; lia. Qed.
  Lemma alive_bound members tr s : steps ins (walk_start members) tr s -> (alive s <= S (depth members))%nat.
  Proof.
    intros H. assert (Hf : fits (depth members) s).
    { apply (fits_steps _ _ _ H). apply FLast. constructor; [trivial|]. apply Forall_app.
      split; [apply code_depth_members; lia|repeat constructor]. }
    apply fits_length in Hf. unfold alive. etransitivity; [apply filter_length_le|exact Hf].
  Qed.

  Lemma start_balanced members : balanced (helds (walk_start members)) 0 (walk_start members).
  Proof. left. cbn. split; [apply paired_template|reflexivity]. Qed.
End W.
