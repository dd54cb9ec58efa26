(** Lemmas for C86, from what the caller sees. *)
From Coq Require Import Wellfounded.
From Verif Require Import ProofsTemplate.
From Verif Require Export ProofsWalkers.
From Verif Require Import ModelWalkers.

Lemma walked_done ins members tr s : Forall known_kinds members ->
  steps ins (walk_start members) tr s -> over s ->
  exists evs, walks_list ins (sent tr) members evs /\
    received tr = (WE_BEGIN_TEMPLATE, None) :: evs ++ [(WE_END_TEMPLATE, None)].
Proof.
  intros HK H E. red in E. subst s. apply (template_yields ins members HK), start_future.
  rewrite <- (app_nil_r (sent tr)), <- (app_nil_r (received tr)).
  apply (future_steps ins _ _ _ H). apply over_future. auto.
Qed.
Lemma walked_prefix ins members tr s : Forall known_kinds members ->
  steps ins (walk_start members) tr s ->
  exists counts evs rest, walks_list ins (sent tr ++ counts) members evs /\
    (WE_BEGIN_TEMPLATE, None) :: evs ++ [(WE_END_TEMPLATE, None)] = received tr ++ rest.
Proof.
  intros HK H. destruct (has_future ins s) as (cs & es & Hf).
  apply (future_steps ins _ _ _ H) in Hf. apply start_future, (template_yields ins members HK) in Hf as (evs & Hw & E).
  exists cs, evs, es. auto.
Qed.
Lemma walked_complete ins members counts evs : Forall known_kinds members -> walks_list ins counts members evs ->
  exists tr, steps ins (walk_start members) tr [Ended] /\ sent tr = counts /\
    received tr = (WE_BEGIN_TEMPLATE, None) :: evs ++ [(WE_END_TEMPLATE, None)].
Proof.
  intros HK Hw. apply run_to_end; [constructor|]. apply start_future, (template_yields ins members HK). eauto.
Qed.

Lemma start_chain members : chain (walk_start members).
Proof. constructor. Qed.
Lemma walked_asks ins members tr s : steps ins (walk_start members) tr s -> helds s = [] ->
  (exists ms c, kont s = IAsk ms :: c) ->
  ins = true /\ (exists l e, received tr = l ++ [e] /\ is_factor e = true) /\
  length (filter is_factor (received tr)) = S (length (sent tr)).
Proof.
  intros H Hh (ms & c & Hk).
  pose proof (balanced_steps ins _ _ _ H [] 0 (start_balanced ins members)) as B.
  rewrite Hh, app_nil_r in B. cbn [app plus] in B.
  destruct B as [(Hp & _)|(ms' & c' & l & e & _ & Hi & _ & E & He & Hf)]; [rewrite Hk in Hp; inversion Hp|].
  split; [exact Hi|]. split; [exists l, e; auto|exact Hf].
Qed.
Lemma walked_progress ins members tr s : steps ins (walk_start members) tr s ->
  over s \/ (exists s', step ins s Internal s') \/ (exists e s', step ins s (Receive e) s') \/
  (ins = true /\ (exists l e, received tr = l ++ [e] /\ is_factor e = true) /\
   length (filter is_factor (received tr)) = S (length (sent tr)) /\
   forall v, exists s', step ins s (Supply v) s').
Proof.
  intros H. destruct (progress ins s (steps_chain ins _ _ _ H (start_chain members))) as [P|[P|[P|(Hh & Hk & Hs)]]]; auto.
  do 3 right. destruct (walked_asks _ _ _ _ H Hh Hk) as (H1 & H2 & H3). auto.
Qed.
Lemma walked_unattended members tr s : steps false (walk_start members) tr s -> sent tr = [].
Proof.
  intros H.
  assert (G : forall s0 tr0 s1, steps false s0 tr0 s1 -> forall rs k, balanced false (rs ++ helds s0) k s0 -> sent tr0 = []).
  { induction 1 as [|s0 a s1 tr0 s2 Hs _ IH]; intros rs k B; [reflexivity|].
    pose proof (IH _ _ (balanced_step false _ _ _ Hs _ _ B)) as E.
    destruct a as [|e|v]; cbn [sent flat_map app]; try exact E. exfalso.
    inversion Hs; subst. destruct B as [(Hp & _)|(ms' & c' & l & e & _ & Hi & _)]; [|discriminate].
    rewrite kont_app in Hp. cbn [kont code app] in Hp. inversion Hp. }
  apply (G _ _ _ H [] 0%nat), start_balanced.
Qed.

Lemma no_endless ins : ~ exists f : nat -> list walker, forall i, exists a, step ins (f i) a (f (S i)).
Proof.
  intros (f & Hf).
  assert (G : forall s, forall i, f i = s -> False).
  { intros s. induction s as [s IH] using (well_founded_induction (step_wf ins)). intros i E.
    destruct (Hf i) as (a & Ha). apply (IH (f (S i))) with (i := S i); [|reflexivity]. exists a. now rewrite <- E. }
  apply (G (f 0%nat) 0%nat eq_refl).
Qed.

(** ** The last event *)
Definition last_event : event := (WE_END_TEMPLATE, None).
Lemma walks_no_last ch :
  (forall counts n evs, walks ch counts n evs -> ~ In last_event evs) /\
  (forall counts ns evs, walks_list ch counts ns evs -> ~ In last_event evs) /\
  (forall k counts ms evs, walks_blocks ch k counts ms evs -> ~ In last_event evs).
Proof.
  unfold last_event. apply walks_mut; intros; cbn [app In]; try rewrite !in_app_iff; cbn [In]; try tauto;
    intuition (try discriminate); try (rewrite in_app_iff in *; cbn [In] in *; intuition discriminate).
Qed.
Lemma split_last (a b c : list event) : ~ In last_event c -> a ++ b = c ++ [last_event] -> In last_event a -> b = [].
Proof.
  revert c. induction a as [|x a IH]; intros c Hc E Ha; [destruct Ha|].
  destruct c as [|y c]; cbn [app] in E; injection E as -> E.
  - destruct a; [exact E|discriminate].
  - apply (IH c); [intros H; apply Hc; right; exact H|exact E|]. destruct Ha as [Ha|Ha]; [|exact Ha].
    subst y. exfalso. apply Hc. left. reflexivity.
Qed.
Lemma chain_dead s : chain s -> alive s = 0%nat -> over s.
Proof.
  intros H E. destruct H as [w|h c s H]; [destruct w; [discriminate|reflexivity]|discriminate].
Qed.
Lemma walked_leak ins members tr s : Forall known_kinds members -> steps ins (walk_start members) tr s ->
  ~ In last_event (received tr) -> (1 <= alive s)%nat.
Proof.
  intros HK H Hn. destruct (alive s) as [|k] eqn:E; [|lia]. exfalso. apply Hn.
  apply chain_dead in E; [|apply (steps_chain ins _ _ _ H (start_chain members))].
  destruct (walked_done _ _ _ _ HK H E) as (evs & _ & ->). right. apply in_or_app. right. left. reflexivity.
Qed.
Lemma walked_released ins members tr s : Forall known_kinds members -> steps ins (walk_start members) tr s ->
  In last_event (received tr) ->
  (forall a s', step ins s a s' -> a = Internal) /\
  exists tr', steps ins s tr' [Ended] /\ Forall (fun a => a = Internal) tr'.
Proof.
  intros HK H Hin.
  assert (Hf : forall cs es, future ins s cs es -> es = [] /\ cs = []).
  { intros cs es Hf. assert (Hf' := Hf). apply (future_steps ins _ _ _ H) in Hf.
    apply start_future, (template_yields ins members HK) in Hf as (evs & Hw & E).
    assert (es = []) as ->.
    { rewrite app_comm_cons in E. apply (split_last _ _ _) in E; [exact E| |exact Hin].
      intros [X|X]; [discriminate|]. revert X. apply (proj1 (proj2 (walks_no_last ins)) _ _ _ Hw). }
    split; [reflexivity|]. destruct Hf' as (es' & E' & Hy). symmetry in E'. apply app_eq_nil in E' as (_ & ->).
    revert Hy. generalize (kont s). intros k Hy.
    assert (G : forall k cs es, yields ins k cs es -> es = [] -> cs = []).
    { clear. induction 1 as [|e c cs es _ IH|n c cs es _ IH|ms c v cs es Hy _]; intros E; auto; [discriminate|].
      subst es. rewrite replication_copies in Hy. inversion Hy. }
    apply (G _ _ _ Hy eq_refl). }
  assert (Honly : forall a s', step ins s a s' -> a = Internal).
  { intros a s' Hs. destruct (has_future ins s') as (cs & es & F). destruct a as [|e|v]; [reflexivity| |].
    - assert (future ins s cs (e :: es)) as X by (apply (future_receive ins _ _ _ Hs); eauto).
      apply Hf in X as (X & _). discriminate.
    - apply (future_supply ins _ _ _ Hs) in F. apply Hf in F as (_ & X). discriminate. }
  split; [exact Honly|].
  destruct (has_future ins s) as (cs & es & F). destruct (Hf _ _ F) as (-> & ->).
  destruct (run_to_end ins s (steps_chain ins _ _ _ H (start_chain members)) _ _ F) as (tr' & Ht & E1 & E2).
  exists tr'. split; [exact Ht|]. clear -E1 E2. induction tr' as [|a tr' IH]; [constructor|].
  destruct a; cbn [sent received flat_map app] in E1, E2; try discriminate. constructor; [reflexivity|apply IH; assumption].
Qed.
Lemma walked_schedule ins members tr s : Forall known_kinds members ->
  steps ins (walk_start members) tr s -> over s ->
  Walk members (if ins then Some (sent tr) else None)
  = (mkWalk (if ins then Some [] else None) (received tr), Ok tt).
Proof.
  intros HK H E. destruct (walked_done _ _ _ _ HK H E) as (evs & Hw & ->).
  rewrite <- (app_nil_r (sent tr)). apply Walk_complete, Hw.
Qed.
