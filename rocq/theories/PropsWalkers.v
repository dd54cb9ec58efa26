(** C86: the goroutines of a template walk, whatever the scheduler does. *)
From Verif Require Import Demo PropsTemplate ProofsTemplate ProofsWalkers2.
From Verif Require Import SpecWalkers ModelWalkers.

(** Whatever the interleaving, at every moment the caller has received the beginning of a
    walk that answers the counts sent so far. *)
Theorem C86_order : forall ins members tr s, Forall known_kinds members ->
  steps ins (walk_start members) tr s ->
  exists counts evs rest, walks_list ins (sent tr ++ counts) members evs /\
    (WE_BEGIN_TEMPLATE, None) :: evs ++ [(WE_END_TEMPLATE, None)] = received tr ++ rest.
Proof. exact walked_prefix. Qed.
Print Assumptions C86_order.
(** When the loop over the channel ends, the caller has received the whole walk for exactly
    the counts it has sent. *)
Theorem C86_done : forall ins members tr s, Forall known_kinds members ->
  steps ins (walk_start members) tr s -> over s ->
  exists evs, walks_list ins (sent tr) members evs /\
    received tr = (WE_BEGIN_TEMPLATE, None) :: evs ++ [(WE_END_TEMPLATE, None)].
Proof. exact walked_done. Qed.
Print Assumptions C86_done.
(** Every walk of the grammar can be had this way. *)
Theorem C86_complete : forall ins members counts evs, Forall known_kinds members ->
  walks_list ins counts members evs ->
  exists tr, steps ins (walk_start members) tr [Ended] /\ sent tr = counts /\
    received tr = (WE_BEGIN_TEMPLATE, None) :: evs ++ [(WE_END_TEMPLATE, None)].
Proof. exact walked_complete. Qed.
Print Assumptions C86_complete.
(** No deadlock: until the end some goroutine can move, or the caller can receive, or the
    last event received is a factor, one more than counts have been sent, and the walk
    takes any count. *)
Theorem C86_never_stuck : forall ins members tr s, steps ins (walk_start members) tr s ->
  over s \/ (exists s', step ins s Internal s') \/ (exists e s', step ins s (Receive e) s') \/
  (ins = true /\ (exists l e, received tr = l ++ [e] /\ is_factor e = true) /\
   length (filter is_factor (received tr)) = S (length (sent tr)) /\
   forall v, exists s', step ins s (Supply v) s').
Proof. exact walked_progress. Qed.
Print Assumptions C86_never_stuck.
(** Without a channel of counts none is ever asked for. *)
Theorem C86_unattended : forall members tr s, steps false (walk_start members) tr s -> sent tr = [].
Proof. exact walked_unattended. Qed.
Print Assumptions C86_unattended.
(** No execution goes on for ever, whatever counts are sent. *)
Theorem C86_ends : forall ins,
  ~ exists f : nat -> list walker, forall i, exists a, step ins (f i) a (f (S i)).
Proof. exact no_endless. Qed.
Print Assumptions C86_ends.
(** There are never more goroutines than levels of nesting, and one. *)
Theorem C86_goroutines : forall ins members tr s,
  steps ins (walk_start members) tr s -> (alive s <= 1 + depth members)%nat.
Proof. exact alive_bound. Qed.
Print Assumptions C86_goroutines.
(** Until the caller has received the last event at least one goroutine is there: a caller
    that stops early leaves it behind for ever. *)
Theorem C86_abandoned : forall ins members tr s, Forall known_kinds members ->
  steps ins (walk_start members) tr s ->
  ~ In (WE_END_TEMPLATE, None) (received tr) -> (1 <= alive s)%nat.
Proof. exact walked_leak. Qed.
Print Assumptions C86_abandoned.
(** Once it has, all goroutines end without it. *)
Theorem C86_released : forall ins members tr s, Forall known_kinds members ->
  steps ins (walk_start members) tr s -> In (WE_END_TEMPLATE, None) (received tr) ->
  (forall a s', step ins s a s' -> a = Internal) /\
  exists tr', steps ins s tr' [Ended] /\ Forall (fun a => a = Internal) tr'.
Proof. exact walked_released. Qed.
Print Assumptions C86_released.

(** Nothing but the counts decides what the caller sees: it is what [Walk] of C22 says. *)
Theorem C86_schedule : forall ins members tr s, Forall known_kinds members ->
  steps ins (walk_start members) tr s -> over s ->
  Walk members (if ins then Some (sent tr) else None)
  = (mkWalk (if ins then Some [] else None) (received tr), Ok tt).
Proof. exact walked_schedule. Qed.
Print Assumptions C86_schedule.

(** The demo template: sequences in replications, two delayed ones; a walk with two counts
    that ends. *)
Example C86_example : Forall known_kinds demo_nodes /\ depth demo_nodes = 3%nat /\
  exists evs tr, walks_list true [3; 0] demo_nodes evs /\
    steps true (walk_start demo_nodes) tr [Ended] /\ sent tr = [3; 0] /\ length (received tr) = 54%nat.
Proof.
  assert (H : Forall known_kinds demo_nodes)
    by exact (C22_expanded demo_group 20 demo_template demo_nodes eq_refl).
  split; [exact H|]. split; [vm_compute; reflexivity|].
  destruct (Walk demo_nodes (Some [3; 0])) as [s r] eqn:E.
  pose proof (C22_walk demo_nodes (Some [3; 0]) H) as W. rewrite E in W.
  assert (Er : r = Ok tt /\ w_ins s = Some [] /\ length (w_out s) = 54%nat)
    by (vm_compute in E; injection E as <- <-; repeat split).
  destruct Er as (-> & Ei & El). destruct W as (counts & rest & evs & Hw & Hc & Hr & Ho).
  rewrite Ei in Hr. injection Hr as <-. rewrite app_nil_r in Hc. injection Hc as <-.
  destruct (C86_complete true demo_nodes [3; 0] evs H Hw) as (tr & Ht & Es & Eo).
  exists evs, tr. split; [exact Hw|]. split; [exact Ht|]. split; [exact Es|]. rewrite Eo, <- Ho. exact El.
Qed.
(** A delayed replication: after its factor the walk waits for the caller, with two
    goroutines that stay if the caller does not come back. *)
Definition walker_desc (id : Z) : descriptor :=
  match Lookup demo_group id with Ok d => d | _ => RootDescriptor end.
Definition delayed_node : tnode := TNode (walker_desc 101000) (Some (walker_desc 31001)) [TNode (walker_desc 1001) None []].
Example C86_waiting_example : Forall known_kinds [delayed_node] /\ exists tr s,
  steps true (walk_start [delayed_node]) tr s /\
  map fst (received tr) = [WE_BEGIN_TEMPLATE; WE_REPLICATION_DESCRIPTOR; WE_FACTOR] /\ sent tr = [] /\
  alive s = 2%nat /\ (forall s', ~ step true s Internal s') /\
  exists s', step true s (Supply 7) s'.
Proof.
  split; [repeat constructor; vm_compute; auto; discriminate|].
  eexists. exists [Live None [ISend (WE_END_TEMPLATE, None)]; Live None [IAsk [TNode (walker_desc 1001) None []]]].
  split.
  { eapply StsCons; [apply (StSend true [])|]. eapply StsCons; [apply StOut|].
    eapply StsCons; [apply (StGo true [])|]. cbn [app].
    eapply StsCons; [apply (StSend true [_])|]. eapply StsCons; [apply (StPass true [])|]. eapply StsCons; [apply StOut|].
    eapply StsCons; [apply (StSend true [_])|]. eapply StsCons; [apply (StPass true [])|]. eapply StsCons; [apply StOut|].
    apply StsNil. }
  split; [reflexivity|]. split; [reflexivity|]. split; [reflexivity|]. split.
  - intros s' H. inversion H as [pre ? ? E|pre ? ? E| |pre ? ? ? ? E|pre E|pre ? E|]; subst;
      (destruct pre as [|? [|? [|? pre]]]; discriminate E).
  - eexists. apply (StAsk true [_]).
Qed.
