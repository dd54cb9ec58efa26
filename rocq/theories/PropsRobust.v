(** C77: how decoding any byte string can end. *)
From Coq Require Import ZifyBool ZifyNat.
From Verif Require Import ProofsRobust ProofsRobust2 ProofsRobust3 ProofsTable ProofsTable2 ProofsShipped3 ProofsShipped6 Demo PropsParser PropsTable PropsSafe PropsCrash PropsMessage PropsShipped.
From Verif Require Export SpecRobust.
From Verif Require Import SpecMessage.

(** ** C77 *)
(** One call of the decoder on any bits, in any state: a message or an error, unless section 3
    is shorter than its header, the stream ends in the padding of a section, or the template
    has what this kind of panic needs (see C65).  There is no endless loop but with 206YYY in
    compressed data, and no division by zero.  In any event the reader can be used again. *)
Theorem C77_outcome : forall fc s r, usable (fc_fs fc) -> fc_json fc = false -> reads s r ->
  exists k, forall k', (k <= k')%nat -> accounted (Run (with_fuel k' fc) s).
Proof. exact Run_outcome. Qed.
Print Assumptions C77_outcome.
(** With the tables delivered with the library, whatever pair of them a message asks for. *)
Theorem C77_shipped : forall fs, shipped_fs fs -> usable fs.
Proof. exact shipped_usable. Qed.
Print Assumptions C77_shipped.
(** The first two causes are real for any configuration ... *)
Theorem C77_crash_refuted : forall fc, (0 < fc_fuel fc)%nat -> exists bs bs',
  snd (Run fc (on_bytes bs)) = Panic PMake /\ snd (Run fc (on_bytes bs')) = Panic PNil.
Proof.
  intros [js co pl fs [|k]] H; [cbn in H; lia|].
  exists (firstn 32 msg4 ++ [5] ++ skipn 33 msg4), (firstn 10 msg4 ++ [23] ++ firstn 19 (skipn 11 msg4)).
  split; vm_compute; reflexivity.
Qed.
Print Assumptions C77_crash_refuted.
(** The tables of the examples are usable. *)
Lemma ex_usable : usable ex_fs.
Proof.
  intros m c s wv lv.
  assert (HA : forall l, Forall (fun g => s_b g = ex_b /\ s_d g = ex_d) l -> acyclic (GChain l) /\ loaded_tables (GChain l)).
  { intros l Hl. rewrite Forall_forall in Hl. split.
    - exists (fun _ => O). intros id d ms HL HE. destruct (chain_def _ _ _ _ HL HE) as (pre & g & post & -> & Hg & _).
      destruct (Hl g) as [_ E]; [apply in_or_app; right; now left|]. rewrite E in Hg. unfold ex_d in Hg.
      repeat (cbn [assoc_get] in Hg; destruct (Z.eqb _ _) in Hg; [injection Hg as <-; repeat constructor; intros K; discriminate K|]). discriminate.
    - intros id d e HL HE. pose proof (C16_kind_follows_F _ _ _ HL) as (_ & _ & K). rewrite HE in K. destruct K as (_ & g & Hg & Hb). destruct (Hl g Hg) as [E _]. rewrite E in Hb. unfold ex_b in Hb.
      repeat (cbn [assoc_get] in Hb; destruct (Z.eqb _ _) in Hb; [injection Hb as <-; cbn; split; [discriminate|tauto]|]). discriminate. }
  unfold AddLocalAndWmoTableGroups. destruct (negb _); cbn; apply HA; repeat constructor.
Qed.
(** ... and so is the third: here the template is 204000. *)
Definition msg_204000 : list Z := firstn 32 msg4 ++ [9] ++ firstn 4 (skipn 33 msg4) ++ [0x84; 0] ++ [0; 0; 9; 0; 0; 0; 0; 0; 0; 0; 0].
Theorem C77_template_refuted : exists k s, Run (with_fuel k ex_fc) (on_bytes msg_204000) = (s, Panic PIndex) /\
  harmful_template s (Crash PIndex) /\ fa_ut s = Some [204000].
Proof.
  destruct (C77_outcome ex_fc (on_bytes msg_204000) _ ex_usable eq_refl eq_refl) as (k & H). exists (20 + k)%nat. specialize (H (20 + k)%nat ltac:(lia)).
  assert (E : snd (Run (with_fuel (20 + k) ex_fc) (on_bytes msg_204000)) = Panic PIndex /\ fa_ut (fst (Run (with_fuel (20 + k) ex_fc) (on_bytes msg_204000))) = Some [204000]) by (split; vm_compute; reflexivity).
  destruct (Run _ _) as [s x]. cbn [fst snd] in E. destruct E as [-> E2]. exists s. split; [reflexivity|]. split; [|exact E2]. destruct H as [_ [[H _]|[[H _]|H]]]; [discriminate..|exact H].
Qed.
Print Assumptions C77_template_refuted.
(** Cases: the shipped tables; a message; a message cut off in its data; garbage. *)
Example C77_case : (forall pl, usable (files_fs pl)) /\ usable ex_fs /\
  ok (Run ex_fc (on_bytes msg4)) = true /\
  (exists s e, Run ex_fc (on_bytes (firstn 70 msg4)) = (s, Err e)) /\
  (exists s e, Run ex_fc (on_bytes (repeat 66 50)) = (s, Err e)).
Proof.
  split; [intros pl; exact (C77_shipped _ (files_fs_shipped pl))|]. split; [exact ex_usable|]. split; [vm_compute; reflexivity|].
  split; (match goal with |- context[Run ?a ?b] => destruct (Run a b) as [s x] eqn:E end; assert (K : match x with Err _ => True | _ => False end) by (apply (f_equal snd) in E; vm_compute in E; now subst x); destruct x; try contradiction; eauto).
Qed.
(** A harmless template: *)
Example C77_case_harmless : forall b, harmless demo_group demo_plain 2 true b /\ harmless demo_group demo_plain 0 false b.
Proof.
  assert (Q : forall id, leads_to demo_group demo_plain id -> ~ In id assessments).
  { assert (H : forall id, leads_to demo_group demo_plain id -> In id (1001 :: 1002 :: demo_plain)).
    { induction 1 as [id H|q d ms id H IH HL HE HI]; [right; right; exact H|]. unfold demo_plain in IH. repeat (destruct IH as [<-|IH]; [vm_compute in HL; (discriminate HL || (injection HL as <-; try discriminate HE; injection HE as <-; repeat (destruct HI as [<-|HI]; [cbn; tauto|]); contradiction))|]). contradiction. }
    intros id Hi Ha. apply H in Hi. unfold demo_plain in Hi. repeat (destruct Hi as [<-|Hi]; [cbn in Ha; intuition discriminate|]). contradiction. }
  assert (P : forall c ms, parsed demo_group demo_plain ms -> plain_template c ms).
  { intros c ms H. assert (E : ms = nodes_of demo_plain); [|rewrite E; exact (proj1 (demo_plain_ok c))]. 
    exact (parsed_unique _ _ _ _ H (proj1 (proj2 C65_example))). }
  intros b. split; (split; [intros _; exact Q|]); intros ms H; (apply C65_plain_has_none; [now apply P|]); intros; [lia|discriminate].
Qed.
