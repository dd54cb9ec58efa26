(** C65: what a crash of the payload decoder needs, for templates of any kind. *)
From Verif Require Import ProofsCrash ProofsRun6 Demo PropsParser PropsTable.
From Verif Require Export SpecSafe PropsRun.
From Verif Require Import PropsSafe.

(** ** C65 *)
(** Whatever the bits: the loop that does not end needs a 206YYY in compressed data, and each
    kind of panic needs one of the things listed with it. *)
Theorem C65_reasons : forall g ids ms cf l e p b, loaded_tables g -> parsed g ids ms -> cf_json cf = false -> 0 <= cf_nsubsets cf ->
  excluded (cf_nsubsets cf) (cf_compressed cf) ms b ->
  ~ in_breakdown (snd (run_payload cf (root ms) (vst0 (RBit (mkBR l e p))))) b.
Proof. intros. eapply breakdown_reason; eauto. cbn. eauto. Qed.
Print Assumptions C65_reasons.
(** The templates of C65_no_crash have none of it. *)
Theorem C65_plain_has_none : forall n c ms b, plain_template c ms -> (c = true -> 0 < n) -> excluded n c ms b.
Proof.
  intros n c ms b [Hc Hp] Hn.
  assert (W : forall P : anode -> Prop, (forall x, plain_node c x -> P x) -> Forall (all_nodes P) ms) by (intros P K; eapply Forall_impl; [|exact Hp]; intros x; now apply all_impl).
  assert (V : forall P : Z -> bool, (forall id, plain_id id = true -> P id = false) -> avoids P ms).
  { intros P K. apply W. intros x ((d & Hd & Hi & _) & _) d' Hd'. rewrite Hd in Hd'. injection Hd' as <-. auto. }
  assert (D : forall id k, id / 1000 = k -> id / 100000 = k / 100) by (intros id k <-; now rewrite Z.div_div).
  assert (L : forall l id, forallb (fun x => negb (plain_id x)) l = true -> plain_id id = true -> existsb (Z.eqb id) l = false).
  { intros l id Hl Hi. destruct (existsb (Z.eqb id) l) eqn:E; [|reflexivity]. apply existsb_exists in E. destruct E as (x & Hx & E). apply Z.eqb_eq in E. subst x.
    rewrite forallb_forall in Hl. specialize (Hl id Hx). rewrite Hi in Hl. discriminate. }
  assert (VA : avoids assessment_id ms) by (apply V; intros id; now apply L).
  assert (VM : avoids marker_id ms) by (apply V; intros id; now apply L).
  assert (VR : avoids new_refval_id ms).
  { apply V. intros id Hi. unfold new_refval_id. destruct (id / 1000 =? 203) eqn:E; [|reflexivity]. apply Z.eqb_eq in E. unfold plain_id in Hi. rewrite (D _ _ E), E in Hi. discriminate. }
  destruct b as [[]|]; cbn [excluded]; auto.
  - split; [split; [exact Hc|apply W; intros x Hx; apply Hx]|]. split; [|auto]. apply W. intros x (_ & _ & Hx) d H1 H2 H3.
    destruct (Hx d H1 H2 H3) as (m & fd & e & K1 & K2 & K3 & K4 & _). exists m, fd, e. repeat split; auto; discriminate.
  - split; [exact VA|]. apply V. intros id Hi. unfold bitmap_id. destruct (id =? 236000) eqn:E; [|reflexivity]. apply Z.eqb_eq in E. subst id. discriminate Hi.
  - intros ->. apply W. intros x Hx. apply Hx.
  - intros ->. apply W. intros x ((d & Hd & _ & Hi) & _) d' Hd'. rewrite Hd in Hd'. injection Hd' as <-. unfold is_operator. apply Z.eqb_neq. now apply Hi.
Qed.
Print Assumptions C65_plain_has_none.
(** Each of them is real.  What decides is in most cases the data: *)
Theorem C65_crash_refuted : exists g ids ms cf l l' s, loaded_tables g /\ parsed g ids ms /\
  ids = [1001; 1002; 222000; 236000; 101002; 31031; 33007] /\ cf_compressed cf = false /\ cf_json cf = false /\
  length l = length l' /\ run_payload cf (root ms) (vst0 (RBit (mkBR l EEof 0))) = (s, Ok tt) /\
  snd (run_payload cf (root ms) (vst0 (RBit (mkBR l' EEof 0)))) = Panic PIndex.
Proof.
  pose (ids := [1001; 1002; 222000; 236000; 101002; 31031; 33007]).
  exists demo_group, ids, (nodes_of ids), (demo_cf false false 1), (bits 7 9 ++ bits 10 5 ++ bits 2 1 ++ bits 7 70), (bits 7 9 ++ bits 10 5 ++ bits 2 3 ++ bits 7 70).
  eexists. split; [exact demo_loaded|]. split; [exists 30%nat; vm_compute; reflexivity|]. do 4 (split; [reflexivity|]). split; [vm_compute; reflexivity|]. vm_compute. reflexivity.
Qed.
Print Assumptions C65_crash_refuted.
(** A marker that no element is left for, whatever the bits. *)
Theorem C65_marker_refuted : exists g ids ms cf, loaded_tables g /\ parsed g ids ms /\ ids = [223255] /\
  forall l, snd (run_payload cf (root ms) (vst0 (RBit (mkBR l EEof 0)))) = Panic PIndex.
Proof.
  exists demo_group, [223255], (nodes_of [223255]), (demo_cf false false 1). split; [exact demo_loaded|]. split; [exists 30%nat; vm_compute; reflexivity|]. split; [reflexivity|].
  intros l. vm_compute. reflexivity.
Qed.
Print Assumptions C65_marker_refuted.
(** The others: a marker for an inserted string (205YYY), a bitmap without 236000 or 237000, an
    assessment inside the definition of the bitmap it recalls; and in compressed data a
    character factor, a new reference value that differs between subsets, and no subsets. *)
Example C65_causes :
  snd (demo_run (demo_cf false false 1) [205001; 223000; 236000; 101001; 31031; 223255] (bits 8 65 ++ bits 1 0 ++ bits 30 0)) = Panic PType /\
  snd (demo_run (demo_cf false false 1) [1001; 222000; 101001; 31031; 33007] (bits 7 9 ++ bits 1 0 ++ bits 7 1)) = Panic PNil /\
  snd (demo_run (demo_cf false false 1) [1001; 236000; 222000; 237000; 33007; 31031] (bits 7 9 ++ bits 30 0)) = Panic PMake /\
  snd (demo_run (demo_cf true false 2) [101000; 1015; 1001] (bits 32 0 ++ bits 6 0 ++ bits 30 0)) = Panic PCompare /\
  snd (demo_run (demo_cf true false 2) [203010; 12101; 203255] (bits 10 3 ++ bits 6 2 ++ bits 2 0 ++ bits 30 0)) = Panic PType /\
  snd (demo_run (demo_cf true false 0) [1001] (bits 30 0)) = Panic PIndex.
Proof. repeat split; vm_compute; reflexivity. Qed.
(** A template with bitmap operators that is covered: it cannot run on, nor fail at a
    comparison, a conversion or an assignment. *)
Ltac avoid_tac := intros ? H; injection H as <-; vm_compute; reflexivity.
Example C65_reasons_example : forall l b, In b [Endless; Crash PCompare; Crash PType; Crash PNilMap; Crash PDiv] ->
  ~ in_breakdown (snd (demo_run (demo_cf false false 1) [1001; 1002; 222000; 236000; 101002; 31031; 33007] l)) b.
Proof.
  intros l b Hb. pose (ids := [1001; 1002; 222000; 236000; 101002; 31031; 33007]).
  apply (C65_reasons demo_group ids (nodes_of ids) (demo_cf false false 1) l EEof 0).
  - exact demo_loaded.
  - exists 30%nat. vm_compute. reflexivity.
  - reflexivity.
  - discriminate.
  - assert (V : avoids marker_id (nodes_of ids) /\ avoids new_refval_id (nodes_of ids)).
    { remember (nodes_of ids) as ms eqn:E. vm_compute in E. subst ms. split; unfold avoids; walk avoid_tac. }
    destruct V. cbn [In] in Hb. destruct Hb as [<-|[<-|[<-|[<-|[<-|[]]]]]]; cbn [excluded demo_cf cf_compressed]; auto; try discriminate; try (split; [auto|discriminate]).
Qed.
