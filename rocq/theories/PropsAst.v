(** Property theorems C63, C64: linting and dumping parsed templates.  Vocabulary: SpecAst.v. *)
From Coq Require Import ZifyBool ZifyNat.
From Verif Require Import ProofsAst ProofsParser3 ProofsParser4 Demo PropsParser SpecAst.

(** C64.  Dumping a parsed tree writes exactly the lines [dumped] describes: one for each
    node at its depth, the factor of a delayed replication on a line of its own.  It succeeds
    and restores the indentation when no write fails; otherwise it stops at the first write
    that fails, and returns that write's error. *)
Theorem C64_dump : forall g ids ns, parsed g ids ns -> forall w prefix from out,
  exists lines, dumped prefix (root ns) lines /\ (forall ls, dumped prefix (root ns) ls -> ls = lines) /\
    let text := flat_map written lines in
    (writes_ok w from (length text) ->
       dump_visit w (root ns) (mkDump prefix from out) = (mkDump prefix (from + length text) (out ++ text), Ok tt)) /\
    (forall i e, (i < length text)%nat -> first_failure w from i e ->
       exists p, dump_visit w (root ns) (mkDump prefix from out) = (mkDump p (from + S i) (out ++ firstn i text), Err e)).
Proof.
  intros g ids ns H w prefix from out.
  destruct (visit_dumps w (root ns) (root_dumpable g ids ns H) prefix) as (ls & A & B).
  exists ls. split; [exact A|]. split; [intros; eapply dumped_det; eassumption|]. cbv zeta.
  destruct (B from out) as [B1 B2]. split; [exact B1|]. intros i e Hi F.
  destruct (B2 i e Hi F) as (p & _ & E). eauto.
Qed.
Print Assumptions C64_dump.

(** Every node has its line, in preorder, when no factor is itself composite. *)
Theorem C64_one_line_per_node : forall g ids ns, parsed g ids ns -> plain_factors (root ns) ->
  forall depth lines, dumped depth (root ns) lines ->
  map (fun l => snd (fst l)) lines = map an_desc (preorder (root ns)).
Proof. intros g ids ns H F depth lines D. exact (dumped_preorder _ (root_tidy g ids ns H) F depth lines D). Qed.
Print Assumptions C64_one_line_per_node.

(** It can fail only if the writer fails; it never panics. *)
Theorem C64_fails_only_with_writer : forall g ids ns, parsed g ids ns -> forall w s s' r,
  dump_visit w (root ns) s = (s', r) ->
  r = Ok tt /\ dp_prefix s' = dp_prefix s \/ exists e i, r = Err e /\ w (dp_writes s + i)%nat = Some e.
Proof.
  intros g ids ns H w [p k o] s' r E.
  destruct (C64_dump g ids ns H w p k o) as (ls & _ & _ & A & B). cbv zeta in *.
  set (n := length (flat_map written ls)) in *.
  assert (D : writes_ok w k n \/ exists i e, (i < n)%nat /\ first_failure w k i e).
  { clearbody n. clear. induction n as [|n IH]; [left; intros i Hi; lia|].
    destruct IH as [IH|(i & e & Hi & F)]; [|right; exists i, e; split; [lia|exact F]].
    destruct (w (k + n)%nat) as [e|] eqn:Ew.
    - right. exists n, e. split; [lia|]. split; assumption.
    - left. intros i Hi. destruct (Nat.eq_dec i n) as [->|]; [exact Ew|]. apply IH. lia. }
  destruct D as [W|(i & e & Hi & F)].
  - rewrite (A W) in E. injection E as <- <-. left. split; reflexivity.
  - destruct (B i e Hi F) as (p' & E'). rewrite E' in E. injection E as <- <-. right. exists e, i.
    split; [reflexivity|exact (proj1 F)].
Qed.
Print Assumptions C64_fails_only_with_writer.

Definition full_disk (n : nat) : nat -> option err := fun i => if (i <? n)%nat then None else Some EEof.
Example C64_example : exists ls, parsed demo_group demo_parse (nodes_of demo_parse) /\
  dumped 0 (root (nodes_of demo_parse)) ls /\ length ls = 29%nat /\ plain_factors (root (nodes_of demo_parse)) /\
  snd (dump_visit (full_disk 1000) (root (nodes_of demo_parse)) (mkDump 0 0 [])) = Ok tt /\
  snd (dump_visit (full_disk 40) (root (nodes_of demo_parse)) (mkDump 0 0 [])) = Err EEof.
Proof.
  destruct C24_example as (P & _). destruct (C64_dump _ _ _ P (full_disk 1000) 0 0 []) as (ls & A & _ & B & _).
  exists ls. split; [exact P|]. split; [exact A|]. split.
  - pose proof (C64_one_line_per_node _ _ _ P) as L.
    assert (F : plain_factors (root (nodes_of demo_parse))).
    { vm_compute. repeat constructor. }
    specialize (L F 0%nat ls A). apply (f_equal (@length _)) in L. rewrite !map_length in L.
    etransitivity; [exact L|]. vm_compute. reflexivity.
  - split; [vm_compute; repeat constructor|]. split; vm_compute; reflexivity.
Qed.

(** A write that fails while the bitmap of an assessment is dumped leaves the indentation
    behind: a visitor cannot be used again after an error. *)
Theorem C64_indentation_after_error_refuted : exists g ids ns w s', parsed g ids ns /\
  dump_visit w (root ns) (mkDump 0 0 []) = (s', Err EEof) /\ dp_prefix s' <> 0%nat.
Proof.
  exists demo_group, [1001; 222000; 236000; 101001; 31031; 1001; 33007],
    (nodes_of [1001; 222000; 236000; 101001; 31031; 1001; 33007]), (full_disk 6).
  eexists. split; [exists 30%nat; vm_compute; reflexivity|]. split; [vm_compute; reflexivity|].
  cbn. discriminate.
Qed.
Print Assumptions C64_indentation_after_error_refuted.

(** C63.  Every element node of a parsed template is accepted ... *)
Theorem C63_elements_partial : forall g ids ns, parsed g ids ns ->
  Forall (all_nodes (fun n => forall np, an_kind n = KElement np -> lint_visit n = LintOk)) ns.
Proof.
  intros g ids ns H. apply parsed_iff in H. apply right_kinds in H.
  eapply Forall_impl; [|exact H]. intros n. induction n as [k d ms b at_ Hms Hb Hat] using ProofsRun3.anode_full_ind.
  intros A. apply ProofsParser3.all_nodes_eq in A. apply ProofsParser3.all_nodes_eq.
  destruct A as (R & Ams & Ab & Aat). repeat split.
  - intros np E. cbn in E. subst k. unfold right_kind in R. cbn [an_desc an_kind] in R.
    destruct d as [d|]; [|discriminate]. cbn [lint_visit].
    destruct (id_F (d_id d)) as [|q|q]; [reflexivity| |destruct q; contradiction].
    destruct q as [[q|q|]|[q|q|]|]; try contradiction; try discriminate.
    + unfold documented in R. repeat match type of R with context [match ?x with _ => _ end] => destruct x; try discriminate end.
    + destruct (id_Y (d_id d) =? 0); discriminate.
  - rewrite Forall_forall in *. intros x Hx. exact (Hms x Hx (Ams x Hx)).
  - destruct b; auto.
  - rewrite Forall_forall in *. intros x Hx. exact (Hat x Hx (Aat x Hx)).
Qed.
Print Assumptions C63_elements_partial.
(** ... and 204YYY exactly when followed by 031021 ... *)
Theorem C63_assoc_partial : forall g ids ns, parsed g ids ns ->
  Forall (all_nodes (fun n => forall d, an_kind n = KAssocField -> an_desc n = Some d ->
    if id_Y (d_id d) =? 0 then lint_visit n = LintOk else
    exists m md, an_members n = [m] /\ an_desc m = Some md /\ (lint_visit n = LintOk <-> d_id md = 31021))) ns.
Proof.
  intros g ids ns H. apply parsed_iff in H. apply all_members_parsed in H.
  eapply Forall_impl; [|exact H]. intros n. induction n as [k d ms b at_ Hms Hb Hat] using ProofsRun3.anode_full_ind.
  intros A. apply ProofsParser3.all_nodes_eq in A. apply ProofsParser3.all_nodes_eq.
  destruct A as (R & Ams & Ab & Aat). repeat split.
  - intros d0 E Ed. cbn [an_kind an_desc an_members] in *. subst k d. cbn [members_parsed] in R. cbn [lint_visit].
    destruct (id_Y (d_id d0) =? 0); [reflexivity|]. destruct R as (sk & sk' & block & L & P).
    destruct block as [|i [|? ?]]; try (cbn in L; lia). destruct (parses_one _ _ _ _ _ P) as (m & md & -> & Em).
    exists m, md. split; [reflexivity|]. split; [exact Em|]. rewrite Em. unfold ID_031021.
    destruct (d_id md =? 31021) eqn:E; split; intros; try lia; congruence.
  - rewrite Forall_forall in *. intros x Hx. exact (Hms x Hx (Ams x Hx)).
  - destruct b; auto.
  - rewrite Forall_forall in *. intros x Hx. exact (Hat x Hx (Aat x Hx)).
Qed.
Print Assumptions C63_assoc_partial.
(** ... and 203YYY before elements only. *)
Theorem C63_new_refval_partial : forall g id block rest ns tree, id / 1000 = 203 -> id <> 203255 ->
  Forall (fun i => id_F i = 0) block -> parsed g (id :: block ++ 203255 :: rest) tree ->
  tree = ns :: tl tree -> lint_visit ns = LintOk.
Proof.
  intros g id block rest n tree H203 Hn Fb H Et. apply parsed_iff in H. rewrite Et in H.
  inversion H as [|? ? ? rest' ? ns' ? R P]; subst.
  assert (HF : id_F id = 2) by (unfold id_F; rewrite Z.quot_div_nonneg; lia).
  inversion R; subst; try congruence.
  - unfold standalone in *. exfalso.
    match goal with X : _ = Some k |- _ => rename X into Hs end. rewrite H203 in Hs. cbn in Hs.
    assert (id =? 203255 = false) as E by lia. rewrite E in Hs.
    replace (id =? 223255) with false in Hs by lia. replace (id =? 224255) with false in Hs by lia.
    replace (id =? 225255) with false in Hs by lia. replace (id =? 232255) with false in Hs by lia.
    replace (id =? 237255) with false in Hs by lia. discriminate.
  - exfalso. unfold with_operands in *. match goal with X : _ = Some (k, _) |- _ => rename X into Hs end.
    rewrite H203 in Hs. discriminate.
  - match goal with U : until _ _ _ _ |- _ => rename U into Hu end.
    match goal with L : Lookup g id = Ok d |- _ => pose proof (ProofsTemplate.Lookup_id _ _ _ L) as Ed end.
    assert (Eb : block0 = block).
    { destruct Hu as (E & Fo & Hr). clear - E Fo Hr Fb. revert block0 E Fo. induction Fb as [|i l Hi _ IH]; intros b0 E Fo.
      - destruct b0 as [|x b0]; [reflexivity|]. cbn in E. injection E as <- E. inversion Fo; subst. discriminate.
      - destruct b0 as [|x b0].
        + cbn in E. subst rest'. cbn in Hr. assert (i = 203255) by lia. subst. discriminate Hi.
        + cbn in E. injection E as <- E. f_equal. inversion Fo; subst. now apply IH. }
    subst block0.
    match goal with Pm : parses g _ block ms _ |- _ => pose proof (parses_elements g block Fb _ _ _ Pm) as F2 end.
    cbn [lint_visit]. destruct (negb (id_Y (d_id d) =? 255)); [|reflexivity].
    clear - F2 Fb. induction F2 as [|i m l ms (md & E1 & E2) _ IH]; [reflexivity|].
    inversion Fb as [|? ? Fi Fl]; subst. rewrite E1, Fi. cbn [Z.eqb negb]. apply IH, Fl.
  - exfalso. cbn in *. match goal with X : id = 236000 \/ _ |- _ => destruct X; subst; discriminate end.
  - exfalso. unfold assessment in *.
    repeat match goal with X : (if ?a =? ?b then _ else _) = Some _ |- _ => destruct (Z.eqb_spec a b); [subst; discriminate|] end.
    discriminate.
Qed.
Print Assumptions C63_new_refval_partial.
Example C63_accepted : parsed demo_group [204007; 31021; 12101] (nodes_of [204007; 31021; 12101]) /\
  parsed demo_group ([203008] ++ [12101] ++ [203255; 1001]) (nodes_of [203008; 12101; 203255; 1001]) /\
  map lint_visit (nodes_of [204007; 31021; 12101]) = [LintOk; LintOk] /\
  map lint_visit (nodes_of [203008; 12101; 203255; 1001]) = [LintOk; LintOk; LintOk].
Proof. split; [exists 30%nat; vm_compute; reflexivity|]. split; [exists 30%nat; vm_compute; reflexivity|]. split; vm_compute; reflexivity. Qed.

(** C63 as stated is false: a replication of elements is accepted exactly when the number of
    replications happens to be the number of replicated descriptors ... *)
Theorem C63_replication : forall g id block n, id_F id = 1 -> id_Y id <> 0 ->
  Z.of_nat (length block) = id_X id -> Forall (fun i => id_F i = 0) block ->
  parsed g (id :: block) [n] -> (lint_visit n = LintOk <-> id_X id = id_Y id).
Proof.
  intros g id block n HF HY HL Fb H. apply parsed_iff in H. inversion H as [|? ? ? rest' ? ns' ? R P]; subst.
  inversion P; subst. inversion R; subst; try congruence.
  - match goal with T : takes _ _ _ _ |- _ => rename T into Ht end.
    assert (Eb : block0 = block).
    { destruct Ht as [[E L]|(L & _ & _)]; [|lia]. rewrite app_nil_r in E. now symmetry. }
    subst block0. match goal with Pm : parses g _ block ms _ |- _ => pose proof (parses_elements g block Fb _ _ _ Pm) as F2 end.
    match goal with L : Lookup g id = Ok d |- _ => pose proof (ProofsTemplate.Lookup_id _ _ _ L) as Ed end.
    assert (Lm : length block = length ms) by (clear - F2; induction F2; cbn; congruence). cbn [lint_visit]. rewrite Ed, <- Lm, HL.
    destruct (id_Y id =? id_X id) eqn:E; cbn [negb]; split; intros; try lia; try discriminate. reflexivity.
  - exfalso. cbn in *. match goal with X : id = 236000 \/ _ |- _ => destruct X; subst; discriminate end.
Qed.
Print Assumptions C63_replication.
Theorem C63_lint_refuted : exists g ids n e, parsed g ids [n] /\ ids = [101003; 12101] /\ lint_visit n = LintErr e.
Proof.
  exists demo_group, [101003; 12101], (hd (root []) (nodes_of [101003; 12101])). eexists.
  split; [exists 30%nat; vm_compute; reflexivity|]. split; [reflexivity|vm_compute; reflexivity].
Qed.
Print Assumptions C63_lint_refuted.
(** ... and linting the tree Parse returns, or a sequence, panics. *)
Theorem C63_panic_refuted : exists g ids n, parsed g ids [n] /\ ids = [301001] /\
  lint_visit n = LintPanic /\ forall ns, lint_visit (root ns) = LintPanic.
Proof.
  exists demo_group, [301001], (hd (root []) (nodes_of [301001])).
  split; [exists 30%nat; vm_compute; reflexivity|]. split; [reflexivity|]. split; [vm_compute; reflexivity|reflexivity].
Qed.
Print Assumptions C63_panic_refuted.
