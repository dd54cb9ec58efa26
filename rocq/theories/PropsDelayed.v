(** Property theorems C76: bitmaps and the values they announce given with delayed
    replication.  Vocabulary: SpecDelayed.v, SpecTree.v and SpecRun.v. *)
From Verif Require Import SpecDelayed Demo PropsRun PropsTree ProofsRun6 ProofsDelayed.

Definition demo_factored : list Z := [1001; 1002; 8002; 222000; 236000; 101003; 31031; 101000; 31001; 33007].
Definition demo_factored_bits : list Z := [1001; 1002; 8002; 222000; 236000; 101000; 31001; 31031; 33007; 33007].
Definition demo_before : list bool := bits 7 1 ++ bits 10 2 ++ bits 6 3.

(** ** Values *)
(** False: two bits of the bitmap 0 1 0 are zero and two values are given, after their number;
    decoding panics. *)
Theorem C76_values_refuted : exists g ids ms cf r, parsed g ids ms /\ 0 < cf_nsubsets cf /\
  ids = [1001; 1002; 8002; 222000; 236000; 101003; 31031; 101000; 31001; 33007] /\
  r = RBit (mkBR (demo_before ++ bits 3 2 ++ bits 8 2 ++ bits 7 50 ++ bits 7 60) EEof 0) /\
  snd (run_payload cf (root ms) (vst0 r)) = Panic PIndex.
Proof.
  exists demo_group, demo_factored, (demo_nodes demo_factored), (demo_cf false false 1). eexists.
  split; [exists 30%nat; vm_compute; reflexivity|]. split; [reflexivity|]. split; [reflexivity|]. split; [reflexivity|]. vm_compute. reflexivity.
Qed.
Print Assumptions C76_values_refuted.
(** So it is for all templates and data: the number of values counts as the first value.  If
    decoding succeeds there are fewer values than the bitmap selects elements ([ps]), the
    number ([x], the last of its cells [ds ++ [x]]) has been attached to the first of these,
    and every value to the element after its own. *)
Theorem C76_values : forall g ids ms pre od od' f srcs b a bm at_ post cf r s, parsed g ids ms -> some_subset cf ->
  ms = pre ++ ANode KAssessment od [ANode KDelayed od' (f :: srcs) b a] (Some bm) at_ :: post ->
  valued f -> Forall valued srcs ->
  run_payload cf (root ms) (vst0 r) = (s, Ok tt) ->
  exists hs, executes_links cf ms r hs (v_r s) /\ shows_links cf hs (v_pay s) /\
    forall h ls, In (h, ls) hs ->
    exists later before ps ds x vs rest z, h = later ++ EvTargets ps :: before /\ selects cf before ps /\
      data h = data before ++ (ds ++ [x]) ++ vs ++ rest /\ counts cf x z /\
      (Z.to_nat z * length srcs <= length vs)%nat /\ (length vs < length ps)%nat /\
      (length ds + 1 + length vs <= length ps)%nat /\
      forall i, (i < length ds + 1 + length vs)%nat -> In (nth i ps 0%nat, Some (length (data before) + i)%nat) ls.
Proof.
  intros g ids ms pre od od' f srcs b a bm at_ post cf r s Hp Hs E Hf Hsrc H.
  destruct (C67_members g ids ms cf r s Hp Hs H) as (hs & HX & HS & _). exists hs. split; [exact HX|]. split; [exact HS|].
  intros h ls Hi. destruct (each_links _ _ _ _ _ HX h ls Hi) as (r0 & r1 & HL). rewrite E in HL.
  destruct (values_shifted _ _ _ _ _ _ _ _ _ _ _ _ _ _ _ Hf Hsrc HL) as (later & before & ps & ds & x & vs & rest & z & H1 & H2 & H3 & H4 & H5 & H6 & H7).
  exists later, before, ps, ds, x, vs, rest, z. do 5 (split; [assumption|]). split; [lia|]. split; assumption.
Qed.
Print Assumptions C76_values.
(** One value for the two elements 0 and 2 of the bitmap 0 1 0: their number (cell 6) becomes
    a member of cell 0 and the value (cell 7) a member of cell 2. *)
Example C76_values_example : parsed demo_group demo_factored (demo_nodes demo_factored) /\ some_subset (demo_cf false false 1) /\
  (exists pre od od' f srcs b a bm at_, demo_nodes demo_factored = pre ++ [ANode KAssessment od [ANode KDelayed od' (f :: srcs) b a] (Some bm) at_] /\
    valued f /\ Forall valued srcs /\ length srcs = 1%nat) /\
  exists s, demo_run (demo_cf false false 1) demo_factored (demo_before ++ bits 3 2 ++ bits 8 1 ++ bits 7 50) = (s, Ok tt) /\
    cell_ids s = [[1001; 1002; 8002; 31031; 31031; 31031; 31001; 33007]] /\
    member_cells s = [[[Some 6]; []; [Some 7]; []; []; []; []; []]]%nat.
Proof.
  split; [exists 30%nat; vm_compute; reflexivity|]. split; [intros H; discriminate H|]. split.
  - exists (demo_nodes [1001; 1002; 8002]). vm_compute. do 8 eexists. split; [reflexivity|]. split; [tauto|]. split; [repeat constructor|reflexivity].
  - eexists. split; [vm_compute; reflexivity|]. split; vm_compute; reflexivity.
Qed.

(** ** Bits *)
(** False: three elements and a bitmap of three bits, given after their number; decoding
    fails. *)
Theorem C76_bits_refuted : exists g ids ms cf r e, parsed g ids ms /\ 0 < cf_nsubsets cf /\
  ids = [1001; 1002; 8002; 222000; 236000; 101000; 31001; 31031; 33007; 33007] /\
  r = RBit (mkBR (demo_before ++ bits 8 3 ++ bits 3 2 ++ bits 7 50 ++ bits 7 60) EEof 0) /\
  snd (run_payload cf (root ms) (vst0 r)) = Err e.
Proof.
  exists demo_group, demo_factored_bits, (demo_nodes demo_factored_bits), (demo_cf false false 1). do 2 eexists.
  split; [exists 30%nat; vm_compute; reflexivity|]. split; [reflexivity|]. split; [reflexivity|]. split; [reflexivity|]. vm_compute. reflexivity.
Qed.
Print Assumptions C76_bits_refuted.
(** So it is for all templates and data: the number of bits counts as the first bit.  If
    decoding succeeds, more elements ([cells]) than bits precede the operator.  (In compatible
    mode the operators' own zeros [zs] are in between.) *)
Theorem C76_bits : forall g ids ms pre od srcs d od' df de b a b' a' at_ post cf r s, parsed g ids ms -> some_subset cf ->
  ms = pre ++ ANode KAssessment od srcs
         (Some (ANode KBitmap (Some d) [ANode KDelayed od' [element_node df; element_node de] b a] b' a')) at_ :: post ->
  d_id d <> ID_237000 -> id_X (d_id df) = 31 -> id_X (d_id de) = 31 -> Forall valued at_ ->
  run_payload cf (root ms) (vst0 r) = (s, Ok tt) ->
  exists hs, executes cf ms r hs (v_r s) /\ shows cf hs (v_pay s) /\
    forall h, In h hs ->
    exists cells zs x bits rest z vals later ps before,
      data h = cells ++ zs ++ x :: bits ++ rest /\ (length zs <= 2)%nat /\ (cf_compatible cf = false -> zs = []) /\
      dt_desc x = df /\ counts cf x z /\
      length bits = Z.to_nat z /\ Forall (fun y => dt_desc y = de) bits /\ Forall2 (counts cf) bits vals /\
      (length bits < length cells)%nat /\
      (* the targets: those the bits alone would select, except that no bits select one *)
      h = later ++ EvTargets ps :: before /\ (backref before <= length cells)%nat /\
      (0 < z -> ps = zero_positions (backref before - length bits) vals) /\
      (z = 0 -> ps = [(backref before - 1)%nat]).
Proof.
  intros g ids ms pre od srcs d od' df de b a b' a' at_ post cf r s Hp Hs E Hd Hf He Ha H.
  destruct (run_payload_sound cf ms r s (parsed_no_base _ _ _ Hp) Hs H) as (hs & HX & HS). exists hs. split; [exact HX|]. split; [exact HS|].
  intros h Hi. destruct (each_runs _ _ _ _ _ HX h Hi) as (r0 & r1 & HL). rewrite E in HL.
  destruct (bits_shifted _ _ _ _ _ _ _ _ _ _ _ _ _ _ _ _ _ Hd Hf He Ha HL) as (cells & zs & x & bits & rest & z & vals & later & ps & before & H1 & H2 & H3 & H4 & H5 & H6 & H7 & H8 & H9 & H10 & H11 & H12).
  exists cells, zs, x, bits, rest, z, vals, later, ps, before. do 8 (split; [assumption|]). split; [lia|]. split; [assumption|]. split; [assumption|].
  rewrite H6, H12. split; intros Hz; cbn [zero_positions].
  - destruct (z =? 0) eqn:Ez; [lia|]. f_equal. lia.
  - subst z. destruct bits; [|discriminate H6]. inversion H8; subst. cbn. reflexivity.
Qed.
Print Assumptions C76_bits.
(** Two bits 0 0 after three elements: the last two get the values. *)
Example C76_bits_example : parsed demo_group demo_factored_bits (demo_nodes demo_factored_bits) /\ some_subset (demo_cf false false 1) /\
  (exists pre od srcs d od' df de b a b' a' at_, demo_nodes demo_factored_bits = pre ++ [ANode KAssessment od srcs
         (Some (ANode KBitmap (Some d) [ANode KDelayed od' [element_node df; element_node de] b a] b' a')) at_] /\
    d_id d <> ID_237000 /\ id_X (d_id df) = 31 /\ id_X (d_id de) = 31 /\ Forall valued at_) /\
  exists s, demo_run (demo_cf false false 1) demo_factored_bits (demo_before ++ bits 8 2 ++ bits 2 0 ++ bits 7 50 ++ bits 7 60) = (s, Ok tt) /\
    cell_ids s = [[1001; 1002; 8002; 31001; 31031; 31031; 33007; 33007]] /\
    member_cells s = [[[]; [Some 6]; [Some 7]; []; []; []; []; []]]%nat.
Proof.
  split; [exists 30%nat; vm_compute; reflexivity|]. split; [intros H; discriminate H|]. split.
  - exists (demo_nodes [1001; 1002; 8002]), (Some (demo_desc 222000)), (demo_nodes [33007; 33007]), (demo_desc 236000), (Some (demo_desc 101000)), (demo_desc 31001), (demo_desc 31031).
    do 5 eexists. split; [vm_compute; reflexivity|]. split; [vm_compute; discriminate|]. split; [reflexivity|]. split; [reflexivity|constructor].
  - eexists. split; [vm_compute; reflexivity|]. split; vm_compute; reflexivity.
Qed.
