(** Property theorems C67: which values are members of which in the hierarchical view.
    Vocabulary: SpecTree.v and SpecRun.v. *)
From Verif Require Import SpecTree Demo PropsRun ProofsTree2.
Notation demo_nodes := PropsParser.nodes_of.

(** Each value's node is an object of its own, and its members are exactly the nodes of the
    values that the links of the execution name, in order: associated fields of an element,
    the significance of an associated field, quality and statistics values of their bitmap
    target, attributes of such values. *)
Theorem C67_members : forall g ids ms cf r s, parsed g ids ms -> some_subset cf ->
  run_payload cf (root ms) (vst0 r) = (s, Ok tt) ->
  exists hs, executes_links cf ms r hs (v_r s) /\ shows_links cf hs (v_pay s) /\
    executes cf ms r (map fst hs) (v_r s).
Proof.
  intros g ids ms cf r s Hp Hs H. destruct (run_payload_links cf ms r s (parsed_no_base _ _ _ Hp) Hs H) as (hs & HX & HS).
  exists hs. split; [exact HX|]. split; [exact HS|]. eapply executes_forget; eauto.
Qed.
Print Assumptions C67_members.
(** In particular the associated fields of an element are its first members, in order, and
    the first member of each is the 031021 value that gave its significance (nil if none). *)
Theorem C67_fields : forall cf ms r hs r', executes_links cf ms r hs r' ->
  Forall (fun hl => element_first (fst hl) (snd hl)) hs.
Proof. exact executes_first. Qed.
Print Assumptions C67_fields.
(** Without 204 and quality or statistics operators no value has members. *)
Theorem C67_no_members : forall g ids ms cf r s, parsed g ids ms -> some_subset cf -> Forall attributeless ms ->
  run_payload cf (root ms) (vst0 r) = (s, Ok tt) ->
  forall sb c, In sb (v_pay s) -> In c (sb_cells sb) ->
    nth_error (sb_heap sb) (vn_id (c_node c)) = Some (mkHnode (NValued (c_node c)) []).
Proof.
  intros g ids ms cf r s Hp Hs Ha H. destruct (run_payload_links cf ms r s (parsed_no_base _ _ _ Hp) Hs H) as (hs & HX & HS).
  eapply shows_plain; [exact HS|]. eapply executes_plain; eauto.
Qed.
Print Assumptions C67_no_members.

(** The members of each cell's node, as cell positions. *)
Definition cell_of (sb : subset) (p : nat) : option nat :=
  (fix go i l := match l with [] => None | c :: l' => if Nat.eqb (vn_id (c_node c)) p then Some i else go (S i) l' end) 0%nat (sb_cells sb).
Definition member_cells (s : vst) : list (list (list (option nat))) :=
  map (fun sb => map (fun c => match nth_error (sb_heap sb) (vn_id (c_node c)) with
                               | Some n => map (fun q => match q with Some p => cell_of sb p | None => None end) (h_members n)
                               | None => [] end) (sb_cells sb)) (v_pay s).
Definition demo_attrs : list Z := [204003; 31021; 1001; 204002; 31021; 1002; 204000; 204000; 8002].
(** Cells 1 and 4, 5 are the associated fields of cells 2 and 6; in the second template the
    quality value 6 and the statistics 8 and 9 are attached to the values 0 and 2 that the
    bitmap 0 1 0 selects, and the statistics have the meaning 7 (008023). *)
Example C67_example :
  parsed demo_group demo_attrs (demo_nodes demo_attrs) /\
  parsed demo_group demo_bitmaps (demo_nodes demo_bitmaps) /\ some_subset (demo_cf false false 1) /\
  (exists s, run_payload (demo_cf false false 1) (root (demo_nodes demo_attrs)) (vst0 (RBit (mkBR (repeat false 100) EEof 0))) = (s, Ok tt) /\
    cell_ids s = [[31021; 1001; 1001; 31021; 1002; 1002; 1002; 8002]] /\
    member_cells s = [[[]; [Some 0]; [Some 1]; []; [Some 0]; [Some 3]; [Some 4; Some 5]; []]]%nat) /\
  (exists s, run_payload (demo_cf false false 1) (root (demo_nodes demo_bitmaps)) (vst0 (RBit (mkBR demo_bitmap_bits EEof 0))) = (s, Ok tt) /\
    cell_ids s = [[1001; 1002; 8002; 31031; 31031; 31031; 33007; 8023; 224255; 224255]] /\
    member_cells s = [[[Some 6; Some 8]; []; [Some 9]; []; []; []; []; []; [Some 7]; [Some 7]]]%nat) /\
  Forall attributeless (demo_nodes [301001; 101002; 20011; 201132; 12101; 201000; 8002]).
Proof.
  split; [exists 30%nat; vm_compute; reflexivity|]. split; [exists 30%nat; vm_compute; reflexivity|]. split; [intros H; discriminate H|].
  split; [|split].
  - eexists. split; [apply run_demo; vm_compute; reflexivity|]. split; vm_compute; reflexivity.
  - eexists. split; [apply run_demo; vm_compute; reflexivity|]. split; vm_compute; reflexivity.
  - vm_compute. repeat constructor; discriminate.
Qed.
