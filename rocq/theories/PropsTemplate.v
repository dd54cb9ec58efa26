(** Property theorems C21 and C22: hierarchical templates.  Vocabulary: SpecTemplate.v. *)
From Verif Require Import SpecTemplate Demo ProofsTemplate.

(** C21.  On templates whose replications nest properly, Expand yields exactly the
    hierarchical form described by [expansion_of] ... *)
Theorem C21_expand_partial : forall g ids nodes,
  expansion_of g ids nodes <->
  (exists fuel, Expand fuel g ids = Ok nodes) /\ Forall covers_exactly nodes.
Proof. exact Expand_iff. Qed.
Print Assumptions C21_expand_partial.
(** ... which flattens back to the template.  Missing with respect to the claim: a nested
    replication that announces more identifiers than its enclosing block holds. *)
Theorem C21_flatten_partial : forall g fuel ids nodes,
  Expand fuel g ids = Ok nodes -> Forall covers_exactly nodes -> flat_map flatten nodes = ids.
Proof. exact Expand_flatten. Qed.
Print Assumptions C21_flatten_partial.
(** For such a template the claim is false: 101002 102003 001001 001002 expands
    successfully, without loss of descriptors but with 001001 and 001002 twice. *)
Theorem C21_overrun_refuted : exists g ids fuel nodes,
  Expand fuel g ids = Ok nodes /\ flat_map flatten nodes <> ids /\
  ids = [101002; 102003; 1001; 1002] /\
  flat_map flatten nodes = [101002; 102003; 1001; 1002; 1001; 1002].
Proof.
  exists demo_group, [101002; 102003; 1001; 1002], 10%nat. eexists.
  split; [vm_compute; reflexivity|]. split; [vm_compute; discriminate|]. split; reflexivity.
Qed.
Print Assumptions C21_overrun_refuted.
(** Expansion returns whenever no sequence contains itself, with the same answer however
    much recursion is allowed beyond what it needs, and never on a sequence that begins
    with itself. *)
Theorem C21_terminates : forall g, acyclic g -> forall ids,
  exists fuel answer, answer <> NoFuel /\
    forall fuel', (fuel <= fuel')%nat -> Expand fuel' g ids = answer.
Proof. intros g H ids. exact (expand_returns g H ids []). Qed.
Print Assumptions C21_terminates.
Theorem C21_cycle_diverges : forall fuel g id d post rest,
  Lookup g id = Ok d -> d_entry d = ED (id :: post) -> Expand fuel g (id :: rest) = NoFuel.
Proof. intros fuel g id d post rest. exact (expand_cycle fuel g id d post rest []). Qed.
Print Assumptions C21_cycle_diverges.

Definition demo_template : list Z := [302001; 104002; 1001; 101000; 31001; 12101; 201132; 20011].
Definition demo_nodes : list tnode :=
  match Expand 20 demo_group demo_template with Ok n => n | _ => [] end.
Example C21_example :
  Expand 20 demo_group demo_template = Ok demo_nodes /\ Forall covers_exactly demo_nodes /\
  flat_map flatten demo_nodes = demo_template /\ length demo_nodes = 4%nat.
Proof.
  split; [vm_compute; reflexivity|].
  split; [|split; vm_compute; reflexivity].
  let n := eval vm_compute in demo_nodes in change demo_nodes with n.
  repeat first [apply Forall_nil | apply Forall_cons].
  all: cbn; repeat split; try discriminate; auto.
Qed.
Example C21_cycle_example : exists d,
  Lookup demo_group 309999 = Ok d /\ d_entry d = ED (309999 :: [1001]) /\
  Expand 1000 demo_group [309999; 1001] = NoFuel.
Proof. eexists. split; [reflexivity|]. split; reflexivity. Qed.
Definition demo_acyclic : group := GSingle (mkSingle (fun _ => None)
  (assoc_get [(301001, [1001; 1002]); (302001, [301001; 301001; 102002; 12101])])).
Example C21_acyclic_example : acyclic demo_acyclic.
Proof.
  exists (fun id => if id =? 302001 then 1%nat else 0%nat).
  intros id d ms HL He. apply Lookup_kind in HL. rewrite He in HL.
  destruct HL as (_ & _ & H3 & s & Hs & Hd). destruct Hs as [<-|[]].
  cbn [demo_acyclic s_d assoc_get] in Hd.
  destruct (Z.eqb_spec 301001 id) as [<-|]; [injection Hd as <-; repeat constructor; vm_compute; discriminate|].
  destruct (Z.eqb_spec 302001 id) as [<-|]; [injection Hd as <-|discriminate].
  repeat constructor; vm_compute; try discriminate; auto.
Qed.

(** C22.  A completed walk follows the grammar [walks_list] and receives exactly the counts
    the grammar announces; it never fails, and it can wait only for a count that never
    comes. *)
Theorem C22_walk : forall members ins, Forall known_kinds members ->
  match Walk members ins with
  | (s, Ok _) => exists counts rest evs,
      walks_list (match ins with Some _ => true | None => false end) counts members evs /\
      ins = (match ins with Some _ => Some (counts ++ rest) | None => None end) /\
      w_ins s = (match ins with Some _ => Some rest | None => None end) /\
      w_out s = (WE_BEGIN_TEMPLATE, None) :: evs ++ [(WE_END_TEMPLATE, None)]
  | (_, NoFuel) => ins <> None
  | _ => False
  end.
Proof. exact Walk_outcome. Qed.
Print Assumptions C22_walk.
(** Conversely every walk the grammar allows is the one performed. *)
Theorem C22_walk_complete : forall members counts rest evs (ch : bool),
  walks_list ch counts members evs ->
  Walk members (if ch then Some (counts ++ rest) else None)
  = (mkWalk (if ch then Some rest else None)
       ((WE_BEGIN_TEMPLATE, None) :: evs ++ [(WE_END_TEMPLATE, None)]), Ok tt).
Proof. exact Walk_complete. Qed.
Print Assumptions C22_walk_complete.
Theorem C22_well_nested : forall ch counts nodes evs,
  walks_list ch counts nodes evs -> well_nested evs.
Proof. exact walk_well_nested. Qed.
Print Assumptions C22_well_nested.
(** Dump succeeds and prints each descriptor once, indented by its depth. *)
Theorem C22_dump : forall nodes, Forall known_kinds nodes ->
  Dump nodes = Ok (flat_map (lines_of 0) nodes).
Proof. exact Dump_lines. Qed.
Print Assumptions C22_dump.
(** The hypothesis holds of every expanded template. *)
Theorem C22_expanded : forall g fuel ids nodes,
  Expand fuel g ids = Ok nodes -> Forall known_kinds nodes.
Proof. intros g fuel ids nodes. exact (expand_known fuel g ids [] nodes). Qed.
Print Assumptions C22_expanded.
Definition codes (x : walkst * res unit) := map fst (w_out (fst x)).
Example C22_example : Forall known_kinds demo_nodes /\
  (exists s, Walk demo_nodes (Some [3; 0; 7]) = (s, Ok tt) /\ w_ins s = Some [7] /\
     length (filter (fun c => match c with WE_BEGIN_BLOCK => true | _ => false end)
               (map fst (w_out s))) = 7%nat) /\
  (* 2 blocks in 302001, 2 of 104002, 3 + 0 of the two 101000 *)
  (exists s, Walk demo_nodes (Some [3]) = (s, NoFuel)) /\
  Dump demo_nodes = Ok (flat_map (lines_of 0) demo_nodes).
Proof.
  assert (H : Forall known_kinds demo_nodes)
    by exact (C22_expanded demo_group 20 demo_template demo_nodes eq_refl).
  split; [exact H|]. split; [|split; [|exact (C22_dump _ H)]]; eexists; vm_compute; repeat split.
Qed.
