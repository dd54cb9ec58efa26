(** Property theorems C23-C30: parsing templates.  Vocabulary: SpecParser.v. *)
From Verif Require Import SpecParser ModelPayload Demo PropsTemplate ProofsParser5.

(** C23.  Parsing returns whenever no sequence contains itself, with the same answer however
    much recursion is allowed beyond what it needs ... *)
Theorem C23_terminates : forall g, acyclic g -> forall ids parser,
  exists fuel answer, snd answer <> NoFuel /\
    forall fuel', (fuel <= fuel')%nat -> Parse g fuel' ids parser = answer.
Proof. exact Parse_returns. Qed.
Print Assumptions C23_terminates.
(** ... and never on a sequence that begins with itself. *)
Theorem C23_cycle_diverges : forall g fuel id d post rest parser,
  Lookup g id = Ok d -> d_entry d = ED (id :: post) ->
  snd (Parse g fuel (id :: rest) parser) = NoFuel.
Proof. exact Parse_cycle. Qed.
Print Assumptions C23_cycle_diverges.
Example C23_example : acyclic demo_acyclic /\ exists d,
  Lookup demo_group 309999 = Ok d /\ d_entry d = ED (309999 :: [1001]).
Proof. split; [exact C21_acyclic_example|]. eexists. split; reflexivity. Qed.

(** C24.  Parse succeeds exactly on what the grammar [parses] describes, and returns the
    described tree. *)
Theorem C24_grammar : forall g ids ns, parsed g ids ns <-> parses g false ids ns false.
Proof. exact parsed_iff. Qed.
Print Assumptions C24_grammar.
(** Reading a parsed tree back in document order gives the template with zeros inserted at
    most ... *)
Theorem C24_document_order : forall g ids ns,
  parsed g ids ns -> zero_padded ids (flat_map doc ns).
Proof. intros g ids ns H. apply parsed_iff in H. exact (proj1 (grammar_padded g) _ _ _ _ H). Qed.
Print Assumptions C24_document_order.
(** ... and exactly the template when no 206YYY occurs and 000000 is not in Table B. *)
Theorem C24_exact : forall g ids ns, (forall d, Lookup g 0 <> Ok d) -> parsed g ids ns ->
  Forall no_local ns -> flat_map doc ns = ids.
Proof. exact parsed_exact. Qed.
Print Assumptions C24_exact.
(** Every sequence node holds the parse of its Table D definition (first case of
    [members_parsed]). *)
Theorem C24_sequences : forall g ids ns, parsed g ids ns ->
  Forall (all_nodes (members_parsed g)) ns.
Proof. intros g ids ns H. apply parsed_iff in H. eapply all_members_parsed, H. Qed.
Print Assumptions C24_sequences.

Definition nodes_of (ids : list Z) : list anode :=
  match snd (Parse demo_group 30 ids parser0) with Ok n => an_members n | _ => [] end.
Definition demo_parse : list Z :=
  [302001; 103002; 204007; 31021; 12101; 204000; 12101; 20011; 222000; 236000; 101002; 31031;
   1001; 102000; 31001; 33007; 33007; 201132; 12101].
Example C24_example :
  parsed demo_group demo_parse (nodes_of demo_parse) /\
  flat_map doc (nodes_of demo_parse) = demo_parse /\
  length (nodes_of demo_parse) = 8%nat /\ (forall d, Lookup demo_group 0 <> Ok d).
Proof.
  split; [exists 30%nat; vm_compute; reflexivity|].
  split; [vm_compute; reflexivity|]. split; [vm_compute; reflexivity|discriminate].
Qed.

(** C25.  A replication that is followed by as many identifiers as it announces (one more,
    the factor, when delayed) owns exactly the parse of these, and parsing resumes right
    after them. *)
Theorem C25_scope : forall g id block rest tree, id_F id = 1 ->
  Z.of_nat (length block) = (if id_Y id =? 0 then id_X id + 1 else id_X id) ->
  parsed g (id :: block ++ rest) tree <->
  exists d ms ns, Lookup g id = Ok d /\ parsed g block ms /\ parsed g rest ns /\
    tree = ANode (if id_Y id =? 0 then KDelayed else KFixed) (Some d) ms None [] :: ns.
Proof. exact parsed_replication. Qed.
Print Assumptions C25_scope.
(** At any depth, a replication's members are the parse of a block of the announced
    length. *)
Theorem C25_everywhere : forall g ids ns, parsed g ids ns ->
  Forall (all_nodes (members_parsed g)) ns.
Proof. intros g ids ns H. apply parsed_iff in H. eapply all_members_parsed, H. Qed.
Print Assumptions C25_everywhere.
Example C25_example :
  parsed demo_group (102000 :: [31001; 101003; 12101] ++ [1001]) (nodes_of [102000; 31001; 101003; 12101; 1001]) /\
  map (fun n => map doc (an_members n)) (nodes_of [102000; 31001; 101003; 12101; 1001])
  = [[[31001]; [101003; 12101]]; []].
Proof. split; [exists 30%nat; vm_compute; reflexivity|vm_compute; reflexivity]. Qed.

(** C26.  Whatever happened while parsing, the parser is as new afterwards ... *)
Theorem C26_state : forall g fuel ids, fst (Parse g fuel ids parser0) = parser0.
Proof. exact Parse_flags. Qed.
Print Assumptions C26_state.
(** ... so that after any history of templates, parsed or rejected, it behaves like a new
    one. *)
Theorem C26_history : forall g fuel history last,
  (mapM_ (fun ids f => (fst (Parse g fuel ids f), Ok tt)) history ;; Parse g fuel last)%M parser0
  = Parse g fuel last parser0.
Proof. exact Parse_history. Qed.
Print Assumptions C26_history.
Example C26_example :
  snd (Parse demo_group 30 [206008; 302001; 99999] parser0) <> Ok (root []) /\
  (exists e, snd (Parse demo_group 30 [206008; 309001] parser0) = Err e) /\
  (exists e, snd (Parse demo_group 30 [221003; 1001; 99999; 1] parser0) = Err e).
Proof. split; [vm_compute; discriminate|]. split; eexists; vm_compute; reflexivity. Qed.

(** C27 is false: no element is ever marked as not present ... *)
Theorem C27_never_marked : forall g ids ns, parsed g ids ns ->
  Forall (all_nodes (fun n => an_kind n <> KElement true)) ns.
Proof. exact never_marked. Qed.
Print Assumptions C27_never_marked.
(** ... and decoding 221001 012101, whose element is of class 12, reads its 16 bits. *)
Theorem C27_reads_data_refuted : exists g ids tree bits s c,
  snd (Parse g 10 ids parser0) = Ok tree /\ ids = [221001; 12101] /\ id_X 12101 = 12 /\
  run_payload (mkConfig false false false 1 (mkPlatform (fun _ => 0) (fun _ => 0)) 0) tree
    (vst0 (RBit (mkBR bits EEof 0))) = (s, Ok tt) /\
  r_Pos (v_r s) = 16 /\ map sb_cells (v_pay s) = [[c]] /\ c_val c <> VNil.
Proof.
  exists demo_group, [221001; 12101]. eexists. exists (repeat false 24). eexists. eexists.
  split; [vm_compute; reflexivity|]. split; [reflexivity|]. split; [reflexivity|].
  split; [vm_compute; reflexivity|]. split; [reflexivity|]. split; [reflexivity|discriminate].
Qed.
Print Assumptions C27_reads_data_refuted.

(** C28.  Every node of a parsed tree has the kind documented for its descriptor ... *)
Theorem C28_kinds : forall g ids ns, parsed g ids ns -> Forall (all_nodes right_kind) ns.
Proof. exact not_ok_context. Qed.
Print Assumptions C28_kinds.
(** ... (a top-level operator yields a node with its own descriptor) ... *)
Theorem C28_own_descriptor : forall g id ids ns, id_F id = 2 -> parsed g (id :: ids) ns ->
  exists n ns' d, ns = n :: ns' /\ an_desc n = Some d /\ d_id d = id /\ documented id = Some (an_kind n).
Proof. exact own_descriptor. Qed.
Print Assumptions C28_own_descriptor.
(** ... and every undocumented operator is rejected with an error. *)
Theorem C28_undocumented : forall g fuel id rest parser, id_F id = 2 -> documented id = None ->
  exists e, snd (Parse g (S fuel) (id :: rest) parser) = Err e.
Proof. exact undocumented. Qed.
Print Assumptions C28_undocumented.
(** Rejection also holds wherever the operator stands in a template. *)
Theorem C28_undocumented_anywhere : forall g before id rest ns, id_F id = 2 ->
  documented id = None -> ~ parsed g (before ++ id :: rest) ns.
Proof. exact undocumented_anywhere. Qed.
Print Assumptions C28_undocumented_anywhere.
Example C28_example :
  documented 241000 = None /\ documented 222001 = None /\ documented 242255 = None /\
  id_F 241000 = 2 /\ documented 225255 = Some KMarker /\
  (exists e, snd (Parse demo_group 1 [243255; 1001] parser0) = Err e).
Proof. repeat split; try reflexivity. eexists. vm_compute. reflexivity. Qed.

(** C29.  The identifiers after an assessment operator are split, in order and without
    loss, into bitmap, attributes, members and the rest, delimited as described. *)
Theorem C29_partition : forall g id ids ns mem, assessment id = Some mem ->
  parsed g (id :: ids) ns ->
  exists bids aids mids rest d bm attrs ms more,
    ids = bids ++ aids ++ mids ++ rest /\
    bitmap_ids ids bids (aids ++ mids ++ rest) /\
    until (fun i => replication i || mem i) (aids ++ mids ++ rest) aids (mids ++ rest) /\
    first_run mem (mids ++ rest) mids rest /\
    Lookup g id = Ok d /\
    ns = ANode KAssessment (Some d) ms (Some bm) attrs :: more /\
    bitmap_reads g false ids bm (aids ++ mids ++ rest) false /\
    parsed g aids attrs /\ parsed g mids ms /\ parsed g rest more.
Proof. exact partition. Qed.
Print Assumptions C29_partition.
Definition demo_qa : list Z :=
  [222000; 236000; 101003; 31031; 31031; 1001; 1002; 102002; 12101; 33007; 33007; 201132; 12101].
Example C29_example :
  parsed demo_group demo_qa (nodes_of demo_qa) /\
  map (fun n => (doc n, match an_bitmap n with Some b => doc b | None => [] end,
                 flat_map doc (an_attrs n), flat_map doc (an_members n))) (firstn 1 (nodes_of demo_qa))
  = [(firstn 11 demo_qa, [236000; 101003; 31031; 31031], [1001; 1002], [102002; 12101; 33007; 33007])].
Proof. split; [exists 30%nat; vm_compute; reflexivity|vm_compute; reflexivity]. Qed.

(** C30 is false: 206008 at the end of a template lacks its local descriptor, and parsing
    makes one up. *)
Theorem C30_local_refuted : exists g ids ns,
  parsed g ids ns /\ ids = [1001; 206008] /\ flat_map doc ns = [1001; 206008; 0].
Proof.
  exists demo_group, [1001; 206008], (nodes_of [1001; 206008]).
  split; [exists 30%nat; vm_compute; reflexivity|]. split; [reflexivity|vm_compute; reflexivity].
Qed.
Print Assumptions C30_local_refuted.
(** It holds where no 206YYY occurs and 000000 is not in Table B: everything accepted is
    complete. *)
Theorem C30_complete_partial : forall g ids ns, (forall d, Lookup g 0 <> Ok d) ->
  parsed g ids ns -> Forall no_local ns -> Forall (all_nodes holds_announced) ns.
Proof.
  intros g ids ns H0 H Hl. apply parsed_iff in H.
  exact (proj1 (announced g H0) _ _ _ _ H eq_refl Hl).
Qed.
Print Assumptions C30_complete_partial.
(** In particular a last replication with too few identifiers is not accepted. *)
Theorem C30_truncated_partial : forall g id block ns, (forall d, Lookup g 0 <> Ok d) ->
  id_F id = 1 ->
  Z.of_nat (length block) < (if id_Y id =? 0 then id_X id + 1 else id_X id) ->
  Forall no_local ns -> ~ parsed g (id :: block) ns.
Proof. exact truncated. Qed.
Print Assumptions C30_truncated_partial.
(** Not only an error: an assessment operator at the end of a template panics. *)
Theorem C30_panic_refuted : exists g ids,
  ids = [12101; 222000] /\ snd (Parse g 10 ids parser0) = Panic PIndex.
Proof. exists demo_group, [12101; 222000]. split; [reflexivity|vm_compute; reflexivity]. Qed.
Print Assumptions C30_panic_refuted.
Example C30_example :
  (forall d, Lookup demo_group 0 <> Ok d) /\ parsed demo_group demo_parse (nodes_of demo_parse) /\
  Forall (all_nodes (fun n => an_kind n <> KSkipLocal)) (nodes_of demo_parse).
Proof.
  split; [discriminate|]. split; [exists 30%nat; vm_compute; reflexivity|].
  let n := eval vm_compute in (nodes_of demo_parse) in change (nodes_of demo_parse) with n.
  repeat first [apply Forall_nil | apply Forall_cons]; cbn; repeat split; discriminate.
Qed.
