(** C70: constants print their names.  C71: printed texts identify what they print. *)
From Verif Require Import SpecNames ProofsTable ProofsNames PropsParser SpecRun PropsRun.
From Coq Require Import Lia.

(** ** C70 *)
Theorem C70_operators : forall i t, Operator_String i = Ok t <-> prints "Operator" operator_names i t.
Proof. exact Operator_prints. Qed.
Print Assumptions C70_operators.
Theorem C70_events : forall i t, EventCode_String i = Ok t <-> prints "EventCode" event_names i t.
Proof. exact EventCode_prints. Qed.
Print Assumptions C70_events.
Example C70_names : Operator_String 236 = Ok (gs "OP_DEFINE_BITMAP") /\ Operator_String 209 = Ok (gs "Operator(209)") /\
  EventCode_String 12 = Ok (gs "WE_END_TEMPLATE") /\ EventCode_String (-1) = Ok (gs "EventCode(-1)").
Proof. repeat split; vm_compute; reflexivity. Qed.

(** Every number prints something: no panic. *)
Theorem C70_total : forall i, exists a b c d,
  Operator_String i = Ok a /\ EventCode_String i = Ok b /\ Unit_String i = Ok c /\ DataType_String i = Ok d.
Proof.
  intros i. destruct (prints_total "Operator" operator_names i) as (a & Ha). destruct (prints_total "EventCode" event_names i) as (b & Hb).
  destruct (prints_total "Unit" unit_shown i) as (c & Hc). destruct (prints_total "DataType" type_shown i) as (d & Hd).
  exists a, b, c, d. rewrite Operator_prints, EventCode_prints, Unit_prints, DataType_prints. auto.
Qed.
Print Assumptions C70_total.
Theorem C70_distinct : forall i j,
  (Operator_String i = Operator_String j -> i = j) /\ (EventCode_String i = EventCode_String j -> i = j) /\
  (Unit_String i = Unit_String j -> i = j) /\ (DataType_String i = DataType_String j -> i = j).
Proof. intros i j. repeat split; [apply Operator_inj|apply EventCode_inj|apply Unit_inj|apply DataType_inj]. Qed.
Print Assumptions C70_distinct.

(** The units do not: three print the name of another or of no constant. *)
Theorem C70_units_refuted : exists i j n m, In (i, n) unit_names /\ In (j, m) unit_names /\ n <> m /\ Unit_String i = Ok (gs m).
Proof. exists 3, 4, "CODE"%string, "FLAG"%string. repeat split; [cbn; tauto|cbn; tauto|discriminate]. Qed.
Print Assumptions C70_units_refuted.
Theorem C70_units_partial : forall i n, In (i, n) unit_names ->
  (Unit_String i = Ok (gs n) <-> i = 0 \/ i = 1) /\
  (i = 2 -> Unit_String i = Ok (gs "CODE")) /\ (i = 3 -> Unit_String i = Ok (gs "FLAG")) /\
  (i = 4 -> Unit_String i = Ok (gs "COMMON_CODE")) /\ (i = 5 -> Unit_String i = Ok (gs "BIN")).
Proof.
  intros i n H. cbn in H.
  repeat (destruct H as [H|H]; [injection H as <- <-; repeat split; try (intros HX; vm_compute in HX; discriminate HX); try reflexivity; intros; lia|]).
  contradiction.
Qed.
Print Assumptions C70_units_partial.
Theorem C70_types_partial : forall i n, In (i, n) type_names ->
  (DataType_String i = Ok (gs n) <-> i <> 5) /\ (i = 5 -> DataType_String i = Ok (gs "BIN")).
Proof.
  intros i n H. cbn in H.
  repeat (destruct H as [H|H]; [injection H as <- <-; repeat split; try (intros HX; vm_compute in HX; discriminate HX); try reflexivity; intros; try lia|]).
  contradiction.
Qed.
Print Assumptions C70_types_partial.

(** ** C71 *)
(** The text of a descriptor tells its identifier and whether it is an associated field;
    whatever the names in the tables. *)
Theorem C71_descriptors : forall dname dname' d d', printable d -> printable d' ->
  descriptor_String dname d = descriptor_String dname' d' -> d_id d = d_id d' /\ d_assoc d = d_assoc d'.
Proof. exact descriptor_String_inj. Qed.
Print Assumptions C71_descriptors.
(** The text of a value's node tells its position, its identifier and its width. *)
Theorem C71_nodes : forall dname dname' n n', printable (vn_desc n) -> printable (vn_desc n') ->
  node_String dname n = node_String dname' n' ->
  vn_index n = vn_index n' /\ d_id (vn_desc n) = d_id (vn_desc n') /\ d_assoc (vn_desc n) = d_assoc (vn_desc n') /\
  pi_nbits (vn_info n) = pi_nbits (vn_info n').
Proof. exact node_String_inj. Qed.
Print Assumptions C71_nodes.
(** The text of a list of descriptors tells the list. *)
Theorem C71_templates : forall ids ids',
  Forall (fun i => 0 <= i < 1000000) ids -> Forall (fun i => 0 <= i < 1000000) ids' ->
  template_String ids = template_String ids' -> ids = ids'.
Proof. exact template_String_inj. Qed.
Print Assumptions C71_templates.
(** No two values of a decoded subset print the same, and all print. *)
Theorem C71_cells : forall g ids ms cf r s dname, parsed g ids ms -> some_subset cf ->
  run_payload cf (root ms) (vst0 r) = (s, Ok tt) ->
  forall sb i j c c', In sb (v_pay s) -> nth_error (sb_cells sb) i = Some c -> nth_error (sb_cells sb) j = Some c' ->
    (exists t, node_String dname (c_node c) = Ok t) /\
    (node_String dname (c_node c) = node_String dname (c_node c') -> i = j).
Proof.
  intros g ids ms cf r s dname Hp Hs H sb i j c c' Hsb Hi Hj. split; [apply node_String_total|]. intros E.
  apply node_String_index in E. destruct (In_nth_error _ _ Hsb) as (k & Hk).
  destruct (C39_cells _ _ _ _ _ _ Hp Hs H _ _ _ _ Hk Hi) as (E1 & _).
  destruct (C39_cells _ _ _ _ _ _ Hp Hs H _ _ _ _ Hk Hj) as (E2 & _). lia.
Qed.
Print Assumptions C71_cells.
(** Without the bound on decorated identifiers: an associated field of a (impossible) decorated
    descriptor of class 3 prints as one of class 0. *)
Example C71_limits : descriptor_String (fun _ => []) (mkDesc 301001 ER true) = descriptor_String (fun _ => []) (mkDesc 1001 ER true) /\
  id_String 1000000 = gs "1000000".
Proof. split; vm_compute; reflexivity. Qed.
Example C71_example :
  descriptor_String (fun _ => []) (mkDesc 12001 (EB (mkBentry (gs "TEMPERATURE") [] NUMERIC 1 0 12 [] NUMERIC 0 0)) true)
    = Ok (gs "A12001 ASSOCIATED FIELD") /\
  descriptor_String (fun _ => gs "WMO block and station numbers") (mkDesc 301001 (ED [1001; 1002]) false)
    = Ok (gs "301001 WMO block and station numbers") /\
  template_String [301001; 12001] = gs "[301001 012001]".
Proof. repeat split; vm_compute; reflexivity. Qed.
Example C71_decoded :
  map (fun sb => map (fun c => node_String (fun _ => []) (c_node c)) (sb_cells sb))
    (v_pay (fst (demo_run (demo_cf true false 3) [301001] demo_columns)))
  = repeat [Ok (gs "[0] 001001  (7)"); Ok (gs "[1] 001002  (10)")] 3.
Proof. vm_compute. reflexivity. Qed.
