(** Property theorems C37-C49: decoding payloads.  Vocabulary: SpecRun.v.  In all of them
    [ms] are the top-level nodes that parsing a template yields, and decoding a payload from
    the reader [r] is [run_payload cf (root ms) (vst0 r)], whose final state holds the
    subsets ([v_pay]) and the reader ([v_r]). *)
From Coq Require Import Sorted.
From Verif Require Import SpecRun Demo PropsTemplate PropsParser PropsJson ProofsParser3 ProofsParser4 ProofsParser5 ProofsRun12.

Definition demo_cf (compressed compatible : bool) (n : Z) : config :=
  mkConfig compressed false compatible n pl0 100.
Definition bits (w v : Z) : list bool := low_bits (Z.to_nat w) v.
Definition demo_run (cf : config) (ids : list Z) (l : list bool) : vst * res unit :=
  run_payload cf (root (nodes_of ids)) (vst0 (RBit (mkBR l EEof 0))).
Definition cell_ids (s : vst) : list (list Z) :=
  map (fun sb => map (fun c => d_id (vn_desc (c_node c))) (sb_cells sb)) (v_pay s).
Definition cell_widths (s : vst) : list (list Z) :=
  map (fun sb => map (fun c => pi_nbits (vn_info (c_node c))) (sb_cells sb)) (v_pay s).
Definition demo_desc (id : Z) : descriptor :=
  match Lookup demo_group id with Ok d => d | _ => RootDescriptor end.
Lemma parsed_rootless g ids ms : parsed g ids ms -> rootless ms.
Proof. exact (parsed_no_base g ids ms). Qed.
Lemma run_demo cf ids l : snd (demo_run cf ids l) = Ok tt ->
  run_payload cf (root (nodes_of ids)) (vst0 (RBit (mkBR l EEof 0))) = (fst (demo_run cf ids l), Ok tt).
Proof. intros H. rewrite <- H. apply surjective_pairing. Qed.

(** ** C37 *)
(** False: a 203YYY definition that names an element is never decoded. *)
Theorem C37_refuted : exists g ids ms cf r, parsed g ids ms /\ 0 < cf_nsubsets cf /\
  ids = [12101; 203008; 12101; 203255; 12101] /\
  snd (run_payload cf (root ms) (vst0 r)) = Panic PNilMap.
Proof.
  exists demo_group, [12101; 203008; 12101; 203255; 12101], (nodes_of [12101; 203008; 12101; 203255; 12101]).
  exists (demo_cf false false 1), (RBit (mkBR (bits 16 7 ++ bits 8 3 ++ bits 16 9) EEof 0)).
  split; [exists 30%nat; vm_compute; reflexivity|]. split; [reflexivity|]. split; [reflexivity|]. vm_compute. reflexivity.
Qed.
Print Assumptions C37_refuted.
(** Every such template fails, whatever the data. *)
Theorem C37_never : forall g ids ms d named b a cf r s, parsed g ids ms ->
  In (ANode KNewRefval (Some d) named b a) ms -> id_Operand (d_id d) <> 255 -> named <> [] ->
  0 < cf_nsubsets cf -> run_payload cf (root ms) (vst0 r) <> (s, Ok tt).
Proof.
  intros g ids ms d named b a cf r s Hp Hi Hd Hn Hs. eapply never_runs; [eapply parsed_rootless; eauto|exact Hs|exact Hi|].
  intros h r0 h' r'. now apply refval_never.
Qed.
Print Assumptions C37_never.
Example C37_example : exists d named b a,
  In (ANode KNewRefval (Some d) named b a) (nodes_of [12101; 203008; 12101; 203255; 12101]) /\
  id_Operand (d_id d) <> 255 /\ named <> [].
Proof. vm_compute. do 4 eexists. split; [right; left; reflexivity|]. split; discriminate. Qed.

(** ** C38 *)
Theorem C38_count : forall g ids ms cf r s, parsed g ids ms -> 0 <= cf_nsubsets cf ->
  run_payload cf (root ms) (vst0 r) = (s, Ok tt) ->
  Z.of_nat (length (v_pay s)) = cf_nsubsets cf /\ indexed (v_pay s).
Proof.
  intros g ids ms cf r s Hp Hn H. split; [|eapply payload_indexed; eauto].
  rewrite (payload_count cf ms r s (parsed_no_base _ _ _ Hp) H). lia.
Qed.
Print Assumptions C38_count.
Theorem C38_compressed_shared : forall g ids ms cf r s, parsed g ids ms -> columns cf = true ->
  run_payload cf (root ms) (vst0 r) = (s, Ok tt) ->
  forall a b, In a (v_pay s) -> In b (v_pay s) ->
    length (sb_cells a) = length (sb_cells b) /\ sb_root a = sb_root b /\ sb_heap a = sb_heap b /\
    map c_node (sb_cells a) = map c_node (sb_cells b).
Proof.
  intros g ids ms cf r s Hp Hc H a b Ha Hb.
  destruct (payload_shared cf ms r s (parsed_no_base _ _ _ Hp) Hc H a b Ha Hb) as (H1 & H2 & H3).
  split; [|auto]. rewrite <- !(map_length c_node). now rewrite H3.
Qed.
Print Assumptions C38_compressed_shared.
Definition demo_nested : list Z := [204003; 31021; 301001; 204000; 102000; 31001; 201132; 12101; 1015].
Definition demo_nested_bits (k : Z) : list bool :=
  bits 6 7 ++ bits 3 1 ++ bits 7 9 ++ bits 3 2 ++ bits 10 5 ++ bits 8 k ++
  concat (repeat (bits 20 77) (Z.to_nat k)) ++ bits 32 1633837924.
Definition demo_columns : list bool :=
  bits 7 10 ++ bits 6 2 ++ bits 2 0 ++ bits 2 1 ++ bits 2 3 ++ bits 10 4 ++ bits 6 0.
Example C38_example : parsed demo_group demo_nested (nodes_of demo_nested) /\
  snd (demo_run (demo_cf false false 2) demo_nested (demo_nested_bits 2 ++ demo_nested_bits 0)) = Ok tt /\
  parsed demo_group [301001] (nodes_of [301001]) /\ columns (demo_cf true false 3) = true /\
  snd (demo_run (demo_cf true false 3) [301001] demo_columns) = Ok tt /\
  length (v_pay (fst (demo_run (demo_cf true false 3) [301001] demo_columns))) = 3%nat.
Proof.
  split; [exists 30%nat; vm_compute; reflexivity|]. split; [vm_compute; reflexivity|].
  split; [exists 30%nat; vm_compute; reflexivity|]. split; [reflexivity|]. split; vm_compute; reflexivity.
Qed.

(** ** C39 *)
(** Cell [i] of subset [k] has index [i], and its value is what decoding one item with the
    node's descriptor and packing gave (to subset [k], when compressed). *)
Theorem C39_cells : forall g ids ms cf r s, parsed g ids ms -> some_subset cf ->
  run_payload cf (root ms) (vst0 r) = (s, Ok tt) ->
  forall k sb i c, nth_error (v_pay s) k = Some sb -> nth_error (sb_cells sb) i = Some c ->
    vn_index (c_node c) = Z.of_nat i /\
    exists x r1 r2, decodes cf (vn_desc (c_node c)) (vn_info (c_node c)) r1 x r2 /\
      nth_error (dt_vals x) (if columns cf then k else 0%nat) = Some (c_val c).
Proof. intros g ids ms cf r s Hp. apply cell_decoded. eapply parsed_rootless; eauto. Qed.
Print Assumptions C39_cells.
Example C39_example : some_subset (demo_cf true false 3) /\
  cell_ids (fst (demo_run (demo_cf true false 3) [301001] demo_columns)) = [[1001; 1002]; [1001; 1002]; [1001; 1002]].
Proof. split; [intros _; reflexivity|vm_compute; reflexivity]. Qed.

(** ** C40 *)
(** Decoding [a + b] subsets is decoding [a], then, from where that left the reader and from
    scratch, [b] more: same subsets but for their numbers, same reader, same result, whether
    it is a success, an error or a panic. *)
Theorem C40_independent : forall cf ms a b r, columns cf = false -> 0 <= a -> 0 <= b ->
  result_of (run_payload (with_subsets cf (a + b)) (root ms) (vst0 r)) =
  match run_payload (with_subsets cf a) (root ms) (vst0 r) with
  | (s, Ok _) => after (v_pay s) (result_of (run_payload (with_subsets cf b) (root ms) (vst0 (v_r s))))
  | x => result_of x
  end.
Proof. exact payload_split. Qed.
Print Assumptions C40_independent.
(** An operator left open by the first subset (201132) does not reach the second. *)
Example C40_example : columns (demo_cf false false 2) = false /\
  cell_widths (fst (demo_run (demo_cf false false 2) [12101; 201132; 12101]
    (bits 16 1 ++ bits 20 2 ++ bits 16 3 ++ bits 20 4))) = [[16; 20]; [16; 20]].
Proof. split; [reflexivity|vm_compute; reflexivity]. Qed.

(** ** C41 *)
(** Uncompressed: one segment of bits per cell, in order, exactly as long as the cell's packing
    says, and determining its value. *)
Theorem C41_segments_partial : forall g ids ms cf r l s, parsed g ids ms ->
  cf_json cf = false -> cf_compressed cf = false -> binary_reader r l ->
  run_payload cf (root ms) (vst0 r) = (s, Ok tt) ->
  (forall sb c, In sb (v_pay s) -> In c (sb_cells sb) -> c_val c <> VBin None) ->
  exists segs rest, l = concat (map (@concat bool) segs) ++ rest /\ binary_reader (v_r s) rest /\
    Forall2 (fun sb ss =>
      Forall2 (fun c seg => blen seg = bits_needed (vn_info (c_node c)) /\
                            c_val c = decode_value (vn_info (c_node c)) seg) (sb_cells sb) ss)
      (v_pay s) segs.
Proof.
  intros g ids ms cf r l s Hp Hj Hc Hr H HN.
  assert (Hs : some_subset cf) by (unfold some_subset, columns; rewrite Hc; discriminate).
  destruct (payload_segments cf ms r l s Hj (parsed_rootless _ _ _ Hp) Hs Hr H HN) as (hs & segs & rest & _ & HH & E & Hb & H2).
  exists segs, rest. split; [exact E|]. split; [exact Hb|]. eapply plain_cells; eauto.
Qed.
Print Assumptions C41_segments_partial.
(** Compressed: one segment per position, which determines the values of all subsets there. *)
Theorem C41_columns_partial : forall g ids ms cf r l s, parsed g ids ms ->
  cf_json cf = false -> cf_compressed cf = true -> 0 < cf_nsubsets cf -> binary_reader r l ->
  run_payload cf (root ms) (vst0 r) = (s, Ok tt) ->
  (forall sb c, In sb (v_pay s) -> In c (sb_cells sb) -> c_val c <> VBin None) ->
  exists xs segs rest, l = concat segs ++ rest /\ binary_reader (v_r s) rest /\
    Forall2 (bits_of cf) xs segs /\
    forall k sb, nth_error (v_pay s) k = Some sb -> lane_ok k xs (sb_cells sb).
Proof.
  intros g ids ms cf r l s Hp Hj Hc Hn Hr H HN.
  assert (Hs : some_subset cf) by (intros _; exact Hn).
  destruct (payload_segments cf ms r l s Hj (parsed_rootless _ _ _ Hp) Hs Hr H HN) as (hs & segs & rest & _ & HH & E & Hb & H2).
  unfold shows, columns in HH. rewrite Hc, Hj in HH. destruct HH as (h & -> & _ & HL). inversion H2 as [|? ss ? ? H3 H4]; subst. inversion H4; subst.
  cbn [map concat] in *. rewrite app_nil_r in *. exists (data h), ss, rest. auto.
Qed.
Print Assumptions C41_columns_partial.
(** For numbers: common minimum, increment width, increments, and the values they mean. *)
Theorem C41_column_values : forall cf x seg, cf_json cf = false -> cf_compressed cf = true ->
  0 <= cf_nsubsets cf -> 0 <= pi_nbits (dt_info x) -> compressed_number (dt_info x) = true ->
  bits_of cf x seg ->
  exists col, seg = column_bits col /\ column_of (pi_nbits (dt_info x)) (cf_nsubsets cf) col /\
    dt_vals x = column_values (dt_info x) (cf_nsubsets cf) col.
Proof. exact bits_of_column. Qed.
Print Assumptions C41_column_values.
(** Not so for a local (206YYY) field cut off by the end of the data: decoding succeeds with
    a nil value that no bits mean. *)
Theorem C41_refuted : exists g ids ms cf l s sb c, parsed g ids ms /\ cf_compressed cf = false /\
  cf_json cf = false /\ run_payload cf (root ms) (vst0 (RBit (mkBR l EEof 0))) = (s, Ok tt) /\
  In sb (v_pay s) /\ In c (sb_cells sb) /\
  forall seg, c_val c <> decode_value (vn_info (c_node c)) seg.
Proof.
  exists demo_group, [1001; 206008; 63255], (nodes_of [1001; 206008; 63255]), (demo_cf false false 1).
  exists (bits 7 9 ++ bits 3 5). eexists. eexists. eexists.
  split; [exists 30%nat; vm_compute; reflexivity|]. split; [reflexivity|]. split; [reflexivity|].
  split; [vm_compute; reflexivity|]. split; [left; reflexivity|]. split; [right; left; reflexivity|]. intros seg. discriminate.
Qed.
Print Assumptions C41_refuted.
Example C41_example :
  let l := demo_nested_bits 2 ++ demo_nested_bits 0 ++ [true] in
  let s := fst (demo_run (demo_cf false false 2) demo_nested l) in
  snd (demo_run (demo_cf false false 2) demo_nested l) = Ok tt /\ v_r s = RBit (mkBR [true] EEof 178) /\
  (forall sb c, In sb (v_pay s) -> In c (sb_cells sb) -> c_val c <> VBin None).
Proof.
  split; [vm_compute; reflexivity|]. split; [vm_compute; reflexivity|]. vm_compute.
  intros sb c [<-|[<-|[]]]; cbn; intuition (subst; discriminate).
Qed.

(** ** C42 *)
Theorem C42_transparent : forall cf a b r s, rootless a -> rootless b -> unfolds a b -> some_subset cf ->
  run_payload cf (root a) (vst0 r) = (s, Ok tt) ->
  exists s', run_payload cf (root b) (vst0 r) = (s', Ok tt) /\ v_r s' = v_r s /\ views (v_pay s') = views (v_pay s).
Proof. exact unfold_payload. Qed.
Print Assumptions C42_transparent.
Example C42_example : unfolds (nodes_of [102002; 301001; 20011; 8002]) (nodes_of [1001; 1002; 20011; 1001; 1002; 20011; 8002]) /\
  rootless (nodes_of [102002; 301001; 20011; 8002]).
Proof.
  split; [|apply (parsed_rootless demo_group [102002; 301001; 20011; 8002]); exists 30%nat; vm_compute; reflexivity].
  set (x := nodes_of [102002; 301001; 20011; 8002]). set (y := nodes_of [1001; 1002; 20011; 1001; 1002; 20011; 8002]).
  vm_compute in x. vm_compute in y. subst x y.
  match goal with |- unfolds (?f :: ?q) ?z => apply (unfold_trans _ (concat (repeat (an_members f) 2) ++ q)) end.
  - apply (unfold_app [_] _ [_] [_]); [|apply unfold_same]. apply unfold_fixed.
  - cbn [an_members repeat concat app].
    match goal with |- unfolds (?s :: ?e :: ?s2 :: ?e2 :: ?q) ?z =>
      change (unfolds ([s] ++ [e] ++ [s2] ++ [e2] ++ q) (an_members s ++ [e] ++ an_members s2 ++ [e2] ++ q)) end.
    apply unfold_app; [apply unfold_sequence|]. apply unfold_app; [apply unfold_same|]. apply unfold_app; [apply unfold_sequence|apply unfold_same].
Qed.

(** ** C43, C44 *)
(** Whatever the template: each element's cells - one per open associated field, outermost
    first, then its own - have the packing that the identifiers executed before it call
    for. *)
Theorem C43_C44_packing : forall g ids ms cf r s, parsed g ids ms -> some_subset cf ->
  run_payload cf (root ms) (vst0 r) = (s, Ok tt) ->
  exists hs, executes cf ms r hs (v_r s) /\ shows cf hs (v_pay s) /\
    forall h later fs x before, In h hs -> h = later ++ EvElement fs x :: before ->
    exists b, d_entry (dt_desc x) = EB b /\
      map what (fs ++ [x]) = element_cells (executed before) (dt_desc x) b.
Proof.
  intros g ids ms cf r s Hp Hs H. destruct (run_payload_sound cf ms r s (parsed_no_base _ _ _ Hp) Hs H) as (hs & HX & HH).
  exists hs. split; [exact HX|]. split; [exact HH|]. intros h later fs x before Hi E.
  pose proof (executes_justified cf _ _ _ _ HX) as HJ. rewrite Forall_forall in HJ.
  assert (HK : Forall (all_nodes right_kind) ms) by (apply parsed_iff in Hp; eapply right_kinds; eauto).
  pose proof (executes_labelled cf _ _ _ _ HX HK) as HL. rewrite Forall_forall in HL. eapply element_what; eauto.
Qed.
Print Assumptions C43_C44_packing.
(** Without delayed replications and bitmaps these are the identifiers of the template, in
    document order, sequences dissolved and replications written out. *)
Theorem C43_order : forall cf ms r hs r', executes cf ms r hs r' -> Forall straight ms ->
  Forall (fun h => executed h = flat_map order ms) hs.
Proof. exact executes_order. Qed.
Print Assumptions C43_order.
(** So, for an element behind such a template [pre]: its cells follow those of [pre], and
    descriptors and packings are a function of the template's identifiers alone. *)
Theorem C43_C44_element : forall g ids pre d b post cf r s, parsed g ids (pre ++ element_node d :: post) ->
  (0 < lanes cf)%nat -> one_pass cf -> Forall straight pre -> d_entry d = EB b ->
  run_payload cf (root (pre ++ element_node d :: post)) (vst0 r) = (s, Ok tt) ->
  exists s1, run_payload cf (root pre) (vst0 r) = (s1, Ok tt) /\
    forall k sb1 sb, nth_error (v_pay s1) k = Some sb1 -> nth_error (v_pay s) k = Some sb ->
    exists rest, map cell_what (sb_cells sb) =
      map cell_what (sb_cells sb1) ++ element_cells (flat_map order pre) d b ++ rest.
Proof.
  intros g ids pre d b post cf r s Hp Hl HS Hs He H. eapply element_in_payload; eauto; [eapply parsed_rootless; eauto|].
  apply parsed_iff in Hp. apply right_kinds in Hp. apply Forall_app in Hp. tauto.
Qed.
Print Assumptions C43_C44_element.
Definition demo_ops : list Z :=
  [201132; 202130; 204002; 31021; 204005; 31021; 207001; 102002; 201000; 301001; 204000; 208002; 1015; 208000].
Example C43_C44_example : parsed demo_group (demo_ops ++ [12101; 8002]) (nodes_of demo_ops ++ nodes_of [12101; 8002]) /\
  Forall straight (nodes_of demo_ops) /\
  flat_map order (nodes_of demo_ops) =
    [201132; 202130; 204002; 31021; 204005; 31021; 207001; 201000; 1001; 1002; 201000; 1001; 1002; 204000; 208002; 1015; 208000] /\
  (exists d b, nodes_of [12101; 8002] = element_node d :: nodes_of [8002] /\ d_entry d = EB b /\
     map (fun x => pi_nbits (snd x)) (element_cells (flat_map order (nodes_of demo_ops)) d b) = [2; 20]) /\
  (exists s, demo_run (demo_cf false false 1) (demo_ops ++ [12101; 8002]) (repeat false 300) = (s, Ok tt) /\
     cell_widths s = [[6; 6; 2; 5; 11; 2; 5; 14; 2; 5; 11; 2; 5; 14; 2; 16; 2; 20; 2; 6]]).
Proof.
  split; [exists 30%nat; vm_compute; reflexivity|]. split; [vm_compute; repeat constructor|]. split; [vm_compute; reflexivity|].
  split; [exists (demo_desc 12101); eexists; split; [vm_compute; reflexivity|]; split; vm_compute; reflexivity|].
  eexists. split; vm_compute; reflexivity.
Qed.
(** 201, 202, 207 change numeric elements only, 208 character elements only; operand 0
    cancels. *)
Theorem C43_scope : forall ids ids' e,
  (be_unit e = NUMERIC -> (forall op, In op [201; 202; 207] -> latest op ids = latest op ids') -> packing_after ids e = packing_after ids' e) /\
  (be_unit e = STRING -> latest 208 ids = latest 208 ids' -> packing_after ids e = packing_after ids' e) /\
  (be_unit e <> NUMERIC -> be_unit e <> STRING -> packing_after ids e = packing_after ids' e) /\
  (be_unit e = NUMERIC -> (forall op, In op [201; 202; 207] -> latest op ids = 0) ->
     packing_after ids e = mkInfo NUMERIC (be_scale e) (f64_mul (f64_of_Z (be_refval e)) (pow10 0)) (be_nbits e)) /\
  (be_unit e = STRING -> latest 208 ids = 0 -> pi_nbits (packing_after ids e) = be_nbits e).
Proof.
  intros ids ids' e. unfold packing_after. split; [|split; [|split; [|split]]].
  - intros -> H. rewrite !(H 201), !(H 202), !(H 207) by (cbn; auto). reflexivity.
  - intros -> ->. reflexivity.
  - destruct (be_unit e); tauto.
  - intros -> H. rewrite !(H 201), !(H 202), !(H 207) by (cbn; auto). cbn -[f64_mul f64_of_Z pow10]. now rewrite !Z.add_0_r.
  - intros -> ->. reflexivity.
Qed.
Print Assumptions C43_scope.
(** [latest] and [widths] read as they should. *)
Theorem C43_latest : forall op ids id ids', id_Operator id = op ->
  Forall (fun i => id_Operator i <> op) ids' -> latest op (ids ++ id :: ids') = id_Operand id.
Proof.
  intros op ids id ids' H HF. rewrite latest_snoc. cbn [fold_left]. rewrite H, Z.eqb_refl. induction HF as [|i l H1 H2 IH]; cbn [fold_left]; [reflexivity|].
  apply Z.eqb_neq in H1. now rewrite H1.
Qed.
Print Assumptions C43_latest.
Theorem C44_nesting : forall ids w inner c, id_Operator w = 204 -> id_Operand w <> 0 -> nested inner ->
  id_Operator c = 204 -> id_Operand c = 0 ->
  widths (ids ++ [w] ++ inner) = widths ids ++ [id_Operand w] /\
  widths (ids ++ [w] ++ inner ++ [c]) = widths ids.
Proof.
  intros ids w inner c H1 H2 H3 H4 H5. split.
  - rewrite !widths_snoc, open_after_app, nested_open by exact H3. unfold open_after. cbn [fold_left].
    apply Z.eqb_neq in H2. now rewrite H1, H2.
  - rewrite widths_snoc, nested_open; [reflexivity|]. apply nested_block; auto. constructor.
Qed.
Print Assumptions C44_nesting.
(** Class 31 elements, 205YYY and 206YYY have no associated field. *)
Theorem C44_none : forall ids d b, id_X (d_id d) = 31 -> element_cells ids d b = [(d, packing_after ids b)].
Proof. intros ids d b H. unfold element_cells. rewrite H. reflexivity. Qed.
Print Assumptions C44_none.
Theorem C44_items : forall cf h r k d ms b a h' r', In k [KInsertString; KSkipLocal; KE031021] ->
  runs cf h r (ANode k (Some d) ms b a) h' r' -> ncells h' = S (ncells h).
Proof.
  intros cf h r k d ms b a h' r' Hk H. destruct Hk as [<-|[<-|[<-|[]]]]; inversion H; subst; try notop;
  unfold ncells; cbn [data ev_data]; rewrite app_length; cbn [length]; lia.
Qed.
Print Assumptions C44_items.
Example C44_example : nested [31021; 1001; 204005; 31021; 1002; 204000; 12101] /\
  widths ([204002] ++ [31021; 1001; 204005; 31021]) = [2; 5].
Proof.
  split; [|reflexivity]. do 2 (apply nested_other; [discriminate|]).
  apply (nested_block 204005 [31021; 1002] 204000 [12101]); try reflexivity; try discriminate;
  repeat (apply nested_other; [discriminate|]); constructor.
Qed.

(** ** C45 *)
(** A delayed replication decodes like the template written out with as many repetitions as
    the cell decoded last before them says - the same number [z] in all subsets ... *)
Theorem C45_repeats : forall cf pre od m ms b a post r s, (0 < lanes cf)%nat -> one_pass cf ->
  rootless (pre ++ ANode KDelayed od (m :: ms) b a :: post) ->
  run_payload cf (root (pre ++ ANode KDelayed od (m :: ms) b a :: post)) (vst0 r) = (s, Ok tt) ->
  exists s1 s2 z, run_payload cf (root (pre ++ [m])) (vst0 r) = (s1, Ok tt) /\
    agreed (cf_plat cf) (v_pay s1) z /\
    run_payload cf (root (pre ++ [m] ++ concat (repeat ms (Z.to_nat z)) ++ post)) (vst0 r) = (s2, Ok tt) /\
    v_r s2 = v_r s /\ views (v_pay s2) = views (v_pay s).
Proof. intros cf pre od m ms b a post r s Hl HS Hb H. eapply delayed_payload; eauto. Qed.
Print Assumptions C45_repeats.
(** ... and whenever that can be decoded, so can the delayed replication. *)
Theorem C45_repeats_converse : forall cf pre od m ms b a post r s1 s2 z, (0 < lanes cf)%nat -> one_pass cf ->
  rootless (pre ++ ANode KDelayed od (m :: ms) b a :: post) ->
  run_payload cf (root (pre ++ [m])) (vst0 r) = (s1, Ok tt) ->
  agreed (cf_plat cf) (v_pay s1) z ->
  run_payload cf (root (pre ++ [m] ++ concat (repeat ms (Z.to_nat z)) ++ post)) (vst0 r) = (s2, Ok tt) ->
  exists s, run_payload cf (root (pre ++ ANode KDelayed od (m :: ms) b a :: post)) (vst0 r) = (s, Ok tt) /\
    v_r s2 = v_r s /\ views (v_pay s2) = views (v_pay s).
Proof. intros cf pre od m ms b a post r s1 s2 z Hl HS Hb H1 HA H2. eapply delayed_payload_back; eauto. Qed.
Print Assumptions C45_repeats_converse.
(** That last cell is the factor element's own. *)
Theorem C45_factor : forall cf pre d r s, (0 < lanes cf)%nat -> one_pass cf -> rootless (pre ++ [element_node d]) ->
  run_payload cf (root (pre ++ [element_node d])) (vst0 r) = (s, Ok tt) ->
  forall sb, In sb (v_pay s) -> exists cs c, sb_cells sb = cs ++ [c] /\ vn_desc (c_node c) = d.
Proof. intros cf pre d r s Hl HS Hb H. eapply factor_cell; eauto. Qed.
Print Assumptions C45_factor.
(** A missing factor is an error ... *)
Theorem C45_missing : forall cf pre od m ms b a post r s1 vs, (0 < lanes cf)%nat -> one_pass cf ->
  rootless (pre ++ ANode KDelayed od (m :: ms) b a :: post) ->
  run_payload cf (root (pre ++ [m])) (vst0 r) = (s1, Ok tt) ->
  last_values (v_pay s1) = Some VNil :: map Some vs ->
  exists s e, run_payload cf (root (pre ++ ANode KDelayed od (m :: ms) b a :: post)) (vst0 r) = (s, Err e).
Proof.
  intros cf pre od m ms b a post r s1 vs Hl HS Hb H HL. eapply delayed_error; eauto; [left; discriminate|].
  intros z (v & vs' & E & _ & Hz). rewrite HL in E. injection E as <- _. discriminate Hz.
Qed.
Print Assumptions C45_missing.
(** ... and so are factors that differ between compressed subsets. *)
Theorem C45_unequal : forall cf pre od m ms b a post r s1 v vs w, (0 < lanes cf)%nat -> one_pass cf ->
  rootless (pre ++ ANode KDelayed od (m :: ms) b a :: post) ->
  run_payload cf (root (pre ++ [m])) (vst0 r) = (s1, Ok tt) ->
  last_values (v_pay s1) = Some v :: map Some vs -> (forall bs, v <> VBytes bs) ->
  In w vs -> ~ equal_values v w ->
  exists s e, run_payload cf (root (pre ++ ANode KDelayed od (m :: ms) b a :: post)) (vst0 r) = (s, Err e).
Proof.
  intros cf pre od m ms b a post r s1 v vs w Hl HS Hb H HL Hv Hw Hne. eapply delayed_error; eauto.
  intros z (v' & vs' & E & HF & _). rewrite HL in E. injection E as <- E.
  assert (vs = vs') as <-. { clear - E. revert vs' E. induction vs; intros [|x vs'] E; try discriminate E; [reflexivity|]. cbn in E. injection E as <- E. f_equal. auto. }
  rewrite Forall_forall in HF. now apply Hne, HF.
Qed.
Print Assumptions C45_unequal.
Example C45_example :
  let t := [1001; 101000; 31001; 12101; 8002] in
  nodes_of t = nodes_of [1001] ++ ANode KDelayed (Some (demo_desc 101000)) (nodes_of [31001; 12101]) None [] :: nodes_of [8002] /\
  (0 < lanes (demo_cf false false 1))%nat /\ one_pass (demo_cf false false 1) /\ rootless (nodes_of t) /\
  snd (demo_run (demo_cf false false 1) t (bits 7 1 ++ bits 8 3 ++ bits 54 0)) = Ok tt /\
  cell_ids (fst (demo_run (demo_cf false false 1) t (bits 7 1 ++ bits 8 3 ++ bits 54 0))) = [[1001; 31001; 12101; 12101; 12101; 8002]] /\
  last_values (v_pay (fst (demo_run (demo_cf false false 1) [1001; 31001] (bits 7 1 ++ bits 8 255)))) = [Some VNil] /\
  (exists v w, last_values (v_pay (fst (demo_run (demo_cf true false 2) [31001] (bits 8 2 ++ bits 6 2 ++ bits 2 0 ++ bits 2 1)))) = [Some v; Some w] /\
     ~ equal_values v w).
Proof.
  cbv zeta. split; [vm_compute; reflexivity|].
  split; [vm_compute; lia|]. split; [right; reflexivity|].
  split; [apply (parsed_rootless demo_group [1001; 101000; 31001; 12101; 8002]); exists 30%nat; vm_compute; reflexivity|].
  split; [vm_compute; reflexivity|]. split; [vm_compute; reflexivity|].
  split; [vm_compute; reflexivity|]. do 2 eexists. split; [vm_compute; reflexivity|]. vm_compute. discriminate.
Qed.

(** ** C46 *)
(** Every time an assessment's targets are determined: the bitmap in force has [k] bits, the
    [k] cells before the reference point are paired with them in order, and exactly those
    whose bit is 0 are the targets, in order. *)
Theorem C46_targets : forall g ids ms cf r s, parsed g ids ms -> some_subset cf ->
  run_payload cf (root ms) (vst0 r) = (s, Ok tt) ->
  exists hs, executes cf ms r hs (v_r s) /\ shows cf hs (v_pay s) /\
    forall h later ps before, In h hs -> h = later ++ EvTargets ps :: before ->
    exists bits, bitmap_bits cf before bits /\ (length bits <= backref before)%nat /\
      StronglySorted lt ps /\
      forall p, In p ps <-> exists j, nth_error bits j = Some 0 /\ p = (backref before - length bits + j)%nat.
Proof.
  intros g ids ms cf r s Hp Hs H. destruct (run_payload_sound cf ms r s (parsed_no_base _ _ _ Hp) Hs H) as (hs & HX & HH).
  exists hs. split; [exact HX|]. split; [exact HH|]. intros h later ps before Hi E.
  pose proof (executes_justified cf _ _ _ _ HX) as HJ. rewrite Forall_forall in HJ.
  destruct (HJ h Hi _ _ _ E) as (bits & H1 & H2 & _ & H4). exists bits. split; [exact H1|]. split; [exact H2|]. now apply zero_positions_spec.
Qed.
Print Assumptions C46_targets.
(** The reference point is the first assessment operator with cells before it since 235000;
    the bitmap is the last one defined, recalled by 237000, cancelled by 237255 and 235000. *)
Theorem C46_reference : forall d h, (forall e, In e h -> e <> EvCancelBackref) -> (0 < ncells h)%nat ->
  (forall d', ~ In (EvAssess d') h) -> forall h', (forall e, In e h' -> e <> EvCancelBackref) ->
  backref (h' ++ EvAssess d :: h) = ncells h.
Proof.
  intros d h Hc Hn Ha h' Hc'. assert (B : backref h = 0%nat).
  { clear - Ha Hc. induction h as [|e h IH]; [reflexivity|]. assert (backref h = 0%nat) by (apply IH; intros; [apply Hc|intros ?; eapply Ha]; right; eauto).
    destruct e; try assumption; [exfalso; eapply Ha; left; reflexivity|reflexivity]. }
  induction h' as [|e h' IH]; cbn [app].
  - cbn [backref]. rewrite B. reflexivity.
  - assert (E : backref (h' ++ EvAssess d :: h) = ncells h) by (apply IH; intros; apply Hc'; now right).
    destruct e; cbn [backref]; try exact E; [|exfalso; eapply Hc'; [left; reflexivity|reflexivity]].
    rewrite E. destruct (ncells h); [lia|reflexivity].
Qed.
Print Assumptions C46_reference.
Theorem C46_bitmap : forall h,
  bitmap (EvRecall :: h) = bitmap h /\ bitmap (EvCancelBitmap :: h) = None /\ bitmap (EvCancelBackref :: h) = None /\
  (forall h', (forall e, In e h' -> match e with EvDefine | EvDefined | EvCancelBitmap | EvCancelBackref => False | _ => True end) ->
     bitmap (EvDefined :: h' ++ EvDefine :: h) = Some (ncells h, ncells (h' ++ EvDefine :: h))).
Proof.
  intros h. split; [reflexivity|]. split; [reflexivity|]. split; [reflexivity|]. intros h' Hq.
  assert (E : bitmap (h' ++ EvDefine :: h) = Some (ncells h, 0%nat)).
  { induction h' as [|e h' IH]; [reflexivity|]. assert (bitmap (h' ++ EvDefine :: h) = Some (ncells h, 0%nat)) by (apply IH; intros; apply Hq; now right).
    specialize (Hq e (or_introl eq_refl)). destruct e; cbn [app bitmap]; try assumption; contradiction. }
  cbn [bitmap]. now rewrite E.
Qed.
Print Assumptions C46_bitmap.
(** The targets of 222000 236000 ... and of a later 237000. *)
Definition demo_bitmaps : list Z :=
  [1001; 1002; 8002; 222000; 236000; 101003; 31031; 33007; 224000; 237000; 8023; 101002; 224255].
Definition demo_bitmap_bits : list bool :=
  bits 7 1 ++ bits 10 2 ++ bits 6 3 ++ bits 3 2 ++ bits 7 50 ++ bits 6 4 ++ bits 7 9 ++ bits 6 8.
Example C46_example : parsed demo_group demo_bitmaps (nodes_of demo_bitmaps) /\
  exists s, demo_run (demo_cf false false 1) demo_bitmaps demo_bitmap_bits = (s, Ok tt) /\
    cell_ids s = [[1001; 1002; 8002; 31031; 31031; 31031; 33007; 8023; 224255; 224255]] /\
    cell_widths s = [[7; 10; 6; 1; 1; 1; 7; 6; 7; 6]].
Proof.
  split; [exists 30%nat; vm_compute; reflexivity|]. eexists. split; [vm_compute; reflexivity|]. split; vm_compute; reflexivity.
Qed.

(** ** C47 *)
(** False: a 225255 marker has the packing of its target (cell 0, bit 0 of the bitmap). *)
Theorem C47_refuted : exists g ids ms cf r s sb target marker, parsed g ids ms /\
  ids = [12101; 225000; 236000; 101001; 31031; 225255] /\
  run_payload cf (root ms) (vst0 r) = (s, Ok tt) /\ In sb (v_pay s) /\
  nth_error (sb_cells sb) 0 = Some target /\ nth_error (sb_cells sb) 2 = Some marker /\
  d_id (vn_desc (c_node marker)) = 225255 /\ vn_info (c_node marker) = vn_info (c_node target).
Proof.
  exists demo_group, [12101; 225000; 236000; 101001; 31031; 225255], (nodes_of [12101; 225000; 236000; 101001; 31031; 225255]).
  exists (demo_cf false false 1), (RBit (mkBR (bits 16 7 ++ bits 1 0 ++ bits 16 3) EEof 0)). do 4 eexists.
  split; [exists 30%nat; vm_compute; reflexivity|]. split; [reflexivity|].
  split; [vm_compute; reflexivity|]. split; [left; reflexivity|]. split; [reflexivity|]. split; [reflexivity|]. split; reflexivity.
Qed.
Print Assumptions C47_refuted.
(** So it is for every marker: the packing its target's Table B entry and the operators in
    force call for, and no other. *)
Theorem C47_markers : forall g ids ms cf r s, parsed g ids ms -> some_subset cf ->
  run_payload cf (root ms) (vst0 r) = (s, Ok tt) ->
  exists hs, executes cf ms r hs (v_r s) /\ shows cf hs (v_pay s) /\
    forall h later x before, In h hs -> h = later ++ EvItem KMarker x :: before ->
    exists p ps t b, targets_left before = p :: ps /\ nth_error (data before) p = Some t /\
      d_entry (dt_desc t) = EB b /\ dt_info x = packing_after (executed before) b.
Proof.
  intros g ids ms cf r s Hp Hs H. destruct (run_payload_sound cf ms r s (parsed_no_base _ _ _ Hp) Hs H) as (hs & HX & HH).
  exists hs. split; [exact HX|]. split; [exact HH|]. intros h later x before Hi E.
  pose proof (executes_justified cf _ _ _ _ HX) as HJ. rewrite Forall_forall in HJ.
  pose proof (executes_fits cf _ _ _ _ HX (parsed_fitting _ _ _ Hp)) as HF. rewrite Forall_forall in HF.
  assert (HK : Forall (all_nodes right_kind) ms) by (apply parsed_iff in Hp; eapply right_kinds; eauto).
  pose proof (executes_labelled cf _ _ _ _ HX HK) as HL. rewrite Forall_forall in HL.
  destruct (justified_markers cf h (HJ h Hi) (HF h Hi) _ _ _ E) as (p & ps & t & b & H1 & H2 & H3 & H4).
  exists p, ps, t, b. split; [exact H1|]. split; [exact H2|]. split; [exact H3|]. rewrite H4. apply packing_executed.
  apply (labelled_before later (EvItem KMarker x)). rewrite <- E. auto.
Qed.
Print Assumptions C47_markers.

(** ** C48 *)
(** False: a bitmap that is not introduced by 236000 is never decoded. *)
Theorem C48_refuted : exists g ids ms cf r, parsed g ids ms /\ 0 < cf_nsubsets cf /\
  ids = [12101; 1001; 222000; 101002; 31031; 33007] /\
  snd (run_payload cf (root ms) (vst0 r)) = Panic PNil.
Proof.
  exists demo_group, [12101; 1001; 222000; 101002; 31031; 33007], (nodes_of [12101; 1001; 222000; 101002; 31031; 33007]).
  exists (demo_cf false false 1), (RBit (mkBR (bits 16 7 ++ bits 7 3 ++ bits 2 1 ++ bits 7 9) EEof 0)).
  split; [exists 30%nat; vm_compute; reflexivity|]. split; [reflexivity|]. split; [reflexivity|]. vm_compute. reflexivity.
Qed.
Print Assumptions C48_refuted.
Theorem C48_never : forall g ids ms od members bms bb ba a cf r s, parsed g ids ms ->
  In (ANode KAssessment od members (Some (ANode KBitmap None bms bb ba)) a) ms ->
  0 < cf_nsubsets cf -> run_payload cf (root ms) (vst0 r) <> (s, Ok tt).
Proof.
  intros g ids ms od members bms bb ba a cf r s Hp Hi Hs. eapply never_runs; [eapply parsed_rootless; eauto|exact Hs|exact Hi|].
  intros h r0 h' r'. apply ad_hoc_never.
Qed.
Print Assumptions C48_never.
Example C48_example : exists od members bms bb ba a,
  In (ANode KAssessment od members (Some (ANode KBitmap None bms bb ba)) a) (nodes_of [12101; 1001; 222000; 101002; 31031; 33007]).
Proof. vm_compute. do 6 eexists. right. right. left. reflexivity. Qed.

(** ** C49 *)
(** False: cells below a sequence or replication are not in the tree. *)
Theorem C49_refuted : exists g ids ms cf r s sb c, parsed g ids ms /\ ids = [301001] /\
  run_payload cf (root ms) (vst0 r) = (s, Ok tt) /\ In sb (v_pay s) /\ In c (sb_cells sb) /\ ~ in_tree sb c.
Proof.
  exists demo_group, [301001], (nodes_of [301001]), (demo_cf false false 1), (RBit (mkBR (bits 7 1 ++ bits 10 2) EEof 0)).
  do 3 eexists. split; [exists 30%nat; vm_compute; reflexivity|]. split; [reflexivity|].
  split; [vm_compute; reflexivity|]. split; [left; reflexivity|]. split; [left; reflexivity|].
  intros [H _]. cbn in H. inversion H as [|a n b c H1 H2 H3]; subst. cbn in H1. injection H1 as <-. destruct H2.
Qed.
Print Assumptions C49_refuted.
(** It holds of templates without them. *)
Theorem C49_flat_partial : forall cf ms r s, Forall (all_nodes (fun n => flat_kind (an_kind n))) ms ->
  run_payload cf (root ms) (vst0 r) = (s, Ok tt) ->
  forall sb c, In sb (v_pay s) -> In c (sb_cells sb) -> in_tree sb c.
Proof.
  intros cf ms r s Hm H sb c Hsb Hc. pose proof (flat_in_tree cf ms r s Hm H) as HF. rewrite Forall_forall in HF. exact (HF sb Hsb c Hc).
Qed.
Print Assumptions C49_flat_partial.
Example C49_example : let t := [1001; 204002; 31021; 12101; 204000; 222000; 236000; 31031; 31031; 33007] in
  Forall (all_nodes (fun n => flat_kind (an_kind n))) (nodes_of t) /\
  snd (demo_run (demo_cf false false 1) t (repeat false 100)) = Ok tt.
Proof. split; [vm_compute; repeat constructor|vm_compute; reflexivity]. Qed.
