(** Property theorems C58: the JSON form of payloads.  Vocabulary: SpecMarshal.v. *)
From Verif Require Import PropsParser PropsRun ProofsMarshal3 ProofsBase64 ProofsRun6 ProofsBits ProofsBinary ProofsFloat Demo PropsJson.
From Coq Require Import Lia ZifyBool ZifyNat.

(** ** C58 *)
(** False: strings are written as base64 but read as they are (first witness: the four
    characters "abcd" of 001015), and a missing value is written as null, which no reader of
    numbers accepts (second witness). *)
Definition reads_back (cf : config) (ms : list anode) (s : vst) (ts : list token) (e : err) : Prop :=
  exists s', run_payload (from_json cf) (root ms) (vst0 (RJson (new_jsonreader ts e))) = (s', Ok tt) /\
    payload_values (v_pay s') = payload_values (v_pay s).
Theorem C58_refuted :
  (exists g ids ms cf r s ts, parsed g ids ms /\ ids = [1001; 1015] /\ run_payload cf (root ms) (vst0 r) = (s, Ok tt) /\
     map (fun sb => map c_val (sb_cells sb)) (v_pay s) = [[VFloat (f64_of_Z 9); VBytes [97; 98; 99; 100]]] /\
     marshal_payload (v_pay s) = Ok ts /\ forall e, ~ reads_back cf ms s ts e) /\
  (exists g ids ms cf r s ts, parsed g ids ms /\ ids = [1001; 8002] /\ run_payload cf (root ms) (vst0 r) = (s, Ok tt) /\
     map (fun sb => map c_val (sb_cells sb)) (v_pay s) = [[VFloat (f64_of_Z 9); VNil]] /\
     marshal_payload (v_pay s) = Ok ts /\ forall e s', snd (run_payload (from_json cf) (root ms) (vst0 (RJson (new_jsonreader ts e)))) <> Ok s').
Proof.
  split.
  - exists demo_group, [1001; 1015], (nodes_of [1001; 1015]), (demo_cf false false 1).
    exists (RBit (mkBR (bits 7 9 ++ bits 8 97 ++ bits 8 98 ++ bits 8 99 ++ bits 8 100) EEof 0)). do 2 eexists.
    split; [exists 30%nat; vm_compute; reflexivity|]. split; [reflexivity|]. split; [apply run_demo; vm_compute; reflexivity|].
    split; [vm_compute; reflexivity|]. split; [vm_compute; reflexivity|].
    intros e (s' & H & EV). apply (f_equal fst) in H. cbn [fst] in H. subst s'. vm_compute in EV. discriminate EV.
  - exists demo_group, [1001; 8002], (nodes_of [1001; 8002]), (demo_cf false false 1).
    exists (RBit (mkBR (bits 7 9 ++ bits 6 63) EEof 0)). do 2 eexists.
    split; [exists 30%nat; vm_compute; reflexivity|]. split; [reflexivity|]. split; [apply run_demo; vm_compute; reflexivity|].
    split; [vm_compute; reflexivity|]. split; [vm_compute; reflexivity|].
    intros e s' H. vm_compute in H. discriminate H.
Qed.
Print Assumptions C58_refuted.
(** What holds: reading back gives the same values (with the same descriptors and packing)
    exactly when every value of the payload survives, that is when there is no missing value,
    no string and no integer that is not a double.  All templates, compressed or not, with
    one exclusion: compressed data of several subsets that differ in a bit of a bitmap which a
    quality or statistics operator (222-225, 232) uses ([C58_columns_refuted] below). *)
Theorem C58_read_back_partial : forall g ids ms cf r s ts e, parsed g ids ms -> cf_json cf = false -> some_subset cf ->
  (columns cf = true -> cf_nsubsets cf <= 1 \/ no_assessment ms \/ exists h r', executes cf ms r [h] r' /\ same_bits h) ->
  run_payload cf (root ms) (vst0 r) = (s, Ok tt) -> marshal_payload (v_pay s) = Ok ts ->
  (reads_back cf ms s ts e <-> Forall (fun c => survives (cf_plat cf) (c_val c)) (all_cells (v_pay s))).
Proof.
  intros g ids ms cf r s ts e Hp Hj HS HA H HM. pose proof (parsed_no_base _ _ _ Hp) as HB. split.
  - intros (s' & H' & EV). eapply json_back; eassumption.
  - intros HV. eapply json_forth; eassumption.
Qed.
Print Assumptions C58_read_back_partial.
(** Without the exclusion: what is read back as the same values had only surviving values. *)
Theorem C58_only_survivors : forall g ids ms cf r s ts e, parsed g ids ms -> cf_json cf = false -> some_subset cf ->
  run_payload cf (root ms) (vst0 r) = (s, Ok tt) -> marshal_payload (v_pay s) = Ok ts -> reads_back cf ms s ts e ->
  forall sb c, In sb (v_pay s) -> In c (sb_cells sb) ->
    c_val c <> VNil /\ c_val c <> VBin None /\ (forall b, c_val c = VBytes b -> b = []).
Proof.
  intros g ids ms cf r s ts e Hp Hj HS H HM (s' & H' & EV) sb c Hsb Hc. pose proof (parsed_no_base _ _ _ Hp) as HB.
  pose proof (json_back cf ms r s ts e s' Hj HB HS H HM H' EV) as HF. rewrite Forall_forall in HF.
  specialize (HF c (proj2 (in_flat_map _ _ _) (ex_intro _ sb (conj Hsb Hc)))).
  split; [intros E; rewrite E in HF; exact HF|]. split; [intros E; rewrite E in HF; exact HF|].
  intros b E. rewrite E in HF. exact HF.
Qed.
Print Assumptions C58_only_survivors.
(** Integers below 2^53, finite numbers and bit strings read from a message survive. *)
Theorem C58_survivors : forall pl,
  (forall u, 0 <= u < 2 ^ 53 -> survives pl (VUint u)) /\ (forall i, Z.abs i < 2 ^ 53 -> survives pl (VInt i)) /\
  (forall z, Z.abs z < 2 ^ 53 -> survives pl (VFloat (f64_of_Z z))) /\
  (forall n l e p s b, 0 <= n -> br_ReadBinary n (mkBR l e p) = (s, Ok (Some b)) -> survives pl (VBin (Some b))).
Proof.
  intros pl. split; [intros u H; now apply f64_to_uint_of_Z|]. split; [intros i H; now apply f64_to_int_of_Z|].
  split.
  - intros z H. cbn. rewrite f64_of_Z_exact by exact H. now destruct z.
  - intros n l e p s b Hn H. cbn. destruct (Z_lt_le_dec (blen l) n) as [Hl|Hl].
    + destruct (br_ReadBinary_short e p n l Hl) as (l' & E & _). rewrite E in H. discriminate H.
    + destruct (cut l n ltac:(lia)) as (sl & l' & -> & El). rewrite (br_ReadBinary_ok e p n sl l' El) in H. injection H as <- <-.
      unfold Binary_UnmarshalJSON, Binary_MarshalJSON. rewrite <- El. fold (bin_of sl). rewrite Binary_String_bits. apply NewBinaryFromString_bits.
Qed.
Print Assumptions C58_survivors.
(** A payload has a JSON form unless one of its numbers is infinite or NaN. *)
Theorem C58_form : forall pay, (exists ts, marshal_payload pay = Ok ts) <->
  forall sb c, In sb pay -> In c (sb_cells sb) -> has_form (c_val c).
Proof.
  intros pay. rewrite payload_form, Forall_forall. unfold all_cells. split.
  - intros H sb c H1 H2. apply H, in_flat_map. eauto.
  - intros H c Hc. apply in_flat_map in Hc. destruct Hc as (sb & H1 & H2). eauto.
Qed.
Print Assumptions C58_form.
Lemma vals_survive pl l vs : map c_val l = vs -> Forall (survives pl) vs -> Forall (fun c => survives pl (c_val c)) l.
Proof. intros <-. apply Forall_map. Qed.
Ltac all_survive := repeat (apply Forall_cons; [cbn [survives]; vm_compute; reflexivity|]); apply Forall_nil.
(** The exclusion is needed: the bitmap of a compressed message is that of its first subset,
    so reading the subsets back one by one may select other cells - here none. *)
Theorem C58_columns_refuted : exists g ids ms cf r s ts, parsed g ids ms /\ ids = [1001; 222000; 236000; 101001; 31031; 33007] /\
  columns cf = true /\ cf_nsubsets cf = 2 /\ run_payload cf (root ms) (vst0 r) = (s, Ok tt) /\
  Forall (fun c => survives (cf_plat cf) (c_val c)) (all_cells (v_pay s)) /\
  marshal_payload (v_pay s) = Ok ts /\ forall e, ~ reads_back cf ms s ts e.
Proof.
  pose (ids := [1001; 222000; 236000; 101001; 31031; 33007]).
  exists demo_group, ids, (nodes_of ids), (demo_cf true false 2).
  exists (RBit (mkBR (bits 7 9 ++ bits 6 0 ++ bits 1 0 ++ bits 6 1 ++ bits 1 0 ++ bits 1 1 ++ bits 7 5 ++ bits 6 0) EEof 0)). do 2 eexists.
  split; [exists 30%nat; vm_compute; reflexivity|]. split; [reflexivity|]. split; [reflexivity|]. split; [reflexivity|].
  split; [apply run_demo; vm_compute; reflexivity|].
  split; [eapply vals_survive; [vm_compute; reflexivity|]; all_survive|].
  split; [vm_compute; reflexivity|].
  intros e (s' & H & _). apply (f_equal snd) in H. vm_compute in H. discriminate H.
Qed.
Print Assumptions C58_columns_refuted.
(** Two compressed subsets; an uncompressed one with a bit string and a quality block. *)
Example C58_example_compressed : exists s ts,
  let ids := [301001; 8002] in
  run_payload (demo_cf true false 2) (root (nodes_of ids))
    (vst0 (RBit (mkBR (bits 7 10 ++ bits 6 1 ++ bits 1 0 ++ bits 1 1 ++ bits 10 4 ++ bits 6 0 ++ bits 6 5 ++ bits 6 0) EEof 0))) = (s, Ok tt) /\
  parsed demo_group ids (nodes_of ids) /\ no_assessment (nodes_of ids) /\ some_subset (demo_cf true false 2) /\
  marshal_payload (v_pay s) = Ok ts /\ Forall (fun c => survives pl0 (c_val c)) (all_cells (v_pay s)) /\ length (all_cells (v_pay s)) = 6%nat.
Proof.
  do 2 eexists. cbv zeta. split; [apply run_demo; vm_compute; reflexivity|].
  split; [exists 30%nat; vm_compute; reflexivity|].
  split; [vm_compute; repeat constructor; discriminate|]. split; [intros _; reflexivity|].
  split; [vm_compute; reflexivity|]. split; [eapply vals_survive; [vm_compute; reflexivity|]; all_survive|]. vm_compute. reflexivity.
Qed.
Example C58_example_uncompressed : exists s ts,
  let ids := [1001; 206012; 63255; 222000; 236000; 101001; 31031; 33007] in
  run_payload (demo_cf false false 1) (root (nodes_of ids))
    (vst0 (RBit (mkBR (bits 7 10 ++ bits 12 3 ++ bits 1 0 ++ bits 7 90) EEof 0))) = (s, Ok tt) /\
  parsed demo_group ids (nodes_of ids) /\ some_subset (demo_cf false false 1) /\
  marshal_payload (v_pay s) = Ok ts /\ Forall (fun c => survives pl0 (c_val c)) (all_cells (v_pay s)) /\ length (all_cells (v_pay s)) = 4%nat.
Proof.
  do 2 eexists. cbv zeta. split; [apply run_demo; vm_compute; reflexivity|].
  split; [exists 30%nat; vm_compute; reflexivity|]. split; [intros _; reflexivity|].
  split; [vm_compute; reflexivity|]. split; [eapply vals_survive; [vm_compute; reflexivity|]; all_survive|]. vm_compute. reflexivity.
Qed.
(** Strings, in cells and in header fields, are written as the base64 of their bytes. *)
Theorem C58_strings : forall b, Forall is_byte b ->
  marshal_value (VBytes b) = Ok (TStr (base64_text b)) /\ marshal_fvalue (FBytes b) = Ok [TStr (base64_text b)].
Proof. intros b H. cbn [marshal_value marshal_fvalue]. now rewrite (letters_text b H). Qed.
Print Assumptions C58_strings.
Example C58_strings_case : Forall is_byte [97; 98; 99; 100] /\ marshal_value (VBytes [97; 98; 99; 100]) = Ok (TStr (gs "YWJjZA==")) /\
  marshal_fvalue (FBytes [66; 85; 70; 82; 255]) = Ok [TStr (gs "QlVGUv8=")].
Proof. split; [repeat constructor; unfold is_byte; lia|split; reflexivity]. Qed.
(** The whole document: an array of subsets, each the array of its values in order; missing
    values are null, and so is a payload without subsets. *)
Theorem C58_document : forall pay ts, payload_document pay ts -> marshal_payload pay = Ok ts.
Proof. exact marshal_document. Qed.
Print Assumptions C58_document.
Example C58_document_case : exists sb, map c_val (sb_cells sb) = [VNil; VUint 3; VBytes [97]] /\
  Forall2 json_form [VNil; VUint 3; VBytes [97]] [TNull; TNum (f64_of_Z 3); TStr (gs "YQ==")].
Proof.
  pose (n := mkVnode 0 (mkDesc 0 ER false) (mkInfo NUMERIC 0 (f64_of_Z 0) 0) 0 VNil 0).
  exists (mkSubset 0 (map (mkCell n) [VNil; VUint 3; VBytes [97]]) [] 0%nat). split; [reflexivity|].
  repeat constructor; lia.
Qed.
