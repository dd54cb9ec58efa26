(** Property theorem C69: data for any template - bitmaps, markers, assessments and absent data
    included - packed and decoded.  Vocabulary: SpecPack.v, SpecPlan.v. *)
From Verif Require Import ProofsPlan3 ProofsBitProps ProofsBits Demo PropsParser PropsRun.
From Verif Require Export SpecPlan.
From Coq Require Import Lia ZifyBool ZifyNat.

Lemma laid_written cf ms itss : Forall (laid cf ms) itss -> Forall SpecBits.fits (written (concat itss)).
Proof.
  induction 1 as [|its itss [_ H] _ IH]; [constructor|]. unfold written in *. cbn [concat]. rewrite map_app. apply Forall_app. split; [|exact IH].
  now apply written_fits.
Qed.
Lemma column_written n its : Forall (fun it => column_fits n (snd (fst it)) (snd it)) its -> Forall SpecBits.fits (written_columns its).
Proof. intros H. unfold written_columns. induction H; cbn [flat_map]; [constructor|]. apply Forall_app. split; [eapply column_items_fit; eassumption|assumption]. Qed.

(** C69.  Data laid out for any template, for any number of subsets: writing them with the bit
    writer (padded to whole bytes, with anything behind) and decoding the bytes gives every
    datum's value, under its descriptor and packing, in order; the reader stops right behind
    the packed bits. *)
Theorem C69_round_trip : forall g ids ms cf itss w pad more e,
  parsed g ids ms -> cf_json cf = false -> cf_compressed cf = false ->
  cf_nsubsets cf = blen itss -> Forall (laid cf ms) itss ->
  mapM_ write_item (written (concat itss)) new_bitwriter = (w, Ok tt) ->
  (blen w + blen pad) mod 8 = 0 ->
  exists s p, run_payload cf (root ms) (vst0 (RBit (new_bitreader (bw_output (w ++ pad) ++ more) e))) = (s, Ok tt) /\
    v_r s = RBit (mkBR (pad ++ bytes_bits more) e p) /\
    payload_values (v_pay s) = map values_of itss.
Proof.
  intros g ids ms cf itss w pad more e HP Hj Hc Hn HD Hw Ha. rewrite write_items_bits in Hw by (eapply laid_written; eassumption).
  injection Hw as Hw. cbn [new_bitwriter app] in Hw. unfold new_bitreader. rewrite output_bits, <- Hw by exact Ha.
  eapply laid_round_trip; eassumption.
Qed.
Print Assumptions C69_round_trip.
(** Writing them never fails. *)
Theorem C69_writing_succeeds : forall cf ms itss, Forall (laid cf ms) itss ->
  exists w, mapM_ write_item (written (concat itss)) new_bitwriter = (w, Ok tt).
Proof. intros cf ms itss H. eexists. apply write_items_bits. eapply laid_written; eassumption. Qed.
Print Assumptions C69_writing_succeeds.
(** The same, compressed. *)
Theorem C69_compressed : forall g ids ms cf its w pad more e,
  parsed g ids ms -> cf_json cf = false -> cf_compressed cf = true ->
  0 < cf_nsubsets cf -> laid_columns cf (cf_nsubsets cf) ms its ->
  mapM_ write_item (written_columns its) new_bitwriter = (w, Ok tt) ->
  (blen w + blen pad) mod 8 = 0 ->
  exists s p, run_payload cf (root ms) (vst0 (RBit (new_bitreader (bw_output (w ++ pad) ++ more) e))) = (s, Ok tt) /\
    v_r s = RBit (mkBR (pad ++ bytes_bits more) e p) /\
    payload_values (v_pay s) = map (fun k => values_of (lane k its)) (seq 0 (Z.to_nat (cf_nsubsets cf))).
Proof.
  intros g ids ms cf its w pad more e HP Hj Hc Hn HD Hw Ha. rewrite write_items_bits in Hw by (destruct HD; eapply column_written; eassumption).
  injection Hw as Hw. cbn [new_bitwriter app] in Hw. unfold new_bitreader. rewrite output_bits, <- Hw by exact Ha.
  eapply columns_round_trip; eassumption.
Qed.
Print Assumptions C69_compressed.
(** The converse: whatever an uncompressed payload decodes to was laid out for the template,
    and (unless a field is a signed code, which has two zeros) the bits read are exactly the
    bits the writer produces from the decoded data. *)
Theorem C69_only : forall g ids ms cf r l s,
  parsed g ids ms -> cf_json cf = false -> cf_compressed cf = false -> 0 <= cf_nsubsets cf -> binary_reader r l ->
  run_payload cf (root ms) (vst0 r) = (s, Ok tt) ->
  (forall sb c, In sb (v_pay s) -> In c (sb_cells sb) -> c_val c <> VBin None /\ usable (vn_info (c_node c))) ->
  exists itss rest, cf_nsubsets cf = blen itss /\ Forall (laid cf ms) itss /\ payload_values (v_pay s) = map values_of itss /\
    binary_reader (v_r s) rest /\
    ((forall sb c, In sb (v_pay s) -> In c (sb_cells sb) -> pi_unit (vn_info (c_node c)) <> CODE) ->
      forall w, mapM_ write_item (written (concat itss)) new_bitwriter = (w, Ok tt) -> l = w ++ rest).
Proof.
  intros g ids ms cf r l s HP Hj Hc Hn Hl H HN. destruct (decoded_laid g ids ms cf r l s HP Hj Hc Hn Hl H HN) as (itss & rest & K1 & K2 & K3 & K4 & K5).
  exists itss, rest. repeat (split; [assumption|]). intros HC w Hw. rewrite write_items_bits in Hw by (eapply laid_written; eassumption). injection Hw as <-. now apply K5.
Qed.
Print Assumptions C69_only.
(** The data trees of C59 and C34 are layouts. *)
Theorem C69_trees : forall g ids ms cf, parsed g ids ms ->
  (forall its, subset_data (cf_plat cf) ms its -> laid cf ms its) /\
  (forall n its, 0 < n -> compressed_data (cf_plat cf) n ms its -> laid_columns cf n ms its).
Proof.
  intros g ids ms cf HP. pose proof (parsed_right _ _ _ HP) as HR.
  split; [intros its; now apply subset_data_laid|intros n its Hn; now apply compressed_data_laid].
Qed.
Print Assumptions C69_trees.
(** An example with two bitmap operators and markers: three elements, quality information for
    those the bitmap selects, then first-order statistics with the same bitmap, whose values
    take the packings of the elements selected. *)
Ltac put v := match goal with |- holds ?d ?i ?x =>
  let i' := eval vm_compute in i in unify x (planned d i' [raw_value i' (RNumber v)]); exists [raw_value i' (RNumber v)]; vm_compute; reflexivity end.
Ltac lay_elem v := eapply lay_element; [reflexivity|vm_compute; constructor|put v].
Ltac lay_fix := eapply lay_fixed; match goal with |- lays_times _ ?k _ _ _ => let k' := eval vm_compute in k in change k with k' end.
Example C69_example : exists its, parsed demo_group demo_bitmaps (nodes_of demo_bitmaps) /\
  laid (demo_cf false false 1) (nodes_of demo_bitmaps) its /\
  written its = [IUint 1 7; IUint 2 10; IUint 3 6; IUint 0 1; IUint 1 1; IUint 0 1; IUint 50 7; IUint 4 6; IUint 9 7; IUint 8 6] /\
  map (fun it => d_id (fst (fst it))) its = [1001; 1002; 8002; 31031; 31031; 31031; 33007; 8023; 224255; 224255].
Proof.
  set (it := fun (d : Z) (info : pinfo) (v : Z) => (demo_desc d, info, RNumber v)).
  set (num := fun w : Z => mkInfo NUMERIC 0 (S754_zero false) w). set (code := fun w : Z => mkInfo NONNEG_CODE 0 (S754_zero false) w).
  exists [it 1001 (num 7) 1; it 1002 (num 10) 2; it 8002 (code 6) 3; it 31031 (code 1) 0; it 31031 (code 1) 1; it 31031 (code 1) 0;
          it 33007 (num 7) 50; it 8023 (code 6) 4; it 224255 (num 7) 9; it 224255 (code 6) 8].
  split; [exists 30%nat; vm_compute; reflexivity|]. split; [|split; vm_compute; reflexivity].
  split.
  - remember (nodes_of demo_bitmaps) as ms eqn:E. vm_compute in E. subst ms. eexists. split.
    + eapply lay_cons; [lay_elem 1|]. eapply lay_cons; [lay_elem 2|]. eapply lay_cons; [lay_elem 3|].
      eapply lay_cons.
      { eapply lay_assess; [reflexivity| |apply lay_nil| | |].
        - eapply lay_define; [discriminate|reflexivity| |].
          + eapply lay_cons; [|apply lay_nil]. lay_fix. eapply lay_S; [eapply lay_cons; [lay_elem 0|apply lay_nil]|].
            eapply lay_S; [eapply lay_cons; [lay_elem 1|apply lay_nil]|]. eapply lay_S; [eapply lay_cons; [lay_elem 0|apply lay_nil]|]. apply lay_0.
          + discriminate.
        - exists [0; 1; 0]. split; [exists 3%nat, 6%nat; split; [reflexivity|]; split; [lia|]; split; [|reflexivity]; repeat constructor; do 2 eexists; split; reflexivity|].
          split; [vm_compute; lia|]. split; [discriminate|]. reflexivity.
        - eapply lay_cons; [lay_elem 50|apply lay_nil].
        - vm_compute; lia. }
      eapply lay_cons; [|apply lay_nil].
      eapply lay_assess; [reflexivity|apply lay_recall; reflexivity|eapply lay_cons; [lay_elem 4|apply lay_nil]| | |].
      * exists [0; 1; 0]. split; [exists 3%nat, 6%nat; split; [reflexivity|]; split; [lia|]; split; [|reflexivity]; repeat constructor; do 2 eexists; split; reflexivity|].
        split; [vm_compute; lia|]. split; [discriminate|]. reflexivity.
      * eapply lay_cons; [|apply lay_nil]. lay_fix.
        eapply lay_S; [eapply lay_cons; [eapply lay_marker; [vm_compute; reflexivity|vm_compute; reflexivity|reflexivity|put 9]|apply lay_nil]|].
        eapply lay_S; [eapply lay_cons; [eapply lay_marker; [vm_compute; reflexivity|vm_compute; reflexivity|reflexivity|put 8]|apply lay_nil]|]. apply lay_0.
      * vm_compute; lia.
    + vm_compute. reflexivity.
  - repeat constructor; cbn; unfold is_number; auto; lia.
Qed.
(** The theorem applied to it. *)
Example C69_applies : exists w its s p, laid (demo_cf false false 1) (nodes_of demo_bitmaps) its /\
  mapM_ write_item (written its) new_bitwriter = (w, Ok tt) /\ w = demo_bitmap_bits /\
  run_payload (demo_cf false false 1) (root (nodes_of demo_bitmaps)) (vst0 (RBit (new_bitreader (bw_output (w ++ repeat false (Z.to_nat (64 - blen w))) ++ []) EEof))) = (s, Ok tt) /\
  v_r s = RBit (mkBR (repeat false (Z.to_nat (64 - blen w)) ++ []) EEof p) /\ payload_values (v_pay s) = [values_of its].
Proof.
  destruct C69_example as (its & HP & HL & HW & _).
  assert (Hw : mapM_ write_item (written its) new_bitwriter = (demo_bitmap_bits, Ok tt)) by (rewrite HW; vm_compute; reflexivity).
  destruct (C69_round_trip demo_group demo_bitmaps _ (demo_cf false false 1) [its] demo_bitmap_bits (repeat false (Z.to_nat (64 - blen demo_bitmap_bits))) [] EEof HP eq_refl eq_refl eq_refl) as (s & p & R1 & R2 & R3).
  { constructor; [exact HL|constructor]. } { cbn [concat]. now rewrite app_nil_r. } { vm_compute. reflexivity. }
  exists demo_bitmap_bits, its, s, p. split; [exact HL|]. split; [exact Hw|]. split; [reflexivity|]. split; [exact R1|]. split; [exact R2|exact R3].
Qed.
