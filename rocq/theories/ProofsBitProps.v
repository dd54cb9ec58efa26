(** Proofs of the bit-level properties (C01-C08). *)
From Coq Require Import ZifyBool ZifyNat.
From Verif Require Export ProofsBits.
Ltac Zify.zify_post_hook ::= Z.div_mod_to_equations.

(** ** C01, C02 *)

Lemma slices_of_calls : forall calls r r' vs,
  Forall valid_call calls ->
  mapM do_call calls r = (r', Ok vs) -> Forall delivered vs ->
  exists slices,
    br_bits r = concat slices ++ br_bits r' /\
    Forall2 (fun c s => blen s = width c) calls slices /\
    vs = map (fun cs => spec_value (fst cs) (snd cs)) (combine calls slices) /\
    br_pos r' = br_pos r + sum_widths calls /\ br_err r' = br_err r.
Proof.
  induction calls as [|c calls IH]; intros r r' vs Hv Hrun Hd; cbn [mapM] in Hrun.
  - injection Hrun as <- <-. exists []. cbn. repeat split; auto. lia.
  - inversion Hv as [|? ? Hc Hcs]; subst. unfold bind in Hrun.
    destruct (do_call_cases c r Hc) as [(sl & rest & Hb & Hw & Hdo)|(Hlt & l' & Hdo & Hsuf)].
    + rewrite Hdo in Hrun.
      destruct (mapM do_call calls _) as [r2 [vs2|e2|p2|]] eqn:Hm; try discriminate.
      injection Hrun as <- <-. inversion Hd; subst.
      destruct (IH _ _ _ Hcs Hm) as (sls & Hb2 & Hf & Hvs & Hp & He); [assumption|].
      cbn [br_bits br_pos br_err] in *. exists (sl :: sls). cbn [concat combine map sum_widths fold_right].
      repeat split.
      * rewrite Hb, Hb2, app_assoc. reflexivity.
      * constructor; assumption.
      * cbn [fst snd]. now rewrite Hvs.
      * rewrite Hp. unfold sum_widths. lia.
      * exact He.
    + rewrite Hdo in Hrun. destruct c; cbn [short_result] in Hrun; try discriminate.
      destruct (mapM do_call calls _) as [r2 [vs2|e2|p2|]]; try discriminate.
      injection Hrun as <- <-. inversion Hd; subst. contradiction.
Qed.

Lemma sum_slices calls (slices : list (list bool)) :
  Forall2 (fun c s => blen s = width c) calls slices -> blen (concat slices) = sum_widths calls.
Proof.
  induction 1 as [|c s cs ss H _ IH]; [reflexivity|].
  cbn [concat sum_widths fold_right]. rewrite blen_app, H. unfold sum_widths in IH. lia.
Qed.

Lemma pos_of_calls calls r r' vs :
  Forall valid_call calls ->
  mapM do_call calls r = (r', Ok vs) -> Forall delivered vs ->
  br_Pos r' = br_Pos r + sum_widths calls /\
  blen (br_bits r) = sum_widths calls + blen (br_bits r').
Proof.
  intros Hv Hrun Hd.
  destruct (slices_of_calls _ _ _ _ Hv Hrun Hd) as (sls & Hb & Hf & _ & Hp & _).
  split; [exact Hp|]. rewrite Hb, blen_app, (sum_slices _ _ Hf). reflexivity.
Qed.

(** All calls one after the other, going on after failures. *)
Fixpoint run_all (calls : list call) (r : bitreader) : bitreader :=
  match calls with
  | [] => r
  | c :: cs => run_all cs (fst (do_call c r))
  end.

Lemma suffix_blen {A} (a b : list A) : suffix a b -> blen a <= blen b.
Proof. intros [p ->]. rewrite blen_app. pose proof (blen_nonneg p). lia. Qed.

Lemma pos_one_call c r : valid_call c ->
  let '(r', o) := do_call c r in
  exists taken, br_bits r = taken ++ br_bits r' /\
  blen taken <= br_Pos r' - br_Pos r <= width c /\
  (forall v, o = Ok v -> delivered v -> blen taken = width c) /\
  ((forall v, o = Ok v -> ~ delivered v) -> blen taken < width c /\
     (br_Pos r' - br_Pos r = width c \/
      br_bits r = [] /\ br_Pos r' - br_Pos r = 1 /\ exists n, c = CInt n)).
Proof.
  intros Hv. unfold br_Pos. pose proof (valid_width _ Hv).
  destruct (do_call_cases c r Hv) as [(sl & rest & Hb & Hw & ->)|(Hlt & l' & -> & Hsuf)];
    cbn [br_bits br_pos br_err].
  - exists sl. split; [exact Hb|]. split; [lia|]. split; [intros; exact Hw|].
    intros Hn. exfalso. eapply Hn; [reflexivity|apply spec_value_delivered].
  - destruct Hsuf as [p Hp]. exists p. split; [exact Hp|].
    assert (Hle : blen p <= blen (br_bits r))
      by (rewrite Hp, blen_app; pose proof (blen_nonneg l'); lia).
    assert (Hsw : blen (br_bits r) <= short_width c (br_bits r) <= width c).
    { destruct c; cbn [short_width width valid_call] in *; try lia.
      destruct (br_bits r); cbn in *; lia. }
    split; [lia|]. split.
    + intros v Hv' Hd. destruct c; cbn [short_result] in Hv'; try discriminate.
      injection Hv' as <-. contradiction.
    + intros _. split; [lia|].
      destruct c; cbn [short_width width] in *; try (left; lia).
      destruct (br_bits r) as [|x xs]; [|left; lia].
      right. repeat split; [lia|eauto].
Qed.

Lemma pos_run_all calls : forall r, Forall valid_call calls ->
  exists taken, br_bits r = taken ++ br_bits (run_all calls r) /\
  blen taken <= br_Pos (run_all calls r) - br_Pos r <= sum_widths calls.
Proof.
  induction calls as [|c cs IH]; intros r Hv; cbn [run_all sum_widths fold_right].
  - exists []. cbn. split; [reflexivity|]. unfold blen; cbn. lia.
  - inversion Hv; subst. pose proof (pos_one_call c r ltac:(assumption)) as H1c.
    destruct (do_call c r) as [r' o]. cbn [fst].
    destruct H1c as (t1 & Hb1 & Hp1 & _).
    destruct (IH r' ltac:(assumption)) as (t2 & Hb2 & Hp2).
    exists (t1 ++ t2). rewrite blen_app. split; [rewrite Hb1, Hb2, app_assoc at 1; reflexivity|].
    unfold sum_widths in *. lia.
Qed.

(** ** C07, C08 *)

Lemma value_read_succeeds_iff c r : valid_call c -> (forall n, c <> CBinary n) ->
  (is_ok (snd (do_call c r)) = true <-> width c <= blen (br_bits r)) /\
  (is_ok (snd (do_call c r)) = false -> snd (do_call c r) = Err (br_err r)).
Proof.
  intros Hv Hn.
  destruct (do_call_cases c r Hv) as [(sl & rest & Hb & Hw & ->)|(Hlt & l' & -> & Hsuf)];
    cbn [snd].
  - rewrite Hb, blen_app, Hw. pose proof (blen_nonneg rest). cbn. split; [split; intros; [lia|reflexivity]|discriminate].
  - destruct c; cbn [short_result is_ok]; try (split; [split; intros; [discriminate|lia]|reflexivity]).
    exfalso. now eapply Hn.
Qed.

Lemma read_binary_short_iff n r : 0 <= n ->
  (blen (br_bits r) < n <-> snd (br_ReadBinary n r) = Ok None).
Proof.
  intros Hn. destruct r as [l e p]. cbn [br_bits].
  destruct (Z.lt_ge_cases (blen l) n) as [Hlt|Hge].
  - destruct (br_ReadBinary_short e p n l Hlt) as (l' & -> & _). cbn. tauto.
  - destruct (cut l n) as (a & b & -> & Ha); [lia|].
    rewrite br_ReadBinary_ok by exact Ha. cbn [snd]. split; [lia|discriminate].
Qed.

(** ** Writing *)

Lemma low_bits_app n m v : low_bits (n + m) v = low_bits n (v / 2 ^ Z.of_nat m) ++ low_bits m v.
Proof.
  induction n as [|n IH]; [reflexivity|].
  cbn [low_bits Nat.add app]. rewrite IH. f_equal.
  rewrite Z.div_pow2_bits by lia. f_equal. lia.
Qed.

Lemma low_bits_mod n m v : (Z.of_nat n <= m) -> low_bits n (v mod 2 ^ m) = low_bits n v.
Proof.
  intros H. apply msb_inj; [now rewrite !length_low_bits|]. rewrite !msb_low_bits.
  rewrite <- Znumtheory.Zmod_div_mod; [reflexivity| | |].
  - apply Z.pow_pos_nonneg; lia.
  - apply Z.pow_pos_nonneg; lia.
  - exists (2 ^ (m - Z.of_nat n)). rewrite <- Z.pow_add_r by lia. f_equal. lia.
Qed.

Lemma bw_WriteUint_bits v n w : 0 <= n <= 64 ->
  bw_WriteUint v n w = w ++ low_bits (Z.to_nat n) v.
Proof.
  intros H. unfold bw_WriteUint, lib_write_bits.
  destruct (Z.leb_spec n 0).
  - replace (Z.to_nat n) with 0%nat by lia. cbn. now rewrite app_nil_r.
  - destruct (Z.ltb_spec 64 n); [lia|]. unfold u64. rewrite low_bits_mod by lia. reflexivity.
Qed.

Lemma lor_disjoint k m : 0 <= k -> 0 <= m < 2 ^ k -> Z.lor (2 ^ k) m = 2 ^ k + m.
Proof.
  intros Hk Hm. rewrite <- Z.lxor_lor; [symmetry; apply Z.add_nocarry_lxor|].
  all: apply Z.bits_inj'; intros i Hi; rewrite Z.land_spec, Z.pow2_bits_eqb, Z.bits_0 by lia;
    destruct (Z.eqb_spec k i); [subst|reflexivity]; cbn;
    rewrite <- (Z.mod_small m (2 ^ i)) by lia; now rewrite Z.mod_pow2_bits_high by lia.
Qed.

(** The n bits WriteInt emits for a value that fits: sign, then magnitude. *)
Lemma bw_WriteInt_bits v n w : 1 <= n <= 64 -> Z.abs v < 2 ^ (n - 1) ->
  bw_WriteInt v n w = w ++ (v <? 0) :: low_bits (Z.to_nat (n - 1)) (Z.abs v).
Proof.
  intros Hn Hv. assert (Hp : 2 ^ (n - 1) <= 2 ^ 63) by (apply Z.pow_le_mono_r; lia).
  assert (Hlow : forall x, 0 <= x < 2 ^ (n - 1) -> forall b,
    low_bits (Z.to_nat n) (b2z b * 2 ^ (n - 1) + x) = b :: low_bits (Z.to_nat (n - 1)) x).
  { intros x Hx b. apply msb_inj; [cbn; rewrite !length_low_bits; lia|].
    rewrite msb_cons, !msb_low_bits, blen_low_bits.
    rewrite !Z2Nat.id by lia. rewrite (Z.mod_small x) by lia.
    apply Z.mod_small. assert (2 ^ n = 2 * 2 ^ (n - 1)) as -> by
      (rewrite <- Z.pow_succ_r by lia; f_equal; lia).
    destruct b; cbn [b2z]; lia. }
  unfold bw_WriteInt. destruct (Z.ltb_spec v 0) as [Hneg|Hpos].
  - rewrite Z.abs_neq in * by lia.
    assert (((0 <? n) && (n <=? 64)) = true) as -> by lia.
    rewrite u64_small by lia. rewrite lor_disjoint by lia.
    rewrite bw_WriteUint_bits by lia. f_equal.
    rewrite <- (Hlow (- v) ltac:(lia) true). f_equal. cbn [b2z]. lia.
  - rewrite Z.abs_eq in * by lia. rewrite bw_WriteUint_bits by lia. f_equal.
    rewrite <- (Hlow v ltac:(lia) false). f_equal. 
Qed.

Lemma bw_WriteBytes_loop_bits n : forall v w,
  bw_WriteBytes_loop n v w = w ++ bytes_bits (firstn n (v ++ repeat 0 n)).
Proof.
  induction n as [|n IH]; intros v w; cbn [bw_WriteBytes_loop].
  - now rewrite app_nil_r.
  - rewrite IH, <- app_assoc. f_equal. destruct v as [|x v]; cbn [hd tl app repeat firstn].
    + rewrite bytes_bits_cons. reflexivity.
    + rewrite bytes_bits_cons. f_equal. f_equal.
      rewrite !firstn_app. f_equal. rewrite repeat_cons.
      rewrite firstn_app, repeat_length.
      replace (n - length v - n)%nat with 0%nat by lia. cbn. now rewrite app_nil_r.
Qed.
Lemma bw_WriteBytes_fits v n w : n = blen v ->
  bw_WriteBytes v n w = w ++ bytes_bits v.
Proof.
  intros ->. unfold bw_WriteBytes, blen. rewrite Nat2Z.id, bw_WriteBytes_loop_bits.
  rewrite firstn_app, firstn_all, Nat.sub_diag. cbn. now rewrite app_nil_r.
Qed.

(** Bits of a Binary in normal form. *)
Definition tail_width (n : Z) : Z := if n mod 8 =? 0 then 8 else n mod 8.
Fixpoint bin_bits (tailw : Z) (l : list Z) : list bool :=
  match l with
  | [] => []
  | [b] => low_bits (Z.to_nat tailw) b
  | b :: l' => byte_bits b ++ bin_bits tailw l'
  end.

Lemma bw_WriteBinary_loop_bits n : 0 <= n -> forall l w,
  bw_WriteBinary_loop l n w = w ++ bin_bits (tail_width n) l.
Proof.
  intros Hn. induction l as [|b l IH]; intros w.
  - cbn. now rewrite app_nil_r.
  - cbn [bw_WriteBinary_loop]. rewrite IH. rewrite Z.rem_mod_nonneg by lia.
    unfold tail_width. destruct l as [|b' l].
    + cbn [bin_bits]. rewrite app_nil_r. destruct (Z.eqb_spec (n mod 8) 0) as [H0|H0]; cbn [andb negb].
      * reflexivity.
      * unfold lib_write_bits. pose proof (Z.mod_pos_bound n 8 ltac:(lia)).
        destruct (Z.leb_spec (n mod 8) 0); [lia|]. destruct (Z.ltb_spec 64 (n mod 8)); [lia|reflexivity].
    + cbn [andb]. cbn [bin_bits]. now rewrite <- app_assoc.
Qed.

Lemma bin_bits_len tw l : 0 <= tw -> l <> [] -> blen (bin_bits tw l) = 8 * (blen l - 1) + tw.
Proof.
  intros Ht. induction l as [|b l IH]; intros Hne; [congruence|].
  destruct l as [|b' l].
  - cbn [bin_bits]. rewrite blen_low_bits. change (blen [b]) with 1. lia.
  - cbn [bin_bits]. fold (bin_bits tw (b' :: l)). rewrite blen_app.
    change (blen (byte_bits b)) with 8. rewrite (blen_cons b).
    transitivity (8 + (8 * (blen (b' :: l) - 1) + tw)); [|lia].
    f_equal. apply IH. discriminate.
Qed.
Lemma bin_bits_chunks tw l : 1 <= tw <= 8 -> Forall is_byte l -> last l 0 < 2 ^ tw ->
  map msb (chunks8 (bin_bits tw l)) = l.
Proof.
  intros Ht. induction l as [|b l IH]; intros Hb Hl; [reflexivity|].
  inversion Hb as [|? ? Hb1 Hb2]; subst. destruct l as [|b' l].
  - cbn [bin_bits last] in *. unfold is_byte in Hb1.
    assert (Hlen : length (low_bits (Z.to_nat tw) b) = Z.to_nat tw) by apply length_low_bits.
    assert (Hm : msb (low_bits (Z.to_nat tw) b) = b)
      by (apply msb_low_bits_small; rewrite Z2Nat.id by lia; lia).
    destruct (Z.eq_dec tw 8) as [->|Hne].
    + rewrite <- (app_nil_r (low_bits _ _)), chunks8_cons by exact Hlen. cbn [map chunks8].
      now rewrite Hm.
    + rewrite chunks8_short by lia. cbn [map]. now rewrite Hm.
  - change (bin_bits tw (b :: b' :: l)) with (byte_bits b ++ bin_bits tw (b' :: l)).
    rewrite chunks8_cons by reflexivity. cbn [map]. rewrite msb_byte_bits by assumption.
    f_equal. apply IH; assumption.
Qed.

Lemma chunks8_bytes l : Forall is_byte l -> map msb (chunks8 (bytes_bits l)) = l.
Proof.
  induction 1 as [|b l Hb _ IH]; [reflexivity|].
  rewrite bytes_bits_cons, chunks8_cons by reflexivity. cbn [map].
  now rewrite msb_byte_bits, IH.
Qed.

Definition item_bits (i : item) : list bool :=
  match i with
  | IUint v n => low_bits (Z.to_nat n) v
  | IInt v n => (v <? 0) :: low_bits (Z.to_nat (n - 1)) (Z.abs v)
  | IBool b => [b]
  | IBytes v _ => bytes_bits v
  | IBinary v n => bin_bits (tail_width n) (b_bytes v)
  end.

Lemma wf_binary_tail v : wf_binary v -> last (b_bytes v) 0 < 2 ^ tail_width (b_nbits v).
Proof.
  intros (H0 & Hl & Hb & Ht). unfold tail_width. destruct (Z.eqb_spec (b_nbits v mod 8) 0) as [He|Hne].
  - destruct (b_bytes v) as [|x l] eqn:E; [cbn; lia|].
    assert (is_byte (last (x :: l) 0)).
    { rewrite Forall_forall in Hb. apply Hb.
      destruct (@exists_last _ (x :: l)) as (a & y & ->); [discriminate|].
      rewrite last_last. apply in_or_app. right. now left. }
    unfold is_byte in *. lia.
  - now apply Ht.
Qed.

Lemma write_item_bits i w : fits i -> write_item i w = (w ++ item_bits i, Ok tt).
Proof.
  destruct i as [v n|v n|v|v n|v n]; cbn [fits write_item item_bits]; intros H.
  - now rewrite bw_WriteUint_bits by lia.
  - now rewrite bw_WriteInt_bits by lia.
  - reflexivity.
  - destruct H as [-> H]. now rewrite bw_WriteBytes_fits.
  - destruct H as [-> Hwf]. unfold bw_WriteBinary. rewrite Z.eqb_refl. cbn [negb].
    rewrite bw_WriteBinary_loop_bits by apply Hwf. reflexivity.
Qed.

Lemma tail_width_range n : 1 <= tail_width n <= 8.
Proof. unfold tail_width. pose proof (Z.mod_pos_bound n 8 ltac:(lia)).
  destruct (Z.eqb_spec (n mod 8) 0); lia. Qed.

Lemma item_bits_width i : fits i -> blen (item_bits i) = width (call_of i).
Proof.
  destruct i as [v n|v n|v|v n|v n]; cbn [fits item_bits call_of width]; intros H.
  - rewrite blen_low_bits. lia.
  - rewrite blen_cons, blen_low_bits. lia.
  - reflexivity.
  - destruct H as [-> _]. apply blen_bytes_bits.
  - destruct H as [-> (H0 & Hl & Hb & Ht)]. destruct (b_bytes v) as [|x l] eqn:E.
    + change (blen (@nil Z)) with 0 in Hl. cbn [bin_bits]. change (blen (@nil bool)) with 0. lia.
    + rewrite bin_bits_len; [|pose proof (tail_width_range (b_nbits v)); lia|discriminate].
      rewrite Hl. unfold tail_width. destruct (Z.eqb_spec (b_nbits v mod 8) 0); lia.
Qed.

Lemma item_bits_value i : fits i -> spec_value (call_of i) (item_bits i) = value_of i.
Proof.
  destruct i as [v n|v n|v|v n|v n]; cbn [fits item_bits call_of spec_value value_of]; intros H.
  - rewrite msb_low_bits_small by (rewrite Z2Nat.id by lia; lia).
    assert (2 ^ n <= 2 ^ 64) by (apply Z.pow_le_mono_r; lia). now rewrite Z.mod_small by lia.
  - cbn [hd tl]. assert (2 ^ (n - 1) <= 2 ^ 63) by (apply Z.pow_le_mono_r; lia).
    rewrite msb_low_bits_small by (rewrite Z2Nat.id by lia; lia).
    f_equal. destruct (Z.ltb_spec v 0); rewrite i64_small; lia.
  - reflexivity.
  - destruct H as [_ H]. now rewrite chunks8_bytes.
  - destruct H as [-> Hwf]. rewrite bin_bits_chunks.
    + destruct v. reflexivity.
    + apply tail_width_range.
    + apply Hwf.
    + now apply wf_binary_tail.
Qed.
Lemma fits_valid i : fits i -> valid_call (call_of i).
Proof.
  destruct i as [v n|v n|v|v n|v n]; cbn [fits call_of valid_call width]; intros H; try lia.
  - destruct H as [-> _]. pose proof (blen_nonneg v). lia.
  - destruct H as [-> (H & _)]. exact H.
Qed.

Lemma write_items_bits items : forall w, Forall fits items ->
  mapM_ write_item items w = (w ++ flat_map item_bits items, Ok tt).
Proof.
  induction items as [|i items IH]; intros w H; cbn [mapM_ flat_map].
  - now rewrite app_nil_r.
  - inversion H; subst. unfold bind. rewrite write_item_bits by assumption.
    rewrite IH by assumption. now rewrite app_assoc.
Qed.

(** ** Output of the writer *)

Lemma pack_bytes_short fuel l : (length l < 8)%nat -> pack_bytes fuel l = [].
Proof.
  intros H. destruct fuel; [reflexivity|].
  do 8 (destruct l as [|? l]; [reflexivity|]). cbn in H. lia.
Qed.
Lemma pack_bytes_cons fuel c r : length c = 8%nat ->
  pack_bytes (S fuel) (c ++ r) = msb c :: pack_bytes fuel r.
Proof.
  intros H. destruct (eight_bits _ H) as (b7 & b6 & b5 & b4 & b3 & b2 & b1 & b0 & ->).
  cbn [app pack_bytes]. f_equal. unfold msb. cbn [fold_left]. lia.
Qed.
Lemma pack_bytes_spec l : forall fuel, (length l <= fuel)%nat ->
  bytes_bits (pack_bytes fuel l) = firstn (8 * (length l / 8)) l /\
  Forall is_byte (pack_bytes fuel l).
Proof.
  induction l as [|c H|c r H IH] using bits8_ind; intros fuel Hf.
  - destruct fuel; split; constructor.
  - rewrite pack_bytes_short by lia. rewrite Nat.div_small by lia. split; constructor.
  - rewrite app_length in *. destruct fuel as [|fuel]; [lia|].
    rewrite pack_bytes_cons by exact H. destruct (IH fuel ltac:(lia)) as [IH1 IH2].
    rewrite bytes_bits_cons, IH1. split.
    + rewrite byte_bits_low. rewrite <- H at 1. rewrite low_bits_msb.
      replace ((length c + length r) / 8)%nat with (1 + length r / 8)%nat
        by (rewrite H; change 8%nat with (1 * 8)%nat at 2; rewrite Nat.div_add_l by lia; reflexivity).
      rewrite firstn_app. replace (8 * (1 + length r / 8) - length c)%nat with (8 * (length r / 8))%nat by lia.
      f_equal. symmetry. apply firstn_all2. lia.
    + constructor; [|exact IH2]. unfold is_byte. pose proof (msb_bound c) as Hb.
      replace (blen c) with 8 in Hb by (unfold blen; lia). lia.
Qed.
Lemma bw_output_bits w : bytes_bits (bw_output w) = firstn (8 * (length w / 8)) w.
Proof. unfold bw_output. now apply pack_bytes_spec. Qed.
Lemma bw_output_bytes w : Forall is_byte (bw_output w).
Proof. unfold bw_output. now apply (pack_bytes_spec w). Qed.
Lemma bw_output_length w : blen (bw_output w) = blen w / 8.
Proof.
  pose proof (bw_output_bits w) as H. apply (f_equal (@length bool)) in H.
  rewrite length_bytes_bits, firstn_length in H. unfold blen. lia.
Qed.

(** ** C03 *)

Lemma read_items items : forall r e p, Forall fits items ->
  mapM do_call (map call_of items) (mkBR (flat_map item_bits items ++ r) e p)
  = (mkBR r e (p + sum_widths (map call_of items)), Ok (map value_of items)).
Proof.
  induction items as [|i items IH]; intros r e p H; cbn [map mapM flat_map sum_widths fold_right].
  - cbn. unfold ret. do 2 f_equal. lia.
  - inversion H; subst. unfold bind. rewrite <- app_assoc.
    rewrite do_call_ok; [|now apply fits_valid|now apply item_bits_width].
    rewrite IH by assumption. rewrite item_bits_value by assumption.
    unfold ret, sum_widths. do 2 f_equal. lia.
Qed.

Lemma round_trip items more w e :
  Forall fits items -> Forall fits more ->
  mapM_ write_item (items ++ more) new_bitwriter = (w, Ok tt) ->
  blen w mod 8 = 0 ->
  exists rest,
    mapM do_call (map call_of items) (new_bitreader (bw_output w) e)
      = (mkBR rest e (sum_widths (map call_of items)), Ok (map value_of items)) /\
    blen rest = sum_widths (map call_of more).
Proof.
  intros Hi Hm Hw Hal. rewrite write_items_bits in Hw by (apply Forall_app; auto).
  injection Hw as <-. cbn [new_bitwriter app] in *.
  unfold new_bitreader. rewrite bw_output_bits.
  rewrite firstn_all2.
  2:{ unfold blen in Hal. pose proof (Nat.div_mod (length (flat_map item_bits (items ++ more))) 8). lia. }
  rewrite flat_map_app. exists (flat_map item_bits more). split.
  - rewrite read_items by assumption. reflexivity.
  - clear Hal. induction Hm as [|i more Hf _ IH]; [reflexivity|].
    cbn [flat_map map sum_widths fold_right]. rewrite blen_app, item_bits_width by assumption.
    rewrite IH. reflexivity.
Qed.

(** ** C04 *)

Lemma msb_repeat_false n : msb (repeat false n) = 0.
Proof. induction n; [reflexivity|]. cbn [repeat]. rewrite msb_cons, IHn. cbn [b2z]. lia. Qed.

Lemma bw_WriteUint_emits v n w : exists bs, bw_WriteUint v n w = w ++ bs /\
  blen bs = Z.max 0 n /\ msb bs = if n <=? 64 then v mod 2 ^ Z.max 0 n else 0.
Proof.
  destruct (Z.leb_spec n 64) as [H|H].
  - destruct (Z.leb_spec n 0) as [H0|H0].
    + exists []. unfold bw_WriteUint, lib_write_bits. destruct (Z.leb_spec n 0); [|lia].
      rewrite app_nil_r. split; [reflexivity|]. replace (Z.max 0 n) with 0 by lia.
      change (2 ^ 0) with 1. rewrite Z.mod_1_r. split; reflexivity.
    + exists (low_bits (Z.to_nat n) v). rewrite bw_WriteUint_bits by lia.
      split; [reflexivity|]. rewrite blen_low_bits, msb_low_bits.
      rewrite Z2Nat.id by lia. replace (Z.max 0 n) with n by lia. split; reflexivity.
  - exists (repeat false (Z.to_nat n)). unfold bw_WriteUint, lib_write_bits.
    destruct (Z.leb_spec n 0); [lia|]. destruct (Z.ltb_spec 64 n); [|lia].
    split; [reflexivity|]. rewrite msb_repeat_false. unfold blen. rewrite repeat_length.
    split; [lia|reflexivity].
Qed.

Lemma msb_hd_tl bs n : 1 <= n -> blen bs = n -> 2 ^ (n - 1) <= msb bs ->
  hd false bs = true /\ msb (tl bs) = msb bs - 2 ^ (n - 1).
Proof.
  intros Hn Hl Hm. destruct bs as [|b bs]; [cbn in Hl; lia|].
  rewrite blen_cons in Hl. rewrite msb_cons in *. cbn [hd tl].
  pose proof (msb_bound bs). replace (blen bs) with (n - 1) in * by lia.
  destruct b; cbn [b2z] in *; [split; [reflexivity|lia]|lia].
Qed.

Lemma lor_pow_mod n x : 1 <= n <= 64 -> 0 <= x < 2 ^ 64 ->
  Z.lor (2 ^ (n - 1)) x mod 2 ^ n = 2 ^ (n - 1) + x mod 2 ^ (n - 1).
Proof.
  intros Hn Hx. rewrite <- lor_disjoint; [|lia|apply Z.mod_pos_bound; lia].
  apply Z.bits_inj'. intros i Hi.
  destruct (Z.lt_ge_cases i n) as [Hlt|Hge].
  - rewrite Z.mod_pow2_bits_low by lia. rewrite !Z.lor_spec, Z.pow2_bits_eqb by lia.
    destruct (Z.eqb_spec (n - 1) i); [reflexivity|]. cbn [orb].
    rewrite Z.mod_pow2_bits_low by lia. reflexivity.
  - rewrite Z.mod_pow2_bits_high by lia.
    rewrite !Z.lor_spec, Z.pow2_bits_eqb by lia.
    destruct (Z.eqb_spec (n - 1) i); [lia|]. cbn [orb].
    rewrite Z.mod_pow2_bits_high by lia. reflexivity.
Qed.

Lemma bytes_bits_nth l : forall k, (k < length l)%nat ->
  firstn 8 (skipn (8 * k) (bytes_bits l)) = byte_bits (nth k l 0).
Proof.
  induction l as [|b l IH]; intros k Hk; [cbn in Hk; lia|].
  rewrite bytes_bits_cons. destruct k as [|k].
  - reflexivity.
  - replace (8 * S k)%nat with (8 + 8 * k)%nat by lia.
    cbn [nth length] in *. rewrite <- IH by lia.
    rewrite skipn_app, length_byte_bits.
    rewrite skipn_all2 by (rewrite length_byte_bits; lia).
    cbn [app]. f_equal. f_equal. lia.
Qed.

Lemma write_item_emits i w : exists bs, fst (write_item i w) = w ++ bs /\ emits i bs.
Proof.
  destruct i as [v n|v n|v|v n|v n]; cbn [write_item fst emits].
  - apply bw_WriteUint_emits.
  - unfold bw_WriteInt. destruct (Z.ltb_spec v 0) as [Hneg|Hpos].
    + destruct (bw_WriteUint_emits (Z.lor (if (0 <? n) && (n <=? 64) then 2 ^ (n - 1) else 0) (u64 (- v))) n w)
        as (bs & Hw & Hl & Hm).
      exists bs. split; [exact Hw|]. split; [exact Hl|]. split; [lia|].
      intros _ Hn. assert (((0 <? n) && (n <=? 64)) = true) as E by lia. rewrite E in Hm.
      destruct (Z.leb_spec n 64); [|lia]. replace (Z.max 0 n) with n in * by lia.
      assert (Hu : 0 <= u64 (- v) < 2 ^ 64) by (apply Z.mod_pos_bound; lia).
      rewrite lor_pow_mod in Hm by lia.
      assert (Hp : 0 < 2 ^ (n - 1)) by (apply Z.pow_pos_nonneg; lia).
      pose proof (Z.mod_pos_bound (u64 (- v)) (2 ^ (n - 1)) Hp).
      destruct (msb_hd_tl bs n) as [Hh Ht]; [lia|exact Hl|lia|].
      split; [exact Hh|]. rewrite Ht, Hm. unfold u64.
      rewrite Z.add_simpl_l. symmetry. apply Znumtheory.Zmod_div_mod; [lia|lia|].
      exists (2 ^ (64 - (n - 1))). rewrite <- Z.pow_add_r by lia. f_equal. lia.
    + destruct (bw_WriteUint_emits v n w) as (bs & Hw & Hl & Hm).
      exists bs. repeat split; auto; lia.
  - now exists [v].
  - unfold bw_WriteBytes. rewrite bw_WriteBytes_loop_bits. eexists. split; [reflexivity|].
    set (l := firstn (Z.to_nat n) (v ++ repeat 0 (Z.to_nat n))).
    assert (Hl : length l = Z.to_nat n)
      by (unfold l; rewrite firstn_length, app_length, repeat_length; lia).
    split; [rewrite blen_bytes_bits; unfold blen; lia|].
    intros k Hk. replace (Z.to_nat (8 * k)) with (8 * Z.to_nat k)%nat by lia.
    rewrite bytes_bits_nth by lia. f_equal. unfold l.
    assert (Hn : forall m (a : list Z) j, (j < m)%nat -> nth j (firstn m a) 0 = nth j a 0).
    { induction m as [|m IH]; intros a j Hj; [lia|]. destruct a; destruct j; cbn; auto. apply IH. lia. }
    rewrite Hn by lia.
    destruct (Nat.lt_ge_cases (Z.to_nat k) (length v)) as [Hlt|Hge].
    + now rewrite app_nth1.
    + rewrite app_nth2 by lia. rewrite (nth_overflow v) by lia.
      destruct (nth_in_or_default (Z.to_nat k - length v) (repeat 0 (Z.to_nat n)) 0) as [Hin|Hd]; [|exact Hd].
      now apply repeat_spec in Hin.
  - unfold bw_WriteBinary. destruct (Z.eqb_spec n (b_nbits v)) as [->|Hne]; cbn [negb fst].
    + assert (Hex : exists bs, bw_WriteBinary_loop (b_bytes v) (b_nbits v) w = w ++ bs).
      { generalize (b_nbits v) as m. generalize (b_bytes v) as l. intros l m. revert w.
        induction l as [|b l IH]; intros w; cbn [bw_WriteBinary_loop].
        - exists []. now rewrite app_nil_r.
        - destruct (_ && _).
          + assert (exists t, lib_write_bits b (Z.rem m 8) w = w ++ t) as [t ->].
            { unfold lib_write_bits. destruct (_ <=? 0); [exists []; now rewrite app_nil_r|].
              destruct (64 <? _); eauto. }
            destruct (IH (w ++ t)) as [bs ->]. rewrite <- app_assoc. eauto.
          + destruct (IH (w ++ byte_bits b)) as [bs ->]. rewrite <- app_assoc. eauto. }
      destruct Hex as [bs Hbs]. exists bs. split; [exact Hbs|]. intros Hwf.
      rewrite bw_WriteBinary_loop_bits in Hbs by apply Hwf. apply app_inv_head in Hbs. subst bs.
      pose proof (item_bits_width (IBinary v (b_nbits v)) (conj eq_refl Hwf)) as H1.
      pose proof (item_bits_value (IBinary v (b_nbits v)) (conj eq_refl Hwf)) as H2.
      cbn [item_bits call_of width spec_value value_of] in *. split; [exact H1|].
      injection H2 as H2. destruct v. cbn in *. congruence.
    + exists []. now rewrite app_nil_r.
Qed.

Lemma write_all_emits items : forall w, exists bss,
  write_all items w = w ++ concat bss /\ Forall2 emits items bss.
Proof.
  induction items as [|i items IH]; intros w; cbn [write_all].
  - exists []. split; [cbn; now rewrite app_nil_r|constructor].
  - destruct (write_item_emits i w) as (bs & -> & He). destruct (IH (w ++ bs)) as (bss & -> & Hf).
    exists (bs :: bss). cbn [concat]. rewrite app_assoc. split; [reflexivity|now constructor].
Qed.
Lemma writer_output items :
  exists bss, Forall2 emits items bss /\
    let out := bw_output (write_all items new_bitwriter) in
    blen out = blen (concat bss) / 8 /\
    bytes_bits out = firstn (8 * (length (concat bss) / 8)) (concat bss) /\
    Forall is_byte out.
Proof.
  destruct (write_all_emits items new_bitwriter) as (bss & Hw & Hf).
  exists bss. split; [exact Hf|]. cbv zeta. rewrite Hw. cbn [new_bitwriter app].
  split; [apply bw_output_length|]. split; [apply bw_output_bits|apply bw_output_bytes].
Qed.

(** ** C05 *)

Lemma write_read_int v n e rest : 1 <= n <= 64 ->
  exists x r', br_ReadInt n (mkBR (bw_WriteInt v n [] ++ rest) e 0) = (r', Ok x) /\
  br_bits r' = rest /\
  (Z.abs v < 2 ^ (n - 1) -> x = v) /\ (2 ^ (n - 1) <= Z.abs v -> x <> v) /\
  (2 ^ (n - 1) <= v < 2 ^ n -> x = 2 ^ (n - 1) - v).
Proof.
  intros Hn. pose proof (write_item_emits (IInt v n) []) as (bs & Hw & Hl & Hpos & Hneg).
  cbn [write_item fst app] in Hw. rewrite Hw. replace (Z.max 0 n) with n in * by lia.
  destruct bs as [|b bs]; [cbn in Hl; lia|]. cbn [app].
  rewrite br_ReadInt_ok by (lia || exact Hl).
  eexists _, _. split; [reflexivity|]. split; [reflexivity|].
  rewrite blen_cons in Hl. pose proof (msb_bound bs) as Hb.
  assert (Hbl : blen bs = n - 1) by lia. rewrite Hbl in Hb.
  assert (Hp : 2 ^ (n - 1) <= 2 ^ 63) by (apply Z.pow_le_mono_r; lia).
  assert (H2n : 2 ^ n = 2 * 2 ^ (n - 1)) by (rewrite <- Z.pow_succ_r by lia; f_equal; lia).
  rewrite i64_small by (destruct b; lia).
  rewrite msb_cons, Hbl in Hpos.
  destruct (Z.leb_spec n 64); [|lia]. cbn [hd tl] in Hneg. split; [|split].
  - intros Hv. destruct (Z.lt_ge_cases v 0) as [Hlt|Hge].
    + destruct (Hneg Hlt ltac:(lia)) as [-> Hm]. rewrite Hm, Z.mod_small by lia. lia.
    + specialize (Hpos Hge). rewrite (Z.mod_small v) in Hpos by lia.
      destruct b; cbn [b2z] in *; lia.
  - intros Hv Heq. destruct b; lia.
  - intros Hv. specialize (Hpos ltac:(lia)). rewrite (Z.mod_small v) in Hpos by lia.
    destruct b; cbn [b2z] in *; lia.
Qed.

(** ** C06 *)

(** A reader reached from a fresh one by successful reads. *)
Lemma reached_parity bytes e calls r vs :
  Forall valid_call calls ->
  mapM do_call calls (new_bitreader bytes e) = (r, Ok vs) -> Forall delivered vs ->
  0 <= br_pos r /\ br_pos r + blen (br_bits r) = 8 * blen bytes /\ br_err r = e.
Proof.
  intros Hv Hrun Hd.
  destruct (slices_of_calls _ _ _ _ Hv Hrun Hd) as (sls & Hb & Hf & _ & Hp & He).
  unfold new_bitreader in *. cbn [br_bits br_pos br_err] in *.
  apply (f_equal blen) in Hb. rewrite blen_app, blen_bytes_bits, (sum_slices _ _ Hf) in Hb.
  pose proof (blen_nonneg (concat sls)). rewrite (sum_slices _ _ Hf) in *.
  repeat split; [lia|lia|exact He].
Qed.

Lemma firstn_blen {A} (l : list A) n : 0 <= n -> blen (firstn (Z.to_nat n) l) = Z.min n (blen l).
Proof. intros. unfold blen. rewrite firstn_length. lia. Qed.

Lemma pbr_peek_spec skip nb r : 0 <= br_pos r -> 0 <= skip -> 0 <= nb ->
  br_pos r mod 8 = 0 -> blen (br_bits r) mod 8 = 0 -> skip + nb <= 4096 ->
  pbr_peek skip nb r =
    if blen (br_bits r) <? 8 * (skip + nb) then Err (br_err r)
    else Ok (firstn (Z.to_nat (8 * nb)) (skipn (Z.to_nat (8 * skip)) (br_bits r))).
Proof.
  intros Hp Hs Hn Hal Hl Hle. unfold pbr_peek, NBITS_PER_BYTE, bufio_size, br_buffered.
  rewrite Z.rem_mod_nonneg by lia. rewrite Hal. cbn [Z.eqb negb].
  destruct (Z.ltb_spec skip 0); [lia|]. destruct (Z.ltb_spec (skip + nb) 0); [lia|].
  destruct (Z.ltb_spec 4096 (skip + nb)); [lia|].
  replace (length (br_bits r) mod 8)%nat with 0%nat.
  2:{ unfold blen in Hl. pose proof (Nat.div_mod (length (br_bits r)) 8). lia. }
  cbn [skipn]. fold (blen (firstn (Z.to_nat (8 * (skip + nb))) (br_bits r))).
  rewrite firstn_blen by lia.
  destruct (Z.ltb_spec (blen (br_bits r)) (8 * (skip + nb))) as [Hlt|Hge].
  - destruct (Z.ltb_spec (Z.min (8 * (skip + nb)) (blen (br_bits r))) (8 * (skip + nb))); [reflexivity|lia].
  - destruct (Z.ltb_spec (Z.min (8 * (skip + nb)) (blen (br_bits r))) (8 * (skip + nb))); [lia|].
    destruct (Z.ltb_spec nb 0); [lia|]. f_equal.
    rewrite firstn_skipn_comm. f_equal. f_equal. lia.
Qed.

Lemma peek_uint_agrees r skip n : 0 <= br_pos r -> 0 <= skip -> 0 <= n ->
  br_pos r mod 8 = 0 -> blen (br_bits r) mod 8 = 0 -> skip + (n + 7) / 8 <= 4096 ->
  match snd ((br_ReadBytes skip ;; br_ReadUint n)%M r) with
  | Ok v => pbr_PeekUint skip n r = Ok v
  | _ => exists e, pbr_PeekUint skip n r = Err e
  end.
Proof.
  intros Hp Hs Hn Hal Hl Hle. unfold pbr_PeekUint.
  assert (Hnb : go_quot n 8 + (if 0 <? go_rem n 8 then 1 else 0) = (n + 7) / 8).
  { rewrite Z.quot_div_nonneg, Z.rem_mod_nonneg by lia.
    destruct (Z.ltb_spec 0 (n mod 8)); lia. }
  rewrite Hnb. rewrite pbr_peek_spec by lia. destruct r as [l e p]. cbn [br_bits br_err br_pos] in *.
  destruct (Z.ltb_spec (blen l) (8 * (skip + (n + 7) / 8))) as [Hlt|Hge].
  - assert (Hfail : snd ((br_ReadBytes skip ;; br_ReadUint n)%M (mkBR l e p)) = Err e).
    { unfold bind. destruct (Z.lt_ge_cases (blen l) (8 * skip)) as [H1|H1].
      - destruct (br_ReadBytes_short e p skip l Hs H1) as (l' & -> & _). reflexivity.
      - destruct (cut l (8 * skip)) as (a & b & -> & Ha); [lia|].
        rewrite br_ReadBytes_ok by lia. rewrite blen_app in *.
        destruct (br_ReadUint_short e (p + 8 * skip) n b) as (l' & -> & _); [lia|reflexivity]. }
    rewrite Hfail. eauto.
  - destruct (cut l (8 * skip)) as (a & b & -> & Ha); [lia|].
    rewrite blen_app in *. destruct (cut b n) as (c & d & -> & Hc); [lia|].
    unfold bind at 1. rewrite br_ReadBytes_ok by lia. rewrite br_ReadUint_ok by exact Hc. cbn [snd].
    replace (Z.to_nat (8 * skip)) with (length a) by (unfold blen in Ha; lia).
    rewrite skipn_app, skipn_all, Nat.sub_diag. cbn [skipn app].
    rewrite firstn_app.
    rewrite firstn_all2 by (unfold blen in *; lia).
    rewrite br_ReadUint_ok by exact Hc. reflexivity.
Qed.

Lemma peek_bytes_agrees r skip n : 0 <= br_pos r -> 0 <= skip -> 0 <= n ->
  br_pos r mod 8 = 0 -> blen (br_bits r) mod 8 = 0 -> skip + n <= 4096 ->
  match snd ((br_ReadBytes skip ;; br_ReadBytes n)%M r) with
  | Ok v => pbr_PeekBytes skip n r = Ok v
  | _ => exists e, pbr_PeekBytes skip n r = Err e
  end.
Proof.
  intros Hp Hs Hn Hal Hl Hle. unfold pbr_PeekBytes.
  rewrite pbr_peek_spec by lia. destruct r as [l e p]. cbn [br_bits br_err br_pos] in *.
  destruct (Z.ltb_spec (blen l) (8 * (skip + n))) as [Hlt|Hge].
  - assert (Hfail : snd ((br_ReadBytes skip ;; br_ReadBytes n)%M (mkBR l e p)) = Err e).
    { unfold bind. destruct (Z.lt_ge_cases (blen l) (8 * skip)) as [H1|H1].
      - destruct (br_ReadBytes_short e p skip l Hs H1) as (l' & -> & _). reflexivity.
      - destruct (cut l (8 * skip)) as (a & b & -> & Ha); [lia|].
        rewrite br_ReadBytes_ok by lia. rewrite blen_app in *.
        destruct (br_ReadBytes_short e (p + 8 * skip) n b) as (l' & -> & _); [lia|lia|reflexivity]. }
    rewrite Hfail. eauto.
  - destruct (cut l (8 * skip)) as (a & b & -> & Ha); [lia|].
    rewrite blen_app in *. destruct (cut b (8 * n)) as (c & d & -> & Hc); [lia|].
    unfold bind at 1. rewrite br_ReadBytes_ok by lia. rewrite br_ReadBytes_ok by lia. cbn [snd].
    replace (Z.to_nat (8 * skip)) with (length a) by (unfold blen in Ha; lia).
    rewrite skipn_app, skipn_all, Nat.sub_diag. cbn [skipn app].
    rewrite firstn_app.
    rewrite firstn_all2 by (unfold blen in *; lia).
    rewrite br_ReadBytes_ok by lia. reflexivity.
Qed.

Lemma peek_off_boundary r skip n : br_pos r mod 8 <> 0 ->
  (exists e, pbr_PeekUint skip n r = Err e) /\ (exists e, pbr_PeekBytes skip n r = Err e).
Proof.
  intros H. assert (E : negb (go_rem (br_pos r) NBITS_PER_BYTE =? 0) = true).
  { unfold NBITS_PER_BYTE. destruct (Z.eqb_spec (go_rem (br_pos r) 8) 0) as [H0|]; [|reflexivity].
    apply Z.rem_divide in H0; [|lia]. apply Z.mod_divide in H0; lia. }
  unfold pbr_PeekUint, pbr_PeekBytes, pbr_peek. rewrite E. eauto.
Qed.
Lemma peek_too_far r skip n : 0 <= skip -> 0 <= n ->
  (4096 < skip + (n + 7) / 8 -> exists e, pbr_PeekUint skip n r = Err e) /\
  (4096 < skip + n -> exists e, pbr_PeekBytes skip n r = Err e).
Proof.
  intros Hs Hn.
  assert (Hnb : go_quot n 8 + (if 0 <? go_rem n 8 then 1 else 0) = (n + 7) / 8).
  { rewrite Z.quot_div_nonneg, Z.rem_mod_nonneg by lia.
    destruct (Z.ltb_spec 0 (n mod 8)); lia. }
  unfold pbr_PeekUint, pbr_PeekBytes, pbr_peek, bufio_size. rewrite Hnb.
  destruct (negb _); [eauto|].
  split; intros H.
  - destruct (Z.ltb_spec skip 0); [lia|]. destruct (Z.ltb_spec (skip + (n + 7) / 8) 0); [lia|].
    destruct (Z.ltb_spec 4096 (skip + (n + 7) / 8)); [eauto|lia].
  - destruct (Z.ltb_spec skip 0); [lia|]. destruct (Z.ltb_spec (skip + n) 0); [lia|].
    destruct (Z.ltb_spec 4096 (skip + n)); [eauto|lia].
Qed.
