(** Exactness of float64 arithmetic on integers, without real numbers. *)
From Coq Require Import ZifyBool.
From Verif Require Export ModelFloat.
Ltac Zify.zify_post_hook ::= Z.div_mod_to_equations.

Lemma digits2_pos_log2 m : Zpos (digits2_pos m) = Z.log2 (Zpos m) + 1.
Proof.
  induction m as [m IH|m IH|]; cbn [digits2_pos]; [| |reflexivity].
  - rewrite Pos2Z.inj_succ, IH. replace (Zpos m~1) with (2 * Zpos m + 1) by lia.
    rewrite Z.log2_succ_double by lia. lia.
  - rewrite Pos2Z.inj_succ, IH. replace (Zpos m~0) with (2 * Zpos m) by lia.
    rewrite Z.log2_double by lia. lia.
Qed.
Lemma digits2_bounds m : 2 ^ (Zpos (digits2_pos m) - 1) <= Zpos m < 2 ^ Zpos (digits2_pos m).
Proof.
  rewrite digits2_pos_log2. pose proof (Z.log2_spec (Zpos m) ltac:(lia)) as H.
  replace (Z.log2 (Zpos m) + 1 - 1) with (Z.log2 (Zpos m)) by lia.
  replace (Z.log2 (Zpos m) + 1) with (Z.succ (Z.log2 (Zpos m))) by lia. lia.
Qed.
Lemma shift_pos_Z d m : Zpos (shift_pos d m) = Zpos m * 2 ^ Zpos d.
Proof. rewrite Zpower.shift_pos_correct. change (Zpower_pos 2 d) with (2 ^ Zpos d). lia. Qed.
Lemma digits2_shift d m : Zpos (digits2_pos (shift_pos d m)) = Zpos (digits2_pos m) + Zpos d.
Proof. rewrite !digits2_pos_log2, shift_pos_Z, Z.log2_mul_pow2 by lia. lia. Qed.

(** Rounding a mantissa that already has 53 digits does nothing. *)
Lemma round_aux_canonical s m e : Zpos (digits2_pos m) = 53 -> -1074 <= e <= 971 ->
  binary_round_aux prec emax s (Zpos m) e loc_Exact = S754_finite s m e.
Proof.
  intros Hd He.
  assert (Hs : shr_fexp prec emax (Zpos m) e loc_Exact = (Build_shr_record (Zpos m) false false, e)).
  { unfold shr_fexp. cbn [Zdigits2]. rewrite Hd. unfold fexp, emin, prec, emax.
    replace (Z.max (53 + e - 53) (3 - 1024 - 53) - e) with 0 by lia. reflexivity. }
  unfold binary_round_aux. rewrite Hs. cbn [shr_m loc_of_shr_record round_nearest_even].
  rewrite Hs. cbn [shr_m]. assert (Zle_bool e (emax - prec) = true) as ->; [|reflexivity].
  unfold prec, emax. lia.
Qed.

(** The double of a positive integer below 2^53. *)
Definition exact_f64 (s : bool) (m : positive) : f64 :=
  let d := Zpos (digits2_pos m) in
  S754_finite s (match (53 - d)%Z with Zpos k => shift_pos k m | _ => m end) (d - 53).
Lemma binary_round_exact s m : Zpos m < 2 ^ 53 -> binary_round prec emax s m 0 = exact_f64 s m.
Proof.
  intros Hm.
  assert (Hd : 1 <= Zpos (digits2_pos m) <= 53).
  { rewrite digits2_pos_log2. pose proof (Z.log2_nonneg (Zpos m)).
    assert (Z.log2 (Zpos m) < 53) by (apply Z.log2_lt_pow2; lia). lia. }
  unfold binary_round, exact_f64. set (d := Zpos (digits2_pos m)) in *.
  assert (Hf : fexp prec emax (d + 0) = d - 53) by (unfold fexp, emin, prec, emax; lia).
  rewrite Hf. unfold shl_align. replace (d - 53 - 0) with (- (53 - d)) by lia.
  destruct (53 - d) as [|k|k] eqn:E; [| |lia].
  - change (- 0) with 0. cbv iota. rewrite round_aux_canonical by (subst d; lia). f_equal. lia.
  - change (- Z.pos k) with (Z.neg k). cbv iota. apply round_aux_canonical; [|lia].
    rewrite digits2_shift. fold d. lia.
Qed.

Lemma trunc_exact s m : Zpos m < 2 ^ 53 ->
  f64_trunc (exact_f64 s m) = Some (if s then Zneg m else Zpos m) /\
  f64_round (exact_f64 s m) = Some (if s then Zneg m else Zpos m).
Proof.
  intros Hm.
  assert (Hd : 1 <= Zpos (digits2_pos m) <= 53).
  { rewrite digits2_pos_log2. pose proof (Z.log2_nonneg (Zpos m)).
    assert (Z.log2 (Zpos m) < 53) by (apply Z.log2_lt_pow2; lia). lia. }
  unfold exact_f64, f64_trunc, f64_round. set (d := Zpos (digits2_pos m)) in *.
  destruct (53 - d) as [|k|k] eqn:E; [| |lia].
  - replace (d - 53) with 0 by lia. cbn [Z.leb Z.compare].
    rewrite Z.pow_0_r, Z.mul_1_r. split; f_equal; destruct s; reflexivity.
  - replace (d - 53) with (- Zpos k) by lia. assert (0 <=? - Zpos k = false) as -> by lia.
    rewrite shift_pos_Z. replace (- - Zpos k) with (Zpos k) by lia.
    assert (Hk : 0 < 2 ^ Zpos k) by (apply Z.pow_pos_nonneg; lia).
    rewrite Z.div_mul by lia.
    assert ((2 * (Zpos m * 2 ^ Zpos k) + 2 ^ Zpos k) / (2 * 2 ^ Zpos k) = Zpos m) as ->.
    { symmetry. apply Z.div_unique with (2 ^ Zpos k); lia. }
    split; f_equal; destruct s; reflexivity.
Qed.

Lemma f64_of_Z_exact z : Z.abs z < 2 ^ 53 ->
  f64_of_Z z = match z with Z0 => S754_zero false | Zpos p => exact_f64 false p | Zneg p => exact_f64 true p end.
Proof.
  intros H. unfold f64_of_Z, binary_normalize. destruct z; [reflexivity| |]; apply binary_round_exact; lia.
Qed.
Lemma f64_trunc_of_Z z : Z.abs z < 2 ^ 53 -> f64_trunc (f64_of_Z z) = Some z.
Proof.
  intros H. rewrite f64_of_Z_exact by assumption. destruct z; [reflexivity| |]; apply trunc_exact; lia.
Qed.
Lemma f64_round_of_Z z : Z.abs z < 2 ^ 53 -> f64_round (f64_of_Z z) = Some z.
Proof.
  intros H. rewrite f64_of_Z_exact by assumption. destruct z; [reflexivity| |]; apply trunc_exact; lia.
Qed.
Lemma f64_to_int_of_Z pl z : Z.abs z < 2 ^ 53 -> f64_to_int pl (f64_of_Z z) = z.
Proof.
  intros H. unfold f64_to_int, to_int. rewrite f64_trunc_of_Z by assumption.
  assert ((- 2 ^ 63 <=? z) && (z <? 2 ^ 63) = true) as -> by lia. reflexivity.
Qed.
Lemma f64_to_uint_of_Z pl z : 0 <= z < 2 ^ 53 -> f64_to_uint pl (f64_of_Z z) = z.
Proof.
  intros H. unfold f64_to_uint, to_uint. rewrite f64_trunc_of_Z by lia.
  assert ((0 <=? z) && (z <? 2 ^ 64) = true) as -> by lia. reflexivity.
Qed.
Lemma f64_of_Z_inj a b : Z.abs a < 2 ^ 53 -> Z.abs b < 2 ^ 53 -> f64_of_Z a = f64_of_Z b -> a = b.
Proof.
  intros Ha Hb H. apply (f_equal f64_trunc) in H. rewrite !f64_trunc_of_Z in H by assumption. congruence.
Qed.
