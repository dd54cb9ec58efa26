(** Real-valued meaning of the decoder's floating-point operations, via Flocq.  Results here
    depend on the axioms of the standard library's real numbers. *)
From Coq Require Import Reals Lra Psatz.
From Flocq Require Import Core BinarySingleNaN Relative.
From Verif Require Export SpecReal.
From Verif Require Import ProofsFloat SpecUnpack.

Local Open Scope R_scope.
#[local] Instance Hprec : FLX.Prec_gt_0 ModelFloat.prec := eq_refl _.
#[local] Instance Hmax : Prec_lt_emax ModelFloat.prec ModelFloat.emax := eq_refl _.
Notation bf := (binary_float ModelFloat.prec ModelFloat.emax).
Notation fx := (SpecFloat.fexp ModelFloat.prec ModelFloat.emax).


Lemma round_nearest_even_equiv s m l : SpecFloat.round_nearest_even m l = choice_mode mode_NE s m l.
Proof.
  case l; [reflexivity|intro c]. case c; [ | reflexivity..]. now simpl; unfold Round.cond_incr; case Z.even.
Qed.
Lemma binary_round_aux_equiv sx mx ex lx :
  SpecFloat.binary_round_aux ModelFloat.prec ModelFloat.emax sx mx ex lx
  = BinarySingleNaN.binary_round_aux ModelFloat.prec ModelFloat.emax mode_NE sx mx ex lx.
Proof.
  unfold SpecFloat.binary_round_aux, BinarySingleNaN.binary_round_aux.
  set (mrse' := shr_fexp _ _ _). case mrse'; intros mrs' e'; simpl. now rewrite (round_nearest_even_equiv sx).
Qed.
Lemma binary_round_equiv s m e :
  SpecFloat.binary_round ModelFloat.prec ModelFloat.emax s m e = BinarySingleNaN.binary_round ModelFloat.prec ModelFloat.emax mode_NE s m e.
Proof.
  unfold SpecFloat.binary_round, BinarySingleNaN.binary_round, shl_align_fexp.
  set (mez := shl_align _ _ _); case mez as [mz ez]. apply binary_round_aux_equiv.
Qed.
Lemma binary_normalize_equiv m e szero :
  SpecFloat.binary_normalize ModelFloat.prec ModelFloat.emax m e szero
  = B2SF (BinarySingleNaN.binary_normalize ModelFloat.prec ModelFloat.emax Hprec Hmax mode_NE m e szero).
Proof.
  case m as [ | p | p].
  - now simpl.
  - simpl; rewrite B2SF_SF2B; apply binary_round_equiv.
  - simpl; rewrite B2SF_SF2B; apply binary_round_equiv.
Qed.
Lemma of_Z_B z : f64_of_Z z = B2SF (BinarySingleNaN.binary_normalize ModelFloat.prec ModelFloat.emax Hprec Hmax mode_NE z 0 false).
Proof. apply binary_normalize_equiv. Qed.
Lemma add_B (x y : bf) : f64_add (B2SF x) (B2SF y) = B2SF (Bplus mode_NE x y).
Proof.
  unfold f64_add. case x as [sx|sx| |sx mx ex Bx]; case y as [sy|sy| |sy my ey By];
  [now (trivial || simpl; case Bool.eqb).. | ]. apply binary_normalize_equiv.
Qed.
Lemma mul_B (x y : bf) : f64_mul (B2SF x) (B2SF y) = B2SF (Bmult mode_NE x y).
Proof.
  unfold f64_mul. case x as [sx|sx| |sx mx ex Bx]; case y as [sy|sy| |sy my ey By]; [now trivial.. | ].
  simpl. rewrite B2SF_SF2B. apply binary_round_aux_equiv.
Qed.
Lemma div_B (x y : bf) : f64_div (B2SF x) (B2SF y) = B2SF (Bdiv mode_NE x y).
Proof.
  unfold f64_div. case x as [sx|sx| |sx mx ex Bx]; case y as [sy|sy| |sy my ey By];
  [now (trivial || simpl; case Bool.eqb).. | ].
  simpl. rewrite B2SF_SF2B. set (melz := SFdiv_core_binary _ _ _ _ _ _). case melz as [[mz ez] lz].
  apply binary_round_aux_equiv.
Qed.

(** A finite binary64 number. *)
Definition is64 (x : f64) : Prop := exists b : bf, x = B2SF b /\ is_finite b = true.
Lemma is64_finite x : is64 x -> finite64 x.
Proof. intros (b & -> & H). unfold finite64. now rewrite is_finite_SF_B2SF. Qed.
Lemma rne_fx x : round radix2 fx (round_mode mode_NE) x = rne x.
Proof. reflexivity. Qed.
Lemma div_R x y : is64 x -> is64 y -> R64 y <> 0 -> Rabs (rne (R64 x / R64 y)) < bpow radix2 1024 ->
  is64 (f64_div x y) /\ R64 (f64_div x y) = rne (R64 x / R64 y).
Proof.
  intros (a & -> & Ha) (b & -> & Hb). unfold R64. rewrite !SF2R_B2SF, div_B, SF2R_B2SF. intros H0 Hlt.
  pose proof (Bdiv_correct _ _ Hprec Hmax mode_NE a b H0) as H. rewrite rne_fx in H. rewrite Rlt_bool_true in H by exact Hlt.
  destruct H as (H1 & H2 & _). split; [|exact H1]. exists (Bdiv mode_NE a b). split; [reflexivity|congruence].
Qed.
Lemma add_R x y : is64 x -> is64 y -> Rabs (rne (R64 x + R64 y)) < bpow radix2 1024 ->
  is64 (f64_add x y) /\ R64 (f64_add x y) = rne (R64 x + R64 y).
Proof.
  intros (a & -> & Ha) (b & -> & Hb). unfold R64. rewrite !SF2R_B2SF, add_B, SF2R_B2SF. intros Hlt.
  pose proof (Bplus_correct _ _ Hprec Hmax mode_NE a b Ha Hb) as H. rewrite rne_fx in H. rewrite Rlt_bool_true in H by exact Hlt.
  destruct H as (H1 & H2 & _). split; [|exact H1]. exists (Bplus mode_NE a b). split; [reflexivity|congruence].
Qed.
(** Integers below 2^53 are represented exactly. *)
Lemma int_format z : (Z.abs z < 2 ^ 53)%Z -> generic_format radix2 (FLT_exp (-1074) 53) (IZR z).
Proof.
  intros Hz. apply generic_format_FLT. exists (Float radix2 z 0); [unfold F2R; simpl; lra|simpl; exact Hz|simpl; lia].
Qed.
Lemma int_lt z : (Z.abs z < 2 ^ 53)%Z -> Rabs (IZR z) < bpow radix2 53.
Proof. intros Hz. rewrite <- abs_IZR. change (bpow radix2 53) with (IZR (2 ^ 53)). now apply IZR_lt. Qed.
Lemma of_Z_R z : (Z.abs z < 2 ^ 53)%Z -> is64 (f64_of_Z z) /\ R64 (f64_of_Z z) = IZR z.
Proof.
  intros Hz. unfold R64. rewrite of_Z_B, SF2R_B2SF.
  pose proof (binary_normalize_correct _ _ Hprec Hmax mode_NE z 0 false) as H. cbv zeta in H. rewrite rne_fx in H.
  replace (F2R (Float radix2 z 0)) with (IZR z) in H by (unfold F2R; simpl; lra).
  unfold rne in H. rewrite round_generic in H by (auto with typeclass_instances; now apply int_format).
  rewrite Rlt_bool_true in H.
  - destruct H as (H1 & H2 & _). split; [|exact H1]. eexists. split; [reflexivity|exact H2].
  - eapply Rlt_trans; [now apply int_lt|]. now apply bpow_lt.
Qed.

(** ** Powers of ten *)
Lemma is64_check x : SpecFloat.valid_binary ModelFloat.prec ModelFloat.emax x = true -> is_finite_SF x = true -> is64 x.
Proof.
  intros Hv Hf. exists (SF2B x Hv). rewrite B2SF_SF2B. split; [reflexivity|].
  rewrite <- Hf. apply is_finite_SF2B.
Qed.
(** An exact integer value, checked by computation. *)
Definition exactly (x : f64) (z : Z) : bool :=
  match x with
  | S754_finite false m e => if (0 <=? e)%Z then (Z.pos m * 2 ^ e =? z)%Z else (Z.pos m =? z * 2 ^ (- e))%Z
  | _ => false
  end.
Lemma exactly_R x z : exactly x z = true -> R64 x = IZR z.
Proof.
  unfold exactly. destruct x as [s|s| |s m e]; try discriminate. destruct s; [discriminate|].
  unfold R64, SF2R, F2R. cbn [Fnum Fexp cond_Zopp]. intros H. destruct (Z.leb_spec 0 e) as [He|He].
  - apply Z.eqb_eq in H. rewrite <- H, mult_IZR. f_equal. now rewrite <- IZR_Zpower by lia.
  - apply Z.eqb_eq in H. rewrite H, mult_IZR.
    change (2 ^ (- e))%Z with (radix2 ^ (- e))%Z. rewrite IZR_Zpower by lia. rewrite Rmult_assoc, <- bpow_plus.
    replace (- e + e)%Z with 0%Z by lia. simpl. lra.
Qed.
Lemma pow10_pos s : (0 <= s <= 22)%Z -> is64 (pow10 s) /\ R64 (pow10 s) = IZR (10 ^ s).
Proof.
  intros Hs.
  assert (H : forallb (fun k => let s := Z.of_nat k in
     exactly (pow10 s) (10 ^ s) && SpecFloat.valid_binary ModelFloat.prec ModelFloat.emax (pow10 s) && is_finite_SF (pow10 s))%bool (seq 0 23) = true)
    by (vm_compute; reflexivity).
  rewrite forallb_forall in H. specialize (H (Z.to_nat s)). cbv beta zeta in H. rewrite Z2Nat.id in H by lia.
  assert (H1 : In (Z.to_nat s) (seq 0 23)) by (apply in_seq; lia). specialize (H H1).
  apply andb_prop in H. destruct H as [H Hf]. apply andb_prop in H. destruct H as [He Hv].
  split; [now apply is64_check|now apply exactly_R].
Qed.
(** For negative exponents the power is the double nearest to it. *)
Lemma pow10_neg s : (1 <= s <= 22)%Z -> is64 (pow10 (- s)) /\ R64 (pow10 (- s)) = rne (1 / IZR (10 ^ s)).
Proof.
  intros Hs.
  assert (E : pow10 (- s) = f64_div (f64_of_Z 1) (pow10 s)).
  { assert (H : forallb (fun k => let s := Z.of_nat k in
       match pow10 (- s), f64_div (f64_of_Z 1) (pow10 s) with
       | S754_finite a b c, S754_finite a' b' c' => Bool.eqb a a' && Pos.eqb b b' && Z.eqb c c'
       | _, _ => false end)%bool (seq 1 22) = true) by (vm_compute; reflexivity).
    rewrite forallb_forall in H. specialize (H (Z.to_nat s)). cbv beta zeta in H. rewrite Z2Nat.id in H by lia.
    assert (H1 : In (Z.to_nat s) (seq 1 22)) by (apply in_seq; lia). specialize (H H1).
    destruct (pow10 (- s)) as [| | |a b c]; try discriminate H.
    destruct (f64_div (f64_of_Z 1) (pow10 s)) as [| | |a' b' c']; try discriminate H.
    apply andb_prop in H. destruct H as [H H3]. apply andb_prop in H. destruct H as [H2 H4].
    apply Bool.eqb_prop in H2. apply Pos.eqb_eq in H4. apply Z.eqb_eq in H3. now subst. }
  rewrite E. destruct (pow10_pos s ltac:(lia)) as [Hp Rp]. destruct (of_Z_R 1 ltac:(cbn; lia)) as [H1 R1].
  rewrite <- Rp, <- R1 at 1. apply div_R; auto.
  - rewrite Rp. assert (0 < 10 ^ s)%Z by (apply Z.pow_pos_nonneg; lia). apply IZR_neq. lia.
  - rewrite R1, Rp. assert (H10 : 1 <= IZR (10 ^ s)) by (apply IZR_le; assert (0 < 10 ^ s)%Z by (apply Z.pow_pos_nonneg; lia); lia).
    assert (Hq : Rabs (1 / IZR (10 ^ s)) <= 1).
    { rewrite Rabs_pos_eq. { unfold Rdiv. rewrite Rmult_1_l. rewrite <- Rinv_1. apply Rinv_le; lra. }
      apply Rlt_le. apply Rdiv_lt_0_compat; lra. }
    apply Rle_lt_trans with 1; [|change 1 with (bpow radix2 0); now apply bpow_lt].
    unfold rne. apply abs_round_le_generic; auto with typeclass_instances. apply (int_format 1). cbn. lia.
Qed.

(** ** Accuracy of one rounding *)
Lemma rne_error x : bpow radix2 (-1022) <= Rabs x -> Rabs (rne x - x) <= bpow radix2 (-53) * Rabs x.
Proof.
  intros Hx. unfold rne. pose proof (relative_error_N_FLT radix2 (-1074) 53 eq_refl (fun z => negb (Z.even z)) x Hx) as H.
  replace (/ 2 * bpow radix2 (- (53) + 1)) with (bpow radix2 (-53)) in H; [exact H|].
  change (- (53) + 1)%Z with (-53 + 1)%Z. rewrite bpow_plus. simpl (bpow radix2 1). lra.
Qed.

(** ** The decoded number *)
Definition sum64 (refval : f64) (n : Z) : f64 := if f64_nonzero refval then f64_add (f64_of_Z n) refval else f64_of_Z n.
Lemma scaled_sum refval scale n :
  scaled refval scale n = if (scale =? 0)%Z then sum64 refval n else f64_div (sum64 refval n) (pow10 scale).
Proof. reflexivity. Qed.
Lemma of_Z_full z : (Z.abs z < 2 ^ 53)%Z -> exists b : bf, f64_of_Z z = B2SF b /\ is_finite b = true /\ B2R b = IZR z /\
  Bsign b = match Rcompare (IZR z) 0 with Lt => true | _ => false end.
Proof.
  intros Hz. rewrite of_Z_B. eexists. split; [reflexivity|].
  pose proof (binary_normalize_correct _ _ Hprec Hmax mode_NE z 0 false) as H. cbv zeta in H. rewrite rne_fx in H.
  replace (F2R (Float radix2 z 0)) with (IZR z) in H by (unfold F2R; simpl; lra).
  unfold rne in H. rewrite round_generic in H by (auto with typeclass_instances; now apply int_format).
  rewrite Rlt_bool_true in H.
  - destruct H as (H1 & H2 & H3). split; [exact H2|]. split; [exact H1|]. rewrite H3. now destruct (Rcompare (IZR z) 0).
  - eapply Rlt_trans; [now apply int_lt|]. now apply bpow_lt.
Qed.
Lemma nonzero_of_Z z : (Z.abs z < 2 ^ 53)%Z -> f64_nonzero (f64_of_Z z) = negb (z =? 0)%Z.
Proof.
  intros Hz. destruct (of_Z_full z Hz) as (b & E & Hf & HR & _).
  destruct (Z.eqb_spec z 0) as [->|Hn]; [reflexivity|]. rewrite E.
  destruct b as [s|s| |s m e B]; try discriminate Hf; [|reflexivity].
  cbn in HR. exfalso. apply Hn. apply eq_IZR. lra.
Qed.
Lemma sum_exact n r : (0 <= n)%Z -> (n < 2 ^ 53)%Z -> (Z.abs r < 2 ^ 53)%Z -> (Z.abs (n + r) < 2 ^ 53)%Z ->
  sum64 (f64_of_Z r) n = f64_of_Z (n + r).
Proof.
  intros H0 Hn Hr Hs. unfold sum64. rewrite nonzero_of_Z by exact Hr.
  destruct (Z.eqb_spec r 0) as [->|Hr0]; cbn [negb]; [now rewrite Z.add_0_r|].
  destruct (of_Z_full n ltac:(lia)) as (a & Ea & Fa & Ra & Sa).
  destruct (of_Z_full r Hr) as (b & Eb & Fb & Rb & Sb).
  destruct (of_Z_full (n + r) Hs) as (c & Ec & Fc & Rc & Sc).
  rewrite Ea, Eb, Ec, add_B. f_equal.
  pose proof (Bplus_correct _ _ Hprec Hmax mode_NE a b Fa Fb) as H. rewrite rne_fx in H.
  rewrite Ra, Rb, <- plus_IZR in H. unfold rne in H.
  rewrite round_generic in H by (auto with typeclass_instances; now apply int_format).
  rewrite Rlt_bool_true in H by (eapply Rlt_trans; [now apply int_lt|now apply bpow_lt]).
  destruct H as (H1 & H2 & H3). apply B2R_Bsign_inj; auto; [congruence|].
  rewrite H3, Sc. destruct (Rcompare (IZR (n + r)) 0); auto. rewrite Sa.
  destruct (Rcompare_spec (IZR n) 0) as [L|L|L]; auto. apply IZR_le in H0. lra.
Qed.
Lemma sum_R n r : (0 <= n)%Z -> (n < 2 ^ 53)%Z -> (Z.abs r < 2 ^ 53)%Z -> (Z.abs (n + r) < 2 ^ 53)%Z ->
  is64 (sum64 (f64_of_Z r) n) /\ R64 (sum64 (f64_of_Z r) n) = IZR (n + r).
Proof. intros. rewrite sum_exact by assumption. now apply of_Z_R. Qed.

Lemma ten_pow s : (0 <= s)%Z -> IZR (10 ^ s) = powerRZ 10 s.
Proof.
  intros Hs. rewrite <- (Z2Nat.id s Hs). rewrite <- pow_powerRZ.
  now rewrite pow_IZR, Z2Nat.id by lia.
Qed.
Lemma ten_pos s : 0 < powerRZ 10 s.
Proof. apply powerRZ_lt. lra. Qed.
Lemma ten_opp s : powerRZ 10 s * powerRZ 10 (- s) = 1.
Proof. rewrite <- powerRZ_add by lra. replace (s + - s)%Z with 0%Z by lia. reflexivity. Qed.
Lemma ten_le22 s : (0 <= s <= 22)%Z -> 1 <= IZR (10 ^ s) <= IZR (10 ^ 22).
Proof.
  intros Hs. split; apply IZR_le.
  - assert (0 < 10 ^ s)%Z by (apply Z.pow_pos_nonneg; lia). lia.
  - apply Z.pow_le_mono_r; lia.
Qed.
Lemma rne_bound x k : (-1000 <= k <= 1000)%Z -> Rabs x <= bpow radix2 k -> Rabs (rne x) <= bpow radix2 k.
Proof.
  intros Hk Hx. unfold rne. apply abs_round_le_generic; auto with typeclass_instances.
  apply generic_format_bpow. unfold FLT_exp. lia.
Qed.
(** Positive scale: one rounding of the exact quotient. *)
Lemma scaled_pos n r s : (0 <= n)%Z -> (n < 2 ^ 53)%Z -> (Z.abs r < 2 ^ 53)%Z -> (Z.abs (n + r) < 2 ^ 53)%Z -> (0 <= s <= 22)%Z ->
  is64 (scaled (f64_of_Z r) s n) /\ R64 (scaled (f64_of_Z r) s n) = rne (exact_value n r s).
Proof.
  intros H0 Hn Hr Hs Hsc. destruct (sum_R n r H0 Hn Hr Hs) as [Hx Rx]. rewrite scaled_sum. unfold exact_value.
  destruct (Z.eqb_spec s 0) as [->|Hs0].
  - split; [exact Hx|]. rewrite Rx. cbn [Z.opp powerRZ]. rewrite Rmult_1_r. unfold rne.
    rewrite round_generic; auto with typeclass_instances. now apply int_format.
  - destruct (pow10_pos s Hsc) as [Hp Rp]. pose proof (ten_le22 s Hsc) as Ht.
    assert (E : R64 (sum64 (f64_of_Z r) n) / R64 (pow10 s) = IZR (n + r) * powerRZ 10 (- s)).
    { rewrite Rx, Rp. unfold Rdiv. f_equal. rewrite ten_pow by lia. rewrite powerRZ_neg'. reflexivity. }
    rewrite <- E. apply div_R; auto; [rewrite Rp; lra|].
    apply Rle_lt_trans with (bpow radix2 53); [|now apply bpow_lt]. apply rne_bound; [lia|].
    rewrite Rx, Rp. unfold Rdiv. rewrite Rabs_mult. pose proof (int_lt _ Hs).
    rewrite (Rabs_pos_eq (/ _)) by (apply Rlt_le, Rinv_0_lt_compat; lra).
    assert (/ IZR (10 ^ s) <= 1) by (rewrite <- Rinv_1; apply Rinv_le; lra).
    assert (0 < / IZR (10 ^ s)) by (apply Rinv_0_lt_compat; lra).
    pose proof (Rabs_pos (IZR (n + r))). nra.
Qed.
(** Negative scale: the divisor is the double nearest to the (inexact) power. *)
Lemma near_tenth s : (1 <= s <= 22)%Z ->
  Rabs (rne (1 / IZR (10 ^ s)) - 1 / IZR (10 ^ s)) <= bpow radix2 (-53) * (1 / IZR (10 ^ s)).
Proof.
  intros Hs. pose proof (ten_le22 s ltac:(lia)) as Ht.
  assert (Hp : 0 < 1 / IZR (10 ^ s)) by (apply Rdiv_lt_0_compat; lra).
  pose proof (rne_error (1 / IZR (10 ^ s))) as H. rewrite (Rabs_pos_eq (1 / IZR (10 ^ s))) in H by lra. apply H.
  apply Rle_trans with (bpow radix2 (-74)); [apply bpow_le; lia|].
  change (bpow radix2 (-74)) with (/ IZR (2 ^ 74)). unfold Rdiv. rewrite Rmult_1_l. apply Rinv_le; [lra|].
  apply Rle_trans with (IZR (10 ^ 22)); [tauto|]. apply IZR_le. vm_compute. discriminate.
Qed.
Lemma u_small : 0 < bpow radix2 (-53) <= / 8.
Proof. split; [apply bpow_gt_0|]. change (/ 8) with (bpow radix2 (-3)). apply bpow_le. lia. Qed.
Lemma scaled_neg n r s : (0 <= n)%Z -> (n < 2 ^ 53)%Z -> (Z.abs r < 2 ^ 53)%Z -> (Z.abs (n + r) < 2 ^ 53)%Z -> (1 <= s <= 22)%Z ->
  is64 (scaled (f64_of_Z r) (- s) n) /\
  R64 (scaled (f64_of_Z r) (- s) n) = rne (IZR (n + r) / rne (powerRZ 10 (- s))).
Proof.
  intros H0 Hn Hr Hs Hsc. destruct (sum_R n r H0 Hn Hr Hs) as [Hx Rx]. rewrite scaled_sum.
  destruct (Z.eqb_spec (- s) 0) as [?|_]; [lia|].
  destruct (pow10_neg s Hsc) as [Hp Rp]. pose proof (ten_le22 s ltac:(lia)) as Ht. pose proof (near_tenth s Hsc) as Hn10.
  assert (Ht0 : 0 < 1 / IZR (10 ^ s)) by (apply Rdiv_lt_0_compat; lra). pose proof u_small as Hu.
  apply Rabs_le_inv in Hn10.
  assert (Hp0 : / 2 * (1 / IZR (10 ^ s)) <= R64 (pow10 (- s))) by (rewrite Rp; nra).
  replace (powerRZ 10 (- s)) with (1 / IZR (10 ^ s))
    by (rewrite ten_pow, powerRZ_neg' by lia; unfold Rdiv; now rewrite Rmult_1_l).
  rewrite <- Rx, <- Rp. apply div_R; auto; [lra|].
  apply Rle_lt_trans with (bpow radix2 200); [|now apply bpow_lt]. apply rne_bound; [lia|].
  rewrite Rx. unfold Rdiv. rewrite Rabs_mult. rewrite (Rabs_pos_eq (/ _)) by (apply Rlt_le, Rinv_0_lt_compat; lra).
  pose proof (int_lt _ Hs) as Hb.
  assert (Hi : / R64 (pow10 (- s)) <= 2 * IZR (10 ^ s)).
  { apply Rle_trans with (/ (/ 2 * (1 / IZR (10 ^ s)))); [apply Rinv_le; lra|]. right. field. lra. }
  assert (Hc : IZR (10 ^ 22) <= bpow radix2 80).
  { change (bpow radix2 80) with (IZR (2 ^ 80)). apply IZR_le. vm_compute. discriminate. }
  assert (Hi0 : 0 < / R64 (pow10 (- s))) by (apply Rinv_0_lt_compat; lra).
  apply Rle_trans with (bpow radix2 53 * (2 * bpow radix2 80)).
  { apply Rmult_le_compat; [apply Rabs_pos|lra|lra|lra]. }
  change 2 with (bpow radix2 1). rewrite <- !bpow_plus. apply bpow_le. lia.
Qed.

(** ** Accuracy and injectivity *)
Lemma int_abs1 z : z <> 0%Z -> 1 <= Rabs (IZR z).
Proof. intros Hz. rewrite <- abs_IZR. apply IZR_le. lia. Qed.
Lemma scaled_accuracy n r s : (0 <= n)%Z -> (n < 2 ^ 53)%Z -> (Z.abs r < 2 ^ 53)%Z -> (Z.abs (n + r) < 2 ^ 53)%Z -> (-22 <= s <= 22)%Z ->
  Rabs (R64 (scaled (f64_of_Z r) s n) - exact_value n r s) <= bpow radix2 (-51) * Rabs (exact_value n r s).
Proof.
  intros H0 Hn Hr Hs Hsc. pose proof u_small as Hu.
  assert (Hu4 : bpow radix2 (-51) = 4 * bpow radix2 (-53)).
  { change 4 with (bpow radix2 2). rewrite <- bpow_plus. reflexivity. }
  assert (rne0 : rne 0 = 0) by (unfold rne; apply round_0; auto with typeclass_instances).
  destruct (Z.eq_dec (n + r) 0) as [E|Hnz].
  { assert (R64 (scaled (f64_of_Z r) s n) = 0 /\ exact_value n r s = 0) as [-> ->].
    2: { rewrite Rminus_0_r, Rabs_R0. lra. }
    assert (X : exact_value n r s = 0) by (unfold exact_value; rewrite E; lra).
    split; [|exact X]. destruct (Z_le_dec 0 s).
    - destruct (scaled_pos n r s) as [_ ->]; auto; [lia|]. now rewrite X.
    - replace s with (- (- s))%Z by lia. destruct (scaled_neg n r (- s)) as [_ ->]; auto; [lia|].
      rewrite E. unfold Rdiv. rewrite Rmult_0_l. exact rne0. }
  pose proof (int_abs1 _ Hnz) as H1.
  destruct (Z_le_dec 0 s) as [Hge|Hlt].
  - destruct (scaled_pos n r s) as [_ ->]; auto; [lia|]. pose proof (ten_le22 s ltac:(lia)) as Ht.
    assert (Hq : / IZR (10 ^ 22) <= powerRZ 10 (- s)).
    { rewrite powerRZ_neg', <- ten_pow by lia. apply Rinv_le; lra. }
    eapply Rle_trans; [apply rne_error|].
    + unfold exact_value. rewrite Rabs_mult. rewrite (Rabs_pos_eq (powerRZ _ _)) by (pose proof (ten_pos (- s)); lra).
      apply Rle_trans with (1 * / IZR (10 ^ 22)).
      * rewrite Rmult_1_l. apply Rle_trans with (bpow radix2 (-80)); [apply bpow_le; lia|].
        change (bpow radix2 (-80)) with (/ IZR (2 ^ 80)). apply Rinv_le; [apply IZR_lt; reflexivity|].
        apply IZR_le. vm_compute. discriminate.
      * apply Rmult_le_compat; [lra| |lra|lra]. apply Rlt_le, Rinv_0_lt_compat. apply IZR_lt. reflexivity.
    + pose proof (Rabs_pos (exact_value n r s)). rewrite Hu4. nra.
  - set (k := (- s)%Z). assert (Hk : (1 <= k <= 22)%Z) by (unfold k; lia).
    replace s with (- k)%Z by (unfold k; lia). destruct (scaled_neg n r k) as [_ ->]; auto.
    pose proof (ten_le22 k ltac:(lia)) as Ht. pose proof (near_tenth k Hk) as Hn10.
    replace (1 / IZR (10 ^ k)) with (powerRZ 10 (- k)) in Hn10
      by (rewrite ten_pow, powerRZ_neg' by lia; unfold Rdiv; now rewrite Rmult_1_l).
    pose proof (ten_pos (- k)) as Hp0. pose proof (ten_pos k) as Hk0. pose proof (ten_opp k) as Hinv.
    set (p := powerRZ 10 (- k)) in *. set (t := powerRZ 10 k) in *. set (q := rne p) in *.
    set (S := IZR (n + r)) in *. set (u := bpow radix2 (-53)) in *.
    apply Rabs_le_inv in Hn10.
    assert (Hq0 : 0 < q) by nra.
    assert (Eex : exact_value n r (- k) = S * t) by (unfold exact_value, t; now rewrite Z.opp_involutive).
    rewrite Eex. clear Eex.
    (* S/q against S*t *)
    assert (Hqt : 1 - u <= q * t <= 1 + u) by nra.
    assert (Hiq : / q = t * / (q * t)) by (field; split; lra).
    assert (Hw : Rabs (S / q - S * t) <= u / (1 - u) * (Rabs S * t)).
    { replace (S / q - S * t) with (S * t * ((1 - q * t) * / (q * t))) by (field; split; lra).
      rewrite !Rabs_mult. rewrite (Rabs_pos_eq t), (Rabs_pos_eq (/ (q * t))) by (try lra; apply Rlt_le, Rinv_0_lt_compat; lra).
      rewrite (Rmult_comm (u / (1 - u))). apply Rmult_le_compat_l; [pose proof (Rabs_pos S); nra|].
      unfold Rdiv. apply Rmult_le_compat; [apply Rabs_pos|apply Rlt_le, Rinv_0_lt_compat; lra| |apply Rinv_le; lra].
      apply Rabs_le. lra. }
    assert (Hmag : Rabs (S / q) <= (1 + u / (1 - u)) * (Rabs S * t)).
    { replace (S / q) with (S / q - S * t + S * t) by ring. eapply Rle_trans; [apply Rabs_triang|].
      rewrite (Rabs_mult S t), (Rabs_pos_eq t) by lra. lra. }
    assert (Hr1 : Rabs (rne (S / q) - S / q) <= u * Rabs (S / q)).
    { apply rne_error. unfold Rdiv. rewrite Rabs_mult, (Rabs_pos_eq (/ q)) by (apply Rlt_le, Rinv_0_lt_compat; lra).
      assert (q <= 2).
      { assert (p <= 1). { unfold p. rewrite powerRZ_neg', <- ten_pow by lia. rewrite <- Rinv_1. apply Rinv_le; lra. } nra. }
      assert (/ 2 <= / q) by (apply Rinv_le; lra).
      apply Rle_trans with (bpow radix2 (-1)); [apply bpow_le; lia|]. change (bpow radix2 (-1)) with (/ 2).
      rewrite <- (Rmult_1_l (/ 2)). apply Rmult_le_compat; lra. }
    replace (rne (S / q) - S * t) with ((rne (S / q) - S / q) + (S / q - S * t)) by ring.
    eapply Rle_trans; [apply Rabs_triang|]. rewrite (Rabs_mult S t), (Rabs_pos_eq t) by lra.
    assert (HX : 0 <= Rabs S * t) by (pose proof (Rabs_pos S); nra). set (X := Rabs S * t) in *.
    assert (Hf : u / (1 - u) <= 2 * u).
    { unfold Rdiv. assert (/ (1 - u) <= 2). { rewrite <- (Rinv_inv 2). apply Rinv_le; lra. } nra. }
    rewrite Hu4.
    assert (Hr2 : Rabs (rne (S / q) - S / q) <= u * ((1 + 2 * u) * X)).
    { eapply Rle_trans; [exact Hr1|]. apply Rmult_le_compat_l; [lra|]. eapply Rle_trans; [exact Hmag|].
      apply Rmult_le_compat_r; lra. }
    assert (Hw2 : Rabs (S / q - S * t) <= 2 * u * X).
    { eapply Rle_trans; [exact Hw|]. apply Rmult_le_compat_r; lra. }
    assert (0 <= u * X) by nra. assert (u * (2 * u * X) <= u * X) by nra. lra.
Qed.
Lemma scaled_injective n m r s : (0 <= n)%Z -> (0 <= m)%Z -> (n < 2 ^ 53)%Z -> (m < 2 ^ 53)%Z -> (Z.abs r < 2 ^ 53)%Z ->
  (Z.abs (n + r) <= 2 ^ 49)%Z -> (Z.abs (m + r) <= 2 ^ 49)%Z -> (-22 <= s <= 22)%Z ->
  scaled (f64_of_Z r) s n = scaled (f64_of_Z r) s m -> n = m.
Proof.
  intros Hn0 Hm0 Hn Hm Hr Hnr Hmr Hs E.
  pose proof (scaled_accuracy n r s Hn0 Hn Hr ltac:(lia) Hs) as Hn1.
  pose proof (scaled_accuracy m r s Hm0 Hm Hr ltac:(lia) Hs) as Hm1. rewrite E in Hn1.
  destruct (Z.eq_dec n m) as [?|Hd]; [assumption|exfalso].
  unfold exact_value in *. pose proof (ten_pos (- s)) as Ht. set (t := powerRZ 10 (- s)) in *.
  set (v := R64 _) in *. rewrite !Rabs_mult, (Rabs_pos_eq t) in Hn1, Hm1 by lra.
  assert (Bn : bpow radix2 (-51) * Rabs (IZR (n + r)) <= / 4).
  { rewrite <- abs_IZR. change (/ 4) with (bpow radix2 (-2)). replace (bpow radix2 (-2)) with (bpow radix2 (-51) * bpow radix2 49) by now rewrite <- bpow_plus.
    apply Rmult_le_compat_l; [apply bpow_ge_0|]. change (bpow radix2 49) with (IZR (2 ^ 49)). now apply IZR_le. }
  assert (Bm : bpow radix2 (-51) * Rabs (IZR (m + r)) <= / 4).
  { rewrite <- abs_IZR. change (/ 4) with (bpow radix2 (-2)). replace (bpow radix2 (-2)) with (bpow radix2 (-51) * bpow radix2 49) by now rewrite <- bpow_plus.
    apply Rmult_le_compat_l; [apply bpow_ge_0|]. change (bpow radix2 49) with (IZR (2 ^ 49)). now apply IZR_le. }
  assert (Hdist : 1 * t <= Rabs (IZR (n + r) * t - IZR (m + r) * t)).
  { rewrite <- Rmult_minus_distr_r, <- minus_IZR, Rabs_mult, (Rabs_pos_eq t) by lra.
    apply Rmult_le_compat_r; [lra|]. apply int_abs1. lia. }
  assert (Rabs (v - IZR (n + r) * t) <= / 4 * t).
  { eapply Rle_trans; [exact Hn1|]. rewrite <- Rmult_assoc. apply Rmult_le_compat_r; lra. }
  assert (Rabs (v - IZR (m + r) * t) <= / 4 * t).
  { eapply Rle_trans; [exact Hm1|]. rewrite <- Rmult_assoc. apply Rmult_le_compat_r; lra. }
  replace (IZR (n + r) * t - IZR (m + r) * t) with ((v - IZR (m + r) * t) - (v - IZR (n + r) * t)) in Hdist by ring.
  pose proof (Rabs_triang (v - IZR (m + r) * t) (- (v - IZR (n + r) * t))) as Htri. rewrite Rabs_Ropp in Htri.
  unfold Rminus at 1 in Hdist. lra.
Qed.
