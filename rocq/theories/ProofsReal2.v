(** Accuracy of decoded numbers for every scale whose power of ten is a normal double (C32). *)
From Coq Require Import Reals Lra Psatz.
From Flocq Require Import Core BinarySingleNaN Relative.
From Verif Require Export SpecReal.
From Verif Require Import ProofsFloat SpecUnpack ProofsReal.
Local Open Scope R_scope.
#[local] Instance Hprec53 : FLX.Prec_gt_0 53 := eq_refl _.

(** |x - 10^s| <= 2^-51 * 10^s, in integers. *)
Definition near_ten (x : f64) (s : Z) : bool :=
  match x with
  | S754_finite false m e =>
      let a := (Z.pos m * 2 ^ Z.max e 0 * 10 ^ Z.max (- s) 0)%Z in
      let b := (10 ^ Z.max s 0 * 2 ^ Z.max (- e) 0)%Z in
      (Z.abs (a - b) * 2 ^ 51 <=? b)%Z
  | _ => false
  end.
Lemma two_split e : bpow radix2 e = IZR (2 ^ Z.max e 0) / IZR (2 ^ Z.max (- e) 0).
Proof.
  change 2%Z with (radix_val radix2). rewrite !IZR_Zpower by lia.
  replace e with (Z.max e 0 - Z.max (- e) 0)%Z at 1 by lia. unfold Zminus. rewrite bpow_plus, bpow_opp. reflexivity.
Qed.
Lemma ten_split s : powerRZ 10 s = IZR (10 ^ Z.max s 0) / IZR (10 ^ Z.max (- s) 0).
Proof.
  rewrite !ten_pow by lia. unfold Rdiv. rewrite <- powerRZ_neg', <- powerRZ_add by lra. f_equal. lia.
Qed.
Lemma near_ten_R x s : near_ten x s = true ->
  Rabs (R64 x - powerRZ 10 s) <= bpow radix2 (-51) * powerRZ 10 s.
Proof.
  unfold near_ten. destruct x as [sg|sg| |sg m e]; try discriminate. destruct sg; [discriminate|].
  cbv zeta. intros H. apply Z.leb_le in H. unfold R64, SF2R, F2R. cbn [Fnum Fexp cond_Zopp].
  rewrite two_split, ten_split.
  set (E1 := (2 ^ Z.max e 0)%Z) in *. set (E2 := (2 ^ Z.max (- e) 0)%Z) in *.
  set (T1 := (10 ^ Z.max s 0)%Z) in *. set (T2 := (10 ^ Z.max (- s) 0)%Z) in *.
  assert (P1 : 0 < IZR E2) by (apply IZR_lt; unfold E2; apply Z.pow_pos_nonneg; lia).
  assert (P2 : 0 < IZR T2) by (apply IZR_lt; unfold T2; apply Z.pow_pos_nonneg; lia).
  assert (P3 : 0 < IZR T1) by (apply IZR_lt; unfold T1; apply Z.pow_pos_nonneg; lia).
  apply IZR_le in H. rewrite mult_IZR, abs_IZR, minus_IZR, !mult_IZR in H.
  replace (IZR (Z.pos m) * (IZR E1 / IZR E2) - IZR T1 / IZR T2)
    with ((IZR (Z.pos m) * IZR E1 * IZR T2 - IZR T1 * IZR E2) * / (IZR E2 * IZR T2)) by (field; split; lra).
  rewrite Rabs_mult. rewrite (Rabs_pos_eq (/ _)) by (apply Rlt_le, Rinv_0_lt_compat; nra).
  set (D := Rabs _) in *.
  change (2 ^ 51)%Z with (radix2 ^ 51)%Z in H. rewrite IZR_Zpower in H by lia.
  replace (bpow radix2 (-51) * (IZR T1 / IZR T2)) with ((bpow radix2 (-51) * (IZR T1 * IZR E2)) * / (IZR E2 * IZR T2)) by (field; split; lra).
  apply Rmult_le_compat_r; [apply Rlt_le, Rinv_0_lt_compat; nra|].
  apply Rle_trans with (bpow radix2 (-51) * (D * bpow radix2 51)).
  - right. rewrite (Rmult_comm D), <- Rmult_assoc, <- bpow_plus. simpl. lra.
  - apply Rmult_le_compat_l; [apply bpow_ge_0|exact H].
Qed.
Lemma pow10_near s : (-307 <= s <= 308)%Z ->
  is64 (pow10 s) /\ Rabs (R64 (pow10 s) - powerRZ 10 s) <= bpow radix2 (-51) * powerRZ 10 s.
Proof.
  intros Hs.
  assert (H : forallb (fun k => let s := (Z.of_nat k - 307)%Z in
     near_ten (pow10 s) s && SpecFloat.valid_binary ModelFloat.prec ModelFloat.emax (pow10 s) && is_finite_SF (pow10 s))%bool
     (seq 0 616) = true) by (vm_compute; reflexivity).
  rewrite forallb_forall in H. specialize (H (Z.to_nat (s + 307))). cbv beta zeta in H. rewrite Z2Nat.id in H by lia.
  replace (s + 307 - 307)%Z with s in H by lia.
  assert (H1 : In (Z.to_nat (s + 307)) (seq 0 616)) by (apply in_seq; lia). specialize (H H1).
  apply andb_prop in H. destruct H as [H Hf]. apply andb_prop in H. destruct H as [He Hv].
  split; [now apply is64_check|now apply near_ten_R].
Qed.
Lemma ten_mono a b : (a <= b)%Z -> powerRZ 10 a <= powerRZ 10 b.
Proof.
  intros H. replace b with (a + (b - a))%Z by lia. rewrite powerRZ_add by lra.
  assert (1 <= powerRZ 10 (b - a)).
  { rewrite <- ten_pow by lia. apply IZR_le. assert (0 < 10 ^ (b - a))%Z by (apply Z.pow_pos_nonneg; lia). lia. }
  pose proof (ten_pos a). nra.
Qed.
Lemma ten_range s : (-290 <= s <= 290)%Z -> bpow radix2 (-964) <= powerRZ 10 s <= bpow radix2 964.
Proof.
  intros Hs.
  assert (Hb : IZR (10 ^ 290) <= bpow radix2 964).
  { change (bpow radix2 964) with (IZR (2 ^ 964)). apply IZR_le. vm_compute. discriminate. }
  assert (H0 : 0 < IZR (10 ^ 290)) by (apply IZR_lt; reflexivity).
  split.
  - apply Rle_trans with (powerRZ 10 (-290)); [|apply ten_mono; lia].
    change (-290)%Z with (- (290))%Z. rewrite powerRZ_neg', <- ten_pow by lia.
    change (-964)%Z with (- (964))%Z. rewrite bpow_opp. apply Rinv_le; assumption.
  - apply Rle_trans with (powerRZ 10 290); [apply ten_mono; lia|]. rewrite <- ten_pow by lia. exact Hb.
Qed.
Lemma rne_bound' x k : (-1000 <= k <= 1020)%Z -> Rabs x <= bpow radix2 k -> Rabs (rne x) <= bpow radix2 k.
Proof.
  intros Hk Hx. unfold rne. apply abs_round_le_generic; auto with typeclass_instances.
  apply generic_format_bpow. unfold FLT_exp. lia.
Qed.
(** One division: the sum (exact) by the power (within 2^-51). *)
Lemma scaled_quotient n r s : (0 <= n)%Z -> (n < 2 ^ 53)%Z -> (Z.abs r < 2 ^ 53)%Z -> (Z.abs (n + r) < 2 ^ 53)%Z ->
  (-290 <= s <= 290)%Z ->
  is64 (scaled (f64_of_Z r) s n) /\
  exists q, Rabs (q - powerRZ 10 s) <= bpow radix2 (-51) * powerRZ 10 s /\ R64 (scaled (f64_of_Z r) s n) = rne (IZR (n + r) / q).
Proof.
  intros H0 Hn Hr Hs Hsc. destruct (sum_R n r H0 Hn Hr Hs) as [Hx Rx]. rewrite scaled_sum.
  destruct (Z.eqb_spec s 0) as [->|Hs0].
  { split; [exact Hx|]. exists 1. cbn [powerRZ]. rewrite Rminus_diag_eq, Rabs_R0 by reflexivity. split.
    - pose proof (bpow_ge_0 radix2 (-51)). lra.
    - rewrite Rx. unfold Rdiv. rewrite Rinv_1, Rmult_1_r. unfold rne. rewrite round_generic; auto with typeclass_instances.
      now apply int_format. }
  destruct (pow10_near s ltac:(lia)) as [Hp Rp]. pose proof (ten_range s Hsc) as Ht. pose proof (ten_pos s) as Ht0.
  set (q := R64 (pow10 s)) in *.
  assert (Hu : 0 < bpow radix2 (-51) <= / 2) by (split; [apply bpow_gt_0|change (/ 2) with (bpow radix2 (-1)); apply bpow_le; lia]).
  pose proof (Rabs_le_inv _ _ Rp) as Rp'.
  assert (Hq : / 2 * powerRZ 10 s <= q) by nra.
  assert (G : is64 (f64_div (sum64 (f64_of_Z r) n) (pow10 s)) /\
    R64 (f64_div (sum64 (f64_of_Z r) n) (pow10 s)) = rne (R64 (sum64 (f64_of_Z r) n) / R64 (pow10 s))).
  { apply div_R; auto; [fold q; lra|].
    apply Rle_lt_trans with (bpow radix2 1018); [|now apply bpow_lt]. apply rne_bound'; [lia|].
    fold q. rewrite Rx. unfold Rdiv. rewrite Rabs_mult. rewrite (Rabs_pos_eq (/ _)) by (apply Rlt_le, Rinv_0_lt_compat; lra).
    pose proof (int_lt _ Hs) as Hb.
    assert (Hi : / q <= bpow radix2 965).
    { apply Rle_trans with (/ bpow radix2 (-965)).
      - apply Rinv_le; [apply bpow_gt_0|]. change (-965)%Z with (-1 + -964)%Z. rewrite bpow_plus. change (bpow radix2 (-1)) with (/ 2). lra.
      - rewrite <- bpow_opp. right. reflexivity. }
    change 1018%Z with (53 + 965)%Z. rewrite bpow_plus. apply Rmult_le_compat; [apply Rabs_pos| |lra|exact Hi].
    apply Rlt_le, Rinv_0_lt_compat. lra. }
  destruct G as [G1 G2]. split; [exact G1|]. exists q. split; [exact Rp|]. rewrite G2, Rx. reflexivity.
Qed.
Lemma wide_accuracy n r s : (0 <= n)%Z -> (n < 2 ^ 53)%Z -> (Z.abs r < 2 ^ 53)%Z -> (Z.abs (n + r) < 2 ^ 53)%Z ->
  (-290 <= s <= 290)%Z ->
  Rabs (R64 (scaled (f64_of_Z r) s n) - exact_value n r s) <= bpow radix2 (-50) * Rabs (exact_value n r s).
Proof.
  intros H0 Hn Hr Hs Hsc. destruct (scaled_quotient n r s H0 Hn Hr Hs Hsc) as (_ & q & Hq & ->).
  pose proof (ten_range s Hsc) as Hrange. pose proof (ten_pos s) as Hp0. pose proof (ten_opp s) as Hinv. pose proof (ten_pos (- s)) as Ht0.
  unfold exact_value.
  set (p := powerRZ 10 s) in *. set (t := powerRZ 10 (- s)) in *. set (S := IZR (n + r)) in *. set (v := bpow radix2 (-51)) in *.
  assert (Hv : 0 < v <= / 1024) by (split; [apply bpow_gt_0|unfold v; change (/ 1024) with (bpow radix2 (-10)); apply bpow_le; lia]).
  replace (bpow radix2 (-50)) with (2 * v) by (unfold v; change 2 with (bpow radix2 1); rewrite <- bpow_plus; reflexivity).
  apply Rabs_le_inv in Hq.
  assert (Hq0 : 0 < q) by nra.
  assert (Hqt : 1 - v <= q * t <= 1 + v) by nra.
  assert (Hf : / (1 - v) <= 5 / 4) by (replace (5 / 4) with (/ (4 / 5)) by lra; apply Rinv_le; lra).
  assert (Hf0 : 0 < / (1 - v)) by (apply Rinv_0_lt_compat; lra).
  assert (HX : 0 <= Rabs S * t) by (pose proof (Rabs_pos S); nra).
  assert (Hw : Rabs (S / q - S * t) <= 5 / 4 * v * (Rabs S * t)).
  { replace (S / q - S * t) with (S * t * ((1 - q * t) * / (q * t))) by (field; split; lra).
    rewrite !Rabs_mult. rewrite (Rabs_pos_eq t), (Rabs_pos_eq (/ (q * t))) by (try lra; apply Rlt_le, Rinv_0_lt_compat; lra).
    rewrite (Rmult_comm (5 / 4 * v)). apply Rmult_le_compat_l; [exact HX|].
    rewrite (Rmult_comm (5 / 4)). apply Rmult_le_compat; [apply Rabs_pos|apply Rlt_le, Rinv_0_lt_compat; lra|apply Rabs_le; lra|].
    apply Rle_trans with (/ (1 - v)); [apply Rinv_le; lra|exact Hf]. }
  destruct (Z.eq_dec (n + r) 0) as [E|Hnz].
  { assert (ES : S = 0) by (unfold S; rewrite E; reflexivity). rewrite ES. unfold Rdiv. rewrite !Rmult_0_l.
    unfold rne. rewrite round_0 by auto with typeclass_instances. rewrite Rminus_0_r, Rabs_R0. lra. }
  pose proof (int_abs1 _ Hnz) as H1. fold S in H1.
  assert (Hmag : Rabs (S / q) <= (1 + 5 / 4 * v) * (Rabs S * t)).
  { replace (S / q) with (S / q - S * t + S * t) by ring. eapply Rle_trans; [apply Rabs_triang|].
    rewrite (Rabs_mult S t), (Rabs_pos_eq t) by lra. lra. }
  assert (Hr1 : Rabs (rne (S / q) - S / q) <= v / 4 * Rabs (S / q)).
  { replace (v / 4) with (bpow radix2 (-53)) by (unfold v; change (-51)%Z with (-53 + 2)%Z; rewrite bpow_plus; simpl (bpow radix2 2); lra).
    apply rne_error. unfold Rdiv. rewrite Rabs_mult, (Rabs_pos_eq (/ q)) by (apply Rlt_le, Rinv_0_lt_compat; lra).
    assert (Hq2 : q <= bpow radix2 965).
    { change 965%Z with (1 + 964)%Z. rewrite bpow_plus. change (bpow radix2 1) with 2. nra. }
    assert (/ bpow radix2 965 <= / q) by (apply Rinv_le; lra).
    apply Rle_trans with (bpow radix2 (-965)); [apply bpow_le; lia|]. change (-965)%Z with (- (965))%Z. rewrite bpow_opp.
    rewrite <- (Rmult_1_l (/ bpow radix2 965)). apply Rmult_le_compat; try lra. apply Rlt_le, Rinv_0_lt_compat, bpow_gt_0. }
  replace (rne (S / q) - S * t) with ((rne (S / q) - S / q) + (S / q - S * t)) by ring.
  eapply Rle_trans; [apply Rabs_triang|]. rewrite (Rabs_mult S t), (Rabs_pos_eq t) by lra.
  set (X := Rabs S * t) in *.
  assert (Hr2 : Rabs (rne (S / q) - S / q) <= v / 4 * ((1 + 5 / 4 * v) * X)).
  { eapply Rle_trans; [exact Hr1|]. apply Rmult_le_compat_l; [lra|exact Hmag]. }
  assert (0 <= v * X) by nra. assert (v * X * v <= v * X * / 1024) by (apply Rmult_le_compat_l; lra). lra.
Qed.
Lemma wide_injective n m r s : (0 <= n)%Z -> (0 <= m)%Z -> (n < 2 ^ 53)%Z -> (m < 2 ^ 53)%Z -> (Z.abs r < 2 ^ 53)%Z ->
  (Z.abs (n + r) <= 2 ^ 48)%Z -> (Z.abs (m + r) <= 2 ^ 48)%Z -> (-290 <= s <= 290)%Z ->
  scaled (f64_of_Z r) s n = scaled (f64_of_Z r) s m -> n = m.
Proof.
  intros Hn0 Hm0 Hn Hm Hr Hnr Hmr Hs E.
  pose proof (wide_accuracy n r s Hn0 Hn Hr ltac:(lia) Hs) as Hn1.
  pose proof (wide_accuracy m r s Hm0 Hm Hr ltac:(lia) Hs) as Hm1. rewrite E in Hn1.
  destruct (Z.eq_dec n m) as [?|Hd]; [assumption|exfalso].
  unfold exact_value in *. pose proof (ten_pos (- s)) as Ht. set (t := powerRZ 10 (- s)) in *.
  set (v := R64 _) in *. rewrite !Rabs_mult, (Rabs_pos_eq t) in Hn1, Hm1 by lra.
  assert (B : forall k, (Z.abs (k + r) <= 2 ^ 48)%Z -> bpow radix2 (-50) * Rabs (IZR (k + r)) <= / 4).
  { intros k Hk. rewrite <- abs_IZR. change (/ 4) with (bpow radix2 (-2)).
    replace (bpow radix2 (-2)) with (bpow radix2 (-50) * bpow radix2 48) by now rewrite <- bpow_plus.
    apply Rmult_le_compat_l; [apply bpow_ge_0|]. change (bpow radix2 48) with (IZR (2 ^ 48)). now apply IZR_le. }
  pose proof (B n Hnr) as Bn. pose proof (B m Hmr) as Bm.
  assert (Hdist : 1 * t <= Rabs (IZR (n + r) * t - IZR (m + r) * t)).
  { rewrite <- Rmult_minus_distr_r, <- minus_IZR, Rabs_mult, (Rabs_pos_eq t) by lra.
    apply Rmult_le_compat_r; [lra|]. apply int_abs1. lia. }
  assert (Rabs (v - IZR (n + r) * t) <= / 4 * t).
  { eapply Rle_trans; [exact Hn1|]. rewrite <- Rmult_assoc. apply Rmult_le_compat_r; lra. }
  assert (Rabs (v - IZR (m + r) * t) <= / 4 * t).
  { eapply Rle_trans; [exact Hm1|]. rewrite <- Rmult_assoc. apply Rmult_le_compat_r; lra. }
  replace (IZR (n + r) * t - IZR (m + r) * t) with ((v - IZR (m + r) * t) - (v - IZR (n + r) * t)) in Hdist by ring.
  pose proof (Rabs_triang (v - IZR (m + r) * t) (- (v - IZR (n + r) * t))) as Htri. rewrite Rabs_Ropp in Htri.
  unfold Rminus at 1 in Hdist. lra.
Qed.
