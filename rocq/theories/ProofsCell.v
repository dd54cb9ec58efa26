From Coq Require Import ZArith Lia QArith Qabs.
From Verif Require Import SpecCell ProofsFloat.
Open Scope Z_scope.

Lemma half_away_Z a b r : half_away (a # b) r <->
  2 * Z.abs (a - r * Zpos b) <= Zpos b /\ (2 * Z.abs (a - r * Zpos b) = Zpos b -> Z.abs a < Z.abs r * Zpos b).
Proof.
  unfold half_away, Qeq, Qle, Qlt, Qabs, Qminus, Qplus, Qopp, inject_Z.
  cbn [Qnum Qden]. rewrite !Pos.mul_1_r, !Z.mul_1_r.
  replace (a + - r * Zpos b) with (a - r * Zpos b) by lia.
  assert (Z.abs (a - r * Zpos b) * 2 = 2 * Z.abs (a - r * Zpos b)) as -> by lia.
  assert (1 * Zpos b = Zpos b) as -> by lia. tauto.
Qed.
Lemma half_away_unique q r r' : half_away q r -> half_away q r' -> r = r'.
Proof.
  destruct q as [a b]. rewrite !half_away_Z. intros [H1 H2] [H3 H4].
  set (B := Zpos b) in *. assert (0 < B) by (unfold B; lia). clearbody B.
  destruct (Z.lt_trichotomy r r') as [L|[L|L]]; [|exact L|]; exfalso.
  - assert (r' * B >= r * B + B) by nia.
    assert (E1 : 2 * Z.abs (a - r * B) = B) by lia. assert (E2 : 2 * Z.abs (a - r' * B) = B) by lia.
    specialize (H2 E1). specialize (H4 E2).
    assert (2 * a = 2 * (r * B) + B) by lia. assert (r' * B = r * B + B) by lia.
    assert (r' = r + 1) by nia. subst r'.
    destruct (Z_lt_le_dec r 0); [|].
    + assert (Z.abs (r + 1) = - (r + 1)) by lia. nia.
    + assert (Z.abs r = r) by lia. nia.
  - assert (r * B >= r' * B + B) by nia.
    assert (E1 : 2 * Z.abs (a - r * B) = B) by lia. assert (E2 : 2 * Z.abs (a - r' * B) = B) by lia.
    specialize (H2 E1). specialize (H4 E2).
    assert (2 * a = 2 * (r' * B) + B) by lia. assert (r * B = r' * B + B) by lia.
    assert (r = r' + 1) by nia. subst r.
    destruct (Z_lt_le_dec r' 0); [|].
    + assert (Z.abs (r' + 1) = - (r' + 1)) by lia. nia.
    + assert (Z.abs r' = r') by lia. nia.
Qed.
Lemma half_away_int n : half_away (inject_Z n) n.
Proof. unfold inject_Z. rewrite half_away_Z. lia. Qed.

Lemma round_half m d : 0 < d -> let a := (2 * Zpos m + d) / (2 * d) in
  0 <= a /\ 2 * Z.abs (Zpos m - a * d) <= d /\ (2 * Z.abs (Zpos m - a * d) = d -> Zpos m < a * d).
Proof.
  intros D a. assert (A : 2 * d * a <= 2 * Zpos m + d < 2 * d * a + 2 * d).
  { unfold a. pose proof (Z.mul_div_le (2 * Zpos m + d) (2 * d) ltac:(lia)).
    pose proof (Z.mul_succ_div_gt (2 * Zpos m + d) (2 * d) ltac:(lia)). lia. }
  assert (0 <= a) by (unfold a; apply Z.div_pos; lia). clearbody a.
  assert (2 * (a * d) = 2 * d * a) by ring. repeat split; [assumption|lia|lia].
Qed.

Lemma round_rational x q : rational x = Some q -> exists r, f64_round x = Some r /\ half_away q r.
Proof.
  destruct x as [s|s| |s m e]; cbn [rational f64_round]; try discriminate.
  - intros H. injection H as <-. exists 0. split; [reflexivity|]. apply (half_away_int 0).
  - intros H. eexists. split; [reflexivity|]. injection H as <-.
    destruct e as [|k|k].
    + cbn [Z.leb Z.compare]. match goal with |- half_away ?q ?r => replace q with (inject_Z r) end; [apply half_away_int|].
      f_equal. destruct s; lia.
    + cbn [Z.leb Z.compare]. match goal with |- half_away ?q ?r => replace q with (inject_Z r) end; [apply half_away_int|].
      f_equal. destruct s; lia.
    + cbn [Z.leb Z.compare Z.opp].
      assert (D : Zpos (2 ^ k) = 2 ^ Zpos k) by apply Pos2Z.inj_pow.
      rewrite half_away_Z, D.
      pose proof (round_half m (2 ^ Zpos k) ltac:(rewrite <- D; lia)) as (A & B & C). cbv zeta in *.
      set (r := (2 * Zpos m + 2 ^ Zpos k) / (2 * 2 ^ Zpos k)) in *. set (d := 2 ^ Zpos k) in *.
      destruct s.
      * replace (Zneg m - - r * d) with (- (Zpos m - r * d)) by (change (Zneg m) with (- Zpos m); ring).
        rewrite Z.abs_opp.
        split; [exact B|]. intros E. specialize (C E). rewrite (Z.abs_opp r), (Z.abs_eq r) by lia. lia.
      * split; [exact B|]. intros E. specialize (C E). rewrite (Z.abs_eq r) by lia. lia.
Qed.
Lemma rational_none x : rational x = None -> f64_round x = None.
Proof. destruct x; cbn; congruence. Qed.

Lemma u64_id z : uint_range z -> u64 z = z.
Proof. unfold uint_range, u64. intros. apply Z.mod_small. lia. Qed.
Lemma i64_id z : int_range z -> i64 z = z.
Proof.
  unfold int_range, i64. intros H. cbv zeta. destruct (Z_lt_le_dec z 0).
  - assert (z mod 2 ^ 64 = z + 2 ^ 64) as ->.
    { rewrite <- (Z_mod_plus_full z 1), Z.mod_small; lia. }
    assert (z + 2 ^ 64 <? 2 ^ 63 = false) as -> by (apply Z.ltb_ge; lia). lia.
  - rewrite Z.mod_small by lia. assert (z <? 2 ^ 63 = true) as -> by (apply Z.ltb_lt; lia). reflexivity.
Qed.
