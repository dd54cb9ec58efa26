(** Property theorems C61: typed access to decoded cells.  Vocabulary: SpecCell.v. *)
From Coq Require Import ZifyBool.
From Verif Require Import SpecCell ProofsCell ProofsFloat PropsJson.

(** C61: the text view exists exactly for text, the number views exactly for numbers; every
    other cell, in particular a missing one, gives an error. *)
Theorem C61_which : forall pl v,
  (StringValue v <> Err (EMsg "cell value is not string") <-> text v) /\
  ((exists s, StringValue v = Ok s) <-> text v) /\
  ((exists u, UintValue pl v = Ok u) <-> numeric v) /\
  ((exists i, IntValue pl v = Ok i) <-> numeric v) /\
  ((exists x, FloatValue v = Ok x) <-> numeric v) /\
  (~ text v -> exists e, StringValue v = Err e) /\
  (~ numeric v -> exists e1 e2 e3, UintValue pl v = Err e1 /\ IntValue pl v = Err e2 /\ FloatValue v = Err e3).
Proof.
  intros pl v. destruct v; cbn; repeat split; intros; try tauto; try congruence; eauto 10;
    repeat match goal with H : exists _, _ |- _ => destruct H end; try congruence; try discriminate.
Qed.
Print Assumptions C61_which.
Example C61_missing : exists e, UintValue pl0 VNil = Err e.
Proof. eexists. reflexivity. Qed.

(** C61: the view in the cell's own type is the value itself. *)
Theorem C61_own : forall pl,
  (forall b, StringValue (VBytes b) = Ok b) /\ (forall u, UintValue pl (VUint u) = Ok u) /\
  (forall i, IntValue pl (VInt i) = Ok i) /\ (forall x, FloatValue (VFloat x) = Ok x).
Proof. intros. repeat split. Qed.
Print Assumptions C61_own.

(** C61: a whole number that both types can hold is seen unchanged through the other type. *)
Theorem C61_whole : forall pl z, int_range z -> uint_range z ->
  UintValue pl (VInt z) = Ok z /\ IntValue pl (VUint z) = Ok z.
Proof. intros pl z Hi Hu. cbn. now rewrite u64_id, i64_id. Qed.
Print Assumptions C61_whole.
Example C61_whole_ex : int_range (2 ^ 62 + 1) /\ uint_range (2 ^ 62 + 1).
Proof. unfold int_range, uint_range. lia. Qed.

(** C61: below 2^53 the float view of a whole number is that number exactly, and is seen
    back as that number. *)
Theorem C61_float_exact : forall pl z, Z.abs z < 2 ^ 53 ->
  exists x, FloatValue (VInt z) = Ok x /\ FloatValue (VUint z) = Ok x /\
    (exists q, rational x = Some q /\ q == inject_Z z)%Q /\
    IntValue pl (VFloat x) = Ok z /\ (0 <= z -> UintValue pl (VFloat x) = Ok z).
Proof.
  intros pl z H. exists (f64_of_Z z). split; [reflexivity|]. split; [reflexivity|].
  split; [|cbn [IntValue UintValue]; rewrite f64_round_of_Z by assumption; cbn [to_int to_uint]; split].
  - rewrite f64_of_Z_exact by assumption. destruct z as [|m|m]; [exists 0%Q; split; reflexivity| |];
      (assert (Hd : 1 <= Zpos (digits2_pos m) <= 53);
       [pose proof (digits2_bounds m); split; [lia|]; destruct (Z_le_gt_dec (Zpos (digits2_pos m)) 53); [assumption|];
        assert (2 ^ 53 <= 2 ^ (Zpos (digits2_pos m) - 1)) by (apply Z.pow_le_mono_r; lia); lia|];
       unfold exact_f64; remember (Zpos (digits2_pos m)) as d eqn:Ed; cbn [rational];
       destruct (53 - d) as [|k|k] eqn:Ek; [| |lia];
       [assert (d - 53 = 0) as -> by lia; cbn [rational]; eexists; split; [reflexivity|];
        rewrite Z.mul_1_r; reflexivity
       |assert (d - 53 = Zneg k) as -> by lia; eexists; split; [reflexivity|];
        unfold Qeq, inject_Z; cbn [Qnum Qden]; rewrite Z.mul_1_r, Pos2Z.inj_pow;
        pose proof (shift_pos_Z k m); nia]).
  - f_equal. assert ((- 2 ^ 63 <=? z) && (z <? 2 ^ 63) = true) as -> by lia. reflexivity.
  - intros. f_equal. assert ((0 <=? z) && (z <? 2 ^ 64) = true) as -> by lia. reflexivity.
Qed.
Print Assumptions C61_float_exact.

(** C61: rounding half away from zero is a function on the rationals, and the whole-number
    views of a finite float round so, as far as the result can be held. *)
Theorem C61_rounds : forall pl x q, rational x = Some q ->
  exists r, half_away q r /\ (forall r', half_away q r' -> r' = r) /\
    (int_range r -> IntValue pl (VFloat x) = Ok r) /\
    (uint_range r -> UintValue pl (VFloat x) = Ok r).
Proof.
  intros pl x q H. destruct (round_rational x q H) as (r & E & A). exists r. split; [exact A|].
  split; [intros r' A'; exact (half_away_unique _ _ _ A' A)|].
  cbn [IntValue UintValue]. rewrite E. cbn [to_int to_uint]. unfold int_range, uint_range. split; intros; f_equal.
  - assert ((- 2 ^ 63 <=? r) && (r <? 2 ^ 63) = true) as -> by lia. reflexivity.
  - assert ((0 <=? r) && (r <? 2 ^ 64) = true) as -> by lia. reflexivity.
Qed.
Print Assumptions C61_rounds.
(** -2.5 becomes -3. *)
Example C61_rounds_ex : rational (S754_finite true 5 (-1)) = Some (-5 # 2) /\
  half_away (-5 # 2) (-3) /\ IntValue pl0 (VFloat (S754_finite true 5 (-1))) = Ok (-3).
Proof. split; [reflexivity|]. split; [|reflexivity]. rewrite half_away_Z. lia. Qed.

(** C61, the limit of the above: "the cell's value" is false of numbers the requested type
    cannot hold.  A negative cell is seen as a huge unsigned one, without an error. *)
Theorem C61_negative_refuted : exists v u, go_value v /\ numeric v /\
  (forall pl, UintValue pl v = Ok u) /\ v = VInt (-1) /\ u = 2 ^ 64 - 1.
Proof. exists (VInt (-1)), (2 ^ 64 - 1). unfold go_value, int_range. repeat split; lia || reflexivity. Qed.
Print Assumptions C61_negative_refuted.
(** Exactly what is seen instead: the same number modulo 2^64. *)
Theorem C61_wraps : forall pl v z, go_value v -> (v = VInt z \/ v = VUint z) ->
  exists u i, UintValue pl v = Ok u /\ uint_range u /\ (2 ^ 64 | z - u) /\
              IntValue pl v = Ok i /\ int_range i /\ (2 ^ 64 | z - i).
Proof.
  intros pl v z G [->| ->]; cbn in *; [exists (u64 z), z|exists z, (i64 z)]; unfold int_range, uint_range in *.
  - unfold u64. pose proof (Z.mod_pos_bound z (2 ^ 64) ltac:(lia)). repeat split; try lia.
    + exists (z / 2 ^ 64). pose proof (Z.div_mod z (2 ^ 64) ltac:(lia)). lia.
    + exists 0. lia.
  - unfold i64. cbv zeta. rewrite Z.mod_small by lia.
    destruct (z <? 2 ^ 63) eqn:E; repeat split; try lia; [exists 0; lia|exists 0; lia|exists 0; lia|exists 1; lia].
Qed.
Print Assumptions C61_wraps.
Example C61_wraps_ex : go_value (VUint (2 ^ 64 - 2)) /\ IntValue pl0 (VUint (2 ^ 64 - 2)) = Ok (-2).
Proof. split; [unfold go_value, uint_range; lia|reflexivity]. Qed.
