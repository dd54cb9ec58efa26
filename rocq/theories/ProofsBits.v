(** Lemmas on the bit reader and writer. *)
From Coq Require Import ZifyBool ZifyNat.
From Verif Require Export SpecBits.
Ltac Zify.zify_post_hook ::= Z.div_mod_to_equations.

(** ** Values of bit strings *)

Lemma msb_acc bs a : fold_left (fun a b => 2 * a + b2z b) bs a = a * 2 ^ blen bs + msb bs.
Proof.
  unfold msb, blen. revert a.
  induction bs as [|b bs IH]; intros a; cbn [fold_left length].
  - rewrite Z.pow_0_r. lia.
  - rewrite IH, (IH (2 * 0 + b2z b)). rewrite Nat2Z.inj_succ, Z.pow_succ_r by lia. lia.
Qed.

Lemma msb_nil : msb [] = 0. Proof. reflexivity. Qed.
Lemma msb_cons b bs : msb (b :: bs) = b2z b * 2 ^ blen bs + msb bs.
Proof. unfold msb at 1. cbn [fold_left]. rewrite msb_acc. f_equal. Qed.
Lemma blen_app {A} (a b : list A) : blen (a ++ b) = blen a + blen b.
Proof. unfold blen. rewrite app_length. lia. Qed.
Lemma blen_cons {A} (a : A) b : blen (a :: b) = 1 + blen b.
Proof. unfold blen. cbn [length]. lia. Qed.
Lemma blen_nil {A} : blen (@nil A) = 0. Proof. reflexivity. Qed.
Lemma blen_nonneg {A} (l : list A) : 0 <= blen l. Proof. unfold blen. lia. Qed.
Lemma blen_0 {A} (l : list A) : blen l <= 0 -> l = [].
Proof. destruct l; [reflexivity|]. rewrite blen_cons. pose proof (blen_nonneg l). lia. Qed.
#[export] Hint Resolve blen_nonneg : core.

Lemma msb_app a b : msb (a ++ b) = msb a * 2 ^ blen b + msb b.
Proof. unfold msb at 1. rewrite fold_left_app. apply msb_acc. Qed.

Lemma b2z_range b : 0 <= b2z b <= 1. Proof. destruct b; cbn; lia. Qed.

Lemma msb_bound bs : 0 <= msb bs < 2 ^ blen bs.
Proof.
  induction bs as [|b bs IH].
  - cbn. lia.
  - rewrite msb_cons, blen_cons, Z.pow_add_r by (auto; lia).
    pose proof (b2z_range b). change (2 ^ 1) with 2. nia.
Qed.

Lemma length_low_bits n v : length (low_bits n v) = n.
Proof. induction n; cbn; congruence. Qed.
Lemma blen_low_bits n v : blen (low_bits n v) = Z.of_nat n.
Proof. unfold blen. now rewrite length_low_bits. Qed.

Lemma testbit_b2z v k : 0 <= k -> b2z (Z.testbit v k) = (v / 2 ^ k) mod 2.
Proof. intros Hk. rewrite <- Z.testbit_spec' by lia. now destruct (Z.testbit v k). Qed.

Lemma msb_low_bits n v : msb (low_bits n v) = v mod 2 ^ Z.of_nat n.
Proof.
  induction n as [|n IH]; cbn [low_bits].
  - cbn. symmetry. apply Z.mod_1_r.
  - rewrite msb_cons, IH, blen_low_bits, testbit_b2z by lia.
    rewrite Nat2Z.inj_succ, Z.pow_succ_r, (Z.mul_comm 2) by lia.
    rewrite Z.rem_mul_r by lia. lia.
Qed.

Lemma msb_low_bits_small n v : 0 <= v < 2 ^ Z.of_nat n -> msb (low_bits n v) = v.
Proof. intros. rewrite msb_low_bits. now apply Z.mod_small. Qed.

(** A bit string is determined by its length and value. *)
Lemma msb_inj a b : length a = length b -> msb a = msb b -> a = b.
Proof.
  revert b; induction a as [|x a IH]; intros [|y b] Hl Hm; try discriminate; [reflexivity|].
  injection Hl as Hl. rewrite !msb_cons in Hm.
  assert (Hb : blen a = blen b) by (unfold blen; congruence).
  pose proof (msb_bound a). pose proof (msb_bound b). rewrite Hb in *.
  assert (x = y) by (destruct x, y; cbn [b2z] in *; try reflexivity; exfalso; lia). subst y.
  f_equal. apply IH; [exact Hl | lia].
Qed.

Lemma low_bits_msb bs : low_bits (length bs) (msb bs) = bs.
Proof.
  apply msb_inj; [apply length_low_bits|].
  apply msb_low_bits_small. apply msb_bound.
Qed.

Lemma byte_bits_low b : byte_bits b = low_bits 8 b. Proof. reflexivity. Qed.
Lemma length_byte_bits b : length (byte_bits b) = 8%nat. Proof. reflexivity. Qed.
Lemma msb_byte_bits b : is_byte b -> msb (byte_bits b) = b.
Proof. intros H. rewrite byte_bits_low. apply msb_low_bits_small. exact H. Qed.

Lemma bytes_bits_app a b : bytes_bits (a ++ b) = bytes_bits a ++ bytes_bits b.
Proof. apply flat_map_app. Qed.
Lemma bytes_bits_cons a b : bytes_bits (a :: b) = byte_bits a ++ bytes_bits b.
Proof. reflexivity. Qed.
Lemma length_bytes_bits l : length (bytes_bits l) = (8 * length l)%nat.
Proof. induction l; cbn [bytes_bits flat_map]; [reflexivity|]. rewrite app_length.
  fold (bytes_bits l). rewrite IHl. cbn. lia. Qed.
Lemma blen_bytes_bits l : blen (bytes_bits l) = 8 * blen l.
Proof. unfold blen. rewrite length_bytes_bits. lia. Qed.

(** ** chunks8 *)

Lemma eight_bits (l : list bool) : length l = 8%nat ->
  exists b7 b6 b5 b4 b3 b2 b1 b0, l = [b7; b6; b5; b4; b3; b2; b1; b0].
Proof.
  intros H. do 8 (destruct l as [|? l]; [discriminate|]).
  destruct l; [|discriminate]. now repeat eexists.
Qed.

Lemma chunks8_cons c r : length c = 8%nat -> chunks8 (c ++ r) = c :: chunks8 r.
Proof.
  intros H. destruct (eight_bits _ H) as (b7 & b6 & b5 & b4 & b3 & b2 & b1 & b0 & ->). reflexivity.
Qed.
Lemma chunks8_short c : (0 < length c < 8)%nat -> chunks8 c = [c].
Proof.
  intros H. do 8 (destruct c as [|? c]; [cbn in H; try lia; reflexivity|]). cbn in H. lia.
Qed.
(** Induction over groups of eight. *)
Lemma bits8_ind (P : list bool -> Prop) :
  P [] -> (forall c, (0 < length c < 8)%nat -> P c) ->
  (forall c r, length c = 8%nat -> P r -> P (c ++ r)) -> forall l, P l.
Proof.
  intros H0 Hs Hc l. remember (length l) as n eqn:Hn. revert l Hn.
  induction n as [n IH] using lt_wf_ind. intros l ->.
  destruct (Nat.lt_ge_cases (length l) 8) as [Hlt|Hge].
  - destruct l; [exact H0 | apply Hs; cbn in *; lia].
  - rewrite <- (firstn_skipn 8 l). apply Hc.
    + rewrite firstn_length. lia.
    + eapply IH; [|reflexivity]. rewrite skipn_length. lia.
Qed.
Lemma chunks8_concat l : concat (chunks8 l) = l.
Proof.
  induction l as [|c H|c r H IH] using bits8_ind; [reflexivity| |].
  - rewrite chunks8_short by exact H. cbn. apply app_nil_r.
  - rewrite chunks8_cons by exact H. cbn. now rewrite IH.
Qed.

Lemma split_at {A} n (l : list A) : (n <= length l)%nat ->
  exists a b, l = a ++ b /\ length a = n /\ length b = (length l - n)%nat.
Proof.
  intros H. exists (firstn n l), (skipn n l).
  rewrite firstn_skipn, firstn_length, skipn_length. repeat split; lia.
Qed.

(** ** The library reader *)

Lemma lib_read_bit_ok e b r : lib_read_bit e (b :: r) = (r, Ok b).
Proof. reflexivity. Qed.

Lemma lib_read_byte_ok e sl r : length sl = 8%nat ->
  lib_read_byte e (sl ++ r) = (r, Ok (msb sl)).
Proof.
  intros H. destruct (eight_bits _ H) as (b7 & b6 & b5 & b4 & b3 & b2 & b1 & b0 & ->).
  cbn [app lib_read_byte]. do 2 f_equal. unfold msb. cbn [fold_left]. lia.
Qed.
Lemma lib_read_byte_short e l : (length l < 8)%nat -> lib_read_byte e l = (l, Err e).
Proof. intros H. do 8 (destruct l as [|? l]; [reflexivity|]). cbn in H. lia. Qed.

Lemma u64_small z : 0 <= z < 2 ^ 64 -> u64 z = z. Proof. apply Z.mod_small. Qed.
Lemma u64_idem_l a b c : u64 (u64 a * b + c) = u64 (a * b + c).
Proof. unfold u64. rewrite Z.add_mod, Z.mul_mod_idemp_l, <- Z.add_mod by lia. reflexivity. Qed.

Lemma lib_read_bits_bytes_ok e k : forall sl r u,
  length sl = (8 * k)%nat ->
  lib_read_bits_bytes e k (u64 u) (sl ++ r) = (r, Ok (u64 (u * 2 ^ blen sl + msb sl))).
Proof.
  induction k as [|k IH]; intros sl r u H; cbn [lib_read_bits_bytes].
  - assert (sl = []) as -> by (destruct sl; [reflexivity|discriminate]).
    cbn. unfold ret. do 3 f_equal. lia.
  - destruct (split_at 8 sl) as (c & d & -> & Hc & Hd); [lia|].
    rewrite app_length in *. rewrite <- app_assoc.
    unfold bind. rewrite lib_read_byte_ok by exact Hc.
    rewrite u64_idem_l, IH by lia. do 3 f_equal.
    rewrite msb_app, blen_app, Z.pow_add_r by auto.
    replace (blen c) with 8 by (unfold blen; lia).
    change (2 ^ 8) with 256. lia.
Qed.
Lemma lib_read_bits_bits_ok e k : forall sl r u,
  length sl = k ->
  lib_read_bits_bits e k (u64 u) (sl ++ r) = (r, Ok (u64 (u * 2 ^ blen sl + msb sl))).
Proof.
  induction k as [|k IH]; intros sl r u H; cbn [lib_read_bits_bits].
  - assert (sl = []) as -> by (destruct sl; [reflexivity|discriminate]).
    cbn. unfold ret. do 3 f_equal. lia.
  - destruct sl as [|b sl]; [discriminate|]. cbn [app].
    unfold bind, lib_read_bit at 1. rewrite u64_idem_l, IH by (cbn in H; lia).
    do 3 f_equal. rewrite msb_cons, blen_cons, Z.pow_add_r by (auto; lia).
    change (2 ^ 1) with 2. lia.
Qed.

(** Enough bits: the next [n] bits are delivered. *)
Lemma lib_read_bits_ok e n sl r : blen sl = n ->
  lib_read_bits e n (sl ++ r) = (r, Ok (u64 (msb sl))).
Proof.
  intros H. unfold lib_read_bits. destruct (Z.leb_spec n 0) as [Hn|Hn].
  - rewrite (blen_0 sl) by lia.
    reflexivity.
  - pose proof (Z.div_mod n 8 ltac:(lia)) as Hdm.
    pose proof (Z.mod_pos_bound n 8 ltac:(lia)) as Hmb.
    set (q := n / 8) in *. set (m := n mod 8) in *.
    assert (Hq : 0 <= q) by (apply Z.div_pos; lia).
    unfold blen in H.
    destruct (split_at (8 * Z.to_nat q) sl) as (c & d & -> & Hc & Hd); [lia|].
    rewrite app_length in *. rewrite <- app_assoc.
    unfold bind. change 0 with (u64 0) at 1.
    rewrite lib_read_bits_bytes_ok by exact Hc.
    rewrite lib_read_bits_bits_ok by lia.
    do 3 f_equal. rewrite msb_app. lia.
Qed.

(** Not enough bits: the stream's error, and what is left is a shorter suffix. *)
Definition suffix {A} (a b : list A) : Prop := exists p, b = p ++ a.
Lemma suffix_refl {A} (a : list A) : suffix a a. Proof. now exists []. Qed.
Lemma suffix_trans {A} (a b c : list A) : suffix a b -> suffix b c -> suffix a c.
Proof. intros [p ->] [q ->]. exists (q ++ p). now rewrite app_assoc. Qed.
Lemma suffix_cons {A} x (a b : list A) : suffix a b -> suffix a (x :: b).
Proof. intros [p ->]. now exists (x :: p). Qed.
Lemma suffix_app {A} (p a : list A) : suffix a (p ++ a). Proof. now exists p. Qed.
Lemma suffix_length {A} (a b : list A) : suffix a b -> (length a <= length b)%nat.
Proof. intros [p ->]. rewrite app_length. lia. Qed.

Lemma lib_read_bits_bytes_short e k : forall l u, (length l < 8 * k)%nat ->
  exists l', lib_read_bits_bytes e k u l = (l', Err e) /\ suffix l' l.
Proof.
  induction k as [|k IH]; intros l u H; [lia|]. cbn [lib_read_bits_bytes].
  destruct (Nat.lt_ge_cases (length l) 8) as [Hlt|Hge].
  - unfold bind. rewrite lib_read_byte_short by exact Hlt. exists l. split; [reflexivity|apply suffix_refl].
  - destruct (split_at 8 l) as (c & d & -> & Hc & Hd); [lia|].
    rewrite app_length in *.
    unfold bind. rewrite lib_read_byte_ok by exact Hc.
    destruct (IH d (u64 (u * 256 + msb c))) as (l' & -> & Hs); [lia|].
    exists l'. split; [reflexivity|]. eapply suffix_trans; [exact Hs|apply suffix_app].
Qed.
Lemma lib_read_bits_bits_short e k : forall l u, (length l < k)%nat ->
  exists l', lib_read_bits_bits e k u l = (l', Err e) /\ suffix l' l.
Proof.
  induction k as [|k IH]; intros l u H; [lia|]. cbn [lib_read_bits_bits].
  destruct l as [|b l].
  - exists []. split; [reflexivity|apply suffix_refl].
  - unfold bind, lib_read_bit at 1. destruct (IH l (u64 (u * 2 + b2z b))) as (l' & -> & Hs).
    { cbn in H. lia. }
    exists l'. split; [reflexivity|]. now apply suffix_cons.
Qed.
Lemma lib_read_bits_short e n l : blen l < n ->
  exists l', lib_read_bits e n l = (l', Err e) /\ suffix l' l.
Proof.
  intros H. pose proof (blen_nonneg l). unfold lib_read_bits.
  destruct (Z.leb_spec n 0); [lia|].
  pose proof (Z.div_mod n 8 ltac:(lia)) as Hdm.
  pose proof (Z.mod_pos_bound n 8 ltac:(lia)) as Hmb.
  assert (Hq : 0 <= n / 8) by (apply Z.div_pos; lia).
  unfold bind, blen in *.
  destruct (Nat.lt_ge_cases (length l) (8 * Z.to_nat (n / 8))) as [Hlt|Hge].
  - destruct (lib_read_bits_bytes_short e _ l 0 Hlt) as (l' & -> & Hs). eauto.
  - destruct (split_at (8 * Z.to_nat (n / 8)) l) as (c & d & -> & Hc & Hd); [lia|].
    rewrite app_length in *.
    change 0 with (u64 0) at 1. rewrite lib_read_bits_bytes_ok by exact Hc.
    destruct (lib_read_bits_bits_short e (Z.to_nat (n mod 8)) d (u64 (0 * 2 ^ blen c + msb c)))
      as (l' & -> & Hs); [lia|].
    exists l'. split; [reflexivity|]. eapply suffix_trans; [exact Hs|apply suffix_app].
Qed.

(** ** The BitReader *)

Lemma br_ReadUint_ok e p n sl r : blen sl = n ->
  br_ReadUint n (mkBR (sl ++ r) e p) = (mkBR r e (p + n), Ok (u64 (msb sl))).
Proof.
  intros H. unfold br_ReadUint, bind, br_add_pos, modify, br_lib. cbn [br_bits br_err br_pos].
  rewrite lib_read_bits_ok by exact H. reflexivity.
Qed.
Lemma br_ReadUint_short e p n l : blen l < n ->
  exists l', br_ReadUint n (mkBR l e p) = (mkBR l' e (p + n), Err e) /\ suffix l' l.
Proof.
  intros H. unfold br_ReadUint, bind, br_add_pos, modify, br_lib. cbn [br_bits br_err br_pos].
  destruct (lib_read_bits_short e n l H) as (l' & -> & Hs). eauto.
Qed.
Lemma br_ReadBool_ok e p b r :
  br_ReadBool (mkBR (b :: r) e p) = (mkBR r e (p + 1), Ok b).
Proof. reflexivity. Qed.
Lemma br_ReadBool_short e p :
  br_ReadBool (mkBR [] e p) = (mkBR [] e (p + 1), Err e).
Proof. reflexivity. Qed.

Lemma i64_congr a b : a mod 2 ^ 64 = b mod 2 ^ 64 -> i64 a = i64 b.
Proof. intros H. unfold i64. now rewrite H. Qed.
Lemma i64_mod a : i64 a mod 2 ^ 64 = a mod 2 ^ 64.
Proof.
  unfold i64. cbv zeta. destruct (_ <? _).
  - apply Z.mod_mod. lia.
  - rewrite <- (Z.mod_mod a (2 ^ 64)) at 2 by lia.
    rewrite <- (Z.mod_add (a mod 2 ^ 64) (-1) (2 ^ 64)) by lia. reflexivity.
Qed.
Lemma i64_u64 a : i64 (u64 a) = i64 a.
Proof. apply i64_congr. unfold u64. apply Z.mod_mod. lia. Qed.
Lemma i64_opp_i64 a : i64 (- i64 a) = i64 (- a).
Proof.
  apply i64_congr. rewrite <- !(Z.sub_0_l).
  rewrite Zminus_mod, i64_mod, <- Zminus_mod. reflexivity.
Qed.
Lemma i64_small a : - 2 ^ 63 <= a < 2 ^ 63 -> i64 a = a.
Proof. intros H. unfold i64. cbv zeta. destruct (Z.ltb_spec (a mod 2 ^ 64) (2 ^ 63)); lia. Qed.

Lemma br_ReadInt_ok e p n b sl r : 1 <= n -> blen (b :: sl) = n ->
  br_ReadInt n (mkBR (b :: sl ++ r) e p)
  = (mkBR r e (p + n), Ok (i64 ((if b then -1 else 1) * msb sl))).
Proof.
  intros Hn H. rewrite blen_cons in H. unfold br_ReadInt, bind. rewrite br_ReadBool_ok.
  unfold br_add_pos, modify, br_lib. cbn [br_bits br_err br_pos].
  rewrite lib_read_bits_ok by lia. unfold ret. f_equal; [f_equal; lia|]. f_equal.
  destruct b.
  - rewrite i64_opp_i64. replace (-1 * msb sl) with (- msb sl) by lia.
    apply i64_congr. rewrite <- !Z.sub_0_l. unfold u64.
    rewrite Zminus_mod_idemp_r. reflexivity.
  - rewrite i64_u64. f_equal. lia.
Qed.

Lemma br_ReadInt_short e p n l : 1 <= n -> blen l < n ->
  exists l' p', br_ReadInt n (mkBR l e p) = (mkBR l' e p', Err e) /\ suffix l' l /\
    p' = p + (match l with [] => 1 | _ => n end).
Proof.
  intros Hn H. unfold br_ReadInt, bind. destruct l as [|b l].
  - rewrite br_ReadBool_short. exists [], (p + 1). split; [reflexivity|]. split; [apply suffix_refl|reflexivity].
  - rewrite br_ReadBool_ok. unfold br_add_pos, modify, br_lib. cbn [br_bits br_err br_pos].
    rewrite blen_cons in H.
    destruct (lib_read_bits_short e (n - 1) l ltac:(lia)) as (l' & -> & Hs).
    do 2 eexists. split; [reflexivity|]. split; [now apply suffix_cons|lia].
Qed.

Lemma replicate_read_byte_ok e k : forall p sl r, length sl = (8 * k)%nat ->
  replicateM k (br_lib lib_read_byte) (mkBR (sl ++ r) e p)
  = (mkBR r e p, Ok (map msb (chunks8 sl))).
Proof.
  induction k as [|k IH]; intros p sl r H; cbn [replicateM].
  - assert (sl = []) as -> by (destruct sl; [reflexivity|discriminate]). reflexivity.
  - destruct (split_at 8 sl) as (c & d & -> & Hc & Hd); [lia|].
    rewrite app_length in *. rewrite <- app_assoc.
    unfold bind. unfold br_lib at 1. cbn [br_bits br_err br_pos].
    rewrite lib_read_byte_ok by exact Hc. rewrite IH by lia.
    rewrite chunks8_cons by exact Hc. reflexivity.
Qed.
Lemma replicate_read_byte_short e k : forall p l, (length l < 8 * k)%nat ->
  exists l', replicateM k (br_lib lib_read_byte) (mkBR l e p) = (mkBR l' e p, Err e) /\ suffix l' l.
Proof.
  induction k as [|k IH]; intros p l H; [lia|]. cbn [replicateM].
  unfold bind. unfold br_lib at 1. cbn [br_bits br_err br_pos].
  destruct (Nat.lt_ge_cases (length l) 8) as [Hlt|Hge].
  - rewrite lib_read_byte_short by exact Hlt. exists l. split; [reflexivity|apply suffix_refl].
  - destruct (split_at 8 l) as (c & d & -> & Hc & Hd); [lia|]. rewrite app_length in *.
    rewrite lib_read_byte_ok by exact Hc.
    destruct (IH p d) as (l' & -> & Hs); [lia|].
    exists l'. split; [reflexivity|]. eapply suffix_trans; [exact Hs|apply suffix_app].
Qed.
Lemma br_ReadBytes_ok e p n sl r : 0 <= n -> blen sl = 8 * n ->
  br_ReadBytes n (mkBR (sl ++ r) e p) = (mkBR r e (p + 8 * n), Ok (map msb (chunks8 sl))).
Proof.
  intros Hn H. unfold br_ReadBytes, bind, br_add_pos, modify. cbn [br_bits br_err br_pos].
  destruct (Z.ltb_spec n 0); [lia|]. rewrite replicate_read_byte_ok by (unfold blen in H; lia).
  replace (p + 8 * n) with (p + n * NBITS_PER_BYTE) by (unfold NBITS_PER_BYTE; lia). reflexivity.
Qed.
Lemma br_ReadBytes_short e p n l : 0 <= n -> blen l < 8 * n ->
  exists l', br_ReadBytes n (mkBR l e p) = (mkBR l' e (p + 8 * n), Err e) /\ suffix l' l.
Proof.
  intros Hn H. unfold br_ReadBytes, bind, br_add_pos, modify. cbn [br_bits br_err br_pos].
  destruct (Z.ltb_spec n 0); [lia|].
  destruct (replicate_read_byte_short e (Z.to_nat n) (p + n * NBITS_PER_BYTE) l) as (l' & -> & Hs).
  { unfold blen in H. lia. }
  exists l'. unfold NBITS_PER_BYTE. replace (p + 8 * n) with (p + n * 8) by lia. auto.
Qed.

Lemma br_ReadBinary_loop_ok e k : forall p n sl r, blen sl = n -> Z.of_nat k = (n + 7) / 8 ->
  br_ReadBinary_loop k n (mkBR (sl ++ r) e p) = (mkBR r e p, Ok (map msb (chunks8 sl))).
Proof.
  induction k as [|k IH]; intros p n sl r H Hk; cbn [br_ReadBinary_loop].
  - rewrite (blen_0 sl) by lia. reflexivity.
  - unfold bind. unfold br_lib at 1. cbn [br_bits br_err br_pos]. unfold NBITS_PER_BYTE.
    destruct (Z.ltb_spec n 8) as [Hn|Hn].
    + rewrite lib_read_bits_ok by exact H.
      assert (k = 0%nat) as -> by lia. cbn [br_ReadBinary_loop]. unfold ret.
      rewrite chunks8_short by (unfold blen in H; lia). cbn [map].
      pose proof (msb_bound sl) as Hb.
      assert (2 ^ blen sl <= 2 ^ 8) by (apply Z.pow_le_mono_r; lia).
      rewrite u64_small by lia. rewrite Z.mod_small by lia. reflexivity.
    + destruct (split_at 8 sl) as (c & d & -> & Hc & Hd); [unfold blen in H; lia|].
      rewrite app_length in *. rewrite blen_app in H. rewrite <- app_assoc.
      assert (Hc' : blen c = 8) by (unfold blen; lia).
      rewrite lib_read_bits_ok by exact Hc'. rewrite IH by lia.
      rewrite chunks8_cons by exact Hc. unfold ret. cbn [map].
      pose proof (msb_bound c) as Hb. rewrite Hc' in Hb.
      rewrite u64_small by lia. rewrite Z.mod_small by lia. reflexivity.
Qed.
Lemma br_ReadBinary_loop_short e k : forall p n l, blen l < n -> Z.of_nat k = (n + 7) / 8 ->
  exists l', br_ReadBinary_loop k n (mkBR l e p) = (mkBR l' e p, Err e) /\ suffix l' l.
Proof.
  induction k as [|k IH]; intros p n l H Hk; cbn [br_ReadBinary_loop].
  - pose proof (blen_nonneg l). lia.
  - unfold bind. unfold br_lib at 1. cbn [br_bits br_err br_pos]. unfold NBITS_PER_BYTE.
    destruct (Z.ltb_spec n 8) as [Hn|Hn].
    + destruct (lib_read_bits_short e n l H) as (l' & -> & Hs). eauto.
    + destruct (Z.lt_ge_cases (blen l) 8) as [Hlt|Hge].
      * destruct (lib_read_bits_short e 8 l Hlt) as (l' & -> & Hs). eauto.
      * destruct (split_at 8 l) as (c & d & -> & Hc & Hd); [unfold blen in Hge; lia|].
        rewrite app_length in *. rewrite blen_app in *.
        assert (Hc' : blen c = 8) by (unfold blen; lia).
        rewrite lib_read_bits_ok by exact Hc'.
        destruct (IH p (n - 8) d) as (l' & -> & Hs); [lia|lia|].
        exists l'. split; [reflexivity|]. eapply suffix_trans; [exact Hs|apply suffix_app].
Qed.
Lemma br_ReadBinary_ok e p n sl r : blen sl = n ->
  br_ReadBinary n (mkBR (sl ++ r) e p)
  = (mkBR r e (p + n), Ok (Some (mkBin (map msb (chunks8 sl)) n))).
Proof.
  intros H. pose proof (blen_nonneg sl).
  unfold br_ReadBinary, bind, br_add_pos, modify. cbn [br_bits br_err br_pos].
  rewrite br_ReadBinary_loop_ok by (try exact H; lia). reflexivity.
Qed.
Lemma br_ReadBinary_short e p n l : blen l < n ->
  exists l', br_ReadBinary n (mkBR l e p) = (mkBR l' e (p + n), Ok None) /\ suffix l' l.
Proof.
  intros H. pose proof (blen_nonneg l).
  unfold br_ReadBinary, bind, br_add_pos, modify. cbn [br_bits br_err br_pos].
  destruct (br_ReadBinary_loop_short e (Z.to_nat ((n + 7) / 8)) (p + n) n l H) as (l' & -> & Hs).
  { lia. }
  eauto.
Qed.

(** ** Calls in general *)

Lemma do_call_ok c e p sl r : valid_call c -> blen sl = width c ->
  do_call c (mkBR (sl ++ r) e p) = (mkBR r e (p + width c), Ok (spec_value c sl)).
Proof.
  intros Hv Hw. destruct c as [n|n| |n|n]; cbn [width valid_call] in *;
    unfold do_call, bind; cbn [spec_value].
  - rewrite br_ReadUint_ok by exact Hw. reflexivity.
  - destruct sl as [|b sl]; [cbn in Hw; lia|]. cbn [app hd tl].
    rewrite br_ReadInt_ok by assumption. reflexivity.
  - destruct sl as [|b [|? sl]]; try (cbn in Hw; lia).
    reflexivity.
  - rewrite br_ReadBytes_ok by lia. reflexivity.
  - rewrite br_ReadBinary_ok by exact Hw. reflexivity.
Qed.

(** How far Pos moves when the stream is too short. *)
Definition short_width (c : call) (l : list bool) : Z :=
  match c, l with CInt _, [] => 1 | _, _ => width c end.
Definition short_result (c : call) (e : err) : res cvalue :=
  match c with CBinary _ => Ok (RBinary None) | _ => Err e end.

Lemma do_call_short c e p l : valid_call c -> blen l < width c ->
  exists l', do_call c (mkBR l e p) = (mkBR l' e (p + short_width c l), short_result c e)
             /\ suffix l' l.
Proof.
  intros Hv Hw. destruct c as [n|n| |n|n]; cbn [width valid_call] in *;
    unfold do_call, bind; cbn [short_width short_result width].
  - destruct (br_ReadUint_short e p n l Hw) as (l' & -> & Hs). exists l'. auto.
  - destruct (br_ReadInt_short e p n l Hv Hw) as (l' & p' & -> & Hs & ->). exists l'. auto.
  - destruct l; [|rewrite blen_cons in Hw; pose proof (blen_nonneg l); lia].
    exists []. rewrite br_ReadBool_short. auto using @suffix_refl.
  - destruct (br_ReadBytes_short e p n l ltac:(lia) Hw) as (l' & -> & Hs). exists l'. auto.
  - destruct (br_ReadBinary_short e p n l Hw) as (l' & -> & Hs). exists l'. auto.
Qed.

Lemma cut (l : list bool) n : 0 <= n <= blen l ->
  exists a b, l = a ++ b /\ blen a = n.
Proof.
  intros H. unfold blen in *. destruct (split_at (Z.to_nat n) l) as (a & b & -> & Ha & _); [lia|].
  exists a, b. split; [reflexivity|lia].
Qed.
Lemma valid_width c : valid_call c -> 0 <= width c.
Proof. destruct c; cbn; lia. Qed.

Lemma do_call_cases c r : valid_call c ->
  (exists sl rest, br_bits r = sl ++ rest /\ blen sl = width c /\
     do_call c r = (mkBR rest (br_err r) (br_pos r + width c), Ok (spec_value c sl)))
  \/ (blen (br_bits r) < width c /\ exists l',
     do_call c r = (mkBR l' (br_err r) (br_pos r + short_width c (br_bits r)), short_result c (br_err r))
     /\ suffix l' (br_bits r)).
Proof.
  intros Hv. destruct r as [l e p]; cbn [br_bits br_err br_pos].
  pose proof (valid_width _ Hv).
  destruct (Z.lt_ge_cases (blen l) (width c)) as [Hlt|Hge].
  - right. split; [exact Hlt|]. now apply do_call_short.
  - left. destruct (cut l (width c)) as (a & b & -> & Ha); [lia|].
    exists a, b. repeat split; auto. now apply do_call_ok.
Qed.
Lemma spec_value_delivered c sl : delivered (spec_value c sl).
Proof. destruct c; exact I. Qed.
