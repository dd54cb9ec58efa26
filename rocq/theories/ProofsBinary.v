(** Proofs on tdcfio.Binary (C09, C10). *)
From Coq Require Import ZifyBool ZifyNat.
From Verif Require Export ProofsBits ModelBinary.
Ltac Zify.zify_post_hook ::= Z.div_mod_to_equations.

Definition bin_of (bs : list bool) : binary := mkBin (map msb (chunks8 bs)) (blen bs).

Lemma parse_base2_bits bs : forall acc,
  parse_base2 acc (map bit_char bs) = Ok (acc * 2 ^ blen bs + msb bs).
Proof.
  induction bs as [|b bs IH]; intros acc; cbn [map parse_base2].
  - f_equal. change (blen (@nil bool)) with 0. rewrite msb_nil. lia.
  - rewrite msb_cons, blen_cons, Z.pow_add_r by (auto; lia). change (2 ^ 1) with 2.
    destruct b; cbn [bit_char]; cbn [Z.eqb Pos.eqb b2z]; rewrite IH; f_equal; lia.
Qed.
Lemma msb_mod256 c : (length c <= 8)%nat -> msb c mod 256 = msb c.
Proof.
  intros H. apply Z.mod_small. pose proof (msb_bound c).
  assert (2 ^ blen c <= 2 ^ 8) by (apply Z.pow_le_mono_r; unfold blen; lia). lia.
Qed.

Lemma binary_blocks_bits bs : forall fuel, (length bs < fuel)%nat ->
  binary_blocks fuel (map bit_char bs) = Ok (map msb (chunks8 bs)).
Proof.
  induction bs as [|c H|c r H IH] using bits8_ind; intros fuel Hf;
    (destruct fuel as [|fuel]; [lia|]); cbn [binary_blocks].
  - reflexivity.
  - rewrite map_length. destruct (Nat.ltb_spec (length c) 8); [|lia].
    assert (E : exists x l, map bit_char c = x :: l) by (destruct c; [cbn in H; lia|cbn; eauto]).
    destruct E as (x & l & E). rewrite parse_base2_bits, E.
    rewrite Z.mul_0_l, Z.add_0_l, msb_mod256 by lia. now rewrite chunks8_short.
  - rewrite map_length, app_length in *. destruct (Nat.ltb_spec (length c + length r) 8); [lia|].
    rewrite map_app, firstn_app, skipn_app, map_length, H, Nat.sub_diag.
    rewrite firstn_all2, skipn_all2 by (rewrite map_length; lia). cbn [firstn skipn app].
    rewrite app_nil_r, parse_base2_bits. rewrite IH by lia.
    rewrite Z.mul_0_l, Z.add_0_l, msb_mod256 by lia. now rewrite chunks8_cons.
Qed.

Lemma chunks8_length bs : blen (chunks8 bs) = (blen bs + 7) / 8.
Proof.
  induction bs as [|c H|c r H IH] using bits8_ind; [reflexivity| |].
  - rewrite chunks8_short by exact H. unfold blen in *. cbn [length]. lia.
  - rewrite chunks8_cons by exact H. rewrite blen_cons, blen_app, IH.
    unfold blen. lia.
Qed.

Lemma NewBinaryFromString_bits bs : NewBinaryFromString (map bit_char bs) = Ok (bin_of bs).
Proof.
  unfold NewBinaryFromString. rewrite map_length, binary_blocks_bits by lia.
  unfold NewBinary. fold (blen bs). fold (blen (map msb (chunks8 bs))).
  assert (E : blen (map msb (chunks8 bs)) = (blen bs + 7) / 8)
    by (rewrite <- chunks8_length; unfold blen; now rewrite map_length).
  pose proof (blen_nonneg bs).
  assert (go_quot (blen bs) 8 + (if 0 <? go_rem (blen bs) 8 then 1 else 0) = (blen bs + 7) / 8) as ->.
  { rewrite Z.quot_div_nonneg, Z.rem_mod_nonneg by lia.
    destruct (Z.ltb_spec 0 (blen bs mod 8)); lia. }
  rewrite E, Z.eqb_refl. reflexivity.
Qed.

Lemma bit_string s : Forall is_bit_char s -> exists bs, s = map bit_char bs.
Proof.
  induction 1 as [|c s [->| ->] _ [bs ->]].
  - now exists [].
  - now exists (false :: bs).
  - now exists (true :: bs).
Qed.

Lemma parse_base2_bad s : ~ Forall is_bit_char s -> forall acc, exists e, parse_base2 acc s = Err e.
Proof.
  induction s as [|c s IH]; intros H acc; [exfalso; apply H; constructor|]. cbn [parse_base2].
  destruct (Z.eqb_spec c 48) as [->|H0].
  - apply IH. intros Hs. apply H. constructor; [now left|exact Hs].
  - destruct (Z.eqb_spec c 49) as [->|H1]; [|eauto].
    apply IH. intros Hs. apply H. constructor; [now right|exact Hs].
Qed.
Definition is_bit_charb (c : Z) : bool := (c =? 48) || (c =? 49).
Lemma all_bits_dec (s : list Z) : Forall is_bit_char s \/ ~ Forall is_bit_char s.
Proof.
  assert (H : Forall is_bit_char s <-> forallb is_bit_charb s = true).
  { rewrite forallb_forall, Forall_forall. unfold is_bit_charb, is_bit_char.
    split; intros H x Hx; specialize (H x Hx); lia. }
  destruct (forallb is_bit_charb s); [left|right]; rewrite H; congruence.
Qed.
Lemma binary_blocks_bad : forall fuel s, (length s < fuel)%nat -> ~ Forall is_bit_char s ->
  exists e, binary_blocks fuel s = Err e.
Proof.
  induction fuel as [|fuel IH]; intros s Hf Hb; [lia|]. cbn [binary_blocks].
  destruct (Nat.ltb_spec (length s) 8) as [Hlt|Hge].
  - destruct s as [|c s]; [exfalso; apply Hb; constructor|].
    destruct (parse_base2_bad _ Hb 0) as [e ->]. eexists; reflexivity.
  - destruct (all_bits_dec (firstn 8 s)) as [Hg|Hbad].
    + destruct (bit_string _ Hg) as [bs E]. rewrite E, parse_base2_bits.
      destruct (IH (skipn 8 s)) as [e ->]; [rewrite skipn_length; lia| |eauto].
      intros Hs. apply Hb. rewrite <- (firstn_skipn 8 s). apply Forall_app. auto.
    + destruct (parse_base2_bad _ Hbad 0) as [e ->]. eexists; reflexivity.
Qed.
Lemma NewBinaryFromString_bad s : ~ Forall is_bit_char s ->
  exists e, NewBinaryFromString s = Err e.
Proof.
  intros H. unfold NewBinaryFromString.
  destruct (binary_blocks_bad (S (length s)) s (Nat.lt_succ_diag_r _) H) as [e ->]. eexists; reflexivity.
Qed.

Lemma sprintf_b_bits c : (0 < length c)%nat ->
  sprintf_b (blen c) (msb c) = map bit_char c.
Proof.
  intros H. unfold sprintf_b. pose proof (msb_bound c) as Hb.
  assert (E : Z.max (blen c) (if msb c =? 0 then 1 else Z.log2 (msb c) + 1) = blen c).
  { destruct (Z.eqb_spec (msb c) 0); [unfold blen; lia|].
    assert (Z.log2 (msb c) < blen c) by (apply Z.log2_lt_pow2; lia). lia. }
  rewrite E. unfold blen. rewrite Nat2Z.id, low_bits_msb. reflexivity.
Qed.

Lemma Binary_String_loop_bits bs : forall n, n mod 8 = blen bs mod 8 -> 0 <= n ->
  Binary_String_loop n (map msb (chunks8 bs)) = map bit_char bs.
Proof.
  induction bs as [|c H|c r H IH] using bits8_ind; intros n Hn H0.
  - reflexivity.
  - rewrite chunks8_short by exact H. cbn [map Binary_String_loop].
    rewrite Z.rem_mod_nonneg by lia. rewrite Hn.
    assert (blen c mod 8 = blen c) as -> by (unfold blen; lia).
    destruct (Z.eqb_spec (blen c) 0); [unfold blen in *; lia|].
    rewrite sprintf_b_bits by lia. apply app_nil_r.
  - rewrite chunks8_cons by exact H. cbn [map Binary_String_loop].
    rewrite blen_app in Hn. assert (Hc : blen c = 8) by (unfold blen; lia). rewrite Hc in Hn.
    rewrite map_app. rewrite IH by lia. f_equal.
    rewrite Z.rem_mod_nonneg by lia.
    destruct (map msb (chunks8 r)) as [|x l] eqn:E.
    + assert (Hr : r = []). { destruct r as [|y r]; [reflexivity|]. exfalso.
        apply (f_equal (@length Z)) in E. rewrite map_length in E.
        pose proof (chunks8_length (y :: r)) as Hl. rewrite blen_cons in Hl.
        pose proof (blen_nonneg r). unfold blen in Hl at 1. cbn [length] in E. lia. }
      subst r. change (blen (@nil bool)) with 0 in Hn. destruct (Z.eqb_spec (n mod 8) 0); [|lia].
      rewrite <- Hc. apply sprintf_b_bits. lia.
    + rewrite <- Hc. apply sprintf_b_bits. lia.
Qed.
Lemma Binary_String_bits bs : Binary_String (bin_of bs) = map bit_char bs.
Proof. unfold Binary_String, bin_of. cbn. apply Binary_String_loop_bits; [reflexivity|apply blen_nonneg]. Qed.

Lemma testbit_msb bs : forall k, (k < length bs)%nat ->
  Z.testbit (msb bs) (Z.of_nat (length bs - 1 - k)) = nth k bs false.
Proof.
  induction bs as [|b bs IH]; intros k Hk; [cbn in Hk; lia|].
  rewrite msb_cons. cbn [length] in *. pose proof (msb_bound bs) as Hb. unfold blen in *.
  destruct k as [|k].
  - replace (S (length bs) - 1 - 0)%nat with (length bs) by lia. cbn [nth].
    assert (E : b2z (Z.testbit (msb bs + b2z b * 2 ^ Z.of_nat (length bs)) (Z.of_nat (length bs))) = b2z b).
    { rewrite testbit_b2z by lia. rewrite Z.div_add by lia. rewrite Z.div_small by lia.
      destruct b; reflexivity. }
    rewrite (Z.add_comm (b2z b * _)).
    destruct (Z.testbit _ _), b; cbn in E; congruence.
  - cbn [nth]. rewrite <- IH by lia.
    replace (S (length bs) - 1 - S k)%nat with (length bs - 1 - k)%nat by lia.
    rewrite <- (Z.mod_pow2_bits_low _ (Z.of_nat (length bs))) by lia.
    rewrite Z.add_comm, Z.mod_add by lia. rewrite Z.mod_pow2_bits_low by lia. reflexivity.
Qed.

Lemma chunks8_nth bs : forall i, (i < length bs)%nat ->
  exists c, nth_error (chunks8 bs) (i / 8) = Some c /\ nth (i mod 8) c false = nth i bs false /\
    (i mod 8 < length c)%nat /\
    length c = (if (i / 8 =? length (chunks8 bs) - 1) && negb (length bs mod 8 =? 0)
                then length bs mod 8 else 8)%nat.
Proof.
  induction bs as [|c H|c r H IH] using bits8_ind; intros i Hi.
  - cbn in Hi. lia.
  - rewrite chunks8_short by exact H. exists c.
    rewrite Nat.div_small, !Nat.mod_small by lia. cbn [nth_error length Nat.sub Nat.eqb andb].
    repeat split; try lia. destruct (Nat.eqb_spec (length c) 0); cbn [negb]; lia.
  - rewrite chunks8_cons by exact H. rewrite app_length in *.
    destruct (Nat.lt_ge_cases i 8) as [Hlt|Hge].
    + exists c. rewrite Nat.div_small, (Nat.mod_small i) by lia. cbn [nth_error].
      repeat split; try lia.
      * rewrite app_nth1 by lia. reflexivity.
      * cbn [length]. destruct (chunks8 r) as [|x l] eqn:E.
        -- assert (r = []) as ->. { rewrite <- (chunks8_concat r), E. reflexivity. }
           cbn [length]. rewrite H. reflexivity.
        -- cbn [length]. destruct (Nat.eqb_spec 0 (S (S (length l)) - 1)); [lia|]. cbn [andb]. exact H.
    + destruct (IH (i - 8)%nat ltac:(lia)) as (c' & Hc1 & Hc2 & Hc3 & Hc4). exists c'.
      assert (Hd : (i / 8 = S ((i - 8) / 8))%nat).
      { replace i with (1 * 8 + (i - 8))%nat at 1 by lia. rewrite Nat.div_add_l by lia. reflexivity. }
      assert (Hm : (i mod 8 = (i - 8) mod 8)%nat).
      { replace i with ((i - 8) + 1 * 8)%nat at 1 by lia. now rewrite Nat.mod_add by lia. }
      rewrite Hd, Hm. cbn [nth_error]. split; [exact Hc1|]. split; [|split; [exact Hc3|]].
      * rewrite Hc2, app_nth2, H by lia. reflexivity.
      * rewrite Hc4. cbn [length].
        assert ((length c + length r) mod 8 = length r mod 8)%nat as ->.
        { rewrite H. replace (8 + length r)%nat with (length r + 1 * 8)%nat by lia. now rewrite Nat.mod_add by lia. }
        assert (Hne : (0 < length (chunks8 r))%nat) by (destruct (chunks8 r); [destruct ((i-8)/8)%nat; discriminate|cbn; lia]).
        replace (S ((i - 8) / 8) =? S (length (chunks8 r)) - 1)%nat
          with ((i - 8) / 8 =? length (chunks8 r) - 1)%nat; [reflexivity|].
        destruct (Nat.eqb_spec ((i - 8) / 8) (length (chunks8 r) - 1)),
                 (Nat.eqb_spec (S ((i - 8) / 8)) (S (length (chunks8 r)) - 1)); lia.
Qed.

Lemma Binary_Bit_bits bs i : 0 <= i -> Binary_Bit (bin_of bs) i = Ok (nth (Z.to_nat i) bs false).
Proof.
  intros Hi. unfold Binary_Bit, bin_of. cbn [b_nbits b_bytes].
  destruct (Z.leb_spec (blen bs) i) as [Hge|Hlt].
  - rewrite nth_overflow by (unfold blen in Hge; lia). reflexivity.
  - unfold blen in *. destruct (chunks8_nth bs (Z.to_nat i) ltac:(lia)) as (c & Hc1 & Hc2 & Hc3 & Hc4).
    rewrite Z.quot_div_nonneg, !Z.rem_mod_nonneg by lia.
    unfold go_nth. destruct (Z.ltb_spec (i / 8) 0); [lia|].
    assert (Hd : Z.to_nat (i / 8) = (Z.to_nat i / 8)%nat) by (rewrite Z2Nat.inj_div by lia; reflexivity).
    assert (Hm : Z.to_nat (i mod 8) = (Z.to_nat i mod 8)%nat) by (rewrite Z2Nat.inj_mod by lia; reflexivity).
    assert (Hlm : Z.of_nat (length bs) mod 8 = Z.of_nat (length bs mod 8)) by (rewrite Nat2Z.inj_mod; reflexivity).
    rewrite Hd, nth_error_map, Hc1. cbn [option_map]. rewrite map_length, Hlm. f_equal.
    set (pad := if (i / 8 =? Z.of_nat (length (chunks8 bs)) - 1) && _ then _ else _).
    assert (Hpad : 8 - pad = Z.of_nat (length c)).
    { unfold pad. rewrite Hc4.
      assert (Hpos : (0 < length (chunks8 bs))%nat) by (destruct (chunks8 bs); [destruct (Z.to_nat i / 8)%nat; discriminate|cbn; lia]).
      assert (Hmb : (length bs mod 8 < 8)%nat) by (apply Nat.mod_upper_bound; lia).
      destruct (Z.eqb_spec (i / 8) (Z.of_nat (length (chunks8 bs)) - 1)) as [E1|E1],
               (Nat.eqb_spec (Z.to_nat i / 8) (length (chunks8 bs) - 1)) as [E2|E2]; try lia; cbn [andb];
        destruct (Z.eqb_spec (Z.of_nat (length bs mod 8)) 0), (Nat.eqb_spec (length bs mod 8) 0); cbn [negb]; lia. }
    replace (8 - i mod 8 - 1 - pad) with (Z.of_nat (length c - 1 - Z.to_nat i mod 8)).
    2:{ assert (i mod 8 = Z.of_nat (Z.to_nat i mod 8)) by (rewrite <- Hm; lia). lia. }
    destruct (Z.ltb_spec (Z.of_nat (length c - 1 - Z.to_nat i mod 8)) 0); [lia|].
    rewrite testbit_msb by exact Hc3. exact Hc2.
Qed.

(** ** C10 *)
Lemma u64_nonneg z : 0 <= u64 z. Proof. apply Z.mod_pos_bound. lia. Qed.
Lemma binary_from_uint_loop_hangs fuel : forall v shift bs, 0 <= shift ->
  binary_from_uint_loop fuel v shift bs = NoFuel.
Proof.
  induction fuel as [|fuel IH]; intros v shift bs H; cbn [binary_from_uint_loop]; [reflexivity|].
  destruct (Z.leb_spec 0 shift); [|lia]. apply IH, u64_nonneg.
Qed.
Lemma NewBinaryFromUint_hangs fuel v n : NewBinaryFromUint fuel v n = NoFuel.
Proof. unfold NewBinaryFromUint. rewrite binary_from_uint_loop_hangs; [reflexivity|apply u64_nonneg]. Qed.
