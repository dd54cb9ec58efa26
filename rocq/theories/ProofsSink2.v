(** WriteFloat32. *)
From Coq Require Import Reals Lra ZifyBool ZifyNat.
From Flocq Require Import Core BinarySingleNaN.
From Verif Require Import ProofsBase ProofsBits ProofsBitProps ProofsReal ProofsReader ProofsFloat.
From Verif Require Export ProofsSink SpecSink.
From Verif Require Import SpecReal.

(** ** Fields of 32 bits *)
Local Open Scope Z_scope.
Lemma fields s e m : 0 <= e < 256 -> 0 <= m < 2 ^ 23 ->
  let n := b2z s * 2 ^ 31 + e * 2 ^ 23 + m in
  0 <= n < 2 ^ 32 /\ hd false (low_bits 32 n) = s /\ msb (firstn 8 (tl (low_bits 32 n))) = e /\ msb (skipn 9 (low_bits 32 n)) = m.
Proof.
  intros He Hm n. pose proof (b2z_range s). assert (Hn : 0 <= n < 2 ^ 32) by (unfold n; lia). split; [exact Hn|].
  assert (L : low_bits 32 n = s :: low_bits 8 e ++ low_bits 23 m).
  { apply msb_inj; [cbn [length]; rewrite app_length, !length_low_bits; reflexivity|].
    rewrite msb_low_bits, msb_cons, msb_app, !msb_low_bits, blen_app, !blen_low_bits.
    rewrite (Z.mod_small n) by (unfold n; lia). rewrite (Z.mod_small e), (Z.mod_small m) by lia. unfold n.
    change (2 ^ (Z.of_nat 8 + Z.of_nat 23)) with (2 ^ 31). change (2 ^ Z.of_nat 23) with (2 ^ 23). lia. }
  rewrite L. split; [reflexivity|]. cbn [tl].
  assert (A : firstn 8 (low_bits 8 e ++ low_bits 23 m) = low_bits 8 e) by reflexivity.
  assert (B : skipn 9 (s :: low_bits 8 e ++ low_bits 23 m) = low_bits 23 m) by reflexivity.
  rewrite A, B, !msb_low_bits_small; [split; reflexivity|exact Hm|exact He].
Qed.

(** ** Binary32 *)
#[local] Instance H24 : FLX.Prec_gt_0 24 := eq_refl _.
#[local] Instance H128 : Prec_lt_emax 24 128 := eq_refl _.
Notation bs := (binary_float 24 128).
Lemma round32_equiv s m e : SpecFloat.binary_round 24 128 s m e = BinarySingleNaN.binary_round 24 128 mode_NE s m e.
Proof.
  unfold SpecFloat.binary_round, BinarySingleNaN.binary_round, shl_align_fexp.
  set (mez := shl_align _ _ _); case mez as [mz ez].
  unfold SpecFloat.binary_round_aux, BinarySingleNaN.binary_round_aux.
  set (mrse' := shr_fexp _ _ _). case mrse'; intros mrs' e'; simpl. now rewrite (round_nearest_even_equiv s).
Qed.

Lemma bits_finite s m e : SpecFloat.bounded 24 128 m e = true ->
  let n := f32_bits (S754_finite s m e) in
  exists E M, 0 <= E < 255 /\ 0 <= M < 2 ^ 23 /\ n = b2z s * 2 ^ 31 + E * 2 ^ 23 + M /\
  ((E = 0 /\ M = Zpos m /\ e = -149) \/ (0 < E /\ M = Zpos m - 2 ^ 23 /\ e = E - 150)).
Proof.
  intros B n. apply andb_prop in B. destruct B as [B1 B2]. apply Zeq_bool_eq in B1.
  unfold SpecFloat.fexp, SpecFloat.emin in B1. pose proof (digits2_bounds m) as D.
  set (d := Zpos (digits2_pos m)) in *. assert (Hd : 1 <= d) by (unfold d; lia).
  assert (Hs : (if s then 2 ^ 31 else 0) = b2z s * 2 ^ 31) by now destruct s.
  unfold n, f32_bits. rewrite Hs. destruct (Z.ltb_spec (Zpos m) (2 ^ 23)) as [L|L].
  - assert (d <= 23).
    { apply Z.nlt_ge. intros K. assert (2 ^ 23 <= 2 ^ (d - 1)) by (apply Z.pow_le_mono_r; lia). lia. }
    exists 0, (Zpos m). repeat split; try lia.
  - assert (24 <= d).
    { apply Z.nlt_ge. intros K. assert (2 ^ d <= 2 ^ 23) by (apply Z.pow_le_mono_r; lia). lia. }
    assert (d <= 24) by lia. assert (d = 24) as Ed by lia. rewrite Ed in D. change (2 ^ 24) with (2 * 2 ^ 23) in D.
    exists (e + 150), (Zpos m - 2 ^ 23). repeat split; try lia.
Qed.

Definition sign64 (x : f64) : bool :=
  match x with S754_zero s | S754_infinity s | S754_finite s _ _ => s | S754_nan => false end.
Lemma single_of n : 0 <= n < 2 ^ 32 -> is_single (low_bits 32 n) (f64_of_float32_bits n).
Proof.
  intros H. pose proof (single_ok (low_bits 32 n) (blen_low_bits 32 n)) as S.
  rewrite msb_low_bits_small in S by exact H. rewrite !Z.mod_small in S by lia. exact S.
Qed.

(** The bits of a single precision number spell it. *)
Lemma spells z : valid_binary 24 128 z = true ->
  exists n, f32_bits z = n /\ 0 <= n < 2 ^ 32 /\ exists y, is_single (low_bits 32 n) y /\
  match z with
  | S754_nan | S754_infinity _ => y = z
  | _ => finite64 y /\ signed y (sign64 z) /\ R64 y = SF2R radix2 z
  end.
Proof.
  intros V. eexists. split; [reflexivity|]. destruct z as [s|s| |s m e].
  - destruct (fields s 0 0) as (A & B & C & D); [lia|lia|].
    replace (f32_bits (S754_zero s)) with (b2z s * 2 ^ 31 + 0 * 2 ^ 23 + 0) by (destruct s; reflexivity).
    split; [exact A|]. exists (S754_zero s). split; [|split; [reflexivity|split; reflexivity]].
    unfold is_single. rewrite B, C, D. cbn [Z.eqb]. split; [reflexivity|]. split; [reflexivity|]. unfold R64. cbn [SF2R]. destruct s; lra.
  - destruct (fields s 255 0) as (A & B & C & D); [lia|lia|].
    replace (f32_bits (S754_infinity s)) with (b2z s * 2 ^ 31 + 255 * 2 ^ 23 + 0) by (destruct s; reflexivity).
    split; [exact A|]. exists (S754_infinity s). split; [|reflexivity].
    unfold is_single. rewrite B, C, D. reflexivity.
  - destruct (fields false 255 (2 ^ 22)) as (A & B & C & D); [lia|lia|].
    change (f32_bits S754_nan) with (b2z false * 2 ^ 31 + 255 * 2 ^ 23 + 2 ^ 22).
    split; [exact A|]. exists S754_nan. split; [|reflexivity].
    unfold is_single. rewrite B, C, D. reflexivity.
  - destruct (bits_finite s m e V) as (E & M & HE & HM & -> & K).
    destruct (fields s E M) as (A & B & C & D); [lia|lia|]. split; [exact A|].
    pose proof (single_of _ A) as S. exists (f64_of_float32_bits (b2z s * 2 ^ 31 + E * 2 ^ 23 + M)). split; [exact S|].
    unfold is_single in S. rewrite B, C, D in S. destruct (Z.eqb_spec E 255); [lia|]. destruct S as (S1 & S2 & S3).
    split; [exact S1|]. split; [exact S2|]. rewrite S3. cbn [SF2R].
    change (F2R (Float radix2 (cond_Zopp s (Zpos m)) e)) with (IZR (cond_Zopp s (Zpos m)) * bpow radix2 e)%R.
    assert (F : (IZR (cond_Zopp s (Zpos m)) = (if s then -1 else 1) * IZR (Zpos m))%R).
    { destruct s; cbn [cond_Zopp]; [rewrite opp_IZR|]; lra. }
    rewrite F. destruct K as [(-> & -> & ->)|(K1 & -> & ->)].
    + cbn [Z.eqb]. destruct s; lra.
    + destruct (Z.eqb_spec E 0); [lia|]. replace (2 ^ 23 + (Zpos m - 2 ^ 23)) with (Zpos m) by lia. destruct s; lra.
Qed.

Lemma f32_valid x : valid_binary 24 128 (f32_of_f64 x) = true.
Proof.
  destruct x; try reflexivity. cbn [f32_of_f64]. rewrite round32_equiv. now destruct (binary_round_correct 24 128 H24 H128 mode_NE s m e).
Qed.
Lemma f32_finite x : finite64 x ->
  let z := f32_of_f64 x in
  if Rlt_bool (Rabs (rne32 (R64 x))) (bpow radix2 128)
  then is_finite_SF z = true /\ sign64 z = sign64 x /\ SF2R radix2 z = rne32 (R64 x)
  else z = S754_infinity (sign64 x).
Proof.
  intros F. destruct x as [s|s| |s m e]; try discriminate F.
  - cbv zeta. unfold R64. cbn [SF2R f32_of_f64]. unfold rne32. rewrite round_0 by auto with typeclass_instances. rewrite Rabs_R0, Rlt_bool_true by apply bpow_gt_0.
    split; [reflexivity|]. split; reflexivity.
  - cbv zeta. cbn [f32_of_f64]. rewrite round32_equiv. destruct (binary_round_correct 24 128 H24 H128 mode_NE s m e) as [_ H].
    cbv zeta in H. change (round radix2 (SpecFloat.fexp 24 128) (round_mode mode_NE)) with rne32 in H.
    change (R64 (S754_finite s m e)) with (F2R (Float radix2 (cond_Zopp s (Zpos m)) e)).
    destruct (Rlt_bool _ _).
    + destruct H as (H1 & H2 & H3). split; [exact H2|]. split; [|exact H1].
      transitivity (sign_SF (BinarySingleNaN.binary_round 24 128 mode_NE s m e)); [|exact H3]. now destruct (BinarySingleNaN.binary_round _ _ _ _ _ _).
    + exact H.
Qed.

Lemma pushes_float x : pushes (sk_WriteFloat32 x) (low_bits 32 (f32_bits (f32_of_f64 x))).
Proof.
  destruct (spells _ (f32_valid x)) as (n & E & B & _). unfold sk_WriteFloat32. rewrite E.
  replace (low_bits 32 n) with (lib_write_bits (u64 n) 32 []); [apply pushes_lib|]. rewrite u64_small by lia. reflexivity.
Qed.

(** Whatever is written is the nearest number of single precision. *)
Lemma float_written x s : (blen (sk_bits s) + 32) / 8 <= sk_room s ->
  exists bits y, blen bits = 32 /\ sk_WriteFloat32 x s = (mkSink (sk_bits s ++ bits) (sk_room s) (sk_err s), Ok tt) /\ is_single bits y /\
  match x with
  | S754_nan | S754_infinity _ => y = x
  | S754_zero sg | S754_finite sg _ _ =>
      if Rlt_bool (Rabs (rne32 (R64 x))) (bpow radix2 128)
      then finite64 y /\ signed y sg /\ R64 y = rne32 (R64 x)
      else y = S754_infinity sg
  end.
Proof.
  intros R. destruct (spells _ (f32_valid x)) as (n & E & B & y & S & H).
  exists (low_bits 32 n), y. split; [apply blen_low_bits|]. split; [|split; [exact S|]].
  - pose proof (pushes_float x s) as P. rewrite E, blen_app, blen_low_bits in P. change (Z.of_nat 32) with 32 in P.
    specialize (P ltac:(lia)). destruct (Z.leb_spec ((blen (sk_bits s) + 32) / 8) (sk_room s)); [exact P|lia].
  - destruct x as [sg|sg| |sg m e]; [|exact H|exact H|].
    all: match goal with |- context [R64 ?x] => pose proof (f32_finite x eq_refl) as K end; cbv zeta in K; destruct (Rlt_bool _ _);
      [destruct K as (K1 & K2 & K3)|now rewrite K in H].
    all: destruct (f32_of_f64 _); try discriminate K1; rewrite K3, K2 in H; exact H.
Qed.

(** What is a number of single precision is written exactly. *)
Lemma fields_of bits : blen bits = 32 ->
  msb bits = b2z (hd false bits) * 2 ^ 31 + msb (firstn 8 (tl bits)) * 2 ^ 23 + msb (skipn 9 bits) /\ 0 <= msb (firstn 8 (tl bits)) < 256 /\ 0 <= msb (skipn 9 bits) < 2 ^ 23.
Proof.
  intros H. destruct bits as [|s bits]; [discriminate H|]. cbn [hd tl]. change (skipn 9 (s :: bits)) with (skipn 8 bits).
  assert (L : length bits = 31%nat) by (unfold blen in H; cbn [length] in H; lia).
  assert (Le : blen (firstn 8 bits) = 8) by (unfold blen; rewrite firstn_length; lia).
  assert (Lm : blen (skipn 8 bits) = 23) by (unfold blen; rewrite skipn_length; lia).
  pose proof (msb_bound (firstn 8 bits)) as Be. pose proof (msb_bound (skipn 8 bits)) as Bm. rewrite Le in Be. rewrite Lm in Bm.
  split; [|split; [exact Be|exact Bm]].
  rewrite msb_cons. rewrite <- (firstn_skipn 8 bits) at 1 2. rewrite msb_app, blen_app, Le, Lm. lia.
Qed.
Lemma same_single x z : finite64 x -> valid_binary 24 128 z = true -> is_finite_SF z = true ->
  R64 x = SF2R radix2 z -> sign64 x = sign64 z -> f32_of_f64 x = z.
Proof.
  intros Fx Vz Fz E S. pose proof (f32_finite x Fx) as K. cbv zeta in K.
  pose proof (f32_valid x) as V. set (z' := f32_of_f64 x) in *. clearbody z'.
  set (bz := SF2B z Vz). assert (Ez : B2SF bz = z) by apply B2SF_SF2B.
  assert (G : rne32 (R64 x) = SF2R radix2 z).
  { rewrite E, <- Ez, SF2R_B2SF. apply round_generic; [auto with typeclass_instances|]. apply (generic_format_B2R 24 128 bz). }
  rewrite G in K. rewrite Rlt_bool_true in K by (rewrite <- Ez, SF2R_B2SF; apply abs_B2R_lt_emax).
  destruct K as (K1 & K2 & K3). set (bz' := SF2B z' V). assert (Ez' : B2SF bz' = z') by apply B2SF_SF2B.
  rewrite <- Ez, <- Ez'. f_equal. apply B2R_Bsign_inj.
  - rewrite <- is_finite_SF_B2SF, Ez'. exact K1.
  - rewrite <- is_finite_SF_B2SF, Ez. exact Fz.
  - rewrite <- !SF2R_B2SF, Ez, Ez'. exact K3.
  - assert (Q : forall b : bs, is_finite_SF (B2SF b) = true -> Bsign b = sign64 (B2SF b)) by (intros [?|?| |? ? ? ?]; reflexivity).
    rewrite !Q by (rewrite ?Ez, ?Ez'; assumption). rewrite Ez, Ez', K2. exact S.
Qed.
Lemma signed_sign x s : signed x s -> sign64 x = s.
Proof. destruct x; cbn; intuition. Qed.
Lemma exactly_written bits x : blen bits = 32 -> is_single bits x -> x <> S754_nan -> low_bits 32 (f32_bits (f32_of_f64 x)) = bits.
Proof.
  intros L S N. destruct (fields_of bits L) as (E & He & Hm). unfold is_single in S. cbv zeta in S.
  set (s := hd false bits) in *. set (e := msb (firstn 8 (tl bits))) in *. set (m := msb (skipn 9 bits)) in *. clearbody s e m.
  assert (G : f32_bits (f32_of_f64 x) = msb bits).
  2: { rewrite G. change 32%nat with (Z.to_nat 32). rewrite <- L. unfold blen. rewrite Nat2Z.id. apply low_bits_msb. }
  rewrite E. destruct (Z.eqb_spec e 255) as [->|H255].
  - change (255 =? 255) with true in S. cbv iota in S. destruct (Z.eqb_spec m 0) as [Em|]; [|congruence]. subst x m. destruct s; reflexivity.
  - destruct S as (F & Sg & R). apply signed_sign in Sg. destruct (Z.eqb_spec e 0) as [->|H0].
    + destruct m as [|p|p]; [|..|lia].
      * rewrite (same_single x (S754_zero s)); [destruct s; reflexivity|exact F|reflexivity|reflexivity| |exact Sg].
        rewrite R. cbn [SF2R]. destruct s; lra.
      * assert (V : SpecFloat.bounded 24 128 p (-149) = true).
        { pose proof (digits2_bounds p) as D. set (d := Zpos (digits2_pos p)) in *.
          assert (d <= 23). { apply Z.nlt_ge. intros K. assert (2 ^ 23 <= 2 ^ (d - 1)) by (apply Z.pow_le_mono_r; lia). lia. }
          unfold SpecFloat.bounded, SpecFloat.canonical_mantissa, SpecFloat.fexp, SpecFloat.emin. fold d. apply andb_true_intro. split; [|reflexivity].
          apply Zeq_is_eq_bool. lia. }
        rewrite (same_single x (S754_finite s p (-149))); [|exact F|exact V|reflexivity| |exact Sg].
        -- cbn [f32_bits]. destruct (Z.ltb_spec (Zpos p) (2 ^ 23)); [|lia]. destruct s; cbn [b2z]; lia.
        -- rewrite R. cbn [SF2R]. change (F2R (Float radix2 (cond_Zopp s (Zpos p)) (-149))) with (IZR (cond_Zopp s (Zpos p)) * bpow radix2 (-149))%R.
           destruct s; cbn [cond_Zopp]; [change (Zneg p) with (- Zpos p); rewrite opp_IZR|]; lra.
    + destruct (2 ^ 23 + m) as [|p|p] eqn:Ep; [lia| |lia].
      assert (V : SpecFloat.bounded 24 128 p (e - 150) = true).
      { pose proof (digits2_bounds p) as D. set (d := Zpos (digits2_pos p)) in *. assert (1 <= d) by (unfold d; lia).
        assert (24 <= d). { apply Z.nlt_ge. intros K. assert (2 ^ d <= 2 ^ 23) by (apply Z.pow_le_mono_r; lia). lia. }
        assert (d <= 24). { apply Z.nlt_ge. intros K. assert (2 ^ 24 <= 2 ^ (d - 1)) by (apply Z.pow_le_mono_r; lia). lia. }
        unfold SpecFloat.bounded, SpecFloat.canonical_mantissa, SpecFloat.fexp, SpecFloat.emin. fold d. apply andb_true_intro. split; [|lia].
        apply Zeq_is_eq_bool. lia. }
      rewrite (same_single x (S754_finite s p (e - 150))); [|exact F|exact V|reflexivity| |exact Sg].
      * cbn [f32_bits]. destruct (Z.ltb_spec (Zpos p) (2 ^ 23)); [lia|]. destruct s; cbn [b2z]; lia.
      * rewrite R. cbn [SF2R]. change (F2R (Float radix2 (cond_Zopp s (Zpos p)) (e - 150))) with (IZR (cond_Zopp s (Zpos p)) * bpow radix2 (e - 150))%R.
        destruct s; cbn [cond_Zopp]; [change (Zneg p) with (- Zpos p); rewrite opp_IZR|]; lra.
Qed.
Lemma float_exact bits x s : blen bits = 32 -> is_single bits x -> x <> S754_nan -> (blen (sk_bits s) + 32) / 8 <= sk_room s ->
  sk_WriteFloat32 x s = (mkSink (sk_bits s ++ bits) (sk_room s) (sk_err s), Ok tt).
Proof.
  intros L S N R. pose proof (pushes_float x s) as P. rewrite (exactly_written bits x L S N), blen_app, L in P.
  specialize (P ltac:(lia)). destruct (Z.leb_spec ((blen (sk_bits s) + 32) / 8) (sk_room s)); [exact P|lia].
Qed.
Lemma float_back pl k bits x room er rest e p : blen bits = 32 -> is_single bits x -> x <> S754_nan -> 4 <= room ->
  exists s, sk_WriteFloat32 x (new_sink room er) = (s, Ok tt) /\ received s = map msb (chunks8 bits) /\
  exists y, do_rcall pl k KFloat32 (RBit (mkBR (bytes_bits (received s) ++ rest) e p)) = (RBit (mkBR rest e (p + 32)), Ok (ANumber y)) /\ same_number x y.
Proof.
  intros L S N R. eexists. split; [apply (float_exact bits); auto; cbn; lia|]. cbn [new_sink sk_bits app].
  assert (Q : bytes_bits (bw_output bits) = bits).
  { rewrite bw_output_bits. apply firstn_all2. unfold blen in L. lia. }
  split.
  { unfold received. cbn [sk_bits]. clear - L Q. assert (Forall is_byte (bw_output bits)) as B by apply bw_output_bytes.
    rewrite <- Q at 2. clear Q L. induction B as [|b l Hb _ IH]; [reflexivity|].
    rewrite bytes_bits_cons, chunks8_cons by apply length_byte_bits. cbn [map]. now rewrite <- IH, msb_byte_bits. }
  unfold received. cbn [sk_bits]. rewrite Q. pose proof (reading_bits pl k KFloat32 (mkBR (bits ++ rest) e p)) as H.
  cbn [asked sensible br_bits br_err br_pos] in H. specialize (H ltac:(lia)). rewrite blen_app, L in H.
  destruct (Z.leb_spec 32 (32 + blen rest)) as [_|K]; [|pose proof (blen_nonneg rest); lia].
  destruct H as (taken & rest' & a & E & Lt & Sp & D).
  assert (taken = bits /\ rest' = rest) as [-> ->].
  { assert (length bits = length taken) by (unfold blen in *; lia). clear - E H. revert taken E H. induction bits as [|b bits IH]; intros [|t taken] E H; try discriminate H; [now split|]. injection E as -> E. destruct (IH taken E ltac:(cbn in H; lia)) as [-> ->]. now split. }
  destruct Sp as (y & -> & Sy). exists y. split; [exact D|].
  unfold is_single in S, Sy. cbv zeta in S, Sy. destruct (_ =? 255).
  - subst x y. destruct (_ =? 0); [reflexivity|congruence].
  - destruct S as (F & Sg & Rx). destruct Sy as (Fy & Sgy & Ry). rewrite <- Rx in Ry. unfold same_number.
    destruct x as [s|s| |s m ex]; try discriminate F; cbn [signed] in Sg; subst s; auto.
Qed.
