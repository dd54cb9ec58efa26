(** The two readers behind one interface. *)
From Coq Require Import Reals Lra ZifyBool ZifyNat.
From Flocq Require Import Core BinarySingleNaN.
From Verif Require Import ProofsBits ProofsJson ProofsReal.
From Verif Require Export SpecReader.
From Verif Require Import SpecReal.

(** ** IEEE singles *)
Section Single.
  Local Open Scope R_scope.
  Lemma normal_exact z e s : (z <> 0)%Z -> (Z.abs z < 2 ^ 53)%Z -> (-1074 <= e <= 200)%Z ->
    let x := SpecFloat.binary_normalize ModelFloat.prec ModelFloat.emax z e s in
    finite64 x /\ signed x (z <? 0)%Z /\ R64 x = IZR z * bpow radix2 e.
  Proof.
    intros Hn Hz He. cbv zeta. unfold R64, finite64. rewrite binary_normalize_equiv, SF2R_B2SF, is_finite_SF_B2SF.
    pose proof (binary_normalize_correct _ _ ProofsReal.Hprec ProofsReal.Hmax mode_NE z e s) as H. cbv zeta in H. rewrite rne_fx in H.
    change (F2R (Float radix2 z e)) with (IZR z * bpow radix2 e) in H.
    assert (G : generic_format radix2 (FLT_exp (-1074) 53) (IZR z * bpow radix2 e)).
    { apply generic_format_FLT. exists (Float radix2 z e); [reflexivity|simpl; exact Hz|simpl; lia]. }
    unfold rne in H. rewrite round_generic in H by (auto with typeclass_instances).
    assert (P : 0 < bpow radix2 e) by apply bpow_gt_0.
    rewrite Rlt_bool_true in H.
    - destruct H as (H1 & H2 & H3). split; [exact H2|]. split; [|exact H1].
      assert (E : Bsign (BinarySingleNaN.binary_normalize ModelFloat.prec ModelFloat.emax ProofsReal.Hprec ProofsReal.Hmax mode_NE z e s) = (z <? 0)%Z).
      { rewrite H3. destruct (Z.ltb_spec z 0) as [L|L].
        - rewrite Rcompare_Lt; [reflexivity|]. assert (IZR z < 0) by now apply IZR_lt. nra.
        - rewrite Rcompare_Gt; [reflexivity|]. assert (0 < IZR z) by (apply IZR_lt; lia). nra. }
      destruct (BinarySingleNaN.binary_normalize _ _ _ _ _ _ _ _); cbn in *; try exact E. discriminate H2.
    - rewrite Rabs_mult, (Rabs_pos_eq (bpow radix2 e)) by lra.
      apply Rlt_le_trans with (bpow radix2 53 * bpow radix2 e); [apply Rmult_lt_compat_r; [exact P|now apply int_lt]|].
      rewrite <- bpow_plus. apply bpow_le. unfold ModelFloat.emax. lia.
  Qed.
End Single.
Lemma single_ok bits : blen bits = 32 -> is_single bits (f64_of_float32_bits ((msb bits mod 2 ^ 64) mod 2 ^ 32)).
Proof.
  intros H. destruct bits as [|s bits]; [discriminate H|]. rewrite <- (firstn_skipn 8 bits).
  set (eb := firstn 8 bits). set (mb := skipn 8 bits).
  assert (L : length bits = 31%nat) by (unfold blen in H; cbn [length] in H; lia).
  assert (Le : blen eb = 8) by (unfold eb, blen; rewrite firstn_length; lia).
  assert (Lm : blen mb = 23) by (unfold mb, blen; rewrite skipn_length; lia).
  assert (E1 : firstn 8 (tl (s :: eb ++ mb)) = eb). { cbn [tl]. rewrite firstn_app. replace (8 - length eb)%nat with 0%nat by (unfold blen in Le; lia). change (firstn 0 mb) with (@nil bool). rewrite app_nil_r. apply firstn_all2. unfold blen in Le. lia. }
  assert (E2 : skipn 9 (s :: eb ++ mb) = mb). { change (skipn 9 (s :: eb ++ mb)) with (skipn 8 (eb ++ mb)). rewrite skipn_app. replace (8 - length eb)%nat with 0%nat by (unfold blen in Le; lia). rewrite skipn_all2 by (unfold blen in Le; lia). reflexivity. }
  unfold is_single. cbv zeta. rewrite E1, E2. cbn [hd]. pose proof (msb_bound eb) as Be. pose proof (msb_bound mb) as Bm. rewrite Le in Be. rewrite Lm in Bm.
  set (n := (msb (s :: eb ++ mb) mod 2 ^ 64) mod 2 ^ 32).
  assert (En : n = b2z s * 2 ^ 31 + msb eb * 2 ^ 23 + msb mb).
  { assert (E : msb (s :: eb ++ mb) = b2z s * 2 ^ 31 + msb eb * 2 ^ 23 + msb mb) by (rewrite msb_cons, msb_app, blen_app, Le, Lm; lia).
    unfold n. rewrite E. pose proof (b2z_range s). rewrite !Z.mod_small; lia. }
  assert (Hs : Z.testbit n 31 = s).
  { assert (Q : n / 2 ^ 31 = b2z s) by (symmetry; apply Z.div_unique with (r := msb eb * 2 ^ 23 + msb mb); lia).
    apply eq_true_iff_eq. rewrite Z.testbit_true by lia. rewrite Q. destruct s; cbn; split; congruence. }
  assert (He : (n / 2 ^ 23) mod 2 ^ 8 = msb eb).
  { assert (Q : n / 2 ^ 23 = b2z s * 2 ^ 8 + msb eb) by (symmetry; apply Z.div_unique with (r := msb mb); lia).
    rewrite Q, Z.add_comm, Z_mod_plus_full, Z.mod_small; lia. }
  assert (Hm : n mod 2 ^ 23 = msb mb).
  { symmetry. apply Z.mod_unique with (q := b2z s * 2 ^ 8 + msb eb); lia. }
  unfold f64_of_float32_bits. cbv zeta. rewrite Hs, He, Hm.
  destruct (msb eb =? 255) eqn:E255; [reflexivity|]. destruct (msb eb =? 0) eqn:E0.
  - destruct (msb mb =? 0) eqn:M0.
    + assert (msb mb = 0) as -> by lia. split; [reflexivity|]. split; [reflexivity|]. unfold R64. cbn [SF2R]. destruct s; lra.
    + destruct (normal_exact (if s then - msb mb else msb mb) (-149) s) as (F & S & R); [destruct s; lia|destruct s; lia|lia|].
      split; [exact F|]. split; [destruct s; [replace (- msb mb <? 0) with true in S by lia|replace (msb mb <? 0) with false in S by lia]; exact S|].
      rewrite R. destruct s; [rewrite opp_IZR|]; lra.
  - destruct (normal_exact (if s then - (msb mb + 2 ^ 23) else msb mb + 2 ^ 23) (msb eb - 150) s) as (F & S & R); [destruct s; lia|destruct s; lia|lia|].
    split; [exact F|]. split; [destruct s; [replace (- (msb mb + 2 ^ 23) <? 0) with true in S by lia|replace (msb mb + 2 ^ 23 <? 0) with false in S by lia]; exact S|].
    rewrite R, (Z.add_comm (2 ^ 23)). destruct s; [rewrite opp_IZR|]; lra.
Qed.

(** ** Calls *)
Definition as_call (c : rcall) : call :=
  match c with KNumber n | KUint n => CUint n | KInt n => CInt n | KBool => CBool | KBytes n => CBytes n | KBinary n => CBinary n | KFloat32 => CUint 32 end.
Definition as_answer (c : rcall) (v : cvalue) : answer :=
  match v with
  | RUint u => match c with KNumber _ => ANumber (f64_of_Z u) | KFloat32 => ANumber (f64_of_float32_bits (u mod 2 ^ 32)) | _ => AUint u end
  | RInt i => AInt i | RBool b => ABool b | RBytes s => ABytes s | RBinary b => ABinary b
  end.
Lemma rcall_bits pl k c b : do_rcall pl k c (RBit b) =
  let '(b', x) := do_call (as_call c) b in (RBit b', match x with Ok v => Ok (as_answer c v) | Err e => Err e | Panic p => Panic p | NoFuel => NoFuel end).
Proof.
  destruct c; unfold do_rcall, do_call, as_call, r_ReadNumber, r_ReadUint, r_ReadInt, r_ReadBool, r_ReadBytes, r_ReadBinary, r_ReadFloat32, on_reader, bind, ret.
  - destruct (br_ReadUint n b) as [? []]; reflexivity.
  - destruct (br_ReadUint n b) as [? []]; reflexivity.
  - destruct (br_ReadInt n b) as [? []]; reflexivity.
  - destruct (br_ReadBool b) as [? []]; reflexivity.
  - destruct (br_ReadBytes n b) as [? []]; reflexivity.
  - destruct (br_ReadBinary n b) as [? []]; reflexivity.
  - destruct (br_ReadUint 32 b) as [? []]; reflexivity.
Qed.
Lemma reading_bits pl k c b : sensible c ->
  if asked c <=? blen (br_bits b)
  then exists taken rest a, br_bits b = taken ++ rest /\ blen taken = asked c /\ spelled c taken a /\
    do_rcall pl k c (RBit b) = (RBit (mkBR rest (br_err b) (br_pos b + asked c)), Ok a)
  else exists rest p, suffix rest (br_bits b) /\ br_pos b <= p <= br_pos b + asked c /\
    do_rcall pl k c (RBit b) = (RBit (mkBR rest (br_err b) p), match c with KBinary _ => Ok (ABinary None) | _ => Err (br_err b) end).
Proof.
  intros Hs. assert (Hv : valid_call (as_call c)) by (destruct c; cbn in *; lia). assert (Hw : width (as_call c) = asked c) by (destruct c; reflexivity).
  rewrite rcall_bits. destruct (do_call_cases (as_call c) b Hv) as [(sl & rest & H1 & H2 & H3)|(H1 & l' & H2 & H3)]; rewrite Hw in *.
  - assert (asked c <=? blen (br_bits b) = true) as -> by (rewrite H1, blen_app, H2; pose proof (blen_nonneg rest); lia).
    exists sl, rest, (as_answer c (spec_value (as_call c) sl)). split; [exact H1|]. split; [exact H2|]. split; [|now rewrite H3].
    destruct c; cbn; auto. eexists. split; [reflexivity|]. now apply single_ok.
  - assert (asked c <=? blen (br_bits b) = false) as -> by lia.
    exists l', (br_pos b + short_width (as_call c) (br_bits b)). split; [exact H3|]. split.
    + pose proof (blen_nonneg (br_bits b)). destruct c; cbn in *; try lia. destruct (br_bits b); cbn; lia.
    + rewrite H2. destruct c; reflexivity.
Qed.
Definition as_jcall (c : rcall) : jcall :=
  match c with KNumber n => JNumber n | KUint n => JUint n | KInt n => JInt n | KBool => JBool | KBytes n => JBytes n | KBinary n => JBinary n | KFloat32 => JBool end.
Definition json_answer (v : jvalue) : answer :=
  match v with JVNum x => ANumber x | JVUint u => AUint u | JVInt i => AInt i | JVBool b => ABool b | JVBytes s => ABytes s | JVBinary b => ABinary (Some b) end.
Lemma converted_ok pl c t : c <> KFloat32 -> match converted pl c t with
  | Some a => exists v, conv_outcome pl (as_jcall c) t = Ok v /\ a = json_answer v
  | None => exists e, conv_outcome pl (as_jcall c) t = Err e
  end.
Proof.
  intros Hc. destruct c; try congruence; destruct t; cbn; eauto. destruct (NewBinaryFromString_res s) as [[b ->]|[e ->]]; cbn; eauto.
Qed.
Lemma rcall_json pl k c j : c <> KFloat32 -> do_rcall pl k c (RJson j) =
  let '(j', x) := peekable_call pl (as_jcall c) j in (RJson j', match x with Ok v => Ok (json_answer v) | Err e => Err e | Panic p => Panic p | NoFuel => NoFuel end).
Proof.
  intros Hc. destruct c; try congruence; unfold do_rcall, peekable_call, do_jcall, as_jcall, r_ReadNumber, r_ReadUint, r_ReadInt, r_ReadBool, r_ReadBytes, r_ReadBinary, on_reader, bind, ret.
  - destruct (pjr_read _ _ _) as [? []]; reflexivity.
  - destruct (pjr_read _ _ _) as [? []]; reflexivity.
  - destruct (pjr_read _ _ _) as [? []]; reflexivity.
  - destruct (pjr_read _ _ _) as [? []]; reflexivity.
  - destruct (pjr_read _ _ _) as [? []]; reflexivity.
  - assert (N : forall s, snd (pjr_read tok_binary n s) <> Ok None).
    { intros s. assert (T : forall t, tok_binary t <> Ok None) by (intros [| | | |]; cbn; try discriminate; destruct (NewBinaryFromString _); discriminate).
      unfold pjr_read, jr_read, bind, jr_add_pos, modify, lift_res. destruct (pjr_shift s) as [s1 [[t|]| | |]]; try discriminate; [apply T|].
      destruct (jr_token s1) as [s2 [t| | |]]; try discriminate. apply T. }
    specialize (N j). destruct (pjr_read _ _ _) as [? [[b|]| | |]]; try reflexivity. now elim N.
Qed.
Lemma reading_json pl k c j : c <> KFloat32 -> Forall (fun t => t <> TNull) (j_cache j) ->
  match j_cache j ++ scalars (j_toks j) with
  | t :: rest => exists j', j_cache j' ++ scalars (j_toks j') = rest /\ j_err j' = j_err j /\ j_pos j' = j_pos j + asked c /\
      match converted pl c t with
      | Some a => do_rcall pl k c (RJson j) = (RJson j', Ok a)
      | None => exists e, do_rcall pl k c (RJson j) = (RJson j', Err e)
      end
  | [] => exists j' e, do_rcall pl k c (RJson j) = (RJson j', Err e) /\ j_pos j' = j_pos j
  end.
Proof.
  intros Hc Hn. rewrite (rcall_json pl k c j Hc). destruct j as [ts e p ca]. cbn [j_cache j_toks j_err j_pos] in *.
  assert (Hw : jwidth (as_jcall c) = asked c) by (destruct c; cbn; congruence).
  assert (K : match ca ++ scalars ts with
     | t :: rest => exists j', j_cache j' ++ scalars (j_toks j') = rest /\ j_err j' = e /\ j_pos j' = p + asked c /\ peekable_call pl (as_jcall c) (mkJR ts e p ca) = (j', conv_outcome pl (as_jcall c) t)
     | [] => exists j' e', peekable_call pl (as_jcall c) (mkJR ts e p ca) = (j', Err e') /\ j_pos j' = p end).
  { destruct ca as [|t ca].
    - assert (E : peekable_call pl (as_jcall c) (mkJR ts e p []) = flat_call pl (as_jcall c) (mkJR ts e p [])) by (destruct c; reflexivity).
      pose proof (flat_call_spec pl (as_jcall c) (mkJR ts e p [])) as F. cbn [j_toks j_err j_pos j_cache] in F. pose proof (next_token_spec ts) as N. cbn [app].
      destruct (next_token ts) as [[t r]|].
      + destruct N as [N _]. rewrite N, E, F, Hw. eexists. split; [|split; [|split]]; [..|reflexivity]; reflexivity.
      + rewrite N, E, F. eexists. eexists. split; reflexivity.
    - cbn [app]. inversion Hn as [|? ? Ht Hn']; subst. exists (mkJR ts e (p + asked c) ca). cbn [j_cache j_toks j_err j_pos]. do 3 (split; [reflexivity|]).
      assert (Hsh : pjr_shift (mkJR ts e p (t :: ca)) = (mkJR ts e p ca, Ok (Some t))) by (destruct t; try reflexivity; congruence).
      rewrite <- Hw. destruct c; try congruence; cbn [as_jcall]; unfold peekable_call, do_jcall, pjr_read, bind; rewrite Hsh;
        unfold jr_add_pos, modify, lift_res, ret, throw; cbn [j_toks j_err j_pos j_cache jwidth conv_outcome].
      + destruct (tok_float64 t); reflexivity.
      + destruct (tok_uint pl t); reflexivity.
      + destruct (tok_int pl t); reflexivity.
      + destruct (tok_bool t); reflexivity.
      + replace (8 * n) with (n * NBITS_PER_BYTE) by (unfold NBITS_PER_BYTE; lia). destruct (tok_bytes t); reflexivity.
      + destruct (tok_binary t) as [[x|]| | |]; reflexivity. }
  destruct (ca ++ scalars ts) as [|t rest].
  - destruct K as (j' & e' & -> & Hp). eauto.
  - destruct K as (j' & H1 & H2 & H3 & ->). exists j'. do 3 (split; [assumption|]). pose proof (converted_ok pl c t Hc) as V.
    destruct (converted pl c t) as [a|]; [destruct V as (v & -> & ->); reflexivity|destruct V as (er & ->); eauto].
Qed.
