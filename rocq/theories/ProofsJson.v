(** Proofs on the JSON readers (C11-C14). *)
From Coq Require Import ZifyBool ZifyNat.
From Verif Require Export SpecJson.

Lemma next_token_spec ts :
  match next_token ts with
  | Some (t, r) => scalars ts = t :: scalars r /\ is_scalar t = true
  | None => scalars ts = []
  end.
Proof.
  induction ts as [|t ts IH]; [reflexivity|].
  destruct t; cbn [next_token scalars filter is_scalar]; auto.
Qed.

(** The outcome of a call that obtains token [t]. *)
Definition outcome pl (c : jcall) (t : token) (o : res jvalue) : Prop :=
  match jspec pl c t with Some v => o = Ok v | None => exists e, o = Err e end.

Definition conv_outcome pl (c : jcall) (t : token) : res jvalue :=
  match c with
  | JNumber _ => match tok_float64 t with Ok v => Ok (JVNum v) | r => castres r NoFuel end
  | JUint _ => match tok_uint pl t with Ok v => Ok (JVUint v) | r => castres r NoFuel end
  | JInt _ => match tok_int pl t with Ok v => Ok (JVInt v) | r => castres r NoFuel end
  | JBool => match tok_bool t with Ok v => Ok (JVBool v) | r => castres r NoFuel end
  | JBytes _ => match tok_bytes t with Ok v => Ok (JVBytes v) | r => castres r NoFuel end
  | JBinary _ => match tok_binary t with
                 | Ok (Some v) => Ok (JVBinary v) | Ok None => Panic PNil | r => castres r NoFuel end
  end.

Lemma parse_base2_res s : forall acc, (exists u, parse_base2 acc s = Ok u) \/ (exists e, parse_base2 acc s = Err e).
Proof.
  induction s as [|c s IH]; intros acc; cbn [parse_base2]; [eauto|].
  destruct (c =? 48); [apply IH|]. destruct (c =? 49); [apply IH|eauto].
Qed.
Lemma binary_blocks_res fuel : forall s, (length s < fuel)%nat ->
  (exists u, binary_blocks fuel s = Ok u) \/ (exists e, binary_blocks fuel s = Err e).
Proof.
  induction fuel as [|fuel IH]; intros s Hf; [lia|]. cbn [binary_blocks].
  destruct (Nat.ltb_spec (length s) 8).
  - destruct s as [|c s]; [eauto|].
    destruct (parse_base2_res (c :: s) 0) as [[u ->]|[e ->]]; [eauto|right; eexists; reflexivity].
  - destruct (parse_base2_res (firstn 8 s) 0) as [[u ->]|[e ->]]; [|right; eexists; reflexivity].
    destruct (IH (skipn 8 s)) as [[v ->]|[e ->]]; [rewrite skipn_length; lia|eauto|eauto].
Qed.
Lemma NewBinaryFromString_res s :
  (exists b, NewBinaryFromString s = Ok b) \/ (exists e, NewBinaryFromString s = Err e).
Proof.
  unfold NewBinaryFromString.
  destruct (binary_blocks_res (S (length s)) s (Nat.lt_succ_diag_r _)) as [[u ->]|[e ->]]; [|eauto].
  unfold NewBinary. destruct (negb _); eauto.
Qed.

Lemma conv_outcome_ok pl c t : outcome pl c t (conv_outcome pl c t).
Proof.
  unfold outcome. destruct c, t; cbn; try reflexivity; try (eexists; reflexivity).
  destruct (NewBinaryFromString_res s) as [[b ->]|[e ->]]; [reflexivity|eexists; reflexivity].
Qed.

Lemma flat_call_spec pl c r :
  match next_token (j_toks r) with
  | Some (t, ts) => flat_call pl c r
      = (mkJR ts (j_err r) (j_pos r + jwidth c) (j_cache r), conv_outcome pl c t)
  | None => flat_call pl c r
      = (mkJR [] (j_err r) (j_pos r) (j_cache r), Err (EWrap "cannot get token" (j_err r)))
  end.
Proof.
  destruct r as [ts e p ca]. cbn [j_toks j_err j_pos j_cache].
  destruct (next_token ts) as [[t r]|] eqn:E; destruct c;
    unfold flat_call, do_jcall, jr_read, bind, jr_token, jr_add_pos, modify, lift_res, ret, throw;
    cbn [j_toks j_err j_pos j_cache]; rewrite E; cbn [j_toks j_err j_pos j_cache jwidth conv_outcome]; try reflexivity.
  - destruct (tok_float64 t); reflexivity.
  - destruct (tok_uint pl t); reflexivity.
  - destruct (tok_int pl t); reflexivity.
  - destruct (tok_bool t); reflexivity.
  - replace (8 * n) with (n * NBITS_PER_BYTE) by (unfold NBITS_PER_BYTE; lia).
    destruct (tok_bytes t); reflexivity.
  - destruct (tok_binary t) as [[b|]| | |]; reflexivity.
Qed.

Lemma flat_calls pl cs : forall r r' outs,
  run_calls (flat_call pl) cs r = (r', outs) ->
  length outs = length cs /\
  (forall k c, nth_error cs k = Some c ->
   exists o, nth_error outs k = Some o /\
   match nth_error (scalars (j_toks r)) k with
   | Some t => outcome pl c t o
   | None => o = Err (EWrap "cannot get token" (j_err r))
   end) /\
  scalars (j_toks r') = skipn (length cs) (scalars (j_toks r)).
Proof.
  induction cs as [|c cs IH]; intros r r' outs H; cbn [run_calls] in H.
  - injection H as <- <-. split; [reflexivity|]. split; [intros [|k]; discriminate|reflexivity].
  - pose proof (flat_call_spec pl c r) as Hc. pose proof (next_token_spec (j_toks r)) as Hn.
    destruct (next_token (j_toks r)) as [[t ts]|].
    + destruct Hn as [Hn _]. rewrite Hc in H.
      destruct (run_calls _ cs _) as [r2 os] eqn:Hr. injection H as <- <-.
      destruct (IH _ _ _ Hr) as (Hl & Hk & Ht). cbn [j_toks j_err] in *.
      split; [cbn; now rewrite Hl|]. rewrite Hn. split.
      * intros [|k] c' Hc'; cbn [nth_error] in *.
        -- injection Hc' as <-. eexists. split; [reflexivity|]. apply conv_outcome_ok.
        -- now apply Hk.
      * cbn [length skipn]. exact Ht.
    + rewrite Hc in H. destruct (run_calls _ cs _) as [r2 os] eqn:Hr. injection H as <- <-.
      destruct (IH _ _ _ Hr) as (Hl & Hk & Ht). cbn [j_toks j_err] in *.
      split; [cbn; now rewrite Hl|]. rewrite Hn. split.
      * intros [|k] c' Hc'; cbn [nth_error] in *.
        -- eexists. split; reflexivity.
        -- destruct (Hk k c' Hc') as (o & Ho & Hm). exists o. split; [exact Ho|].
           cbn [scalars filter] in Hm. destruct k; exact Hm.
      * cbn [scalars filter] in Ht. rewrite Ht. now rewrite !skipn_nil.
Qed.

(** ** The peekable reader *)

Definition pending (r : jsonreader) : list token := j_cache r ++ scalars (j_toks r).
Definition no_null (r : jsonreader) : Prop := Forall (fun t => t <> TNull) (pending r).

(** A read takes the first pending token, from the cache or from the document. *)
Lemma peekable_call_spec pl c r : no_null r ->
  exists r' , peekable_call pl c r =
    (r', match pending r with
         | t :: _ => conv_outcome pl c t
         | [] => Err (EWrap "cannot get token" (j_err r))
         end) /\
  pending r' = tl (pending r) /\ j_err r' = j_err r.
Proof.
  intros Hn. destruct r as [ts e p ca]. unfold no_null, pending in *. cbn [j_toks j_err j_cache] in *.
  destruct ca as [|t ca].
  - assert (E : peekable_call pl c (mkJR ts e p []) = flat_call pl c (mkJR ts e p [])).
    { destruct c; reflexivity. }
    rewrite E. pose proof (flat_call_spec pl c (mkJR ts e p [])) as Hc. cbn [j_toks j_err j_pos j_cache] in Hc.
    pose proof (next_token_spec ts) as Ht. destruct (next_token ts) as [[t r]|].
    + destruct Ht as [Ht _]. rewrite Hc. cbn [app]. rewrite Ht.
      eexists. split; [reflexivity|]. split; reflexivity.
    + rewrite Hc. cbn [app]. rewrite Ht. eexists. split; [reflexivity|]. split; reflexivity.
  - cbn [app] in *. inversion Hn as [|? ? Hnn _]; subst.
    exists (mkJR ts e (p + jwidth c) ca). split; [|split; reflexivity].
    assert (Hsh : pjr_shift (mkJR ts e p (t :: ca)) = (mkJR ts e p ca, Ok (Some t)))
      by (destruct t; try reflexivity; congruence).
    destruct c;
      unfold peekable_call, do_jcall, pjr_read, bind; rewrite Hsh;
      unfold jr_add_pos, modify, lift_res, ret, throw;
      cbn [j_toks j_err j_pos j_cache jwidth conv_outcome].
    + destruct (tok_float64 t); reflexivity.
    + destruct (tok_uint pl t); reflexivity.
    + destruct (tok_int pl t); reflexivity.
    + destruct (tok_bool t); reflexivity.
    + replace (8 * n) with (n * NBITS_PER_BYTE) by (unfold NBITS_PER_BYTE; lia).
      destruct (tok_bytes t); reflexivity.
    + destruct (tok_binary t) as [[x|]| | |]; reflexivity.
Qed.

Lemma pjr_fetch_spec n : forall r,
  exists r' o, pjr_fetch n r = (r', o) /\ pending r' = pending r /\ j_err r' = j_err r /\
    j_cache r' = j_cache r ++ firstn n (scalars (j_toks r)) /\
    (if (n <=? length (scalars (j_toks r)))%nat then o = Ok tt
     else o = Err (EWrap "cannot peek token" (EWrap "cannot get token" (j_err r)))).
Proof.
  induction n as [|n IH]; intros r; cbn [pjr_fetch].
  - exists r, (Ok tt). cbn. rewrite app_nil_r. repeat split.
  - destruct r as [ts e p ca]. unfold bind, wrap, jr_token. cbn [j_toks j_err j_pos j_cache].
    pose proof (next_token_spec ts) as Ht. destruct (next_token ts) as [[t r]|].
    + destruct Ht as [Ht _]. unfold modify. cbn [j_toks j_err j_pos j_cache].
      destruct (IH (mkJR r e p (ca ++ [t]))) as (r' & o & -> & Hp & He & Hc & Ho).
      exists r', o. unfold pending in *. cbn [j_toks j_err j_pos j_cache] in *.
      rewrite Ht. cbn [length firstn Nat.leb]. split; [reflexivity|].
      split; [rewrite Hp, <- app_assoc; reflexivity|]. split; [exact He|].
      split; [rewrite Hc, <- app_assoc; reflexivity|]. exact Ho.
    + exists (mkJR [] e p ca), (Err (EWrap "cannot peek token" (EWrap "cannot get token" e))).
      unfold pending. cbn [j_toks j_err j_pos j_cache]. rewrite Ht. cbn [length firstn Nat.leb scalars filter].
      rewrite !app_nil_r. repeat split.
Qed.

(** What peek returns: the pending token at distance max(skip, cached - 1). *)
Lemma pjr_peek_spec skip r : 0 <= skip ->
  let k := Nat.max (Z.to_nat skip) (length (j_cache r) - 1) in
  exists r' o, pjr_peek skip r = (r', o) /\ pending r' = pending r /\ j_err r' = j_err r /\
    match nth_error (pending r) k with
    | Some t => o = Ok t
    | None => o = Err (EWrap "cannot peek token" (EWrap "cannot get token" (j_err r)))
    end.
Proof.
  intros Hs. cbv zeta. unfold pjr_peek, bind, gets.
  destruct (pjr_fetch_spec (Z.to_nat (skip - Z.of_nat (length (j_cache r)) + 1)) r)
    as (r' & o & -> & Hp & He & Hc & Ho).
  set (n := Z.to_nat (skip - Z.of_nat (length (j_cache r)) + 1)) in *.
  set (k := Nat.max (Z.to_nat skip) (length (j_cache r) - 1)).
  assert (Hk : (k + 1 = length (j_cache r) + n)%nat) by (unfold k, n; lia).
  destruct (Nat.leb_spec n (length (scalars (j_toks r)))) as [Hle|Hgt]; subst o.
  - exists r', (go_nth (j_cache r') (Z.of_nat (length (j_cache r')) - 1)).
    split; [reflexivity|]. split; [exact Hp|]. split; [exact He|].
    unfold pending at 1. rewrite Hc, app_length, firstn_length, Nat.min_l by exact Hle.
    unfold go_nth. destruct (Z.ltb_spec (Z.of_nat (length (j_cache r) + n) - 1) 0); [lia|].
    replace (Z.to_nat (Z.of_nat (length (j_cache r) + n) - 1)) with k by lia.
    assert (E : nth_error (j_cache r ++ scalars (j_toks r)) k
                = nth_error (j_cache r ++ firstn n (scalars (j_toks r))) k).
    { destruct (Nat.lt_ge_cases k (length (j_cache r))) as [Hlt|Hge].
      - now rewrite !nth_error_app1.
      - rewrite !nth_error_app2 by exact Hge.
        rewrite <- (firstn_skipn n (scalars (j_toks r))) at 1.
        apply nth_error_app1. rewrite firstn_length. lia. }
    rewrite E. destruct (nth_error (j_cache r ++ firstn n (scalars (j_toks r))) k) eqn:E2; [reflexivity|].
    apply nth_error_None in E2. rewrite app_length, firstn_length in E2. lia.
  - eexists _, _. split; [reflexivity|]. split; [exact Hp|]. split; [exact He|].
    destruct (nth_error (pending r) k) eqn:E; [|reflexivity].
    assert (Hlt : (k < length (pending r))%nat) by (apply nth_error_Some; congruence).
    unfold pending in Hlt. rewrite app_length in Hlt. lia.
Qed.
Lemma pjr_peek_pending skip r :
  pending (fst (pjr_peek skip r)) = pending r /\ j_err (fst (pjr_peek skip r)) = j_err r.
Proof.
  unfold pjr_peek, bind, gets.
  destruct (pjr_fetch_spec (Z.to_nat (skip - Z.of_nat (length (j_cache r)) + 1)) r)
    as (r' & o & -> & Hp & He & _ & Ho).
  destruct o; cbn [fst lift_res]; auto.
Qed.
Lemma peekuint_pending pl s n r :
  pending (fst (pjr_PeekUint pl s n r)) = pending r /\ j_err (fst (pjr_PeekUint pl s n r)) = j_err r.
Proof.
  pose proof (pjr_peek_pending s r). unfold pjr_PeekUint, bind.
  destruct (pjr_peek s r) as [r' [t| | |]]; cbn [fst lift_res] in *; assumption.
Qed.
Lemma peekbytes_pending s n r :
  pending (fst (pjr_PeekBytes s n r)) = pending r /\ j_err (fst (pjr_PeekBytes s n r)) = j_err r.
Proof.
  pose proof (pjr_peek_pending s r). unfold pjr_PeekBytes, bind.
  destruct (pjr_peek s r) as [r' [t| | |]]; cbn [fst lift_res] in *; assumption.
Qed.

Lemma Forall_tl {A} (P : A -> Prop) l : Forall P l -> Forall P (tl l).
Proof. destruct 1; cbn; auto. Qed.

(** The reads see exactly the pending tokens, whatever is peeked in between. *)
Lemma run_ops_spec pl ops : forall r1 r2, pending r1 = pending r2 -> j_err r1 = j_err r2 -> no_null r1 ->
  run_ops pl ops r1 = snd (run_calls (peekable_call pl) (reads_of ops) r2).
Proof.
  induction ops as [|o ops IH]; intros r1 r2 Hp He Hn; [reflexivity|].
  destruct o as [c|s n|s n]; cbn [run_ops reads_of run_calls].
  - destruct (peekable_call_spec pl c r1 Hn) as (r1' & -> & Hp1 & He1).
    assert (Hn2 : no_null r2) by (unfold no_null in *; now rewrite <- Hp).
    destruct (peekable_call_spec pl c r2 Hn2) as (r2' & -> & Hp2 & He2).
    rewrite <- Hp, <- He in *.
    assert (Hn1 : no_null r1') by (unfold no_null in *; rewrite Hp1; now apply Forall_tl).
    specialize (IH r1' r2' ltac:(congruence) ltac:(congruence) Hn1).
    destruct (run_calls (peekable_call pl) (reads_of ops) r2') as [s os]. cbn [snd] in *.
    now rewrite IH.
  - destruct (peekuint_pending pl s n r1) as [H1 H2]. apply IH; try congruence.
    unfold no_null. rewrite H1. exact Hn.
  - destruct (peekbytes_pending s n r1) as [H1 H2]. apply IH; try congruence.
    unfold no_null. rewrite H1. exact Hn.
Qed.

(** ** C14 *)
Lemma ReadFloat32_hangs fuel : forall r, j_cache r = [] -> snd (pjr_ReadFloat32 fuel r) = NoFuel.
Proof.
  induction fuel as [|fuel IH]; intros r H; cbn [pjr_ReadFloat32]; [reflexivity|].
  unfold bind, pjr_shift. rewrite H. now apply IH.
Qed.
