(** Property theorems C11-C14: JSON readers.  Vocabulary: SpecJson.v. *)
From Verif Require Import SpecJson ProofsJson.

Definition one : f64 := f64_of_Z 1.
Definition pl0 : platform := mkPlatform (fun _ => 0) (fun _ => 0).

(** C11.  The k-th call gets the k-th scalar of the document, whatever the earlier calls
    made of theirs; behind the last scalar every call reports the decoder's error. *)
Theorem C11_calls_take_scalars_in_order : forall pl cs r r' outs,
  run_calls (flat_call pl) cs r = (r', outs) ->
  length outs = length cs /\
  (forall k c, nth_error cs k = Some c ->
   exists o, nth_error outs k = Some o /\
   match nth_error (scalars (j_toks r)) k with
   | Some t => match jspec pl c t with Some v => o = Ok v | None => exists e, o = Err e end
   | None => o = Err (EWrap "cannot get token" (j_err r))
   end) /\
  scalars (j_toks r') = skipn (length cs) (scalars (j_toks r)).
Proof. exact flat_calls. Qed.
Print Assumptions C11_calls_take_scalars_in_order.
Example C11_example :
  snd (run_calls (flat_call pl0) [JUint 8; JBool; JBytes 3; JInt 4]
    (new_jsonreader [TDelim 91; TNum one; TDelim 91; TNum one; TStr [65]; TDelim 93; TDelim 93] EEof))
  = [Ok (JVUint 1); Err (EMsg "value is not bool type"); Ok (JVBytes [65]);
     Err (EWrap "cannot get token" EEof)].
Proof. reflexivity. Qed.

(** C12 is false when the document holds nulls: a cached null is dropped by the next read. *)
Theorem C12_peek_transparent_refuted :
  exists pl ops r, j_cache r = [] /\
    run_ops pl ops r <> snd (run_calls (peekable_call pl) (reads_of ops) r).
Proof.
  exists pl0, [OPeekUint 0 8; ORead (JUint 8)], (new_jsonreader [TNull; TNum one] EEof).
  split; [reflexivity|]. vm_compute. discriminate.
Qed.
Print Assumptions C12_peek_transparent_refuted.
(** Without nulls (missing: documents with nulls) peeks are invisible to reads. *)
Theorem C12_peek_transparent_partial : forall pl ops r,
  Forall (fun t => t <> TNull) (j_cache r) -> Forall (fun t => t <> TNull) (j_toks r) ->
  run_ops pl ops r = snd (run_calls (peekable_call pl) (reads_of ops) r).
Proof.
  intros pl ops r Hc Ht. apply run_ops_spec; [reflexivity|reflexivity|].
  apply Forall_app. split; [exact Hc|].
  apply Forall_forall. intros x Hx. apply filter_In in Hx.
  rewrite Forall_forall in Ht. now apply Ht.
Qed.
Print Assumptions C12_peek_transparent_partial.
Example C12_example :
  run_ops pl0 [OPeekUint 2 8; ORead (JUint 8); OPeekBytes 0 1; ORead JBool; ORead (JBytes 1)]
    (new_jsonreader [TDelim 91; TNum one; TBool true; TStr [65]; TDelim 93] EEof)
  = [Ok (JVUint 1); Ok (JVBool true); Ok (JVBytes [65])].
Proof. reflexivity. Qed.

(** C13 is false: after a far peek, a near peek returns the far token. *)
Theorem C13_peek_distance_refuted :
  exists pl r skip t v, 0 <= skip /\
    nth_error (j_cache r ++ scalars (j_toks r)) (Z.to_nat skip) = Some t /\
    jspec pl (JUint 8) t = Some (JVUint v) /\ snd (pjr_PeekUint pl skip 8 r) <> Ok v.
Proof.
  exists pl0, (fst (pjr_PeekUint pl0 1 8 (new_jsonreader [TNum one; TNum (f64_of_Z 2)] EEof))), 0, (TNum one), 1.
  split; [lia|]. repeat split. vm_compute. discriminate.
Qed.
Print Assumptions C13_peek_distance_refuted.
(** What peek does return: the pending token at distance max(skip, cached tokens - 1); so
    the requested one whenever at most skip+1 tokens are cached (missing: larger caches). *)
Theorem C13_peek_distance_partial : forall pl r skip n, 0 <= skip ->
  let k := Nat.max (Z.to_nat skip) (length (j_cache r) - 1) in
  match nth_error (j_cache r ++ scalars (j_toks r)) k with
  | Some t =>
      match jspec pl (JUint n) t with
      | Some (JVUint v) => snd (pjr_PeekUint pl skip n r) = Ok v
      | _ => exists e, snd (pjr_PeekUint pl skip n r) = Err e
      end /\
      match jspec pl (JBytes n) t with
      | Some (JVBytes v) => snd (pjr_PeekBytes skip n r) = Ok v
      | _ => exists e, snd (pjr_PeekBytes skip n r) = Err e
      end
  | None => (exists e, snd (pjr_PeekUint pl skip n r) = Err e) /\
            (exists e, snd (pjr_PeekBytes skip n r) = Err e)
  end.
Proof.
  intros pl r skip n Hs k.
  destruct (pjr_peek_spec skip r Hs) as (r' & o & Hpk & _ & _ & Ho).
  unfold pjr_PeekUint, pjr_PeekBytes, bind. rewrite Hpk.
  fold (pending r). fold k in Ho. destruct (nth_error (pending r) k) as [t|]; subst o; cbn [snd lift_res].
  - destruct t; cbn; split; try reflexivity; eexists; reflexivity.
  - split; eexists; reflexivity.
Qed.
Print Assumptions C13_peek_distance_partial.
Example C13_example :
  snd (pjr_PeekUint pl0 2 8 (mkJR [TDelim 91; TNum (f64_of_Z 2); TNum (f64_of_Z 3)] EEof 0 [TNum one])) = Ok 3.
Proof. reflexivity. Qed.

(** C14 is false: with an empty cache (so in every fresh reader) the call never returns. *)
Theorem C14_read_float32_refuted : forall r, j_cache r = [] ->
  forall fuel, snd (pjr_ReadFloat32 fuel r) = NoFuel.
Proof. exact (fun r H fuel => ReadFloat32_hangs fuel r H). Qed.
Print Assumptions C14_read_float32_refuted.
(** With a peeked number in front it returns (missing: every other state). *)
Theorem C14_read_float32_partial : forall fuel ts e p x c,
  pjr_ReadFloat32 (S fuel) (mkJR ts e p (TNum x :: c)) = (mkJR ts e (p + 32) c, Ok x).
Proof. reflexivity. Qed.
Print Assumptions C14_read_float32_partial.
