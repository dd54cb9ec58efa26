(** Writing to an output that may fail. *)
From Coq Require Import ZifyBool ZifyNat.
From Verif Require Import ProofsBase ProofsBits ProofsBitProps.
From Verif Require Export SpecSink.
Local Open Scope Z_scope.

(** [m] takes the bits [d], or fails when a byte without room is complete. *)
Definition pushes (m : M sink unit) (d : list bool) : Prop := forall s, blen (sk_bits s) / 8 <= sk_room s ->
  if blen (sk_bits s ++ d) / 8 <=? sk_room s
  then m s = (mkSink (sk_bits s ++ d) (sk_room s) (sk_err s), Ok tt)
  else exists s' t, m s = (s', Err (sk_err s)) /\ sk_bits s ++ d = sk_bits s' ++ t /\ blen (sk_bits s') / 8 = sk_room s.

Lemma pushes_ret : pushes (ret tt) [].
Proof. intros [w r e] H. cbn [sk_bits sk_room sk_err] in *. rewrite app_nil_r. destruct (Z.leb_spec (blen w / 8) r); [reflexivity|lia]. Qed.
Lemma pushes_put d : blen d <= 8 -> pushes (sink_put d) d.
Proof.
  intros Hd [w r e] H. cbn [sk_bits sk_room sk_err] in *. unfold sink_put. cbn [sk_bits sk_room sk_err]. fold (blen (w ++ d)).
  destruct (Z.leb_spec (blen (w ++ d) / 8) r) as [L|L].
  - destruct (Z.ltb_spec r (blen (w ++ d) / 8)); [lia|reflexivity].
  - destruct (Z.ltb_spec r (blen (w ++ d) / 8)); [|lia]. exists (mkSink w r e), d. split; [reflexivity|]. split; [reflexivity|].
    cbn [sk_bits]. rewrite blen_app in L. pose proof (blen_nonneg d). lia.
Qed.
Lemma pushes_bind m1 m2 d1 d2 : pushes m1 d1 -> pushes m2 d2 -> pushes (bind m1 (fun _ => m2)) (d1 ++ d2).
Proof.
  intros P1 P2 s H. specialize (P1 s H). unfold bind. rewrite app_assoc.
  assert (B : blen (sk_bits s ++ d1) / 8 <= blen ((sk_bits s ++ d1) ++ d2) / 8) by (rewrite (blen_app _ d2); pose proof (blen_nonneg d2); lia).
  destruct (Z.leb_spec (blen (sk_bits s ++ d1) / 8) (sk_room s)) as [L|L].
  - rewrite P1. specialize (P2 (mkSink (sk_bits s ++ d1) (sk_room s) (sk_err s)) L). cbn [sk_bits sk_room sk_err] in P2. exact P2.
  - destruct (Z.leb_spec (blen ((sk_bits s ++ d1) ++ d2) / 8) (sk_room s)); [lia|].
    destruct P1 as (s' & t & -> & E & F). exists s', (t ++ d2). split; [reflexivity|]. split; [now rewrite E, app_assoc|exact F].
Qed.
Lemma pushes_bits d : pushes (mapM_ sink_bit d) d.
Proof.
  induction d as [|b d IH]; [apply pushes_ret|]. cbn [mapM_]. change (b :: d) with ([b] ++ d).
  apply pushes_bind; [|exact IH]. apply pushes_put. cbn. lia.
Qed.
Lemma pushes_groups d : pushes (sink_groups d) d.
Proof.
  induction d as [|d H|c r H IH] using bits8_ind.
  - apply pushes_ret.
  - replace (sink_groups d) with (mapM_ sink_bit d); [apply pushes_bits|]. do 8 (destruct d as [|? d]; [reflexivity|]). cbn in H. lia.
  - destruct (eight_bits c H) as (b7 & b6 & b5 & b4 & b3 & b2 & b1 & b0 & ->). cbn [app sink_groups].
    change (b7 :: b6 :: b5 :: b4 :: b3 :: b2 :: b1 :: b0 :: r) with ([b7; b6; b5; b4; b3; b2; b1; b0] ++ r).
    apply pushes_bind; [|exact IH]. apply pushes_put. cbn. lia.
Qed.
Lemma pushes_lib u n : pushes (sink_bits u n) (lib_write_bits u n []).
Proof.
  unfold sink_bits, lib_write_bits. destruct (n <=? 0); [apply pushes_ret|]. destruct (64 <? n); apply pushes_groups.
Qed.
Lemma lib_write_app u n w : lib_write_bits u n w = w ++ lib_write_bits u n [].
Proof. unfold lib_write_bits. destruct (n <=? 0); [now rewrite app_nil_r|]. now destruct (64 <? n). Qed.
Lemma bytes_loop_app n : forall v w, bw_WriteBytes_loop n v w = w ++ bw_WriteBytes_loop n v [].
Proof.
  induction n as [|n IH]; intros v w; cbn [bw_WriteBytes_loop]; [now rewrite app_nil_r|].
  rewrite IH, (IH _ ([] ++ _)). cbn [app]. now rewrite app_assoc.
Qed.
Lemma pushes_bytes n : forall v, pushes (sk_WriteBytes_loop n v) (bw_WriteBytes_loop n v []).
Proof.
  induction n as [|n IH]; intros v; [apply pushes_ret|]. cbn [sk_WriteBytes_loop bw_WriteBytes_loop].
  rewrite bytes_loop_app. apply pushes_bind; [|apply IH]. apply pushes_put. cbn. lia.
Qed.
Lemma binary_loop_app m l : forall w, bw_WriteBinary_loop l m w = w ++ bw_WriteBinary_loop l m [].
Proof.
  induction l as [|b l IH]; intros w; cbn [bw_WriteBinary_loop]; [now rewrite app_nil_r|].
  match goal with |- bw_WriteBinary_loop l m ?X = w ++ bw_WriteBinary_loop l m ?Y => rewrite (IH X), (IH Y) end. destruct (_ && _).
  - rewrite lib_write_app. now rewrite <- app_assoc.
  - cbn [app]. now rewrite app_assoc.
Qed.
Lemma pushes_binary m l : pushes (sk_WriteBinary_loop l m) (bw_WriteBinary_loop l m []).
Proof.
  induction l as [|b l IH]; [apply pushes_ret|]. cbn [sk_WriteBinary_loop bw_WriteBinary_loop].
  rewrite binary_loop_app. destruct (_ && _).
  - apply pushes_bind; [apply pushes_lib|exact IH].
  - apply pushes_bind; [|exact IH]. apply pushes_put. cbn. lia.
Qed.

Lemma pushes_item i : consistent i -> pushes (sk_write i) (fst (write_item i [])).
Proof.
  intros C. destruct i as [v n|v n|v|v n|v n]; cbn [sk_write write_item fst].
  - apply pushes_lib.
  - unfold sk_WriteInt, bw_WriteInt. destruct (v <? 0); apply pushes_lib.
  - apply pushes_put. cbn. lia.
  - apply pushes_bytes.
  - cbn in C. unfold sk_WriteBinary, bw_WriteBinary. rewrite C, Z.eqb_refl. cbn [negb fst]. apply pushes_binary.
Qed.
Lemma item_emits i : emits i (fst (write_item i [])).
Proof. destruct (write_item_emits i []) as (bs & E & H). rewrite E. exact H. Qed.
(** The bits of each write. *)
Definition bits_of (i : item) : list bool := fst (write_item i []).
Lemma pushes_items items : Forall consistent items -> pushes (mapM_ sk_write items) (concat (map bits_of items)).
Proof.
  induction 1 as [|i items C _ IH]; [apply pushes_ret|]. cbn [mapM_ map concat]. apply pushes_bind; [|exact IH]. now apply pushes_item.
Qed.
Lemma emitted items : Forall2 emits items (map bits_of items).
Proof. induction items; constructor; auto. apply item_emits. Qed.

Lemma room_or_error items room e : Forall consistent items -> 0 <= room ->
  exists bss, Forall2 emits items bss /\
  let n := blen (concat bss) / 8 in
  exists s, mapM_ sk_write items (new_sink room e) = (s, if n <=? room then Ok tt else Err e) /\
    bytes_bits (received s) = firstn (Z.to_nat (8 * Z.min n room)) (concat bss).
Proof.
  intros C Hr. exists (map bits_of items). split; [apply emitted|]. cbv zeta.
  pose proof (pushes_items items C (new_sink room e)) as P. cbn [new_sink sk_bits sk_room sk_err app] in P.
  specialize (P ltac:(cbn; lia)). set (w := concat (map bits_of items)) in *.
  destruct (Z.leb_spec (blen w / 8) room) as [L|L].
  - eexists. split; [exact P|]. unfold received. cbn [sk_bits]. rewrite bw_output_bits. f_equal. unfold blen in *. lia.
  - destruct P as (s' & t & P & E & F). exists s'. split; [exact P|]. unfold received. rewrite bw_output_bits, E.
    replace (Z.to_nat (8 * Z.min (blen (sk_bits s' ++ t) / 8) room)) with (8 * (length (sk_bits s') / 8))%nat.
    + rewrite firstn_app. replace (8 * (length (sk_bits s') / 8) - length (sk_bits s'))%nat with 0%nat by lia. now rewrite app_nil_r.
    + rewrite <- E. unfold blen in *. lia.
Qed.

(** The write that fails. *)
Lemma first_error before i room e : Forall consistent before -> consistent i -> 0 <= room ->
  exists bss bs, Forall2 emits before bss /\ emits i bs /\
  (blen (concat bss) / 8 <= room ->
   exists s, mapM_ sk_write before (new_sink room e) = (s, Ok tt) /\
   exists s', sk_write i s = (s', if blen (concat bss ++ bs) / 8 <=? room then Ok tt else Err e)).
Proof.
  intros C Ci Hr. exists (map bits_of before), (bits_of i). split; [apply emitted|]. split; [apply item_emits|]. intros L.
  pose proof (pushes_items before C (new_sink room e)) as P. cbn [new_sink sk_bits sk_room sk_err app] in P.
  specialize (P ltac:(cbn; lia)). destruct (Z.leb_spec (blen (concat (map bits_of before)) / 8) room); [|lia].
  eexists. split; [exact P|]. pose proof (pushes_item i Ci (mkSink (concat (map bits_of before)) room e)) as Q. cbn [sk_bits sk_room sk_err] in Q.
  specialize (Q L). fold (bits_of i) in Q. destruct (_ <=? room); [eauto|]. destruct Q as (s' & _ & Q & _). eauto.
Qed.
Lemma wrong_size v n s : n <> b_nbits v -> exists x, sk_write (IBinary v n) s = (s, Err x).
Proof. intros H. cbn. unfold sk_WriteBinary. destruct (Z.eqb_spec n (b_nbits v)); [contradiction|]. cbn. eexists. reflexivity. Qed.
