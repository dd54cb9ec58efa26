(** Reading JSON forms: decoding cell by cell, and runs that follow other runs (C58). *)
From Verif Require Import ProofsRun ProofsRun6 ProofsRun4 ProofsParser3 ProofsJson SpecJson ProofsBase.
From Verif Require Export SpecMarshal.
From Coq Require Import Lia ZifyBool ZifyNat.

(** ** Readers at a list of scalars *)
Definition pend (r : reader) (l : list token) : Prop :=
  exists j, r = RJson j /\ j_cache j = [] /\ scalars (j_toks j) = l.
Definition json_conv (pl : platform) (info : pinfo) (t : token) : res value :=
  match pi_unit info with
  | STRING => match tok_bytes t with Ok b => Ok (VBytes b) | e => castres e NoFuel end
  | CODE => match tok_int pl t with Ok b => Ok (VInt b) | e => castres e NoFuel end
  | NONNEG_CODE | FLAG => match tok_uint pl t with Ok b => Ok (VUint b) | e => castres e NoFuel end
  | NUMERIC => match tok_float64 t with Ok b => Ok (VFloat b) | e => castres e NoFuel end
  | BINARY => match tok_binary t with Ok b => Ok (VBin b) | e => castres e NoFuel end
  end.
Lemma pjr_read_pend {A} (conv : token -> res A) d j : j_cache j = [] ->
  exists j', j_cache j' = [] /\
    pjr_read conv d j = (j', match scalars (j_toks j) with t :: _ => conv t | [] => Err (EWrap "cannot get token" (j_err j)) end) /\
    scalars (j_toks j') = tl (scalars (j_toks j)).
Proof.
  intros Hc. unfold pjr_read, bind, pjr_shift. rewrite Hc. unfold jr_read, bind, jr_token.
  pose proof (next_token_spec (j_toks j)) as Ht. destruct (next_token (j_toks j)) as [[t r]|].
  - destruct Ht as [Ht _]. rewrite Ht. unfold jr_add_pos, modify, lift_res, bind. cbn [j_toks j_err j_pos j_cache].
    eexists. split; [|split; [reflexivity|reflexivity]]. exact Hc.
  - rewrite Ht. eexists. split; [|split; [reflexivity|]]; [exact Hc|reflexivity].
Qed.
Definition as_uval (x : res value) : res uval := match x with Ok v => Ok (UV v) | e => castres e NoFuel end.
Ltac unfold_read := unfold json_Unpack, r_ReadBytes, r_ReadInt, r_ReadUint, r_ReadNumber, r_ReadBinary, on_reader, bind.
Lemma json_unpack_pend pl info r l : pend r l -> exists r', pend r' (tl l) /\
  match l with
  | t :: _ => json_Unpack pl info r = (r', as_uval (json_conv pl info t))
  | [] => exists e, json_Unpack pl info r = (r', Err e)
  end.
Proof.
  intros (j & -> & Hc & Hl). subst l.
  assert (G : forall A (conv : token -> res A) d (f : A -> value), exists r', pend r' (tl (scalars (j_toks j))) /\
    match scalars (j_toks j) with
    | t :: _ => bind (on_reader (throw PNil) (pjr_read conv d)) (fun a => ret (UV (f a))) (RJson j) =
       (r', as_uval (match conv t with Ok b => Ok (f b) | e => castres e NoFuel end))
    | [] => exists e, bind (on_reader (throw PNil) (pjr_read conv d)) (fun a => ret (UV (f a))) (RJson j) = (r', Err e)
    end).
  { intros A conv d f. destruct (pjr_read_pend conv d j Hc) as (j' & Hc' & E & Hl'). exists (RJson j').
    split; [exists j'; repeat split; auto|]. unfold bind, on_reader. rewrite E. destruct (scalars (j_toks j)) as [|t ts].
    - eexists. reflexivity.
    - destruct (conv t); reflexivity. }
  unfold json_conv. destruct (pi_unit info) eqn:Hu; unfold json_Unpack; rewrite Hu.
  - exact (G _ tok_float64 (pi_nbits info) VFloat).
  - exact (G _ tok_bytes (go_quot (pi_nbits info) NBITS_PER_BYTE * NBITS_PER_BYTE) VBytes).
  - exact (G _ (tok_uint pl) (pi_nbits info) VUint).
  - exact (G _ (tok_int pl) (pi_nbits info) VInt).
  - exact (G _ (tok_uint pl) (pi_nbits info) VUint).
  - exact (G _ tok_binary (pi_nbits info) VBin).
Qed.

(** ** Values of the right type *)
Definition typed (info : pinfo) (v : value) : Prop :=
  match pi_unit info, v with
  | NUMERIC, (VNil | VFloat _) | STRING, VBytes _ | (NONNEG_CODE | FLAG), (VNil | VUint _)
  | CODE, (VNil | VInt _) | BINARY, (VNil | VBin _) => True
  | _, _ => False
  end.
Lemma replicateM_all {S A} (P : A -> Prop) (m : M S A) n : (forall s s' a, m s = (s', Ok a) -> P a) ->
  forall s s' l, replicateM n m s = (s', Ok l) -> Forall P l.
Proof.
  intros Hm. induction n as [|n IH]; intros s s' l H; cbn [replicateM] in H.
  - apply ok_inv in H. destruct H as [_ <-]. constructor.
  - binv H. binv H. apply ok_inv in H. destruct H as [_ <-]. constructor; eauto.
Qed.
Lemma missing_typed info x : pi_unit info = NONNEG_CODE \/ pi_unit info = FLAG -> typed info (unpackMissing info x).
Proof. intros H. unfold typed, unpackMissing. destruct (IsMissing _ _); destruct H as [-> | ->]; exact I. Qed.
Lemma numeric_typed info x : pi_unit info = NUMERIC -> typed info (unpackNumeric info x).
Proof. intros H. unfold typed, unpackNumeric, unpackMissing. rewrite H. destruct (IsMissing _ _); exact I. Qed.
Lemma nil_typed info : pi_unit info <> STRING -> typed info VNil.
Proof. unfold typed. destruct (pi_unit info); intros; try exact I; congruence. Qed.
Lemma Forall_repeat {A} (P : A -> Prop) a n : P a -> Forall P (repeat a n).
Proof. intros H. induction n; constructor; auto. Qed.
Lemma others_typed pl n info f r r' c : pi_unit info <> STRING -> (forall x v, f x = Ok v -> typed info v) ->
  c_unpackOthers pl n info f r = (r', Ok c) -> Forall (typed info) (cv_vals c).
Proof.
  intros Hs Hf. unfold c_unpackOthers. intros H. binv H. binv H. binv H. destruct (a0 =? 0).
  - binv H. apply ok_inv in H. destruct H as [_ <-]. apply Forall_repeat.
    unfold lift_res in E2. injection E2 as _ E2. eapply Hf. exact E2.
  - destruct (IsMissing _ _); [discriminate H|]. binv H. apply ok_inv in H. destruct H as [_ <-]. cbn [cv_vals].
    eapply replicateM_all; [|exact E2]. intros s3 s4 v Hv. cbv beta in Hv. binv Hv. destruct (IsMissing _ _).
    + apply ok_inv in Hv. destruct Hv as [_ <-]. now apply nil_typed.
    + unfold lift_res in Hv. injection Hv as _ Hv. eapply Hf; eassumption.
Qed.
Lemma decodes_typed cf d info r x r' : cf_json cf = false -> decodes cf d info r x r' -> Forall (typed info) (dt_vals x).
Proof.
  intros Hj H. destruct H as [v r' _ Hc H|v r' Hj' H|c r' _ Hc H]; [|congruence|].
  - constructor; [|constructor]. unfold uncompressed_Unpack in H. unfold typed. destruct (pi_unit info) eqn:Hu.
    + binv H. apply ok_inv in H. destruct H as [_ H]. injection H as <-. pose proof (numeric_typed info a Hu) as K. unfold typed in K. now rewrite Hu in K.
    + binv H. apply ok_inv in H. destruct H as [_ H]. injection H as <-. exact I.
    + destruct (pi_nbits info =? 0).
      * apply ok_inv in H. destruct H as [_ H]. injection H as <-. exact I.
      * binv H. apply ok_inv in H. destruct H as [_ H]. injection H as <-. pose proof (missing_typed info a (or_introl Hu)) as K. unfold typed in K. now rewrite Hu in K.
    + binv H. apply ok_inv in H. destruct H as [_ H]. injection H as <-. exact I.
    + destruct (pi_nbits info =? 0).
      * apply ok_inv in H. destruct H as [_ H]. injection H as <-. exact I.
      * binv H. apply ok_inv in H. destruct H as [_ H]. injection H as <-. pose proof (missing_typed info a (or_intror Hu)) as K. unfold typed in K. now rewrite Hu in K.
    + binv H. apply ok_inv in H. destruct H as [_ H]. injection H as <-. exact I.
  - cbn [dt_vals]. unfold compressed_Unpack in H. binv H. apply ok_inv in H. destruct H as [_ H]. injection H as <-.
    destruct (pi_unit info) eqn:Hu.
    + eapply others_typed; [congruence| |exact E]. intros x v Hv. injection Hv as <-. now apply numeric_typed.
    + unfold c_unpackString in E. binv E. binv E. binv E. destruct (a1 =? 0).
      * apply ok_inv in E. destruct E as [_ <-]. apply Forall_repeat. unfold typed. now rewrite Hu.
      * destruct (negb _); [discriminate E|]. binv E. apply ok_inv in E. destruct E as [_ <-]. cbn [cv_vals].
        eapply replicateM_all; [|eassumption]. intros s4 s5 v Hv. cbv beta in Hv. binv Hv. apply ok_inv in Hv. destruct Hv as [_ <-].
        unfold typed. now rewrite Hu.
    + destruct (pi_nbits info =? 0).
      * binv E. apply ok_inv in E. destruct E as [_ <-]. apply Forall_repeat. unfold typed. now rewrite Hu.
      * eapply others_typed; [congruence| |exact E]. intros x v Hv. injection Hv as <-. apply missing_typed; auto.
    + unfold c_unpackCode in E. binv E. binv E. binv E. destruct (a1 =? 0).
      * apply ok_inv in E. destruct E as [_ <-]. apply Forall_repeat. unfold typed. now rewrite Hu.
      * binv E. apply ok_inv in E. destruct E as [_ <-]. cbn [cv_vals].
        eapply replicateM_all; [|eassumption]. intros s4 s5 v Hv. cbv beta in Hv. binv Hv. destruct (IsMissing _ _); [|discriminate Hv].
        apply ok_inv in Hv. destruct Hv as [_ <-]. unfold typed. now rewrite Hu.
    + destruct (pi_nbits info =? 0).
      * binv E. apply ok_inv in E. destruct E as [_ <-]. apply Forall_repeat. unfold typed. now rewrite Hu.
      * eapply others_typed; [congruence| |exact E]. intros x v Hv. injection Hv as <-. apply missing_typed; auto.
    + eapply others_typed; [congruence| |exact E]. intros x v Hv. unfold unpackBinary in Hv. unfold typed. rewrite Hu.
      destruct (NewBinaryFromUint _ _ _); try discriminate Hv. injection Hv as <-. exact I.
Qed.
(** A value of the right type survives exactly when its token is read as the value itself. *)
Lemma base64_longer b : b <> [] -> base64 b <> b.
Proof.
  assert (G : forall n b, (length b <= n)%nat -> b <> [] -> (length b < length (base64 b))%nat).
  { induction n as [|n IH]; intros [|x [|y [|z r]]] Hn Hb; try congruence; cbn [length] in Hn; try lia; cbn [base64 length]; try lia.
    destruct r as [|w r]; [cbn; lia|]. assert (K := IH (w :: r) ltac:(cbn [length] in *; lia) ltac:(discriminate)). lia. }
  intros Hb E. specialize (G (length b) b (le_n _) Hb). rewrite E in G. lia.
Qed.
Lemma survives_iff pl info v t : typed info v -> marshal_value v = Ok t -> (survives pl v <-> json_conv pl info t = Ok v).
Proof.
  unfold typed, json_conv. destruct (pi_unit info), v as [|u|i|x|b|[b|]]; intros HT Hm; try contradiction HT;
    cbn [marshal_value] in Hm; try (unfold marshal_float in Hm; destruct (is_finite64 x) eqn:Hf; [|discriminate Hm]); injection Hm as <-;
    cbn [survives tok_float64 tok_bytes tok_uint tok_int tok_binary castres];
    try (split; [intros []|intros K; discriminate K]); try (rewrite Hf; split; auto; fail).
  - split; [intros ->; reflexivity|]. intros K. injection K as K. destruct b; [reflexivity|]. exfalso. revert K. apply base64_longer. discriminate.
  - split; [intros ->; reflexivity|congruence].
  - split; [intros ->; reflexivity|congruence].
  - split; [intros ->; reflexivity|congruence].
  - unfold Binary_UnmarshalJSON. split; [intros ->; reflexivity|]. destruct (NewBinaryFromString _); try discriminate. congruence.
Qed.
Lemma survives_form pl v : survives pl v -> exists t, marshal_value v = Ok t.
Proof. destruct v as [|u|i|x|b|[b|]]; cbn; try contradiction; try (eexists; reflexivity). intros H. unfold marshal_float. rewrite H. eauto. Qed.

(** ** One subset of a history *)
Definition proj (k : nat) (x : datum) : datum := mkDatum (dt_desc x) (dt_info x) VNil 0 [nth k (dt_vals x) VNil].
Definition pev (k : nat) (e : event) : event :=
  match e with
  | EvElement fs x => EvElement (map (proj k) fs) (proj k x)
  | EvItem a x => EvItem a (proj k x)
  | EvZero z => EvZero (option_map (proj k) z)
  | e => e
  end.
Definition ph (k : nat) (h : history) : history := map (pev k) h.
Section Lane.
  Variable k : nat.
  Lemma ph_data h : data (ph k h) = map (proj k) (data h).
  Proof.
    induction h as [|e h IH]; [reflexivity|]. cbn [ph map data]. fold (ph k h). rewrite IH, map_app. f_equal.
    destruct e as [| |fs x|a x| |[z|]| | | | | |]; cbn [pev ev_data option_map]; try reflexivity. now rewrite map_app.
  Qed.
  Lemma ph_ncells h : ncells (ph k h) = ncells h.
  Proof. unfold ncells. now rewrite ph_data, map_length. Qed.
  Lemma ph_last op h : last_operand op (ph k h) = last_operand op h.
  Proof. induction h as [|e h IH]; [reflexivity|]; destruct e; cbn [ph map pev last_operand]; fold (ph k h); rewrite ?IH; reflexivity. Qed.
  Lemma ph_fields h : open_fields (ph k h) = open_fields h.
  Proof. induction h as [|e h IH]; [reflexivity|]; destruct e; cbn [ph map pev open_fields]; fold (ph k h); rewrite ?IH; reflexivity. Qed.
  Lemma ph_packing h e : packing (ph k h) e = packing h e.
  Proof. unfold packing, offset. rewrite !ph_last. reflexivity. Qed.
  Lemma ph_marker h t e : marker_packing (ph k h) t e = marker_packing h t e.
  Proof. unfold marker_packing. now rewrite ph_packing. Qed.
  Lemma ph_backref h : backref (ph k h) = backref h.
  Proof. induction h as [|e h IH]; [reflexivity|]; destruct e; cbn [ph map pev backref]; fold (ph k h); rewrite ?IH, ?ph_ncells; reflexivity. Qed.
  Lemma ph_bitmap h : bitmap (ph k h) = bitmap h.
  Proof. induction h as [|e h IH]; [reflexivity|]; destruct e; cbn [ph map pev bitmap]; fold (ph k h); rewrite ?IH, ?ph_ncells; reflexivity. Qed.
  Lemma ph_targets h : targets_left (ph k h) = targets_left h.
  Proof. induction h as [|e h IH]; [reflexivity|]; destruct e; cbn [ph map pev targets_left]; fold (ph k h); rewrite ?IH; reflexivity. Qed.
End Lane.
