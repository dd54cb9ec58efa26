(** Decoding does not depend on what follows the bits it uses, nor on the position: if at
    least eight bits are left afterwards, the same happens in front of any other bits. *)
From Coq Require Import ZifyBool ZifyNat.
From Verif Require Export ProofsRun6.
From Verif Require Import ProofsBits ProofsBitProps ProofsUnpack.

(** ** What a failing read leaves *)
Lemma short_bytes e k : forall l u l' x, lib_read_bits_bytes e k u l = (l', Err x) -> (length l' < 8)%nat.
Proof.
  induction k as [|k IH]; intros l u l' x H; cbn [lib_read_bits_bytes] in H; [discriminate|].
  destruct (Nat.lt_ge_cases (length l) 8) as [Hlt|Hge].
  - unfold bind in H. rewrite lib_read_byte_short in H by exact Hlt. injection H as <- _. exact Hlt.
  - destruct (split_at 8 l) as (c & d & -> & Hc & Hd); [lia|]. unfold bind in H. rewrite lib_read_byte_ok in H by exact Hc. eapply IH. exact H.
Qed.
Lemma short_bits e k : forall l u l' x, lib_read_bits_bits e k u l = (l', Err x) -> l' = [].
Proof.
  induction k as [|k IH]; intros l u l' x H; cbn [lib_read_bits_bits] in H; [discriminate|].
  destruct l as [|b l]; unfold bind, lib_read_bit in H; [now injection H as <- _|]. eapply IH. exact H.
Qed.
Lemma lib_read_bits_left e n l l' x : lib_read_bits e n l = (l', Err x) -> blen l' < 8.
Proof.
  unfold lib_read_bits. destruct (n <=? 0); [discriminate|]. unfold bind. destruct (lib_read_bits_bytes e (Z.to_nat (n / 8)) 0 l) as [l1 [u|y|q|]] eqn:E1; try discriminate.
  - intros H. apply short_bits in H. subst. reflexivity.
  - intros H. injection H as <- _. apply short_bytes in E1. unfold blen. lia.
Qed.
Lemma replicate_byte_left e k : forall p l r x, replicateM k (br_lib lib_read_byte) (mkBR l e p) = (r, Err x) -> blen (br_bits r) < 8.
Proof.
  induction k as [|k IH]; intros p l r x H; cbn [replicateM] in H; [discriminate|]. unfold bind in H.
  unfold br_lib at 1 in H. cbn [br_bits br_err br_pos] in H. destruct (Nat.lt_ge_cases (length l) 8) as [Hlt|Hge].
  - rewrite lib_read_byte_short in H by exact Hlt. injection H as <- _. unfold blen. cbn. lia.
  - destruct (split_at 8 l) as (c & d & -> & Hc & Hd); [lia|]. rewrite lib_read_byte_ok in H by exact Hc.
    destruct (replicateM k (br_lib lib_read_byte) (mkBR d e p)) as [r1 [a|y|q|]] eqn:E; try discriminate. injection H as <- _. eapply IH. exact E.
Qed.
Lemma binary_loop_left e k : forall n p l r x, br_ReadBinary_loop k n (mkBR l e p) = (r, Err x) -> blen (br_bits r) < 8.
Proof.
  induction k as [|k IH]; intros n p l r x H; cbn [br_ReadBinary_loop] in H; [discriminate|]. unfold bind in H.
  unfold br_lib at 1 in H. cbn [br_bits br_err br_pos] in H. destruct (lib_read_bits e _ l) as [l1 [u|y|q|]] eqn:E1; try discriminate.
  - destruct (br_ReadBinary_loop k (n - NBITS_PER_BYTE) (mkBR l1 e p)) as [r1 [a|y|q|]] eqn:E2; try discriminate. injection H as <- _. eapply IH. exact E2.
  - injection H as <- _. cbn. eapply lib_read_bits_left. exact E1.
Qed.

(** ** Readers *)
Definition steady {A} (m : M reader A) : Prop := forall l e p r x, m (RBit (mkBR l e p)) = (r, x) ->
  exists seg rest dp, l = seg ++ rest /\ r = RBit (mkBR rest e (p + dp)) /\
    (8 <= blen rest -> forall rest' e' q, m (RBit (mkBR (seg ++ rest') e' q)) = (RBit (mkBR rest' e' (q + dp)), x)).
Lemma steady_pure {A} (m : M reader A) x : (forall r, m r = (r, x)) -> steady m.
Proof.
  intros H l e p r y E. rewrite H in E. injection E as <- <-. exists [], l, 0. split; [reflexivity|].
  split; [now rewrite Z.add_0_r|]. intros _ rest' e' q. rewrite H. now rewrite Z.add_0_r.
Qed.
Lemma steady_bind {A B} (m : M reader A) (f : A -> M reader B) : steady m -> (forall a, steady (f a)) -> steady (bind m f).
Proof.
  intros Hm Hf l e p r x H. unfold bind in H. destruct (m (RBit (mkBR l e p))) as [r1 y] eqn:E1.
  destruct (Hm _ _ _ _ _ E1) as (seg1 & rest1 & d1 & -> & -> & K1).
  assert (D : (exists a, y = Ok a) \/ (forall a, y <> Ok a)) by (destruct y; [left; eauto|right; discriminate..]). destruct D as [[a ->]|D].
  - destruct (Hf a _ _ _ _ _ H) as (seg2 & rest2 & d2 & -> & -> & K2). exists (seg1 ++ seg2), rest2, (d1 + d2).
    split; [now rewrite app_assoc|]. split; [now rewrite Z.add_assoc|]. intros H8 rest' e' q. rewrite <- app_assoc. unfold bind.
    rewrite K1 by (rewrite blen_app; pose proof (blen_nonneg seg2); lia). rewrite K2 by exact H8. now rewrite Z.add_assoc.
  - assert (E : exists z : res B, (r, x) = (RBit (mkBR rest1 e (p + d1)), z) /\ forall s, (match y with Ok a => f a s | Err er => (s, Err er) | Panic pn => (s, Panic pn) | NoFuel => (s, NoFuel) end) = (s, z)).
    { destruct y as [a|er|pn|]; [now exfalso; apply (D a)|..]; rewrite <- H; eexists; split; reflexivity. }
    destruct E as (z & E & F). injection E as -> ->. exists seg1, rest1, d1. split; [reflexivity|]. split; [reflexivity|].
    intros H8 rest' e' q. unfold bind. rewrite K1 by exact H8. apply F.
Qed.
Lemma steady_if {A} (b : bool) (m m' : M reader A) : steady m -> steady m' -> steady (if b then m else m').
Proof. destruct b; auto. Qed.
Lemma steady_replicate {A} n (m : M reader A) : steady m -> steady (replicateM n m).
Proof.
  intros H. induction n; cbn [replicateM]; [eapply steady_pure; reflexivity|]. apply steady_bind; [exact H|]. intros a.
  apply steady_bind; [exact IHn|]. intros; eapply steady_pure; reflexivity.
Qed.
Lemma failing {A} (m : M reader A) l e p r x : m (RBit (mkBR l e p)) = (r, x) -> forall l' p', r = RBit (mkBR l' e p') -> suffix l' l -> blen l' < 8 ->
  exists seg rest dp, l = seg ++ rest /\ r = RBit (mkBR rest e (p + dp)) /\
    (8 <= blen rest -> forall rest' e' q, m (RBit (mkBR (seg ++ rest') e' q)) = (RBit (mkBR rest' e' (q + dp)), x)).
Proof.
  intros _ l' p' -> [seg ->] H8. exists seg, l', (p' - p). split; [reflexivity|]. split; [repeat f_equal; lia|]. lia.
Qed.
Lemma steady_uint pl n : steady (r_ReadUint pl n).
Proof.
  intros l e p r x H. destruct (Z.le_gt_cases (Z.max 0 n) (blen l)) as [Hle|Hgt].
  - destruct (cut_bits l (Z.max 0 n) ltac:(lia) Hle) as (seg & rest & -> & Hs). rewrite rd_uint in H by exact Hs.
    injection H as <- <-. exists seg, rest, n. split; [reflexivity|]. split; [reflexivity|]. intros. now apply rd_uint.
  - pose proof (blen_nonneg l). destruct (rd_uint_short pl n l e p) as (l' & E & Hs); [lia|]. rewrite E in H. injection H as <- <-.
    eapply failing; [exact E|reflexivity|exact Hs|]. unfold r_ReadUint, on_reader, br_ReadUint, bind, br_add_pos, modify, br_lib in E.
    cbn [br_bits br_err br_pos] in E. destruct (lib_read_bits e n l) as [l1 [u|y|q|]] eqn:E1; try discriminate. injection E as <- _.
    eapply lib_read_bits_left. exact E1.
Qed.
Lemma steady_int pl n : steady (r_ReadInt pl n).
Proof.
  intros l e p r x H. destruct (Z.le_gt_cases (Z.max 1 n) (blen l)) as [Hle|Hgt].
  - destruct (cut_bits l (Z.max 1 n) ltac:(lia) Hle) as (seg & rest & -> & Hs). rewrite rd_int in H by exact Hs.
    injection H as <- <-. exists seg, rest, n. split; [reflexivity|]. split; [reflexivity|]. intros. now apply rd_int.
  - destruct (rd_int_short pl n l e p) as (l' & p' & E & Hs); [lia|]. rewrite E in H. injection H as <- <-.
    eapply failing; [exact E|reflexivity|exact Hs|]. unfold r_ReadInt, on_reader, br_ReadInt, br_ReadBool, bind, br_add_pos, modify, br_lib, lib_read_bit in E.
    cbn [br_bits br_err br_pos] in E. destruct l as [|b l]; [injection E as <- _; reflexivity|]. cbn [br_bits br_err br_pos] in E.
    destruct (lib_read_bits e (n - 1) l) as [l1 [u|y|q|]] eqn:E1; try discriminate. injection E as <- _.
    eapply lib_read_bits_left. exact E1.
Qed.
Lemma steady_bool : steady r_ReadBool.
Proof.
  intros l e p r x H. destruct l as [|b l]; unfold r_ReadBool, on_reader, br_ReadBool, bind, br_add_pos, modify, br_lib, lib_read_bit in H; cbn in H; injection H as <- <-.
  - exists [], [], 1. split; [reflexivity|]. split; [reflexivity|]. rewrite blen_nil. lia.
  - exists [b], l, 1. split; [reflexivity|]. split; [reflexivity|]. reflexivity.
Qed.
Lemma steady_bytes n : steady (r_ReadBytes n).
Proof.
  intros l e p r x H. destruct (Z.ltb_spec n 0) as [Hn|Hn].
  { unfold r_ReadBytes, on_reader, br_ReadBytes, bind, br_add_pos, modify in *. destruct (Z.ltb_spec n 0); [|lia]. injection H as <- <-.
    exists [], l, (n * NBITS_PER_BYTE). split; [reflexivity|]. split; [reflexivity|]. reflexivity. }
  destruct (Z.le_gt_cases (8 * n) (blen l)) as [Hle|Hgt].
  - destruct (cut_bits l (8 * n) ltac:(lia) Hle) as (seg & rest & -> & Hs). rewrite rd_bytes in H by assumption.
    injection H as <- <-. exists seg, rest, (8 * n). split; [reflexivity|]. split; [reflexivity|]. intros. now apply rd_bytes.
  - destruct (rd_bytes_short n l e p Hn Hgt) as (l' & E & Hs). rewrite E in H. injection H as <- <-.
    eapply failing; [exact E|reflexivity|exact Hs|]. unfold r_ReadBytes, on_reader, br_ReadBytes, bind, br_add_pos, modify in E.
    cbn [br_bits br_err br_pos] in E. destruct (Z.ltb_spec n 0); [lia|].
    destruct (replicateM _ _ _) as [r1 [u|y|q|]] eqn:E1; try discriminate. injection E as -> _.
    now apply replicate_byte_left in E1.
Qed.
Lemma steady_binary n : steady (r_ReadBinary n).
Proof.
  intros l e p r x H. destruct (Z.le_gt_cases (Z.max 0 n) (blen l)) as [Hle|Hgt].
  - destruct (cut_bits l (Z.max 0 n) ltac:(lia) Hle) as (seg & rest & -> & Hs). rewrite rd_binary in H by exact Hs.
    injection H as <- <-. exists seg, rest, n. split; [reflexivity|]. split; [reflexivity|]. intros. now apply rd_binary.
  - pose proof (blen_nonneg l). destruct (rd_binary_short n l e p) as (l' & E & Hs); [lia|]. rewrite E in H. injection H as <- <-.
    eapply failing; [exact E|reflexivity|exact Hs|]. unfold r_ReadBinary, on_reader, br_ReadBinary, bind, br_add_pos, modify in E.
    cbn [br_bits br_err br_pos] in E. destruct (br_ReadBinary_loop _ _ _) as [r1 [u|y|q|]] eqn:E1; try discriminate. injection E as ->.
    now apply binary_loop_left in E1.
Qed.
Ltac spure := eapply steady_pure; intros; reflexivity.
Lemma steady_Unpack pl fuel cf_c n info : steady (if cf_c : bool then compressed_Unpack pl fuel n info else uncompressed_Unpack pl info).
Proof.
  destruct cf_c.
  - unfold compressed_Unpack. apply steady_bind; [|intros; spure].
    destruct (pi_unit info); unfold c_unpackString, c_unpackOthers, c_unpackCode, readNbitsDiff, make_values; cbv zeta;
    repeat first [apply steady_if | apply steady_bind; [|intros ?] | apply steady_uint | apply steady_int | apply steady_bytes
       | apply steady_replicate | spure].
  - unfold uncompressed_Unpack. destruct (pi_unit info);
    repeat first [apply steady_if | apply steady_bind; [|intros ?] | apply steady_uint | apply steady_int | apply steady_bytes | apply steady_binary | spure].
Qed.

(** ** The visitor *)
Definition vsteady {A} (m : M vst A) : Prop := forall s l e p s' x, v_r s = RBit (mkBR l e p) -> m s = (s', x) ->
  exists seg rest dp, l = seg ++ rest /\ v_r s' = RBit (mkBR rest e (p + dp)) /\
    (8 <= blen rest -> forall rest' e' q, m (set_r (RBit (mkBR (seg ++ rest') e' q)) s) = (set_r (RBit (mkBR rest' e' (q + dp))) s', x)).
Lemma set_r_r s : set_r (v_r s) s = s. Proof. destruct s; reflexivity. Qed.
Lemma set_r_set a b s : set_r a (set_r b s) = set_r a s. Proof. reflexivity. Qed.
Lemma vs_pure {A} (m : M vst A) : (forall r s, m (set_r r s) = (set_r r (fst (m s)), snd (m s))) -> vsteady m.
Proof.
  intros H s l e p s' x Hs E. pose proof (H (v_r s) s) as K. rewrite set_r_r, E in K. cbn [fst snd] in K. injection K as K.
  exists [], l, 0. split; [reflexivity|]. split; [rewrite K; cbn [set_r v_r]; rewrite Hs; now rewrite Z.add_0_r|].
  intros _ rest' e' q. rewrite H, E. cbn [fst snd app]. now rewrite Z.add_0_r.
Qed.
Lemma vs_bind {A B} (m : M vst A) (f : A -> M vst B) : vsteady m -> (forall a, vsteady (f a)) -> vsteady (bind m f).
Proof.
  intros Hm Hf s l e p s' x Hs H. unfold bind in H. destruct (m s) as [s1 y] eqn:E1.
  destruct (Hm _ _ _ _ _ _ Hs E1) as (seg1 & rest1 & d1 & -> & R1 & K1).
  assert (D : (exists a, y = Ok a) \/ (forall a, y <> Ok a)) by (destruct y; [left; eauto|right; discriminate..]). destruct D as [[a ->]|D].
  - destruct (Hf a _ _ _ _ _ _ R1 H) as (seg2 & rest2 & d2 & -> & R2 & K2). exists (seg1 ++ seg2), rest2, (d1 + d2).
    split; [now rewrite app_assoc|]. split; [now rewrite R2, Z.add_assoc|]. intros H8 rest' e' q. rewrite <- app_assoc. unfold bind.
    rewrite K1 by (rewrite blen_app; pose proof (blen_nonneg seg2); lia). rewrite K2 by exact H8. now rewrite Z.add_assoc.
  - assert (E : exists z : res B, (s', x) = (s1, z) /\ forall s, (match y with Ok a => f a s | Err er => (s, Err er) | Panic pn => (s, Panic pn) | NoFuel => (s, NoFuel) end) = (s, z)).
    { destruct y as [a|er|pn|]; [now exfalso; apply (D a)|..]; rewrite <- H; eexists; split; reflexivity. }
    destruct E as (z & E & F). injection E as -> ->. exists seg1, rest1, d1. split; [reflexivity|]. split; [exact R1|].
    intros H8 rest' e' q. unfold bind. rewrite K1 by exact H8. apply F.
Qed.
(** Any function of the outcome. *)
Lemma vs_after {A B} (m : M vst A) (f : res A -> res B) (m' : M vst B) : (forall s, m' s = (fst (m s), f (snd (m s)))) -> vsteady m -> vsteady m'.
Proof.
  intros H Hm s l e p s' x Hs E. rewrite H in E. destruct (m s) as [s1 y] eqn:E1. cbn [fst snd] in E. injection E as <- <-.
  destruct (Hm _ _ _ _ _ _ Hs E1) as (seg1 & rest1 & d1 & -> & R1 & K1). exists seg1, rest1, d1. split; [reflexivity|]. split; [exact R1|].
  intros H8 rest' e' q. rewrite H. rewrite K1 by exact H8. reflexivity.
Qed.
Lemma vs_wrap {A} tag (m : M vst A) : vsteady m -> vsteady (wrap tag m).
Proof. apply (vs_after m (fun x => match x with Err e => Err (EWrap tag e) | y => y end)). intros s. unfold wrap. now destruct (m s) as [s1 [a|e|q|]]. Qed.
Lemma vs_deferM {A} f (m : M vst A) : vsteady f -> vsteady m -> vsteady (deferM f m).
Proof.
  intros Hf Hm.
  apply (vs_after (bind (fun s => let '(s', x) := m s in (s', Ok x)) (fun r => fun s => let '(s', y) := f s in
      (s', Ok (match y with Ok _ => r | Err _ => r | Panic p => Panic p | NoFuel => NoFuel end))))
      (fun z => match z with Ok r => r | Err e => Err e | Panic p => Panic p | NoFuel => NoFuel end)).
  { intros s. unfold deferM, bind. destruct (m s) as [s1 x]. destruct (f s1) as [s2 [a|e|q|]]; reflexivity. }
  apply vs_bind.
  - apply (vs_after m (fun x => Ok x)); [|exact Hm]. intros s. now destruct (m s).
  - intros r. apply (vs_after f (fun y => Ok (match y with Ok _ => r | Err _ => r | Panic p => Panic p | NoFuel => NoFuel end))); [|exact Hf].
    intros s. now destruct (f s).
Qed.
Ltac triv := apply vs_pure; intros ? ?; reflexivity.
Lemma vs_mapM_ {A B} (f : A -> M vst B) l : Forall (fun a => vsteady (f a)) l -> vsteady (mapM_ f l).
Proof. induction 1; cbn [mapM_]; [triv|apply vs_bind; auto]. Qed.
Lemma vs_mapM {A B} (f : A -> M vst B) l : (forall a, vsteady (f a)) -> vsteady (mapM f l).
Proof. intros H. induction l; cbn [mapM]; [triv|]. apply vs_bind; [apply H|]. intros b. apply vs_bind; [exact IHl|]. intros; triv. Qed.
Lemma vs_mapM_all {A B} (f : A -> M vst B) l : (forall a, vsteady (f a)) -> vsteady (mapM_ f l).
Proof. intros H. apply vs_mapM_. induction l; auto. Qed.
Lemma vs_iter z m : vsteady m -> vsteady (iter_Z z m).
Proof.
  intros H. assert (HN : forall n, vsteady (iterN n m)) by (induction n; cbn [iterN]; [triv|apply vs_bind; auto]).
  intros s l e p s' x Hs E. rewrite iter_Z_nat in E. destruct (HN _ _ _ _ _ _ _ Hs E) as (seg & rest & dp & ? & ? & K).
  exists seg, rest, dp. split; [assumption|]. split; [assumption|]. intros. rewrite iter_Z_nat. now apply K.
Qed.
Lemma vs_if {A} (b : bool) (m m' : M vst A) : vsteady m -> vsteady m' -> vsteady (if b then m else m').
Proof. destruct b; auto. Qed.
Lemma vs_lift {A} (x : res A) : vsteady (lift_res x). Proof. triv. Qed.
Lemma vs_attach : forall sn i ts an, vsteady (attach i ts sn an).
Proof.
  induction sn as [|x sn IH]; intros i ts an; cbn [attach]; [triv|]. apply vs_bind; [apply vs_lift|]. intros t.
  apply vs_bind; [triv|]. intros _. apply vs_bind; [apply vs_mapM_all; intros a; triv|]. intros _. apply IH.
Qed.
Section Steady.
  Variable cf : config.
  Hypothesis Hj : cf_json cf = false.
  Lemma vs_Unpack info : vsteady (Unpack cf info).
  Proof.
    intros s l e p s' x Hs E. unfold Unpack in *. rewrite Hj in *. unfold zoom in *. rewrite Hs in E.
    destruct (_ (RBit (mkBR l e p))) as [r1 y] eqn:E1 in E. injection E as <- <-.
    destruct (steady_Unpack _ _ _ _ _ _ _ _ _ _ E1) as (seg & rest & dp & -> & -> & K). exists seg, rest, dp.
    split; [reflexivity|]. split; [reflexivity|]. intros H8 rest' e' q. cbn [v_r set_r]. rewrite K by exact H8. reflexivity.
  Qed.
  Lemma vs_add_valued d info u : vsteady (add_valued d info u).
  Proof.
    unfold add_valued. apply vs_bind; [triv|]. intros n. apply vs_bind; [triv|]. intros i0. cbv zeta. apply vs_bind; [triv|]. intros i. apply vs_bind; [triv|]. intros u0.
    apply vs_bind; [triv|]. intros cs. apply vs_bind; [|intros; triv].
    destruct cs as [l|ts], u as [v|c]; try triv. apply vs_bind; [apply vs_lift|]. intros; triv.
  Qed.
  Lemma vs_build d info : vsteady (buildValuedNodeWithInfo cf d info).
  Proof. apply vs_bind; [apply vs_wrap, vs_Unpack|]. intros; apply vs_add_valued. Qed.
  Lemma vs_calc d : vsteady (calcPackingInfo d).
  Proof.
    unfold calcPackingInfo. destruct (d_entry d) as [b| | |]; try triv. apply vs_bind; [triv|]. intros g.
    destruct (be_unit b); try triv. cbv zeta. apply vs_bind; [|intros; triv].
    destruct (match g_newRefvals g with Some m => assoc_get m (d_id d) | None => None end); [|triv].
    apply vs_bind; [triv|]. intros eq. apply vs_if; [triv|]. apply vs_bind; [triv|]. intros c.
    apply vs_bind; [apply vs_wrap, vs_lift|]. intros; triv.
  Qed.
  Lemma vs_buildValued d : vsteady (buildValuedNode cf d).
  Proof. apply vs_bind; [apply vs_wrap, vs_calc|]. intros; apply vs_build. Qed.
  Lemma vs_need od : vsteady (need od). Proof. destruct od; triv. Qed.
  Lemma vs_zero od : vsteady (buildZeroNode cf od).
  Proof.
    unfold buildZeroNode. destruct (cf_compatible cf).
    - eapply (vs_after (dd <- need od ;; buildValuedNodeWithInfo cf dd (plain_info NONNEG_CODE 0))%M
        (fun x => match x with Ok _ => Ok tt | Err _ => Ok tt | Panic p => Panic p | NoFuel => NoFuel end)).
      + intros s. destruct (bind _ _ s) as [s1 [a|e|q|]]; reflexivity.
      + apply vs_bind; [apply vs_need|]. intros; apply vs_build.
    - apply vs_bind; [triv|]. intros; triv.
  Qed.
  Lemma vs_assoc d : vsteady (buildAssocNodes cf d).
  Proof.
    apply vs_bind; [triv|]. intros g. apply vs_if; [triv|]. apply vs_mapM. intros a.
    apply vs_bind; [apply vs_wrap, vs_build|]. intros n. apply vs_bind; [triv|]. intros; triv.
  Qed.
  Lemma vs_valueless od : vsteady (add_valueless od).
  Proof. apply vs_bind; [triv|]. intros; triv. Qed.
  Lemma vs_element np od : vsteady (visit_element cf np od).
  Proof.
    apply vs_if; [apply vs_valueless|]. apply vs_bind; [apply vs_need|]. intros d. apply vs_bind; [apply vs_wrap, vs_assoc|]. intros l.
    apply vs_bind; [apply vs_wrap, vs_buildValued|]. intros e. apply vs_mapM_all. intros; triv.
  Qed.
  Lemma vs_Pop : vsteady tree_Pop.
  Proof. apply vs_pure. intros p s. unfold tree_Pop. cbn [v_tree set_r]. destruct (t_stack (v_tree s)); reflexivity. Qed.
  Lemma vs_aPop : vsteady assoc_Pop.
  Proof. apply vs_pure. intros p s. unfold assoc_Pop. cbn [v_regs set_r]. destruct (g_assoc (v_regs s)); reflexivity. Qed.
  Lemma vs_NewAssessment : vsteady NewAssessment.
  Proof. apply vs_bind; [triv|]. intros b. apply vs_if; [|triv]. apply vs_bind; [triv|]. intros n. triv. Qed.
  Lemma vs_NewBitmap r : vsteady (NewBitmap r).
  Proof. apply vs_bind; [triv|]. intros b. apply vs_bind; [triv|]. intros n. triv. Qed.
  Lemma vs_End : vsteady EndBitmap.
  Proof. apply vs_bind; [triv|]. intros b. destruct (m_current b); [|triv]. apply vs_bind; [triv|]. intros ?. triv. Qed.
  Lemma vs_Next : vsteady NextTargetNode.
  Proof. apply vs_pure. intros p s. unfold NextTargetNode. cbn [v_bm set_r]. destruct (m_targets (v_bm s)); reflexivity. Qed.
  Lemma vs_Init : vsteady (InitTargetNodes (cf_plat cf)).
  Proof.
    apply vs_bind.
    - apply vs_bind; [triv|]. intros b. apply vs_bind; [triv|]. intros c. destruct (m_current b); [|triv].
      destruct (nth_error (m_bitmaps b) n) as [[i0 i1]|]; [|triv]. repeat first [apply vs_if | triv].
    - intros bits. apply vs_bind; [triv|]. intros b. apply vs_bind; [triv|]. intros c. apply vs_bind; [apply vs_lift|]. intros l.
      apply vs_if; [triv|]. cbv zeta. apply vs_bind; [triv|]. intros; triv.
  Qed.
  Lemma vs_since a0 : vsteady (nodes_since a0).
  Proof. apply vs_bind; [triv|]. intros a1. apply vs_if; [triv|]. apply vs_bind; [triv|]. intros; apply vs_lift. Qed.
  Lemma vs_reset : vsteady (reset cf).
  Proof. apply vs_pure. intros p s. unfold reset. destruct (cf_compressed cf && negb (cf_json cf)); [|reflexivity]. destruct (cf_nsubsets cf <? 0); reflexivity. Qed.
  Lemma vs_marker od : vsteady (visit_marker cf od).
  Proof.
    apply vs_bind; [apply vs_Next|]. intros t. apply vs_bind; [apply vs_calc|]. intros i. cbv zeta.
    apply vs_bind; [apply vs_need|]. intros d. apply vs_bind; [apply vs_build|]. intros; triv.
  Qed.
  Lemma vs_refval info m : vsteady (visit_refval_member cf info m).
  Proof.
    apply vs_bind; [apply vs_need|]. intros d. apply vs_bind; [apply vs_wrap, vs_build|]. intros n. apply vs_bind; [triv|]. intros g.
    destruct (g_newRefvals g); triv.
  Qed.
  Ltac vs := repeat first
    [ assumption | apply vs_buildValued | apply vs_build | apply vs_zero | apply vs_Init | apply vs_since | apply vs_bind; [|intros ?] | apply vs_wrap | apply vs_deferM | apply vs_mapM_; assumption | apply vs_iter
    | apply vs_need | apply vs_element | apply vs_Pop | apply vs_aPop | apply vs_NewAssessment | apply vs_NewBitmap | apply vs_End
    | apply vs_reset | apply vs_Next | apply vs_calc | apply vs_marker | apply vs_attach
    | apply vs_mapM_all; intros; apply vs_refval | apply vs_if | apply vs_lift | solve [triv] ].
  Lemma vs_visit n : vsteady (visit cf n).
  Proof.
    induction n as [k od ms b at_ Hm Hb Ha] using anode_full_ind. destruct k; cbn [visit]; vs.
    - destruct ms as [|m0 rest]; [triv|]. inversion Hm; subst. vs.
    - destruct ms as [|m0 rest]; [triv|]. vs.
    - destruct b; [assumption|triv].
    - destruct od; vs.
    - destruct (m_current _); vs.
  Qed.
  Lemma vs_Produce : vsteady Produce.
  Proof. apply vs_bind; [apply vs_pure; intros p s; unfold tree_Root; cbn [v_tree set_r]; destruct (t_stack (v_tree s)); reflexivity|]. intros; triv. Qed.
  Lemma vs_run_payload t : vsteady (run_payload cf t).
  Proof. apply vs_iter. apply vs_bind; [apply vs_visit|]. intros _. apply vs_Produce. Qed.
End Steady.
