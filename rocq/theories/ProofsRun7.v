(** Consequences of the reference semantics: segmentation, packing, transparency. *)
From Coq Require Import ZifyBool ZifyNat.
From Verif Require Export ProofsRun6.
From Verif Require Import ProofsBits ProofsUnpack.

(** ** Reading is local *)
Definition local {A} (m : M reader A) : Prop := forall l e p r a, m (RBit (mkBR l e p)) = (r, Ok a) ->
  exists seg rest p', l = seg ++ rest /\ r = RBit (mkBR rest e p') /\
    forall rest' e' q, exists q', m (RBit (mkBR (seg ++ rest') e' q)) = (RBit (mkBR rest' e' q'), Ok a).
Lemma local_ret {A} (a : A) : local (ret a).
Proof. intros l e p r b H. injection H as <- <-. exists [], l, p. split; [reflexivity|]. split; [reflexivity|]. intros. exists q. reflexivity. Qed.
Lemma local_lift {A} (x : res A) : local (lift_res x).
Proof. intros l e p r b H. injection H as <- ->. exists [], l, p. split; [reflexivity|]. split; [reflexivity|]. intros. exists q. reflexivity. Qed.
Lemma local_none {A} (m : M reader A) : (forall r r' a, m r <> (r', Ok a)) -> local m.
Proof. intros H l e p r a E. exfalso. eapply H. exact E. Qed.
Lemma local_bind {A B} (m : M reader A) (f : A -> M reader B) : local m -> (forall a, local (f a)) -> local (bind m f).
Proof.
  intros Hm Hf l e p r b H. binv H. destruct (Hm _ _ _ _ _ E) as (seg1 & rest1 & p1 & -> & -> & K1).
  destruct (Hf _ _ _ _ _ _ H) as (seg2 & rest2 & p2 & -> & -> & K2). exists (seg1 ++ seg2), rest2, p2.
  split; [now rewrite app_assoc|]. split; [reflexivity|]. intros rest' e' q.
  destruct (K1 (seg2 ++ rest') e' q) as (q1 & E1). destruct (K2 rest' e' q1) as (q2 & E2). exists q2.
  rewrite <- app_assoc. rewrite (bind_ok _ _ _ _ _ E1). exact E2.
Qed.
Lemma local_replicate {A} n (m : M reader A) : local m -> local (replicateM n m).
Proof. intros H. induction n; cbn [replicateM]; [apply local_ret|]. apply local_bind; [exact H|]. intros a. apply local_bind; [exact IHn|]. intros; apply local_ret. Qed.
Lemma local_if {A} (b : bool) (m m' : M reader A) : local m -> local m' -> local (if b then m else m').
Proof. destruct b; auto. Qed.
Lemma local_uint pl n : local (r_ReadUint pl n).
Proof.
  intros l e p r a H. destruct (Z.le_gt_cases (Z.max 0 n) (blen l)) as [Hle|Hgt].
  - destruct (cut_bits l (Z.max 0 n) ltac:(lia) Hle) as (seg & rest & -> & Hs). rewrite rd_uint in H by exact Hs.
    injection H as <- <-. exists seg, rest, (p + n). split; [reflexivity|]. split; [reflexivity|]. intros. exists (q + n). now apply rd_uint.
  - destruct (rd_uint_short pl n l e p) as (l' & E & _); [pose proof (blen_nonneg l); lia|]. congruence.
Qed.
Lemma local_int pl n : local (r_ReadInt pl n).
Proof.
  intros l e p r a H. destruct (Z.le_gt_cases (Z.max 1 n) (blen l)) as [Hle|Hgt].
  - destruct (cut_bits l (Z.max 1 n) ltac:(lia) Hle) as (seg & rest & -> & Hs). rewrite rd_int in H by exact Hs.
    injection H as <- <-. exists seg, rest, (p + n). split; [reflexivity|]. split; [reflexivity|]. intros. exists (q + n). now apply rd_int.
  - destruct (rd_int_short pl n l e p) as (l' & p' & E & _); [lia|]. congruence.
Qed.
Lemma local_bytes n : local (r_ReadBytes n).
Proof.
  intros l e p r a H. destruct (Z.ltb_spec n 0) as [Hn|Hn].
  { exfalso. unfold r_ReadBytes, on_reader, br_ReadBytes, bind, br_add_pos, modify in H. destruct (Z.ltb_spec n 0); [discriminate|lia]. }
  destruct (Z.le_gt_cases (8 * n) (blen l)) as [Hle|Hgt].
  - destruct (cut_bits l (8 * n) ltac:(lia) Hle) as (seg & rest & -> & Hs). rewrite rd_bytes in H by assumption.
    injection H as <- <-. exists seg, rest, (p + 8 * n). split; [reflexivity|]. split; [reflexivity|]. intros. exists (q + 8 * n). now apply rd_bytes.
  - destruct (rd_bytes_short n l e p Hn Hgt) as (l' & E & _). congruence.
Qed.
Lemma binary_local n l e p r b : r_ReadBinary n (RBit (mkBR l e p)) = (r, Ok (Some b)) ->
  exists seg rest p', l = seg ++ rest /\ r = RBit (mkBR rest e p') /\
    forall rest' e' q, exists q', r_ReadBinary n (RBit (mkBR (seg ++ rest') e' q)) = (RBit (mkBR rest' e' q'), Ok (Some b)).
Proof.
  intros H. destruct (Z.le_gt_cases (Z.max 0 n) (blen l)) as [Hle|Hgt].
  - destruct (cut_bits l (Z.max 0 n) ltac:(lia) Hle) as (seg & rest & -> & Hs). rewrite rd_binary in H by exact Hs.
    injection H as <- <-. exists seg, rest, (p + n). split; [reflexivity|]. split; [reflexivity|]. intros. exists (q + n). now apply rd_binary.
  - destruct (rd_binary_short n l e p) as (l' & E & _); [pose proof (blen_nonneg l); lia|]. congruence.
Qed.
Lemma unpack_local pl info l e p r v : uncompressed_Unpack pl info (RBit (mkBR l e p)) = (r, Ok (UV v)) -> v <> VBin None ->
  exists seg rest p', l = seg ++ rest /\ r = RBit (mkBR rest e p') /\
    forall rest' e' q, exists q', uncompressed_Unpack pl info (RBit (mkBR (seg ++ rest') e' q)) = (RBit (mkBR rest' e' q'), Ok (UV v)).
Proof.
  intros H Hv. unfold uncompressed_Unpack in *.
  assert (L : pi_unit info = BINARY \/ local (uncompressed_Unpack pl info)).
  { unfold uncompressed_Unpack. destruct (pi_unit info); auto; right; repeat first
      [apply local_if | apply local_bind; [|intros ?] | apply local_ret | apply local_uint | apply local_int | apply local_bytes]. }
  destruct L as [L|L]; [|exact (L _ _ _ _ _ H)]. rewrite L in *. binv H. apply ok_inv in H. destruct H as [<- E0]. injection E0 as <-.
  destruct a as [b|]; [|contradiction]. destruct (binary_local _ _ _ _ _ _ E) as (seg & rest & p' & -> & -> & K).
  exists seg, rest, p'. split; [reflexivity|]. split; [reflexivity|]. intros rest' e' q. destruct (K rest' e' q) as (q' & E'). exists q'.
  now rewrite (bind_ok _ _ _ _ _ E').
Qed.
Lemma compressed_local pl fuel n info : local (compressed_Unpack pl fuel n info).
Proof.
  unfold compressed_Unpack. apply local_bind; [|intros; apply local_ret].
  destruct (pi_unit info); unfold c_unpackString, c_unpackOthers, c_unpackCode, readNbitsDiff, make_values; cbv zeta;
  repeat first [apply local_if | apply local_bind; [|intros ?] | apply local_ret | apply local_uint | apply local_int | apply local_bytes
     | apply local_lift | apply local_replicate | apply local_none; intros; discriminate].
Qed.
Section Segments.
  Variable cf : config.
  Hypothesis Hj : cf_json cf = false.
  Lemma decodes_local d info r x r' l : decodes cf d info r x r' -> binary_reader r l -> no_nil_binary x ->
    exists seg rest, l = seg ++ rest /\ binary_reader r' rest /\ bits_of cf x seg.
  Proof.
    intros HD (e & p & ->) Hx. inversion HD as [v r0 _ Hc E|v r0 Hj' E|c r0 _ Hc E]; subst; [|congruence|].
    - destruct (unpack_local _ _ _ _ _ _ _ E) as (seg & rest & p' & -> & -> & K). { intros ->. now apply Hx. }
      exists seg, rest. split; [reflexivity|]. split; [do 2 eexists; reflexivity|]. intros rest' e' q. destruct (K rest' e' q) as (q' & E').
      exists q'. now constructor.
    - destruct (compressed_local _ _ _ _ _ _ _ _ _ E) as (seg & rest & p' & -> & -> & K).
      exists seg, rest. split; [reflexivity|]. split; [do 2 eexists; reflexivity|]. intros rest' e' q. destruct (K rest' e' q) as (q' & E').
      exists q'. now constructor.
  Qed.
  (** Between two histories: the data added have the bits consumed. *)
  Definition segmented (h : history) (r : reader) (h' : history) (r' : reader) : Prop :=
    forall l, binary_reader r l -> (Forall no_nil_binary (data h')) ->
    exists new segs rest, data h' = data h ++ new /\ l = concat segs ++ rest /\ binary_reader r' rest /\ Forall2 (bits_of cf) new segs.
  Lemma segmented_refl h r : segmented h r h r.
  Proof. intros l Hl _. exists [], [], l. split; [now rewrite app_nil_r|]. split; [reflexivity|]. split; [exact Hl|constructor]. Qed.
  Lemma grows_Forall h h' : grows h h' -> Forall no_nil_binary (data h') -> Forall no_nil_binary (data h).
  Proof. intros G H. destruct (grows_data _ _ G) as [l E]. rewrite E in H. apply Forall_app in H. tauto. Qed.
  Lemma segmented_trans h r h1 r1 h2 r2 : grows h1 h2 -> segmented h r h1 r1 -> segmented h1 r1 h2 r2 -> segmented h r h2 r2.
  Proof.
    intros G S1 S2 l Hl HF. destruct (S1 l Hl (grows_Forall _ _ G HF)) as (n1 & s1 & l1 & E1 & -> & B1 & F1).
    destruct (S2 l1 B1 HF) as (n2 & s2 & l2 & E2 & -> & B2 & F2).
    exists (n1 ++ n2), (s1 ++ s2), l2. split; [rewrite E2, E1; now rewrite app_assoc|]. split; [rewrite concat_app; now rewrite app_assoc|].
    split; [exact B2|]. now apply Forall2_app.
  Qed.
  Lemma segmented_data h h' r : data h' = data h -> segmented h r h' r.
  Proof. intros E l Hl _. exists [], [], l. split; [now rewrite app_nil_r|]. split; [reflexivity|]. split; [exact Hl|constructor]. Qed.
  Lemma segmented_one h e x d info r r' : ev_data e = [x] -> decodes cf d info r x r' -> segmented h r (e :: h) r'.
  Proof.
    intros He HD l Hl HF. cbn [data] in *. rewrite He in *. apply Forall_app in HF. destruct HF as [_ HF]. inversion HF; subst.
    destruct (decodes_local _ _ _ _ _ _ HD Hl) as (seg & rest & -> & Hb & Hs); [assumption|].
    exists [x], [seg], rest. split; [reflexivity|]. split; [cbn; now rewrite app_nil_r|]. auto.
  Qed.
  Lemma fields_segments d ws r fs r' : fields cf d ws r fs r' -> forall l, binary_reader r l -> Forall no_nil_binary fs ->
    exists segs rest, l = concat segs ++ rest /\ binary_reader r' rest /\ Forall2 (bits_of cf) fs segs.
  Proof.
    induction 1 as [r|w ws r x r1 xs r' HD HF IH]; intros l Hl HN; [exists [], l; auto|]. inversion HN; subst.
    destruct (decodes_local _ _ _ _ _ _ HD Hl) as (seg & rest & -> & Hb & Hs); [assumption|].
    destruct (IH rest Hb) as (segs & rest' & -> & Hb' & Hs'); [assumption|]. exists (seg :: segs), rest'.
    split; [cbn; now rewrite app_assoc|]. auto.
  Qed.
  Lemma segmented_zero od r z r' h : zero_cell cf od r z r' -> segmented h r (EvZero z :: h) r'.
  Proof.
    intros HZ. inversion HZ as [Hc|d x r0 Hc Hd HD|d r0 Hc Hd [e HU]]; subst.
    - apply segmented_data. cbn. now rewrite app_nil_r.
    - eapply segmented_one; eauto. reflexivity.
    - exfalso. rewrite Hj in HU. destruct (cf_compressed cf); [|discriminate HU].
      unfold compressed_Unpack, make_values in HU. cbn in HU. destruct (cf_nsubsets cf <? 0); discriminate HU.
  Qed.
  Lemma data_same e h : ev_data e = [] -> data (e :: h) = data h.
  Proof. intros H. cbn [data]. rewrite H. apply app_nil_r. Qed.
  Lemma segmented_shift h1 h r h2 r2 : data h1 = data h -> segmented h1 r h2 r2 -> segmented h r h2 r2.
  Proof. intros E S l Hl HF. rewrite <- E. now apply S. Qed.
  Lemma segmented_end h r h1 h2 r2 : data h2 = data h1 -> segmented h r h1 r2 -> segmented h r h2 r2.
  Proof. intros E S l Hl HF. rewrite E in *. now apply S. Qed.
  Lemma runs_segmented h r n h' r' : runs cf h r n h' r' -> segmented h r h' r'.
  Proof.
    intros H. induction H using runs_mut
      with (P0 := fun h r _ h' r' _ => segmented h r h' r') (P1 := fun _ h r _ h' r' _ => segmented h r h' r').
    - apply segmented_data. now apply data_same.
    - intros l Hl HF. cbn [data ev_data] in *. apply Forall_app in HF. destruct HF as [_ HF]. apply Forall_app in HF. destruct HF as [HF1 HF2].
      inversion HF2; subst. destruct (fields_segments _ _ _ _ _ f l Hl HF1) as (segs & rest & -> & Hb & Hs).
      destruct (decodes_local _ _ _ _ _ _ d0 Hb) as (seg & rest' & -> & Hb' & Hs'); [assumption|].
      exists (fs ++ [x]), (segs ++ [seg]), rest'. split; [reflexivity|]. split; [rewrite concat_app, <- app_assoc; cbn; now rewrite app_nil_r|].
      split; [exact Hb'|]. apply Forall2_app; auto.
    - eapply segmented_one; eauto. reflexivity.
    - assumption.
    - assumption.
    - eapply segmented_trans; [|eassumption|eassumption].
      match goal with H : runs_times _ _ _ _ _ _ _ |- _ => clear - H; induction H; eauto using grows_refl, grows_trans, runs_list_grows end.
    - apply segmented_data. now apply data_same.
    - apply segmented_data. now apply data_same.
    - eapply segmented_shift; [|eassumption]. now apply data_same.
    - eapply segmented_one; eauto. reflexivity.
    - eapply segmented_one; eauto. reflexivity.
    - eapply segmented_shift; [|eassumption]. now apply data_same.
    - assert (G2 := runs_grows _ _ _ _ _ _ H). 
      match goal with A : runs_list _ h2 _ _ h3 _, B : runs_list _ (EvTargets ps :: h3) _ _ h4 _ |- _ =>
        pose proof (runs_list_grows _ _ _ _ _ _ A) as G3; pose proof (runs_list_grows _ _ _ _ _ _ B) as G4 end.
      eapply segmented_shift with (h1 := EvAssess od :: h); [now apply data_same|].
      eapply segmented_trans; [|eapply segmented_zero; eassumption|].
      { eapply grows_trans; [exact G2|]. eapply grows_trans; [exact G3|]. eapply grows_ev'. exact G4. }
      eapply segmented_trans; [|eassumption|].
      { eapply grows_trans; [exact G3|]. eapply grows_ev'. exact G4. }
      eapply segmented_trans; [|eassumption|]; [eapply grows_ev'; exact G4|].
      eapply segmented_shift with (h1 := EvTargets ps :: h3); [now apply data_same|eassumption].
    - eapply segmented_one; eauto. reflexivity.
    - apply segmented_data. now apply data_same.
    - apply segmented_data. now apply data_same.
    - eapply segmented_end with (h1 := EvZero z :: h); [now apply data_same|]. eapply segmented_zero; eassumption.
    - eapply segmented_end with (h1 := h'); [now apply data_same|].
      match goal with A : runs_list _ (EvDefine :: _) _ _ _ _ |- _ => pose proof (runs_list_grows _ _ _ _ _ _ A) as G2 end.
      eapply segmented_trans; [|eapply segmented_zero; eassumption|]; [eapply grows_ev'; exact G2|].
      eapply segmented_shift with (h1 := EvDefine :: EvZero z :: h); [now apply data_same|eassumption].
    - apply segmented_refl.
    - eapply segmented_trans; [|eassumption|eassumption]. eapply runs_list_grows; eassumption.
    - apply segmented_refl.
    - eapply segmented_trans; [|eassumption|eassumption].
      match goal with H : runs_times _ _ _ _ _ _ _ |- _ => clear - H; induction H; eauto using grows_refl, grows_trans, runs_list_grows end.
  Qed.
  Lemma runs_list_segmented h r ns h' r' : runs_list cf h r ns h' r' -> segmented h r h' r'.
  Proof.
    induction 1; [apply segmented_refl|]. eapply segmented_trans; [|eapply runs_segmented; eassumption|eassumption].
    eapply runs_list_grows; eassumption.
  Qed.
  Lemma subsets_segmented ms n r hs r' : subsets_run cf ms n r hs r' -> forall l, binary_reader r l ->
    Forall (fun h => Forall no_nil_binary (data h)) hs ->
    exists segs rest, l = concat (map (@concat bool) segs) ++ rest /\ binary_reader r' rest /\
      Forall2 (fun h ss => Forall2 (bits_of cf) (data h) ss) hs segs.
  Proof.
    induction 1 as [r|n r h r1 hs r2 HR HS IH]; intros l Hl HF; [exists [], l; auto|]. inversion HF; subst.
    destruct (runs_list_segmented _ _ _ _ _ HR l Hl) as (new & ss & rest & E & -> & Hb & Hs); [assumption|].
    cbn [data app] in E. subst new. destruct (IH rest Hb) as (segs & rest' & -> & Hb' & Hs'); [assumption|].
    exists (ss :: segs), rest'. split; [cbn; now rewrite app_assoc|]. auto.
  Qed.
End Segments.
