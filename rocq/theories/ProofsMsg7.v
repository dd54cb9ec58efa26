(** Reader positions and bits keep pace while a payload is decoded. *)
From Coq Require Import ZifyBool ZifyNat.
From Verif Require Export ProofsMsg6.
From Verif Require Import ProofsBits ProofsBitProps ProofsUnpack ProofsRun7 ProofsRun11.
From Verif Require Import SpecMessage ModelFactory.
Notation field := ModelFactory.field.

(** ** Single reads *)
Definition exactly {A} (m : M reader A) : Prop := forall l e p r a, m (RBit (mkBR l e p)) = (r, Ok a) ->
  exists l' p', r = RBit (mkBR l' e p') /\ p' + blen l' = p + blen l.
Lemma ex_pure {A} (m : M reader A) : (forall r, fst (m r) = r) -> exactly m.
Proof. intros H l e p r a E. specialize (H (RBit (mkBR l e p))). rewrite E in H. cbn in H. subst r. eauto. Qed.
Lemma ex_bind {A B} (m : M reader A) (f : A -> M reader B) (P : A -> Prop) : exactly m -> (forall r r' a, m r = (r', Ok a) -> P a) ->
  (forall a, P a -> exactly (f a)) -> exactly (bind m f).
Proof.
  intros Hm HP Hf l e p r b H. apply bind_inv in H. destruct H as (r1 & a & E & H). pose proof (HP _ _ _ E) as Ha. destruct (Hm _ _ _ _ _ E) as (l1 & p1 & -> & E1).
  destruct (Hf a Ha _ _ _ _ _ H) as (l2 & p2 & -> & E2). exists l2, p2. split; [reflexivity|lia].
Qed.
Lemma ex_bind' {A B} (m : M reader A) (f : A -> M reader B) : exactly m -> (forall a, exactly (f a)) -> exactly (bind m f).
Proof. intros H1 H2. apply (ex_bind m f (fun _ => True)); auto. Qed.
Lemma ex_if {A} (b : bool) (m m' : M reader A) : exactly m -> exactly m' -> exactly (if b then m else m').
Proof. destruct b; auto. Qed.
Lemma ex_replicate {A} n (m : M reader A) : exactly m -> exactly (replicateM n m).
Proof. intros H. induction n; cbn [replicateM]; [apply ex_pure; reflexivity|]. apply ex_bind'; [exact H|]. intros a. apply ex_bind'; [exact IHn|]. intros; apply ex_pure; reflexivity. Qed.
Lemma ex_uint pl n : 0 <= n -> exactly (r_ReadUint pl n).
Proof.
  intros Hn l e p r a H. destruct (Z.le_gt_cases n (blen l)) as [Hle|Hgt].
  - destruct (cut_bits l n Hn Hle) as (seg & rest & -> & Hs). rewrite rd_uint in H by lia. injection H as <- <-. exists rest, (p + n). split; [reflexivity|]. rewrite blen_app. lia.
  - destruct (rd_uint_short pl n l e p) as (l' & E & _); [lia|]. congruence.
Qed.
Lemma ex_int pl n : 1 <= n -> exactly (r_ReadInt pl n).
Proof.
  intros Hn l e p r a H. destruct (Z.le_gt_cases n (blen l)) as [Hle|Hgt].
  - destruct (cut_bits l n ltac:(lia) Hle) as (seg & rest & -> & Hs). rewrite rd_int in H by lia. injection H as <- <-. exists rest, (p + n). split; [reflexivity|]. rewrite blen_app. lia.
  - destruct (rd_int_short pl n l e p) as (l' & p' & E & _); [lia|]. congruence.
Qed.
Lemma ex_bytes n : exactly (r_ReadBytes n).
Proof.
  intros l e p r a H. destruct (Z.ltb_spec n 0) as [Hn|Hn].
  { exfalso. unfold r_ReadBytes, on_reader, br_ReadBytes, bind, br_add_pos, modify in H. destruct (Z.ltb_spec n 0); [discriminate|lia]. }
  destruct (Z.le_gt_cases (8 * n) (blen l)) as [Hle|Hgt].
  - destruct (cut_bits l (8 * n) ltac:(lia) Hle) as (seg & rest & -> & Hs). rewrite rd_bytes in H by assumption. injection H as <- <-. exists rest, (p + 8 * n). split; [reflexivity|]. rewrite blen_app. lia.
  - destruct (rd_bytes_short n l e p Hn Hgt) as (l' & E & _). congruence.
Qed.
Lemma binary_pace n l e p r b : 0 <= n -> r_ReadBinary n (RBit (mkBR l e p)) = (r, Ok (Some b)) ->
  exists l' p', r = RBit (mkBR l' e p') /\ p' + blen l' = p + blen l.
Proof.
  intros Hn H. destruct (Z.le_gt_cases n (blen l)) as [Hle|Hgt].
  - destruct (cut_bits l n Hn Hle) as (seg & rest & -> & Hs). rewrite rd_binary in H by lia. injection H as <- <-. exists rest, (p + n). split; [reflexivity|]. rewrite blen_app. lia.
  - destruct (rd_binary_short n l e p) as (l' & E & _); [lia|]. congruence.
Qed.
Lemma binary_nil n l e p l' p' : r_ReadBinary n (RBit (mkBR l e p)) = (RBit (mkBR l' e p'), Ok None) -> blen l' < 8.
Proof.
  intros K. unfold r_ReadBinary, on_reader, br_ReadBinary, bind, br_add_pos, modify in K.
  cbn [br_bits br_err br_pos] in K. destruct (br_ReadBinary_loop _ _ _) as [r1 [u|y|q|]] eqn:E1; try discriminate. injection K as ->.
  now apply binary_loop_left in E1.
Qed.
Lemma unpack_pace pl info l e p l' p' v : sensible info -> v <> VBin None ->
  uncompressed_Unpack pl info (RBit (mkBR l e p)) = (RBit (mkBR l' e p'), Ok (UV v)) -> p' + blen l' = p + blen l.
Proof.
  intros Hs Hv H. assert (K : pi_unit info = BINARY \/ exactly (uncompressed_Unpack pl info)).
  { unfold uncompressed_Unpack, sensible in *. destruct (pi_unit info); auto; right; repeat first [apply ex_if | apply ex_bind'; [|intros ?] | apply ex_bytes | apply ex_uint; lia | apply ex_int; lia | apply ex_pure; reflexivity]. }
  destruct K as [K|K].
  - unfold uncompressed_Unpack, sensible in *. rewrite K in *. apply bind_inv in H. destruct H as (r1 & b & E & H). apply ok_inv in H. destruct H as [-> H]. injection H as <-. destruct b as [b|]; [|congruence].
    destruct (binary_pace _ _ _ _ _ _ Hs E) as (l1 & p1 & E1 & E2). injection E1 as <- <-. exact E2.
  - destruct (K _ _ _ _ _ H) as (l1 & p1 & E1 & E2). injection E1 as <- <-. exact E2.
Qed.
Lemma diff_small pl l e p r d : readNbitsDiff pl (RBit (mkBR l e p)) = (r, Ok d) -> 0 <= d /\ exists l' p', r = RBit (mkBR l' e p') /\ p' + blen l' = p + blen l.
Proof.
  intros H. unfold readNbitsDiff, NBITS_FOR_NBITS_DIFF in H. apply bind_inv in H. destruct H as (r1 & x & E & H). injection H as -> <-.
  split; [|exact (ex_uint pl 6 ltac:(lia) _ _ _ _ _ E)].
  destruct (Z.le_gt_cases 6 (blen l)) as [Hle|Hgt].
  - destruct (cut_bits l 6 ltac:(lia) Hle) as (seg & rest & -> & Hs). rewrite rd_uint in E by lia. injection E as _ <-. unfold raw.
    pose proof (msb_bound seg) as B. rewrite Hs in B. change (2 ^ 6) with 64 in B. rewrite Z.mod_small by lia. rewrite i64_small; lia.
  - destruct (rd_uint_short pl 6 l e p) as (l' & K & _); [lia|]. congruence.
Qed.
Lemma ex_diff {A} pl (f : Z -> M reader A) : (forall d, 0 <= d -> exactly (f d)) -> exactly (d <- readNbitsDiff pl ;; f d)%M.
Proof.
  intros H l e p r a E. apply bind_inv in E. destruct E as (r1 & d & E & K). destruct (diff_small _ _ _ _ _ _ E) as (Hd & l1 & p1 & -> & E1).
  destruct (H d Hd _ _ _ _ _ K) as (l2 & p2 & -> & E2). exists l2, p2. split; [reflexivity|lia].
Qed.
Lemma column_pace pl fuel n info : sensible info -> exactly (compressed_Unpack pl fuel n info).
Proof.
  intros Hs. unfold compressed_Unpack. apply ex_bind'; [|intros; apply ex_pure; reflexivity]. unfold sensible in Hs.
  destruct (pi_unit info); unfold c_unpackString, c_unpackOthers, c_unpackCode, make_values; cbv zeta;
  repeat first [apply ex_if | apply ex_diff; intros ? ? | apply ex_bind'; [|intros ?] | apply ex_bytes | apply ex_uint; lia | apply ex_int; lia | apply ex_replicate | apply ex_pure; reflexivity].
Qed.
Lemma unpack_nil pl info l e p l' p' : uncompressed_Unpack pl info (RBit (mkBR l e p)) = (RBit (mkBR l' e p'), Ok (UV (VBin None))) -> blen l' < 8.
Proof.
  unfold uncompressed_Unpack. destruct (pi_unit info); intros H.
  6:{ apply bind_inv in H. destruct H as (r1 & b & E & H). apply ok_inv in H. destruct H as [-> H]. injection H as ->. now apply binary_nil in E. }
  all: repeat match type of H with (if ?b then _ else _) _ = _ => destruct b end; try discriminate H;
    apply bind_inv in H; destruct H as (r1 & b & E & H); unfold ret in H; try discriminate H;
    apply ok_inv in H; destruct H as [_ H]; exfalso; clear - H; unfold unpackNumeric, unpackMissing in H;
    destruct (IsMissing _ _); try discriminate H; repeat match type of H with context [if ?b then _ else _] => destruct b end; discriminate H.
Qed.

(** ** Whole payloads *)
Section Pace.
  Variable cf : config.
  Hypothesis Hj : cf_json cf = false.
  Definition well_sized (x : datum) : Prop := sensible (dt_info x).
  Definition paced_by (new : list datum) (r r' : reader) : Prop :=
    forall l e p, r = RBit (mkBR l e p) -> exists l' p', r' = RBit (mkBR l' e p') /\ blen l' <= blen l /\
      (8 <= blen l' -> Forall well_sized new -> p' + blen l' = p + blen l).
  Definition paced (h : history) (r : reader) (h' : history) (r' : reader) : Prop :=
    exists new, data h' = data h ++ new /\ paced_by new r r'.
  Lemma paced_by_nil r : paced_by [] r r.
  Proof. intros l e p ->. exists l, p. split; [reflexivity|]. split; [lia|reflexivity]. Qed.
  Lemma paced_by_app n1 n2 r r1 r2 : paced_by n1 r r1 -> paced_by n2 r1 r2 -> paced_by (n1 ++ n2) r r2.
  Proof.
    intros P1 P2 l e p E. destruct (P1 _ _ _ E) as (l1 & p1 & E1 & L1 & K1). destruct (P2 _ _ _ E1) as (l2 & p2 & E2 & L2 & K2).
    exists l2, p2. split; [exact E2|]. split; [lia|]. intros H8 HF. apply Forall_app in HF. destruct HF as [F1 F2].
    specialize (K1 ltac:(lia) F1). specialize (K2 H8 F2). lia.
  Qed.
  Lemma decodes_pace d info r x r' : decodes cf d info r x r' -> paced_by [x] r r'.
  Proof.
    intros HD l e p ->. inversion HD as [v r0 _ Hc E|v r0 Hj' E|c r0 _ Hc E]; subst; [|congruence|].
    - pose proof (steady_Unpack (cf_plat cf) (cf_fuel cf) false (cf_nsubsets cf) info l e p r' _ E) as (seg & rest & dp & -> & -> & _).
      exists rest, (p + dp). split; [reflexivity|]. split; [rewrite blen_app; pose proof (blen_nonneg seg); lia|]. intros H8 HF.
      assert (NN : v <> VBin None). { intros ->. apply unpack_nil in E. lia. }
      inversion HF; subst. eapply unpack_pace; eassumption.
    - pose proof (steady_Unpack (cf_plat cf) (cf_fuel cf) true (cf_nsubsets cf) info l e p r' _ E) as (seg & rest & dp & -> & -> & _).
      exists rest, (p + dp). split; [reflexivity|]. split; [rewrite blen_app; pose proof (blen_nonneg seg); lia|]. intros H8 HF.
      inversion HF as [|? ? Hs _]; subst. destruct (column_pace _ _ _ _ Hs _ _ _ _ _ E) as (l1 & p1 & E1 & E2). injection E1 as <- <-. exact E2.
  Qed.
  Lemma fields_pace d ws r fs r' : fields cf d ws r fs r' -> paced_by fs r r'.
  Proof.
    induction 1 as [r|w ws r x r1 xs r' HD HF IH]; [apply paced_by_nil|].
    change (x :: xs) with ([x] ++ xs). eapply paced_by_app; [eapply decodes_pace; eassumption|exact IH].
  Qed.
  Lemma paced_refl h r : paced h r h r.
  Proof. exists []. split; [now rewrite app_nil_r|apply paced_by_nil]. Qed.
  Lemma paced_trans h r h1 r1 h2 r2 : paced h r h1 r1 -> paced h1 r1 h2 r2 -> paced h r h2 r2.
  Proof. intros (n1 & E1 & P1) (n2 & E2 & P2). exists (n1 ++ n2). split; [rewrite E2, E1; now rewrite app_assoc|eapply paced_by_app; eassumption]. Qed.
  Lemma paced_data h h' r : data h' = data h -> paced h r h' r.
  Proof. intros E. exists []. split; [now rewrite E, app_nil_r|apply paced_by_nil]. Qed.
  Lemma paced_one h e x d info r r' : ev_data e = [x] -> decodes cf d info r x r' -> paced h r (e :: h) r'.
  Proof. intros He HD. exists [x]. split; [cbn [data]; now rewrite He|eapply decodes_pace; eassumption]. Qed.
  Lemma paced_zero od r z r' h : zero_cell cf od r z r' -> paced h r (EvZero z :: h) r'.
  Proof.
    intros HZ. inversion HZ as [Hc|d x r0 Hc Hd HD|d r0 Hc Hd [e HU]]; subst.
    - apply paced_data. now apply data_same.
    - eapply paced_one; eauto. reflexivity.
    - exfalso. rewrite Hj in HU. destruct (cf_compressed cf); [|discriminate HU].
      unfold compressed_Unpack, make_values in HU. cbn in HU. destruct (cf_nsubsets cf <? 0); discriminate HU.
  Qed.
  Lemma paced_shift h1 h r h2 r2 : data h1 = data h -> paced h1 r h2 r2 -> paced h r h2 r2.
  Proof. intros E (n & K & P). exists n. rewrite <- E. auto. Qed.
  Lemma paced_end h r h1 h2 r2 : data h2 = data h1 -> paced h r h1 r2 -> paced h r h2 r2.
  Proof. intros E (n & K & P). exists n. rewrite E. auto. Qed.
  Lemma runs_paced h r n h' r' : runs cf h r n h' r' -> paced h r h' r'.
  Proof.
    intros H. induction H using runs_mut
      with (P0 := fun h r _ h' r' _ => paced h r h' r') (P1 := fun _ h r _ h' r' _ => paced h r h' r').
    - apply paced_data. now apply data_same.
    - exists (fs ++ [x]). split; [reflexivity|]. eapply paced_by_app; [eapply fields_pace; eassumption|eapply decodes_pace; eassumption].
    - eapply paced_one; eauto. reflexivity.
    - assumption.
    - assumption.
    - eapply paced_trans; eassumption.
    - apply paced_data. now apply data_same.
    - apply paced_data. now apply data_same.
    - eapply paced_shift; [|eassumption]. now apply data_same.
    - eapply paced_one; eauto. reflexivity.
    - eapply paced_one; eauto. reflexivity.
    - eapply paced_shift; [|eassumption]. now apply data_same.
    - eapply paced_shift with (h1 := EvAssess od :: h); [now apply data_same|].
      eapply paced_trans; [eapply paced_zero; eassumption|].
      eapply paced_trans; [eassumption|].
      eapply paced_trans; [eassumption|].
      eapply paced_shift with (h1 := EvTargets ps :: h3); [now apply data_same|eassumption].
    - eapply paced_one; eauto. reflexivity.
    - apply paced_data. now apply data_same.
    - apply paced_data. now apply data_same.
    - eapply paced_end with (h1 := EvZero z :: h); [now apply data_same|]. eapply paced_zero; eassumption.
    - eapply paced_end with (h1 := h'); [now apply data_same|].
      eapply paced_trans; [eapply paced_zero; eassumption|].
      eapply paced_shift with (h1 := EvDefine :: EvZero z :: h); [now apply data_same|eassumption].
    - apply paced_refl.
    - eapply paced_trans; eassumption.
    - apply paced_refl.
    - eapply paced_trans; eassumption.
  Qed.
  Lemma runs_list_paced r ns h' r' : runs_list cf [] r ns h' r' -> paced_by (data h') r r'.
  Proof.
    intros H. assert (K : paced [] r h' r'). { induction H; [apply paced_refl|]. eapply paced_trans; [eapply runs_paced; eassumption|eassumption]. }
    destruct K as (n & E & P). cbn [data app] in E. now rewrite E.
  Qed.
  Lemma subsets_paced ms n r hs r' : subsets_run cf ms n r hs r' -> paced_by (concat (map data hs)) r r'.
  Proof.
    induction 1 as [r|n r h r1 hs r2 HR HS IH]; [apply paced_by_nil|]. cbn. eapply paced_by_app; [eapply runs_list_paced; eassumption|exact IH].
  Qed.
  Lemma executes_paced ms r hs r' : executes cf ms r hs r' -> paced_by (concat (map data hs)) r r'.
  Proof.
    unfold executes. destruct (columns cf); [|apply subsets_paced]. intros (h & -> & H). cbn. rewrite app_nil_r. eapply runs_list_paced; eassumption.
  Qed.
End Pace.
(** The packing information of the data is that of the cells that show them. *)
Lemma shown_sized cf hs pay : some_subset cf -> shows cf hs pay ->
  (forall sb c, In sb pay -> In c (sb_cells sb) -> sensible (vn_info (c_node c))) -> Forall well_sized (concat (map data hs)).
Proof.
  intros Hs H HN.
  assert (K : forall k h sb, In sb pay -> lane_ok k (data h) (sb_cells sb) -> Forall well_sized (data h)).
  { intros k h sb Hi [HL HI]. apply Forall_forall. intros x Hx. apply In_nth_error in Hx. destruct Hx as [i Hx].
    destruct (nth_error (sb_cells sb) i) as [c|] eqn:Ec; [|apply nth_error_None in Ec; assert (nth_error (data h) i <> None) as Hn by congruence; apply nth_error_Some in Hn; lia].
    specialize (HI i x c Hx Ec). specialize (HN sb c Hi (nth_error_In _ _ Ec)). unfold is_cell in HI. decompose [and] HI. unfold well_sized. congruence. }
  unfold shows in H. unfold some_subset in Hs. destruct (columns cf).
  - destruct H as (h & -> & HL & HI). specialize (Hs eq_refl). destruct pay as [|sb pay]; [cbn in HL; lia|].
    cbn. rewrite app_nil_r. eapply (K 0%nat); [left; reflexivity|]. now apply (HI 0%nat).
  - clear Hs HN. assert (K' : forall h sb, In sb pay -> lane_ok 0 (data h) (sb_cells sb) -> Forall well_sized (data h)) by (intros h sb; apply K).
    clear K. induction H as [|h sb hs pay HL HF IH]; [constructor|]. cbn. apply Forall_app. split; [eapply K'; [left; reflexivity|exact HL]|].
    apply IH. intros; eapply K'; [right; eassumption|eassumption].
Qed.
Lemma pay_exact fc g ids n c bits moved subs : is_payload fc g ids n c bits moved subs -> (c = true -> subs <> []) ->
  (forall sb x, In sb subs -> In x (sb_cells sb) -> sensible (vn_info (c_node x))) -> moved = blen bits.
Proof.
  intros (tree & HP & HR) Hn HS. destruct (HR (repeat false 8) EEof 0) as (vs & E & Er & Ep).
  assert (Ht : exists ms, tree = root ms).
  { unfold Parse in HP. destruct (processThrough _ _ _) as [s [ms|y|q|]]; try discriminate HP. cbn [snd] in HP. injection HP as <-. now exists ms. }
  destruct Ht as [ms ->]. set (cf := mkConfig c false (fc_compatible fc) n (fc_plat fc) (fc_fuel fc)) in *.
  assert (Hb : Forall no_base ms). { eapply parsed_no_base. exists (fc_fuel fc). exact HP. }
  assert (Hs : some_subset cf).
  { unfold some_subset, columns, cf. cbn. rewrite Bool.andb_true_r. intros Hc. specialize (Hn Hc). pose proof (payload_count cf ms _ vs Hb E) as L. rewrite Ep in L.
    destruct subs; [congruence|]. cbn [length cf_nsubsets cf] in L. lia. }
  destruct (run_payload_sound cf ms _ vs Hb Hs E) as (hs & HX & HH).
  apply executes_paced in HX; [|reflexivity]. destruct (HX _ _ _ eq_refl) as (l' & p' & E1 & _ & K). rewrite Er in E1. injection E1 as El Epos. symmetry in El. subst l'. subst p'.
  assert (F : Forall well_sized (concat (map data hs))). { apply (shown_sized cf hs (v_pay vs) Hs HH). rewrite Ep. exact HS. }
  specialize (K ltac:(vm_compute; discriminate) F). rewrite blen_app in K. change (blen (repeat false 8)) with 8 in K. change (blen [false; false; false; false; false; false; false; false]) with 8 in K. lia.
Qed.
