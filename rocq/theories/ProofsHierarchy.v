(** Lemmas for C92. *)
From Verif Require Import ProofsRun8 ProofsParser3.
From Verif Require Export SpecHierarchy.

Definition isv (k : nkind) : bool := match k with NValued _ => true | _ => false end.
Definition kind_at (h : list hnode) (j : nat) : option bool := option_map (fun n => isv (h_kind n)) (nth_error h j).
Definition good (h : list hnode) : Prop := forall i n j, nth_error h i = Some n -> In (Some j) (h_members n) ->
  if isv (h_kind n) then (j < i)%nat /\ kind_at h j = Some true else (i < j)%nat /\ (j < length h)%nat.

(** ** Good heaps can be walked *)
Lemma kind_lt h j b : kind_at h j = Some b -> (j < length h)%nat.
Proof. unfold kind_at. intros H. apply nth_error_Some. destruct (nth_error h j); [discriminate|discriminate H]. Qed.
Lemma lt_kind h j : (j < length h)%nat -> exists b, kind_at h j = Some b.
Proof. unfold kind_at. intros H. apply nth_error_Some in H. destruct (nth_error h j); [eexists; reflexivity|contradiction]. Qed.
Definition rank (h : list hnode) (i : nat) : nat := match kind_at h i with Some true => i | _ => (length h + (length h - i))%nat end.
Lemma rank_down h i j : good h -> member_of h i j -> (rank h j < rank h i)%nat.
Proof.
  intros G (n & E & Hj). pose proof (G i n j E Hj) as K. assert (Ki : kind_at h i = Some (isv (h_kind n))) by (unfold kind_at; now rewrite E).
  unfold rank. rewrite Ki. pose proof (kind_lt _ _ _ Ki). destruct (isv (h_kind n)).
  - destruct K as [K1 K2]. rewrite K2. exact K1.
  - destruct K as [K1 K2]. destruct (lt_kind h j K2) as [b Eb]. rewrite Eb. destruct b; lia.
Qed.
Lemma walk_rank h : good h -> forall k i, walk h k i -> (k <= rank h i)%nat.
Proof. intros G. induction k as [|k IH]; intros i H; [lia|]. destruct H as (j & H1 & H2). apply IH in H2. apply (rank_down h i j G) in H1. lia. Qed.
Lemma rank_bound h i : (rank h i <= 2 * length h)%nat.
Proof. unfold rank. destruct (kind_at h i) as [[|]|] eqn:E; [apply kind_lt in E; lia|lia|lia]. Qed.

(** ** Heap operations *)
Lemma heap_add_nth h : forall i m k, nth_error (heap_add h i m) k = if Nat.eqb k i then option_map (fun n => mkHnode (h_kind n) (h_members n ++ [m])) (nth_error h k) else nth_error h k.
Proof.
  induction h as [|n h IH]; intros i m k; cbn [heap_add]; [destruct k as [|k]; cbn [nth_error option_map]; match goal with |- context [if ?b then _ else _] => now destruct b end|].
  destruct i as [|i], k as [|k]; cbn [nth_error Nat.eqb]; try reflexivity. apply IH.
Qed.
Lemma heap_add_kind h i m j : kind_at (heap_add h i m) j = kind_at h j.
Proof. unfold kind_at. rewrite heap_add_nth. destruct (Nat.eqb j i); [|reflexivity]. now destruct (nth_error h j). Qed.
Lemma heap_add_len h : forall i m, length (heap_add h i m) = length h.
Proof. induction h as [|n h IH]; intros [|i] m; cbn; auto. Qed.
Lemma app_kind h k j b : kind_at h j = Some b -> kind_at (h ++ [mkHnode k []]) j = Some b.
Proof. intros H. unfold kind_at in *. rewrite nth_error_app1; [exact H|]. now apply (kind_lt h j b). Qed.
Lemma good_add h i m : good h -> (forall j, m = Some j -> kind_at h i = Some true -> (j < i)%nat /\ kind_at h j = Some true) ->
  (forall j, m = Some j -> kind_at h i = Some false -> (i < j)%nat /\ (j < length h)%nat) -> good (heap_add h i m).
Proof.
  intros G H1 H2 k n j E Hj. rewrite heap_add_nth in E. rewrite heap_add_kind, heap_add_len. destruct (Nat.eqb_spec k i) as [->|].
  - destruct (nth_error h i) as [n0|] eqn:E0; [|discriminate]. injection E as <-. cbn [h_kind h_members] in *.
    assert (Ki : kind_at h i = Some (isv (h_kind n0))) by (unfold kind_at; now rewrite E0).
    apply in_app_or in Hj. destruct Hj as [Hj|[Hj|[]]]; [exact (G i n0 j E0 Hj)|]. rewrite Ki in *. destruct (isv (h_kind n0)); [now apply H1|now apply H2].
  - exact (G k n j E Hj).
Qed.
Lemma good_alloc h k : good h -> good (h ++ [mkHnode k []]).
Proof.
  intros G i n j E Hj. destruct (Nat.lt_ge_cases i (length h)) as [Hi|Hi].
  - rewrite nth_error_app1 in E by exact Hi. pose proof (G i n j E Hj) as K. destruct (isv (h_kind n)).
    + destruct K. split; [assumption|now apply app_kind].
    + rewrite app_length. cbn. lia.
  - rewrite nth_error_app2 in E by exact Hi. destruct (i - length h)%nat as [|x]; [|destruct x; discriminate]. injection E as <-. destruct Hj.
Qed.

(** ** The invariant *)
Definition hp (s : vst) := t_heap (v_tree s).
Definition inv (s : vst) : Prop := good (hp s) /\
  (forall i, In i (t_node (v_tree s) :: t_stack (v_tree s)) -> kind_at (hp s) i = Some false) /\
  (forall w j, In (w, Some j) (g_assoc (v_regs s)) -> kind_at (hp s) j = Some true).
Definition ext (s s' : vst) : Prop := forall j b, kind_at (hp s) j = Some b -> kind_at (hp s') j = Some b.
Definition T {A} (P : vst -> Prop) (m : M vst A) (Q : A -> vst -> Prop) : Prop := forall s, inv s -> P s ->
  inv (fst (m s)) /\ ext s (fst (m s)) /\ forall a, snd (m s) = Ok a -> Q a (fst (m s)).
Notation triv := (fun _ : vst => True).
Notation triv2 := (fun _ (_ : vst) => True).
Definition K (js : list nat) (s : vst) : Prop := Forall (fun j => kind_at (hp s) j = Some true) js.
Lemma ext_refl s : ext s s. Proof. intros j b H. exact H. Qed.
Lemma ext_trans a b c : ext a b -> ext b c -> ext a c. Proof. intros H1 H2 j x H. apply H2, H1, H. Qed.
Lemma K_ext js s s' : ext s s' -> K js s -> K js s'. Proof. intros E H. eapply Forall_impl; [|exact H]. intros j Hj. now apply E. Qed.

Lemma T_weak {A} (P P' : vst -> Prop) (m : M vst A) (Q Q' : A -> vst -> Prop) : (forall s, P' s -> P s) -> (forall a s, Q a s -> Q' a s) -> T P m Q -> T P' m Q'.
Proof. intros H1 H2 H s I Ps. destruct (H s I (H1 s Ps)) as (A1 & A2 & A3). split; [exact A1|]. split; [exact A2|]. intros a Ha. apply H2, A3, Ha. Qed.
Lemma T_frame {A} P (m : M vst A) Q js : T P m Q -> T (fun s => P s /\ K js s) m (fun a s => Q a s /\ K js s).
Proof. intros H s I [Ps Ks]. destruct (H s I Ps) as (A1 & A2 & A3). split; [exact A1|]. split; [exact A2|]. intros a Ha. split; [apply A3, Ha|eapply K_ext; eassumption]. Qed.
Lemma T_bind {A B} P (m : M vst A) Q (f : A -> M vst B) R : T P m Q -> (forall a, T (Q a) (f a) R) -> T P (bind m f) R.
Proof.
  intros Hm Hf s I Ps. destruct (Hm s I Ps) as (A1 & A2 & A3). unfold bind. destruct (m s) as [s1 [a|e|p|]]; cbn [fst snd] in *; try (split; [exact A1|split; [exact A2|discriminate]]).
  destruct (Hf a s1 A1 (A3 a eq_refl)) as (B1 & B2 & B3). split; [exact B1|]. split; [eapply ext_trans; eassumption|exact B3].
Qed.
Lemma T_bind0 {A B} P (m : M vst A) (f : A -> M vst B) R : T P m triv2 -> (forall a, T triv (f a) R) -> T P (bind m f) R.
Proof. apply T_bind. Qed.
Lemma T_same {A} P (m : M vst A) : (forall s, v_tree (fst (m s)) = v_tree s /\ g_assoc (v_regs (fst (m s))) = g_assoc (v_regs s)) -> T P m triv2.
Proof.
  intros H s (I1 & I2 & I3) _. destruct (H s) as [E1 E2]. unfold inv, ext, hp. rewrite E1, E2. split; [split; [exact I1|split; [exact I2|exact I3]]|]. split; [apply ext_refl|]. auto.
Qed.
Lemma T_keep {A} js (m : M vst A) : (forall s, v_tree (fst (m s)) = v_tree s /\ g_assoc (v_regs (fst (m s))) = g_assoc (v_regs s)) -> T (K js) m (fun _ => K js).
Proof. intros H. eapply T_weak; [| |apply (T_frame triv m triv2 js), T_same, H]; [intros s Ks; exact (conj I Ks)|intros a s [_ Ks]; exact Ks]. Qed.
Lemma T_from {A} (X : Prop) P (m : M vst A) Q : (X -> T P m Q) -> T (fun s => X /\ P s) m Q.
Proof. intros H s I [x Ps]. exact (H x s I Ps). Qed.
Lemma T_ret {A} (P : vst -> Prop) (a : A) (Q : A -> vst -> Prop) : (forall s, P s -> Q a s) -> T P (ret a) Q.
Proof. intros H s I Ps. split; [exact I|]. split; [apply ext_refl|]. intros a' E. injection E as <-. now apply H. Qed.
Lemma T_wrap {A} P t (m : M vst A) Q : T P m Q -> T P (wrap t m) Q.
Proof. intros H s I Ps. destruct (H s I Ps) as (A1 & A2 & A3). unfold wrap. destruct (m s) as [s1 [a|e|p|]]; cbn [fst snd] in *; split; auto; split; auto; discriminate. Qed.
Lemma T_defer {A} f (m : M vst A) : T triv f triv2 -> T triv m triv2 -> T triv (deferM f m) triv2.
Proof.
  intros Hf Hm s I Ps. destruct (Hm s I Ps) as (A1 & A2 & A3). unfold deferM. destruct (m s) as [s1 x]. cbn [fst] in *.
  destruct (Hf s1 A1 Logic.I) as (B1 & B2 & B3). pose proof (ext_trans _ _ _ A2 B2). destruct (f s1) as [s2 [a|e|p|]]; cbn [fst snd] in *; split; auto.
Qed.
Lemma T_mapM_ {A B} (f : A -> M vst B) l : Forall (fun a => T triv (f a) triv2) l -> T triv (mapM_ f l) triv2.
Proof. induction 1; cbn [mapM_]; [apply T_ret; auto|]. apply T_bind0; auto. Qed.
Lemma T_iter z m : T triv m triv2 -> T triv (iter_Z z m) triv2.
Proof.
  intros H s I Ps. rewrite iter_Z_nat. revert s I Ps. change (T triv (iterN (Z.to_nat z) m) triv2). induction (Z.to_nat z) as [|n IH]; cbn [iterN]; [apply T_ret; auto|]. apply T_bind0; auto.
Qed.
Lemma T_if {A} (b : bool) P (m m' : M vst A) Q : T P m Q -> T P m' Q -> T P (if b then m else m') Q.
Proof. destruct b; auto. Qed.

Lemma T_alloc js k : T (K js) (alloc k) (fun i s => kind_at (hp s) i = Some (isv k) /\ (t_node (v_tree s) < i)%nat /\ (i < length (hp s))%nat /\ K js s /\ Forall (fun j => (j < i)%nat) js).
Proof.
  intros s (I1 & I2 & I3) Ks. unfold alloc. cbn [fst snd]. set (s' := set_tree _ s).
  assert (E : hp s' = hp s ++ [mkHnode k []]) by reflexivity.
  assert (X : ext s s') by (intros j b H; rewrite E; now apply app_kind).
  split; [|split; [exact X|]].
  - split; [rewrite E; now apply good_alloc|]. split; [intros i Hi; apply X, I2, Hi|intros w j Hj; apply X, (I3 w j Hj)].
  - intros a Ea. injection Ea as <-. fold (hp s). rewrite E. split; [unfold kind_at; rewrite nth_error_app2, Nat.sub_diag by lia; reflexivity|].
    split; [apply (kind_lt (hp s) _ false), I2; now left|]. split; [rewrite app_length; cbn; lia|]. split; [eapply K_ext; eassumption|].
    eapply Forall_impl; [|exact Ks]. intros j Hj. now apply kind_lt in Hj.
Qed.
Lemma T_member (P : vst -> Prop) i m : (forall s, inv s -> P s -> (forall j, m = Some j -> kind_at (hp s) i = Some true -> (j < i)%nat /\ kind_at (hp s) j = Some true) /\
  (forall j, m = Some j -> kind_at (hp s) i = Some false -> (i < j)%nat /\ (j < length (hp s))%nat)) -> T P (AddMember i m) triv2.
Proof.
  intros H s I Ps. destruct (H s I Ps) as [H1 H2]. destruct I as (I1 & I2 & I3). unfold AddMember, modify. cbn [fst snd]. set (s' := set_tree _ s).
  assert (E : hp s' = heap_add (hp s) i m) by reflexivity. assert (X : ext s s') by (intros j b Hb; rewrite E, heap_add_kind; exact Hb).
  split; [|split; [exact X|auto]]. split; [rewrite E; now apply good_add|]. split; [intros x Hx; apply X, I2, Hx|intros w j Hj; apply X, (I3 w j Hj)].
Qed.
Lemma T_Add i : T (fun s => (t_node (v_tree s) < i)%nat /\ (i < length (hp s))%nat) (tree_Add i) triv2.
Proof.
  intros s I [P1 P2]. unfold tree_Add, bind, gets. cbn [fst snd]. apply (T_member (fun s0 => s0 = s)); [|exact I|reflexivity]. intros s0 I0 ->.
  assert (Kn : kind_at (hp s) (t_node (v_tree s)) = Some false) by (apply I; now left). split; intros j Ej Hk; [congruence|]. injection Ej as <-. auto.
Qed.
Lemma T_valueless d : T triv (add_valueless d) triv2.
Proof.
  unfold add_valueless. eapply T_bind; [apply (T_weak (K []) _ _ _ _ (fun _ _ => Forall_nil _) (fun _ _ H => H)), T_alloc|]. intros i. cbv beta.
  apply (T_weak (fun s => (t_node (v_tree s) < i)%nat /\ (i < length (hp s))%nat) _ _ triv2); [intros s H; tauto|auto|apply T_Add].
Qed.
Lemma T_Push i : T (fun s => kind_at (hp s) i = Some false) (tree_Push i) triv2.
Proof.
  intros s (I1 & I2 & I3) Ps. unfold tree_Push, modify. cbn [fst snd]. split; [|split; [intros j b H; exact H|auto]].
  split; [exact I1|]. split; [|exact I3]. cbn. intros x [<-|Hx]; [exact Ps|now apply I2].
Qed.
Lemma T_Pop : T triv tree_Pop triv2.
Proof.
  intros s I _. unfold tree_Pop. destruct (t_stack (v_tree s)) as [|p st] eqn:E; cbn [fst snd]; [split; [exact I|]; split; [apply ext_refl|discriminate]|].
  destruct I as (I1 & I2 & I3). split; [|split; [intros j b H; exact H|auto]]. split; [exact I1|]. split; [|exact I3]. cbn. intros x Hx. apply I2. rewrite E. now right.
Qed.
Lemma T_push_new k : isv k = false -> T triv (i <- alloc k ;; tree_Push i)%M triv2.
Proof.
  intros Hk. eapply T_bind; [apply (T_weak (K []) _ _ _ _ (fun _ _ => Forall_nil _) (fun _ _ H => H)), T_alloc|]. intros i. cbv beta. rewrite Hk.
  apply (T_weak (fun s => kind_at (hp s) i = Some false) _ _ triv2); [intros s H; tauto|auto|apply T_Push].
Qed.
Definition fresh (js : list nat) (n : vnode) (s : vst) : Prop := kind_at (hp s) (vn_id n) = Some true /\ K js s /\ Forall (fun j => (j < vn_id n)%nat) js.
Lemma T_valued js d info u : T (K js) (add_valued d info u) (fresh js).
Proof.
  unfold add_valued. eapply T_bind; [apply T_keep; intros s; unfold Len, lift_res; now split|]. intros idx. cbv beta.
  intros s I Ks. unfold bind at 1, gets at 1. cbv beta iota zeta. set (n := mkVnode _ d info idx _ _).
  assert (G : T (fun s0 => s0 = s) (i <- alloc (NValued n) ;; tree_Add i ;; cs <- gets v_cells ;;
    match cs, u with
    | UCells l, UV v => modify (set_cells (UCells (l ++ [mkCell n v])))
    | CCells ts, UC c => ts' <- lift_res (add_column n ts (cv_vals c)) ;; modify (set_cells (CCells ts'))
    | _, _ => throw PType
    end ;; ret n)%M (fresh js)); [|apply G; [exact I|reflexivity]]. clear I.
  eapply (T_bind _ _ (fun i s1 => i = vn_id n /\ kind_at (hp s1) i = Some true /\ (t_node (v_tree s1) < i)%nat /\ (i < length (hp s1))%nat /\ K js s1 /\ Forall (fun j => (j < i)%nat) js)).
  { intros s0 I0 ->. destruct (T_alloc js (NValued n) s I0 Ks) as (A1 & A2 & A3). split; [exact A1|]. split; [exact A2|]. intros a Ea.
    assert (Ei : a = vn_id n) by (unfold alloc in Ea; cbn [snd] in Ea; injection Ea as <-; reflexivity). exact (conj Ei (A3 a Ea)). }
  intros i. apply T_from. intros Ei. rewrite Ei. intros s1 I1 (H1 & H2 & H3 & H4 & H5). revert s1 I1 H1 H2 H3 H4.
  assert (G : T (fun s1 => ((t_node (v_tree s1) < vn_id n)%nat /\ (vn_id n < length (hp s1))%nat) /\ K (vn_id n :: js) s1) (tree_Add (vn_id n) ;; cs <- gets v_cells ;;
    match cs, u with
    | UCells l, UV v => modify (set_cells (UCells (l ++ [mkCell n v])))
    | CCells ts, UC c => ts' <- lift_res (add_column n ts (cv_vals c)) ;; modify (set_cells (CCells ts'))
    | _, _ => throw PType
    end ;; ret n)%M (fresh js)).
  { eapply T_bind; [apply T_frame, T_Add|]. intros ?. cbv beta. eapply T_bind; [apply T_frame, T_same; intros s1; now split|]. intros cs. cbv beta.
    eapply T_bind; [apply T_frame|intros ?; cbv beta; apply T_ret; intros s1 [_ H]; inversion H; subst; split; [assumption|]; split; assumption].
    destruct cs as [l|ts], u as [v|c]; try (apply T_same; intros s1; now split). apply T_bind0; [apply T_same; intros s1; now split|]. intros ts'. apply T_same. intros s1; now split. }
  intros s1 I1 H1 H2 H3 H4. apply G; [exact I1|]. split; [split; assumption|]. constructor; assumption.
Qed.

(** ** Visits *)
Definition same (t : tree) (l : list (Z * option nat)) (s : vst) : Prop := v_tree s = t /\ g_assoc (v_regs s) = l.
Lemma same_of {A} (m : M vst A) : (forall t l s, same t l s -> same t l (fst (m s))) -> forall s, v_tree (fst (m s)) = v_tree s /\ g_assoc (v_regs (fst (m s))) = g_assoc (v_regs s).
Proof. intros H s. apply (H (v_tree s) (g_assoc (v_regs s)) s). now split. Qed.
Lemma T_build cf js d info : T (K js) (buildValuedNodeWithInfo cf d info) (fresh js).
Proof.
  unfold buildValuedNodeWithInfo. eapply T_bind; [apply T_wrap, T_keep, same_of; intros t l s0 H0; revert s0 H0; apply (ke_Unpack cf (same t l)); intros s r H; exact H|]. intros u. apply T_valued.
Qed.
Lemma T_calc_keep js d : T (K js) (calcPackingInfo d) (fun _ => K js).
Proof. apply T_keep, same_of. intros t l. apply (ke_calc (same t l)). Qed.
Lemma T_buildValued cf js d : T (K js) (buildValuedNode cf d) (fresh js).
Proof. unfold buildValuedNode. eapply T_bind; [apply T_wrap, T_calc_keep|]. intros info. apply T_build. Qed.
Lemma T_drop {A} (m : M vst A) Q : T (K []) m Q -> T triv m triv2.
Proof. apply T_weak; [intros; constructor|auto]. Qed.
Lemma T_build0 cf d info : T triv (buildValuedNodeWithInfo cf d info) triv2.
Proof. eapply T_drop, T_build. Qed.
Lemma T_need od : T triv (need od) triv2.
Proof. apply T_same. intros s. destruct od; now split. Qed.
Lemma T_zero cf od : T triv (buildZeroNode cf od) triv2.
Proof.
  intros s I Ps. unfold buildZeroNode. destruct (cf_compatible cf); [|now apply T_valueless].
  pose proof (T_bind0 _ _ (fun dd => buildValuedNodeWithInfo cf dd (plain_info NONNEG_CODE 0)) _ (T_need od) (fun dd => T_build0 cf dd _) s I Ps) as (A1 & A2 & _).
  destruct (bind _ _ s) as [s1 [a|e|q|]]; cbn [fst snd] in *; auto.
Qed.
Definition ids (l : list vnode) := map vn_id l.
Definition targets (l : list (Z * option nat)) : list nat := flat_map (fun p => match snd p with Some j => [j] | None => [] end) l.
Lemma K_app a b s : K (a ++ b) s <-> K a s /\ K b s.
Proof. apply Forall_app. Qed.
Lemma T_assoc_one cf d w o js : T (K (targets [(w, o)] ++ js)) (n <- wrap "cannot build associated field node"
                   (buildValuedNodeWithInfo cf (DecorateDescriptor d) (plain_info NONNEG_CODE w)) ;;
            AddMember (vn_id n) o ;; ret n)%M (fun n => K (vn_id n :: targets [(w, o)] ++ js)).
Proof.
  eapply T_bind; [apply T_wrap, T_build|]. intros n. cbv beta.
  eapply (T_bind _ _ (fun _ => K (vn_id n :: targets [(w, o)] ++ js))); [|intros _; apply T_ret; auto].
  eapply T_weak; [| |apply (T_frame (fresh (targets [(w, o)] ++ js) n) _ triv2 (vn_id n :: targets [(w, o)] ++ js))].
  - intros s H. split; [exact H|]. destruct H as (H1 & H2 & _). now constructor.
  - intros a s [_ H]. exact H.
  - apply T_member. intros s I (H1 & H2 & H3). split; intros j -> Hk; [|congruence]. cbn in H2, H3. inversion H2; inversion H3; subst. auto.
Qed.
Lemma T_assoc_all cf d l : forall js, T (K (targets l ++ js)) (mapM (fun p => n <- wrap "cannot build associated field node"
                   (buildValuedNodeWithInfo cf (DecorateDescriptor d) (plain_info NONNEG_CODE (fst p))) ;;
            AddMember (vn_id n) (snd p) ;; ret n) l)%M (fun ns => K (ids ns)).
Proof.
  induction l as [|[w o] l IH]; intros js; cbn [mapM]; [apply T_ret; intros; constructor|].
  eapply T_bind.
  { eapply T_weak; [| |apply (T_assoc_one cf d w o (targets l ++ js))]; [|intros a s H; exact H]. intros s H. cbn [targets flat_map snd] in *. destruct o; exact H. }
  intros n. cbv beta. eapply (T_bind _ _ (fun ns s => K (ids ns) s /\ K [vn_id n] s)); [|intros ns; apply T_ret; intros s [H1 H2]; inversion H2; subst; constructor; assumption].
  eapply T_weak; [|intros ns s H; exact H|apply (T_frame (K (targets l ++ js)) _ (fun ns => K (ids ns)) [vn_id n]), (IH js)].
  intros s H. inversion H as [|? ? Hn Hr]; subst. split; [|constructor; [exact Hn|constructor]]. apply K_app in Hr. apply Hr.
Qed.
Lemma T_assoc cf d : T triv (buildAssocNodes cf d) (fun ns => K (ids ns)).
Proof.
  intros s I _. unfold buildAssocNodes, bind, gets. cbv beta iota. destruct (id_X (d_id d) =? 31); [apply (T_ret triv [] (fun ns => K (ids ns)) (fun _ _ => Forall_nil _) s I Logic.I)|].
  apply (T_assoc_all cf d _ []); [exact I|]. rewrite app_nil_r. apply Forall_forall. intros j Hj. unfold targets in Hj. apply in_flat_map in Hj.
  destruct Hj as ([w [x|]] & H1 & H2); [|destruct H2]. destruct H2 as [<-|[]]. apply I with (w := w). exact H1.
Qed.
Lemma T_members e l : T (fun s => kind_at (hp s) e = Some true /\ K l s /\ Forall (fun j => (j < e)%nat) l) (mapM_ (fun j => AddMember e (Some j)) l) triv2.
Proof.
  induction l as [|j l IH]; cbn [mapM_]; [apply T_ret; auto|].
  intros s I (H1 & H2 & H3). inversion H2; inversion H3; subst. revert s I H1 H2 H3 H4 H5.
  assert (G : Forall (fun j => (j < e)%nat) (j :: l) -> T (K (e :: j :: l)) (AddMember e (Some j) ;; mapM_ (fun j => AddMember e (Some j)) l)%M triv2).
  { intros H3. eapply (T_bind _ _ (fun _ => K (e :: l))).
    - eapply T_weak; [| |apply (T_frame (K (e :: j :: l)) _ triv2 (e :: l)), T_member].
      + intros s H. split; [exact H|]. inversion H as [|? ? H1 H2]; inversion H2; subst. now constructor.
      + intros a s [_ H]. exact H.
      + intros s I H. inversion H as [|? ? H1 H2]; inversion H2; inversion H3; subst. split; intros j0 E Hk; [injection E as <-; auto|congruence].
    - intros _. eapply T_weak; [|auto|exact IH]. intros s H. inversion H; subst. inversion H3; subst. auto. }
  intros s I H1 H2 H3 _ _ . apply (G H3); [exact I|]. now constructor.
Qed.
Lemma T_element cf np od : T triv (visit_element cf np od) triv2.
Proof.
  unfold visit_element. apply T_if; [apply T_valueless|]. apply T_bind0; [apply T_need|]. intros d. eapply T_bind; [apply T_wrap, T_assoc|]. intros l. cbv beta.
  eapply T_bind; [apply T_wrap, T_buildValued|]. intros e. pose proof (T_members (vn_id e) (ids l)) as G. unfold fresh.
  replace (mapM_ (fun n => AddMember (vn_id e) (Some (vn_id n))) l) with (mapM_ (fun j => AddMember (vn_id e) (Some j)) (ids l)); [exact G|].
  clear. unfold ids. induction l as [|n l IH]; cbn [map mapM_]; [reflexivity|]. now rewrite IH.
Qed.
Lemma in_removelast {A} (x : A) l : In x (removelast l) -> In x l.
Proof. induction l as [|a l IH]; [auto|]. cbn [removelast]. destruct l; [intros []|]. intros [H|H]; [now left|right; now apply IH]. Qed.
Lemma T_regs (P : vst -> Prop) f : (forall s w j, inv s -> P s -> In (w, Some j) (g_assoc (f (v_regs s))) -> kind_at (hp s) j = Some true) -> T P (upd_regs f) triv2.
Proof.
  intros H s I Ps. unfold upd_regs, modify. cbn [fst snd]. split; [|split; [intros j b Hb; exact Hb|auto]].
  split; [apply I|]. split; [apply I|]. cbn. intros w j Hj. exact (H s w j I Ps Hj).
Qed.
Lemma T_aPush n : T triv (assoc_Push n) triv2.
Proof. apply T_regs. cbn. intros s w j I _ Hj. apply in_app_or in Hj. destruct Hj as [Hj|[Hj|[]]]; [exact (proj2 (proj2 I) w j Hj)|discriminate]. Qed.
Lemma T_aPop : T triv assoc_Pop triv2.
Proof.
  intros s I _. unfold assoc_Pop. destruct (g_assoc (v_regs s)) as [|p l] eqn:E; cbn [fst snd]; [split; [exact I|]; split; [apply ext_refl|discriminate]|].
  split; [|split; [intros j b Hb; exact Hb|auto]]. split; [apply I|]. split; [apply I|]. intros w j Hj. apply (proj2 (proj2 I) w). rewrite E. apply in_removelast. exact Hj.
Qed.
Lemma T_SetNode i : T (K [i]) (assoc_SetNode i) triv2.
Proof.
  apply T_regs. intros s w j I H Hj. destruct (g_assoc (v_regs s)) as [|p l] eqn:E; [rewrite E in Hj; destruct Hj|]. cbn [set_assoc g_assoc] in Hj.
  apply in_app_or in Hj. destruct Hj as [Hj|[Hj|[]]]; [apply (proj2 (proj2 I) w); rewrite E; now apply in_removelast|]. injection Hj as _ <-. now inversion H.
Qed.
Lemma T_031021 cf od : T triv (visit_031021 cf od) triv2.
Proof.
  unfold visit_031021. apply T_bind0; [apply T_need|]. intros d. eapply T_bind; [apply T_wrap; eapply T_weak; [| |apply (T_buildValued cf [])]; [intros; constructor|intros e s H; exact H]|].
  intros e. cbv beta. eapply T_weak; [|auto|apply T_SetNode]. intros s H. constructor; [apply H|constructor].
Qed.
Lemma T_refval cf info m : T triv (visit_refval_member cf info m) triv2.
Proof.
  unfold visit_refval_member. apply T_bind0; [apply T_need|]. intros d. apply T_bind0; [apply T_wrap, T_build0|]. intros n. apply T_bind0; [apply T_same; intros s; now split|]. intros g.
  destruct (g_newRefvals g); apply T_same; intros s; now split.
Qed.
Lemma T_marker cf od : T triv (visit_marker cf od) triv2.
Proof.
  unfold visit_marker. apply T_bind0; [apply T_same, same_of; intros t l; apply (ke_Next (same t l)); intros s b H; exact H|]. intros t.
  apply T_bind0; [eapply T_drop, T_calc_keep|]. intros i. cbv zeta. apply T_bind0; [apply T_need|]. intros d. apply T_bind0; [apply T_build0|]. intros n. apply T_ret. auto.
Qed.
Definition plain_kind (k : akind) : Prop := k <> KAssessment /\ k <> KBase.
Ltac tt1 := lazymatch goal with
  | |- T _ (wrap _ _) _ => apply T_wrap
  | |- T _ (deferM _ _) _ => apply T_defer
  | |- T _ (iter_Z _ _) _ => apply T_iter
  | |- T _ (if _ then _ else _) _ => apply T_if
  | |- T _ (visit_element _ _ _) _ => apply T_element
  | |- T _ (visit_031021 _ _) _ => apply T_031021
  | |- T _ (visit_marker _ _) _ => apply T_marker
  | |- T _ (buildZeroNode _ _) _ => apply T_zero
  | |- T _ (buildValuedNodeWithInfo _ _ _) _ => apply T_build0
  | |- T _ (add_valueless _) _ => apply T_valueless
  | |- T _ (need _) _ => apply T_need
  | |- T _ assoc_Pop _ => apply T_aPop
  | |- T _ (assoc_Push _) _ => apply T_aPush
  | |- T _ tree_Pop _ => apply T_Pop
  | |- T _ (ret _) _ => apply T_ret; auto
  | |- T _ (mapM_ (visit_refval_member _ _) _) _ => apply T_mapM_, Forall_forall; intros ? _; apply T_refval
  | |- T _ (mapM_ _ _) _ => apply T_mapM_; assumption
  | |- T _ (bind (alloc NBlock) _) _ => auto
  | |- T _ (bind (bind (alloc _) tree_Push) _) _ => apply T_bind0; [apply T_push_new; reflexivity|intros ?]
  | |- T _ (bind (alloc _) (fun i => tree_Push i)) _ => apply T_push_new; reflexivity
  | |- T _ (bind _ _) _ => apply T_bind0; [|intros ?]
  | |- T _ (visit _ _) _ => assumption
  | |- T _ (upd_regs _) _ => apply T_same; intros ?; repeat match goal with |- context [if ?b then _ else _] => destruct b end; now split
  | |- T _ RecallBitmap _ => apply T_same; intros ?; now split
  | |- T _ CancelBitmap _ => apply T_same; intros ?; now split
  | |- T _ CancelBackref _ => apply T_same; intros ?; now split
  | |- T _ (throw _) _ => apply T_same; intros ?; now split
  | |- T _ (fail _) _ => apply T_same; intros ?; now split
  | |- T _ LastCellEquality _ => apply T_same; intros ?; now split
  | |- T _ Len _ => apply T_same; intros ?; now split
  | |- T _ (CellAt _) _ => apply T_same; intros ?; now split
  | |- T _ (lift_res _) _ => apply T_same; intros ?; now split
  end.
Ltac tt := repeat (cbv zeta; tt1).
Lemma T_visit cf n : all_nodes (fun n => plain_kind (an_kind n)) n -> T triv (visit cf n) triv2.
Proof.
  induction n as [k od ms b at_ Hm Hbm Ha] using anode_full_ind. cbn [all_nodes an_kind]. intros ((Hk & Hk') & H1 & H2 & H3).
  apply all_nodes_Forall in H1. clear Ha H3 Hbm H2.
  assert (Hm' : Forall (fun n => T triv (visit cf n) triv2) ms) by (clear - H1 Hm; induction Hm; inversion H1; subst; constructor; auto).
  clear Hm H1. assert (Hb : forall l, Forall (fun n => T triv (visit cf n) triv2) l ->
    T triv (b <- alloc NBlock ;; tree_Push b ;; deferM tree_Pop (wrap "cannot process replicated block" (mapM_ (visit cf) l)))%M triv2).
  { intros l Hl. pose proof (T_push_new NBlock eq_refl) as G. intros s I Ps. 
    assert (E : (b <- alloc NBlock ;; tree_Push b ;; deferM tree_Pop (wrap "cannot process replicated block" (mapM_ (visit cf) l)))%M s =
      ((b <- alloc NBlock ;; tree_Push b) ;; deferM tree_Pop (wrap "cannot process replicated block" (mapM_ (visit cf) l)))%M s) by reflexivity.
    rewrite E. clear E. revert s I Ps. apply (T_bind0 triv _ (fun _ : unit => _) triv2 G). intros _. tt. }
  destruct k; cbn [visit]; try congruence; tt.
  - destruct ms as [|m0 rest]; [apply T_same; intros ?; now split|]. inversion Hm'; subst. tt.
  - destruct ms as [|m0 rest]; tt.
  - destruct od; tt.
  - apply T_same, same_of. intros t l. apply (ke_NewBitmap (same t l)). intros s b0 H. exact H.
  - apply T_same, same_of. intros t l. apply (ke_End (same t l)). intros s b0 H. exact H.
Qed.

(** ** Passes *)
Lemma all_nodes_and P Q n : all_nodes P n -> all_nodes Q n -> all_nodes (fun m => P m /\ Q m) n.
Proof.
  induction n as [k od ms b at_ Hm Hb Ha] using anode_full_ind. rewrite !all_nodes_eq. intros (A1 & A2 & A3 & A4) (B1 & B2 & B3 & B4).
  split; [now split|]. split; [|split].
  - clear - Hm A2 B2. induction Hm; [constructor|]. inversion A2; inversion B2; subst. constructor; auto.
  - destruct b; auto.
  - clear - Ha A4 B4. induction Ha; [constructor|]. inversion A4; inversion B4; subst. constructor; auto.
Qed.
Definition bounded (sb : subset) : Prop := forall i k, walk (sb_heap sb) k i -> (k <= 2 * length (sb_heap sb))%nat.
Lemma inv_reset cf s s0 u : reset cf s = (s0, Ok u) -> inv s0.
Proof.
  assert (G : forall r c p, inv (mkV r (mkTree [mkHnode NBlock []] 0 []) c regs0 bm0 p)).
  { intros r c p. split; [|split].
    - intros i n j E Hj. destruct i as [|i]; [injection E as <-; destruct Hj|destruct i; discriminate].
    - cbn. intros i [<-|[]]. reflexivity.
    - cbn. intros w j []. }
  unfold reset. destruct (cf_compressed cf && negb (cf_json cf)); [destruct (cf_nsubsets cf <? 0); [discriminate|]|]; intros H; apply ok_inv in H; destruct H as [<- _]; apply G.
Qed.
Lemma walk_pass cf ms s s' : Forall (all_nodes (fun n => plain_kind (an_kind n))) ms -> Forall bounded (v_pay s) ->
  pass cf (root ms) s = (s', Ok tt) -> Forall bounded (v_pay s').
Proof.
  intros Hm HF E. apply pass_inv in E. destruct E as (s1 & E & _ & _ & ->). apply Forall_app. split; [exact HF|].
  change (visit cf (root ms)) with (reset cf ;; wrap "cannot process member node" (mapM_ (visit cf) ms))%M in E. binv E. apply wrap_inv in E. apply inv_reset in E0.
  assert (G : T triv (mapM_ (visit cf) ms) triv2) by (apply T_mapM_; eapply Forall_impl; [|exact Hm]; intros n Hn; now apply T_visit).
  destruct (G s0 E0 Logic.I) as ((G1 & _) & _). rewrite E in G1. cbn [fst] in G1.
  apply Forall_forall. intros sb Hsb. apply In_nth_error in Hsb. destruct Hsb as [k Hk]. unfold produced in Hk. rewrite numbered_nth in Hk.
  destruct (nth_error _ k) as [l|]; [|discriminate]. injection Hk as <-. intros i x H. cbn [sb_heap] in *.
  apply (walk_rank _ G1) in H. pose proof (rank_bound (t_heap (v_tree s1)) i). unfold hp in *. lia.
Qed.
Lemma walk_payload cf ms r s' : Forall (all_nodes (fun n => plain_kind (an_kind n))) ms ->
  run_payload cf (root ms) (vst0 r) = (s', Ok tt) -> Forall bounded (v_pay s').
Proof.
  intros Hm. rewrite run_payload_eq. generalize (if columns cf then 1%nat else Z.to_nat (cf_nsubsets cf)). intros n.
  assert (H0 : Forall bounded (v_pay (vst0 r))) by constructor. revert H0. generalize (vst0 r). induction n as [|n IH]; intros s H0 E; cbn [iterN] in E.
  - apply ok_inv in E. now destruct E as [<- _].
  - binv E. destruct a. eapply IH; [|exact E]. eapply walk_pass; eauto.
Qed.
