(** Lemmas for C88: RunDeserializer with the shipped scripts, and with any scripts. *)
From Verif Require Export ProofsInterp.

(** ** RunDeserializer *)
Lemma initialize : script_Initialize shipped_scripts = Ok b_boot.
Proof. vm_compute. reflexivity. Qed.
Lemma psim_end bm bs q s h : psim bm bs q s h ->
  same_input s h /\ (exists am as_, ob_msgs h = bm ++ am /\ ob_secs h = bs ++ as_) /\
  (forall m r, q = Some r -> fa_msg s = Some m -> seen h (length bm) = Some (""%string, map Some (msg_sections m), msg_proxy m)).
Proof.
  destruct q as [q|]; cbn [psim].
  - intros H. pose proof H as (H1 & m & Em & _ & E1 & E2 & _). split; [exact H1|]. split; [eauto|].
    intros m' r _ Em'. eapply sim_seen; eassumption.
  - intros (H1 & E1 & E2). split; [exact H1|]. split; [exists [], []; rewrite !app_nil_r; auto|discriminate].
Qed.
Lemma script_Run_rel fc files nt n s t : (forall name, In name module_names -> files (module_file name) = shipped_scripts (module_file name)) ->
  (66 <= n)%nat -> same_input s (l_obj t) -> loaded_ok (l_loaded t) ->
  match l_Run fc s, script_Run fc files nt n b_boot t with
  | (s', x), (t', y) => same_input s' (l_obj t') /\ loaded_ok (l_loaded t') /\
      (exists am as_, ob_msgs (l_obj t') = ob_msgs (l_obj t) ++ am /\ ob_secs (l_obj t') = ob_secs (l_obj t) ++ as_) /\
      match x with
      | Ok m => y = Ok (Some (length (ob_msgs (l_obj t)))) /\
                seen (l_obj t') (length (ob_msgs (l_obj t))) = Some (""%string, map Some (msg_sections m), msg_proxy m)
      | Err e => y = Err e
      | Panic p => y = Panic p
      | NoFuel => y = NoFuel
      end
  end.
Proof.
  intros Hf Hn H L. unfold l_Run, script_Run. rewrite (bind_at (SeekStartSignature _)), (bind_at (lop _)), lop_at.
  pose proof (reads_seek (fc_fuel fc) s (l_obj t) H) as R.
  destruct (SeekStartSignature (fc_fuel fc) s) as [s1 x], (o_SeekStartSignature (fc_fuel fc) (l_obj t)) as [h1 x'].
  destruct R as (-> & H1 & M1 & S1).
  destruct x as [u|e|e|]; cbn [l_obj l_loaded];
    try (split; [exact H1|]; split; [exact L|]; split; [exists [], []; rewrite !app_nil_r; auto|reflexivity]).
  pose proof (lrel_boot (ob_msgs (l_obj t)) (ob_secs (l_obj t)) fc files nt Hf n Hn s1 (mkLst h1 (l_loaded t)) (conj H1 (conj M1 S1)) L) as R.
  change (chunk_of "boot.lua") with b_boot in R. rewrite (bind_at (run _ _ _ _ _ _ _)).
  set (X := bind (l_boot fc) (fun _ => get_msg) s1) in *.
  assert (Xf : forall m, snd X = Ok m -> fa_msg (fst X) = Some m).
  { unfold X. rewrite bind_at. destruct (l_boot fc s1) as [s2 [|e|e|]]; cbn [fst snd]; try discriminate.
    unfold get_msg. intros m. destruct (fa_msg s2) as [m'|] eqn:E; cbn [fst snd ret]; [|discriminate]. unfold ret. cbn [fst snd]. congruence. }
  destruct X as [s2 y], (run fc files nt n _ [] ret (mkLst h1 (l_loaded t))) as [t2 z]. cbn [fst snd] in Xf.
  destruct R as (R1 & (q & R2 & R3) & R4). apply psim_end in R2 as (I2 & A2 & F2).
  destruct y as [m|e|e|]; cbn [same_end] in R1; subst z; cbn [ret]; unfold ret;
    (split; [exact I2|]; split; [exact R4|]; split; [exact A2|]); try reflexivity.
  split; [reflexivity|]. destruct (R3 m eq_refl) as (r & ->). eapply F2; [reflexivity|]. now apply Xf.
Qed.

(** ** Any scripts at all *)
Section Any.
  Variable fc : fconfig.
  Variable files : string -> option string.
  Variable nt : f64 -> string.
  Definition does {A} (m : M lst A) : Prop := forall s, exists cs, l_obj (fst (m s)) = fst (apis fc cs (l_obj s)).
  Lemma apis_app cs cs' h : fst (apis fc (cs ++ cs') h) = fst (apis fc cs' (fst (apis fc cs h))).
  Proof.
    revert h. induction cs as [|c cs IH]; intros h; [reflexivity|]. cbn [app apis].
    destruct (api fc c h) as [h1 x]. specialize (IH h1). destruct (apis fc (cs ++ cs') h1), (apis fc cs h1). cbn [fst] in *. exact IH.
  Qed.
  Lemma does_nothing {A} (m : M lst A) : (forall s, l_obj (fst (m s)) = l_obj s) -> does m.
  Proof. intros H s. exists []. apply H. Qed.
  Lemma does_res {A} (r : res A) : does (lift_res r).
  Proof. apply does_nothing. reflexivity. Qed.
  Lemma does_error {A} : does (@lua_error A).
  Proof. apply does_nothing. reflexivity. Qed.
  Lemma does_throw {A} p : does (@throw lst A p).
  Proof. apply does_nothing. reflexivity. Qed.
  Lemma does_bind {A B} (m : M lst A) (k : A -> M lst B) : does m -> (forall a, does (k a)) -> does (bind m k).
  Proof.
    intros Hm Hk s. destruct (Hm s) as (cs & E). rewrite bind_at. destruct (m s) as [s1 [a|e|e|]]; cbn [fst] in *; try (exists cs; exact E).
    destruct (Hk a s1) as (cs' & E'). exists (cs ++ cs'). rewrite apis_app, <- E. exact E'.
  Qed.
  Lemma does_ret {A} (a : A) : does (ret a).
  Proof. apply does_nothing. reflexivity. Qed.
  Lemma does_lop {A} c (m : M obj A) : (forall h, fst (m h) = fst (api fc c h)) -> does (lop m).
  Proof.
    intros H s. exists [c]. rewrite lop_at. specialize (H (l_obj s)). destruct (m (l_obj s)) as [h x]. cbn [fst l_obj apis] in *.
    subst h. destruct (api fc c (l_obj s)). reflexivity.
  Qed.
  Lemma does_lcall {A} c (m : M obj A) : (forall h, fst (m h) = fst (api fc c h)) -> does (lcall m).
  Proof.
    intros H. apply (does_lop c). intros h. unfold g_call. specialize (H h). destruct (m h) as [h1 [| | |]]; exact H.
  Qed.
  Lemma does_builtin b args k : (forall v, does (k v)) -> does (call_builtin fc nt b args k).
  Proof.
    intros Hk.
    assert (R : forall A (f : A -> answer) (m : M obj A) h, fst (returning f m h) = fst (m h)).
    { intros A f m h. unfold returning. rewrite bind_at. destruct (m h) as [? [| | |]]; reflexivity. }
    destruct b; cbn [call_builtin]; unfold with_table;
      repeat match goal with |- does (match ?x with _ => _ end) => destruct x end;
      try apply does_error; try apply does_throw; auto;
      (apply does_bind; [|intros ?; try apply Hk]).
    - apply (does_lop CGetMessage). intros h. symmetry. apply R.
    - eapply (does_lop (CNewMessage _)). intros h. symmetry. apply R.
    - eapply (does_lop (CNewSection _ _)). intros h. symmetry. apply R.
    - eapply (does_lcall (CNewField _ _ _ _)). intros h. symmetry. apply R.
    - eapply (does_lcall (CNewTemplateField _ _ _ _ _)). intros h. symmetry. apply R.
    - eapply (does_lcall (CNewPayloadField _ _ _)). intros h. symmetry. apply R.
    - eapply (does_lcall (CPadding _)). intros h. symmetry. apply R.
    - eapply (does_lcall CPeekEditionNumber). intros h. symmetry. apply R.
    - eapply (does_lcall (CInitTables _ _ _ _ _)). intros h. symmetry. apply R.
    - eapply (does_lop (CSetProxyField _ _)). intros h. symmetry. apply R.
    - eapply (does_lcall (CGetProxyField _ _)). intros h. symmetry. apply R.
    - apply does_nothing. intros s. rewrite lop_at. unfold deref. destruct (nth_error _ _); reflexivity.
    - apply does_nothing. intros s. rewrite lop_at. unfold deref. destruct (nth_error _ _); reflexivity.
    - apply does_nothing. intros s. rewrite lop_at. destruct f; reflexivity.
    - apply does_bind; [destruct (push_field_value _); [apply does_ret|apply does_error]|exact Hk].
    - apply does_nothing. intros s. rewrite lop_at. destruct f; reflexivity.
  Qed.
  Lemma does_index v x : does (ModelInterp.index v x).
  Proof. destruct v; cbn [ModelInterp.index]; first [apply does_ret|apply does_error]. Qed.
  Lemma does_operate op a b : does (operate nt op a b).
  Proof. destruct op, a, b; cbn [operate]; first [apply does_ret|apply does_error]. Qed.

  Section E.
    Variable call : val -> list val -> ModelInterp.K -> M lst val.
    Hypothesis Hcall : forall f args k, (forall v, does (k v)) -> does (call f args k).
    Lemma does_eval n : (forall env e k, (forall v, does (k v)) -> does (eval nt call n env e k)) /\
      (forall env es k, (forall vs, does (k vs)) -> does (evals nt call n env es k)) /\
      (forall env is k, (forall vs fs, does (k vs fs)) -> does (eval_items nt call n env is k)).
    Proof.
      induction n as [|n (I1 & I2 & I3)]; [repeat split; intros; apply does_res|]. repeat split.
      - intros env e k Hk. destruct e; cbn [eval]; try exact (Hk _).
        + apply I1. intros v. apply does_bind; [apply does_index|exact Hk].
        + apply I1. intros v. apply I2. intros vs. now apply Hcall.
        + apply I1. intros v. apply does_bind; [apply does_index|]. intros w. apply I2. intros vs. now apply Hcall.
        + apply I3. intros vs fs. apply Hk.
        + apply I1. intros v. apply I1. intros w. apply does_bind; [apply does_operate|exact Hk].
      - intros env es k Hk. destruct es as [|e es]; cbn [evals]; [apply Hk|]. apply I1. intros v. apply I2. intros vs. apply Hk.
      - intros env is k Hk. destruct is as [|[[x|] e] is]; cbn [eval_items]; [apply Hk| |]; apply I1; intros v; apply I3; intros vs fs; apply Hk.
    Qed.
    Lemma does_exec n : forall env b kret kend, (forall v, does (kret v)) -> does kend -> does (exec nt call n env b kret kend).
    Proof.
      induction n as [|n IH]; intros env b kret kend Hr He; [apply does_res|]. cbn [exec].
      pose proof (does_eval n) as (I1 & _). destruct b as [|[x e|x ps body|e|c yes no|[e|]] b]; auto.
      apply I1. intros v. destruct (truthy v); apply IH; auto.
    Qed.
  End E.
  Lemma does_run n : forall f args k, (forall v, does (k v)) -> does (run fc files nt n f args k).
  Proof.
    induction n as [|n IH]; intros f args k Hk; [apply does_res|]. cbn [run].
    destruct f; try apply does_error.
    - apply does_exec; auto.
    - destruct b; try (now apply does_builtin). intros s. unfold require.
      destruct (assoc _ _) as [v|]; [apply Hk|]. destruct (files _) as [text|]; [|apply does_error].
      destruct (parse_lua text) as [chunk|]; [|apply does_error]. apply IH. intros v s'.
      exact (Hk _ (mkLst (l_obj s') _)).
  Qed.
  Lemma does_script_Run n boot : does (script_Run fc files nt n boot).
  Proof.
    unfold script_Run. apply does_bind; [|intros _].
    - apply (does_lop CSeek). intros h. cbn [api]. unfold returning. rewrite bind_at.
      destruct (o_SeekStartSignature (fc_fuel fc) h) as [? [| | |]]; reflexivity.
    - apply does_bind; [apply does_run; intros v; apply does_ret|]. intros v. destruct v; first [apply does_ret|apply does_throw].
  Qed.
  Lemma does_script_Runs n boot c : forall s, exists cs,
    l_obj (fst (script_Runs fc files nt n boot c s)) = fst (apis fc cs (l_obj s)).
  Proof.
    induction c as [|c IH]; intros s; [now exists []|]. cbn [script_Runs].
    destruct (does_script_Run n boot s) as (cs & E). destruct (script_Run fc files nt n boot s) as [s1 x]. cbn [fst] in E.
    destruct (IH s1) as (cs' & E'). destruct (script_Runs fc files nt n boot c s1) as [s2 xs]. exists (cs ++ cs').
    rewrite apis_app, <- E. exact E'.
  Qed.
End Any.

Lemma shipped_modules files : has_shipped files ->
  forall name, In name module_names -> files (module_file name) = shipped_scripts (module_file name).
Proof.
  intros H name Hin. apply H. pose proof modules as Hm. rewrite Forall_forall in Hm. destruct (Hm name Hin) as (text & -> & _). discriminate.
Qed.
Lemma Ok_eq {A} (a b : A) : Ok a = Ok b -> a = b.
Proof. intros H. now injection H. Qed.
Lemma shipped_boot files boot : has_shipped files -> script_Initialize files = Ok boot -> boot = b_boot.
Proof.
  intros Hf H. apply Ok_eq. rewrite <- H, <- initialize. unfold script_Initialize. rewrite Hf; [reflexivity|]. discriminate.
Qed.
Lemma stream fc files nt n c : has_shipped files -> (66 <= n)%nat -> forall s t,
  same_input s (l_obj t) -> loaded_ok (l_loaded t) -> sound (l_obj t) ->
  let '(s', xs) := repeated (l_Run fc) c s in
  let '(t', ys) := script_Runs fc files nt n b_boot c t in
  Forall2 (shows (l_obj t')) xs ys /\ same_input s' (l_obj t') /\
  (forall i, (i < length (ob_msgs (l_obj t)))%nat -> seen (l_obj t') i = seen (l_obj t) i).
Proof.
  intros Hf Hn. induction c as [|c IH]; intros s t H L Hs; [split; [constructor|split; [exact H|reflexivity]]|]. cbn [repeated script_Runs].
  pose proof (script_Run_rel fc files nt n s t (shipped_modules files Hf) Hn H L) as R.
  pose proof (does_script_Run fc files nt n b_boot t) as (cs & Ec).
  destruct (l_Run fc s) as [s1 x], (script_Run fc files nt n b_boot t) as [t1 y]. destruct R as (H1 & L1 & A1 & R). cbn [fst] in Ec.
  assert (Hs1 : sound (l_obj t1)) by (rewrite Ec; now apply apis_sound).
  specialize (IH s1 t1 H1 L1 Hs1). destruct (repeated (l_Run fc) c s1) as [s2 xs], (script_Runs fc files nt n b_boot c t1) as [t2 ys].
  destruct IH as (I1 & I2 & I3). pose proof (seen_old _ _ Hs A1) as F. split; [|split; [exact I2|]].
  - constructor; [|exact I1]. destruct x as [m|e|e|]; cbn [shows]; auto. destruct R as (-> & R). eexists. split; [reflexivity|].
    rewrite I3; [exact R|]. apply nth_error_Some. unfold seen in R. destruct (nth_error (ob_msgs (l_obj t1)) _); congruence.
  - intros i Hi. rewrite I3; [now apply F|]. destruct A1 as (am & as_ & E & _). rewrite E, app_length. lia.
Qed.

(** ** The bound on the interpreter *)
Section Mono.
  Variable fc : fconfig.
  Variable files : string -> option string.
  Variable nt : f64 -> string.
  (** the same, unless the first one runs out *)
  Definition upto {A} (m m' : M lst A) : Prop := forall s, snd (m s) = NoFuel \/ m s = m' s.
  Lemma upto_refl {A} (m : M lst A) : upto m m.
  Proof. intros s. now right. Qed.
  Lemma upto_out {A} (m : M lst A) : upto (lift_res NoFuel) m.
  Proof. intros s. now left. Qed.
  Lemma upto_bind {A B} (m : M lst A) (k k' : A -> M lst B) : (forall a, upto (k a) (k' a)) -> upto (bind m k) (bind m k').
  Proof. intros H s. rewrite !bind_at. destruct (m s) as [s1 [a| | |]]; auto. apply H. Qed.
  Lemma upto_bind_l {A B} (m m' : M lst A) (k : A -> M lst B) : upto m m' -> upto (bind m k) (bind m' k).
  Proof. intros H s. rewrite !bind_at. destruct (H s) as [E|E]; [|rewrite E; now right]. left. destruct (m s) as [s1 x]. cbn [snd] in E. now subst. Qed.
  Lemma upto_builtin b args (k k' : ModelInterp.K) : (forall v, upto (k v) (k' v)) -> upto (call_builtin fc nt b args k) (call_builtin fc nt b args k').
  Proof.
    intros H. destruct b; cbn [call_builtin]; unfold with_table;
      repeat match goal with |- upto (match ?x with _ => _ end) _ => destruct x end; try apply upto_refl;
      repeat (apply upto_bind; intros ?); apply H.
  Qed.
  Section E.
    Variables call call' : val -> list val -> ModelInterp.K -> M lst val.
    Hypothesis Hcall : forall f args k k', (forall v, upto (k v) (k' v)) -> upto (call f args k) (call' f args k').
    Lemma upto_eval n : forall n', (n <= n')%nat ->
      (forall env e k k', (forall v, upto (k v) (k' v)) -> upto (eval nt call n env e k) (eval nt call' n' env e k')) /\
      (forall env es k k', (forall vs, upto (k vs) (k' vs)) -> upto (evals nt call n env es k) (evals nt call' n' env es k')) /\
      (forall env is k k', (forall vs fs, upto (k vs fs) (k' vs fs)) -> upto (eval_items nt call n env is k) (eval_items nt call' n' env is k')).
    Proof.
      induction n as [|n IH]; intros n' Hn; [repeat split; intros; apply upto_out|]. destruct n' as [|n']; [lia|].
      destruct (IH n' ltac:(lia)) as (I1 & I2 & I3). clear IH. repeat split.
      - intros env e k k' Hk. destruct e; cbn [eval]; try exact (Hk _).
        + apply I1. intros v. apply upto_bind. exact Hk.
        + apply I1. intros v. apply I2. intros vs. now apply Hcall.
        + apply I1. intros v. apply upto_bind. intros w. apply I2. intros vs. now apply Hcall.
        + apply I3. intros vs fs. apply Hk.
        + apply I1. intros v. apply I1. intros w. apply upto_bind. exact Hk.
      - intros env es k k' Hk. destruct es as [|e es]; cbn [evals]; [apply Hk|]. apply I1. intros v. apply I2. intros vs. apply Hk.
      - intros env is k k' Hk. destruct is as [|[[x|] e] is]; cbn [eval_items]; [apply Hk| |]; apply I1; intros v; apply I3; intros vs fs; apply Hk.
    Qed.
    Lemma upto_exec n : forall n', (n <= n')%nat -> forall env b kret kret' kend kend', (forall v, upto (kret v) (kret' v)) -> upto kend kend' ->
      upto (exec nt call n env b kret kend) (exec nt call' n' env b kret' kend').
    Proof.
      induction n as [|n IH]; intros n' Hn env b kret kret' kend kend' Hr He; [apply upto_out|]. destruct n' as [|n']; [lia|]. cbn [exec].
      pose proof (upto_eval n n' ltac:(lia)) as (I1 & _). specialize (IH n' ltac:(lia)).
      destruct b as [|[x e|x ps body|e|c yes no|[e|]] b]; auto.
      apply I1. intros v. destruct (truthy v); apply IH; auto.
    Qed.
  End E.
  Lemma upto_run n : forall n', (n <= n')%nat -> forall f args k k', (forall v, upto (k v) (k' v)) ->
    upto (run fc files nt n f args k) (run fc files nt n' f args k').
  Proof.
    induction n as [|n IH]; intros n' Hn f args k k' Hk; [apply upto_out|]. destruct n' as [|n']; [lia|]. cbn [run].
    specialize (IH n' ltac:(lia)). destruct f; try apply upto_refl.
    - apply upto_exec; auto. lia.
    - destruct b; try (now apply upto_builtin). intros s. unfold require.
      destruct (assoc _ _) as [v|]; [apply Hk|]. destruct (files _) as [text|]; [|apply upto_refl].
      destruct (parse_lua text) as [chunk|]; [|apply upto_refl]. apply IH. intros v s'. apply Hk.
  Qed.
  Lemma script_Run_mono n n' boot s : (n <= n')%nat -> snd (script_Run fc files nt n boot s) <> NoFuel ->
    script_Run fc files nt n' boot s = script_Run fc files nt n boot s.
  Proof.
    intros Hn H. assert (U : upto (script_Run fc files nt n boot) (script_Run fc files nt n' boot)).
    { unfold script_Run. apply upto_bind. intros _. apply upto_bind_l. apply upto_run; [exact Hn|]. intros v. apply upto_refl. }
    destruct (U s) as [E|E]; [contradiction|now symmetry].
  Qed.
End Mono.
