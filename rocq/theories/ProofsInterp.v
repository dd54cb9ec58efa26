(** Lemmas for C88: the interpreter on the shipped scripts. *)
From Verif Require Import ProofsLua.
From Verif Require Export SpecInterp ProofsObjects2.

Section I.
  Variable bm : list hmsg.
  Variable bs : list section.
  Variable fc : fconfig.
  Variable files : string -> option string.
  Variable nt : f64 -> string.
  Notation pl := (fc_plat fc).
  Notation run := (run fc files nt).

  (** [None]: before the new message *)
  Definition psim (p : option bool) (s : fac) (h : obj) : Prop :=
    match p with
    | None => same_input s h /\ ob_msgs h = bm /\ ob_secs h = bs
    | Some q => sim bm bs q s h
    end.
  Definition same_end {A} (x : res A) (y : res val) : Prop :=
    match x with
    | Ok _ => y = Ok (UMsg (Some (length bm)))
    | Err e => y = Err e
    | Panic e => y = Panic e
    | NoFuel => y = NoFuel
    end.
  Definition lrel {A} (p : option bool) (m : M fac A) (m' : M lst val) : Prop := forall s t,
    psim p s (l_obj t) -> loaded_ok (l_loaded t) ->
    match m s, m' t with
    | (s', x), (t', y) => same_end x y /\ (exists q, psim q s' (l_obj t') /\ (forall a, x = Ok a -> exists r, q = Some r)) /\ loaded_ok (l_loaded t')
    end.

  Lemma lop_at {A} (m : M obj A) t : lop m t = let '(h, x) := m (l_obj t) in (mkLst h (l_loaded t), x).
  Proof. reflexivity. Qed.
  Lemma lrel_op {A B} p q (m : M fac A) m' (k : A -> M fac B) k' :
    rel bm bs p q m m' -> (forall a, lrel (Some q) (k a) (k' a)) -> lrel (Some p) (bind m k) (bind (lop m') k').
  Proof.
    intros Hm Hk s t H L. specialize (Hm s (l_obj t) H). rewrite !bind_at, lop_at.
    destruct (m s) as [s1 x], (m' (l_obj t)) as [h1 x']. destruct Hm as (-> & (r & H1) & H2).
    destruct x as [a|e|e|]; try (split; [reflexivity|split; [exists (Some r); split; [exact H1|discriminate]|exact L]]).
    apply Hk; [apply (H2 a eq_refl)|exact L].
  Qed.
  Lemma lrel_call {A B} p q (m : M fac A) m' (k : A -> M fac B) k' :
    rel bm bs p q m m' -> (forall a, lrel (Some q) (k a) (k' a)) -> lrel (Some p) (bind (lua_call m) k) (bind (lcall m') k').
  Proof. intros H. apply lrel_op. exact (rel_call bm bs p q m m' H). Qed.
  Lemma lrel_forget {A B} p q (m : M fac unit) (m' : M obj A) (k : unit -> M fac B) (k' : A -> M lst val) :
    rel bm bs p q m (m' ;; ret tt)%M -> (forall i, lrel (Some q) (k tt) (k' i)) -> lrel (Some p) (bind m k) (bind (lop m') k').
  Proof.
    intros Hm Hk s t H L. specialize (Hm s (l_obj t) H). rewrite !bind_at, lop_at. rewrite bind_at in Hm.
    destruct (m s) as [s1 x], (m' (l_obj t)) as [h1 [b|e|e|]]; destruct Hm as (<- & (r & H1) & H2);
      try (split; [reflexivity|split; [exists (Some r); split; [exact H1|discriminate]|exact L]]).
    apply Hk; [apply (H2 tt eq_refl)|exact L].
  Qed.
  Lemma lrel_assoc {A B C} p (m : M fac A) (k : A -> M fac B) (k2 : B -> M fac C) m' :
    lrel p (bind m (fun a => bind (k a) k2)) m' -> lrel p (bind (bind m k) k2) m'.
  Proof.
    intros H s t Hs L. specialize (H s t Hs L). rewrite !bind_at in *. destruct (m s) as [s1 [a|e|e|]]; try exact H.
  Qed.
  Lemma lrel_ret_l {A B} p (a : A) (k : A -> M fac B) m' : lrel p (k a) m' -> lrel p (bind (ret a) k) m'.
  Proof. exact (fun H => H). Qed.
  Lemma lrel_ret_r {A B} p (m : M fac A) (v : B) (k : B -> M lst val) : lrel p m (k v) -> lrel p m (bind (ret v) k).
  Proof. exact (fun H => H). Qed.
  Lemma lrel_fail {A} p e : lrel p (@fail fac A e) (fail e).
  Proof. intros s t H L. split; [reflexivity|]. split; [exists p; split; [exact H|discriminate]|exact L]. Qed.
  Lemma lrel_fail_bind {A B C} p e (k : A -> M fac B) (k' : C -> M lst val) : lrel p (bind (fail e) k) (bind (fail e) k').
  Proof. exact (lrel_fail p e). Qed.
  Lemma lrel_builtin {A} p (m : M fac A) n b args k : (0 < n)%nat -> b <> BRequire ->
    lrel p m (call_builtin fc nt b args k) -> lrel p m (run n (UBuiltin b) args k).
  Proof. intros Hn Hb H. destruct n as [|n]; [lia|]. destruct b; try exact H. congruence. Qed.

  (** field:value() *)
  Lemma lrel_value {B} p f (k : lval -> M fac B) (k' : val -> M lst val) :
    (forall v, lrel p (k (lv v)) (k' v)) ->
    lrel p (bind (lua_value f) k) (bind (lop (field_deref (Some f)))
      (fun x => bind (match push_field_value x with Some v => ret v | None => lua_error end) k')).
  Proof.
    intros Hk. assert (H : lrel p (bind (lua_value f) k)
      (bind (match push_field_value f with Some v => ret v | None => lua_error end) k'))
      ; [|intros s [h ld]; exact (H s (mkLst h ld))].
    unfold lua_value, push_field_value. destruct (push_value (f_value f)) as [[|x|b|]|].
    - apply (Hk UNil).
    - apply (Hk (UNum x)).
    - apply (Hk (UBool b)).
    - apply (Hk UBinary).
    - apply lrel_fail_bind.
  Qed.
  Lemma lrel_arith {B} p op bop v n (k : lval -> M fac B) (k' : val -> M lst val) :
    (op = lua_sub /\ bop = OSub) \/ (op = f64_mul /\ bop = OMul) ->
    (forall w, lrel p (k (lv w)) (k' w)) ->
    lrel p (bind (lua_arith op (lv v) n) k) (bind (operate nt bop v (UNum (f64_of_Z n))) k').
  Proof.
    intros Ho Hk. destruct Ho as [[-> ->]|[-> ->]]; destruct v; cbn [lv lua_arith operate];
      try apply lrel_fail_bind; try (destruct b; apply lrel_fail_bind).
    - apply (Hk (UNum (lua_sub x (f64_of_Z n)))).
    - apply (Hk (UNum (f64_mul x (f64_of_Z n)))).
  Qed.
  (** message:getProxyField(name) on the current message *)
  Lemma rel_proxy_at p name : rel bm bs p p (m <- get_msg ;; lift_res (ProxyField m name))%M (o_ProxyField (Some (length bm)) name).
  Proof.
    intros s h H. pose proof (rel_proxy_get bm bs p name s h H) as R. pose proof H as (_ & m & _ & E & _).
    rewrite (bind_at (gets ob_msg)) in R. unfold gets in R. rewrite E in R. exact R.
  Qed.
  Lemma lrel_proxy {B} p name (k : field -> M fac B) (k' : field -> M lst val) :
    (forall f, lrel (Some p) (k f) (k' f)) ->
    lrel (Some p) (bind (proxy_field name) k) (bind (lcall (o_ProxyField (Some (length bm)) name)) k').
  Proof. intros Hk. eapply lrel_call; [apply rel_proxy_at|exact Hk]. Qed.
  Lemma lrel_message {A} p (m : M fac A) k' : lrel (Some p) m (k' (Some (length bm))) ->
    lrel (Some p) m (bind (lop o_Message) k').
  Proof.
    intros H s t Hs L. rewrite bind_at, lop_at. unfold o_Message, gets. pose proof Hs as (_ & m0 & _ & E & _). rewrite E.
    specialize (H s t Hs L). destruct t as [h ld]. exact H.
  Qed.
  Lemma rel_NewField_eq n n' d d' b b' x x' : n = n' -> d = d' -> b = b' -> x = x' ->
    rel bm bs true true (NewField fc n d b x) (o_NewField fc n' d' b' x').
  Proof. intros -> -> -> ->. apply rel_NewField. Qed.
End I.

(** The functions of the modules. *)
Definition b_section0 := Eval vm_compute in body_of "common/section0.lua".
Definition b_section1_4 := Eval vm_compute in body_of "bufr4/section1.lua".
Definition b_section1_3 := Eval vm_compute in body_of "bufr3/section1.lua".
Definition b_section2 := Eval vm_compute in body_of "common/section2.lua".
Definition b_section3 := Eval vm_compute in body_of "common/section3.lua".
Definition b_section4 := Eval vm_compute in body_of "common/section4.lua".
Definition b_section5 := Eval vm_compute in body_of "common/section5.lua".
Definition b_bufr4 := Eval vm_compute in body_of "bufr4/bufr4.lua".
Definition b_boot := Eval vm_compute in chunk_of "boot.lua".
Definition b_bufr3 := Eval vm_compute in body_of "bufr3/bufr3.lua".
Definition deserialise (b : list lstat) : val := UFun (Some "deserialise"%string) [] b [].

Lemma truthy_lv v : truthy v = to_boolean (lv v).
Proof. destruct v as [|[]| | | | | | | | |]; reflexivity. Qed.
Lemma truthy_bool b : truthy (UBool b) = b.
Proof. now destruct b. Qed.
(** What require finds. *)
Definition module_chunk (body : list lstat) : list lstat :=
  [SLocalFun "deserialise" [] body; SReturn (Some (ETable [(Some "deserialise", EName "deserialise")]))]%string.
Lemma modules : Forall (fun name => exists text, shipped_scripts (module_file name) = Some text /\
  parse_lua text = Some (module_chunk (body_of (module_file name)))) module_names.
Proof. repeat constructor; (eexists; split; [vm_compute; reflexivity|vm_compute; reflexivity]). Qed.

Section Scripts.
  Variable bm : list hmsg.
  Variable bs : list section.
  Variable fc : fconfig.
  Variable files : string -> option string.
  Variable nt : f64 -> string.
  Notation pl := (fc_plat fc).
  Notation run := (run fc files nt).
  Notation lrel := (lrel bm bs).
  Hypothesis Hfiles : forall name, In name module_names -> files (module_file name) = shipped_scripts (module_file name).

  Lemma rel_NewPayloadField_eq name n v : rel bm bs true true (NewPayloadField fc name n (to_boolean (lv v))) (o_NewPayloadField fc name n (truthy v)).
  Proof. rewrite truthy_lv. apply rel_NewPayloadField. Qed.
  Lemma run_fun n self ps body env args k : (61 <= n)%nat -> exists m f, n = S m /\ (60 <= m)%nat /\
    run n (UFun self ps body env) args k =
    exec nt (run m) (60 + f) (bind_args ps args (match self with Some x => (x, UFun self ps body env) :: env | None => env end)) body k (k UNil).
  Proof.
    intros H. destruct n as [|m]; [lia|]. exists m, (m - 60)%nat. split; [reflexivity|]. split; [lia|].
    replace (60 + (m - 60))%nat with m by lia. reflexivity.
  Qed.
  Ltac enter b :=
    match goal with Hn : (61 <= ?n)%nat |- context [run ?n (deserialise _) ?args ?k] =>
      destruct (run_fun n (Some "deserialise"%string) [] b [] args k Hn) as (m & fl & -> & Hm & E); unfold deserialise; rewrite E; clear E;
      set (call := run m); unfold b; cbn [bind_args];
      cbn [exec eval evals eval_items assoc String.eqb Ascii.eqb Bool.eqb app Nat.add]; subst call end.
  Ltac fuel := lia.
  Ltac step :=
    lazymatch goal with
    | |- lrel _ (bind (bind _ _) _) _ => apply lrel_assoc
    | |- lrel _ (bind (ret _) _) _ => apply lrel_ret_l
    | |- lrel ?p ?m (bind (ModelInterp.index ?v ?x) ?k) =>
        let r := eval cbv [ModelInterp.index global lua_datatype factory assoc value_of String.eqb Ascii.eqb Bool.eqb] in (ModelInterp.index v x) in
        change (lrel p m (bind r k)); apply lrel_ret_r
    | |- lrel _ _ (bind (ret _) _) => apply lrel_ret_r
    | |- lrel ?p ?m (run ?n (global ?x) ?a ?k) =>
        let r := eval cbv in (global x) in change (lrel p m (run n r a k))
    | |- lrel _ (bind (lua_arith _ _ _) _) (bind (operate _ _ _ _) _) => eapply lrel_arith; [auto|intros ?]
    | |- lrel _ _ (run _ (UBuiltin _) _ _) =>
        apply lrel_builtin; [fuel|discriminate|cbn [call_builtin with_table arg nth tl hd]]
    | |- lrel _ (bind (lua_call _) _) (bind (lcall _) _) =>
        eapply lrel_call; [first [apply rel_NewField_eq; reflexivity|apply rel_NewTemplateField|apply rel_NewPayloadField_eq|apply rel_Padding|apply rel_Init]|intros ?]
    | |- lrel _ (bind (NewSection _ _) _) _ => eapply lrel_forget; [apply rel_new_section|intros ?]
    | |- lrel _ (bind (lua_value _) _) (bind (lop (field_deref _)) _) => eapply lrel_value; intros ?
    | |- lrel _ (bind (proxy_field _) _) (bind (lcall _) _) => eapply lrel_proxy; intros ?
    | |- lrel _ _ (bind (lop o_Message) _) => apply lrel_message
    end; cbv beta.
  Ltac section_script b := intros Hn Hk; enter b;
    unfold l_section0, l_section1_4, l_section1_3, l_section2, l_section3, l_section4, l_section5, l_newSection, l_newField_, l_newField, l_padding, lua_proxy;
    repeat step; apply Hk.
  Lemma lrel_section0 {B} n p (k : M fac B) k' : (61 <= n)%nat -> (forall i, lrel (Some true) k (k' (USec i))) ->
    lrel (Some p) (bind (l_section0 fc) (fun _ => k)) (run n (deserialise b_section0) [] k').
  Proof. section_script b_section0. Qed.
  Lemma lrel_section1_4 {B} n (k : M fac B) k' : (61 <= n)%nat -> (forall i, lrel (Some true) k (k' (USec i))) ->
    lrel (Some true) (bind (l_section1_4 fc) (fun _ => k)) (run n (deserialise b_section1_4) [] k').
  Proof. section_script b_section1_4. Qed.
  Lemma lrel_section1_3 {B} n (k : M fac B) k' : (61 <= n)%nat -> (forall i, lrel (Some true) k (k' (USec i))) ->
    lrel (Some true) (bind (l_section1_3 fc) (fun _ => k)) (run n (deserialise b_section1_3) [] k').
  Proof. section_script b_section1_3. Qed.
  Lemma lrel_section2 {B} n (k : M fac B) k' : (61 <= n)%nat -> (forall i, lrel (Some true) k (k' (USec i))) ->
    lrel (Some true) (bind (l_section2 fc) (fun _ => k)) (run n (deserialise b_section2) [] k').
  Proof. section_script b_section2. Qed.
  Lemma lrel_section3 {B} n (k : M fac B) k' : (61 <= n)%nat -> (forall i, lrel (Some true) k (k' (USec i))) ->
    lrel (Some true) (bind (l_section3 fc) (fun _ => k)) (run n (deserialise b_section3) [] k').
  Proof. section_script b_section3. Qed.
  Lemma lrel_section4 {B} n (k : M fac B) k' : (61 <= n)%nat -> (forall i, lrel (Some true) k (k' (USec i))) ->
    lrel (Some true) (bind (l_section4 fc) (fun _ => k)) (run n (deserialise b_section4) [] k').
  Proof. section_script b_section4. Qed.
  Lemma lrel_section5 {B} n (k : M fac B) k' : (61 <= n)%nat -> (forall i, lrel (Some true) k (k' (USec i))) ->
    lrel (Some true) (bind (l_section5 fc) (fun _ => k)) (run n (deserialise b_section5) [] k').
  Proof. section_script b_section5. Qed.

  (** ** The whole *)
  Lemma lrel_require {A} p (m : M fac A) n name v k : (62 <= n)%nat -> In name module_names -> module_value (module_file name) = v ->
    lrel p m (k v) -> lrel p m (run n (UBuiltin BRequire) [UStr name] k).
  Proof.
    intros Hn Hin <- H s t Hs L. destruct n as [|n]; [lia|].
    change (run (S n) (UBuiltin BRequire) [UStr name] k t) with (require files nt (run n) [UStr name] k t).
    unfold require. change (to_text nt (arg 0 [UStr name])) with name. cbv zeta.
    destruct (assoc name (l_loaded t)) as [v|] eqn:E.
    - destruct (L name v E) as (_ & ->). apply H; assumption.
    - pose proof modules as Hm. rewrite Forall_forall in Hm. destruct (Hm name Hin) as (text & E1 & E2). rewrite Hfiles, E1, E2 by exact Hin. clear text E1 E2.
      destruct (run_fun n None [] (module_chunk (body_of (module_file name))) [] [UStr name]
        (fun v s' => k (match v with UNil => UBool true | _ => v end) (mkLst (l_obj s') ((name, match v with UNil => UBool true | _ => v end) :: l_loaded s'))))
        as (m0 & fl & -> & _ & E2); [lia|]. rewrite E2. clear E2. unfold module_chunk.
      cbn [bind_args exec eval evals eval_items assoc String.eqb Ascii.eqb Bool.eqb app Nat.add].
      apply (H s (mkLst (l_obj t) ((name, module_value (module_file name)) :: l_loaded t))); [exact Hs|].
      intros x v. cbn [l_loaded assoc]. destruct (String.eqb_spec name x) as [->|]; [|apply L].
      intros X. injection X as <-. split; [exact Hin|reflexivity].
  Qed.
  Lemma lrel_new_message {B} (k : unit -> M fac B) k' : lrel (Some false) (k tt) (k' (length bm)) ->
    lrel None (bind NewMessage k) (bind (lop (o_NewMessage "")) k').
  Proof.
    intros H s t ((E1 & E2 & E3) & Em & Es) L. rewrite !bind_at, lop_at. unfold NewMessage, o_NewMessage, modify. rewrite Em.
    apply H; [|exact L]. split; [split; [exact E1|split; assumption]|]. eexists. split; [reflexivity|].
    cbn [l_obj ob_msg ob_msgs ob_secs]. rewrite Es. repeat split. unfold msg_sections. cbn. now rewrite app_nil_r.
  Qed.
  Lemma lrel_read {A B} (m : M fac A) m' (k : A -> M fac B) k' : reads m m' -> (forall a, lrel None (k a) (k' a)) ->
    lrel None (bind (lua_call m) k) (bind (lcall m') k').
  Proof.
    intros Hm Hk s t (H1 & H2 & H3) L. specialize (Hm s (l_obj t) H1). rewrite !bind_at. unfold lcall. rewrite lop_at. unfold lua_call, g_call.
    destruct (m s) as [s1 x], (m' (l_obj t)) as [h1 x']. destruct Hm as (-> & I1 & E1 & E2).
    assert (P : psim bm bs None s1 h1) by (split; [exact I1|split; congruence]).
    destruct x as [a|e|e|]; try (split; [reflexivity|split; [exists None; split; [exact P|discriminate]|exact L]]).
    apply Hk; [exact P|exact L].
  Qed.
  Ltac req name b := repeat step;
    eapply (lrel_require _ _ _ name (UTable [] [("deserialise"%string, deserialise b)])); [lia|unfold module_names; cbn [In]; tauto|vm_compute; reflexivity|].
  Ltac rest sec1 :=
    repeat step; cbv beta; apply lrel_new_message; cbv beta; repeat step;
    apply lrel_section0; [lia|intros ?]; repeat step;
    apply sec1; [lia|intros ?]; repeat step.

  Ltac tail :=
    apply lrel_section3; [lia|intros ?]; repeat step;
    apply lrel_section4; [lia|intros ?]; repeat step;
    apply lrel_section5; [lia|intros ?]; repeat step.
  Lemma lrel_end p : lrel (Some p) get_msg (ret (UMsg (Some (length bm)))).
  Proof.
    intros s t H L. pose proof H as (_ & m & E & _). unfold get_msg, ret. rewrite E. split; [reflexivity|].
    split; [|exact L]. exists (Some p). split; [exact H|]. eauto.
  Qed.
  Lemma lrel_bufr4 n : (64 <= n)%nat ->
    lrel None (bind (l_deserialise fc (l_section1_4 fc)) (fun _ => get_msg)) (run n (deserialise b_bufr4) [] ret).
  Proof.
    intros Hn0. assert (Hn : (61 <= n)%nat) by lia. enter b_bufr4.
    req "common.section0"%string b_section0. req "bufr4.section1"%string b_section1_4. req "common.section2"%string b_section2.
    req "common.section3"%string b_section3. req "common.section4"%string b_section4. req "common.section5"%string b_section5.
    unfold l_deserialise, lua_proxy. rest @lrel_section1_4.
    rewrite truthy_lv. destruct (to_boolean (lv v)).
    - repeat step. apply lrel_section2; [lia|intros ?]. repeat step. tail. apply lrel_end.
    - repeat step. tail. apply lrel_end.
  Qed.
  Lemma lrel_bufr3 n : (64 <= n)%nat ->
    lrel None (bind (l_deserialise fc (l_section1_3 fc)) (fun _ => get_msg)) (run n (deserialise b_bufr3) [] ret).
  Proof.
    intros Hn0. assert (Hn : (61 <= n)%nat) by lia. enter b_bufr3.
    req "common.section0"%string b_section0. req "bufr3.section1"%string b_section1_3. req "common.section2"%string b_section2.
    req "common.section3"%string b_section3. req "common.section4"%string b_section4. req "common.section5"%string b_section5.
    unfold l_deserialise, lua_proxy. rest @lrel_section1_3.
    rewrite truthy_lv. destruct (to_boolean (lv v)).
    - repeat step. apply lrel_section2; [lia|intros ?]. repeat step. tail. apply lrel_end.
    - repeat step. tail. apply lrel_end.
  Qed.
  Lemma lrel_boot n : (66 <= n)%nat ->
    lrel None (bind (l_boot fc) (fun _ => get_msg)) (run n (UFun None [] (chunk_of "boot.lua") []) [] ret).
  Proof.
    intros Hn0. destruct (run_fun n None [] (chunk_of "boot.lua") [] [] ret) as (m & fl & -> & Hm & E); [lia|].
    rewrite E. clear E. set (call := run m). change (chunk_of "boot.lua") with b_boot. unfold b_boot. cbn [bind_args].
    cbn [exec eval evals eval_items assoc String.eqb Ascii.eqb Bool.eqb app Nat.add]. subst call.
    unfold l_boot. repeat step. apply lrel_read; [apply reads_onr|]. intros a. cbv beta.
    change (lua_is (push_number a) 4) with (f64_eqb (f64_of_Z a) (f64_of_Z 4)).
    change (lua_is (push_number a) 3) with (f64_eqb (f64_of_Z a) (f64_of_Z 3)).
    unfold operate at 1. apply lrel_ret_r. cbv beta.
    rewrite truthy_bool.
    destruct (f64_eqb (f64_of_Z a) (f64_of_Z 4)).
    - req "bufr4.bufr4"%string b_bufr4. repeat step. apply lrel_bufr4. lia.
    - unfold operate at 1. apply lrel_ret_r. cbv beta.
      rewrite truthy_bool.
      destruct (f64_eqb (f64_of_Z a) (f64_of_Z 3)).
      + req "bufr3.bufr3"%string b_bufr3. repeat step. apply lrel_bufr3. lia.
      + unfold operate. apply lrel_ret_r. cbv beta. repeat step. exact (lrel_fail bm bs None (EMsg "lua runtime error")).
  Qed.
End Scripts.

