(** Lemmas for C87. *)
From Verif Require Export SpecObjects.

Lemma update_length {A} (f : A -> A) l : forall i, length (update i f l) = length l.
Proof. induction l as [|x l IH]; intros [|i]; cbn [update length]; auto. Qed.
Lemma update_app {A} (f : A -> A) a : forall b i, update (length a + i) f (a ++ b) = a ++ update i f b.
Proof. induction a as [|x a IH]; intros b i; [reflexivity|]. cbn [length app plus update]. now rewrite IH. Qed.
Lemma nth_update {A} (f : A -> A) l : forall i j,
  nth_error (update i f l) j = if (i =? j)%nat then option_map f (nth_error l j) else nth_error l j.
Proof.
  induction l as [|x l IH]; intros i j.
  - destruct i, j; cbn; try reflexivity; destruct (_ =? _)%nat; reflexivity.
  - destruct i, j; cbn [update nth_error Nat.eqb]; auto.
Qed.

(** ** The two models side by side *)

(** [bm], [bs]: the messages and sections there were when the current message was made;
    [ph]: has it a section? *)
Definition sim (bm : list hmsg) (bs : list section) (ph : bool) (s : fac) (h : obj) : Prop :=
  same_input s h /\
  exists m, fa_msg s = Some m /\ ob_msg h = Some (length bm) /\
    ob_msgs h = bm ++ [mkHmsg "" (seq (length bs) (length (msg_sections m))) (msg_proxy m)] /\
    ob_secs h = bs ++ msg_sections m /\
    (if ph then exists x, msg_cur m = Some x /\ ob_sec h = Some (length bs + length (msg_done m))%nat
     else msg_cur m = None /\ msg_done m = []).
Definition rel {A} bm bs (ph ph' : bool) (m : M fac A) (m' : M obj A) : Prop := forall s h, sim bm bs ph s h ->
  match m s, m' h with
  | (s', x), (h', x') => x' = x /\ (exists p, sim bm bs p s' h') /\ (forall a, x = Ok a -> sim bm bs ph' s' h')
  end.

Section Rel.
  Variable bm : list hmsg.
  Variable bs : list section.
  Notation sim := (sim bm bs).
  Notation rel := (rel bm bs).

  Lemma rel_ret {A} p (a : A) : rel p p (ret a) (ret a).
  Proof. intros s h H. cbn. split; [reflexivity|]. split; [exists p; exact H|auto]. Qed.
  Lemma rel_fail {A} p q e : rel p q (@fail fac A e) (fail e).
  Proof. intros s h H. cbn. split; [reflexivity|]. split; [exists p; exact H|discriminate]. Qed.
  Lemma rel_throw {A} p q e : rel p q (@throw fac A e) (throw e).
  Proof. intros s h H. cbn. split; [reflexivity|]. split; [exists p; exact H|discriminate]. Qed.
  Lemma rel_lift {A} p x : rel p p (@lift_res fac A x) (lift_res x).
  Proof. intros s h H. cbn. split; [reflexivity|]. split; [exists p; exact H|auto]. Qed.
  Lemma rel_bind {A B} p q r (m : M fac A) m' (k : A -> M fac B) k' :
    rel p q m m' -> (forall a, rel q r (k a) (k' a)) -> rel p r (bind m k) (bind m' k').
  Proof.
    intros Hm Hk s h H. specialize (Hm s h H). unfold bind.
    destruct (m s) as [s1 x], (m' h) as [h1 x']. destruct Hm as (-> & H1 & H2).
    destruct x as [a|e|e|]; try (split; [reflexivity|split; [exact H1|discriminate]]).
    apply (Hk a s1 h1), (H2 a eq_refl).
  Qed.
  Lemma rel_call {A} p q (m : M fac A) m' : rel p q m m' -> rel p q (g_call fac m) (g_call obj m').
  Proof.
    intros Hm s h H. specialize (Hm s h H). unfold g_call.
    destruct (m s) as [s1 x], (m' h) as [h1 x']. destruct Hm as (-> & H1 & H2).
    destruct x as [a|e|e|]; (split; [reflexivity|split; [exact H1|first [exact H2|discriminate]]]).
  Qed.
  Lemma rel_wrap {A} p q t (m : M fac A) m' : rel p q m m' -> rel p q (wrap t m) (wrap t m').
  Proof.
    intros Hm s h H. specialize (Hm s h H). unfold wrap.
    destruct (m s) as [s1 x], (m' h) as [h1 x']. destruct Hm as (-> & H1 & H2).
    destruct x as [a|e|e|]; (split; [reflexivity|split; [exact H1|first [exact H2|discriminate]]]).
  Qed.
  Lemma sim_set_r p s h r : sim p s h -> sim p (set_fr r s) (o_set_r r h).
  Proof. intros ((E1 & E2 & E3) & H). split; [repeat split; assumption|exact H]. Qed.
  Lemma rel_onr {A} p (m : M reader A) : rel p p (onr m) (o_onr m).
  Proof.
    intros s h H. unfold onr, o_onr, zoom. destruct H as (Hi & H). pose proof Hi as (E1 & _). rewrite <- E1.
    destruct (m (fa_r s)) as [r x]. assert (H1 : sim p (set_fr r s) (o_set_r r h)) by (apply sim_set_r; split; assumption).
    split; [reflexivity|]. split; [exists p; exact H1|auto].
  Qed.
  Lemma rel_gets {A} p (f : fac -> A) f' : (forall s h, sim p s h -> f s = f' h) -> rel p p (gets f) (gets f').
  Proof. intros E s h H. cbn. rewrite (E s h H). split; [reflexivity|]. split; [exists p; exact H|auto]. Qed.
  Lemma rel_pos p : rel p p (gets (fun s => r_Pos (fa_r s))) (gets (fun h => r_Pos (ob_r h))).
  Proof. apply rel_gets. intros s h ((E & _) & _). now rewrite E. Qed.
  Lemma rel_if {A} p q (b : bool) (m1 m2 : M fac A) m1' m2' : rel p q m1 m1' -> rel p q m2 m2' ->
    rel p q (if b then m1 else m2) (if b then m1' else m2').
  Proof. destruct b; auto. Qed.
  Lemma rel_replicate {A} p (m : M fac A) m' : rel p p m m' -> forall n, rel p p (replicateM n m) (replicateM n m').
  Proof.
    intros Hm n. induction n as [|n IH]; cbn [replicateM]; [apply rel_ret|].
    eapply rel_bind; [exact Hm|]. intros a. eapply rel_bind; [exact IH|]. intros l. apply rel_ret.
  Qed.

  Lemma sections_cur m x : msg_cur m = Some x -> msg_sections m = rev (msg_done m) ++ [x].
  Proof. unfold msg_sections. intros ->. reflexivity. Qed.
  Lemma last_index m x : msg_cur m = Some x -> nth_error (bs ++ msg_sections m) (length bs + length (msg_done m)) = Some x.
  Proof.
    intros E. rewrite (sections_cur _ _ E), nth_error_app2 by lia.
    replace (length bs + length (msg_done m) - length bs)%nat with (length (rev (msg_done m))) by (rewrite rev_length; lia).
    rewrite nth_error_app2, Nat.sub_diag by lia. reflexivity.
  Qed.

  (** the current section: dereferencing and changing it *)
  Definition rel1 {B} q (x : section) (i : nat) (m : M fac B) (m' : M obj B) : Prop := forall s h, sim true s h ->
    (exists mm, fa_msg s = Some mm /\ msg_cur mm = Some x /\ i = (length bs + length (msg_done mm))%nat) ->
    match m s, m' h with
    | (s', y), (h', y') => y' = y /\ (exists p, sim p s' h') /\ (forall a, y = Ok a -> sim q s' h')
    end.
  Lemma rel_get_section {B} q (k : section -> M fac B) (k' : nat * section -> M obj B) :
    (forall x i, rel1 q x i (k x) (k' (i, x))) ->
    rel true q (sec <- get_section ;; k sec)%M (p <- gets ob_sec ;; sec <- deref ob_secs p ;; k' sec)%M.
  Proof.
    intros Hk s h H. pose proof H as (Hi & m & E1 & E2 & E3 & E4 & x & Ex & E5).
    unfold bind, gets, deref, get_section, get_msg, bind. rewrite E1. rewrite Ex. cbn [ret].
    unfold ret. cbn beta iota. rewrite E5, E4, (last_index _ _ Ex).
    apply (Hk x (length bs + length (msg_done m))%nat s h H). eauto.
  Qed.
  Lemma sim_upd_section f s h m x : sim true s h -> fa_msg s = Some m -> msg_cur m = Some x ->
    sim true (set_msg (mkMessage (msg_done m) (Some (f x)) (msg_proxy m)) s)
             (o_upd_sec (length bs + length (msg_done m)) f h).
  Proof.
    intros (Hi & m0 & E1 & E2 & E3 & E4 & y & Ey & E5) Em Ex. rewrite E1 in Em. injection Em as ->.
    rewrite Ex in Ey. injection Ey as <-. split; [exact Hi|]. exists (mkMessage (msg_done m) (Some (f x)) (msg_proxy m)).
    cbn [set_msg fa_msg o_upd_sec ob_msg ob_msgs ob_secs ob_sec msg_cur msg_done msg_proxy].
    assert (EL : length (msg_sections (mkMessage (msg_done m) (Some (f x)) (msg_proxy m))) = length (msg_sections m)).
    { rewrite (sections_cur _ x Ex), (sections_cur (mkMessage _ (Some (f x)) _) (f x) eq_refl). cbn [msg_done]. now rewrite !app_length. }
    rewrite EL. repeat split; try assumption; [|eauto].
    rewrite E4, update_app, (sections_cur _ x Ex), (sections_cur (mkMessage _ (Some (f x)) _) (f x) eq_refl). cbn [msg_done]. f_equal.
    rewrite <- (rev_length (msg_done m)), <- (Nat.add_0_r (length (rev (msg_done m)))), update_app. reflexivity.
  Qed.
  Lemma rel_upd_section f : rel true true (upd_section f)
    (p <- gets ob_sec ;; x <- deref ob_secs p ;; modify (o_upd_sec (fst x) f))%M.
  Proof.
    intros s h H. pose proof H as (Hi & m & E1 & E2 & E3 & E4 & x & Ex & E5).
    unfold upd_section, bind, gets, deref, get_msg, modify. rewrite E1, Ex, E5, E4, (last_index _ _ Ex). cbn [fst].
    pose proof (sim_upd_section f s h m x H E1 Ex) as H1. split; [reflexivity|]. split; [exists true; exact H1|intros _ _; exact H1].
  Qed.
  Lemma rel_add f : rel true true (AddField f) (o_add f).
  Proof. exact (rel_upd_section _). Qed.
  Lemma rel_set_proxy p f : rel p p (set_proxy f) (o_proxy f).
  Proof.
    intros s h H. pose proof H as (Hi & m & E1 & E2 & E3 & E4 & E5).
    unfold set_proxy, o_proxy, o_SetProxyField, bind, gets, deref, get_msg, modify. rewrite E1, E2, E3.
    rewrite nth_error_app2, Nat.sub_diag by lia. cbn [nth_error fst].
    assert (H1 : sim p (set_msg (SetProxyField f m) s) (o_upd_msg (length bm)
               (fun y => mkHmsg (hm_path y) (hm_secs y) ((f_name f, f) :: hm_proxy y)) h)).
    { split; [exact Hi|]. exists (SetProxyField f m).
      cbn [set_msg fa_msg o_upd_msg ob_msg ob_msgs ob_secs ob_sec SetProxyField msg_cur msg_done msg_proxy].
      change (msg_sections (SetProxyField f m)) with (msg_sections m).
      repeat split; try assumption. rewrite E3. rewrite <- (Nat.add_0_r (length bm)), update_app. reflexivity. }
    split; [reflexivity|]. split; [exists p; exact H1|intros _ _; exact H1].
  Qed.
  Lemma rel_new_section p n d : rel p true (NewSection n d) (o_NewSection n d ;; ret tt)%M.
  Proof.
    intros s h H. destruct H as (Hi & m & E1 & E2 & E3 & E4 & E5).
    pose proof Hi as (Er & Eu & Eg).
    unfold NewSection, o_NewSection, bind, gets, deref, get_msg, modify, ret. rewrite E1, E2, E3.
    rewrite nth_error_app2, Nat.sub_diag by lia. cbn [nth_error fst].
    match goal with |- _ /\ (exists q, sim q ?s' ?h') /\ _ => assert (H1 : sim true s' h') end.
    { split; [split; [exact Er|split; assumption]|]. eexists. split; [reflexivity|].
      cbn [set_msg fa_msg ob_msg ob_msgs ob_secs ob_sec msg_cur msg_done msg_proxy].
      assert (Es : forall x, msg_sections (mkMessage (match msg_cur m with Some x => x :: msg_done m | None => msg_done m end) (Some x) (msg_proxy m)) = msg_sections m ++ [x]).
      { intros x. unfold msg_sections. cbn [msg_cur msg_done]. reflexivity. }
      rewrite !Es, Er, E4. split; [exact E2|]. split; [|split].
      - rewrite ?E3, <- (Nat.add_0_r (length bm)), update_app. cbn [update hm_path hm_secs hm_proxy].
        rewrite !app_length. cbn [length]. rewrite seq_app. reflexivity.
      - now rewrite app_assoc.
      - eexists. split; [reflexivity|]. f_equal. rewrite app_length. f_equal. unfold msg_sections.
        destruct (msg_cur m); now rewrite rev_length. }
    split; [reflexivity|]. split; [exists true; exact H1|intros _ _; exact H1].
  Qed.
  Lemma rel_proxy_get p name : rel p p (m <- get_msg ;; lift_res (ProxyField m name))%M
    (m <- gets ob_msg ;; o_ProxyField m name)%M.
  Proof.
    intros s h H. pose proof H as (Hi & m & E1 & E2 & E3 & E4 & E5).
    unfold bind, gets, o_ProxyField, deref, bind, get_msg, lift_res, ProxyField. rewrite E1, E2, E3.
    rewrite nth_error_app2, Nat.sub_diag by lia. cbn [nth_error snd hm_proxy].
    destruct (proxy_get name (msg_proxy m)); cbn; (split; [reflexivity|split; [exists p; exact H|intros; first [exact H|discriminate]]]).
  Qed.

  Variable fc : fconfig.
  Lemma rel_NewField name dt nbits proxy : rel true true (NewField fc name dt nbits proxy) (o_NewField fc name dt nbits proxy).
  Proof.
    unfold NewField, o_NewField. eapply rel_bind.
    - destruct dt; try (eapply rel_bind; [apply rel_onr|]; intros x; apply rel_ret). apply rel_fail.
    - intros v. cbv zeta. eapply rel_bind; [apply rel_add|]. intros _. eapply rel_bind; [|intros _; apply rel_ret].
      destruct proxy; [apply rel_set_proxy|apply rel_ret].
  Qed.
  Lemma rel_read_id a b c : rel true true (read_id fc a b c) (o_read_id fc a b c).
  Proof.
    unfold read_id, o_read_id. do 3 (eapply rel_bind; [apply rel_onr|]; intros ?). apply rel_ret.
  Qed.
  Lemma rel_of_rel1 {B} q x i (m : M fac B) m' : rel true q m m' -> rel1 q x i m m'.
  Proof. intros H s h Hs _. apply (H s h Hs). Qed.
  Lemma rel_NewTemplateField name a b c len : rel true true (NewTemplateField fc name a b c len) (o_NewTemplateField fc name a b c len).
  Proof.
    unfold NewTemplateField, o_NewTemplateField. eapply rel_bind; [apply rel_pos|]. intros pos.
    apply rel_get_section. intros x i. cbv zeta. cbn [snd]. apply rel_of_rel1.
    apply rel_if; [apply rel_throw|]. apply rel_if; [apply rel_throw|].
    eapply rel_bind; [apply rel_replicate, rel_read_id|]. intros ids. eapply (rel_bind true true).
    - intros s h (Hi & H). cbn. assert (H1 : sim true (mkFac (fa_r s) (fa_msg s) (Some ids) (fa_group s))
        (mkObj (ob_r h) (ob_msgs h) (ob_secs h) (ob_msg h) (ob_sec h) (Some ids) (ob_group h))).
      { destruct Hi as (E1 & E2 & E3). split; [repeat split; assumption|exact H]. }
      split; [reflexivity|]. split; [exists true; exact H1|intros _ _; exact H1].
    - intros _. cbv zeta. eapply rel_bind; [apply rel_add|]. intros _. eapply rel_bind; [apply rel_set_proxy|]. intros _. apply rel_ret.
  Qed.
  Lemma rel_NewPayloadField name n c : rel true true (NewPayloadField fc name n c) (o_NewPayloadField fc name n c).
  Proof.
    unfold NewPayloadField, o_NewPayloadField. eapply rel_bind; [apply rel_pos|]. intros pos.
    eapply rel_bind; [apply (rel_gets true fa_group ob_group); intros s h ((_ & _ & E) & _); exact E|]. intros g.
    eapply rel_bind; [apply (rel_gets true fa_ut ob_ut); intros s h ((_ & E & _) & _); exact E|]. intros ut.
    destruct g as [g|]; [|apply rel_throw]. destruct ut as [ids|]; [|apply rel_throw].
    eapply rel_bind; [apply rel_wrap, rel_lift|]. intros tree.
    eapply rel_bind; [apply (rel_gets true fa_r ob_r); intros s h ((E & _) & _); exact E|]. intros r. cbv zeta.
    destruct (run_payload _ tree (vst0 r)) as [vs x]. eapply (rel_bind true true).
    - intros s h H. cbn. pose proof (sim_set_r true s h (v_r vs) H) as H1. split; [reflexivity|]. split; [exists true; exact H1|intros _ _; exact H1].
    - intros _. eapply rel_bind; [apply rel_lift|]. intros _. eapply rel_bind; [apply rel_add|]. intros _.
      eapply rel_bind; [apply rel_set_proxy|]. intros _. apply rel_ret.
  Qed.
  Lemma rel1_upd {B} q f x i (k : M fac B) k' : rel true q k k' ->
    rel1 q x i (upd_section f ;; k)%M (modify (o_upd_sec i f) ;; k')%M.
  Proof.
    intros Hk s h H (m & Em & Ex & ->).
    assert (Eu : upd_section f s = (set_msg (mkMessage (msg_done m) (Some (f x)) (msg_proxy m)) s, Ok tt))
      by (unfold upd_section, bind, get_msg; rewrite Em, Ex; reflexivity).
    unfold bind. rewrite Eu. cbn [modify]. apply Hk. apply sim_upd_section; assumption.
  Qed.
  Lemma rel_Padding len : rel true true (Padding len) (o_Padding len).
  Proof.
    unfold Padding, o_Padding. eapply rel_bind; [apply rel_pos|]. intros pos.
    apply rel_get_section. intros x i. cbv zeta. cbn [snd fst].
    match goal with |- context [if ?b =? 0 then _ else _] => set (pad := b) end.
    destruct (pad =? 0); [apply rel_of_rel1, rel_ret|]. destruct (pad <? 0); [apply rel_of_rel1, rel_fail|].
    apply rel1_upd. eapply rel_bind; [apply rel_wrap, rel_onr|]. intros [b|]; [apply rel_add|apply rel_throw].
  Qed.
  Lemma rel_Init a b c d e p : rel p p (InitTableGroup fc a b c d e) (o_InitTableGroup fc a b c d e).
  Proof.
    intros s h H. pose proof H as ((E1 & E2 & E3) & Hm). unfold InitTableGroup, o_InitTableGroup.
    destruct (AddLocalAndWmoTableGroups (fc_fs fc) a b c d e []) as [l [u|x|x|]];
      try (split; [reflexivity|split; [exists p; exact H|discriminate]]).
    match goal with |- _ /\ (exists q, sim q ?s' ?h') /\ _ => assert (H1 : sim p s' h') end.
    { split; [split; [exact E1|split; [exact E2|reflexivity]]|exact Hm]. }
    split; [reflexivity|]. split; [exists p; exact H1|intros _ _; exact H1].
  Qed.

  (** ** The scripts *)
  Notation G1 d := (d fac).
  Lemma rel_number f p : rel p p (g_number fac f) (g_number obj f).
  Proof. unfold g_number. destruct (f_value f); first [apply rel_ret|apply rel_fail]. Qed.
  Lemma rel_bool f p : rel p p (g_bool fac f) (g_bool obj f).
  Proof. unfold g_bool. destruct (f_value f); first [apply rel_ret|apply rel_fail]. Qed.
  Notation FP := (fun name => (m <- get_msg ;; lift_res (ProxyField m name))%M).
  Notation OP := (fun name => (m <- gets ob_msg ;; o_ProxyField m name)%M).
  Lemma rel_proxy_number name : rel true true (g_proxy_number fac FP name) (g_proxy_number obj OP name).
  Proof. eapply rel_bind; [apply rel_call, rel_proxy_get|]. intros f. apply rel_number. Qed.
  Lemma rel_proxy_bool name : rel true true (g_proxy_bool fac FP name) (g_proxy_bool obj OP name).
  Proof. eapply rel_bind; [apply rel_call, rel_proxy_get|]. intros f. apply rel_bool. Qed.
  Lemma rel_field name ty n b : rel true true (g_field fac (NewField fc) name ty n b) (g_field obj (o_NewField fc) name ty n b).
  Proof. apply rel_call, rel_NewField. Qed.
  Lemma rel_field_ name ty n b : rel true true (g_field_ fac (NewField fc) name ty n b) (g_field_ obj (o_NewField fc) name ty n b).
  Proof. eapply rel_bind; [apply rel_field|]. intros _. apply rel_ret. Qed.
  Lemma rel_fields l k k' : rel true true k k' -> rel true true (g_fields fac (NewField fc) l k) (g_fields obj (o_NewField fc) l k').
  Proof.
    intros Hk. induction l as [|[[[name ty] n] b] l IH]; [exact Hk|]. cbn [g_fields fold_right].
    eapply rel_bind; [apply rel_field_|]. intros _. exact IH.
  Qed.
  Ltac script := repeat first
    [ apply rel_fields | apply rel_number | apply rel_proxy_number | apply rel_proxy_bool
    | apply rel_field | apply rel_field_ | apply rel_ret
    | apply rel_call; first [apply rel_Padding | apply rel_NewTemplateField | apply rel_NewPayloadField | apply rel_Init]
    | eapply rel_bind; [|intros ?] ].
  Lemma rel_section0 p : rel p true (g_section0 fac NewSection (NewField fc))
    (g_section0 obj (fun n d => (o_NewSection n d ;; ret tt)%M) (o_NewField fc)).
  Proof. unfold g_section0. eapply rel_bind; [apply rel_new_section|intros _]. script. Qed.
  Lemma rel_section1_4 : rel true true (g_section1_4 fac NewSection (NewField fc) Padding)
    (g_section1_4 obj (fun n d => (o_NewSection n d ;; ret tt)%M) (o_NewField fc) o_Padding).
  Proof. unfold g_section1_4. eapply rel_bind; [apply rel_new_section|intros _]. script. Qed.
  Lemma rel_section1_3 : rel true true (g_section1_3 fac NewSection (NewField fc) Padding)
    (g_section1_3 obj (fun n d => (o_NewSection n d ;; ret tt)%M) (o_NewField fc) o_Padding).
  Proof. unfold g_section1_3. eapply rel_bind; [apply rel_new_section|intros _]. script. Qed.
  Lemma rel_section2 : rel true true (g_section2 fac NewSection (NewField fc))
    (g_section2 obj (fun n d => (o_NewSection n d ;; ret tt)%M) (o_NewField fc)).
  Proof. unfold g_section2. eapply rel_bind; [apply rel_new_section|intros _]. script. Qed.
  Lemma rel_section3 : rel true true (g_section3 fac NewSection (NewField fc) (NewTemplateField fc) Padding)
    (g_section3 obj (fun n d => (o_NewSection n d ;; ret tt)%M) (o_NewField fc) (o_NewTemplateField fc) o_Padding).
  Proof. unfold g_section3. eapply rel_bind; [apply rel_new_section|intros _]. script. Qed.
  Lemma rel_section4 : rel true true (g_section4 fac NewSection (NewField fc) (NewPayloadField fc) Padding FP)
    (g_section4 obj (fun n d => (o_NewSection n d ;; ret tt)%M) (o_NewField fc) (o_NewPayloadField fc) o_Padding OP).
  Proof. unfold g_section4. eapply rel_bind; [apply rel_new_section|intros _]. script. Qed.
  Lemma rel_section5 : rel true true (g_section5 fac NewSection (NewField fc))
    (g_section5 obj (fun n d => (o_NewSection n d ;; ret tt)%M) (o_NewField fc)).
  Proof. unfold g_section5. eapply rel_bind; [apply rel_new_section|intros _]. script. Qed.
End Rel.
