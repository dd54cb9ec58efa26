(** Lemmas for C87: whole runs, and any sequence of calls. *)
From Verif Require Export ProofsObjects.

Lemma bind_at {S A B} (m : M S A) (k : A -> M S B) s : bind m k s =
  match m s with (s', Ok a) => k a s' | (s', Err e) => (s', Err e) | (s', Panic p) => (s', Panic p) | (s', NoFuel) => (s', NoFuel) end.
Proof. reflexivity. Qed.

(** ** Runs *)
Section Run.
  Variable fc : fconfig.
  Lemma deserialise_rel (S1 : M fac unit) (S1' : M obj unit) :
    (forall bm bs, rel bm bs true true S1 S1') -> forall s h, same_input s h ->
    match g_deserialise fac NewMessage NewSection (NewField fc) (NewTemplateField fc) (NewPayloadField fc) Padding (InitTableGroup fc)
            (fun name => (m <- get_msg ;; lift_res (ProxyField m name))%M) S1 s,
          g_deserialise obj (o_NewMessage "" ;; ret tt)%M (fun n d => (o_NewSection n d ;; ret tt)%M) (o_NewField fc)
            (o_NewTemplateField fc) (o_NewPayloadField fc) o_Padding (o_InitTableGroup fc)
            (fun name => (m <- gets ob_msg ;; o_ProxyField m name)%M) S1' h with
    | (s', x), (h', x') => x' = x /\ exists p, sim (ob_msgs h) (ob_secs h) p s' h'
    end.
  Proof.
    intros H1 s h (E1 & E2 & E3). unfold g_deserialise.
    set (s0 := set_msg (mkMessage [] None []) s).
    set (h0 := mkObj (ob_r h) (ob_msgs h ++ [mkHmsg "" [] []]) (ob_secs h) (Some (length (ob_msgs h))) (ob_sec h) (ob_ut h) (ob_group h)).
    assert (H0 : sim (ob_msgs h) (ob_secs h) false s0 h0).
    { split; [repeat split; assumption|]. eexists. split; [reflexivity|]. cbn [ob_msg ob_msgs ob_secs h0]. repeat split.
      unfold msg_sections. cbn. now rewrite app_nil_r. }
    match goal with |- context [bind NewMessage ?k s] => change (bind NewMessage k s) with (k tt s0) end.
    match goal with |- context [bind (o_NewMessage "" ;; ret tt)%M ?k h] =>
      change (bind (o_NewMessage "" ;; ret tt)%M k h) with (k tt h0) end.
    cbv beta.
    match goal with |- match ?m s0 with _ => _ end => 
      match goal with |- context [match ?m' h0 with _ => _ end] =>
        assert (R : rel (ob_msgs h) (ob_secs h) false true m m') end end.
    { eapply rel_bind; [apply rel_section0|intros _]. eapply rel_bind; [apply H1|intros _].
      eapply rel_bind; [apply rel_proxy_bool|intros s2].
      eapply rel_bind; [instantiate (1 := true); destruct s2; [apply rel_section2|apply rel_ret]|intros _].
      eapply rel_bind; [apply rel_section3|intros _].
      do 5 (eapply rel_bind; [apply rel_proxy_number|intros ?]).
      eapply rel_bind; [apply rel_call, rel_Init|intros _].
      eapply rel_bind; [apply rel_section4|intros _]. apply rel_section5. }
    specialize (R s0 h0 H0).
    match type of R with match ?a with _ => _ end => destruct a as [s' x] end.
    match type of R with match ?a with _ => _ end => destruct a as [h' x'] end.
    destruct R as (R1 & R2 & _). auto.
  Qed.

  (** reading without building *)
  Definition reads {A} (m : M fac A) (m' : M obj A) : Prop := forall s h, same_input s h ->
    match m s, m' h with
    | (s', x), (h', x') => x' = x /\ same_input s' h' /\ ob_msgs h' = ob_msgs h /\ ob_secs h' = ob_secs h
    end.
  Lemma reads_onr {A} (m : M reader A) : reads (onr m) (o_onr m).
  Proof.
    intros s h (E1 & E2 & E3). unfold onr, o_onr, zoom. rewrite <- E1. destruct (m (fa_r s)) as [r x].
    repeat split; assumption.
  Qed.
  Lemma reads_seek n : reads (SeekStartSignature n) (o_SeekStartSignature n).
  Proof.
    induction n as [|n IH]; intros s h H; cbn [SeekStartSignature o_SeekStartSignature]; [cbn; auto|].
    unfold bind. pose proof (reads_onr (r_PeekBytes 0 4) s h H) as R.
    destruct (onr (r_PeekBytes 0 4) s) as [s1 x], (o_onr (r_PeekBytes 0 4) h) as [h1 x'].
    destruct R as (-> & H1 & M1 & S1). destruct x as [bs|e|e|]; try (cbn; auto; fail).
    destruct (length bs <? 4)%nat; [cbn; auto|]. destruct (gs_eqb bs BUFR); [cbn; auto|].
    pose proof (reads_onr (r_ReadBytes 1) s1 h1 H1) as R.
    destruct (onr (r_ReadBytes 1) s1) as [s2 y], (o_onr (r_ReadBytes 1) h1) as [h2 y'].
    destruct R as (-> & H2 & M2 & S2). rewrite M1 in M2. rewrite S1 in S2.
    destruct y as [u|e|e|]; try (cbn; auto; fail); specialize (IH s2 h2 H2);
      destruct (SeekStartSignature n s2) as [s3 z], (o_SeekStartSignature n h2) as [h3 z'];
      destruct IH as (-> & H3 & M3 & S3); rewrite M2 in M3; rewrite S2 in S3; auto.
  Qed.
  Lemma boot_rel s h : same_input s h ->
    match boot fc s, o_boot fc h with
    | (s', x), (h', x') => x' = x /\ same_input s' h' /\
        (exists am as_, ob_msgs h' = ob_msgs h ++ am /\ ob_secs h' = ob_secs h ++ as_) /\
        (x = Ok tt -> exists p, sim (ob_msgs h) (ob_secs h) p s' h')
    end.
  Proof.
    intros H. rewrite <- generic_boot. unfold f_boot, o_boot, g_boot.
    rewrite (bind_at (g_call fac _) _ s), (bind_at (g_call obj _) _ h). unfold g_call at 1 2.
    pose proof (reads_onr (r_PeekUint (fc_plat fc) 7 8) s h H) as R. unfold PeekEditionNumber, o_PeekEditionNumber.
    destruct (onr (r_PeekUint (fc_plat fc) 7 8) s) as [s1 x], (o_onr (r_PeekUint (fc_plat fc) 7 8) h) as [h1 x'].
    destruct R as (-> & H1 & M1 & S1).
    assert (T : exists am as_, ob_msgs h1 = ob_msgs h ++ am /\ ob_secs h1 = ob_secs h ++ as_)
      by (exists [], []; rewrite !app_nil_r; auto).
    destruct x as [ed|e|e|]; try (repeat split; [apply H1|apply H1|apply H1|exact T|discriminate]).
    assert (D : forall S1 S1', (forall bm bs, rel bm bs true true S1 S1') ->
      match g_deserialise fac NewMessage NewSection (NewField fc) (NewTemplateField fc) (NewPayloadField fc) Padding (InitTableGroup fc)
            (fun name => (m <- get_msg ;; lift_res (ProxyField m name))%M) S1 s1,
          g_deserialise obj (o_NewMessage "" ;; ret tt)%M (fun n d => (o_NewSection n d ;; ret tt)%M) (o_NewField fc)
            (o_NewTemplateField fc) (o_NewPayloadField fc) o_Padding (o_InitTableGroup fc)
            (fun name => (m <- gets ob_msg ;; o_ProxyField m name)%M) S1' h1 with
      | (s', x), (h', x') => x' = x /\ same_input s' h' /\
        (exists am as_, ob_msgs h' = ob_msgs h ++ am /\ ob_secs h' = ob_secs h ++ as_) /\
        (x = Ok tt -> exists p, sim (ob_msgs h) (ob_secs h) p s' h')
      end).
    { intros P P' HP. pose proof (deserialise_rel P P' HP s1 h1 H1) as R. rewrite M1, S1 in R.
      match type of R with match ?a with _ => _ end => destruct a as [s2 y] end.
      match type of R with match ?a with _ => _ end => destruct a as [h2 y'] end.
      destruct R as (-> & p & R). split; [reflexivity|]. pose proof R as (Hi & m & _ & _ & Em & Es & _).
      split; [exact Hi|]. split; [eauto|]. intros _. eauto. }
    destruct (ed =? 4); [apply D; intros; apply rel_section1_4|].
    destruct (ed =? 3); [apply D; intros; apply rel_section1_3|].
    cbn. repeat split; [apply H1|apply H1|apply H1|exact T|discriminate].
  Qed.
  Lemma sim_seen bm bs p s h m : sim bm bs p s h -> fa_msg s = Some m ->
    seen h (length bm) = Some (""%string, map Some (msg_sections m), msg_proxy m).
  Proof.
    intros (_ & m' & E1 & _ & E3 & E4 & _) Em. rewrite E1 in Em. injection Em as ->.
    unfold seen. rewrite E3, nth_error_app2, Nat.sub_diag by lia. cbn [nth_error hm_path hm_secs hm_proxy]. do 2 f_equal.
    rewrite E4. f_equal. clear. revert bs. induction (msg_sections m) as [|x l IH]; intros bs; [reflexivity|].
    cbn [length seq map]. f_equal.
    - rewrite nth_error_app2, Nat.sub_diag by lia. reflexivity.
    - specialize (IH (bs ++ [x])). rewrite app_length, <- app_assoc in IH. cbn [length app] in IH.
      rewrite Nat.add_1_r in IH. exact IH.
  Qed.
  Lemma Run_rel s h : same_input s h ->
    match Run fc s, o_Run fc h with
    | (s', x), (h', y) => same_input s' h' /\
        (exists am as_, ob_msgs h' = ob_msgs h ++ am /\ ob_secs h' = ob_secs h ++ as_) /\
        match x with
        | Ok m => y = Ok (length (ob_msgs h)) /\
                  seen h' (length (ob_msgs h)) = Some (""%string, map Some (msg_sections m), msg_proxy m)
        | Err e => y = Err e
        | Panic p => y = Panic p
        | NoFuel => y = NoFuel
        end
    end.
  Proof.
    intros H. unfold Run, o_Run, bind.
    pose proof (reads_seek (fc_fuel fc) s h H) as R.
    destruct (SeekStartSignature (fc_fuel fc) s) as [s1 x], (o_SeekStartSignature (fc_fuel fc) h) as [h1 x'].
    destruct R as (-> & H1 & M1 & S1).
    assert (T : exists am as_, ob_msgs h1 = ob_msgs h ++ am /\ ob_secs h1 = ob_secs h ++ as_)
      by (exists [], []; rewrite !app_nil_r; auto).
    destruct x as [u|e|e|]; auto.
    pose proof (boot_rel s1 h1 H1) as R. rewrite M1, S1 in R.
    destruct (boot fc s1) as [s2 y], (o_boot fc h1) as [h2 y']. destruct R as (-> & H2 & T2 & Hs).
    destruct y as [[]|e|e|]; auto. destruct (Hs eq_refl) as (p & Hp).
    pose proof Hp as (_ & m & Em & Eo & EM & _). unfold get_msg, gets, deref. rewrite Em, Eo, EM.
    rewrite nth_error_app2, Nat.sub_diag by lia. cbn [nth_error ret fst]. unfold ret.
    split; [exact H2|]. split; [exact T2|]. split; [reflexivity|]. eapply sim_seen; eassumption.
  Qed.
  Lemma seen_old h h' : sound h -> (exists am as_, ob_msgs h' = ob_msgs h ++ am /\ ob_secs h' = ob_secs h ++ as_) ->
    forall i, (i < length (ob_msgs h))%nat -> seen h' i = seen h i.
  Proof.
    intros (Hs & _) (am & as_ & Em & Es) i Hi. unfold seen. rewrite Em, nth_error_app1 by exact Hi.
    destruct (nth_error (ob_msgs h) i) as [m|] eqn:E; [|reflexivity]. do 2 f_equal. f_equal.
    apply nth_error_In in E. rewrite Forall_forall in Hs. specialize (Hs m E). rewrite Forall_forall in Hs.
    apply map_ext_in. intros j Hj. rewrite Es, nth_error_app1 by (apply Hs, Hj). reflexivity.
  Qed.
End Run.

(** ** Any calls *)
Definition kept (E : nat -> Prop) (h h' : obj) : Prop :=
  (forall i, (i < length (ob_msgs h))%nat -> ~ E i -> ob_msg h <> Some i -> nth_error (ob_msgs h') i = nth_error (ob_msgs h) i) /\
  (forall i, (i < length (ob_secs h))%nat -> ob_sec h <> Some i -> nth_error (ob_secs h') i = nth_error (ob_secs h) i).
Definition moved (old : option nat) (n : nat) (new : option nat) : Prop :=
  new = old \/ exists j, new = Some j /\ (n <= j)%nat.
Definition K (E : nat -> Prop) (h h' : obj) : Prop :=
  kept E h h' /\ more h h' /\
  moved (ob_msg h) (length (ob_msgs h)) (ob_msg h') /\ moved (ob_sec h) (length (ob_secs h)) (ob_sec h') /\
  (sound h -> sound h').

Lemma more_section_refl s : more_section s s.
Proof. repeat split. exists []. now rewrite app_nil_r. Qed.
Lemma more_message_refl m : more_message m m.
Proof. repeat split; exists []; now rewrite ?app_nil_r. Qed.
Lemma more_section_trans a b c : more_section a b -> more_section b c -> more_section a c.
Proof.
  intros (A1 & A2 & A3 & fs & A4) (B1 & B2 & B3 & gs & B4). repeat split; try congruence.
  exists (fs ++ gs). now rewrite B4, A4, app_assoc.
Qed.
Lemma more_message_trans a b c : more_message a b -> more_message b c -> more_message a c.
Proof.
  intros (A1 & (ss & A2) & ps & A3) (B1 & (ts & B2) & qs & B3). split; [congruence|]. split.
  - exists (ss ++ ts). now rewrite B2, A2, app_assoc.
  - exists (qs ++ ps). now rewrite B3, A3, app_assoc.
Qed.
Lemma more_length h h' : more h h' -> (length (ob_msgs h) <= length (ob_msgs h'))%nat /\ (length (ob_secs h) <= length (ob_secs h'))%nat.
Proof.
  intros (H1 & H2). split.
  - destruct (length (ob_msgs h)) as [|n] eqn:E; [lia|].
    destruct (nth_error (ob_msgs h) n) as [m|] eqn:En; [|apply nth_error_None in En; lia].
    destruct (H1 _ _ En) as (m' & E' & _). enough (n < length (ob_msgs h'))%nat by lia; apply nth_error_Some; congruence.
  - destruct (length (ob_secs h)) as [|n] eqn:E; [lia|].
    destruct (nth_error (ob_secs h) n) as [m|] eqn:En; [|apply nth_error_None in En; lia].
    destruct (H2 _ _ En) as (m' & E' & _). enough (n < length (ob_secs h'))%nat by lia; apply nth_error_Some; congruence.
Qed.
Lemma K_refl E h : K E h h.
Proof.
  unfold K, kept, more, moved. split; [split|split; [split|split; [|split]]]; auto; try (left; reflexivity).
  - intros i m H. exists m. split; [exact H|apply more_message_refl].
  - intros i s H. exists s. split; [exact H|apply more_section_refl].
Qed.
Lemma K_trans E h1 h2 h3 : K E h1 h2 -> K E h2 h3 -> K E h1 h3.
Proof.
  intros ((A1 & A2) & A3 & A4 & A5 & A6) ((B1 & B2) & B3 & B4 & B5 & B6).
  pose proof (more_length _ _ A3) as (L1 & L2). unfold K, kept, more, moved. split; [split|split; [split|split; [|split; [|auto]]]].
  - intros i Hi HE Hc. rewrite <- (A1 i Hi HE Hc). apply B1; [lia|exact HE|].
    destruct A4 as [->|(j & -> & Hj)]; [exact Hc|]. intros X. injection X as ->. lia.
  - intros i Hi Hc. rewrite <- (A2 i Hi Hc). apply B2; [lia|].
    destruct A5 as [->|(j & -> & Hj)]; [exact Hc|]. intros X. injection X as ->. lia.
  - intros i m H. destruct (proj1 A3 i m H) as (m' & E' & Hm). destruct (proj1 B3 i m' E') as (m2 & E2 & Hm2).
    exists m2. split; [exact E2|]. eapply more_message_trans; eassumption.
  - intros i m H. destruct (proj2 A3 i m H) as (m' & E' & Hm). destruct (proj2 B3 i m' E') as (m2 & E2 & Hm2).
    exists m2. split; [exact E2|]. eapply more_section_trans; eassumption.
  - destruct B4 as [->|(j & -> & Hj)]; [exact A4|]. right. exists j. split; [reflexivity|lia].
  - destruct B5 as [->|(j & -> & Hj)]; [exact A5|]. right. exists j. split; [reflexivity|lia].
Qed.

Section Calls.
  Variable E : nat -> Prop.
  Definition keeps {A} (m : M obj A) : Prop := forall h, K E h (fst (m h)).
  Lemma keeps_bind {A B} (m : M obj A) (k : A -> M obj B) : keeps m -> (forall a, keeps (k a)) -> keeps (bind m k).
  Proof.
    intros Hm Hk h. specialize (Hm h). unfold bind. destruct (m h) as [h1 [a|e|e|]]; try exact Hm.
    eapply K_trans; [exact Hm|]. apply Hk.
  Qed.
  Lemma keeps_same {A} (m : M obj A) : (forall h, fst (m h) = h) -> keeps m.
  Proof. intros H h. rewrite H. apply K_refl. Qed.
  Lemma keeps_ret {A} (a : A) : keeps (ret a). Proof. now apply keeps_same. Qed.
  Lemma keeps_fail {A} e : keeps (@fail obj A e). Proof. now apply keeps_same. Qed.
  Lemma keeps_throw {A} e : keeps (@throw obj A e). Proof. now apply keeps_same. Qed.
  Lemma keeps_lift {A} x : keeps (@lift_res obj A x). Proof. now apply keeps_same. Qed.
  Lemma keeps_gets {A} (f : obj -> A) : keeps (gets f). Proof. now apply keeps_same. Qed.
  Lemma keeps_deref {A} (st : obj -> list A) p : keeps (deref st p).
  Proof. apply keeps_same. intros h. unfold deref. destruct p as [i|]; [|reflexivity]. now destruct (nth_error (st h) i). Qed.
  Lemma keeps_wrap {A} t (m : M obj A) : keeps m -> keeps (wrap t m).
  Proof. intros Hm h. specialize (Hm h). unfold wrap. destruct (m h) as [h1 [a|e|e|]]; exact Hm. Qed.
  Lemma K_same_store h h' : ob_msgs h' = ob_msgs h -> ob_secs h' = ob_secs h -> ob_msg h' = ob_msg h -> ob_sec h' = ob_sec h -> K E h h'.
  Proof.
    intros E1 E2 E3 E4. pose proof (K_refl E h) as ((A1 & A2) & (A3 & A4) & A5 & A6 & A7).
    unfold K, kept, more, sound. rewrite E1, E2, E3, E4. auto 10.
  Qed.
  Lemma keeps_onr {A} (m : M reader A) : keeps (o_onr m).
  Proof. intros h. unfold o_onr, zoom. destruct (m (ob_r h)) as [r x]. now apply K_same_store. Qed.
  Lemma Forall_update {A} (P : A -> Prop) i (f : A -> A) l : (forall x, P x -> P (f x)) -> Forall P l -> Forall P (update i f l).
  Proof.
    intros Hf H. revert i. induction H as [|x l Hx Hl IH]; intros [|i]; cbn [update]; constructor; auto.
  Qed.
  Lemma K_upd_sec h i f : ob_sec h = Some i -> (forall x, more_section x (f x)) -> K E h (o_upd_sec i f h).
  Proof.
    intros Ei Hf. unfold K, kept, more, moved. split; [split|split; [split|split; [|split]]]; try (left; reflexivity);
      cbn [o_upd_sec ob_msgs ob_secs]; auto.
    - intros j Hj Hc. rewrite nth_update. destruct (Nat.eqb_spec i j) as [->|]; [contradiction|reflexivity].
    - intros j m H. exists m. split; [exact H|apply more_message_refl].
    - intros j s H. rewrite nth_update, H. destruct (i =? j)%nat; cbn [option_map]; eexists; (split; [reflexivity|]); [apply Hf|apply more_section_refl].
    - intros (S1 & S2 & S3). unfold sound. cbn [o_upd_sec ob_msgs ob_secs ob_msg ob_sec]. rewrite update_length. auto.
  Qed.
  Lemma K_upd_msg h i f : ob_msg h = Some i \/ E i -> (forall x, more_message x (f x)) -> (forall x, hm_secs (f x) = hm_secs x) ->
    K E h (o_upd_msg i f h).
  Proof.
    intros Ei Hf Hs. unfold K, kept, more, moved. split; [split|split; [split|split; [|split]]]; try (left; reflexivity);
      cbn [o_upd_msg ob_msgs ob_secs]; auto.
    - intros j Hj HE Hc. rewrite nth_update. destruct (Nat.eqb_spec i j) as [->|]; [destruct Ei; contradiction|reflexivity].
    - intros j s H. rewrite nth_update, H. destruct (i =? j)%nat; cbn [option_map]; eexists; (split; [reflexivity|]); [apply Hf|apply more_message_refl].
    - intros j m H. exists m. split; [exact H|apply more_section_refl].
    - intros (S1 & S2 & S3). unfold sound. cbn [o_upd_msg ob_msgs ob_secs ob_msg ob_sec]. rewrite update_length.
      split; [|auto]. apply Forall_update; [|exact S1]. intros x. now rewrite Hs.
  Qed.
  (** dereferencing the current section *)
  Lemma keeps_cur_sec {B} (k : nat * section -> M obj B) :
    (forall h i x, ob_sec h = Some i -> K E h (fst (k (i, x) h))) ->
    keeps (p <- gets ob_sec ;; sec <- deref ob_secs p ;; k sec)%M.
  Proof.
    intros Hk h. unfold bind, gets, deref. destruct (ob_sec h) as [i|] eqn:Ei; [|apply K_refl].
    destruct (nth_error (ob_secs h) i) as [x|]; [|apply K_refl]. apply Hk, Ei.
  Qed.
  Lemma more_add f x : more_section x (mkSection (sec_number x) (sec_description x) (sec_start x) (sec_padding x) (sec_fields x ++ [f])).
  Proof. repeat split. cbn. eauto. Qed.
  Lemma keeps_add f : keeps (o_add f).
  Proof. apply keeps_cur_sec. intros h i x Ei. cbn [modify fst]. apply K_upd_sec; [exact Ei|apply more_add]. Qed.
  Lemma more_proxy f x : more_message x (mkHmsg (hm_path x) (hm_secs x) ((f_name f, f) :: hm_proxy x)).
  Proof. repeat split; cbn; [exists []; now rewrite app_nil_r|]. now exists [(f_name f, f)]. Qed.
  Lemma keeps_proxy f : keeps (o_proxy f).
  Proof.
    intros h. unfold o_proxy, o_SetProxyField, bind, gets, deref. destruct (ob_msg h) as [i|] eqn:Ei; [|apply K_refl].
    destruct (nth_error (ob_msgs h) i) as [x|]; [|apply K_refl]. cbn [modify fst]. apply K_upd_msg; [left; exact Ei|apply more_proxy|reflexivity].
  Qed.
  Lemma keeps_set_proxy m f : (forall i, m = Some i -> E i) -> keeps (o_SetProxyField m f).
  Proof.
    intros Hm h. unfold o_SetProxyField, bind, deref. destruct m as [i|]; [|apply K_refl].
    destruct (nth_error (ob_msgs h) i) as [x|]; [|apply K_refl]. cbn [modify fst]. apply K_upd_msg; [right; apply Hm; reflexivity|apply more_proxy|reflexivity].
  Qed.
  Lemma nth_old {A} (l : list A) x i y : nth_error l i = Some y -> nth_error (l ++ [x]) i = Some y.
  Proof. intros H. rewrite nth_error_app1; [exact H|]. apply nth_error_Some. congruence. Qed.
  Lemma keeps_new_message p : keeps (o_NewMessage p).
  Proof.
    intros h. cbn [o_NewMessage fst]. unfold K, kept, more, moved. split; [split|split; [split|split; [|split]]]; cbn [ob_msgs ob_secs ob_msg ob_sec]; auto; try (left; reflexivity).
    - intros i Hi _ _. now apply nth_error_app1.
    - intros i m H. exists m. split; [now apply nth_old|apply more_message_refl].
    - intros i m H. exists m. split; [exact H|apply more_section_refl].
    - right. eexists. split; [reflexivity|]. lia.
    - intros (S1 & S2 & S3). unfold sound. cbn [ob_msgs ob_secs ob_msg ob_sec]. rewrite app_length. cbn [length].
      split; [|split; [|exact S3]].
      + apply Forall_app. split; [exact S1|]. repeat constructor.
      + intros i H. injection H as <-. lia.
  Qed.
  Lemma keeps_new_section n d : keeps (o_NewSection n d).
  Proof.
    intros h. unfold o_NewSection, bind, gets, deref. destruct (ob_msg h) as [i|] eqn:Ei; [|apply K_refl].
    destruct (nth_error (ob_msgs h) i) as [x|] eqn:Ex; [|apply K_refl]. cbn [fst].
    unfold K, kept, more, moved. split; [split|split; [split|split; [|split]]]; cbn [ob_msgs ob_secs ob_msg ob_sec]; auto.
    - intros j Hj _ Hc. rewrite nth_update. destruct (Nat.eqb_spec i j) as [->|]; [congruence|reflexivity].
    - intros j Hj _. now apply nth_error_app1.
    - intros j m H. rewrite nth_update, H. destruct (i =? j)%nat; cbn [option_map]; eexists; (split; [reflexivity|]); [|apply more_message_refl].
      repeat split; cbn; [eauto|now exists []].
    - intros j s H. exists s. split; [now apply nth_old|apply more_section_refl].
    - right. eexists. split; [reflexivity|]. lia.
    - intros (S1 & S2 & S3). unfold sound. cbn [ob_msgs ob_secs ob_msg ob_sec]. rewrite update_length, app_length. cbn [length].
      assert (S4 : Forall (fun m => Forall (fun s => (s < length (ob_secs h) + 1)%nat) (hm_secs m)) (ob_msgs h)).
      { eapply Forall_impl; [|exact S1]. intros m H. eapply Forall_impl; [|exact H]. cbn. intros. lia. }
      split; [|split].
      + apply Forall_update; [|exact S4]. intros y Hy. cbn [hm_secs]. apply Forall_app. split; [exact Hy|].
        repeat constructor. lia.
      + exact S2.
      + intros j H. injection H as <-. lia.
  Qed.
  Variable fc : fconfig.
  Ltac kp := repeat first
    [ apply keeps_ret | apply keeps_fail | apply keeps_throw | apply keeps_lift | apply keeps_onr | apply keeps_gets
    | apply keeps_add | apply keeps_proxy | apply keeps_deref | apply keeps_wrap
    | apply keeps_bind; [|intros ?] ].
  Lemma keeps_NewField name dt n b : keeps (o_NewField fc name dt n b).
  Proof. unfold o_NewField. apply keeps_bind; [destruct dt; kp|]. intros v. cbv zeta. kp. destruct b; kp. Qed.
  Lemma keeps_replicate {A} (m : M obj A) : keeps m -> forall n, keeps (replicateM n m).
  Proof. intros Hm n. induction n as [|n IH]; cbn [replicateM]; kp; assumption. Qed.
  Lemma keeps_Template name a b c l : keeps (o_NewTemplateField fc name a b c l).
  Proof.
    unfold o_NewTemplateField. kp. cbv zeta.
    destruct (_ =? 0); [kp|]. destruct (_ <? 0); [kp|].
    apply keeps_bind; [apply keeps_replicate; unfold o_read_id; kp|]. intros ids.
    apply keeps_bind; [intros h; now apply K_same_store|]. intros _. kp.
  Qed.
  Lemma keeps_Payload name n c : keeps (o_NewPayloadField fc name n c).
  Proof.
    unfold o_NewPayloadField. kp. destruct a0 as [g|]; [|kp]. destruct a1 as [ids|]; [|kp].
    apply keeps_bind; [kp|]. intros tree. apply keeps_bind; [kp|]. intros r. cbv zeta.
    destruct (run_payload _ tree (vst0 r)) as [vs x].
    apply keeps_bind; [intros h; now apply K_same_store|]. intros _. kp.
  Qed.
  Lemma keeps_Padding l : keeps (o_Padding l).
  Proof.
    unfold o_Padding. apply keeps_bind; [kp|]. intros pos. apply keeps_cur_sec. intros h i x Ei. cbv zeta. cbn [fst snd].
    destruct (_ =? 0); [apply K_refl|]. destruct (_ <? 0); [apply K_refl|].
    match goal with |- K E h (fst (bind (modify ?f) ?k h)) => change (bind (modify f) k h) with (k tt (f h)) end. cbv beta.
    match goal with |- K E h (fst (?m ?h1)) => apply K_trans with h1; [|apply (fun H : keeps m => H h1)] end.
    - apply K_upd_sec; [exact Ei|]. intros y. repeat split. cbn. exists []. now rewrite app_nil_r.
    - kp. destruct a as [b|]; kp.
  Qed.
  Lemma keeps_Init a b c d e : keeps (o_InitTableGroup fc a b c d e).
  Proof.
    intros h. unfold o_InitTableGroup. destruct (AddLocalAndWmoTableGroups (fc_fs fc) a b c d e []) as [l [u|x|x|]];
      now apply K_same_store.
  Qed.
  Lemma keeps_Seek n : keeps (o_SeekStartSignature n).
  Proof.
    induction n as [|n IH]; cbn [o_SeekStartSignature]; [kp|]. apply keeps_bind; [kp|]. intros bs.
    destruct (_ <? 4)%nat; [kp|]. destruct (gs_eqb bs BUFR); [kp|]. intros h.
    pose proof (keeps_onr (r_ReadBytes 1) h) as H. destruct (o_onr (r_ReadBytes 1) h) as [h1 [u|e|e|]]; cbn [fst] in *; try exact H;
      (eapply K_trans; [exact H|apply IH]).
  Qed.
  Lemma keeps_api c : (forall i f, c = CSetProxyField (Some i) f -> E i) -> keeps (api fc c).
  Proof.
    intros HE. destruct c; cbn [api]; unfold returning, o_Message, o_ProxyField, field_deref;
      try (apply keeps_bind; [|intros ?; apply keeps_ret];
           first [apply keeps_new_message | apply keeps_new_section | apply keeps_Init | apply keeps_NewField | apply keeps_Template
                 | apply keeps_Payload | apply keeps_Padding | apply keeps_Seek]; fail).
    all: lazymatch goal with
      | |- context [o_SetProxyField] =>
          apply keeps_bind; [apply keeps_bind; [match goal with |- keeps (match ?x with _ => _ end) => destruct x; kp end|];
            intros ?; apply keeps_set_proxy; intros i ->; eapply HE; reflexivity|intros ?; apply keeps_ret]
      | _ => kp; try (match goal with |- keeps (match ?x with _ => _ end) => destruct x; kp end)
      end.
  Qed.
  Lemma keeps_apis cs : (forall i, touched cs i -> E i) -> forall h, K E h (fst (apis fc cs h)).
  Proof.
    induction cs as [|c cs IH]; intros HE h; cbn [apis]; [apply K_refl|].
    assert (Hc : keeps (api fc c)) by (apply keeps_api; intros i f ->; apply HE; exists f; left; reflexivity).
    specialize (Hc h). destruct (api fc c h) as [h1 x]. cbn [fst] in Hc.
    assert (IH1 := IH (fun i H => HE i (let '(ex_intro _ f Hf) := H in ex_intro _ f (or_intror Hf))) h1).
    destruct (apis fc cs h1) as [h2 xs]. cbn [fst] in *. eapply K_trans; eassumption.
  Qed.
End Calls.

Lemma kept_seen E h h' i : sound h -> kept E h h' -> ~ E i -> ob_msg h <> Some i ->
  (forall m s, nth_error (ob_msgs h) i = Some m -> In s (hm_secs m) -> ob_sec h <> Some s) ->
  (i < length (ob_msgs h))%nat -> seen h' i = seen h i.
Proof.
  intros (Hs & _) (K1 & K2) HE Hm Hc Hi. unfold seen. rewrite (K1 i Hi HE Hm).
  destruct (nth_error (ob_msgs h) i) as [m|] eqn:Em; [|reflexivity]. do 2 f_equal. f_equal.
  rewrite Forall_forall in Hs. specialize (Hs m (nth_error_In _ _ Em)). rewrite Forall_forall in Hs.
  apply map_ext_in. intros s Hin. apply K2; [apply Hs, Hin|]. eapply Hc; [reflexivity|exact Hin].
Qed.
Lemma apis_sound fc cs h : sound h -> sound (fst (apis fc cs h)).
Proof. apply (keeps_apis (touched cs) fc cs (fun i H => H) h). Qed.
Lemma apis_more fc cs h : more h (fst (apis fc cs h)).
Proof. apply (keeps_apis (touched cs) fc cs (fun i H => H) h). Qed.
Lemma apis_others fc cs h i : sound h -> (i < length (ob_msgs h))%nat -> ~ touched cs i -> ob_msg h <> Some i ->
  (forall m s, nth_error (ob_msgs h) i = Some m -> In s (hm_secs m) -> ob_sec h <> Some s) ->
  seen (fst (apis fc cs h)) i = seen h i.
Proof.
  intros Hs Hi Ht Hm Hc. pose proof (keeps_apis (touched cs) fc cs (fun i H => H) h) as (Hk & _).
  eapply kept_seen; eassumption.
Qed.
Lemma apis_fresh fc path n d cs h i : sound h -> (i < length (ob_msgs h))%nat -> ~ touched cs i ->
  seen (fst (apis fc (CNewMessage path :: CNewSection n d :: cs) h)) i = seen h i.
Proof.
  intros Hs Hi Ht. cbn [apis].
  set (h1 := fst (api fc (CNewMessage path) h)).
  assert (E1 : api fc (CNewMessage path) h = (h1, Ok (AMessage (Some (length (ob_msgs h)))))) by reflexivity.
  rewrite E1. set (h2 := fst (api fc (CNewSection n d) h1)).
  assert (E2 : exists x, api fc (CNewSection n d) h1 = (h2, x) /\ ob_msg h2 = Some (length (ob_msgs h)) /\
    ob_sec h2 = Some (length (ob_secs h)) /\ ob_secs h2 = ob_secs h ++ [mkSection n d (go_quot (r_Pos (ob_r h)) NBITS_PER_BYTE) 0 []] /\
    ob_msgs h2 = ob_msgs h ++ [mkHmsg path [length (ob_secs h)] []]).
  { unfold h2, h1. cbn [api]. unfold returning, o_NewSection, bind, gets, deref, ret, o_NewMessage. cbn [fst ob_msg ob_msgs ob_secs ob_r].
    rewrite nth_error_app2, Nat.sub_diag by lia. cbn [nth_error fst]. eexists. split; [reflexivity|]. cbn [ob_msg ob_msgs ob_secs ob_sec].
    repeat split. rewrite <- (Nat.add_0_r (length (ob_msgs h))) at 1. rewrite update_app. reflexivity. }
  destruct E2 as (x & E2 & M2 & C2 & S2 & L2). rewrite E2.
  pose proof (apis_others fc cs h2 i) as O. destruct (apis fc cs h2) as [h3 xs] eqn:E3. cbn [fst] in *.
  assert (Hs2 : sound h2).
  { pose proof (apis_sound fc [CNewMessage path; CNewSection n d] h Hs) as X. cbn [apis] in X. rewrite E1, E2 in X. exact X. }
  pose proof Hs as (Hf & _).
  rewrite O; [| exact Hs2 | rewrite L2, app_length; lia | exact Ht | rewrite M2; intros X; injection X as X; lia |].
  - apply seen_old; [exact Hs| |exact Hi]. rewrite L2, S2. eauto.
  - intros m s Em Hin. rewrite C2. intros X. injection X as X. rewrite L2, nth_error_app1 in Em by exact Hi.
    rewrite Forall_forall in Hf. specialize (Hf m (nth_error_In _ _ Em)). rewrite Forall_forall in Hf. specialize (Hf s Hin). lia.
Qed.
Lemma Runs_append fc n h : exists am as_, ob_msgs (fst (o_Runs fc n h)) = ob_msgs h ++ am /\
  ob_secs (fst (o_Runs fc n h)) = ob_secs h ++ as_.
Proof.
  revert h. induction n as [|n IH]; intros h; cbn [o_Runs]; [exists [], []; rewrite !app_nil_r; auto|].
  pose proof (Run_rel fc (mkFac (ob_r h) None (ob_ut h) (ob_group h)) h) as R.
  destruct (Run fc _) as [s' x], (o_Run fc h) as [h1 y]. specialize (R (conj eq_refl (conj eq_refl eq_refl))).
  destruct R as (_ & (am & as_ & E1 & E2) & _). specialize (IH h1). destruct (o_Runs fc n h1) as [h2 l]. cbn [fst] in *.
  destruct IH as (am2 & as2 & E3 & E4). exists (am ++ am2), (as_ ++ as2). now rewrite E3, E4, E1, E2, !app_assoc.
Qed.
Lemma Runs_seen fc n h i : sound h -> (i < length (ob_msgs h))%nat -> seen (fst (o_Runs fc n h)) i = seen h i.
Proof. intros Hs. apply seen_old; [exact Hs|]. apply Runs_append. Qed.
(** a section that has not been left *)
Lemma stale fc path name dt nbits h s x f a :
  ob_sec h = Some s -> nth_error (ob_secs h) s = Some x ->
  snd (apis fc [CNewMessage path; CNewField name dt nbits false] h) = [a; Ok (AField (Some f))] ->
  nth_error (ob_secs (fst (apis fc [CNewMessage path; CNewField name dt nbits false] h))) s =
    Some (mkSection (sec_number x) (sec_description x) (sec_start x) (sec_padding x) (sec_fields x ++ [f])) /\
  seen (fst (apis fc [CNewMessage path; CNewField name dt nbits false] h)) (length (ob_msgs h)) = Some (path, [], []).
Proof.
  intros Es Ex. cbn [apis].
  set (h1 := fst (api fc (CNewMessage path) h)).
  assert (E1 : api fc (CNewMessage path) h = (h1, Ok (AMessage (Some (length (ob_msgs h)))))) by reflexivity.
  rewrite E1. cbn [api]. unfold returning, o_NewField.
  match goal with |- context [bind (bind ?v _) _ h1] => set (v0 := v) end.
  assert (Hv : ob_secs (fst (v0 h1)) = ob_secs h1 /\ ob_sec (fst (v0 h1)) = ob_sec h1 /\ ob_msgs (fst (v0 h1)) = ob_msgs h1).
  { unfold v0. destruct dt; unfold bind, o_onr, zoom; try (match goal with |- context [?m (ob_r h1)] => destruct (m (ob_r h1)) as [r [y|e|e|]] end);
      repeat split. }
  clearbody v0. unfold bind. destruct (v0 h1) as [h2 [v|e|e|]]; cbn [fst] in Hv; try (cbn; discriminate).
  destruct Hv as (V1 & V2 & V3). cbv zeta. unfold o_add, o_AddField, deref, gets, bind, ret.
  assert (S2 : ob_sec h2 = Some s) by (rewrite V2; exact Es).
  assert (X2 : nth_error (ob_secs h2) s = Some x) by (rewrite V1; exact Ex).
  rewrite S2, X2. unfold modify. cbn [fst snd]. intros H. injection H as _ <-. cbn [o_upd_sec ob_secs ob_msgs].
  split; [rewrite nth_update, Nat.eqb_refl, X2; reflexivity|]. unfold seen. cbn [o_upd_sec ob_msgs ob_secs].
  rewrite V3. unfold h1. cbn [api returning o_NewMessage bind ret fst ob_msgs]. rewrite nth_error_app2, Nat.sub_diag by lia. reflexivity.
Qed.
