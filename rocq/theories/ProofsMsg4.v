(** The sections, both ways: what succeeds is laid out as specified, and what is laid out as
    specified succeeds. *)
From Coq Require Import ZifyBool ZifyNat.
From Verif Require Export ProofsMsg3.
From Verif Require Import ProofsBits ProofsBitProps ProofsUnpack.
From Verif Require Import SpecMessage ModelFactory.
Notation field := ModelFactory.field.

Definition slot_px (s : slot) : bool := let '(_, _, _, px) := s in px.
Definition slot_binary (s : slot) : bool := let '(_, t, _, _) := s in match t with DBINARY => true | _ => false end.
Lemma registers_more slots bits fs : fills slots bits fs -> forall more prox, registers slots (fs ++ more) prox = registers slots fs prox.
Proof. induction 1; intros; cbn [registers app]; [now destruct more|]. apply IHfills. Qed.
Lemma registers_none slots : forallb (fun s => negb (slot_px s)) slots = true -> forall fs prox, registers slots fs prox = prox.
Proof.
  induction slots as [|[[[nm t] w] px] slots IH]; intros H fs prox; cbn [registers]; [reflexivity|]. cbn [forallb slot_px] in H. destruct px; [discriminate|].
  destruct fs; [reflexivity|]. apply IH. exact H.
Qed.
Lemma fills_len slots bits fs : fills slots bits fs -> blen bits = fold_right (fun s n => (let '(_, _, w, _) := s in w) + n) 0 slots.
Proof. induction 1; cbn [fold_right]; [reflexivity|]. rewrite blen_app. lia. Qed.
Lemma announced_fills xs body fs more : fills (len_slot :: xs) body fs -> announced (body ++ more) = announced body.
Proof. intros H. inversion H; subst. rewrite <- app_assoc, !announced_app by assumption. reflexivity. Qed.
Lemma announced_nonneg bits : 0 <= announced bits.
Proof. unfold announced. apply msb_bound. Qed.

Lemma proxy_number_ok nm f n l e p done sec prox ut g : proxy_get nm prox = Some f -> f_value f = FUint n ->
  proxy_number nm (st l e p done sec prox ut g) = (st l e p done sec prox ut g, Ok n).
Proof. intros H Hv. unfold proxy_number, proxy_field, lua_call, bind, lift_res, get_msg, st, ProxyField. cbn [fa_msg msg_proxy]. rewrite H. unfold field_number. rewrite Hv. reflexivity. Qed.
Lemma proxy_bool_ok nm f b l e p done sec prox ut g : proxy_get nm prox = Some f -> f_value f = FBool b ->
  proxy_bool nm (st l e p done sec prox ut g) = (st l e p done sec prox ut g, Ok b).
Proof. intros H Hv. unfold proxy_bool, proxy_field, lua_call, bind, lift_res, get_msg, st, ProxyField. cbn [fa_msg msg_proxy]. rewrite H. unfold field_bool. rewrite Hv. reflexivity. Qed.
Lemma number_len bits s : field_number (len_field bits) s = (s, Ok (announced bits)). Proof. reflexivity. Qed.
Lemma layout1_eq ed : layout1 ed = len_slot :: tl (layout1 ed).
Proof. unfold layout1. destruct (ed =? 4); reflexivity. Qed.
Lemma layout1_ok ed : Forall slot_ok (tl (layout1 ed)).
Proof. unfold layout1. destruct (ed =? 4); cbn [tl]; lays. Qed.
Lemma layout2_ok : Forall slot_ok (tl layout2). Proof. unfold layout2. cbn [tl]. lays. Qed.
Lemma layout3_ok : Forall slot_ok (tl layout3). Proof. unfold layout3. cbn [tl]. lays. Qed.
Lemma layout4_ok : Forall slot_ok (tl layout4). Proof. unfold layout4. cbn [tl]. lays. Qed.
Lemma concat_descriptors ids segs : Forall2 is_descriptor ids segs -> blen (concat segs) = 16 * blen ids.
Proof. induction 1 as [|id seg ids segs [Hl _] _ IH]; cbn [concat]; [reflexivity|]. rewrite blen_app, blen_cons. lia. Qed.

Section Sections.
  Variable fc : fconfig.

  (** ** Without binary fields, success means that the bits were there *)
  Lemma slots_def {A} (k : M fac A) xs : forall l e p done sec prox ut g s' a, Forall slot_ok xs -> forallb (fun s => negb (slot_binary s)) xs = true ->
    slots_then fc xs k (st l e p done sec prox ut g) = (s', Ok a) ->
    exists bits rest fs, l = bits ++ rest /\ fills xs bits fs.
  Proof.
    induction xs as [|[[[nm t] w] px] xs IH]; intros l e p done sec prox ut g s' a Hx Hb H; cbn [slots_then] in H.
    - exists [], l, []. split; [reflexivity|constructor].
    - inversion Hx; subst. cbn [forallb] in Hb. apply andb_prop in Hb. destruct Hb as [Hb0 Hb]. rewrite bind_assoc in H. apply bind_inv in H. destruct H as (s1 & f & E & H). apply lua_inv in E.
      unfold bind at 1, ret in H. destruct (field_inv fc _ _ _ _ _ _ _ _ _ _ _ _ _ _ ltac:(eassumption) E) as [(seg & rest & -> & Hl)|[-> _]]; [|discriminate].
      rewrite (field_ok fc nm t w px seg) in E by assumption. apply ok_inv in E. destruct E as [<- _].
      destruct (IH _ _ _ _ _ _ _ _ _ _ ltac:(eassumption) Hb H) as (bits & rest' & fs & -> & Hf).
      exists (seg ++ bits), rest', (mkField nm (meaning t seg) w false :: fs). split; [now rewrite app_assoc|]. now constructor.
  Qed.
  Lemma sec_len_def {A} num desc xs (k : field -> M fac A) l e p m ut g s' a : Forall slot_ok xs -> forallb (fun s => negb (slot_binary s)) xs = true ->
    sec_len fc num desc xs k (fresh l e p m ut g) = (s', Ok a) ->
    exists bits rest fs, l = bits ++ rest /\ fills (len_slot :: xs) bits fs.
  Proof.
    intros Hx Hb H. unfold sec_len in H. rewrite (bind_ok _ _ _ _ _ (NewSection_eq _ _ _ _ _ _ _ _)) in H. apply bind_inv in H.
    destruct H as (s1 & f & E & H). apply lua_inv in E.
    destruct (field_inv fc _ _ _ _ _ _ _ _ _ _ _ _ _ _ len_slot_ok E) as [(seg & rest & -> & Hl)|[K _]]; [|discriminate].
    rewrite (field_ok fc _ _ _ _ seg _ _ _ _ _ _ _ _ len_slot_ok Hl) in E. apply ok_inv in E. destruct E as [<- <-].
    destruct (slots_def _ _ _ _ _ _ _ _ _ _ _ _ Hx Hb H) as (bits & rest' & fs & -> & Hf).
    exists (seg ++ bits), rest'. eexists. split; [now rewrite app_assoc|]. constructor; eassumption.
  Qed.
  (** From a short reader no section with a length can be read. *)
  Lemma short_len {A} num desc xs (k : field -> M fac A) s s' a : short s -> sec_len fc num desc xs k s <> (s', Ok a).
  Proof.
    intros Hs H. unfold sec_len in H. apply bind_inv in H. destruct H as (s1 & [] & E & H). apply (sh_NewSection _ _ _ _ _ Hs) in E.
    destruct E as (l & e & p & Hr & Hl). apply bind_inv in H. destruct H as (s2 & f & E & _). apply lua_inv in E. rewrite NewField_eq in E.
    apply bind_inv in E. destruct E as (s3 & v & E & _). cbn [read_value] in E. apply bind_inv in E. destruct E as (s4 & x & E & _).
    destruct s1 as [r m0 ut g]. cbn [fa_r] in Hr. subst r.
    destruct (rd_uint_short (fc_plat fc) 24 l e p ltac:(lia)) as (l' & K' & _). rewrite (onr_eq _ _ _ _ _ _ _ _ _ K') in E. discriminate.
  Qed.

  (** ** Section 0 *)
  Lemma section0_eq s : section0 fc s = (NewSection 0 "Indicator Section" ;; slots_then fc layout0 (ret tt))%M s.
  Proof.
    change (section0 fc) with (NewSection 0 "Indicator Section" ;; slots_then fc [("startSignature", DBYTES, 32, false); ("totalLengthInBytes", DUINT, 24, true)] (newField_ fc "bufrEditionNumber" "UINT" 8 true))%M%string.
    apply bind_ext. intros [] s1. unfold layout0. cbn [slots_then]. apply bind_ext. intros [] s2. apply bind_ext. intros [] s3.
    unfold newField_, newField, bind, ret. change (lua_to_datatype (lua_datatype "UINT")) with DUINT. destruct (lua_call _ s3) as [? []]; reflexivity.
  Qed.
  Lemma section0_inv l e p m ut g s' : section0 fc (fresh l e p m ut g) = (s', Ok tt) ->
    exists bits rest fs, l = bits ++ rest /\ fills layout0 bits fs.
  Proof.
    rewrite section0_eq, (bind_ok _ _ _ _ _ (NewSection_eq _ _ _ _ _ _ _ _)). intros H. eapply slots_def; [| |exact H]; [unfold layout0; lays|reflexivity].
  Qed.

  (** ** Section 1 *)
  Definition section1 (ed : Z) : M fac unit := if ed =? 4 then section1_4 fc else section1_3 fc.
  Lemma section1_eq ed : section1 ed = sec_len fc 1 "Identification Section" (tl (layout1 ed)) (fun len => l <- field_number len ;; lua_call (Padding l))%M.
  Proof. unfold section1, layout1. destruct (ed =? 4); reflexivity. Qed.
  Lemma section1_ok ed at_ bits s l e p m ut g : p = 8 * at_ -> is_section1 ed at_ bits s ->
    section1 ed (fresh (bits ++ l) e p m ut g)
    = (st l e (p + 8 * announced bits) (done_of m) s (registers (layout1 ed) (sec_fields s) (msg_proxy m)) ut g, Ok tt).
  Proof.
    intros Hp (body & pad & fs & -> & Hf & Ha & ->). rewrite section1_eq. rewrite layout1_eq in Hf. rewrite <- app_assoc.
    rewrite (sec_len_ok fc _ _ _ _ _ _ _ _ _ _ _ _ (layout1_ok ed) Hf). rewrite (announced_fills _ _ _ _ Hf) in *. rewrite blen_app in Ha.
    rewrite (bind_ok _ _ _ _ _ (number_len _ _)). rewrite (quot8 _ _ Hp).
    erewrite lua_ok; [|apply Padding_ok; cbn [sec_start]; lia]. cbn [sec_fields]. rewrite layout1_eq. rewrite (registers_more _ _ _ Hf).
    unfold padded. cbn [sec_number sec_description sec_start sec_padding sec_fields].
    replace (if blen pad =? 0 then 0 else blen pad) with (blen pad) by (destruct (blen pad =? 0) eqn:E; lia).
    replace (p + blen body + blen pad) with (p + 8 * announced body) by lia. reflexivity.
  Qed.
  Lemma section1_inv ed at_ l e p m ut g s' : p = 8 * at_ -> section1 ed (fresh l e p m ut g) = (s', Ok tt) ->
    short s' \/ exists bits rest s, l = bits ++ rest /\ is_section1 ed at_ bits s.
  Proof.
    intros Hp H. rewrite section1_eq in H. destruct (sec_len_inv fc _ _ _ _ _ _ _ _ _ _ _ _ (layout1_ok ed) H) as [(body & rest & fs & -> & Hf)|(f & s1 & Hs & K)].
    - right. rewrite (sec_len_ok fc _ _ _ _ _ _ _ _ _ _ _ _ (layout1_ok ed) Hf) in H. rewrite (bind_ok _ _ _ _ _ (number_len _ _)) in H. apply lua_inv, Padding_inv in H.
      destruct H as (pad & rest' & -> & Hl). cbn [sec_start] in Hl. rewrite (quot8 _ _ Hp) in Hl. exists (body ++ pad), rest'. eexists. split; [now rewrite app_assoc|].
      exists body, pad, fs. rewrite (announced_fills _ _ _ _ Hf), blen_app. rewrite layout1_eq. repeat split; [exact Hf|lia].
    - left. apply bind_inv in K. destruct K as (s2 & x & E & K). apply (sh_number _ _ _ _ Hs) in E. eapply sh_lua; [apply sh_Padding|exact E|exact K].
  Qed.

  (** ** Section 2 *)
  Lemma section2_eq : section2 fc = sec_len fc 2 "Optional Section" (tl layout2) (fun len => l <- field_number len ;; newField_ fc "localBits" "BINARY" ((l - 4) * NBITS_PER_BYTE) false)%M.
  Proof. reflexivity. Qed.
  Lemma binary_ok nm w seg l e p done sec prox ut g : blen seg = Z.max 0 w ->
    let f := mkField nm (FBin (Some (mkBin (map msb (chunks8 seg)) w))) w false in
    NewField fc nm DBINARY w false (st (seg ++ l) e p done sec prox ut g) = (st l e (p + w) done (with_fields sec [f]) prox ut g, Ok f).
  Proof.
    intros Hl f. rewrite NewField_eq. cbn [read_value]. unfold st at 1. rewrite bind_assoc.
    rewrite (bind_ok _ _ _ _ _ (onr_eq _ _ _ _ _ _ _ _ _ (rd_binary w seg l e p Hl))). unfold bind at 1, ret at 1.
    exact (add_field_ok f false l e (p + w) done sec prox ut g).
  Qed.
  Lemma section2_ok at_ bits s l e p m ut g : p = 8 * at_ -> is_section2 at_ bits s ->
    section2 fc (fresh (bits ++ l) e p m ut g) = (st l e (p + 8 * announced bits) (done_of m) s (msg_proxy m) ut g, Ok tt).
  Proof.
    intros Hp (body & loc & fs & -> & Hf & Hl & ->). rewrite section2_eq. rewrite <- app_assoc.
    rewrite (sec_len_ok fc _ _ _ _ _ _ _ _ _ _ _ _ layout2_ok Hf). rewrite (announced_fills _ _ _ _ Hf) in *.
    rewrite (bind_ok _ _ _ _ _ (number_len _ _)). rewrite (quot8 _ _ Hp). rewrite registers_none by reflexivity.
    unfold newField_, newField. change (lua_to_datatype (lua_datatype "BINARY")) with DBINARY. unfold NBITS_PER_BYTE.
    replace ((announced body - 4) * 8) with (8 * (announced body - 4)) by lia.
    pose proof (fills_len _ _ _ Hf) as L. cbn in L.
    erewrite bind_ok; [|apply lua_ok, binary_ok, Hl]. unfold ret, with_fields. cbn [sec_number sec_description sec_start sec_padding sec_fields].
    replace (p + blen body + 8 * (announced body - 4)) with (p + 8 * announced body) by lia. reflexivity.
  Qed.
  Lemma section2_inv at_ l e p m ut g s' : p = 8 * at_ -> section2 fc (fresh l e p m ut g) = (s', Ok tt) ->
    short s' \/ exists bits rest s, l = bits ++ rest /\ is_section2 at_ bits s.
  Proof.
    intros Hp H. rewrite section2_eq in H. destruct (sec_len_inv fc _ _ _ _ _ _ _ _ _ _ _ _ layout2_ok H) as [(body & rest & fs & -> & Hf)|(f & s1 & Hs & K)].
    - rewrite (sec_len_ok fc _ _ _ _ _ _ _ _ _ _ _ _ layout2_ok Hf) in H. rewrite (bind_ok _ _ _ _ _ (number_len _ _)) in H.
      unfold newField_, newField in H. change (lua_to_datatype (lua_datatype "BINARY")) with DBINARY in H. unfold NBITS_PER_BYTE in H.
      replace ((announced body - 4) * 8) with (8 * (announced body - 4)) in H by lia. set (w := 8 * (announced body - 4)) in *.
      apply bind_inv in H. destruct H as (s1 & f & E & H). apply ok_inv in H. destruct H as [<- _]. apply lua_inv in E.
      assert (D : (exists loc rest', rest = loc ++ rest' /\ blen loc = Z.max 0 w) \/ short s1).
      { destruct (Z.lt_ge_cases w 0) as [D|D].
        - left. exists [], rest. split; [reflexivity|]. rewrite blen_nil. lia.
        - assert (SO : slot_ok ("localBits"%string, DBINARY, w, false)) by (cbn [slot_ok]; lia).
          destruct (field_inv fc _ _ _ _ _ _ _ _ _ _ _ _ _ _ SO E) as [(loc & rest' & -> & Hl)|[_ K]]; [left|now right].
          exists loc, rest'. split; [reflexivity|lia]. }
      destruct D as [(loc & rest' & -> & Hl)|D]; [right|now left].
      exists (body ++ loc), rest'. eexists. split; [now rewrite app_assoc|]. exists body, loc, fs. rewrite (announced_fills _ _ _ _ Hf).
      repeat split; [exact Hf|exact Hl].
    - left. apply bind_inv in K. destruct K as (s2 & x & E & K). apply (sh_number _ _ _ _ Hs) in E.
      apply bind_inv in K. destruct K as (s3 & f' & E' & K). apply ok_inv in K. destruct K as [<- _].
      eapply sh_lua; [apply sh_NewField|exact E|exact E']. discriminate.
  Qed.

  (** ** Section 3 *)
  Lemma section3_eq : section3 fc = sec_len fc 3 "Data Description Section" (tl layout3)
    (fun len => l <- field_number len ;; lua_call (NewTemplateField fc "unexpandedTemplate" 2 6 8 l) ;; lua_call (Padding l))%M.
  Proof. reflexivity. Qed.
  Lemma section3_ok at_ bits ids s l e p m ut g : p = 8 * at_ -> is_section3 at_ bits ids s ->
    section3 fc (fresh (bits ++ l) e p m ut g)
    = (st l e (p + 8 * announced bits) (done_of m) s (("unexpandedTemplate"%string, ids_field ids) :: registers layout3 (sec_fields s) (msg_proxy m)) (Some ids) g, Ok tt).
  Proof.
    intros Hp (body & segs & pad & fs & -> & Hf & Hd & Hpad & Ha & ->). rewrite section3_eq. rewrite <- !app_assoc.
    rewrite (sec_len_ok fc _ _ _ _ _ _ _ _ _ _ _ _ layout3_ok Hf). rewrite (announced_fills _ _ _ _ Hf) in *. rewrite !blen_app, (concat_descriptors _ _ Hd) in Ha.
    rewrite (bind_ok _ _ _ _ _ (number_len _ _)). rewrite (quot8 _ _ Hp). pose proof (blen_nonneg pad).
    erewrite bind_ok; [|apply lua_ok, (Template_ok fc _ ids segs (blen pad)); [exact Hd|lia|cbn [sec_start]; lia]].
    erewrite lua_ok; [|apply Padding_ok; unfold with_fields; cbn [sec_start]; lia]. cbn [sec_fields]. rewrite (registers_more _ _ _ Hf).
    unfold padded, with_fields. cbn [sec_number sec_description sec_start sec_padding sec_fields]. rewrite <- app_assoc. cbn [app].
    replace (if blen pad =? 0 then 0 else blen pad) with (blen pad) by (destruct (blen pad =? 0) eqn:E; lia).
    replace (p + blen body + 16 * blen ids + blen pad) with (p + 8 * announced body) by lia. reflexivity.
  Qed.
  Lemma section3_inv at_ l e p m ut g s' : p = 8 * at_ -> section3 fc (fresh l e p m ut g) = (s', Ok tt) ->
    exists bits rest ids s, l = bits ++ rest /\ is_section3 at_ bits ids s.
  Proof.
    intros Hp H. rewrite section3_eq in H. destruct (sec_len_def _ _ _ _ _ _ _ _ _ _ _ _ layout3_ok eq_refl H) as (body & rest & fs & -> & Hf).
    rewrite (sec_len_ok fc _ _ _ _ _ _ _ _ _ _ _ _ layout3_ok Hf) in H. rewrite (bind_ok _ _ _ _ _ (number_len _ _)) in H.
    apply bind_inv in H. destruct H as (s1 & f & E & H). apply lua_inv in E. destruct (Template_inv fc _ _ _ _ _ _ _ _ _ _ _ E) as (ids & segs & rest' & -> & Hd & -> & Hr).
    apply lua_inv, Padding_inv in H. destruct H as (pad & rest & -> & Hl). unfold with_fields in Hl. cbn [sec_start] in Hl, Hr. rewrite (quot8 _ _ Hp) in Hl, Hr.
    exists (body ++ concat segs ++ pad), rest, ids. eexists. split; [now rewrite <- !app_assoc|]. exists body, segs, pad, fs.
    rewrite (announced_fills _ _ _ _ Hf), !blen_app, (concat_descriptors _ _ Hd). pose proof (blen_nonneg pad).
    set (r := 8 * announced body - (p + blen body - 8 * at_)) in *. assert (blen pad < 16).
    { destruct Hr as [[Hi H0]|[-> H0]]; [pose proof (Z.mod_pos_bound r 16); pose proof (Z.div_mod r 16); lia|]. change (blen (@nil Z)) with 0 in Hl. lia. }
    split; [reflexivity|]. split; [exact Hf|]. split; [exact Hd|]. split; [assumption|]. split; [lia|reflexivity].
  Qed.

  (** ** Section 5 *)
  Lemma section5_eq s : section5 fc s = (NewSection 5 "End Section" ;; slots_then fc layout5 (ret tt))%M s.
  Proof.
    unfold section5. apply bind_ext. intros [] s1. unfold layout5. cbn [slots_then].
    unfold newField_, newField, bind, ret. change (lua_to_datatype (lua_datatype "BYTES")) with DBYTES. destruct (lua_call _ s1) as [? []]; reflexivity.
  Qed.
  Lemma section5_ok at_ bits s l e p m ut g : p = 8 * at_ -> is_section5 at_ bits s ->
    section5 fc (fresh (bits ++ l) e p m ut g) = (st l e (p + 32) (done_of m) s (msg_proxy m) ut g, Ok tt).
  Proof.
    intros Hp (fs & Hf & ->). rewrite section5_eq, (bind_ok _ _ _ _ _ (NewSection_eq _ _ _ _ _ _ _ _)). erewrite slots_ok; [|unfold layout5; lays|exact Hf].
    rewrite registers_none by reflexivity. rewrite (quot8 _ _ Hp). rewrite (fills_len _ _ _ Hf). reflexivity.
  Qed.
  Lemma section5_inv at_ l e p m ut g s' : p = 8 * at_ -> section5 fc (fresh l e p m ut g) = (s', Ok tt) ->
    exists bits rest s, l = bits ++ rest /\ is_section5 at_ bits s.
  Proof.
    intros Hp. rewrite section5_eq, (bind_ok _ _ _ _ _ (NewSection_eq _ _ _ _ _ _ _ _)). intros H.
    assert (exists bits rest fs, l = bits ++ rest /\ fills layout5 bits fs) as (bits & rest & fs & -> & Hf).
    { eapply slots_def; [| |exact H]; [unfold layout5; lays|reflexivity]. }
    exists bits, rest. eexists. split; [reflexivity|]. exists fs. split; [exact Hf|reflexivity].
  Qed.
  Lemma short_5 s s' a : short s -> section5 fc s <> (s', Ok a).
  Proof.
    intros Hs H. unfold section5 in H. apply bind_inv in H. destruct H as (s1 & [] & E & H). apply (sh_NewSection _ _ _ _ _ Hs) in E.
    destruct E as (l & e & p & Hr & Hl). apply bind_inv in H. destruct H as (s2 & f & E & _). apply lua_inv in E. rewrite NewField_eq in E.
    apply bind_inv in E. destruct E as (s3 & v & E & _). change (lua_to_datatype (lua_datatype "BYTES")) with DBYTES in E. cbn [read_value] in E. apply bind_inv in E. destruct E as (s4 & x & E & _).
    destruct s1 as [r m0 ut g]. cbn [fa_r] in Hr. subst r. change (go_quot 32 NBITS_PER_BYTE) with 4 in E.
    destruct (rd_bytes_short 4 l e p ltac:(lia) ltac:(lia)) as (l' & K' & _). rewrite (onr_eq _ _ _ _ _ _ _ _ _ K') in E. discriminate.
  Qed.

  Hypothesis Hj : fc_json fc = false.
  (** ** Section 4 *)
  Lemma section4_eq : section4 fc = sec_len fc 4 "Data Section" (tl layout4)
    (fun len => n <- proxy_number "nSubsets" ;; c <- proxy_bool "isCompressed" ;; lua_call (NewPayloadField fc "payload" n c) ;; l <- field_number len ;; lua_call (Padding l))%M.
  Proof. reflexivity. Qed.
  Lemma section4_ok gr ids n c fn fb at_ bits s l e p m : p = 8 * at_ ->
    proxy_get "nSubsets" (msg_proxy m) = Some fn -> f_value fn = FUint n -> proxy_get "isCompressed" (msg_proxy m) = Some fb -> f_value fb = FBool c ->
    is_section4 fc gr ids n c at_ bits s ->
    exists pf, section4 fc (fresh (bits ++ l) e p m (Some ids) (Some gr))
    = (st l e (p + 8 * announced bits) (done_of m) s (("payload"%string, pf) :: msg_proxy m) (Some ids) (Some gr), Ok tt)
      /\ find_field "payload" (sec_fields s) = Some pf.
  Proof.
    intros Hp Hn1 Hn2 Hc1 Hc2 (body & pay & moved & pad & fs & subs & -> & Hf & Hy & Ha & ->). exists (pay_field c subs moved). split.
    - rewrite section4_eq. rewrite <- !app_assoc.
      rewrite (sec_len_ok fc _ _ _ _ _ _ _ _ _ _ _ _ layout4_ok Hf). rewrite (announced_fills _ _ _ _ Hf) in *. rewrite registers_none by reflexivity.
      rewrite (bind_ok _ _ _ _ _ (proxy_number_ok _ _ _ _ _ _ _ _ _ _ _ Hn1 Hn2)), (bind_ok _ _ _ _ _ (proxy_bool_ok _ _ _ _ _ _ _ _ _ _ _ Hc1 Hc2)).
      erewrite bind_ok; [|apply lua_ok, (Payload_ok fc Hj _ _ _ _ _ _ _ _ _ _ _ _ _ Hy)]. rewrite (bind_ok _ _ _ _ _ (number_len _ _)). rewrite (quot8 _ _ Hp).
      pose proof (fills_len _ _ _ Hf) as L. cbn in L.
      erewrite lua_ok; [|apply Padding_ok; unfold with_fields; cbn [sec_start]; lia].
      unfold padded, with_fields. cbn [sec_number sec_description sec_start sec_padding sec_fields]. rewrite <- app_assoc. cbn [app].
      replace (if blen pad =? 0 then 0 else blen pad) with (blen pad) by (destruct (blen pad =? 0) eqn:E; lia).
      replace (p + blen body + moved + blen pad) with (p + 8 * announced body) by lia. reflexivity.
    - cbn [sec_fields]. inversion Hf as [|? ? ? ? ? ? ? ? ? Hf1]; subst. inversion Hf1 as [|? ? ? ? ? ? ? ? ? Hf2]; subst. inversion Hf2; subst. reflexivity.
  Qed.
  Lemma section4_inv gr ids n c fn fb at_ l e p m s' : p = 8 * at_ ->
    proxy_get "nSubsets" (msg_proxy m) = Some fn -> f_value fn = FUint n -> proxy_get "isCompressed" (msg_proxy m) = Some fb -> f_value fb = FBool c ->
    section4 fc (fresh l e p m (Some ids) (Some gr)) = (s', Ok tt) ->
    short s' \/ exists bits rest s, l = bits ++ rest /\ is_section4 fc gr ids n c at_ bits s.
  Proof.
    intros Hp Hn1 Hn2 Hc1 Hc2 H. rewrite section4_eq in H. destruct (sec_len_def _ _ _ _ _ _ _ _ _ _ _ _ layout4_ok eq_refl H) as (body & rest & fs & -> & Hf).
    rewrite (sec_len_ok fc _ _ _ _ _ _ _ _ _ _ _ _ layout4_ok Hf) in H. rewrite registers_none in H by reflexivity.
    rewrite (bind_ok _ _ _ _ _ (proxy_number_ok _ _ _ _ _ _ _ _ _ _ _ Hn1 Hn2)), (bind_ok _ _ _ _ _ (proxy_bool_ok _ _ _ _ _ _ _ _ _ _ _ Hc1 Hc2)) in H.
    apply bind_inv in H. destruct H as (s1 & f & E & H). apply lua_inv, (Payload_inv fc Hj) in E. destruct E as (pay & rest' & moved & subs & -> & Hy & ->).
    rewrite (bind_ok _ _ _ _ _ (number_len _ _)) in H. destruct (Z.lt_ge_cases (blen rest') 8) as [D|D].
    { left. eapply sh_lua; [apply sh_Padding| |exact H]. do 3 eexists. split; [reflexivity|exact D]. }
    right. apply lua_inv, Padding_inv in H. destruct H as (pad & rest & -> & Hl). unfold with_fields in Hl. cbn [sec_start] in Hl. rewrite (quot8 _ _ Hp) in Hl.
    exists (body ++ pay ++ pad), rest. eexists. split; [now rewrite <- !app_assoc|]. exists body, pay, moved, pad, fs, subs.
    rewrite (announced_fills _ _ _ _ Hf). pose proof (fills_len _ _ _ Hf) as L. cbn in L.
    split; [reflexivity|]. split; [exact Hf|]. split; [apply Hy; lia|]. split; [lia|reflexivity].
  Qed.

End Sections.
