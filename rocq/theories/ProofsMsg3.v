(** The sections, one by one. *)
From Coq Require Import ZifyBool ZifyNat.
From Verif Require Export ProofsMsg2.
From Verif Require Import ProofsBits ProofsBitProps ProofsUnpack.
From Verif Require Import SpecMessage ModelFactory.
Notation field := ModelFactory.field.

Ltac lays := repeat (apply Forall_cons; [cbn [slot_ok]; lia|]); apply Forall_nil.

Lemma quot8 p at_ : p = 8 * at_ -> go_quot p NBITS_PER_BYTE = at_.
Proof. intros ->. unfold NBITS_PER_BYTE. rewrite Z.mul_comm. now apply Z.quot_mul. Qed.

  (** ** Padding *)
  Definition padded (s : section) (pad : list bool) : section :=
    mkSection (sec_number s) (sec_description s) (sec_start s) (if blen pad =? 0 then sec_padding s else blen pad) (sec_fields s ++ padding pad).
  Lemma Padding_ok n pad l e p done sec prox ut g : 8 * n - (p - 8 * sec_start sec) = blen pad ->
    Padding n (st (pad ++ l) e p done sec prox ut g) = (st l e (p + blen pad) done (padded sec pad) prox ut g, Ok tt).
  Proof.
    intros H. unfold Padding. cbv [bind gets get_section get_msg ret st fa_r fa_msg msg_cur r_Pos br_pos]. unfold NBITS_PER_BYTE.
    replace (n * 8 - (p - sec_start sec * 8)) with (blen pad) by lia. unfold padded, padding.
    destruct (blen pad =? 0) eqn:E0.
    - assert (pad = []) as -> by (apply blen_0; lia). cbn [app]. rewrite blen_nil, Z.add_0_r, app_nil_r. destruct sec; reflexivity.
    - pose proof (blen_nonneg pad). destruct (blen pad <? 0) eqn:E1; [lia|].
      cbv [upd_section bind get_msg modify wrap onr zoom set_msg set_fr fa_r fa_msg fa_ut fa_group msg_cur msg_done msg_proxy].
      rewrite rd_binary by lia. reflexivity.
  Qed.
  Lemma Padding_inv n l e p done sec prox ut g s' : Padding n (st l e p done sec prox ut g) = (s', Ok tt) ->
    exists pad rest, l = pad ++ rest /\ 8 * n - (p - 8 * sec_start sec) = blen pad.
  Proof.
    unfold Padding. cbv [bind gets get_section get_msg ret st fa_r fa_msg msg_cur r_Pos br_pos]. unfold NBITS_PER_BYTE.
    set (k := n * 8 - (p - sec_start sec * 8)). destruct (k =? 0) eqn:E0.
    - intros _. exists [], l. split; [reflexivity|]. rewrite blen_nil. lia.
    - destruct (k <? 0) eqn:E1; [discriminate|].
      cbv [upd_section bind get_msg modify wrap onr zoom set_msg set_fr fa_r fa_msg fa_ut fa_group msg_cur msg_done msg_proxy].
      intros H. destruct (Z.lt_ge_cases (blen l) k) as [D|D].
      + destruct (rd_binary_short k l e p D) as (l' & K & _). rewrite K in H. discriminate.
      + destruct (cut_bits l k) as (pad & rest & -> & Hp); [lia|lia|]. exists pad, rest. split; [reflexivity|]. lia.
  Qed.

Section Sections.
  Variable fc : fconfig.

  (** ** The template *)
  Lemma descriptor_cut (seg : list bool) : blen seg = 16 -> exists a b c, seg = a ++ b ++ c /\ blen a = 2 /\ blen b = 6 /\ blen c = 8 /\
    firstn 2 seg = a /\ firstn 6 (skipn 2 seg) = b /\ skipn 8 seg = c.
  Proof.
    intros H. assert (L : length seg = 16%nat) by (unfold blen in H; lia).
    exists (firstn 2 seg), (firstn 6 (skipn 2 seg)), (skipn 8 seg).
    do 16 (destruct seg as [|? seg]; [discriminate|]). destruct seg; [|discriminate]. repeat split.
  Qed.
  Lemma uint_step w seg l e p m0 ut g : blen seg = w -> 0 <= w <= 63 ->
    onr (r_ReadUint (fc_plat fc) w) (mkFac (RBit (mkBR (seg ++ l) e p)) m0 ut g) = (mkFac (RBit (mkBR l e (p + w))) m0 ut g, Ok (msb seg)).
  Proof.
    intros Hl Hw. rewrite (onr_eq _ _ _ _ _ _ _ _ _ (rd_uint (fc_plat fc) w seg l e p ltac:(lia))).
    pose proof (meaning_uint seg w Hl Hw) as K. cbn [meaning] in K. injection K as ->. reflexivity.
  Qed.
  Lemma read_id_ok id seg l e p m0 ut g : is_descriptor id seg ->
    read_id fc 2 6 8 (mkFac (RBit (mkBR (seg ++ l) e p)) m0 ut g) = (mkFac (RBit (mkBR l e (p + 16))) m0 ut g, Ok id).
  Proof.
    intros [Hl Hid]. destruct (descriptor_cut seg Hl) as (a & b & c & -> & Ha & Hb & Hc & E1 & E2 & E3). rewrite E1, E2, E3 in Hid. clear E1 E2 E3.
    rewrite <- !app_assoc. unfold read_id. rewrite (bind_ok _ _ _ _ _ (uint_step 2 a _ _ _ _ _ _ Ha ltac:(lia))).
    rewrite (bind_ok _ _ _ _ _ (uint_step 6 b _ _ _ _ _ _ Hb ltac:(lia))). rewrite (bind_ok _ _ _ _ _ (uint_step 8 c _ _ _ _ _ _ Hc ltac:(lia))).
    unfold ret. pose proof (msb_bound a). pose proof (msb_bound b). pose proof (msb_bound c). rewrite Ha, Hb, Hc in *.
    change (2 ^ 2) with 4 in *. change (2 ^ 6) with 64 in *. change (2 ^ 8) with 256 in *.
    replace (p + 2 + 6 + 8) with (p + 16) by lia. rewrite i64_small; [subst id|]; do 2 f_equal; lia.
  Qed.
  Lemma read_id_inv l e p m0 ut g s' id : read_id fc 2 6 8 (mkFac (RBit (mkBR l e p)) m0 ut g) = (s', Ok id) ->
    exists seg rest, l = seg ++ rest /\ is_descriptor id seg /\ s' = mkFac (RBit (mkBR rest e (p + 16))) m0 ut g.
  Proof.
    intros H. pose proof H as H0. assert (Hl : 16 <= blen l).
    { unfold read_id in H. assert (I : forall w l0 p0 s1 x, 0 <= w <= 63 -> onr (r_ReadUint (fc_plat fc) w) (mkFac (RBit (mkBR l0 e p0)) m0 ut g) = (s1, Ok x) ->
        exists a r, l0 = a ++ r /\ blen a = w /\ s1 = mkFac (RBit (mkBR r e (p0 + w))) m0 ut g).
      { intros w l0 p0 s1 x Hw E. destruct (Z.lt_ge_cases (blen l0) w) as [D|D].
        - destruct (rd_uint_short (fc_plat fc) w l0 e p0 D) as (l' & K & _). rewrite (onr_eq _ _ _ _ _ _ _ _ _ K) in E. discriminate.
        - destruct (cut_bits l0 w) as (a & r & -> & Ha); [lia|lia|]. rewrite uint_step in E by assumption. injection E as <- _. eauto. }
      apply bind_inv in H. destruct H as (s1 & x1 & E1 & H). apply I in E1; [|lia]. destruct E1 as (a1 & r1 & -> & L1 & ->).
      apply bind_inv in H. destruct H as (s2 & x2 & E2 & H). apply I in E2; [|lia]. destruct E2 as (a2 & r2 & -> & L2 & ->).
      apply bind_inv in H. destruct H as (s3 & x3 & E3 & H). apply I in E3; [|lia]. destruct E3 as (a3 & r3 & -> & L3 & ->).
      rewrite !blen_app. pose proof (blen_nonneg r3). lia. }
    destruct (cut_bits l 16) as (seg & rest & -> & Hs); [lia|lia|]. exists seg, rest. split; [reflexivity|].
    set (id' := 100000 * msb (firstn 2 seg) + 1000 * msb (firstn 6 (skipn 2 seg)) + msb (skipn 8 seg)).
    assert (D : is_descriptor id' seg) by (split; [exact Hs|reflexivity]). rewrite (read_id_ok id' seg _ _ _ _ _ _ D) in H0. injection H0 as <- <-. auto.
  Qed.
  Lemma read_ids_ok ids segs : Forall2 is_descriptor ids segs -> forall l e p m0 ut g,
    replicateM (length ids) (read_id fc 2 6 8) (mkFac (RBit (mkBR (concat segs ++ l) e p)) m0 ut g)
    = (mkFac (RBit (mkBR l e (p + 16 * blen ids))) m0 ut g, Ok ids).
  Proof.
    induction 1 as [|id seg ids segs Hd _ IH]; intros; cbn [length replicateM concat app].
    - change (blen (@nil Z)) with 0. rewrite Z.mul_0_r, Z.add_0_r. reflexivity.
    - rewrite <- app_assoc. rewrite (bind_ok _ _ _ _ _ (read_id_ok _ _ _ _ _ _ _ _ Hd)). rewrite (bind_ok _ _ _ _ _ (IH _ _ _ _ _ _)).
      unfold ret. rewrite blen_cons. replace (p + 16 + 16 * blen ids) with (p + 16 * (1 + blen ids)) by lia. reflexivity.
  Qed.
  Lemma read_ids_inv n : forall l e p m0 ut g s' ids, replicateM n (read_id fc 2 6 8) (mkFac (RBit (mkBR l e p)) m0 ut g) = (s', Ok ids) ->
    exists segs rest, l = concat segs ++ rest /\ Forall2 is_descriptor ids segs /\ length ids = n.
  Proof.
    induction n as [|n IH]; intros l e p m0 ut g s' ids H; cbn [replicateM] in H.
    - injection H as <- <-. exists [], l. repeat split. constructor.
    - apply bind_inv in H. destruct H as (s1 & id & E & H). apply read_id_inv in E. destruct E as (seg & rest & -> & Hd & ->).
      apply bind_inv in H. destruct H as (s2 & ids' & E & H). destruct (IH _ _ _ _ _ _ _ _ E) as (segs & rest' & -> & Hf & Hn). injection H as <- <-.
      exists (seg :: segs), rest'. cbn [concat length]. rewrite app_assoc. repeat split; [now constructor|now rewrite Hn].
  Qed.
  Definition ids_field (ids : list Z) : field := mkField "unexpandedTemplate" (FTemplate ids) (16 * blen ids) false.
  Lemma Template_ok n ids segs pad l e p done sec prox ut g :
    Forall2 is_descriptor ids segs -> 0 <= pad < 16 -> 8 * n - (p - 8 * sec_start sec) = 16 * blen ids + pad ->
    NewTemplateField fc "unexpandedTemplate" 2 6 8 n (st (concat segs ++ l) e p done sec prox ut g)
    = (st l e (p + 16 * blen ids) done (with_fields sec [ids_field ids]) (("unexpandedTemplate"%string, ids_field ids) :: prox) (Some ids) g, Ok (ids_field ids)).
  Proof.
    intros Hf Hp H. unfold NewTemplateField. unfold bind at 1 2. cbv [gets get_section bind get_msg ret st fa_r fa_msg msg_cur r_Pos br_pos]. unfold NBITS_PER_BYTE.
    replace (n * 8 - (p - sec_start sec * 8)) with (16 * blen ids + pad) by lia. change (2 + 6 + 8 =? 0) with false. change (2 + 6 + 8) with 16. cbv iota.
    pose proof (blen_nonneg ids) as B. rewrite Z.quot_div_nonneg by lia.
    replace ((16 * blen ids + pad) / 16) with (blen ids) by (rewrite Z.mul_comm, Z.div_add_l, Z.div_small; lia).
    destruct (blen ids <? 0) eqn:E1; [lia|]. replace (Z.to_nat (blen ids)) with (length ids) by (unfold blen; lia).
    rewrite (read_ids_ok _ _ Hf). cbv [modify AddField upd_section set_proxy SetProxyField bind get_msg ret fa_r fa_msg fa_ut fa_group msg_cur msg_done msg_proxy set_msg f_name].
    unfold ids_field, with_fields, blen. rewrite (Z.mul_comm _ 16). reflexivity.
  Qed.
  Lemma Template_inv n l e p done sec prox ut g s' f :
    NewTemplateField fc "unexpandedTemplate" 2 6 8 n (st l e p done sec prox ut g) = (s', Ok f) ->
    exists ids segs rest, l = concat segs ++ rest /\ Forall2 is_descriptor ids segs /\
      let r := 8 * n - (p - 8 * sec_start sec) in
      s' = st rest e (p + 16 * blen ids) done (with_fields sec [ids_field ids]) (("unexpandedTemplate"%string, ids_field ids) :: prox) (Some ids) g /\
      (blen ids = r / 16 /\ 0 <= r \/ ids = [] /\ r < 0).
  Proof.
    intros H0. pose proof H0 as H. unfold NewTemplateField in H. unfold bind at 1 2 in H. cbv [gets get_section bind get_msg ret st fa_r fa_msg msg_cur r_Pos br_pos] in H. unfold NBITS_PER_BYTE in H.
    set (k := n * 8 - (p - sec_start sec * 8)) in *. change (2 + 6 + 8 =? 0) with false in H. change (2 + 6 + 8) with 16 in H. cbv iota in H.
    destruct (Z.quot k 16 <? 0) eqn:E1; [discriminate|].
    destruct (replicateM _ _ _) as [s1 [ids|er|pn|]] eqn:E; try discriminate. pose proof E as E'. destruct (read_ids_inv _ _ _ _ _ _ _ _ _ E) as (segs & rest & -> & Hf & Hn).
    rewrite <- Hn in E. rewrite (read_ids_ok _ _ Hf) in E. injection E as <-.
    exists ids, segs, rest. split; [reflexivity|]. split; [exact Hf|]. replace (8 * n - (p - 8 * sec_start sec)) with k by lia. cbv zeta. split.
    - cbv [modify AddField upd_section set_proxy SetProxyField bind get_msg ret fa_r fa_msg fa_ut fa_group msg_cur msg_done msg_proxy set_msg f_name] in H.
      injection H as <- _. unfold st, ids_field, with_fields, blen. rewrite (Z.mul_comm _ 16). reflexivity.
    - destruct (Z.lt_ge_cases k 0) as [D|D].
      + right. split; [|exact D]. assert (Z.quot k 16 = 0) as Q.
        { assert (Z.quot k 16 <= 0). { replace k with (- (- k)) by lia. rewrite Z.quot_opp_l by lia. rewrite Z.quot_div_nonneg by lia. pose proof (Z.div_pos (-k) 16). lia. } lia. }
        rewrite Q in Hn. destruct ids; [reflexivity|discriminate].
      + left. split; [|lia]. rewrite Z.quot_div_nonneg in Hn by lia. unfold blen. rewrite Hn. rewrite Z.quot_div_nonneg in E1 by lia. lia.
  Qed.

  Hypothesis Hj : fc_json fc = false.

  (** ** The payload *)
  Definition pay_field (c : bool) (subs : list subset) (moved : Z) : field := mkField "payload" (FPayload c subs) moved false.
  Lemma Payload_ok gr ids n c pay moved subs l e p done sec prox :
    is_payload fc gr ids n c pay moved subs ->
    NewPayloadField fc "payload" n c (st (pay ++ l) e p done sec prox (Some ids) (Some gr))
    = (st l e (p + moved) done (with_fields sec [pay_field c subs moved]) (("payload"%string, pay_field c subs moved) :: prox) (Some ids) (Some gr), Ok (pay_field c subs moved)).
  Proof.
    intros (tree & Hp & H). destruct (H l e p) as (vs & R & Hr & Hs). unfold NewPayloadField.
    cbv [bind gets wrap lift_res st fa_r fa_group fa_ut]. rewrite Hp, Hj, R. cbn [fst snd].
    cbv [modify set_fr AddField upd_section set_proxy SetProxyField bind get_msg ret fa_r fa_msg fa_ut fa_group msg_cur msg_done msg_proxy set_msg f_name].
    rewrite Hr, Hs. cbn [r_Pos br_pos]. unfold pay_field, with_fields. replace (p + moved - p) with moved by lia. reflexivity.
  Qed.
  Lemma Payload_inv gr ids n c l e p done sec prox s' f :
    NewPayloadField fc "payload" n c (st l e p done sec prox (Some ids) (Some gr)) = (s', Ok f) ->
    exists pay rest moved subs, l = pay ++ rest /\ (8 <= blen rest -> is_payload fc gr ids n c pay moved subs) /\
      s' = st rest e (p + moved) done (with_fields sec [pay_field c subs moved]) (("payload"%string, pay_field c subs moved) :: prox) (Some ids) (Some gr).
  Proof.
    intros H. unfold NewPayloadField in H. cbv [bind gets wrap lift_res st fa_r fa_group fa_ut] in H.
    destruct (snd (Parse gr (fc_fuel fc) ids parser0)) as [tree|er|pn|] eqn:Ep; try discriminate. rewrite Hj in H.
    destruct (run_payload _ _ _) as [vs [[]|er|pn|]] eqn:R; cbv [modify set_fr] in H; try discriminate.
    set (cf := mkConfig c false (fc_compatible fc) n (fc_plat fc) (fc_fuel fc)) in *.
    assert (VS : vsteady (run_payload cf tree)) by (apply vs_run_payload; reflexivity).
    destruct (VS (vst0 (RBit (mkBR l e p))) l e p vs (Ok tt) eq_refl R) as (pay & rest & moved & -> & Hr & Hx).
    cbv [AddField upd_section set_proxy SetProxyField bind get_msg ret fa_r fa_msg fa_ut fa_group msg_cur msg_done msg_proxy set_msg f_name] in H.
    rewrite Hr in H. cbn [r_Pos br_pos] in H. injection H as <- _. exists pay, rest, moved, (v_pay vs). split; [reflexivity|]. split.
    - intros H8. exists tree. split; [exact Ep|]. intros rest' e' q. specialize (Hx H8 rest' e' q).
      exists (set_r (RBit (mkBR rest' e' (q + moved))) vs). split; [exact Hx|]. now destruct vs.
    - unfold st, pay_field, with_fields. replace (p + moved - p) with moved by lia. reflexivity.
  Qed.

  (** ** Section 0 *)
  Lemma section0_ok at_ bits s l e p m ut g : p = 8 * at_ -> is_section0 at_ bits s ->
    section0 fc (fresh (bits ++ l) e p m ut g) = (st l e (p + blen bits) (done_of m) s (registers layout0 (sec_fields s) (msg_proxy m)) ut g, Ok tt).
  Proof.
    intros Hp (fs & Hf & -> & _).
    change (section0 fc) with (NewSection 0 "Indicator Section" ;; slots_then fc [("startSignature", DBYTES, 32, false); ("totalLengthInBytes", DUINT, 24, true)] (newField_ fc "bufrEditionNumber" "UINT" 8 true))%M%string.
    assert (K : forall s0, newField_ fc "bufrEditionNumber" "UINT" 8 true s0 = slots_then fc [("bufrEditionNumber"%string, DUINT, 8, true)] (ret tt) s0).
    { intros s0. cbn [slots_then]. unfold newField_, newField, bind, ret. change (lua_to_datatype (lua_datatype "UINT")) with DUINT. destruct (lua_call _ s0) as [? []]; reflexivity. }
    assert (K2 : forall s0, (slots_then fc [("startSignature", DBYTES, 32, false); ("totalLengthInBytes", DUINT, 24, true)] (newField_ fc "bufrEditionNumber" "UINT" 8 true))%string s0 = slots_then fc layout0 (ret tt) s0).
    { intros s0. unfold layout0. cbn [slots_then]. apply bind_ext. intros [] s1. apply bind_ext. intros [] s2. apply K. }
    rewrite (bind_ok _ _ _ _ _ (NewSection_eq _ _ _ _ _ _ _ _)). rewrite K2.
    erewrite slots_ok; [|unfold layout0; lays|exact Hf]. rewrite (quot8 _ _ Hp). unfold ret, with_fields. reflexivity.
  Qed.
End Sections.
