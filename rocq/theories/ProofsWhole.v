(** Whole messages written with the bit writer: lemmas for C68. *)
From Coq Require Import ZifyBool ZifyNat.
From Verif Require Import ProofsPlan ProofsMsg9 ProofsPack3 ProofsBase ProofsBits ProofsBitProps ProofsUnpack ModelFactory SpecWhole.
Notation field := ModelFactory.field.

(** ** Fields *)
Definition typed (sl : slot) (v : fvalue) : Prop :=
  let '(_, t, w, _) := sl in
  match t, v with
  | DUINT, FUint _ | DINT, FInt _ => True
  | DBOOL, FBool _ => w = 1
  | DBYTES, FBytes _ => w mod 8 = 0
  | DBINARY, FBin (Some _) => True
  | _, _ => False
  end.
Lemma slot_bits sl v : typed sl v -> fits (slot_item sl v) ->
  let '(_, t, w, _) := sl in
  blen (item_bits (slot_item sl v)) = w /\ meaning t (item_bits (slot_item sl v)) = v.
Proof.
  destruct sl as [[[nm t] w] px]. intros T F. pose proof (item_bits_width _ F) as W. pose proof (item_bits_value _ F) as V.
  destruct t, v as [u|i|x|b|bs|[b|]|ids|c subs]; try contradiction; cbn [typed slot_item] in *.
  - cbn [call_of width] in W. split; [exact W|]. cbn [meaning]. f_equal. cbn [item_bits fits hd tl] in *.
    rewrite msb_low_bits_small by (rewrite Z2Nat.id by lia; lia). destruct (Z.ltb_spec i 0); lia.
  - cbn [call_of width] in W. split; [exact W|]. cbn [meaning]. f_equal. cbn [item_bits fits] in *. rewrite msb_low_bits_small by (rewrite Z2Nat.id by lia; lia). reflexivity.
  - subst w. split; [exact W|]. reflexivity.
  - cbn [call_of width] in W. split; [rewrite W; lia|]. cbn [meaning item_bits]. destruct F as [_ F]. now rewrite chunks8_bytes.
  - cbn [call_of width] in W. split; [exact W|]. cbn [meaning]. cbn [call_of spec_value value_of] in V. rewrite W.
    cbn [item_bits] in *. injection V as V. now rewrite V.
Qed.
Definition fields_of (layout : list slot) (vs : list fvalue) : list field :=
  map (fun x => let '((nm, _, w, _), v) := x in mkField nm v w false) (combine layout vs).
Lemma fills_items layout : forall vs, Forall2 typed layout vs -> Forall fits (slot_items layout vs) ->
  fills layout (flat_map item_bits (slot_items layout vs)) (fields_of layout vs).
Proof.
  induction layout as [|sl layout IH]; intros vs HT HF; inversion HT as [|? v ? vs' T HT']; subst; [constructor|].
  unfold slot_items, fields_of in *. cbn [combine map flat_map fst snd] in *. inversion HF as [|? ? F HF']; subst.
  pose proof (slot_bits sl v T F) as K. destruct sl as [[[nm t] w] px]. destruct K as [K1 K2].
  specialize (IH vs' HT' HF'). rewrite <- K2 at 2. constructor; [exact K1|exact IH].
Qed.

Notation ib := (flat_map item_bits).
Lemma ib_bytes bs : ib [bytes_item bs] = bytes_bits bs. Proof. cbn [flat_map item_bits bytes_item]. apply app_nil_r. Qed.
Lemma ib_bools l : ib (map IBool l) = l. Proof. induction l; cbn; congruence. Qed.
Lemma ib_width l : Forall fits l -> blen (ib l) = items_width l.
Proof. unfold items_width. induction 1; cbn [flat_map fold_right]; [reflexivity|]. rewrite blen_app, item_bits_width by assumption. lia. Qed.
Lemma announced_is xs b nm n w h fs more : fills (len_slot :: xs) b (mkField nm (FUint n) w h :: fs) -> announced (b ++ more) = n.
Proof. intros H. inversion H; subst. rewrite <- app_assoc. now rewrite announced_app. Qed.
Lemma fields_shown layout : forall vs, map (fun f => (f_name f, f_value f)) (filter (fun f => negb (f_hidden f)) (fields_of layout vs)) = named layout vs.
Proof.
  unfold fields_of, named. induction layout as [|[[[nm t] w] px] layout IH]; intros [|v vs]; try reflexivity. cbn. f_equal. apply IH.
Qed.
Lemma shown_app a b : map (fun f : field => (f_name f, f_value f)) (filter (fun f => negb (f_hidden f)) (a ++ b)) =
  map (fun f => (f_name f, f_value f)) (filter (fun f => negb (f_hidden f)) a) ++ map (fun f => (f_name f, f_value f)) (filter (fun f => negb (f_hidden f)) b).
Proof. now rewrite filter_app, map_app. Qed.
Lemma shown_pad pad : map (fun f : field => (f_name f, f_value f)) (filter (fun f => negb (f_hidden f)) (padding pad)) = [].
Proof. unfold padding. destruct (blen pad =? 0); reflexivity. Qed.

(** ** Sections *)
Ltac types := repeat first [apply Forall2_nil | apply Forall2_cons; [cbn; try exact I; reflexivity|]].
Section Written.
  Variable m : content.
  Hypothesis He : ct_edition m = 3 \/ ct_edition m = 4.
  Lemma typed0 : Forall2 typed layout0 (says0 m). Proof. unfold layout0, says0. types. Qed.
  Lemma typed1 : Forall2 typed (layout1 (ct_edition m)) (says1 m).
  Proof. unfold layout1, says1. destruct (ct_edition m =? 4); types. Qed.
  Lemma typed2 : Forall2 typed layout2 (says2 m). Proof. unfold layout2, says2. types. Qed.
  Lemma typed3 : Forall2 typed layout3 (says3 m). Proof. unfold layout3, says3. types. Qed.
  Lemma typed4 : Forall2 typed layout4 (says4 m). Proof. unfold layout4, says4. types. Qed.
  Lemma typed5 : Forall2 typed layout5 says5. Proof. unfold layout5, says5. types. Qed.

  Definition sec0 start := mkSection 0 "Indicator Section" start 0 (fields_of layout0 (says0 m)).
  Lemma written0 start : Forall fits (items0 m) -> is_section0 start (ib (items0 m)) (sec0 start) /\
    has (sec0 start) "bufrEditionNumber" (FUint (ct_edition m)).
  Proof.
    intros F. split; [|reflexivity]. eexists. split; [exact (fills_items _ _ typed0 F)|]. split; [reflexivity|].
    unfold items0, says0, layout0, slot_items. cbn [combine map fst snd slot_item flat_map item_bits].
    reflexivity.
  Qed.
  Definition sec1 start := mkSection 1 "Identification Section" start (8 * blen (ct_extra m))
    (fields_of (layout1 (ct_edition m)) (says1 m) ++ padding (bytes_bits (ct_extra m))).
  Lemma written1 start : Forall fits (items1 m) -> is_section1 (ct_edition m) start (ib (items1 m)) (sec1 start) /\
    announced (ib (items1 m)) = size1 m /\
    has (sec1 start) "isSection2Presents" (FBool (match ct_optional m with Some _ => true | None => false end)) /\
    has (sec1 start) "masterTableNumber" (FUint (ct_master m)) /\ has (sec1 start) "originatingCentre" (FUint (ct_centre m)) /\
    has (sec1 start) "originatingSubCentre" (FUint (ct_sub m)) /\ has (sec1 start) "masterTableVersion" (FUint (ct_wmo m)) /\
    has (sec1 start) "localTableVersion" (FUint (ct_local m)).
  Proof.
    unfold items1. intros F. apply Forall_app in F. destruct F as [F _]. rewrite flat_map_app, ib_bytes.
    pose proof (fills_items _ _ typed1 F) as Hf. pose proof (fills_len _ _ _ Hf) as L.
    assert (A : announced (ib (slot_items (layout1 (ct_edition m)) (says1 m)) ++ bytes_bits (ct_extra m)) = size1 m).
    { revert Hf. unfold layout1, says1. destruct (ct_edition m =? 4); intros Hf; eapply (announced_is _ _ _ _ _ _ _ _ Hf). }
    split; [|split; [exact A|]].
    - eexists _, _, _. split; [reflexivity|]. split; [exact Hf|]. rewrite A, blen_app, L, blen_bytes_bits. split; [|reflexivity].
      unfold size1, layout1. destruct (ct_edition m =? 4); cbn [fold_right]; lia.
    - unfold has, sec1, layout1, says1. destruct (ct_edition m =? 4); repeat split.
  Qed.
  Definition sec2 start bs := mkSection 2 "Optional Section" start 0
    (fields_of layout2 (says2 m) ++ [mkField "localBits" (FBin (Some (mkBin bs (8 * blen bs)))) (8 * blen bs) false]).
  Lemma written2 start bs : ct_optional m = Some bs -> Forall fits (items2 m) ->
    is_section2 start (ib (items2 m)) (sec2 start bs) /\ announced (ib (items2 m)) = size2 m.
  Proof.
    unfold items2. intros E F. rewrite E in *. apply Forall_app in F. destruct F as [F Fb]. assert (Fb' : Forall is_byte bs) by (inversion Fb as [|? ? Fx _]; exact (proj2 Fx)). rewrite flat_map_app, ib_bytes.
    pose proof (fills_items _ _ typed2 F) as Hf. pose proof (fills_len _ _ _ Hf) as L.
    assert (A : announced (ib (slot_items layout2 (says2 m)) ++ bytes_bits bs) = size2 m) by eapply (announced_is _ _ _ _ _ _ _ _ Hf).
    split; [|exact A]. eexists _, _, _. split; [reflexivity|]. split; [exact Hf|]. cbv zeta. rewrite A. unfold size2. rewrite E.
    replace (8 * (4 + blen bs - 4)) with (8 * blen bs) by lia. rewrite chunks8_bytes by assumption. rewrite blen_bytes_bits.
    pose proof (blen_nonneg bs). split; [lia|reflexivity].
  Qed.
  Lemma descriptors_written ids : Forall fits (flat_map descriptor_items ids) ->
    exists segs, Forall2 is_descriptor ids segs /\ ib (flat_map descriptor_items ids) = concat segs.
  Proof.
    induction ids as [|id ids IH]; cbn [flat_map]; intros F; [exists []; split; [constructor|reflexivity]|].
    apply Forall_app in F. destruct F as [F1 F2]. destruct (IH F2) as (segs & S1 & S2). exists (ib (descriptor_items id) :: segs).
    rewrite flat_map_app, S2. split; [constructor; [|exact S1]|reflexivity].
    pose proof (ib_width _ F1) as L. unfold descriptor_items in *. inversion F1 as [|? ? Fa F1']; subst. inversion F1' as [|? ? Fb F1'']; subst. inversion F1'' as [|? ? Fc _]; subst.
    split; [exact L|]. cbn [flat_map item_bits fits] in *. rewrite app_nil_r.
    assert (La : length (low_bits (Z.to_nat 2) (id / 100000)) = 2%nat) by (pose proof (blen_low_bits (Z.to_nat 2) (id / 100000)); unfold blen in *; lia).
    assert (Lb : length (low_bits (Z.to_nat 6) (id / 1000 mod 100)) = 6%nat) by (pose proof (blen_low_bits (Z.to_nat 6) (id / 1000 mod 100)); unfold blen in *; lia).
    set (a := low_bits (Z.to_nat 2) (id / 100000)) in *. set (b := low_bits (Z.to_nat 6) (id / 1000 mod 100)) in *. set (c := low_bits (Z.to_nat 8) (id mod 1000)) in *.
    replace (firstn 2 (a ++ b ++ c)) with a by (rewrite <- La, firstn_app, Nat.sub_diag, firstn_all, firstn_O, app_nil_r; reflexivity).
    replace (skipn 2 (a ++ b ++ c)) with (b ++ c) by (rewrite <- La, skipn_app, Nat.sub_diag, skipn_all; reflexivity).
    replace (firstn 6 (b ++ c)) with b by (rewrite <- Lb, firstn_app, Nat.sub_diag, firstn_all, firstn_O, app_nil_r; reflexivity).
    replace (skipn 8 (a ++ b ++ c)) with c.
    2:{ rewrite app_assoc. replace 8%nat with (length (a ++ b)) by (rewrite app_length; lia). rewrite skipn_app, Nat.sub_diag, skipn_all. reflexivity. }
    unfold a, b, c. rewrite !msb_low_bits_small by (cbn; lia). lia.
  Qed.
  Definition pad3 := if ct_round m then low_bits 8 0 else [].
  Definition sec3 start := mkSection 3 "Data Description Section" start (blen pad3)
    (fields_of layout3 (says3 m) ++ mkField "unexpandedTemplate" (FTemplate (ct_template m)) (16 * blen (ct_template m)) false :: padding pad3).
  Lemma written3 start : Forall fits (items3 m) -> is_section3 start (ib (items3 m)) (ct_template m) (sec3 start) /\
    announced (ib (items3 m)) = size3 m /\
    has (sec3 start) "nSubsets" (FUint (body_count (ct_body m))) /\ has (sec3 start) "isCompressed" (FBool (body_compressed (ct_body m))).
  Proof.
    unfold items3. intros F. apply Forall_app in F. destruct F as [F F2]. apply Forall_app in F2. destruct F2 as [F2 _].
    destruct (descriptors_written _ F2) as (segs & S1 & S2). rewrite !flat_map_app, S2.
    replace (ib (if ct_round m then [IUint 0 8] else [])) with pad3 by (unfold pad3; destruct (ct_round m); reflexivity).
    pose proof (fills_items _ _ typed3 F) as Hf. pose proof (fills_len _ _ _ Hf) as L.
    assert (A : announced (ib (slot_items layout3 (says3 m)) ++ concat segs ++ pad3) = size3 m) by eapply (announced_is _ _ _ _ _ _ _ _ Hf).
    split; [|split; [exact A|split; reflexivity]]. eexists _, _, _, _. split; [reflexivity|]. split; [exact Hf|]. split; [exact S1|].
    rewrite A, !blen_app, L, (concat_descriptors _ _ S1). unfold size3, pad3. split; [|split; [|reflexivity]]; destruct (ct_round m).
    + vm_compute. reflexivity.
    + vm_compute. reflexivity.
    + change (blen (low_bits 8 0)) with 8. cbn [fold_right layout3]. lia.
    + change (blen (@nil bool)) with 0. cbn [fold_right layout3]. lia.
  Qed.
  Definition sec5 start := mkSection 5 "End Section" start 0 (fields_of layout5 says5).
  Lemma written5 start : is_section5 start (ib items5) (sec5 start).
  Proof.
    eexists. split; [|reflexivity]. apply fills_items; [exact typed5|]. unfold slot_items, layout5, says5. cbn. repeat constructor; unfold is_byte; lia.
  Qed.
End Written.

(** ** The data *)
Lemma raw_sensible info x : raw_fits info x -> sensible info.
Proof.
  intros [F K]. unfold sensible. destruct x; cbn [as_item fits] in F.
  - destruct K as [K _]. destruct K as [K|[K|K]]; rewrite K; lia.
  - destruct K as [K _]. destruct K as [K|[K|K]]; rewrite K; lia.
  - rewrite K. pose proof (blen_nonneg bs). lia.
  - rewrite K. lia.
  - rewrite K. destruct F as (E & F & _). rewrite E. exact F.
Qed.
Lemma body_sensible fc ms b vals d info v : body_data fc ms b -> In vals (body_values b) -> In (d, info, v) vals -> sensible info.
Proof.
  destruct b as [itss|n its]; unfold body_data; cbv zeta; cbn [body_values].
  - intros H Hv Hi. apply in_map_iff in Hv. destruct Hv as (its & <- & Hin). rewrite Forall_forall in H. destruct (H _ Hin) as [_ C].
    rewrite Forall_forall in C. unfold values_of in Hi. apply in_map_iff in Hi. destruct Hi as ([[d' info'] x] & E & Hx).
    cbn in E. injection E as -> -> _. eapply raw_sensible. exact (C _ Hx).
  - intros (_ & _ & C) Hv Hi. rewrite Forall_forall in C. apply in_map_iff in Hv. destruct Hv as (k & <- & _).
    unfold values_of, lane in Hi. rewrite map_map in Hi. apply in_map_iff in Hi. destruct Hi as ([[d' info'] x] & E & Hx). cbn in E. injection E as -> -> _.
    destruct (C _ Hx) as (_ & _ & _ & R & _). eapply raw_sensible. exact R.
Qed.
Lemma body_payload fc g ids ms b : snd (Parse g (fc_fuel fc) ids parser0) = Ok (root ms) -> body_data fc ms b ->
  exists subs, is_payload fc g ids (body_count b) (body_compressed b) (ib (body_items b)) (blen (ib (body_items b))) subs /\
    payload_values subs = body_values b.
Proof.
  intros HP HD. set (cf := mkConfig (body_compressed b) false (fc_compatible fc) (body_count b) (fc_plat fc) (fc_fuel fc)).
  assert (R : exists s p', run_payload cf (root ms) (vst0 (RBit (mkBR (ib (body_items b) ++ repeat false 8) EEof 0))) = (s, Ok tt) /\
    v_r s = RBit (mkBR (repeat false 8) EEof p') /\ payload_values (v_pay s) = body_values b).
  { assert (PP : parsed g ids ms) by (exists (fc_fuel fc); exact HP). destruct b as [itss|n its]; unfold body_data in HD; cbv zeta in HD; cbn [body_items body_count body_compressed body_values] in *.
    - eapply (laid_round_trip g ids ms cf); try reflexivity; eassumption.
    - destruct HD as [Hn HD]. eapply (columns_round_trip g ids ms cf); try reflexivity; eassumption. }
  destruct R as (s & p' & R & Er & Ev).
  assert (VS : vsteady (run_payload cf (root ms))) by (apply vs_run_payload; reflexivity).
  destruct (VS (vst0 (RBit (mkBR (ib (body_items b) ++ repeat false 8) EEof 0))) _ _ _ s (Ok tt) eq_refl R) as (pay & rest & moved & El & Hr & Hx). assert (Hr' : rest = repeat false 8) by congruence. clear Hr. subst rest.
  apply app_inv_tail in El. subst pay. assert (H8 : 8 <= blen (repeat false 8)) by (vm_compute; discriminate). specialize (Hx H8).
  assert (PAY : is_payload fc g ids (body_count b) (body_compressed b) (ib (body_items b)) moved (v_pay s)).
  { exists (root ms). split; [exact HP|]. intros rest' e' q. specialize (Hx rest' e' q). exists (set_r (RBit (mkBR rest' e' (q + moved))) s). split; [exact Hx|]. now destruct s. }
  exists (v_pay s). split; [|exact Ev]. assert (E : moved = blen (ib (body_items b))); [|rewrite <- E; exact PAY].
  apply (pay_exact _ _ _ _ _ _ _ _ PAY).
  - intros Hc Hn. rewrite Hn in Ev. destruct b as [itss|n its]; [discriminate|]. cbn [body_values] in *. destruct HD as [H0 _].
    destruct (Z.to_nat n) eqn:En; [lia|discriminate].
  - intros sb x Hs Hc. eapply (body_sensible _ _ _ (map (fun c => (cell_what c, c_val c)) (sb_cells sb)) (vn_desc (c_node x)) (vn_info (c_node x)) (c_val x) HD).
    + rewrite <- Ev. unfold payload_values. apply in_map_iff. eauto.
    + apply in_map_iff. exists x. split; [reflexivity|exact Hc].
Qed.

(** ** The message *)
Section Message.
  Variable fc : fconfig.
  Variable m : content.
  Variable ms : list anode.
  Hypothesis W : writable m.
  Hypothesis U : understood fc m ms.
  Hypothesis D : body_data fc ms (ct_body m).
  Definition sec4 start subs := mkSection 4 "Data Section" start (blen (ct_fill m))
    (fields_of layout4 (says4 m) ++ mkField "payload" (FPayload (body_compressed (ct_body m)) subs) (items_width (body_items (ct_body m))) false :: padding (ct_fill m)).
  Lemma message_written : exists subs, payload_values subs = body_values (ct_body m) /\
    forall start, exists secs, is_message fc start (ib (message_items m)) secs /\ map told secs = telling start m subs /\ behind secs = start + size m.
  Proof.
    destruct W as (He & F & H8). destruct U as (l & UT & UP). destruct (body_payload fc (GChain l) (ct_template m) ms (ct_body m) UP D) as (subs & PAY & PV).
    exists subs. split; [exact PV|]. intros start. unfold message_items in *. repeat (apply Forall_app in F; destruct F as [? F]).
    destruct (written0 m start ltac:(assumption)) as (S0 & HE). destruct (written1 m (start + 8) ltac:(assumption)) as (S1 & A1 & HF & HM & HC & HS & HW & HL).
    set (at1 := start + 8) in *. set (at2 := at1 + size1 m). set (at3 := at2 + size2 m). set (at4 := at3 + size3 m). set (at5 := at4 + size4 m).
    destruct (written3 m at3 ltac:(assumption)) as (S3 & A3 & HN & HZ).
    assert (F4 : Forall fits (items4 m)) by assumption. unfold items4 in F4. apply Forall_app in F4. destruct F4 as [F4 F4']. apply Forall_app in F4'. destruct F4' as [F4' _].
    pose proof (fills_items _ _ (typed4 m) F4) as Hf4. pose proof (fills_len _ _ _ Hf4) as L4.
    assert (A4 : announced (ib (items4 m)) = size4 m) by (unfold items4; rewrite flat_map_app; eapply (announced_is _ _ _ _ _ _ _ _ Hf4)).
    assert (W4 : blen (ib (body_items (ct_body m))) = items_width (body_items (ct_body m))) by (apply ib_width; assumption).
    assert (S4 : is_section4 fc (GChain l) (ct_template m) (body_count (ct_body m)) (body_compressed (ct_body m)) at4 (ib (items4 m)) (sec4 at4 subs)).
    { eexists _, _, _, _, _, _. split; [unfold items4; rewrite !flat_map_app, ib_bools; reflexivity|]. split; [exact Hf4|]. split; [exact PAY|]. rewrite A4, W4.
      split; [|reflexivity]. unfold size4. lia. }
    exists (sec0 m start :: sec1 m at1 :: match ct_optional m with Some bs => [sec2 m at2 bs] | None => [] end ++ [sec3 m at3; sec4 at4 subs; sec5 at5]).
    split; [|split].
    - exists (ct_edition m), (ib (items0 m)), (ib (items1 m)), (ib (items2 m)), (ib (items3 m)), (ib (items4 m)), (ib items5). eexists _, _, _, _, _, _.
      exists (match ct_optional m with Some _ => true | None => false end), (ct_template m), (body_count (ct_body m)), (body_compressed (ct_body m)), (GChain l).
      split; [now rewrite !flat_map_app|]. split; [reflexivity|]. cbv zeta. fold at1. rewrite A1, A3, A4. fold at2.
      split; [exact S0|]. split; [exact HE|]. split; [exact He|]. split; [exact S1|]. split; [exact HF|].
      assert (E3 : (if match ct_optional m with Some _ => true | None => false end then at2 + announced (ib (items2 m)) else at2) = at3).
      { unfold at3. destruct (ct_optional m) as [bs|] eqn:Eo; [|unfold size2; rewrite Eo; lia]. now destruct (written2 m at2 bs Eo ltac:(assumption)) as [_ ->]. }
      rewrite E3. fold at4 at5. split.
      { destruct (ct_optional m) as [bs|] eqn:Eo; [|split; [reflexivity|unfold items2; now rewrite Eo]].
        exists (sec2 m at2 bs). split; [reflexivity|]. exact (proj1 (written2 m at2 bs Eo ltac:(assumption))). }
      split; [exact S3|]. split; [exact HN|]. split; [exact HZ|]. split; [|split; [exact S4|apply written5]].
      exists (ct_master m), (ct_centre m), (ct_sub m), (ct_wmo m), (ct_local m), l. repeat split; assumption.
    - unfold telling. fold at1 at2 at3 at4 at5. cbn [map app]. rewrite map_app.
      assert (T1 : told (sec1 m at1) = (1, at1, named (layout1 (ct_edition m)) (says1 m))).
      { unfold told, sec1. cbn [sec_number sec_start sec_fields]. now rewrite shown_app, shown_pad, fields_shown, app_nil_r. }
      rewrite T1. f_equal. f_equal. f_equal; [destruct (ct_optional m); reflexivity|]. cbn [map].
      assert (T3 : told (sec3 m at3) = (3, at3, named layout3 (says3 m) ++ [("unexpandedTemplate"%string, FTemplate (ct_template m))])).
      { unfold told, sec3. cbn [sec_number sec_start sec_fields]. rewrite shown_app, fields_shown. cbn [filter f_hidden negb map f_name f_value]. now rewrite shown_pad. }
      assert (T4 : told (sec4 at4 subs) = (4, at4, named layout4 (says4 m) ++ [("payload"%string, FPayload (body_compressed (ct_body m)) subs)])).
      { unfold told, sec4. cbn [sec_number sec_start sec_fields]. rewrite shown_app, fields_shown. cbn [filter f_hidden negb map f_name f_value]. now rewrite shown_pad. }
      rewrite T3, T4. reflexivity.
    - unfold behind. cbn [rev]. rewrite rev_app_distr. cbn [rev app sec_start sec5]. unfold at5, at4, at3, at2, at1, size. lia.
  Qed.
End Message.

(** ** Streams *)
Lemma message_width m : writable m -> blen (ib (message_items m)) = 8 * size m.
Proof.
  intros (He & F & H8). unfold message_items in *. repeat (apply Forall_app in F; destruct F as [? F]). rewrite !flat_map_app, !blen_app.
  pose proof (written0 m 0 ltac:(assumption)) as [S0 _]. pose proof (written1 m 0 ltac:(assumption)) as (S1 & A1 & _). pose proof (written3 m 0 ltac:(assumption)) as (S3 & A3 & _).
  apply ProofsMsg8.size0 in S0. destruct (ProofsMsg8.size1 _ _ _ _ S1) as [S1' _]. destruct (ProofsMsg8.size3 _ _ _ _ S3) as [S3' _]. rewrite A1 in S1'. rewrite A3 in S3'.
  assert (S2 : blen (ib (items2 m)) = 8 * size2 m).
  { destruct (ct_optional m) as [bs|] eqn:Eo; [|unfold items2, size2; rewrite Eo; reflexivity]. destruct (written2 m 0 bs Eo ltac:(assumption)) as [S2 A2]. destruct (ProofsMsg8.size2 _ _ _ S2) as [S2' _].
    rewrite A2 in S2'. unfold size2 in *. rewrite Eo in *. pose proof (blen_nonneg bs). lia. }
  pose proof (ProofsMsg8.size5 _ _ _ (written5 0)) as S5.
  assert (S4 : blen (ib (items4 m)) = 8 * size4 m).
  { assert (F4 : Forall fits (items4 m)) by assumption. unfold items4 in *. apply Forall_app in F4. destruct F4 as [F4 F4']. apply Forall_app in F4'. destruct F4' as [F4' _].
    rewrite !flat_map_app, ib_bools, !blen_app, (fills_len _ _ _ (fills_items _ _ (typed4 m) F4)), (ib_width _ F4'). unfold size4, layout4. cbn [fold_right]. lia. }
  rewrite S0, S1', S2, S3', S4, S5. unfold size. lia.
Qed.
Lemma written_all m : writable m -> mapM_ write_item (message_items m) new_bitwriter = (ib (message_items m), Ok tt).
Proof. intros (_ & F & _). now rewrite write_items_bits by exact F. Qed.
Lemma bytes_of_bits m more : writable m -> bytes_bits (bytes_of m ++ more) = ib (message_items m) ++ bytes_bits more.
Proof.
  intros W. unfold bytes_of. rewrite (written_all m W). cbn [fst]. rewrite <- (app_nil_r (ib (message_items m))) at 1. rewrite output_bits; [reflexivity|].
  rewrite message_width by exact W. change (blen (@nil bool)) with 0. lia.
Qed.
Lemma bytes_of_size m : writable m -> blen (bytes_of m) = size m.
Proof.
  intros W. pose proof (bytes_of_bits m [] W) as E. rewrite !app_nil_r in E. apply (f_equal blen) in E. rewrite blen_bytes_bits, message_width in E by exact W. lia.
Qed.
Lemma message_signed m more : writable m -> signed_here (ib (message_items m) ++ more).
Proof.
  intros (_ & F & _). unfold message_items, items0, says0, layout0, slot_items. cbn [combine map fst snd slot_item app flat_map item_bits].
  rewrite <- !app_assoc. eexists. reflexivity.
Qed.
(** The signature does not overlap itself. *)
Lemma no_overlap sk b : blen sk mod 8 = 0 -> no_signature sk -> signed_here b -> first_signature sk b.
Proof.
  intros H8 N S. split; [exact H8|]. split; [exact S|]. intros a c -> Ha Hc [r E]. destruct S as [r' ->].
  assert (Hc8 : blen c mod 8 = 0) by (rewrite blen_app in H8; lia).
  destruct (Z_le_gt_dec 32 (blen c)) as [L|L].
  - apply (N a c eq_refl Ha). exists (skipn 32 c). rewrite <- (firstn_skipn 32 c) at 1. f_equal.
    apply (f_equal (firstn 32)) in E. rewrite firstn_app in E. replace (32 - length c)%nat with 0%nat in E by (unfold blen in L; lia). rewrite firstn_O, app_nil_r in E. exact E.
  - assert (Hl : length c = 8%nat \/ length c = 16%nat \/ length c = 24%nat).
    { unfold blen in *. destruct c; [congruence|]. cbn [length] in *. lia. }
    apply (f_equal (skipn (length c))) in E. rewrite skipn_app, skipn_all, Nat.sub_diag, skipn_O in E. cbn [app] in E.
    destruct Hl as [Hl|[Hl|Hl]]; rewrite Hl in E; cbn in E; discriminate E.
Qed.
Lemma blen_byte_mod bs : blen (bytes_bits bs) mod 8 = 0.
Proof. rewrite blen_bytes_bits. lia. Qed.
Lemma stream_cons junk m l rest : writable m ->
  bytes_bits (stream_of ((junk, m) :: l) ++ rest) = bytes_bits junk ++ ib (message_items m) ++ bytes_bits (stream_of l ++ rest).
Proof. intros W. cbn [stream_of flat_map fst snd]. fold (stream_of l). rewrite <- !app_assoc, bytes_bits_app, bytes_of_bits by exact W. reflexivity. Qed.
Lemma stream_messages fc rest : forall l start, Forall (fun x => no_signature (bytes_bits (fst x)) /\ meant fc (snd x)) l ->
  exists mss, messages fc start (bytes_bits (stream_of l ++ rest)) mss (bytes_bits rest) /\
    forall msgs, map msg_sections msgs = mss -> conveyed start l msgs.
Proof.
  induction l as [|[junk m] l IH]; intros start H.
  - exists []. split; [constructor|]. intros [|? ?]; [constructor|discriminate].
  - inversion H as [|? ? [HN (W & ms & U & D)] H']; subst. cbn [fst snd] in *.
    destruct (message_written fc m ms W U D) as (subs & PV & M). destruct (M (start + blen junk)) as (secs & IM & T & B).
    destruct (IH (start + blen junk + size m) H') as (mss & HM & HC). exists (secs :: mss). split.
    + rewrite stream_cons by exact W. constructor.
      * apply no_overlap; [apply blen_byte_mod|exact HN|now apply message_signed].
      * rewrite message_width by exact W. lia.
      * rewrite blen_bytes_bits. replace (8 * blen junk / 8) with (blen junk) by lia. exact IM.
      * rewrite B. exact HM.
    + intros [|msg msgs] E; [discriminate|]. cbn [map] in E. injection E as E1 E2. constructor; [|now apply HC].
      exists subs. split; [exact PV|]. now rewrite E1.
Qed.
