(** Whatever is decoded was laid out (C69). *)
From Verif Require Import ProofsRun11 ProofsRun12 ProofsRun6 ProofsRun4 ProofsRun7 ProofsUnpack ProofsBitProps ProofsBinary ProofsBits.
From Verif Require Export ProofsPlan2.
From Coq Require Import Lia ZifyBool ZifyNat.

(** ** Single fields *)
Lemma byte_of_bits c : length c = 8%nat -> byte_bits (msb c) = c.
Proof. intros H. apply msb_inj; [now rewrite H|]. apply msb_byte_bits. unfold is_byte. pose proof (msb_bound c). replace (blen c) with 8 in * by (unfold blen; lia). lia. Qed.
Lemma bytes_of_bits seg : blen seg mod 8 = 0 -> bytes_bits (map msb (chunks8 seg)) = seg.
Proof.
  induction seg as [|c H|c r H IH] using bits8_ind; intros Hm; [reflexivity|exfalso; unfold blen in Hm; lia|].
  rewrite chunks8_cons by exact H. cbn [map]. rewrite bytes_bits_cons, IH by (rewrite blen_app in Hm; unfold blen in *; lia).
  f_equal. now apply byte_of_bits.
Qed.
Lemma bytes_are seg : Forall is_byte (map msb (chunks8 seg)).
Proof.
  apply Forall_map. induction seg as [|c H|c r H IH] using bits8_ind; [constructor| |].
  - rewrite chunks8_short by exact H. constructor; [|constructor]. unfold is_byte. pose proof (msb_bound c). assert (2 ^ blen c <= 2 ^ 8) by (apply Z.pow_le_mono_r; unfold blen; lia). lia.
  - rewrite chunks8_cons by exact H. constructor; [|exact IH]. unfold is_byte. pose proof (msb_bound c). replace (blen c) with 8 in * by (unfold blen; lia). lia.
Qed.
Lemma bin_of_bits seg : bin_bits (tail_width (blen seg)) (map msb (chunks8 seg)) = seg.
Proof.
  induction seg as [|c H|c r H IH] using bits8_ind; [reflexivity| |].
  - rewrite chunks8_short by exact H. cbn [map bin_bits]. unfold tail_width. rewrite Z.mod_small by (unfold blen; lia).
    destruct (Z.eqb_spec (blen c) 0) as [E|_]; [unfold blen in E; lia|]. replace (Z.to_nat (blen c)) with (length c) by (unfold blen; lia). apply low_bits_msb.
  - rewrite chunks8_cons by exact H. assert (T : tail_width (blen (c ++ r)) = tail_width (blen r)).
    { unfold tail_width. rewrite blen_app. replace (blen c) with 8 by (unfold blen; lia). replace ((8 + blen r) mod 8) with (blen r mod 8) by lia. reflexivity. }
    rewrite T. cbn [map bin_bits]. destruct (map msb (chunks8 r)) as [|b l] eqn:E.
    + destruct r as [|x r]; [|pose proof (chunks8_length (x :: r)) as L; apply (f_equal (@length Z)) in E; rewrite map_length in E; unfold blen in L; rewrite E in L; cbn [length] in L; lia].
      rewrite app_nil_r. change (tail_width (blen (@nil bool))) with 8. change (Z.to_nat 8) with 8%nat. rewrite <- H. apply low_bits_msb.
    + rewrite IH. f_equal. now apply byte_of_bits.
Qed.
Lemma last_chunk seg : blen seg mod 8 <> 0 -> last (map msb (chunks8 seg)) 0 < 2 ^ (blen seg mod 8).
Proof.
  induction seg as [|c H|c r H IH] using bits8_ind; intros Hm; [contradiction| |].
  - rewrite chunks8_short by exact H. cbn [map last]. rewrite Z.mod_small by (unfold blen; lia). apply msb_bound.
  - rewrite blen_app in *. replace (blen c) with 8 in * by (unfold blen; lia). replace ((8 + blen r) mod 8) with (blen r mod 8) in * by lia.
    rewrite chunks8_cons by exact H. cbn [map]. specialize (IH Hm). destruct (map msb (chunks8 r)) as [|b l] eqn:E; [|exact IH].
    destruct r as [|x r]; [contradiction|]. pose proof (chunks8_length (x :: r)) as L; apply (f_equal (@length Z)) in E; rewrite map_length in E; unfold blen in L; rewrite E in L; cbn [length] in L; lia.
Qed.
Lemma raw_from info seg : usable info -> blen seg = bits_needed info ->
  exists x, raw_fits info x /\ raw_value info x = decode_value info seg /\ (pi_unit info <> CODE -> item_bits (as_item info x) = seg).
Proof.
  intros HU HL. unfold usable in HU. unfold decode_value, bits_needed in *.
  assert (Num : is_number (pi_unit info) -> 0 <= pi_nbits info <= 64 -> blen seg = pi_nbits info ->
    exists x, raw_fits info x /\ raw_value info x = (if missing seg then VNil else value_of_number info (raw seg)) /\ item_bits (as_item info x) = seg).
  { intros Hn Hw HS. rewrite missing_raw by lia. rewrite raw_small by lia. pose proof (msb_bound seg) as HB. rewrite HS in *.
    assert (HN : Z.to_nat (pi_nbits info) = length seg) by (unfold blen in HS; lia).
    destruct (Z.leb_spec 2 (pi_nbits info)) as [H2|H2]; cbn [andb]; [destruct (Z.eqb_spec (msb seg) (2 ^ pi_nbits info - 1)) as [E|E]|].
    - exists RMissing. split; [split; [cbn [as_item SpecBits.fits]; lia|auto]|]. split; [reflexivity|]. cbn [as_item item_bits]. rewrite <- E, HN. apply low_bits_msb.
    - exists (RNumber (msb seg)). split; [split; [cbn [as_item SpecBits.fits]; lia|auto]|]. split; [reflexivity|]. cbn [as_item item_bits]. rewrite HN. apply low_bits_msb.
    - exists (RNumber (msb seg)). split; [split; [cbn [as_item SpecBits.fits]; lia|split; [assumption|lia]]|]. split; [reflexivity|]. cbn [as_item item_bits]. rewrite HN. apply low_bits_msb. }
  destruct (pi_unit info) eqn:U.
  - destruct Num as (x & N1 & N2 & N3); [unfold is_number; auto|lia|lia|]. exists x. auto.
  - exists (RString (map msb (chunks8 seg))). split; [split; [cbn [as_item SpecBits.fits]|exact U]|].
    + split; [|apply bytes_are]. unfold blen at 1. rewrite map_length. change (Z.of_nat (length (chunks8 seg))) with (blen (chunks8 seg)). rewrite chunks8_length, HL. lia.
    + split; [reflexivity|]. intros _. cbn [as_item item_bits]. apply bytes_of_bits. lia.
  - destruct Num as (x & N1 & N2 & N3); [unfold is_number; auto|lia|lia|]. exists x. auto.
  - exists (RSigned (signed seg)). split; [|split; [reflexivity|congruence]]. split; [|exact U]. cbn [as_item SpecBits.fits]. split; [lia|].
    destruct seg as [|b seg]; [cbn in HL; lia|]. unfold signed. cbn [hd tl]. rewrite blen_cons in HL. pose proof (msb_bound seg) as HB. replace (blen seg) with (pi_nbits info - 1) in * by lia.
    assert (2 ^ (pi_nbits info - 1) <= 2 ^ 63) by (apply Z.pow_le_mono_r; lia). destruct b; rewrite i64_small by lia; lia.
  - destruct Num as (x & N1 & N2 & N3); [unfold is_number; auto|lia|lia|]. exists x. auto.
  - exists (RBits (mkBin (map msb (chunks8 seg)) (pi_nbits info))). assert (HS : blen seg = pi_nbits info) by lia. split; [split; [cbn [as_item SpecBits.fits b_nbits]|exact U]|].
    + split; [reflexivity|]. unfold wf_binary. cbn [b_bytes b_nbits]. split; [lia|]. split; [unfold blen at 1; rewrite map_length; change (Z.of_nat (length (chunks8 seg))) with (blen (chunks8 seg)); now rewrite chunks8_length, HS|].
      split; [apply bytes_are|]. rewrite <- HS. apply last_chunk.
    + split; [reflexivity|]. intros _. cbn [as_item item_bits b_bytes]. rewrite <- HS. apply bin_of_bits.
Qed.

(** ** Runs are layouts *)
Section Laid.
  Variable cf : config.
  Hypothesis always : cf_compatible cf = true -> forall r r', ~ unreadable cf (plain_info NONNEG_CODE 0) r r'.
  Lemma decodes_holds d info r x r' : decodes cf d info r x r' -> holds d info (strip x).
  Proof. intros H. inversion H; subst; eexists; reflexivity. Qed.
  Lemma zero_planned od r z r' : zero_cell cf od r z r' -> planned_zero cf od (option_map strip z).
  Proof.
    intros H. unfold planned_zero. inversion H as [C|d x ? C E D|d ? C E U]; subst; rewrite C; [reflexivity| |exfalso; eapply always; eassumption].
    exists d, (strip x). split; [reflexivity|]. split; [reflexivity|]. eapply decodes_holds; eassumption.
  Qed.
  Lemma fields_hold d ws r fs r' : fields cf d ws r fs r' -> Forall2 (fun w f => holds (DecorateDescriptor d) (plain_info NONNEG_CODE w) f) ws (map strip fs).
  Proof. induction 1; cbn [map]; constructor; [eapply decodes_holds; eassumption|assumption]. Qed.
  Lemma runs_lays g s n g' s' : runs cf g s n g' s' -> lays cf (strips g) n (strips g').
  Proof.
    intros H. induction H using runs_mut with
      (P0 := fun g s ns g' s' _ => lays_list cf (strips g) ns (strips g'))
      (P1 := fun k g s ns g' s' _ => lays_times cf k (strips g) ns (strips g'));
    cbn [map strip_ev] in *; try (constructor; assumption).
    - eapply lay_element; [eassumption| |].
      + rewrite open_fields_strip. eapply fields_hold; eassumption.
      + rewrite packing_strip. eapply decodes_holds; eassumption.
    - eapply lay_031021; [eassumption|]. rewrite packing_strip. eapply decodes_holds; eassumption.
    - eapply lay_delayed; [eassumption| |eassumption]. now apply factor_strip'.
    - apply lay_assoc; [|assumption]. now rewrite open_fields_strip.
    - constructor. eapply decodes_holds; eassumption.
    - econstructor; [eassumption|]. eapply decodes_holds; eassumption.
    - eapply lay_assess; [eapply zero_planned; eassumption|eassumption|eassumption|apply selects_strip; eassumption|eassumption|]. now rewrite !ncells_strip.
    - eapply lay_marker with (t := strip t); [rewrite targets_left_strip; eassumption|rewrite data_strip; erewrite map_nth_error by eassumption; reflexivity|cbn [strip planned dt_desc]; eassumption|].
      rewrite marker_packing_strip. eapply decodes_holds; eassumption.
    - apply lay_recall; [assumption|]. eapply zero_planned; eassumption.
    - eapply lay_define; [assumption|eapply zero_planned; eassumption|eassumption|]. now rewrite bitmap_strip.
    - econstructor; eassumption.
    - econstructor; eassumption.
  Qed.
  Lemma runs_list_lays ns : forall g s g' s', runs_list cf g s ns g' s' -> lays_list cf (strips g) ns (strips g').
  Proof. induction ns as [|n ns IH]; intros g s g' s' H; inversion H; subst; [constructor|]. econstructor; [eapply runs_lays; eassumption|eauto]. Qed.
  Lemma subsets_lay n ms r hs r' : subsets_run cf ms n r hs r' -> Forall (fun h => lays_list cf [] ms (strips h)) hs /\ length hs = n.
  Proof.
    induction 1 as [|n r h r1 hs r2 H _ [I1 I2]]; [split; [constructor|reflexivity]|].
    split; [|cbn; congruence]. constructor; [|exact I1]. apply runs_list_lays in H. exact H.
  Qed.
End Laid.
Lemma always_zero cf : cf_json cf = false -> cf_compressed cf = false -> forall r r', ~ unreadable cf (plain_info NONNEG_CODE 0) r r'.
Proof. intros Hj Hc r r' [e H]. rewrite Hj, Hc in H. discriminate. Qed.

Lemma segs_items cf xs segs : cf_json cf = false -> cf_compressed cf = false -> Forall2 (bits_of cf) xs segs -> Forall (fun x => usable (dt_info x)) xs ->
  exists its, map strip xs = map raw_datum its /\ Forall (fun it => raw_fits (snd (fst it)) (snd it)) its /\
    (Forall (fun x => pi_unit (dt_info x) <> CODE) xs -> flat_map item_bits (written its) = concat segs).
Proof.
  intros Hj Hc. induction 1 as [|x seg xs segs H _ IH]; intros HU.
  - exists []. repeat split; constructor.
  - inversion HU as [|? ? U1 U2]; subst. destruct (IH U2) as (its & E & F & W). destruct (bits_of_plain _ _ _ Hj Hc H) as [V L].
    destruct (raw_from _ _ U1 L) as (a & R1 & R2 & R3). exists ((dt_desc x, dt_info x, a) :: its). cbn [map fst snd]. split; [|split].
    + f_equal; [|exact E]. unfold strip, raw_datum. cbn [fst snd]. now rewrite V, R2.
    + constructor; [exact R1|exact F].
    + intros HC. inversion HC; subst. cbn [written map flat_map concat fst snd]. f_equal; [auto|]. unfold written in W. auto.
Qed.
Theorem decoded_laid g ids ms cf r l s : parsed g ids ms -> cf_json cf = false -> cf_compressed cf = false -> 0 <= cf_nsubsets cf -> binary_reader r l ->
  run_payload cf (root ms) (vst0 r) = (s, Ok tt) ->
  (forall sb c, In sb (v_pay s) -> In c (sb_cells sb) -> c_val c <> VBin None /\ usable (vn_info (c_node c))) ->
  exists itss rest, cf_nsubsets cf = blen itss /\ Forall (laid cf ms) itss /\ payload_values (v_pay s) = map values_of itss /\
    binary_reader (v_r s) rest /\
    ((forall sb c, In sb (v_pay s) -> In c (sb_cells sb) -> pi_unit (vn_info (c_node c)) <> CODE) ->
      l = flat_map item_bits (written (concat itss)) ++ rest).
Proof.
  intros HP Hj Hc Hn Hl H HN. assert (HS : some_subset cf) by (unfold some_subset, columns; rewrite Hc; discriminate).
  destruct (payload_segments cf ms r l s Hj (parsed_no_base _ _ _ HP) HS Hl H (fun sb c A B => proj1 (HN sb c A B))) as (hs & segs & rest & HX & HH & El & Hb & H2).
  unfold executes, shows, columns in *. rewrite Hc in *. cbn [andb] in *.
  destruct (subsets_lay cf (fun _ => always_zero cf Hj Hc) _ _ _ _ _ HX) as [L1 L2].
  assert (K : exists itss, length itss = length hs /\ Forall (laid cf ms) itss /\ Forall2 (fun its h => Forall2 (is_datum raw_vals) its (data h)) itss hs /\
    ((forall sb c, In sb (v_pay s) -> In c (sb_cells sb) -> pi_unit (vn_info (c_node c)) <> CODE) ->
      concat (map (@concat bool) segs) = flat_map item_bits (written (concat itss)))).
  { clear HX El L2 H Hb. revert HN. generalize dependent segs. revert L1. induction HH as [|h sb hs pay HL _ IH]; intros L1 segs H2 HN; inversion H2; subst.
    - exists []. repeat split; constructor.
    - inversion L1; subst. destruct (IH ltac:(assumption) _ ltac:(eassumption)) as (itss & I1 & I2 & I3 & I4). { intros sb' c A B. apply (HN sb' c); [now right|exact B]. }
      assert (HW : Forall2 (fun x c => dt_info x = vn_info (c_node c)) (data h) (sb_cells sb)).
      { destruct HL as [HL1 HL2]. clear - HL1 HL2. assert (P : forall i d c, nth_error (data h) i = Some d -> nth_error (sb_cells sb) i = Some c -> dt_info d = vn_info (c_node c)) by (intros i d c A B; destruct (HL2 i d c A B) as (_ & Q & _); now symmetry).
        clear HL2. revert HL1 P. generalize (sb_cells sb). induction (data h) as [|x xs IH]; intros [|c cs] HL1 P; try discriminate; constructor; [apply (P 0%nat); reflexivity|].
        apply IH; [now injection HL1|]. intros i d0 c0. apply (P (S i)). }
      assert (HU : forall Q : pinfo -> Prop, (forall c, In c (sb_cells sb) -> Q (vn_info (c_node c))) -> Forall (fun x => Q (dt_info x)) (data h)).
      { intros Q. clear - HW. induction HW; intros P; constructor; [rewrite H; apply P; now left|apply IHHW; intros; apply P; now right]. }
      destruct (segs_items cf (data h) _ Hj Hc ltac:(eassumption)) as (its & E & F & W).
      { apply (HU usable). intros c Hi. apply (HN sb c); [now left|exact Hi]. }
      exists (its :: itss). split; [cbn; congruence|]. split; [|split].
      + constructor; [|exact I2]. split; [|exact F]. exists (strips h). split; [assumption|]. rewrite data_strip. exact E.
      + constructor; [|exact I3]. now apply strip_is_datum.
      + intros HC. cbn [map concat]. rewrite I4 by (intros sb' c A B; apply (HC sb' c); [now right|exact B]).
        unfold written. rewrite map_app, flat_map_app. f_equal. symmetry. apply W. apply (HU (fun i => pi_unit i <> CODE)). intros c Hi. apply (HC sb c); [now left|exact Hi]. }
  destruct K as (itss & K1 & K2 & K3 & K4). exists itss, rest. split; [unfold blen; lia|]. split; [exact K2|]. split; [eapply shown_values; eassumption|]. split; [exact Hb|].
  intros HC. now rewrite El, K4.
Qed.
