(** Compressed data, legal or not (C69). *)
From Verif Require Import ProofsRun11 ProofsRun12 ProofsRun6 ProofsRun4 ProofsRun7 ProofsUnpack ProofsBitProps ProofsBits ProofsMarshal.
From Verif Require Export ProofsPlan3 SpecColumns.
From Coq Require Import Lia ZifyBool ZifyNat.

(** ** Columns of signed numbers and of local fields *)
Lemma int_reads pl n l e p r a : r_ReadInt pl n (RBit (mkBR l e p)) = (r, Ok a) <->
  exists seg rest, l = seg ++ rest /\ blen seg = Z.max 1 n /\ r = RBit (mkBR rest e (p + n)) /\ a = signed seg.
Proof.
  split.
  - intros H. destruct (Z.le_gt_cases (Z.max 1 n) (blen l)) as [Hle|Hgt].
    + destruct (cut_bits l (Z.max 1 n) ltac:(lia) Hle) as (seg & rest & -> & Hs). rewrite rd_int in H by lia. injection H as <- <-. eauto 10.
    + destruct (rd_int_short pl n l e p Hgt) as (l' & p' & E & _). congruence.
  - intros (seg & rest & -> & Hs & -> & ->). now apply rd_int.
Qed.
Lemma missing_reads pl w (bad : Z -> M reader value) n l e p r vs : 0 <= w -> (forall x s s' v, bad x s <> (s', Ok v)) ->
  replicateM n (d <- r_ReadUint pl w ;; if IsMissing (VUint d) w then ret VNil else bad d)%M (RBit (mkBR l e p)) = (r, Ok vs) <->
  exists segs rest, l = concat segs ++ rest /\ length segs = n /\ Forall (fun s => blen s = w) segs /\ Forall (fun s => missing s = true) segs /\
    r = RBit (mkBR rest e (p + Z.of_nat n * w)) /\ vs = repeat VNil n.
Proof.
  intros Hw Hb. revert l p r vs. induction n as [|n IH]; intros l p r vs; cbn [replicateM].
  - split.
    + intros H. injection H as <- <-. exists [], l. rewrite Z.mul_0_l, Z.add_0_r. repeat split; constructor.
    + intros (segs & rest & -> & Hl & _ & _ & -> & ->). destruct segs; [|discriminate]. rewrite Z.mul_0_l, Z.add_0_r. reflexivity.
  - set (step := (d <- r_ReadUint pl w ;; if IsMissing (VUint d) w then ret VNil else bad d)%M) in *.
    assert (S1 : forall l p r v, step (RBit (mkBR l e p)) = (r, Ok v) <-> exists seg rest, l = seg ++ rest /\ blen seg = w /\ missing seg = true /\ r = RBit (mkBR rest e (p + w)) /\ v = VNil).
    { clear - Hw Hb. intros l p r v. unfold step, bind. split.
      - destruct (r_ReadUint pl w _) as [r1 [d|err0|pa|]] eqn:E; try discriminate. apply (uint_reads pl w Hw) in E. destruct E as (seg & rest & -> & Hs & -> & ->).
        rewrite IsMissing_seg by lia. destruct (missing seg) eqn:Em; [|intros H; exfalso; eapply Hb; exact H]. intros H. injection H as <- <-. eauto 10.
      - intros (seg & rest & -> & Hs & Em & -> & ->). rewrite rd_uint by lia. rewrite IsMissing_seg, Em by lia. reflexivity. }
    unfold bind, ret. split.
    + destruct (step (RBit (mkBR l e p))) as [r1 [a|err0|pa|]] eqn:E; try discriminate.
      apply S1 in E. destruct E as (seg & rest & -> & Hs & Em & -> & ->).
      destruct (replicateM n step _) as [r2 [bs|err0|pa|]] eqn:E2; try discriminate. intros H. injection H as <- <-.
      apply IH in E2. destruct E2 as (segs & rest' & -> & Hl & Hf & Hm & -> & ->).
      exists (seg :: segs), rest'. cbn [concat length repeat]. rewrite app_assoc. repeat split; auto. do 2 f_equal. lia.
    + intros (segs & rest & -> & Hl & Hf & Hm & -> & ->). destruct segs as [|seg segs]; [discriminate|].
      inversion Hf; subst. inversion Hm; subst. cbn [concat length] in *. injection Hl as Hl. rewrite <- app_assoc.
      assert (E : step (RBit (mkBR (seg ++ concat segs ++ rest) e p)) = (RBit (mkBR (concat segs ++ rest) e (p + blen seg)), Ok VNil)) by (apply S1; eauto 10).
      rewrite E. assert (E2 : replicateM n step (RBit (mkBR (concat segs ++ rest) e (p + blen seg))) =
        (RBit (mkBR rest e (p + blen seg + Z.of_nat n * blen seg)), Ok (repeat VNil n))) by (apply IH; exists segs, rest; repeat split; auto).
      rewrite E2. cbn [repeat]. do 3 f_equal. lia.
Qed.
Lemma signed_iff pl fuel n info l e p r u : 0 <= n -> pi_unit info = CODE ->
  compressed_Unpack pl fuel n info (RBit (mkBR l e p)) = (r, Ok u) <->
  exists col rest, l = column_bits col ++ rest /\ readable n info col /\
    r = RBit (mkBR rest e (p + pi_nbits info + 6 + blen (concat (co_incs col)))) /\
    u = UC (mkCval (VInt (signed (co_min col))) (inc_width col) (meant n info col)).
Proof.
  intros Hn Hu. unfold compressed_Unpack, readable, meant, signed_column. rewrite Hu. unfold c_unpackCode, make_values. assert (n <? 0 = false) as -> by lia.
  assert (Bad : forall (x : Z) s s' (v : value), (throw PType : M reader value) s <> (s', Ok v)) by (intros x s s' v Q; discriminate Q).
  unfold bind at 1 2 3 4. split.
  - destruct (r_ReadInt pl (pi_nbits info) _) as [r1 [mn|err0|pa|]] eqn:E1; try discriminate.
    apply int_reads in E1. destruct E1 as (smin & l1 & -> & Hmin & -> & ->).
    destruct (readNbitsDiff pl _) as [r2 [d|err0|pa|]] eqn:E2; try discriminate.
    apply nbitsDiff_reads in E2. destruct E2 as (sw & l2 & -> & Hsw & -> & ->).
    pose proof (msb_bound sw) as Hb. rewrite Hsw in Hb. unfold ret at 1.
    destruct (Z.eqb_spec (msb sw) 0) as [E0|E0].
    + intros H. injection H as <- <-. exists (mkColumn smin sw []), l2. unfold column_bits, inc_width. cbn [co_min co_width co_incs concat].
      rewrite E0. cbn [Z.eqb]. rewrite app_nil_r, <- app_assoc. repeat split; auto. do 2 f_equal. change (blen (@nil bool)) with 0. lia.
    + unfold bind at 1. destruct (replicateM _ _ _) as [r3 [vs|err0|pa|]] eqn:E3; try discriminate.
      apply (missing_reads pl (msb sw) (fun _ => throw PType)) in E3; [|lia|intros x; apply (Bad x)]. destruct E3 as (segs & rest & -> & Hl & Hf & Hm & -> & ->).
      intros H. injection H as <- <-. exists (mkColumn smin sw segs), rest. unfold column_bits, inc_width. cbn [co_min co_width co_incs].
      assert (msb sw =? 0 = false) as -> by lia. rewrite <- !app_assoc. repeat split; auto; [unfold blen; lia|].
      rewrite (blen_concat _ _ Hf). unfold blen. rewrite Hl. reflexivity.
  - intros (col & rest & -> & (Hmin & Hsw & Hrest) & -> & ->). destruct col as [smin sw segs].
    unfold column_bits, inc_width in *. cbn [co_min co_width co_incs] in *.
    pose proof (msb_bound sw) as Hb. rewrite Hsw in Hb. rewrite <- !app_assoc. rewrite rd_int by exact Hmin.
    assert (E2 : readNbitsDiff pl (RBit (mkBR (sw ++ concat segs ++ rest) e (p + pi_nbits info))) =
       (RBit (mkBR (concat segs ++ rest) e (p + pi_nbits info + 6)), Ok (msb sw))) by (apply nbitsDiff_reads; eauto 10).
    rewrite E2. unfold ret at 1. destruct (Z.eqb_spec (msb sw) 0) as [E0|E0].
    + subst segs. unfold ret. cbn [concat app]. rewrite E0. change (blen (@nil bool)) with 0. do 3 f_equal. lia.
    + destruct Hrest as (Hl & Hfa & Hm). unfold bind at 1.
      assert (E3 : replicateM (Z.to_nat n) (d <- r_ReadUint pl (msb sw) ;; if IsMissing (VUint d) (msb sw) then ret VNil else throw PType)%M (RBit (mkBR (concat segs ++ rest) e (p + pi_nbits info + 6))) =
        (RBit (mkBR rest e (p + pi_nbits info + 6 + Z.of_nat (Z.to_nat n) * msb sw)), Ok (repeat VNil (Z.to_nat n)))).
      { apply (missing_reads pl (msb sw) (fun _ => throw PType)); [lia|intros x; apply (Bad x)|]. exists segs, rest. repeat split; auto. unfold blen in Hl. lia. }
      rewrite E3. unfold ret. rewrite (blen_concat _ _ Hfa). do 3 f_equal. unfold blen in *. rewrite Hl. lia.
Qed.
Lemma local_iff pl fuel n info l e p r u : 0 <= n -> 0 <= pi_nbits info -> pi_unit info = BINARY ->
  compressed_Unpack pl fuel n info (RBit (mkBR l e p)) = (r, Ok u) <->
  exists col rest, l = column_bits col ++ rest /\ readable n info col /\
    r = RBit (mkBR rest e (p + pi_nbits info + 6 + blen (concat (co_incs col)))) /\
    u = UC (mkCval (VUint (raw (co_min col))) (inc_width col) (meant n info col)).
Proof.
  intros Hn Hw Hu. unfold compressed_Unpack, readable, meant, column_of. rewrite Hu. unfold c_unpackOthers, make_values. assert (n <? 0 = false) as -> by lia.
  assert (Hh : forall x, unpackBinary fuel info x = NoFuel) by (intros x; unfold unpackBinary; now rewrite NewBinaryFromUint_hangs).
  assert (Bad : forall x (s s' : reader) (v : value), (lift_res (unpackBinary fuel info x) : M reader value) s <> (s', Ok v)) by (intros x s s' v Q; unfold lift_res in Q; rewrite Hh in Q; discriminate Q).
  unfold bind at 1 2 3 4. split.
  - destruct (r_ReadUint pl (pi_nbits info) _) as [r1 [mn|err0|pa|]] eqn:E1; try discriminate.
    apply (uint_reads pl _ Hw) in E1. destruct E1 as (smin & l1 & -> & Hmin & -> & ->).
    destruct (readNbitsDiff pl _) as [r2 [d|err0|pa|]] eqn:E2; try discriminate.
    apply nbitsDiff_reads in E2. destruct E2 as (sw & l2 & -> & Hsw & -> & ->).
    pose proof (msb_bound sw) as Hb. rewrite Hsw in Hb. unfold ret at 1.
    destruct (Z.eqb_spec (msb sw) 0) as [E0|E0].
    + unfold bind at 1, lift_res. rewrite Hh. discriminate.
    + rewrite min_missing by assumption. destruct (missing smin) eqn:Em; [discriminate|].
      unfold bind at 1. destruct (replicateM _ _ _) as [r3 [vs|err0|pa|]] eqn:E3; try discriminate.
      apply (missing_reads pl (msb sw) (fun d => lift_res (unpackBinary fuel info (u64 (raw smin + d))))) in E3; [|lia|intros x; apply Bad]. destruct E3 as (segs & rest & -> & Hl & Hf & Hm & -> & ->).
      intros H. injection H as <- <-. exists (mkColumn smin sw segs), rest. unfold column_bits, inc_width. cbn [co_min co_width co_incs].
      assert (msb sw =? 0 = false) as -> by lia. rewrite <- !app_assoc. repeat split; auto; [unfold blen; lia|].
      rewrite (blen_concat _ _ Hf). unfold blen. rewrite Hl. reflexivity.
  - intros (col & rest & -> & ((Hmin & Hsw & Hrest) & Hi & Hm) & -> & ->). destruct col as [smin sw segs].
    unfold column_bits, inc_width in *. cbn [co_min co_width co_incs] in *.
    pose proof (msb_bound sw) as Hb. rewrite Hsw in Hb. rewrite <- !app_assoc. rewrite rd_uint by lia.
    assert (E2 : readNbitsDiff pl (RBit (mkBR (sw ++ concat segs ++ rest) e (p + pi_nbits info))) =
       (RBit (mkBR (concat segs ++ rest) e (p + pi_nbits info + 6)), Ok (msb sw))) by (apply nbitsDiff_reads; eauto 10).
    rewrite E2. unfold ret at 1. destruct (Z.eqb_spec (msb sw) 0) as [E0|E0]; [contradiction|].
    destruct Hrest as (Hl & Hfa & Hmm). rewrite min_missing, Hmm by assumption. unfold bind at 1.
    assert (E3 : replicateM (Z.to_nat n) (d <- r_ReadUint pl (msb sw) ;; if IsMissing (VUint d) (msb sw) then ret VNil else lift_res (unpackBinary fuel info (u64 (raw smin + d))))%M (RBit (mkBR (concat segs ++ rest) e (p + pi_nbits info + 6))) =
      (RBit (mkBR rest e (p + pi_nbits info + 6 + Z.of_nat (Z.to_nat n) * msb sw)), Ok (repeat VNil (Z.to_nat n)))).
    { apply (missing_reads pl (msb sw) (fun d => lift_res (unpackBinary fuel info (u64 (raw smin + d))))); [lia|intros x; apply Bad|]. exists segs, rest. repeat split; auto. unfold blen in Hl. lia. }
    rewrite E3. unfold ret. rewrite (blen_concat _ _ Hfa). do 3 f_equal. unfold blen in *. rewrite Hl. lia.
Qed.

Lemma column_form cf x seg : cf_json cf = false -> cf_compressed cf = true -> 0 <= cf_nsubsets cf -> ordinary (dt_info x) -> bits_of cf x seg ->
  exists col, seg = column_bits col /\ readable (cf_nsubsets cf) (dt_info x) col /\ dt_vals x = meant (cf_nsubsets cf) (dt_info x) col.
Proof.
  intros Hj Hc Hn Hw H. unfold ordinary in Hw.
  assert (Spec : pi_unit (dt_info x) = CODE \/ pi_unit (dt_info x) = BINARY -> exists col, seg = column_bits col /\ readable (cf_nsubsets cf) (dt_info x) col /\ dt_vals x = meant (cf_nsubsets cf) (dt_info x) col).
  { intros U. destruct (H [] EEof 0) as (p' & HD). inversion HD as [v r0 _ Hc' E|v r0 Hj' E|c r0 _ _ E Ex]; try congruence. clear HD.
    assert (K : exists col rest, seg ++ [] = column_bits col ++ rest /\ readable (cf_nsubsets cf) (dt_info x) col /\ rest = [] /\ cv_vals c = meant (cf_nsubsets cf) (dt_info x) col).
    { destruct U as [U|U]; [apply signed_iff in E|apply local_iff in E]; try assumption; destruct E as (col & rest & Es & Hcol & Er & Ev); injection Er as Er _; injection Ev as ->; exists col, rest; auto. }
    destruct K as (col & rest & Es & Hcol & -> & Ev). rewrite !app_nil_r in Es. exists col. split; [exact Es|]. split; [exact Hcol|]. rewrite <- Ex. exact Ev. }
  unfold readable, meant in *.
  assert (Num : compressed_number (dt_info x) = true -> exists col, seg = column_bits col /\ column_of (pi_nbits (dt_info x)) (cf_nsubsets cf) col /\ dt_vals x = column_values (dt_info x) (cf_nsubsets cf) col)
    by (intros K; now apply (bits_of_column cf)).
  assert (Zero : pi_unit (dt_info x) = NONNEG_CODE \/ pi_unit (dt_info x) = FLAG -> pi_nbits (dt_info x) = 0 -> seg = [] /\ dt_vals x = repeat (VUint 0) (Z.to_nat (cf_nsubsets cf))).
  { intros U Z0. destruct x as [d info mn df vs]. cbn [dt_info dt_vals dt_desc] in *. destruct (H [] EEof 0) as (p' & HD). inversion HD; subst; try congruence.
    match goal with E : compressed_Unpack _ _ _ _ _ = _ |- _ => rename E into EQ end.
    cbn [dt_info] in *. unfold compressed_Unpack, make_values, bind, ret in EQ. replace (cf_nsubsets cf <? 0) with false in EQ by lia.
    destruct U as [U|U]; rewrite U, Z0 in EQ; cbn in EQ; injection EQ as EQ _ <-; rewrite app_nil_r in EQ; now split. }
  unfold compressed_number in Num. destruct (pi_unit (dt_info x)) eqn:U; try (now apply Spec; auto).
  - now apply Num.
  - destruct (H [] EEof 0) as (p' & HD). inversion HD as [v r0 _ Hc' E|v r0 Hj' E|c r0 _ _ E Ex]; try congruence. clear HD.
    apply string_iff in E; [|assumption..]. destruct E as (col & rest & Es & Hcol & Er & Ev). injection Er as Er _. subst rest. rewrite !app_nil_r in Es.
    injection Ev as ->. exists col. split; [exact Es|]. split; [|rewrite <- Ex; reflexivity].
    cbn [dt_info] in Hcol. unfold bits_needed in Hcol. rewrite U in Hcol. replace (Z.max 0 (pi_nbits (dt_info x))) with (pi_nbits (dt_info x)) in Hcol by lia. exact Hcol.
  - destruct (Z.eqb_spec (pi_nbits (dt_info x)) 0) as [Z0|]; [|now apply Num]. destruct (Zero (or_introl eq_refl) Z0) as [-> ->]. now exists (mkColumn [] [] []).
  - destruct (Z.eqb_spec (pi_nbits (dt_info x)) 0) as [Z0|]; [|now apply Num]. destruct (Zero (or_intror eq_refl) Z0) as [-> ->]. now exists (mkColumn [] [] []).
Qed.
Lemma column_back cf d info col : cf_json cf = false -> cf_compressed cf = true -> 0 <= cf_nsubsets cf -> ordinary info -> readable (cf_nsubsets cf) info col ->
  seg_ok cf (planned d info (meant (cf_nsubsets cf) info col)) (column_bits col).
Proof.
  intros Hj Hc Hn Hw H. unfold ordinary in Hw.
  assert (Spec : pi_unit info = CODE \/ pi_unit info = BINARY -> seg_ok cf (planned d info (meant (cf_nsubsets cf) info col)) (column_bits col)).
  { intros U. exists (mkDatum d info (match pi_unit info with CODE => VInt (signed (co_min col)) | _ => VUint (raw (co_min col)) end) (inc_width col) (meant (cf_nsubsets cf) info col)). split; [reflexivity|].
    intros rest e p. eexists. cbn [dt_desc dt_info].
    apply (dec_column cf d info _ (mkCval (match pi_unit info with CODE => VInt (signed (co_min col)) | _ => VUint (raw (co_min col)) end) (inc_width col) (meant (cf_nsubsets cf) info col))); [assumption..|].
    destruct U as [U|U]; [apply signed_iff|apply local_iff]; try assumption; exists col, rest; rewrite U; auto. }
  unfold readable, meant in *.
  assert (Num : compressed_number info = true -> column_of (pi_nbits info) (cf_nsubsets cf) col -> seg_ok cf (planned d info (column_values info (cf_nsubsets cf) col)) (column_bits col)).
  { intros K Hcol. exists (mkDatum d info (VUint (raw (co_min col))) (inc_width col) (column_values info (cf_nsubsets cf) col)). split; [reflexivity|].
    intros rest e p. exists (p + blen (column_bits col)). cbn [dt_desc dt_info].
    apply (dec_column cf d info _ (mkCval (VUint (raw (co_min col))) (inc_width col) (column_values info (cf_nsubsets cf) col))); [assumption..|].
    apply compressed_iff; [assumption..|]. exists col, rest. auto. }
  assert (Zero : pi_unit info = NONNEG_CODE \/ pi_unit info = FLAG -> pi_nbits info = 0 -> seg_ok cf (planned d info (repeat (VUint 0) (Z.to_nat (cf_nsubsets cf)))) []).
  { intros U Z0. exists (mkDatum d info (VUint 0) 0 (repeat (VUint 0) (Z.to_nat (cf_nsubsets cf)))). split; [reflexivity|].
    intros rest e p. exists p. cbn [dt_desc dt_info app].
    apply (dec_column cf d info _ (mkCval (VUint 0) 0 (repeat (VUint 0) (Z.to_nat (cf_nsubsets cf))))); [assumption..|].
    unfold compressed_Unpack, make_values, bind, ret. replace (cf_nsubsets cf <? 0) with false by lia. destruct U as [U|U]; rewrite U, Z0; reflexivity. }
  unfold compressed_number in Num. destruct (pi_unit info) eqn:U; try (now apply Spec; auto).
  - now apply Num.
  - exists (mkDatum d info (string_of (co_min col)) (inc_width col) (string_values (cf_nsubsets cf) col)). split; [reflexivity|].
    intros rest e p. exists (p + blen (column_bits col)). cbn [dt_desc dt_info].
    apply (dec_column cf d info _ (mkCval (string_of (co_min col)) (inc_width col) (string_values (cf_nsubsets cf) col))); [assumption..|].
    apply string_iff; [assumption..|]. exists col, rest. split; [reflexivity|]. split; [|auto].
    unfold bits_needed. rewrite U. replace (Z.max 0 (pi_nbits info)) with (pi_nbits info) by lia. exact H.
  - destruct (Z.eqb_spec (pi_nbits info) 0) as [Z0|]; [|now apply Num]. subst col. now apply Zero; auto.
  - destruct (Z.eqb_spec (pi_nbits info) 0) as [Z0|]; [|now apply Num]. subst col. now apply Zero; auto.
Qed.
Lemma meant_length n info c : ordinary info -> readable n info c -> length (meant n info c) = Z.to_nat n.
Proof.
  intros _ H. unfold readable, meant in *.
  assert (Num : column_of (pi_nbits info) n c -> length (column_values info n c) = Z.to_nat n).
  { intros (_ & _ & K). unfold column_values. destruct (inc_width c =? 0); [now rewrite repeat_length|]. destruct K as (K & _). rewrite map_length. unfold blen in K. lia. }
  destruct (pi_unit info); try apply repeat_length; auto.
  - destruct H as (_ & _ & K). unfold string_values. destruct (inc_width c =? 0); [now rewrite repeat_length|]. destruct K as (K & _). rewrite map_length. unfold blen in K. lia.
  - destruct (pi_nbits info =? 0); [now rewrite repeat_length|auto].
  - destruct (pi_nbits info =? 0); [now rewrite repeat_length|auto].
Qed.

Definition says_vals n : pinfo -> column -> list value := fun info c => meant n info c.
Lemma shown_rows n its h pay : Forall (fun it => ordinary (snd (fst it)) /\ readable n (snd (fst it)) (snd it)) its -> Forall2 (is_datum (says_vals n)) its (data h) ->
  length pay = Z.to_nat n -> (forall k sb, nth_error pay k = Some sb -> lane_ok k (data h) (sb_cells sb)) ->
  payload_values pay = map (row n its) (seq 0 (Z.to_nat n)).
Proof.
  intros HF F SL SK. unfold payload_values. apply (nth_ext _ _ [] []); [now rewrite !map_length, seq_length|]. intros k Hk. rewrite map_length in Hk.
  destruct (nth_error pay k) as [sb|] eqn:Ek; [|apply nth_error_None in Ek; lia].
  rewrite (nth_error_nth (map _ pay) k [] (map_nth_error _ _ _ Ek)).
  assert (Eq : nth_error (seq 0 (Z.to_nat n)) k = Some k) by (rewrite (nth_error_nth' _ 0%nat), seq_nth by (rewrite ?seq_length; lia); f_equal; lia).
  rewrite (nth_error_nth (map _ (seq _ _)) k [] (map_nth_error _ _ _ Eq)).
  destruct (is_datum_values (says_vals n) (fun it => nth k (meant n (snd (fst it)) (snd it)) VNil) k its (data h) F) as [V1 V2].
  { eapply Forall_impl; [|exact HF]. intros it [O R]. cbv beta. unfold says_vals. apply nth_error_nth'. rewrite meant_length by assumption. lia. }
  rewrite (lane_values _ _ _ _ (SK k sb Ek) V1), V2. apply combine_map2.
Qed.

Theorem filled_decodes g ids ms cf its rest e p : parsed g ids ms -> cf_json cf = false -> cf_compressed cf = true ->
  0 < cf_nsubsets cf -> filled cf ms its ->
  exists s p', run_payload cf (root ms) (vst0 (RBit (mkBR (flat_map (fun it => column_bits (snd it)) its ++ rest) e p))) = (s, Ok tt) /\
    v_r s = RBit (mkBR rest e p') /\ payload_values (v_pay s) = map (row (cf_nsubsets cf) its) (seq 0 (Z.to_nat (cf_nsubsets cf))).
Proof.
  intros HP Hj Hc Hn [(h & L & D) F]. assert (HC : columns cf = true) by (unfold columns; now rewrite Hc, Hj).
  destruct (lays_list_runs cf ms [] h L) as (news & Dn & K). cbn [data app] in Dn. rewrite Dn in D. subst news.
  assert (SO : Forall2 (seg_ok cf) (map (fun it : placed column => planned (fst (fst it)) (snd (fst it)) (meant (cf_nsubsets cf) (snd (fst it)) (snd it))) its) (map (fun it => column_bits (snd it)) its)).
  { clear - F Hj Hc Hn. induction F as [|[[d info] c] its [O R] _ IH]; cbn [map]; constructor; [|exact IH]. cbn [fst snd] in *. apply column_back; auto; lia. }
  destruct (K [] (map (fun it => column_bits (snd it)) its) rest e p eq_refl SO) as (h' & p' & R & E). rewrite <- flat_map_concat_map in R.
  assert (FD : Forall2 (is_datum (says_vals (cf_nsubsets cf))) its (data h')) by (apply strip_is_datum; rewrite <- data_strip, E; exact Dn).
  destruct (run_payload_complete cf ms (RBit (mkBR (flat_map (fun it => column_bits (snd it)) its ++ rest) e p)) [h'] (RBit (mkBR rest e p'))) as (s & Es & Er & S).
  { eapply parsed_no_base; eassumption. } { intros _. exact Hn. }
  { unfold executes. rewrite HC. exists h'. auto. }
  exists s, p'. split; [exact Es|]. split; [exact Er|]. unfold shows in S. rewrite HC in S. destruct S as (h2 & Eh & SL & SK). injection Eh as <-.
  now apply (shown_rows (cf_nsubsets cf) its h' (v_pay s)).
Qed.

Lemma always_zero' cf : cf_json cf = false -> cf_compressed cf = true -> 0 < cf_nsubsets cf -> forall r r', ~ unreadable cf (plain_info NONNEG_CODE 0) r r'.
Proof. intros Hj Hc Hn r r' [e H]. rewrite Hj, Hc in H. unfold compressed_Unpack, make_values, bind, ret in H. cbn in H. replace (cf_nsubsets cf <? 0) with false in H by lia. discriminate. Qed.

(** Columns never hold the nil value of a truncated local field. *)
Lemma others_no_nil pl n info f r r' c : (forall x, f x <> Ok (VBin None)) -> c_unpackOthers pl n info f r = (r', Ok c) -> Forall (fun v => v <> VBin None) (cv_vals c).
Proof.
  unfold c_unpackOthers. intros Hf H. binv H. binv H. binv H. destruct (a0 =? 0).
  - binv H. injection H as _ <-. cbn [cv_vals]. apply Forall_forall. intros v Hv. apply repeat_spec in Hv. subst v. unfold lift_res in *. intros ->.
    match goal with E : _ = (_, Ok (VBin None)) |- _ => revert E end. pose proof (Hf a) as K. destruct (f a); unfold ret; try discriminate. intros Q. injection Q as _ ->. now apply K.
  - destruct (IsMissing _ _); [discriminate|]. binv H. injection H as _ <-. cbn [cv_vals]. eapply replicateM_all; [|eassumption].
    intros st1 st2 v Q. binv Q. destruct (IsMissing _ _); [injection Q as _ <-; discriminate|]. intros ->. unfold lift_res in Q.
    match type of Q with context [f ?y] => pose proof (Hf y) as K; destruct (f y) end; unfold ret in Q; try discriminate Q. injection Q as _ ->. now apply K.
Qed.
Lemma column_no_nil pl fuel n info r r' c : compressed_Unpack pl fuel n info r = (r', Ok (UC c)) -> Forall (fun v => v <> VBin None) (cv_vals c).
Proof.
  unfold compressed_Unpack. intros H. binv H. injection H as _ <-.
  assert (M : forall x, Ok (unpackMissing info x) <> Ok (VBin None)) by (intros x; unfold unpackMissing; destruct (IsMissing _ _); discriminate).
  destruct (pi_unit info).
  - eapply others_no_nil; [|eassumption]. intros x. unfold unpackNumeric. destruct (unpackMissing info x); discriminate.
  - revert E. unfold c_unpackString. intros E. binv E. binv E. binv E. destruct (_ =? 0).
    + injection E as _ <-. cbn [cv_vals]. apply Forall_forall. intros v Hv. apply repeat_spec in Hv. now subst v.
    + destruct (negb _); [discriminate|]. binv E. injection E as _ <-. cbn [cv_vals]. eapply replicateM_all; [|eassumption]. intros st1 st2 v Q. binv Q. injection Q as _ <-. discriminate.
  - destruct (pi_nbits info =? 0); [|eapply others_no_nil; [|eassumption]; exact M]. binv E. injection E as _ <-. cbn [cv_vals]. apply Forall_forall. intros v Hv. apply repeat_spec in Hv. now subst v.
  - revert E. unfold c_unpackCode. intros E. binv E. binv E. binv E. destruct (_ =? 0).
    + injection E as _ <-. cbn [cv_vals]. apply Forall_forall. intros v Hv. apply repeat_spec in Hv. now subst v.
    + binv E. injection E as _ <-. cbn [cv_vals]. eapply replicateM_all; [|eassumption]. intros st1 st2 v Q. binv Q. destruct (IsMissing _ _); [injection Q as _ <-; discriminate|discriminate].
  - destruct (pi_nbits info =? 0); [|eapply others_no_nil; [|eassumption]; exact M]. binv E. injection E as _ <-. cbn [cv_vals]. apply Forall_forall. intros v Hv. apply repeat_spec in Hv. now subst v.
  - eapply others_no_nil; [|eassumption]. intros x. unfold unpackBinary. destruct (NewBinaryFromUint _ _ _); discriminate.
Qed.

Lemma lane_infos k ds cells (Q : pinfo -> Prop) : lane_ok k ds cells -> (forall c, In c cells -> Q (vn_info (c_node c))) -> Forall (fun x => Q (dt_info x)) ds.
Proof.
  intros [HL HI] H. apply Forall_forall. intros x Hx. apply In_nth_error in Hx. destruct Hx as [i Hx].
  destruct (nth_error cells i) as [c|] eqn:Ec; [|apply nth_error_None in Ec; assert (nth_error ds i <> None) as Hn by congruence; apply nth_error_Some in Hn; lia].
  destruct (HI i x c Hx Ec) as (_ & K & _). rewrite <- K. apply H. eapply nth_error_In; eassumption.
Qed.

Theorem decoded_filled g ids ms cf r l s : parsed g ids ms -> cf_json cf = false -> cf_compressed cf = true -> 0 < cf_nsubsets cf -> binary_reader r l ->
  run_payload cf (root ms) (vst0 r) = (s, Ok tt) ->
  (forall sb c, In sb (v_pay s) -> In c (sb_cells sb) -> ordinary (vn_info (c_node c))) ->
  exists its rest, filled cf ms its /\ l = flat_map (fun it => column_bits (snd it)) its ++ rest /\ binary_reader (v_r s) rest /\
    payload_values (v_pay s) = map (row (cf_nsubsets cf) its) (seq 0 (Z.to_nat (cf_nsubsets cf))).
Proof.
  intros HP Hj Hc Hn Hl H HO. assert (HS : some_subset cf) by (intros _; exact Hn). assert (HC : columns cf = true) by (unfold columns; now rewrite Hc, Hj).
  assert (HN : forall sb c, In sb (v_pay s) -> In c (sb_cells sb) -> c_val c <> VBin None).
  { intros sb c Hi Hk. apply In_nth_error in Hi. destruct Hi as [k Hi]. apply In_nth_error in Hk. destruct Hk as [i Hk].
    destruct (cell_decoded cf ms r s (parsed_no_base _ _ _ HP) HS H k sb i c Hi Hk) as (_ & x & r1 & r2 & D & V). inversion D; subst; try congruence.
    match goal with E : compressed_Unpack _ _ _ _ _ = _ |- _ => apply column_no_nil in E; rewrite Forall_forall in E; apply E end. eapply nth_error_In; exact V. }
  destruct (payload_segments cf ms r l s Hj (parsed_no_base _ _ _ HP) HS Hl H HN) as (hs & segs & rest & HX & HH & El & Hb & H2).
  unfold executes in HX. unfold shows in HH. rewrite HC in HX, HH. destruct HX as (h & -> & HR). destruct HH as (h2 & Eh & SL & SK). injection Eh as <-.
  inversion H2 as [|? ss ? segs' HB HE]; subst. inversion HE; subst. cbn [map concat] in *. rewrite app_nil_r in *.
  assert (L : lays_list cf [] ms (strips h)) by (apply (runs_list_lays cf (fun _ => always_zero' cf Hj Hc Hn)) in HR; exact HR).
  assert (HF : Forall (fun x => ordinary (dt_info x)) (data h)).
  { destruct (v_pay s) as [|sb pay] eqn:Ep; [cbn in SL; lia|]. eapply lane_infos; [apply (SK 0%nat sb); reflexivity|]. intros c Hi. apply (HO sb c); [now left|exact Hi]. }
  assert (K : exists its : list (placed column), map strip (data h) = map (fun it => planned (fst (fst it)) (snd (fst it)) (meant (cf_nsubsets cf) (snd (fst it)) (snd it))) its /\
    Forall (fun it => ordinary (snd (fst it)) /\ readable (cf_nsubsets cf) (snd (fst it)) (snd it)) its /\ concat ss = flat_map (fun it => column_bits (snd it)) its).
  { clear - HB HF Hj Hc Hn. induction HB as [|x seg xs ss HB _ IH]; [exists []; repeat split; constructor|]. inversion HF; subst.
    destruct (IH ltac:(assumption)) as (its & I1 & I2 & I3). destruct (column_form cf x seg Hj Hc ltac:(lia) ltac:(assumption) HB) as (col & Es & R & V).
    exists ((dt_desc x, dt_info x, col) :: its). cbn [map fst snd concat flat_map]. rewrite I1, I3, Es. split; [f_equal; unfold strip, planned; now rewrite V|]. split; [constructor; auto|reflexivity]. }
  destruct K as (its & K1 & K2 & K3). exists its, rest. split; [split; [|exact K2]; exists (strips h); split; [exact L|now rewrite data_strip]|].
  split; [now rewrite K3|]. split; [exact Hb|]. apply (shown_rows _ its h); [exact K2| |exact SL|exact SK]. now apply strip_is_datum.
Qed.
