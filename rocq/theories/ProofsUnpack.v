(** Lemmas on the unpackers. *)
From Coq Require Import ZifyBool ZifyNat.
From Verif Require Export SpecUnpack ProofsBits ProofsBitProps ProofsBinary ProofsBase.
Ltac Zify.zify_post_hook ::= Z.div_mod_to_equations.

Lemma all_ones_msb seg : all_ones seg = (msb seg =? 2 ^ blen seg - 1).
Proof.
  induction seg as [|b seg IH]; [reflexivity|]. cbn [all_ones forallb]. fold (all_ones seg). rewrite IH, msb_cons, blen_cons.
  rewrite Z.pow_add_r, Z.pow_1_r by (auto; lia). pose proof (msb_bound seg). destruct b; cbn [andb b2z]; lia.
Qed.
Lemma raw_small seg : blen seg <= 64 -> raw seg = msb seg.
Proof.
  intros H. unfold raw. apply Z.mod_small. pose proof (msb_bound seg).
  assert (2 ^ blen seg <= 2 ^ 64) by (apply Z.pow_le_mono_r; lia). lia.
Qed.
Lemma raw_nonneg seg : 0 <= raw seg < 2 ^ 64. Proof. apply Z.mod_pos_bound. lia. Qed.
(** The code's missing test on a number read from [seg]. *)
Lemma IsMissing_seg seg n : blen seg = Z.max 0 n -> IsMissing (VUint (raw seg)) n = missing seg.
Proof.
  intros H. unfold IsMissing, missing, MISSING_VALUE_OF_NBITS.
  destruct (Z.leb_spec 2 (blen seg)).
  - assert (1 <? n = true) as -> by lia. assert (blen seg = n) as H' by lia. cbn [andb]. rewrite H'.
    assert (1 <=? n = true) as -> by lia. cbn [andb].
    destruct (Z.leb_spec n 64); [|reflexivity].
    rewrite all_ones_msb, raw_small, H' by lia. reflexivity.
  - assert (1 <? n = false) as -> by lia. reflexivity.
Qed.
Lemma unpackMissing_seg info seg : blen seg = Z.max 0 (pi_nbits info) ->
  unpackMissing info (raw seg) = if missing seg then VNil else VUint (raw seg).
Proof. intros H. unfold unpackMissing. now rewrite IsMissing_seg. Qed.
Lemma unpackNumeric_eq info x : unpackNumeric info x =
  if IsMissing (VUint x) (pi_nbits info) then VNil else VFloat (scaled (pi_refval info) (pi_scale info) x).
Proof.
  unfold unpackNumeric, unpackMissing. destruct (IsMissing _ _); [reflexivity|]. cbv zeta.
  unfold scaled. destruct (f64_nonzero (pi_refval info)), (pi_scale info =? 0); reflexivity.
Qed.
Lemma IsMissing_number info n : IsMissing (VUint n) (pi_nbits info) =
  (2 <=? pi_nbits info) && (n =? (if pi_nbits info <=? 64 then 2 ^ pi_nbits info - 1 else 0)).
Proof.
  unfold IsMissing, MISSING_VALUE_OF_NBITS. destruct (Z.ltb_spec 1 (pi_nbits info)).
  - assert (2 <=? pi_nbits info = true) as -> by lia. assert (1 <=? pi_nbits info = true) as -> by lia. reflexivity.
  - assert (2 <=? pi_nbits info = false) as -> by lia. reflexivity.
Qed.
Lemma numeric_number info n : pi_unit info = NUMERIC -> unpackNumeric info n = number_or_nil info n.
Proof. intros H. rewrite unpackNumeric_eq, IsMissing_number. unfold number_or_nil, value_of_number. now rewrite H. Qed.
Lemma code_number info n : pi_unit info = NONNEG_CODE \/ pi_unit info = FLAG -> unpackMissing info n = number_or_nil info n.
Proof.
  intros H. unfold unpackMissing. rewrite IsMissing_number. unfold number_or_nil, value_of_number.
  now destruct H as [-> | ->].
Qed.

(** ** Reading through the interface *)
Lemma u64_raw seg : u64 (msb seg) = raw seg. Proof. reflexivity. Qed.
Lemma rd_uint pl n seg rest e p : blen seg = Z.max 0 n ->
  r_ReadUint pl n (RBit (mkBR (seg ++ rest) e p)) = (RBit (mkBR rest e (p + n)), Ok (raw seg)).
Proof.
  intros H. unfold r_ReadUint, on_reader. destruct (Z.leb_spec 0 n) as [Hn|Hn].
  - rewrite br_ReadUint_ok by lia. reflexivity.
  - assert (seg = []) as -> by (apply blen_0; lia).
    unfold br_ReadUint, bind, br_add_pos, modify, br_lib, lib_read_bits.
    assert (n <=? 0 = true) as -> by lia. reflexivity.
Qed.
Lemma rd_uint_short pl n l e p : blen l < n ->
  exists l', r_ReadUint pl n (RBit (mkBR l e p)) = (RBit (mkBR l' e (p + n)), Err e) /\ suffix l' l.
Proof.
  intros H. destruct (br_ReadUint_short e p n l H) as (l' & E & Hs). exists l'.
  unfold r_ReadUint, on_reader. now rewrite E.
Qed.
Lemma rd_bytes n seg rest e p : 0 <= n -> blen seg = 8 * n ->
  r_ReadBytes n (RBit (mkBR (seg ++ rest) e p)) = (RBit (mkBR rest e (p + 8 * n)), Ok (map msb (chunks8 seg))).
Proof. intros Hn H. unfold r_ReadBytes, on_reader. now rewrite br_ReadBytes_ok. Qed.
Lemma rd_bytes_short n l e p : 0 <= n -> blen l < 8 * n ->
  exists l', r_ReadBytes n (RBit (mkBR l e p)) = (RBit (mkBR l' e (p + 8 * n)), Err e) /\ suffix l' l.
Proof.
  intros Hn H. destruct (br_ReadBytes_short e p n l Hn H) as (l' & E & Hs). exists l'.
  unfold r_ReadBytes, on_reader. now rewrite E.
Qed.
Lemma rd_int pl n seg rest e p : blen seg = Z.max 1 n ->
  r_ReadInt pl n (RBit (mkBR (seg ++ rest) e p)) = (RBit (mkBR rest e (p + n)), Ok (signed seg)).
Proof.
  intros H. destruct seg as [|b seg]; [cbn in H; lia|]. unfold r_ReadInt, on_reader.
  destruct (Z.leb_spec 1 n) as [Hn|Hn].
  - pose proof (br_ReadInt_ok e p n b seg rest ltac:(lia) ltac:(lia)) as E.
    rewrite <- app_comm_cons. rewrite E. unfold signed. cbn [hd tl]. reflexivity.
  - assert (seg = []) as -> by (apply blen_0; rewrite blen_cons in H; lia).
    unfold br_ReadInt, br_ReadBool, bind, br_add_pos, modify, br_lib, lib_read_bits, lib_read_bit. cbn [app br_bits br_err br_pos].
    assert (n - 1 <=? 0 = true) as -> by lia. unfold ret. cbn [br_bits br_err br_pos].
    replace (p + 1 + (n - 1)) with (p + n) by lia. unfold signed. cbn [hd tl]. now destruct b.
Qed.
Lemma rd_int_short pl n l e p : blen l < Z.max 1 n ->
  exists l' p', r_ReadInt pl n (RBit (mkBR l e p)) = (RBit (mkBR l' e p'), Err e) /\ suffix l' l.
Proof.
  intros H. unfold r_ReadInt, on_reader. destruct (Z.leb_spec 1 n) as [Hn|Hn].
  - destruct (br_ReadInt_short e p n l Hn) as (l' & p' & E & Hs & _); [lia|]. exists l', p'. now rewrite E.
  - assert (l = []) as -> by (apply blen_0; lia). exists [], (p + 1). split; [reflexivity|apply suffix_refl].
Qed.
Lemma rd_binary n seg rest e p : blen seg = Z.max 0 n ->
  r_ReadBinary n (RBit (mkBR (seg ++ rest) e p)) = (RBit (mkBR rest e (p + n)), Ok (Some (mkBin (map msb (chunks8 seg)) n))).
Proof.
  intros H. unfold r_ReadBinary, on_reader. destruct (Z.leb_spec 0 n) as [Hn|Hn].
  - now rewrite br_ReadBinary_ok by lia.
  - assert (seg = []) as -> by (apply blen_0; lia). unfold br_ReadBinary.
    replace (Z.to_nat ((n + 7) / 8)) with 0%nat by lia. reflexivity.
Qed.
Lemma rd_binary_short n l e p : blen l < n ->
  exists l', r_ReadBinary n (RBit (mkBR l e p)) = (RBit (mkBR l' e (p + n)), Ok None) /\ suffix l' l.
Proof.
  intros H. destruct (br_ReadBinary_short e p n l H) as (l' & E & Hs). exists l'.
  unfold r_ReadBinary, on_reader. now rewrite E.
Qed.

(** ** Uncompressed elements *)
(** By how much the position changes. *)
Definition advance (info : pinfo) : Z :=
  match pi_unit info with STRING => bits_needed info | _ => pi_nbits info end.
Lemma quot_pos n : -8 < n -> go_quot n NBITS_PER_BYTE = Z.max 0 n / 8.
Proof.
  intros H. unfold NBITS_PER_BYTE. destruct (Z.leb_spec 0 n).
  - rewrite Z.quot_div_nonneg by lia. f_equal. lia.
  - replace (Z.max 0 n) with 0 by lia. rewrite <- (Z.opp_involutive n), Z.quot_opp_l by lia.
    rewrite Z.quot_small by lia. reflexivity.
Qed.
Lemma bits_needed_nonneg info : 0 <= bits_needed info.
Proof. unfold bits_needed. destruct (pi_unit info); lia. Qed.
Lemma unpack_whole pl info seg rest e p : blen seg = bits_needed info ->
  (pi_unit info = STRING -> -8 < pi_nbits info) ->
  uncompressed_Unpack pl info (RBit (mkBR (seg ++ rest) e p)) =
  (RBit (mkBR rest e (p + advance info)), Ok (UV (decode_value info seg))).
Proof.
  intros H Hs. unfold uncompressed_Unpack, decode_value, advance, bits_needed in *.
  destruct (pi_unit info) eqn:Hu.
  1: idtac.
  all: unfold bind.
  all: try (rewrite rd_bytes by (rewrite ?quot_pos by auto; lia); rewrite quot_pos by auto; reflexivity).
  all: try (rewrite rd_int by assumption; reflexivity).
  all: try (rewrite rd_binary by assumption; reflexivity).
  - rewrite rd_uint by assumption. rewrite unpackNumeric_eq, IsMissing_seg by assumption.
    unfold value_of_number. rewrite Hu. destruct (missing seg); reflexivity.
  - destruct (Z.eqb_spec (pi_nbits info) 0) as [E|E].
    + rewrite E in *. assert (seg = []) as -> by (apply blen_0; lia). unfold value_of_number. rewrite Hu, Z.add_0_r. reflexivity.
    + rewrite rd_uint by assumption. rewrite unpackMissing_seg by assumption. unfold value_of_number. rewrite Hu.
      destruct (missing seg); reflexivity.
  - destruct (Z.eqb_spec (pi_nbits info) 0) as [E|E].
    + rewrite E in *. assert (seg = []) as -> by (apply blen_0; lia). unfold value_of_number. rewrite Hu, Z.add_0_r. reflexivity.
    + rewrite rd_uint by assumption. rewrite unpackMissing_seg by assumption. unfold value_of_number. rewrite Hu.
      destruct (missing seg); reflexivity.
Qed.
Lemma unpack_short pl info l e p : blen l < bits_needed info ->
  exists l' p', suffix l' l /\
  uncompressed_Unpack pl info (RBit (mkBR l e p)) =
  (RBit (mkBR l' e p'), if match pi_unit info with BINARY => true | _ => false end then Ok (UV (VBin None)) else Err e).
Proof.
  intros H. unfold uncompressed_Unpack, bits_needed in *. pose proof (blen_nonneg l) as Hl.
  destruct (pi_unit info) eqn:Hu; unfold bind; cbv beta iota.
  - destruct (rd_uint_short pl (pi_nbits info) l e p) as (l' & -> & Hs); [lia|eauto].
  - destruct (rd_bytes_short (go_quot (pi_nbits info) NBITS_PER_BYTE) l e p) as (l' & -> & Hs);
      [rewrite quot_pos by lia; lia|rewrite quot_pos by lia; lia|eauto].
  - assert (pi_nbits info =? 0 = false) as -> by lia.
    destruct (rd_uint_short pl (pi_nbits info) l e p) as (l' & -> & Hs); [lia|eauto].
  - destruct (rd_int_short pl (pi_nbits info) l e p H) as (l' & p' & -> & Hs). eauto.
  - assert (pi_nbits info =? 0 = false) as -> by lia.
    destruct (rd_uint_short pl (pi_nbits info) l e p) as (l' & -> & Hs); [lia|eauto].
  - destruct (rd_binary_short (pi_nbits info) l e p) as (l' & -> & Hs); [lia|]. exists l', (p + pi_nbits info). auto.
Qed.
(** Every stream: a whole element, or the end. *)
Lemma cut_bits (l : list bool) n : 0 <= n -> n <= blen l -> exists seg rest, l = seg ++ rest /\ blen seg = n.
Proof.
  intros H0 H. exists (firstn (Z.to_nat n) l), (skipn (Z.to_nat n) l). rewrite firstn_skipn. split; [reflexivity|].
  rewrite firstn_blen by assumption. lia.
Qed.
Lemma unpack_ok_iff pl info l e p r v : pi_unit info <> BINARY ->
  uncompressed_Unpack pl info (RBit (mkBR l e p)) = (r, Ok (UV v)) <->
  exists seg rest, l = seg ++ rest /\ blen seg = bits_needed info /\
    (pi_unit info = STRING -> -8 < pi_nbits info) /\
    r = RBit (mkBR rest e (p + advance info)) /\ v = decode_value info seg.
Proof.
  intros Hb. split.
  - intros H. destruct (Z.le_gt_cases (bits_needed info) (blen l)) as [Hle|Hgt].
    + destruct (cut_bits l (bits_needed info) (bits_needed_nonneg info) Hle) as (seg & rest & -> & Hseg).
      assert (Hs : pi_unit info = STRING -> -8 < pi_nbits info).
      { intros Hu. destruct (Z.ltb_spec (-8) (pi_nbits info)) as [|Hn]; [assumption|exfalso].
        unfold uncompressed_Unpack in H. rewrite Hu in H. unfold bind, r_ReadBytes, on_reader, br_ReadBytes, bind in H.
        unfold br_add_pos, modify in H. unfold NBITS_PER_BYTE in H. assert (go_quot (pi_nbits info) 8 <? 0 = true) as E.
        { rewrite <- (Z.opp_involutive (pi_nbits info)), Z.quot_opp_l, Z.quot_div_nonneg by lia. lia. }
        rewrite E in H. unfold throw in H. discriminate. }
      rewrite (unpack_whole pl info seg rest e p Hseg Hs) in H. injection H as <- <-. exists seg, rest. auto.
    + destruct (unpack_short pl info l e p Hgt) as (l' & p' & _ & E). rewrite E in H.
      destruct (pi_unit info); try discriminate. congruence.
  - intros (seg & rest & -> & Hseg & Hs & -> & ->). now apply unpack_whole.
Qed.

(** ** Compressed elements *)
Definition reads_seg {A} (m : M reader A) (w : Z) (f : list bool -> A) : Prop :=
  forall l e p r a, m (RBit (mkBR l e p)) = (r, Ok a) <->
    exists seg rest, l = seg ++ rest /\ blen seg = w /\ r = RBit (mkBR rest e (p + w)) /\ a = f seg.
Lemma uint_reads pl n : 0 <= n -> reads_seg (r_ReadUint pl n) n raw.
Proof.
  intros Hn l e p r a. split.
  - intros H. destruct (Z.le_gt_cases n (blen l)) as [Hle|Hgt].
    + destruct (cut_bits l n Hn Hle) as (seg & rest & -> & Hs). rewrite rd_uint in H by lia.
      injection H as <- <-. eauto 10.
    + destruct (rd_uint_short pl n l e p Hgt) as (l' & E & _). congruence.
  - intros (seg & rest & -> & Hs & -> & ->). apply rd_uint. lia.
Qed.
Lemma bytes_reads n : 0 <= n -> reads_seg (r_ReadBytes n) (8 * n) (fun seg => map msb (chunks8 seg)).
Proof.
  intros Hn l e p r a. split.
  - intros H. destruct (Z.le_gt_cases (8 * n) (blen l)) as [Hle|Hgt].
    + destruct (cut_bits l (8 * n) ltac:(lia) Hle) as (seg & rest & -> & Hs). rewrite rd_bytes in H by lia.
      injection H as <- <-. eauto 10.
    + destruct (rd_bytes_short n l e p Hn Hgt) as (l' & E & _). congruence.
  - intros (seg & rest & -> & Hs & -> & ->). now apply rd_bytes.
Qed.
Lemma then_ret {A B} (m : M reader A) w f (h : A -> B) : reads_seg m w f ->
  reads_seg (x <- m ;; ret (h x))%M w (fun seg => h (f seg)).
Proof.
  intros Hm l e p r b. unfold bind, ret. split.
  - destruct (m (RBit (mkBR l e p))) as [r1 [a|err0|pa|]] eqn:E; try discriminate. intros H. injection H as <- <-.
    apply Hm in E. destruct E as (seg & rest & -> & Hs & -> & ->). eauto 10.
  - intros (seg & rest & -> & Hs & -> & ->).
    assert (E : m (RBit (mkBR (seg ++ rest) e p)) = (RBit (mkBR rest e (p + w)), Ok (f seg))) by (apply Hm; eauto 10).
    now rewrite E.
Qed.
Lemma replicate_reads {A} (m : M reader A) w f n l e p r vs : reads_seg m w f -> 
  replicateM n m (RBit (mkBR l e p)) = (r, Ok vs) <->
  exists segs rest, l = concat segs ++ rest /\ length segs = n /\ Forall (fun s => blen s = w) segs /\
    r = RBit (mkBR rest e (p + Z.of_nat n * w)) /\ vs = map f segs.
Proof.
  intros Hm. revert l p r vs. induction n as [|n IH]; intros l p r vs; cbn [replicateM].
  - split.
    + intros H. injection H as <- <-. exists [], l. rewrite Z.mul_0_l, Z.add_0_r. repeat split; constructor.
    + intros (segs & rest & -> & Hl & _ & -> & ->). destruct segs; [|discriminate].
      rewrite Z.mul_0_l, Z.add_0_r. reflexivity.
  - unfold bind, ret. split.
    + destruct (m (RBit (mkBR l e p))) as [r1 [a|err0|pa|]] eqn:E; try discriminate.
      apply Hm in E. destruct E as (seg & rest & -> & Hs & -> & ->).
      destruct (replicateM n m _) as [r2 [bs|err0|pa|]] eqn:E2; try discriminate. intros H. injection H as <- <-.
      apply IH in E2. destruct E2 as (segs & rest' & -> & Hl & Hf & -> & ->).
      exists (seg :: segs), rest'. cbn [concat map length]. rewrite app_assoc. repeat split; auto.
      do 2 f_equal. lia.
    + intros (segs & rest & -> & Hl & Hf & -> & ->). destruct segs as [|seg segs]; [discriminate|].
      inversion Hf; subst. cbn [concat map length] in *. injection Hl as Hl. rewrite <- app_assoc.
      assert (E : m (RBit (mkBR (seg ++ concat segs ++ rest) e p)) = (RBit (mkBR (concat segs ++ rest) e (p + blen seg)), Ok (f seg)))
        by (apply Hm; eauto 10).
      rewrite E. assert (E2 : replicateM n m (RBit (mkBR (concat segs ++ rest) e (p + blen seg))) =
        (RBit (mkBR rest e (p + blen seg + Z.of_nat n * blen seg)), Ok (map f segs))) by (apply IH; eauto 10).
      rewrite E2. do 3 f_equal. lia.
Qed.
Lemma blen_concat (segs : list (list bool)) w : Forall (fun s => blen s = w) segs -> blen (concat segs) = blen segs * w.
Proof. induction 1 as [|s segs Hs _ IH]; [reflexivity|]. cbn [concat]. rewrite blen_app, blen_cons, IH, Hs. lia. Qed.
Lemma raw6 seg : blen seg = 6 -> i64 (raw seg) = msb seg /\ 0 <= msb seg < 64.
Proof.
  intros H. pose proof (msb_bound seg) as Hb. rewrite H in Hb. rewrite raw_small by lia.
  rewrite i64_small by lia. auto.
Qed.
Lemma nbitsDiff_reads pl : reads_seg (readNbitsDiff pl) 6 msb.
Proof.
  pose proof (then_ret _ _ _ i64 (uint_reads pl 6 ltac:(lia))) as H. intros l e p r a. unfold readNbitsDiff, NBITS_FOR_NBITS_DIFF.
  rewrite (H l e p r a). split; intros (seg & rest & -> & Hs & -> & ->); exists seg, rest; repeat split; auto; [|symmetry]; now apply raw6.
Qed.
Lemma min_missing info seg : 0 <= pi_nbits info -> blen seg = pi_nbits info ->
  IsMissing (VUint (raw seg)) (pi_nbits info) = missing seg.
Proof. intros H H'. apply IsMissing_seg. lia. Qed.
Definition reads_column (n : Z) (c : column) : Z := blen (co_min c) + 6 + (if inc_width c =? 0 then 0 else n * inc_width c).
Lemma others_iff pl n info f l e p r c : 0 <= n -> 0 <= pi_nbits info ->
  (forall x, f x = Ok (number_or_nil info x)) ->
  c_unpackOthers pl n info f (RBit (mkBR l e p)) = (r, Ok c) <->
  exists col rest, l = column_bits col ++ rest /\ column_of (pi_nbits info) n col /\
    r = RBit (mkBR rest e (p + blen (column_bits col))) /\
    c = mkCval (VUint (raw (co_min col))) (inc_width col) (column_values info n col).
Proof.
  intros Hn Hw Hf. unfold c_unpackOthers, bind, make_values.
  assert (n <? 0 = false) as -> by lia. split.
  - destruct (r_ReadUint pl (pi_nbits info) _) as [r1 [mn|err0|pa|]] eqn:E1; try discriminate.
    apply (uint_reads pl _ Hw) in E1. destruct E1 as (smin & l1 & -> & Hmin & -> & ->).
    destruct (readNbitsDiff pl _) as [r2 [d|err0|pa|]] eqn:E2; try discriminate.
    apply nbitsDiff_reads in E2. destruct E2 as (sw & l2 & -> & Hsw & -> & ->).
    pose proof (msb_bound sw) as Hb. rewrite Hsw in Hb. unfold ret at 1.
    destruct (Z.eqb_spec (msb sw) 0) as [E0|E0].
    + unfold lift_res. rewrite Hf. intros H. injection H as <- <-.
      exists (mkColumn smin sw []), l2. unfold column_bits, column_of, column_values, inc_width. cbn [co_min co_width co_incs concat].
      rewrite E0. cbn [Z.eqb]. rewrite app_nil_r, <- app_assoc, blen_app. repeat split; auto.
      rewrite Hmin, Hsw. do 2 f_equal. lia.
    + rewrite min_missing by assumption. destruct (missing smin) eqn:Em; [discriminate|].
      match goal with |- context [replicateM _ ?m] => set (step := m) end.
      assert (Hstep : reads_seg step (msb sw) (fun seg => if missing seg then VNil else number_or_nil info ((raw smin + raw seg) mod 2 ^ 64))).
      { intros l' e' p' r' a'. unfold step. split.
        - destruct (r_ReadUint pl (msb sw) _) as [r3 [x|err0|pa|]] eqn:E3; try discriminate.
          apply uint_reads in E3; [|lia]. destruct E3 as (seg & rest & -> & Hs & -> & ->).
          rewrite IsMissing_seg by lia. unfold lift_res, ret. rewrite Hf. intros H.
          exists seg, rest. destruct (missing seg); injection H as <- <-; auto.
        - intros (seg & rest & -> & Hs & -> & ->). rewrite rd_uint by lia. rewrite IsMissing_seg by lia.
          unfold lift_res, ret. rewrite Hf. now destruct (missing seg). }
      destruct (replicateM (Z.to_nat n) step _) as [r3 [vs|err0|pa|]] eqn:E3; try discriminate.
      apply (replicate_reads _ _ _ _ _ _ _ _ _ Hstep) in E3. destruct E3 as (segs & rest & -> & Hl & Hfa & -> & ->).
      intros H. injection H as <- <-. exists (mkColumn smin sw segs), rest.
      unfold column_bits, column_of, column_values, inc_width. cbn [co_min co_width co_incs].
      assert (msb sw =? 0 = false) as -> by lia. rewrite <- !app_assoc, !blen_app.
      assert (Hc : blen (concat segs) = Z.of_nat (Z.to_nat n) * msb sw).
      { rewrite (blen_concat _ _ Hfa). unfold blen. now rewrite Hl. }
      repeat split; auto; [unfold blen; lia|]. rewrite Hmin, Hsw, Hc. do 2 f_equal. lia.
  - intros (col & rest & -> & (Hmin & Hsw & Hrest) & -> & ->). destruct col as [smin sw segs].
    unfold column_bits, column_values, inc_width in *. cbn [co_min co_width co_incs] in *.
    pose proof (msb_bound sw) as Hb. rewrite Hsw in Hb. rewrite <- !app_assoc.
    rewrite rd_uint by lia.
    assert (E2 : readNbitsDiff pl (RBit (mkBR (sw ++ concat segs ++ rest) e (p + pi_nbits info))) =
       (RBit (mkBR (concat segs ++ rest) e (p + pi_nbits info + 6)), Ok (msb sw))) by (apply nbitsDiff_reads; eauto 10).
    rewrite E2. unfold ret at 1. rewrite !blen_app.
    destruct (Z.eqb_spec (msb sw) 0) as [E0|E0].
    + subst segs. unfold lift_res. rewrite Hf. unfold ret. cbn [concat app]. rewrite E0, Hmin, Hsw. change (blen (@nil bool)) with 0.
      do 3 f_equal. lia.
    + destruct Hrest as (Hl & Hfa & Hm). rewrite min_missing, Hm by assumption.
      match goal with |- context [replicateM _ ?m] => set (step := m) end.
      assert (Hstep : reads_seg step (msb sw) (fun seg => if missing seg then VNil else number_or_nil info ((raw smin + raw seg) mod 2 ^ 64))).
      { intros l' e' p' r' a'. unfold step. split.
        - destruct (r_ReadUint pl (msb sw) _) as [r3 [x|err0|pa|]] eqn:E3; try discriminate.
          apply uint_reads in E3; [|lia]. destruct E3 as (seg & rest' & -> & Hs & -> & ->).
          rewrite IsMissing_seg by lia. unfold lift_res, ret. rewrite Hf. intros H.
          exists seg, rest'. destruct (missing seg); injection H as <- <-; auto.
        - intros (seg & rest' & -> & Hs & -> & ->). rewrite rd_uint by lia. rewrite IsMissing_seg by lia.
          unfold lift_res, ret. rewrite Hf. now destruct (missing seg). }
      assert (E3 : replicateM (Z.to_nat n) step (RBit (mkBR (concat segs ++ rest) e (p + pi_nbits info + 6))) =
        (RBit (mkBR rest e (p + pi_nbits info + 6 + Z.of_nat (Z.to_nat n) * msb sw)), Ok (map (fun seg => if missing seg then VNil else number_or_nil info ((raw smin + raw seg) mod 2 ^ 64)) segs))).
      { apply (replicate_reads _ _ _ _ _ _ _ _ _ Hstep). exists segs, rest. repeat split; auto. unfold blen in Hl. lia. }
      rewrite E3. unfold ret.
      assert (Hc : blen (concat segs) = Z.of_nat (Z.to_nat n) * msb sw).
      { rewrite (blen_concat _ _ Hfa). unfold blen in *. rewrite Hl. lia. }
      rewrite Hmin, Hsw, Hc. do 3 f_equal. lia.
Qed.
Lemma compressed_iff pl fuel n info l e p r u : 0 <= n -> 0 <= pi_nbits info -> compressed_number info = true ->
  compressed_Unpack pl fuel n info (RBit (mkBR l e p)) = (r, Ok u) <->
  exists col rest, l = column_bits col ++ rest /\ column_of (pi_nbits info) n col /\
    r = RBit (mkBR rest e (p + blen (column_bits col))) /\
    u = UC (mkCval (VUint (raw (co_min col))) (inc_width col) (column_values info n col)).
Proof.
  intros Hn Hw Hc. unfold compressed_Unpack, compressed_number in *.
  assert (Hgen : forall m, (forall c, m (RBit (mkBR l e p)) = (r, Ok c) <-> exists col rest, l = column_bits col ++ rest /\ column_of (pi_nbits info) n col /\
    r = RBit (mkBR rest e (p + blen (column_bits col))) /\
    c = mkCval (VUint (raw (co_min col))) (inc_width col) (column_values info n col)) ->
    (c <- m ;; ret (UC c))%M (RBit (mkBR l e p)) = (r, Ok u) <->
    exists col rest, l = column_bits col ++ rest /\ column_of (pi_nbits info) n col /\
    r = RBit (mkBR rest e (p + blen (column_bits col))) /\
    u = UC (mkCval (VUint (raw (co_min col))) (inc_width col) (column_values info n col))).
  { intros m Hm. unfold bind, ret. split.
    - destruct (m (RBit (mkBR l e p))) as [r1 [c|err0|pa|]] eqn:E; try discriminate. intros H. injection H as -> <-.
      destruct (proj1 (Hm c) eq_refl) as (col & rest & H1 & H2 & H3 & ->). eauto 10.
    - intros (col & rest & H1 & H2 & H3 & ->).
      assert (E : m (RBit (mkBR l e p)) = (r, Ok (mkCval (VUint (raw (co_min col))) (inc_width col) (column_values info n col)))) by (apply Hm; eauto 10).
      now rewrite E. }
  destruct (pi_unit info) eqn:Hu; try discriminate.
  - apply Hgen. intros c. apply others_iff; auto. intros x. now rewrite numeric_number.
  - destruct (pi_nbits info =? 0); [discriminate|]. apply Hgen. intros c. apply others_iff; auto. intros x.
    now rewrite code_number by auto.
  - destruct (pi_nbits info =? 0); [discriminate|]. apply Hgen. intros c. apply others_iff; auto. intros x.
    now rewrite code_number by auto.
Qed.
Lemma compressed_missing_min pl fuel n info mn wd rest e p : 0 <= n -> compressed_number info = true ->
  blen mn = pi_nbits info -> blen wd = 6 -> missing mn = true -> msb wd <> 0 ->
  exists s err0, compressed_Unpack pl fuel n info (RBit (mkBR (mn ++ wd ++ rest) e p)) = (s, Err err0).
Proof.
  intros Hn Hc Hmn Hwd Hm Hd. unfold compressed_Unpack, compressed_number in *.
  assert (Hgen : forall f, exists s err0, bind (c_unpackOthers pl n info f) (fun c => ret (UC c)) (RBit (mkBR (mn ++ wd ++ rest) e p)) = (s, Err err0)).
  { intros f. unfold c_unpackOthers, bind, make_values. pose proof (blen_nonneg mn). rewrite rd_uint by lia.
    assert (E2 : readNbitsDiff pl (RBit (mkBR (wd ++ rest) e (p + pi_nbits info))) =
       (RBit (mkBR rest e (p + pi_nbits info + 6)), Ok (msb wd))) by (apply nbitsDiff_reads; eauto 10).
    rewrite E2. assert (n <? 0 = false) as -> by lia. unfold ret at 1. assert (msb wd =? 0 = false) as -> by lia.
    rewrite min_missing, Hm by lia. unfold fail. eauto. }
  destruct (pi_unit info); try discriminate; [apply Hgen| |]; destruct (pi_nbits info =? 0); try discriminate; apply Hgen.
Qed.

(** ** Strings *)
Lemma zero_bytes seg : forall k, blen seg = 8 * Z.of_nat k ->
  gs_eqb (map msb (chunks8 seg)) (repeat 0 k) = true <-> Forall (fun b => b = false) seg.
Proof.
  induction seg as [|c H|c r H IH] using bits8_ind; intros k Hk.
  - destruct k; [|cbn in Hk; lia]. split; [constructor|reflexivity].
  - exfalso. unfold blen in Hk. lia.
  - rewrite chunks8_cons by assumption. cbn [map]. destruct k as [|k]; [rewrite blen_app in Hk; pose proof (blen_nonneg r); unfold blen in Hk; lia|].
    cbn [repeat gs_eqb]. rewrite blen_app in Hk. unfold blen at 1 in Hk. rewrite Forall_app, andb_true_iff, IH by lia.
    assert (Hz : (msb c =? 0) = true <-> Forall (fun b => b = false) c).
    { clear. rewrite Z.eqb_eq. induction c as [|b c IHc]; [split; [constructor|reflexivity]|]. rewrite msb_cons.
      pose proof (msb_bound c). pose proof (blen_nonneg c). assert (0 < 2 ^ blen c) by (apply Z.pow_pos_nonneg; lia). split.
      - intros E. constructor; [destruct b; cbn [b2z] in *; [lia|reflexivity]|apply IHc; destruct b; cbn [b2z] in *; lia].
      - intros F. inversion F; subst. cbn [b2z]. rewrite (proj2 IHc) by assumption. lia. }
    now rewrite Hz.
Qed.
Lemma string_iff pl fuel n info l e p r u : 0 <= n -> 0 <= pi_nbits info -> pi_unit info = STRING ->
  compressed_Unpack pl fuel n info (RBit (mkBR l e p)) = (r, Ok u) <->
  exists col rest, l = column_bits col ++ rest /\ string_column (bits_needed info) n col /\
    r = RBit (mkBR rest e (p + blen (column_bits col))) /\
    u = UC (mkCval (string_of (co_min col)) (inc_width col) (string_values n col)).
Proof.
  intros Hn Hw Hu. unfold compressed_Unpack, bits_needed. rewrite Hu.
  unfold c_unpackString, bind, make_values. cbv zeta.
  assert (n <? 0 = false) as -> by lia. rewrite quot_pos by lia. set (k := Z.max 0 (pi_nbits info) / 8). assert (Hk : 0 <= k) by lia. split.
  - destruct (r_ReadBytes k _) as [r1 [mn|err0|pa|]] eqn:E1; try discriminate.
    apply (bytes_reads _ Hk) in E1. destruct E1 as (smin & l1 & -> & Hmin & -> & ->).
    destruct (readNbitsDiff pl _) as [r2 [d|err0|pa|]] eqn:E2; try discriminate.
    apply nbitsDiff_reads in E2. destruct E2 as (sw & l2 & -> & Hsw & -> & ->).
    pose proof (msb_bound sw) as Hb. rewrite Hsw in Hb. unfold ret at 1.
    destruct (Z.eqb_spec (msb sw) 0) as [E0|E0].
    + intros H. apply pair_equal_spec in H. destruct H as [<- H]. injection H as <-.
      exists (mkColumn smin sw []), l2. unfold column_bits, string_column, string_values, inc_width. cbn [co_min co_width co_incs concat].
      rewrite E0. cbn [Z.eqb]. rewrite app_nil_r, <- app_assoc, blen_app. repeat split; auto.
      rewrite Hmin, Hsw. do 2 f_equal. lia.
    + destruct (gs_eqb _ _) eqn:Em; [|discriminate]. cbn [negb].
      apply zero_bytes in Em; [|lia].
      assert (Hstep : reads_seg (b <- r_ReadBytes (msb sw) ;; ret (VBytes b))%M (8 * msb sw) string_of)
        by (apply then_ret with (f := fun seg => map msb (chunks8 seg)) (h := VBytes), bytes_reads; lia).
      match goal with |- context [replicateM ?k ?m ?s] => destruct (replicateM k m s) as [r3 [vs|err0|pa|]] eqn:E3 end; try discriminate.
      apply (replicate_reads _ _ _ _ _ _ _ _ _ Hstep) in E3. destruct E3 as (segs & rest & -> & Hl & Hfa & -> & ->).
      intros H. apply pair_equal_spec in H. destruct H as [<- H]. injection H as <-. exists (mkColumn smin sw segs), rest.
      unfold column_bits, string_column, string_values, inc_width. cbn [co_min co_width co_incs].
      assert (msb sw =? 0 = false) as -> by lia. rewrite <- !app_assoc, !blen_app, (blen_concat _ _ Hfa).
      assert (blen segs = n) as Hl' by (unfold blen; lia).
      repeat split; auto. rewrite Hmin, Hsw, Hl'. do 2 f_equal. lia.
  - intros (col & rest & -> & (Hmin & Hsw & Hrest) & -> & ->). destruct col as [smin sw segs].
    unfold column_bits, string_values, inc_width in *. cbn [co_min co_width co_incs] in *.
    pose proof (msb_bound sw) as Hb. rewrite Hsw in Hb. rewrite <- !app_assoc.
    rewrite rd_bytes by lia.
    assert (E2 : readNbitsDiff pl (RBit (mkBR (sw ++ concat segs ++ rest) e (p + 8 * k))) =
       (RBit (mkBR (concat segs ++ rest) e (p + 8 * k + 6)), Ok (msb sw))) by (apply nbitsDiff_reads; eauto 10).
    rewrite E2. unfold ret at 1. rewrite !blen_app.
    destruct (Z.eqb_spec (msb sw) 0) as [E0|E0].
    + subst segs. unfold ret. cbn [concat app]. rewrite E0, Hmin, Hsw. change (blen (@nil bool)) with 0.
      do 3 f_equal. lia.
    + destruct Hrest as (Hl & Hfa & Hm). assert (gs_eqb (map msb (chunks8 smin)) (repeat 0 (Z.to_nat k)) = true) as -> by (apply zero_bytes; [lia|assumption]).
      cbn [negb].
      assert (Hstep : reads_seg (b <- r_ReadBytes (msb sw) ;; ret (VBytes b))%M (8 * msb sw) string_of)
        by (apply then_ret with (f := fun seg => map msb (chunks8 seg)) (h := VBytes), bytes_reads; lia).
      assert (E3 : replicateM (Z.to_nat n) (b <- r_ReadBytes (msb sw) ;; ret (VBytes b))%M (RBit (mkBR (concat segs ++ rest) e (p + 8 * k + 6))) =
        (RBit (mkBR rest e (p + 8 * k + 6 + Z.of_nat (Z.to_nat n) * (8 * msb sw))), Ok (map string_of segs))).
      { apply (replicate_reads _ _ _ _ _ _ _ _ _ Hstep). exists segs, rest. repeat split; auto. unfold blen in Hl. lia. }
      unfold bind in E3. rewrite E3. unfold ret.
      rewrite Hmin, Hsw, (blen_concat _ _ Hfa), Hl. do 3 f_equal. lia.
Qed.
Lemma string_nonempty_min pl fuel n info mn wd rest e p : 0 <= n -> 0 <= pi_nbits info -> pi_unit info = STRING ->
  blen mn = bits_needed info -> blen wd = 6 -> In true mn -> msb wd <> 0 ->
  exists s err0, compressed_Unpack pl fuel n info (RBit (mkBR (mn ++ wd ++ rest) e p)) = (s, Err err0).
Proof.
  intros Hn Hw Hu Hmn Hwd Hm Hd. unfold compressed_Unpack, bits_needed in *. rewrite Hu in *.
  unfold c_unpackString, bind, make_values. cbv zeta. rewrite quot_pos by lia. set (k := Z.max 0 (pi_nbits info) / 8) in *.
  assert (Hk : 0 <= k) by lia. rewrite rd_bytes by assumption.
  assert (E2 : readNbitsDiff pl (RBit (mkBR (wd ++ rest) e (p + 8 * k))) =
       (RBit (mkBR rest e (p + 8 * k + 6)), Ok (msb wd))) by (apply nbitsDiff_reads; eauto 10).
  rewrite E2. assert (n <? 0 = false) as -> by lia. unfold ret at 1. assert (msb wd =? 0 = false) as -> by lia.
  destruct (gs_eqb _ _) eqn:Em; [|unfold fail; cbn [negb]; eauto].
  apply zero_bytes in Em; [|lia]. rewrite Forall_forall in Em. apply Em in Hm. discriminate.
Qed.

(** ** Packed columns (C34) *)
Lemma field_len w x : 0 <= w -> blen (field w x) = w.
Proof. intros H. destruct x; unfold field; [rewrite blen_low_bits; lia|unfold blen; rewrite repeat_length; lia]. Qed.
Lemma msb_ones n : msb (repeat true n) = 2 ^ Z.of_nat n - 1.
Proof.
  induction n as [|n IH]; [reflexivity|]. cbn [repeat]. rewrite msb_cons, IH. unfold blen. rewrite repeat_length. cbn [b2z].
  rewrite Nat2Z.inj_succ, Z.pow_succ_r by lia. lia.
Qed.
Lemma pow_le_64 w : 0 <= w <= 64 -> 0 < 2 ^ w <= 2 ^ 64.
Proof. intros H. split; [apply Z.pow_pos_nonneg; lia|apply Z.pow_le_mono_r; lia]. Qed.
Lemma field_value w v : 0 <= w <= 64 -> 0 <= v < 2 ^ w -> raw (field w (Some v)) = v.
Proof.
  intros Hw Hv. rewrite raw_small by (rewrite field_len; lia). unfold field. apply msb_low_bits_small.
  rewrite Z2Nat.id by lia. assumption.
Qed.
Lemma field_raw_missing w : 0 <= w <= 64 -> raw (field w None) = 2 ^ w - 1.
Proof. intros Hw. rewrite raw_small by (rewrite field_len; lia). unfold field. rewrite msb_ones. now rewrite Z2Nat.id by lia. Qed.
Lemma missing_raw seg : blen seg <= 64 -> missing seg = (2 <=? blen seg) && (raw seg =? 2 ^ blen seg - 1).
Proof. intros H. unfold missing. assert (blen seg <=? 64 = true) as -> by lia. now rewrite all_ones_msb, raw_small. Qed.
Lemma field_missing w x : 1 <= w <= 64 -> storable w x -> missing (field w x) = match x with None => true | _ => false end.
Proof.
  intros Hw Hx. rewrite missing_raw by (rewrite field_len; lia). rewrite field_len by lia. pose proof (pow_le_64 w ltac:(lia)).
  destruct x as [v|]; unfold storable in Hx.
  - rewrite field_value by (destruct (w =? 1); lia). destruct (Z.eqb_spec w 1); lia.
  - rewrite field_raw_missing by lia. lia.
Qed.
Lemma number_or_nil_field info x : 1 <= pi_nbits info <= 64 -> storable (pi_nbits info) x ->
  pi_unit info = NUMERIC \/ pi_unit info = NONNEG_CODE \/ pi_unit info = FLAG ->
  number_or_nil info (raw (field (pi_nbits info) x)) = decode_value info (field (pi_nbits info) x).
Proof.
  intros Hw Hx Hu. unfold decode_value. rewrite field_missing by assumption. unfold number_or_nil.
  pose proof (field_missing _ _ Hw Hx) as Hm. rewrite missing_raw in Hm by (rewrite field_len; lia). rewrite field_len in Hm by lia.
  assert (pi_nbits info <=? 64 = true) as -> by lia. rewrite Hm.
  destruct Hu as [Hu|[Hu|Hu]]; rewrite Hu; destruct x; reflexivity.
Qed.
Lemma decode_field info v : 1 <= pi_nbits info <= 64 -> storable (pi_nbits info) (Some v) ->
  pi_unit info = NUMERIC \/ pi_unit info = NONNEG_CODE \/ pi_unit info = FLAG ->
  number_or_nil info v = decode_value info (field (pi_nbits info) (Some v)).
Proof.
  intros Hw Hx Hu. rewrite <- number_or_nil_field by assumption. rewrite field_value; [reflexivity|lia|].
  pose proof (pow_le_64 (pi_nbits info) ltac:(lia)). unfold storable in Hx. destruct (pi_nbits info =? 1); lia.
Qed.
Lemma pack_column_ok info n xs m d :
  pi_unit info = NUMERIC \/ pi_unit info = NONNEG_CODE \/ pi_unit info = FLAG ->
  legal_column (pi_nbits info) xs m d -> blen xs = n ->
  column_of (pi_nbits info) n (pack_column (pi_nbits info) xs m d) /\
  column_values info n (pack_column (pi_nbits info) xs m d)
  = map (fun x => decode_value info (field (pi_nbits info) x)) xs.
Proof.
  intros Hu (Hw & Hd & Hxs & Hl) Hn. set (w := pi_nbits info) in *.
  assert (Hinc : inc_width (pack_column w xs m d) = d).
  { unfold inc_width, pack_column. cbn [co_width]. apply msb_low_bits_small. change (2 ^ Z.of_nat 6) with 64. lia. }
  unfold column_of, column_values. rewrite Hinc. unfold pack_column. cbn [co_min co_width co_incs].
  rewrite field_len by lia. split; [split; [reflexivity|split; [apply blen_low_bits|]]|].
  - destruct (Z.eqb_spec d 0); [reflexivity|]. destruct Hl as (m0 & -> & Hm & Hl).
    split; [unfold blen in *; now rewrite map_length|]. split.
    + apply Forall_forall. intros s Hs. apply in_map_iff in Hs. destruct Hs as (x & <- & _). apply field_len. lia.
    + now rewrite field_missing.
  - destruct (Z.eqb_spec d 0) as [->|Hd0].
    + destruct Hl as [Hl Hm]. unfold w. rewrite number_or_nil_field by assumption. fold w.
      assert (Hlen : Z.to_nat n = length xs) by (unfold blen in Hn; lia). rewrite Hlen. clear - Hl.
      induction Hl as [|x xs Hx _ IH]; [reflexivity|]. cbn [length repeat map]. rewrite IH, Hx. reflexivity.
    + destruct Hl as (m0 & -> & Hm & Hl). rewrite map_map. clear Hn Hinc.
      assert (Hm0 : 0 <= m0 < 2 ^ w) by (unfold storable in Hm; pose proof (pow_le_64 w ltac:(lia)); destruct (w =? 1); lia).
      induction Hl as [|x xs Hx _ IH]; [reflexivity|]. inversion Hxs; subst. cbn [map]. rewrite IH by assumption. f_equal.
      destruct x as [v|].
      * destruct Hx as [Hle Hst]. rewrite field_missing by (assumption || lia).
        rewrite (field_value w m0) by lia. pose proof (pow_le_64 d ltac:(lia)) as Hpd. pose proof (pow_le_64 w ltac:(lia)) as Hpw.
        rewrite (field_value d (v - m0)) by (unfold storable in Hst; destruct (d =? 1); lia).
        replace (m0 + (v - m0)) with v by lia. assert (0 <= v < 2 ^ w) by (match goal with X : storable w (Some v) |- _ => unfold storable in X; destruct (w =? 1); lia end).
        rewrite Z.mod_small by lia. apply decode_field; assumption.
      * rewrite field_missing by (unfold storable; lia). unfold decode_value. rewrite field_missing by (assumption || lia).
        destruct Hu as [->|[->| ->]]; reflexivity.
Qed.

(** ** Compressed local descriptors (C36) *)
Lemma binary_never pl fuel n info l e p : 0 <= n -> 0 <= pi_nbits info -> pi_unit info = BINARY ->
  match compressed_Unpack pl fuel n info (RBit (mkBR l e p)) with
  | (_, Ok (UC c)) => exists k, cv_vals c = repeat VNil k
  | (_, Ok (UV _)) => False
  | _ => True
  end.
Proof.
  intros Hn Hw Hu. unfold compressed_Unpack. rewrite Hu. unfold c_unpackOthers, bind, make_values.
  destruct (r_ReadUint pl (pi_nbits info) _) as [r1 [mn|err0|pa|]]; try exact I.
  destruct (readNbitsDiff pl _) as [r2 [d|err0|pa|]]; try exact I.
  destruct (n <? 0); [exact I|]. unfold ret at 1.
  assert (Hh : forall x, unpackBinary fuel info x = NoFuel) by (intros x; unfold unpackBinary; now rewrite NewBinaryFromUint_hangs).
  destruct (d =? 0); [unfold lift_res; now rewrite Hh|].
  destruct (IsMissing _ _); [exact I|].
  match goal with |- context [replicateM ?k ?m ?s] => set (step := m); generalize k; generalize s end.
  intros s k. destruct (replicateM k step s) as [r3 [vs|err0|pa|]] eqn:E; try exact I. cbn [ret cv_vals].
  exists k. revert s r3 vs E. induction k as [|k IH]; intros s r3 vs E; cbn [replicateM repeat] in *.
  - now injection E as <- <-.
  - unfold bind in E. destruct (step s) as [r4 [v|err0|pa|]] eqn:Es; try discriminate.
    destruct (replicateM k step r4) as [r5 [vs'|err0|pa|]] eqn:E5; try discriminate. injection E as <- <-.
    rewrite (IH _ _ _ E5). f_equal. unfold step in Es.
    destruct (r_ReadUint pl d s) as [r6 [x|err0|pa|]]; try discriminate. destruct (IsMissing (VUint x) d).
    + now injection Es as <- <-.
    + unfold lift_res in Es. rewrite Hh in Es. discriminate.
Qed.
Lemma binary_hangs pl fuel n info mn wd rest e p : 0 <= n -> pi_unit info = BINARY ->
  blen mn = pi_nbits info -> blen wd = 6 -> msb wd = 0 ->
  snd (compressed_Unpack pl fuel n info (RBit (mkBR (mn ++ wd ++ rest) e p))) = NoFuel.
Proof.
  intros Hn Hu Hmn Hwd Hd. unfold compressed_Unpack. rewrite Hu. unfold c_unpackOthers, bind, make_values.
  pose proof (blen_nonneg mn). rewrite rd_uint by lia.
  assert (E2 : readNbitsDiff pl (RBit (mkBR (wd ++ rest) e (p + pi_nbits info))) =
       (RBit (mkBR rest e (p + pi_nbits info + 6)), Ok (msb wd))) by (apply nbitsDiff_reads; eauto 10).
  rewrite E2. assert (n <? 0 = false) as -> by lia. unfold ret at 1. rewrite Hd. cbn [Z.eqb].
  unfold lift_res, unpackBinary. now rewrite NewBinaryFromUint_hangs.
Qed.
