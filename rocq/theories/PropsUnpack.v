(** Property theorems C31-C36: values of elements.  Vocabulary: SpecUnpack.v; the real-valued
    reading of floats (R64, rne, exact_value) is defined in SpecReal.v. *)
From Coq Require Import Reals ZifyBool ZifyNat.
From Flocq Require Import Core.
From Verif Require Import SpecUnpack SpecReal ProofsUnpack ProofsReal ProofsReal2.

(** Units whose elements can be missing. *)
Definition number_unit (u : unit_t) : Prop := u = NUMERIC \/ u = NONNEG_CODE \/ u = FLAG.

(** C31.  From two to 64 bits: missing exactly when every bit is set. *)
Theorem C31_missing_all_ones : forall pl info seg rest e pos,
  number_unit (pi_unit info) -> 2 <= pi_nbits info <= 64 -> blen seg = pi_nbits info ->
  exists r v, uncompressed_Unpack pl info (RBit (mkBR (seg ++ rest) e pos)) = (r, Ok (UV v)) /\
    (v = VNil <-> Forall (fun b => b = true) seg).
Proof.
  intros pl info seg rest e pos Hu Hw Hl.
  assert (Hb : bits_needed info = pi_nbits info) by (unfold bits_needed; destruct Hu as [-> | [-> | ->]]; lia).
  do 2 eexists. split; [apply unpack_whole; [congruence|destruct Hu as [-> | [-> | ->]]; discriminate]|].
  assert (Hm : missing seg = true <-> Forall (fun b => b = true) seg).
  { unfold missing, all_ones. rewrite Hl.
    replace (2 <=? pi_nbits info) with true by lia. replace (pi_nbits info <=? 64) with true by lia.
    rewrite andb_true_l, forallb_forall, Forall_forall. reflexivity. }
  rewrite <- Hm. unfold decode_value, value_of_number.
  destruct Hu as [-> | [-> | ->]]; destruct (missing seg); split; intros; try reflexivity; try discriminate.
Qed.
Print Assumptions C31_missing_all_ones.
(** One-bit elements are never missing. *)
Theorem C31_one_bit_never_missing : forall pl info b rest e pos,
  number_unit (pi_unit info) -> pi_nbits info = 1 ->
  exists r v, uncompressed_Unpack pl info (RBit (mkBR (b :: rest) e pos)) = (r, Ok (UV v)) /\ v <> VNil.
Proof.
  intros pl info b rest e pos Hu Hw.
  do 2 eexists. split; [apply (unpack_whole _ _ [b]); unfold bits_needed; destruct Hu as [-> | [-> | ->]]; rewrite ?Hw; try reflexivity; discriminate|].
  unfold decode_value, value_of_number. destruct Hu as [-> | [-> | ->]]; discriminate.
Qed.
Print Assumptions C31_one_bit_never_missing.
Example C31_example : forall pl,
  snd (uncompressed_Unpack pl (mkInfo NUMERIC 1 (f64_of_Z (-400)) 3) (RBit (mkBR [true; true; true; false] EEof 0))) = Ok (UV VNil) /\
  snd (uncompressed_Unpack pl (plain_info FLAG 3) (RBit (mkBR [true; true; false; false] EEof 0))) = Ok (UV (VUint 6)).
Proof. split; reflexivity. Qed.

(** C32.  A numeric element that is not missing decodes to sum and quotient as IEEE doubles
    ([scaled]): no addition for a zero reference, no division for a zero scale. *)
Theorem C32_formula : forall pl info seg rest e pos,
  pi_unit info = NUMERIC -> 0 <= pi_nbits info <= 64 -> blen seg = pi_nbits info -> missing seg = false ->
  uncompressed_Unpack pl info (RBit (mkBR (seg ++ rest) e pos)) =
  (RBit (mkBR rest e (pos + pi_nbits info)),
   Ok (UV (VFloat (scaled (pi_refval info) (pi_scale info) (msb seg))))).
Proof.
  intros pl info seg rest e pos Hu Hw Hl Hm.
  assert (Hb : bits_needed info = pi_nbits info) by (unfold bits_needed; rewrite Hu; lia).
  rewrite unpack_whole; [|congruence|congruence]. unfold advance, decode_value, value_of_number. rewrite Hu, Hm.
  rewrite raw_small by lia. reflexivity.
Qed.
Print Assumptions C32_formula.
(** Scale zero is exact: the double of the integer n + r. *)
Theorem C32_exact : forall n r, 0 <= n < 2 ^ 53 -> Z.abs r < 2 ^ 53 -> Z.abs (n + r) < 2 ^ 53 ->
  scaled (f64_of_Z r) 0 n = f64_of_Z (n + r) /\ R64 (f64_of_Z (n + r)) = IZR (n + r).
Proof.
  intros n r Hn Hr Hs. split; [|apply of_Z_R; exact Hs]. rewrite scaled_sum. apply sum_exact; tauto.
Qed.
Print Assumptions C32_exact.
(** Scales 0..22: the double nearest to the exact (n + r) / 10^scale. *)
Theorem C32_nearest : forall n r s, 0 <= n < 2 ^ 53 -> Z.abs r < 2 ^ 53 -> Z.abs (n + r) < 2 ^ 53 -> 0 <= s <= 22 ->
  finite64 (scaled (f64_of_Z r) s n) /\ R64 (scaled (f64_of_Z r) s n) = rne (exact_value n r s).
Proof.
  intros n r s Hn Hr Hs Hsc. destruct (scaled_pos n r s) as [H1 H2]; try tauto. split; [now apply is64_finite|exact H2].
Qed.
Print Assumptions C32_nearest.
(** Scales -22..-1: the double nearest to n + r divided by the double nearest to 10^scale. *)
Theorem C32_nearest_negative_scale : forall n r s,
  0 <= n < 2 ^ 53 -> Z.abs r < 2 ^ 53 -> Z.abs (n + r) < 2 ^ 53 -> -22 <= s <= -1 ->
  finite64 (scaled (f64_of_Z r) s n) /\
  R64 (scaled (f64_of_Z r) s n) = rne (IZR (n + r) / rne (powerRZ 10 s)).
Proof.
  intros n r s Hn Hr Hs Hsc. replace s with (- (- s)) by lia.
  destruct (scaled_neg n r (- s)) as [H1 H2]; try tauto; [lia|]. split; [now apply is64_finite|exact H2].
Qed.
Print Assumptions C32_nearest_negative_scale.
(** The relative error is at most 2^-51 throughout ... *)
Theorem C32_accuracy : forall n r s, 0 <= n < 2 ^ 53 -> Z.abs r < 2 ^ 53 -> Z.abs (n + r) < 2 ^ 53 -> -22 <= s <= 22 ->
  (Rabs (R64 (scaled (f64_of_Z r) s n) - exact_value n r s) <= bpow radix2 (-51) * Rabs (exact_value n r s))%R.
Proof. intros n r s Hn Hr Hs Hsc. apply scaled_accuracy; tauto. Qed.
Print Assumptions C32_accuracy.
(** ... and different raw numbers give different values. *)
Theorem C32_injective : forall n m r s, 0 <= n < 2 ^ 53 -> 0 <= m < 2 ^ 53 -> Z.abs r < 2 ^ 53 ->
  Z.abs (n + r) <= 2 ^ 49 -> Z.abs (m + r) <= 2 ^ 49 -> -22 <= s <= 22 ->
  scaled (f64_of_Z r) s n = scaled (f64_of_Z r) s m -> n = m.
Proof. intros n m r s Hn Hm Hr H1 H2 Hs. apply scaled_injective; tauto. Qed.
Print Assumptions C32_injective.
(** For every scale of up to 290 digits either way (201YYY moves a scale by at most 128):
    relative error at most 2^-50, and different raw numbers give different values. *)
Theorem C32_accuracy_wide : forall n r s,
  0 <= n < 2 ^ 53 -> Z.abs r < 2 ^ 53 -> Z.abs (n + r) < 2 ^ 53 -> -290 <= s <= 290 ->
  finite64 (scaled (f64_of_Z r) s n) /\
  (Rabs (R64 (scaled (f64_of_Z r) s n) - exact_value n r s) <= bpow radix2 (-50) * Rabs (exact_value n r s))%R.
Proof.
  intros n r s Hn Hr Hs Hsc. split; [|apply wide_accuracy; tauto].
  apply is64_finite. exact (proj1 (scaled_quotient n r s (proj1 Hn) (proj2 Hn) Hr Hs Hsc)).
Qed.
Print Assumptions C32_accuracy_wide.
Theorem C32_injective_wide : forall n m r s, 0 <= n < 2 ^ 53 -> 0 <= m < 2 ^ 53 -> Z.abs r < 2 ^ 53 ->
  Z.abs (n + r) <= 2 ^ 48 -> Z.abs (m + r) <= 2 ^ 48 -> -290 <= s <= 290 ->
  scaled (f64_of_Z r) s n = scaled (f64_of_Z r) s m -> n = m.
Proof. intros n m r s Hn Hm Hr H1 H2 Hs. apply wide_injective; tauto. Qed.
Print Assumptions C32_injective_wide.
(** The bound on the sums matters: these two raw numbers have the same value. *)
Theorem C32_injective_limit : exists n m r s,
  0 <= n < 2 ^ 53 /\ 0 <= m < 2 ^ 53 /\ Z.abs r < 2 ^ 53 /\ Z.abs (n + r) < 2 ^ 53 /\ Z.abs (m + r) < 2 ^ 53 /\
  -22 <= s <= 22 /\ n <> m /\ scaled (f64_of_Z r) s n = scaled (f64_of_Z r) s m.
Proof. exists (2 ^ 53 - 5), (2 ^ 53 - 4), 0, 1. repeat split; try lia; vm_compute; reflexivity. Qed.
Print Assumptions C32_injective_limit.
(** 2731.5 K: raw 2731, reference 0, scale 1; 12 bits. *)
Example C32_example : forall pl,
  snd (uncompressed_Unpack pl (mkInfo NUMERIC 1 (f64_of_Z 0) 12) (RBit (mkBR (low_bits 12 2731) EEof 0)))
  = Ok (UV (VFloat (f64_div (f64_of_Z 2731) (f64_of_Z 10)))) /\
  scaled (f64_of_Z (-1024)) 0 1 = f64_of_Z (-1023).
Proof. split; vm_compute; reflexivity. Qed.
(** Scale 100, far outside the exactly representable powers: raw 25 is the double 25e-100. *)
Example C32_wide_example : scaled (f64_of_Z 0) 100 25 = f64_div (f64_of_Z 25) (f64_of_Z (10 ^ 100)).
Proof. vm_compute. reflexivity. Qed.

(** C33.  A compressed element decodes exactly when the stream begins with a column (minimum,
    6 bits of increment width, increments), to the column's values; it consumes the column. *)
Theorem C33_compressed_values : forall pl fuel n info l e pos r u,
  0 <= n -> 0 <= pi_nbits info ->
  pi_unit info = NUMERIC \/ ((pi_unit info = NONNEG_CODE \/ pi_unit info = FLAG) /\ pi_nbits info <> 0) ->
  compressed_Unpack pl fuel n info (RBit (mkBR l e pos)) = (r, Ok u) <->
  exists col rest, l = column_bits col ++ rest /\ column_of (pi_nbits info) n col /\
    r = RBit (mkBR rest e (pos + blen (column_bits col))) /\
    u = UC (mkCval (VUint (raw (co_min col))) (inc_width col) (column_values info n col)).
Proof.
  intros pl fuel n info l e pos r u Hn Hw Hu. apply compressed_iff; auto. unfold compressed_number.
  destruct Hu as [-> | [[-> | ->] H0]]; auto; apply negb_true_iff, Z.eqb_neq; exact H0.
Qed.
Print Assumptions C33_compressed_values.
(** The bits consumed: width + 6 + n * d. *)
Theorem C33_bits_consumed : forall w n col, column_of w n col ->
  blen (column_bits col) = w + 6 + n * inc_width col.
Proof.
  intros w n col (H1 & H2 & H3). unfold column_bits. rewrite !blen_app, H1, H2.
  destruct (Z.eqb_spec (inc_width col) 0) as [E|E].
  - rewrite E, H3. change (blen (concat (@nil (list bool)))) with 0. lia.
  - destruct H3 as (Hn & Hf & _). rewrite (blen_concat _ (inc_width col)) by exact Hf. lia.
Qed.
Print Assumptions C33_bits_consumed.
(** A missing minimum with increments is an error. *)
Theorem C33_missing_minimum : forall pl fuel n info mn wd rest e pos, 0 <= n ->
  number_unit (pi_unit info) -> pi_nbits info <> 0 ->
  blen mn = pi_nbits info -> blen wd = 6 -> missing mn = true -> msb wd <> 0 ->
  exists s err0, compressed_Unpack pl fuel n info (RBit (mkBR (mn ++ wd ++ rest) e pos)) = (s, Err err0).
Proof.
  intros pl fuel n info mn wd rest e pos Hn Hu H0 H1 H2 H3 H4. apply compressed_missing_min; auto. unfold compressed_number.
  destruct Hu as [-> | [-> | ->]]; auto; apply negb_true_iff, Z.eqb_neq; exact H0.
Qed.
Print Assumptions C33_missing_minimum.
(** Three subsets: minimum 5 in 4 bits, increments of 2 bits: 0, 2, missing. *)
Example C33_example : forall pl,
  compressed_Unpack pl 9 3 (plain_info NONNEG_CODE 4)
    (RBit (mkBR ([false; true; false; true] ++ [false; false; false; false; true; false]
                 ++ [false; false; true; false; true; true] ++ [true]) EEof 7))
  = (RBit (mkBR [true] EEof 23), Ok (UC (mkCval (VUint 5) 2 [VUint 5; VUint 7; VNil]))).
Proof. reflexivity. Qed.

(** C34.  A column of raw numbers (None: missing), in any legal compressed packing, decodes to
    the values its uncompressed fields decode to, one by one. *)
Theorem C34_element_columns : forall pl fuel info xs m d rest e pos,
  number_unit (pi_unit info) -> legal_column (pi_nbits info) xs m d ->
  exists r c, compressed_Unpack pl fuel (blen xs) info
      (RBit (mkBR (column_bits (pack_column (pi_nbits info) xs m d) ++ rest) e pos)) = (r, Ok (UC c)) /\
    Forall2 (fun x v => forall rest' e' pos', exists r',
       uncompressed_Unpack pl info (RBit (mkBR (field (pi_nbits info) x ++ rest') e' pos')) = (r', Ok (UV v)))
      xs (cv_vals c).
Proof.
  intros pl fuel info xs m d rest e pos Hu Hl.
  destruct (pack_column_ok info (blen xs) xs m d Hu Hl eq_refl) as [Hc Hv].
  assert (Hw : 1 <= pi_nbits info <= 64) by apply Hl.
  eexists. eexists. split.
  { apply compressed_iff; [apply blen_nonneg|lia| |].
    - unfold compressed_number. destruct Hu as [-> | [-> | ->]]; auto; apply negb_true_iff, Z.eqb_neq; lia.
    - do 2 eexists. split; [reflexivity|]. split; [exact Hc|]. split; reflexivity. }
  cbn [cv_vals]. rewrite Hv. clear Hv Hc Hl. induction xs as [|x xs IH]; [constructor|]. constructor; [|exact IH].
  intros rest' e' pos'. eexists. apply unpack_whole.
  - assert (blen (field (pi_nbits info) x) = pi_nbits info).
    { apply field_len. lia. }
    unfold bits_needed. destruct Hu as [-> | [-> | ->]]; lia.
  - destruct Hu as [-> | [-> | ->]]; discriminate.
Qed.
Print Assumptions C34_element_columns.
Example C34_example : legal_column 4 [Some 5; Some 7; None] (Some 5) 2 /\ legal_column 4 [Some 5; Some 7; None] (Some 3) 5.
Proof.
  split; unfold legal_column; (split; [lia|]; split; [lia|]; split; [repeat constructor; cbn; lia|]);
  cbn -[Z.le Z.lt]; eexists; (split; [reflexivity|]); (split; [lia|]); repeat first [apply Forall_nil|apply Forall_cons]; lia.
Qed.

(** C35.  An uncompressed character element is its width/8 bytes (and an error when they are
    not all there). *)
Theorem C35_uncompressed_string : forall pl info l e pos r v,
  pi_unit info = STRING -> 0 <= pi_nbits info ->
  uncompressed_Unpack pl info (RBit (mkBR l e pos)) = (r, Ok (UV v)) <->
  exists seg rest, l = seg ++ rest /\ blen seg = 8 * (pi_nbits info / 8) /\
    r = RBit (mkBR rest e (pos + blen seg)) /\ v = VBytes (map msb (chunks8 seg)).
Proof.
  intros pl info l e pos r v Hu Hw. rewrite unpack_ok_iff by congruence.
  assert (E : bits_needed info = 8 * (pi_nbits info / 8)) by (unfold bits_needed; rewrite Hu, Z.max_r by lia; reflexivity).
  unfold advance, decode_value. rewrite Hu, E.
  split; intros (seg & rest & H); exists seg, rest.
  - destruct H as (H1 & H2 & _ & H3 & H4). rewrite H2. auto.
  - destruct H as (H1 & H2 & H3 & H4). rewrite H2 in H3. repeat (split; auto). lia.
Qed.
Print Assumptions C35_uncompressed_string.
(** Compressed: the common string for every subset, or one string per subset. *)
Theorem C35_compressed_string : forall pl fuel n info l e pos r u,
  0 <= n -> 0 <= pi_nbits info -> pi_unit info = STRING ->
  compressed_Unpack pl fuel n info (RBit (mkBR l e pos)) = (r, Ok u) <->
  exists col rest, l = column_bits col ++ rest /\ string_column (8 * (pi_nbits info / 8)) n col /\
    r = RBit (mkBR rest e (pos + blen (column_bits col))) /\
    u = UC (mkCval (string_of (co_min col)) (inc_width col) (string_values n col)).
Proof.
  intros pl fuel n info l e pos r u Hn Hw Hu.
  assert (E : bits_needed info = 8 * (pi_nbits info / 8)) by (unfold bits_needed; rewrite Hu, Z.max_r by lia; reflexivity).
  rewrite <- E. apply string_iff; assumption.
Qed.
Print Assumptions C35_compressed_string.
(** A common string that is not all zero is rejected when there are increments. *)
Theorem C35_nonempty_common_string : forall pl fuel n info mn wd rest e pos,
  0 <= n -> 0 <= pi_nbits info -> pi_unit info = STRING ->
  blen mn = 8 * (pi_nbits info / 8) -> blen wd = 6 -> In true mn -> msb wd <> 0 ->
  exists s err0, compressed_Unpack pl fuel n info (RBit (mkBR (mn ++ wd ++ rest) e pos)) = (s, Err err0).
Proof.
  intros pl fuel n info mn wd rest e pos Hn Hw Hu Hm. apply string_nonempty_min; auto.
  unfold bits_needed. rewrite Hu, Z.max_r by lia. exact Hm.
Qed.
Print Assumptions C35_nonempty_common_string.
Example C35_example : forall pl,
  snd (uncompressed_Unpack pl (plain_info STRING 16) (RBit (mkBR (low_bits 16 (65 * 256 + 66)) EEof 0))) = Ok (UV (VBytes [65; 66])) /\
  snd (compressed_Unpack pl 0 2 (plain_info STRING 8)
    (RBit (mkBR (low_bits 8 0 ++ low_bits 6 1 ++ low_bits 8 65 ++ low_bits 8 66) EEof 0)))
  = Ok (UC (mkCval (VBytes [0]) 1 [VBytes [65]; VBytes [66]])).
Proof. split; reflexivity. Qed.

(** C36.  False: decoding never finishes when all subsets share the bits, whatever the fuel ... *)
Theorem C36_compressed_local_refuted : exists info l, pi_unit info = BINARY /\ 0 < pi_nbits info /\
  forall pl fuel n e pos, 0 <= n ->
    snd (compressed_Unpack pl fuel n info (RBit (mkBR l e pos))) = NoFuel.
Proof.
  exists (plain_info BINARY 4), ([true; false; true; false] ++ repeat false 6 ++ []). split; [reflexivity|]. split; [cbn; lia|].
  intros. apply binary_hangs; auto.
Qed.
Print Assumptions C36_compressed_local_refuted.
(** ... for every such stream ... *)
Theorem C36_hangs : forall pl fuel n info mn wd rest e pos, 0 <= n -> pi_unit info = BINARY ->
  blen mn = pi_nbits info -> blen wd = 6 -> msb wd = 0 ->
  snd (compressed_Unpack pl fuel n info (RBit (mkBR (mn ++ wd ++ rest) e pos))) = NoFuel.
Proof. exact binary_hangs. Qed.
Print Assumptions C36_hangs.
(** ... and no subset ever gets a binary value. *)
Theorem C36_no_binary_value : forall pl fuel n info l e pos r u, 0 <= n -> 0 <= pi_nbits info ->
  pi_unit info = BINARY ->
  compressed_Unpack pl fuel n info (RBit (mkBR l e pos)) = (r, Ok u) ->
  exists c k, u = UC c /\ cv_vals c = repeat VNil k.
Proof.
  intros pl fuel n info l e pos r u Hn Hw Hu H. pose proof (binary_never pl fuel n info l e pos Hn Hw Hu) as Hb.
  rewrite H in Hb. destruct u as [v|c]; [contradiction|]. destruct Hb as [k Hk]. eauto.
Qed.
Print Assumptions C36_no_binary_value.
(** Uncompressed local elements do get their bits. *)
Theorem C36_uncompressed_local : forall pl info seg rest e pos,
  pi_unit info = BINARY -> 0 <= pi_nbits info -> blen seg = pi_nbits info ->
  uncompressed_Unpack pl info (RBit (mkBR (seg ++ rest) e pos)) =
  (RBit (mkBR rest e (pos + pi_nbits info)),
   Ok (UV (VBin (Some (mkBin (map msb (chunks8 seg)) (pi_nbits info)))))).
Proof.
  intros pl info seg rest e pos Hu Hw Hl.
  rewrite unpack_whole; [|unfold bits_needed; rewrite Hu; lia|congruence]. unfold advance, decode_value. rewrite Hu. reflexivity.
Qed.
Print Assumptions C36_uncompressed_local.
Example C36_example : forall pl,
  snd (compressed_Unpack pl 9 1 (plain_info BINARY 4) (RBit (mkBR ([true; false; true; false] ++ low_bits 6 2 ++ [true; true]) EEof 0)))
  = Ok (UC (mkCval (VUint 10) 2 [VNil])) /\
  snd (uncompressed_Unpack pl (plain_info BINARY 10) (RBit (mkBR (low_bits 10 1023) EEof 0))) = Ok (UV (VBin (Some (mkBin [255; 3] 10)))).
Proof. split; reflexivity. Qed.
