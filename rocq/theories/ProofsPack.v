(** Writing raw data and decoding them (C34, C59). *)
From Verif Require Import ProofsRun12 ProofsRun6 ProofsRun7 ProofsUnpack ProofsBitProps ProofsBits.
From Verif Require Export SpecPack.
From Coq Require Import Lia ZifyBool ZifyNat.

Local Notation fits := SpecBits.fits.
(** ** Single values *)
Lemma raw_bits info x : raw_fits info x ->
  blen (item_bits (as_item info x)) = bits_needed info /\ (pi_unit info = STRING -> -8 < pi_nbits info) /\
  decode_value info (item_bits (as_item info x)) = raw_value info x.
Proof.
  intros [Hf Hx]. pose proof (item_bits_width _ Hf) as Hw. pose proof (item_bits_value _ Hf) as Hv.
  destruct x as [v| |bs|v|b]; cbn [as_item call_of width raw_value SpecBits.fits] in *.
  - destruct Hx as [Hu Hm]. unfold bits_needed.
    split; [destruct Hu as [->|[->| ->]]; lia|]. split; [destruct Hu as [->|[->| ->]]; discriminate|].
    cbn [spec_value value_of] in Hv. injection Hv as Hv. set (seg := item_bits _) in *. assert (Hr : SpecUnpack.raw seg = v) by exact Hv.
    assert (Hmi : missing seg = false).
    { rewrite missing_raw by lia. rewrite Hr, Hw. destruct (Z.leb_spec 2 (pi_nbits info)); [|reflexivity]. specialize (Hm H). cbn. lia. }
    unfold decode_value. rewrite Hmi, Hr. destruct Hu as [->|[->| ->]]; reflexivity.
  - destruct Hx as [Hu Hm]. unfold bits_needed.
    split; [destruct Hu as [->|[->| ->]]; lia|]. split; [destruct Hu as [->|[->| ->]]; discriminate|].
    cbn [spec_value value_of] in Hv. injection Hv as Hv. set (seg := item_bits _) in *. assert (Hr : SpecUnpack.raw seg = 2 ^ pi_nbits info - 1) by exact Hv.
    assert (Hmi : missing seg = true).
    { rewrite missing_raw by lia. rewrite Hr, Hw. lia. }
    unfold decode_value. rewrite Hmi. destruct Hu as [->|[->| ->]]; reflexivity.
  - assert (0 <= pi_nbits info) by (pose proof (blen_nonneg bs); Z.to_euclidean_division_equations; lia).
    unfold bits_needed, decode_value. rewrite Hx. rewrite Z.max_r by lia.
    split; [exact Hw|]. split; [lia|]. cbn [spec_value value_of] in Hv. injection Hv as Hv. exact (f_equal VBytes Hv).
  - unfold bits_needed, decode_value. rewrite Hx. split; [lia|]. split; [discriminate|].
    cbn [spec_value value_of] in Hv. injection Hv as Hv. exact (f_equal VInt Hv).
  - unfold bits_needed, decode_value. rewrite Hx. destruct Hf as [Hn Hb]. destruct Hb as [Hb _]. split; [lia|]. split; [discriminate|].
    cbn [spec_value value_of] in Hv. injection Hv as Hv. exact (f_equal (fun b => VBin (Some b)) Hv).
Qed.
Lemma raw_decodes cf d info x : cf_json cf = false -> cf_compressed cf = false -> raw_fits info x ->
  bits_of cf (mkDatum d info VNil 0 [raw_value info x]) (item_bits (as_item info x)).
Proof.
  intros Hj Hc H. destruct (raw_bits _ _ H) as (H1 & H2 & H3). intros rest e p. eexists. cbn [dt_desc dt_info].
  apply dec_bits; [assumption..|]. rewrite unpack_whole by assumption. now rewrite H3.
Qed.

(** ** Columns *)
Definition as_option (x : rawval) : option Z := match x with RNumber v => Some v | _ => None end.
Definition of_option (x : option Z) : rawval := match x with Some v => RNumber v | None => RMissing end.
Lemma of_as info x : is_number (pi_unit info) -> raw_fits info x -> of_option (as_option x) = x.
Proof.
  intros Hu [_ Hx]. destruct x; try reflexivity; exfalso; destruct Hu as [Hu|[Hu|Hu]]; congruence.
Qed.
Lemma raw_storable info x : 1 <= pi_nbits info -> is_number (pi_unit info) -> raw_fits info x -> storable (pi_nbits info) (as_option x) /\ pi_nbits info <= 64.
Proof.
  intros Hw Hu [Hf Hx]. destruct x as [v| |bs|v|b]; cbn [as_item as_option storable SpecBits.fits] in *; try (exfalso; destruct Hu as [Hu|[Hu|Hu]]; congruence).
  - destruct Hx as [_ Hx]. destruct (Z.eqb_spec (pi_nbits info) 1) as [E|E]; [lia|]. specialize (Hx ltac:(lia)). lia.
  - lia.
Qed.
Lemma item_field info x : is_number (pi_unit info) -> raw_fits info x -> item_bits (as_item info x) = field (pi_nbits info) (as_option x).
Proof.
  intros Hu H. pose proof H as [Hf Hx]. destruct x as [v| |bs|v|b]; try (exfalso; destruct Hu as [Hu|[Hu|Hu]]; congruence).
  - reflexivity.
  - cbn [as_item SpecBits.fits] in *. cbn [item_bits field as_option].
    assert (HL : Z.of_nat (Z.to_nat (pi_nbits info)) = pi_nbits info) by lia.
    rewrite <- (low_bits_msb (repeat true (Z.to_nat (pi_nbits info)))), msb_ones, repeat_length, HL. reflexivity.
Qed.
Lemma ones_bits d : 0 <= d -> low_bits (Z.to_nat d) (2 ^ d - 1) = repeat true (Z.to_nat d).
Proof.
  intros H. assert (HL : Z.of_nat (Z.to_nat d) = d) by lia.
  rewrite <- (low_bits_msb (repeat true (Z.to_nat d))), msb_ones, repeat_length, HL. reflexivity.
Qed.
(** Items as a column. *)
Definition item_column (info : pinfo) (c : ccolumn) : column :=
  mkColumn (item_bits (as_item info (cc_min c))) (low_bits 6 (cc_diff c))
    (if cc_diff c =? 0 then [] else map (fun x => item_bits (as_increment (cc_min c) (cc_diff c) x)) (cc_vals c)).
Lemma item_column_bits info c : flat_map item_bits (column_items info c) = column_bits (item_column info c).
Proof.
  unfold column_items, item_column, column_bits. cbn [flat_map co_min co_width co_incs item_bits]. change (Z.to_nat 6) with 6%nat.
  do 2 f_equal. destruct (cc_diff c =? 0); [reflexivity|]. now rewrite flat_map_concat_map, map_map.
Qed.
Lemma blen_map {A B} (f : A -> B) l : blen (map f l) = blen l.
Proof. unfold blen. now rewrite map_length. Qed.
Lemma number_column n info c : is_number (pi_unit info) -> column_fits n info c ->
  column_of (pi_nbits info) n (item_column info c) /\
  column_values info n (item_column info c) = map (raw_value info) (cc_vals c).
Proof.
  intros Hu (Hn & Hd & Hw & Hm & Hv & _ & Hl). destruct (raw_storable _ _ Hw Hu Hm) as [Hms Hw64].
  assert (Hst : Forall (storable (pi_nbits info)) (map as_option (cc_vals c))).
  { apply Forall_map. eapply Forall_impl; [|exact Hv]. intros x Hx. now apply raw_storable. }
  assert (HL : legal_column (pi_nbits info) (map as_option (cc_vals c)) (as_option (cc_min c)) (cc_diff c)).
  { split; [lia|]. split; [lia|]. split; [exact Hst|]. destruct (Z.eqb_spec (cc_diff c) 0) as [E|E].
    - split; [|exact Hms]. apply Forall_map. eapply Forall_impl; [|exact Hl]. intros x ->. reflexivity.
    - destruct (cc_min c) as [m| |bs|m|b] eqn:Em; try contradiction.
      + exists m. split; [reflexivity|]. split; [exact Hms|]. apply Forall_map. rewrite Forall_forall in *. intros x Hx.
        specialize (Hl x Hx). specialize (Hv x Hx). destruct Hv as [_ Hv].
        destruct x as [v| |bs|v|b]; try (exfalso; destruct Hu as [Hu|[Hu|Hu]]; congruence).
        * cbn [as_option storable]. destruct (Z.eqb_spec (cc_diff c) 1) as [E1|E1]; [rewrite E1 in *; lia|]. destruct Hl as (? & ? & Hl). specialize (Hl ltac:(lia)). lia.
        * exact Hl.
      + exfalso. destruct Hm as [_ Hm]. destruct Hu as [Hu|[Hu|Hu]]; congruence. }
  assert (HC : item_column info c = pack_column (pi_nbits info) (map as_option (cc_vals c)) (as_option (cc_min c)) (cc_diff c)).
  { unfold item_column, pack_column. rewrite item_field by assumption. f_equal.
    destruct (Z.eqb_spec (cc_diff c) 0) as [E|E]; [reflexivity|]. rewrite map_map. apply map_ext_in. intros x Hx.
    rewrite Forall_forall in Hv. specialize (Hv x Hx). destruct Hv as [_ Hv].
    destruct (cc_min c) as [m| |bs|m|b]; try contradiction; [|exfalso; destruct Hm as [_ Hm]; destruct Hu as [Hu|[Hu|Hu]]; congruence].
    destruct x as [v| |bs|v|b]; try (exfalso; destruct Hu as [Hu|[Hu|Hu]]; congruence); [reflexivity|].
    cbn [as_increment as_option item_bits field]. apply ones_bits. lia. }
  destruct (pack_column_ok info n _ _ _ Hu HL) as [H1 H2]; [now rewrite blen_map|]. rewrite HC. split; [exact H1|]. rewrite H2, map_map.
  apply map_ext_in. intros x Hx. rewrite Forall_forall in Hv. specialize (Hv x Hx). rewrite <- item_field by assumption. now apply raw_bits.
Qed.
Lemma bytes_zero bs : Forall (fun b => b = 0) bs -> Forall (fun b => b = false) (bytes_bits bs).
Proof.
  induction 1 as [|b bs -> _ IH]; [constructor|]. rewrite bytes_bits_cons. apply Forall_app. split; [|exact IH]. repeat constructor.
Qed.
Lemma string_bits info bs : pi_unit info = STRING -> raw_fits info (RString bs) ->
  blen (item_bits (as_item info (RString bs))) = bits_needed info /\ string_of (item_bits (as_item info (RString bs))) = VBytes bs.
Proof.
  intros Hu H. destruct (raw_bits _ _ H) as (H1 & _ & H2). split; [exact H1|]. unfold decode_value in H2. rewrite Hu in H2. exact H2.
Qed.
Lemma string_column_ok n info c : pi_unit info = STRING -> column_fits n info c ->
  string_column (bits_needed info) n (item_column info c) /\
  string_values n (item_column info c) = map (raw_value info) (cc_vals c).
Proof.
  intros Hu (Hn & Hd & Hw & Hm & Hv & _ & Hl).
  assert (Hs : forall x, raw_fits info x -> exists bs, x = RString bs).
  { intros x [_ Hx]. destruct x as [v| |bs|v|b]; try (exfalso; unfold is_number in Hx; destruct Hx as [[Hx|[Hx|Hx]] _]; congruence); try congruence. eauto. }
  destruct (Hs _ Hm) as [mb Em]. rewrite Em in *. destruct (string_bits _ _ Hu Hm) as [Hl1 Hl2].
  assert (Hinc : inc_width (item_column info c) = cc_diff c).
  { unfold inc_width, item_column. cbn [co_width]. apply msb_low_bits_small. change (2 ^ Z.of_nat 6) with 64. lia. }
  unfold string_column, string_values. rewrite Hinc. unfold item_column. rewrite Em. cbn [co_min co_width co_incs].
  split; [split; [exact Hl1|]; split; [apply blen_low_bits|]|].
  - destruct (Z.eqb_spec (cc_diff c) 0) as [E|E]; [reflexivity|]. destruct Hl as [Hz He]. split; [now rewrite blen_map|]. split.
    + apply Forall_map. rewrite Forall_forall in *. intros x Hx. destruct (Hs _ (Hv x Hx)) as [bs ->].
      destruct (string_bits _ _ Hu (Hv _ Hx)) as [H1 _]. cbn [as_increment as_item item_bits] in *. rewrite H1. unfold bits_needed. rewrite Hu, He. rewrite Z.max_r by lia. reflexivity.
    + cbn [as_item item_bits]. now apply bytes_zero.
  - destruct (Z.eqb_spec (cc_diff c) 0) as [E|E].
    + rewrite Hl2. replace (Z.to_nat n) with (length (cc_vals c)) by (unfold blen in Hn; lia). clear -Hl.
      induction Hl as [|x xs -> _ IH]; [reflexivity|]. cbn [length repeat map raw_value]. now rewrite IH.
    + rewrite map_map. apply map_ext_in. intros x Hx. rewrite Forall_forall in Hv. destruct (Hs _ (Hv x Hx)) as [bs ->].
      now destruct (string_bits _ _ Hu (Hv _ Hx)).
Qed.
Lemma column_decodes cf d info c : cf_json cf = false -> cf_compressed cf = true -> 0 <= cf_nsubsets cf ->
  column_fits (cf_nsubsets cf) info c ->
  exists mn df, bits_of cf (mkDatum d info mn df (map (raw_value info) (cc_vals c))) (flat_map item_bits (column_items info c)).
Proof.
  intros Hj Hc Hn H. pose proof H as (_ & _ & Hw & _ & _ & Hu & _). rewrite item_column_bits. destruct Hu as [Hu|Hu].
  - destruct (number_column _ _ _ Hu H) as [H1 H2]. eexists. eexists. intros rest e p. eexists. cbn [dt_desc dt_info].
    change (mkDatum d info ?mn ?df ?vs) with (mkDatum d info (cv_min (mkCval mn df vs)) (cv_diff (mkCval mn df vs)) (cv_vals (mkCval mn df vs))).
    apply dec_column; [assumption..|]. apply compressed_iff; [assumption|lia| |].
    + unfold compressed_number. destruct Hu as [-> | [-> | ->]]; auto; apply negb_true_iff, Z.eqb_neq; lia.
    + exists (item_column info c), rest. split; [reflexivity|]. split; [exact H1|]. split; [reflexivity|]. rewrite H2. reflexivity.
  - destruct (string_column_ok _ _ _ Hu H) as [H1 H2]. eexists. eexists. intros rest e p. eexists. cbn [dt_desc dt_info].
    change (mkDatum d info ?mn ?df ?vs) with (mkDatum d info (cv_min (mkCval mn df vs)) (cv_diff (mkCval mn df vs)) (cv_vals (mkCval mn df vs))).
    apply dec_column; [assumption..|]. apply string_iff; [assumption|lia|assumption|].
    exists (item_column info c), rest. split; [reflexivity|]. split; [exact H1|]. split; [reflexivity|]. rewrite H2. reflexivity.
Qed.
