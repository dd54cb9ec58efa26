(** The reader interface (C79) and missing fields (C80). *)
From Coq Require Import Reals.
From Flocq Require Import Core.
From Coq Require Import ZifyBool ZifyNat.
From Verif Require Import SpecReal ProofsUnpack ProofsMsg2 SpecUnpack SpecMessage ModelFactory SpecReader ProofsReader.
Local Open Scope Z_scope.

(** C79: reading from bits. *)
Theorem C79_bits : forall pl k c b, sensible c ->
  if asked c <=? blen (br_bits b)
  then exists taken rest a, br_bits b = taken ++ rest /\ blen taken = asked c /\ spelled c taken a /\
    do_rcall pl k c (RBit b) = (RBit (mkBR rest (br_err b) (br_pos b + asked c)), Ok a)
  else exists rest p, suffix rest (br_bits b) /\ br_pos b <= p <= br_pos b + asked c /\
    do_rcall pl k c (RBit b) = (RBit (mkBR rest (br_err b) p), match c with KBinary _ => Ok (ABinary None) | _ => Err (br_err b) end).
Proof. exact reading_bits. Qed.
Print Assumptions C79_bits.

(** C79: reading from a JSON document; ReadFloat32 is C14. *)
Theorem C79_json : forall pl k c j, c <> KFloat32 -> Forall (fun t => t <> TNull) (j_cache j) ->
  match j_cache j ++ scalars (j_toks j) with
  | t :: rest => exists j', j_cache j' ++ scalars (j_toks j') = rest /\ j_err j' = j_err j /\ j_pos j' = j_pos j + asked c /\
      match converted pl c t with
      | Some a => do_rcall pl k c (RJson j) = (RJson j', Ok a)
      | None => exists e, do_rcall pl k c (RJson j) = (RJson j', Err e)
      end
  | [] => exists j' e, do_rcall pl k c (RJson j) = (RJson j', Err e) /\ j_pos j' = j_pos j
  end.
Proof. exact reading_json. Qed.
Print Assumptions C79_json.

Definition pl0 : platform := mkPlatform (fun _ => 0) (fun _ => 0).
(** -13/8 in single precision, and what is left of the bits; two bytes of a document, one of
    them looked at before. *)
Example C79_float :
  do_rcall pl0 0 KFloat32 (RBit (mkBR (low_bits 32 0xBFD00000 ++ [true; false]) EEof 5))
  = (RBit (mkBR [true; false] EEof 37), Ok (ANumber (S754_finite true 7318349394477056 (-52)))).
Proof. reflexivity. Qed.
Example C79_document : let j := mkJR [TDelim 91; TNum (f64_of_Z 7); TDelim 93; TBool true] EEof 3 [TStr [65; 66]] in
  exists j', do_rcall pl0 0 (KBytes 2) (RJson j) = (RJson j', Ok (ABytes [65; 66])) /\ j_pos j' = 19 /\
  exists j'', do_rcall pl0 0 (KUint 12) (RJson j') = (RJson j'', Ok (AUint 7)) /\ j_pos j'' = 31 /\
  exists j3 e, do_rcall pl0 0 (KInt 4) (RJson j'') = (RJson j3, Err e) /\ j_pos j3 = 35.
Proof. cbv zeta. eexists. split; [reflexivity|split; [reflexivity|]]. eexists. split; [reflexivity|split; [reflexivity|]]. eexists _, _. split; reflexivity. Qed.

(** C80: the missing test of a field read from bits. *)
Theorem C80_fields : forall fc nm t w px b m ut g s' f,
  0 <= w <= 64 ->
  NewField fc nm t w px (mkFac (RBit b) m ut g) = (s', Ok f) ->
  (field_IsMissing f = true <-> t = DUINT /\ 2 <= w /\ Forall (fun x => x = true) (firstn (Z.to_nat w) (br_bits b))).
Proof.
  intros fc nm t w px b m ut g s' f Hw H. rewrite NewField_eq in H. apply bind_inv in H. destruct H as (s1 & v & E & H).
  cbv zeta in H. apply bind_inv in H. destruct H as (s2 & [] & E2 & H). apply bind_inv in H. destruct H as (s3 & [] & E3 & H).
  injection H as _ <-. clear E2 E3.
  destruct t; cbn [read_value] in E; try discriminate E; try (apply bind_inv in E; destruct E as (s4 & x & E & K); injection K as _ <-; split; [discriminate|intros [? _]; discriminate]).
  apply bind_inv in E. destruct E as (s4 & x & E & K). injection K as _ <-.
  destruct b as [l e p]. cbn [br_bits]. unfold onr, zoom in E. cbn [fa_r] in E.
  destruct (Z.ltb_spec (blen l) w) as [Ew|Ew].
  { destruct (rd_uint_short (fc_plat fc) w l e p Ew) as (l' & R & _). rewrite R in E. discriminate E. }
  assert (Hb : blen (firstn (Z.to_nat w) l) = w) by (unfold blen in *; rewrite firstn_length; lia).
  rewrite <- (firstn_skipn (Z.to_nat w) l), rd_uint in E by lia. injection E as _ <-.
  unfold field_IsMissing. cbn [f_value f_nbits]. rewrite IsMissing_seg by lia.
  unfold missing. rewrite Hb. replace (w <=? 64) with true by lia. unfold all_ones.
  rewrite Bool.andb_true_iff, Z.leb_le, forallb_forall, Forall_forall. intuition auto.
Qed.
Print Assumptions C80_fields.

(** C80: MissingValue names the number of which the test holds. *)
Theorem C80_value : forall n,
  (1 <= n <= 64 -> exists v, MissingValue n = Ok v /\ low_bits (Z.to_nat n) v = repeat true (Z.to_nat n) /\ 0 <= v < 2 ^ n) /\
  (~ 1 <= n <= 64 -> exists e, MissingValue n = Err e) /\
  (2 <= n <= 64 -> forall nm u vr, field_IsMissing (mkField nm (FUint u) n vr) = true <-> MissingValue n = Ok u).
Proof.
  intros n. unfold MissingValue. split; [|split].
  - intros H. replace ((1 <=? n) && (n <=? 64)) with true by lia. eexists. split; [reflexivity|].
    assert (0 < 2 ^ n) by (apply Z.pow_pos_nonneg; lia). split; [|lia].
    rewrite <- (low_bits_msb (repeat true (Z.to_nat n))), msb_ones, repeat_length. replace (Z.of_nat (Z.to_nat n)) with n by lia. reflexivity.
  - intros H. replace ((1 <=? n) && (n <=? 64)) with false by lia. eauto.
  - intros H nm u vr. replace ((1 <=? n) && (n <=? 64)) with true by lia. unfold field_IsMissing, IsMissing, MISSING_VALUE_OF_NBITS. cbn [f_value f_nbits].
    replace (1 <? n) with true by lia. replace ((1 <=? n) && (n <=? 64)) with true by lia. cbn [andb]. split; [intros ?; f_equal; lia|intros [= <-]; lia].
Qed.
Print Assumptions C80_value.
(** Three bits set: missing as an unsigned number, not as a signed one; a single set bit is not. *)
Example C80_example : forall fs, let fc := mkFconfig false false pl0 fs 0 in
  let s := mkFac (RBit (mkBR [true; true; true; true; false] EEof 0)) (Some (mkMessage [] (Some (mkSection 1 "" 0 0 [])) [])) None None in
  match NewField fc "a" DUINT 3 false s, NewField fc "a" DINT 3 false s, NewField fc "a" DUINT 1 false s, NewField fc "a" DUINT 5 false s with
  | (_, Ok a), (_, Ok b), (_, Ok c), (_, Ok d) => map field_IsMissing [a; b; c; d] = [true; false; false; false]
  | _, _, _, _ => False
  end.
Proof. intros fs. vm_compute. reflexivity. Qed.
