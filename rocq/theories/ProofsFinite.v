(** Lemmas for C91: what Run takes from its input. *)
From Verif Require Import ProofsBits.
From Verif Require Export ProofsBufio2 SpecMessage.

Section Eat.
  Context {S : Type}.
  Variable look : S -> option (list bool).
  (** [m] leaves a suffix of the bits; if it succeeds, at least [n] of them are gone. *)
  Definition eat (n : Z) {A} (m : M S A) : Prop := forall s l, look s = Some l ->
    exists used l', look (fst (m s)) = Some l' /\ l = used ++ l' /\ (forall a, snd (m s) = Ok a -> n <= blen used).
  Lemma eat_less {A} n n' (m : M S A) : n' <= n -> eat n m -> eat n' m.
  Proof. intros Hn H s l E. destruct (H s l E) as (u & l' & H1 & H2 & H3). exists u, l'. split; [exact H1|]. split; [exact H2|]. intros a Ha. specialize (H3 a Ha). lia. Qed.
  Lemma eat_const {A} (x : res A) : eat 0 (fun s => (s, x)).
  Proof. intros s l E. exists [], l. cbn. split; [exact E|]. split; [reflexivity|]. intros a _. lia. Qed.
  Lemma eat_fail {A} n (x : res A) : (forall a, x <> Ok a) -> eat n (fun s => (s, x)).
  Proof. intros Hx s l E. exists [], l. cbn. split; [exact E|]. split; [reflexivity|]. intros a Ha. now apply Hx in Ha. Qed.
  Lemma eat_bind {A B} n k (m : M S A) (f : A -> M S B) : eat n m -> (forall a, eat k (f a)) -> eat (n + k) (bind m f).
  Proof.
    intros Hm Hf s l E. destruct (Hm s l E) as (u & l1 & H1 & H2 & H3). unfold bind. destruct (m s) as [s1 [a|e|p|]]; cbn [fst snd] in *.
    - destruct (Hf a s1 l1 H1) as (u2 & l2 & K1 & K2 & K3). exists (u ++ u2), l2. split; [exact K1|]. split; [rewrite H2, K2; now rewrite <- app_assoc|].
      intros b Hb. specialize (H3 a eq_refl). specialize (K3 b Hb). rewrite blen_app. lia.
    - exists u, l1. split; [exact H1|]. split; [exact H2|]. discriminate.
    - exists u, l1. split; [exact H1|]. split; [exact H2|]. discriminate.
    - exists u, l1. split; [exact H1|]. split; [exact H2|]. discriminate.
  Qed.
End Eat.

(** ** The bits, the bit reader *)
Notation eatl := (eat (@Some (list bool))).
Notation eatb := (eat (fun b : bitreader => Some (br_bits b))).
Lemma el_bit e : eatl 1 (lib_read_bit e).
Proof.
  intros s l E. injection E as ->. destruct l as [|b r]; cbn.
  - exists [], []. split; [reflexivity|]. split; [reflexivity|discriminate].
  - exists [b], r. split; [reflexivity|]. split; [reflexivity|]. intros a _. reflexivity.
Qed.
Lemma el_byte e : eatl 8 (lib_read_byte e).
Proof.
  intros s l E. injection E as ->.
  assert (D : (exists b7 b6 b5 b4 b3 b2 b1 b0 r, l = b7 :: b6 :: b5 :: b4 :: b3 :: b2 :: b1 :: b0 :: r) \/ lib_read_byte e l = (l, Err e)).
  { do 8 (destruct l as [|? l]; [now right|]). left. eauto 12. }
  destruct D as [(b7 & b6 & b5 & b4 & b3 & b2 & b1 & b0 & r & ->)| ->]; cbn [lib_read_byte fst snd].
  - exists [b7; b6; b5; b4; b3; b2; b1; b0], r. split; [reflexivity|]. split; [reflexivity|]. intros a _. reflexivity.
  - exists [], l. split; [reflexivity|]. split; [reflexivity|discriminate].
Qed.
Lemma el_bytes e k : forall u, eatl (8 * Z.of_nat k) (lib_read_bits_bytes e k u).
Proof.
  induction k as [|k IH]; intros u; cbn [lib_read_bits_bytes]; [apply eat_const|]. apply (eat_less _ (8 + 8 * Z.of_nat k)); [lia|].
  apply eat_bind; [apply el_byte|]. intros b. apply IH.
Qed.
Lemma el_bits e k : forall u, eatl (Z.of_nat k) (lib_read_bits_bits e k u).
Proof.
  induction k as [|k IH]; intros u; cbn [lib_read_bits_bits]; [apply eat_const|]. apply (eat_less _ (1 + Z.of_nat k)); [lia|].
  apply eat_bind; [apply el_bit|]. intros b. apply IH.
Qed.
Lemma el_read e n : eatl (Z.max 0 n) (lib_read_bits e n).
Proof.
  unfold lib_read_bits. destruct (Z.leb_spec n 0); [apply (eat_less _ 0); [lia|apply eat_const]|].
  apply (eat_less _ (8 * Z.of_nat (Z.to_nat (n / 8)) + Z.of_nat (Z.to_nat (n mod 8)))).
  { pose proof (Z.div_mod n 8 ltac:(lia)). pose proof (Z.mod_pos_bound n 8 ltac:(lia)). pose proof (Z.div_pos n 8 ltac:(lia) ltac:(lia)). rewrite !Z2Nat.id by lia. lia. }
  apply eat_bind; [apply el_bytes|]. intros u. apply el_bits.
Qed.
Lemma eb_lib {A} n (f : err -> M (list bool) A) : (forall e, eatl n (f e)) -> eatb n (br_lib f).
Proof.
  intros H s l E. injection E as <-. destruct (H (br_err s) (br_bits s) _ eq_refl) as (u & l' & H1 & H2 & H3). unfold br_lib. destruct (f (br_err s) (br_bits s)) as [bs x].
  cbn in *. injection H1 as ->. eauto.
Qed.
Lemma eb_pos d : eatb 0 (br_add_pos d).
Proof. intros s l E. exists [], l. cbn in *. split; [exact E|]. split; [reflexivity|]. intros. lia. Qed.
Lemma eb_Uint n : eatb (Z.max 0 n) (br_ReadUint n).
Proof. unfold br_ReadUint. change (Z.max 0 n) with (0 + Z.max 0 n) at 1. apply eat_bind; [apply eb_pos|]. intros _. apply eb_lib. intros e. apply el_read. Qed.
Lemma eb_Bool : eatb 1 br_ReadBool.
Proof. unfold br_ReadBool. change 1 with (0 + 1). apply eat_bind; [apply eb_pos|]. intros _. apply eb_lib. apply el_bit. Qed.
Lemma eb_Int n : eatb (1 + Z.max 0 (n - 1)) (br_ReadInt n).
Proof.
  unfold br_ReadInt. apply eat_bind; [apply eb_Bool|]. intros neg. change (Z.max 0 (n - 1)) with (0 + Z.max 0 (n - 1)). apply eat_bind; [apply eb_pos|]. intros _.
  rewrite <- (Z.add_0_r (Z.max 0 (n - 1))). apply eat_bind; [apply eb_lib; intros e; apply el_read|]. intros v. apply eat_const.
Qed.
Lemma e_replicate {S} look {A} n k (m : M S A) : eat look n m -> eat look (n * Z.of_nat k) (replicateM k m).
Proof.
  intros H. induction k as [|k IH]; cbn [replicateM]; [apply (eat_less _ 0); [lia|apply eat_const]|].
  apply (eat_less _ (n + (n * Z.of_nat k + 0))); [lia|]. apply eat_bind; [exact H|]. intros a. apply eat_bind; [exact IH|]. intros l. apply eat_const.
Qed.
Lemma eb_Bytes n : eatb (8 * Z.max 0 n) (br_ReadBytes n).
Proof.
  unfold br_ReadBytes. change (8 * Z.max 0 n) with (0 + 8 * Z.max 0 n). apply eat_bind; [apply eb_pos|]. intros _. destruct (Z.ltb_spec n 0).
  - apply eat_fail. discriminate.
  - apply (eat_less _ (8 * Z.of_nat (Z.to_nat n))); [lia|]. apply e_replicate. apply eb_lib. apply el_byte.
Qed.
Lemma eb_Binary n : eatb 0 (br_ReadBinary n).
Proof.
  assert (L : forall k n, eatb 0 (br_ReadBinary_loop k n)).
  { clear n. induction k as [|k IH]; intros n; cbn [br_ReadBinary_loop]; [apply eat_const|].
    apply (eat_less _ (Z.max 0 (if n <? NBITS_PER_BYTE then n else NBITS_PER_BYTE) + (0 + 0))); [lia|]. apply eat_bind; [apply eb_lib; intros e; apply el_read|]. intros v.
    apply eat_bind; [apply IH|]. intros l. apply eat_const. }
  intros s l E. pose proof (eat_bind _ 0 0 _ (fun _ => br_ReadBinary_loop (Z.to_nat ((n + 7) / 8)) n) (eb_pos n) (fun _ => L _ _) s l E) as (u & l' & H1 & H2 & _).
  unfold br_ReadBinary. cbv beta in H1. destruct (bind _ _ s) as [s' [a|e|p|]]; (exists u, l'; split; [exact H1|]; split; [exact H2|]; intros; apply blen_nonneg).
Qed.
Lemma eb_ask q : eatb 0 (bit_ask q).
Proof.
  destruct q; cbn [bit_ask]; unfold get.
  - apply (eat_bind _ 0 0); [|intros; apply eat_const]. intros s l E. exists [], l. cbn. split; [exact E|]. split; [reflexivity|]. intros; lia.
  - apply (eat_less _ (Z.max 0 n + 0 + 0)); [lia|]. apply eat_bind; [|intros; apply eat_const]. apply eat_bind; [apply eb_Uint|intros; apply eat_const].
  - apply (eat_less _ (Z.max 0 n + 0)); [lia|]. apply eat_bind; [apply eb_Uint|intros; apply eat_const].
  - apply (eat_less _ (1 + Z.max 0 (n - 1) + 0)); [lia|]. apply eat_bind; [apply eb_Int|intros; apply eat_const].
  - apply (eat_less _ (1 + 0)); [lia|]. apply eat_bind; [apply eb_Bool|intros; apply eat_const].
  - apply (eat_less _ (8 * Z.max 0 n + 0)); [lia|]. apply eat_bind; [apply eb_Bytes|intros; apply eat_const].
  - apply (eat_bind _ 0 0); [apply eb_Binary|intros; apply eat_const].
  - apply (eat_less _ (Z.max 0 32 + 0 + 0)); [lia|]. apply eat_bind; [|intros; apply eat_const]. apply eat_bind; [apply eb_Uint|intros; apply eat_const].
  - apply (eat_bind _ 0 0); [|intros; apply eat_const]. intros s l E. exists [], l. cbn. split; [exact E|]. split; [reflexivity|]. intros; apply Z.le_refl.
  - apply (eat_bind _ 0 0); [|intros; apply eat_const]. intros s l E. exists [], l. cbn. split; [exact E|]. split; [reflexivity|]. intros; apply Z.le_refl.
Qed.
Lemma run_suffix {A} (p : prog A) : forall b, exists used, br_bits b = used ++ br_bits (fst (run bit_ask p b)).
Proof.
  induction p as [x|q k IH]; intros b; cbn [run]; [now exists []|].
  destruct (eb_ask q b _ eq_refl) as (u & l' & H1 & H2 & _). destruct (bit_ask q b) as [b1 x]. cbn [fst] in H1. injection H1 as <-.
  destruct (IH x b1) as (u2 & E). exists (u ++ u2). rewrite H2, E. now rewrite <- app_assoc.
Qed.

(** ** The factory *)
Definition look_f (s : fac) : option (list bool) := match fa_r s with RBit b => Some (br_bits b) | _ => None end.
Notation eatf := (eat look_f).
Lemma ef_uses {A} (m : M fac A) : uses put_f m -> eatf 0 m.
Proof.
  intros H s l E. unfold look_f in E. destruct (fa_r s) as [b|] eqn:Eb; [|discriminate]. injection E as <-.
  destruct (H s) as [p Hp]. specialize (Hp b). assert (Es : put_f b s = s) by (destruct s; cbn in *; now rewrite Eb). rewrite Es in Hp. rewrite Hp.
  destruct (run_suffix p b) as (u & Hu). exists u, (br_bits (fst (run bit_ask p b))). split; [reflexivity|]. split; [exact Hu|]. intros; apply blen_nonneg.
Qed.
Lemma ef_onr {A} n mb mj : eatb n mb -> eatf n (onr (@on_reader A mb mj)).
Proof.
  intros H s l E. unfold look_f in E. destruct (fa_r s) as [b|] eqn:Eb; [|discriminate]. injection E as <-.
  destruct (H b _ eq_refl) as (u & l' & H1 & H2 & H3). unfold onr, zoom, on_reader. rewrite Eb. destruct (mb b) as [b' x]. cbn in *. eauto.
Qed.
Lemma ef_lua {A} n (m : M fac A) : eatf n m -> eatf n (lua_call m).
Proof.
  intros H s l E. destruct (H s l E) as (u & l' & H1 & H2 & H3). unfold lua_call. destruct (m s) as [s' [a|e|p|]]; (exists u, l'; split; [exact H1|]; split; [exact H2|]); try exact H3; discriminate.
Qed.
Definition width (ty : string) (n : Z) : Z :=
  match lua_to_datatype (lua_datatype ty) with
  | DUINT => Z.max 0 n | DINT => 1 + Z.max 0 (n - 1) | DBOOL => 1 | DBYTES => 8 * Z.max 0 (go_quot n NBITS_PER_BYTE) | _ => 0
  end.
Lemma eat_bind0 {S} look {A B} n (m : M S A) (f : A -> M S B) : eat look n m -> (forall a, eat look 0 (f a)) -> eat look n (bind m f).
Proof. intros Hm Hf. rewrite <- (Z.add_0_r n). now apply eat_bind. Qed.
Lemma ef_newField fc name ty n p : eatf (width ty n) (newField fc name ty n p).
Proof.
  unfold newField, width. apply ef_lua. unfold NewField. apply eat_bind0.
  - destruct (lua_to_datatype (lua_datatype ty)); try (apply ef_uses; fsolve); (apply eat_bind0; [apply ef_onr|intros; apply eat_const]);
      first [apply eb_Uint|apply eb_Int|apply eb_Bool|apply eb_Bytes].
  - intros v. apply ef_uses. cbv zeta. fsolve.
Qed.
Ltac estep :=
  lazymatch goal with
  | |- eat _ _ (bind _ _) => eapply eat_bind; [|intros ?]
  | |- eat _ _ (newField _ _ _ _ _) => apply ef_newField
  | |- eat _ _ (newField_ _ _ _ _ _) => unfold newField_; apply eat_bind0; [apply ef_newField|intros; apply eat_const]
  | |- eat _ _ (if _ then _ else _) => apply ef_uses; unfold section2; fsolve
  | |- _ => apply ef_uses; fsolve
  end.
Lemma e_boot fc : eatf 328 (boot fc).
Proof.
  unfold boot. apply (eat_less _ (0 + 328)); [lia|]. apply eat_bind; [apply ef_uses; fsolve|]. intros ed.
  destruct (ed =? 4); [|destruct (ed =? 3); [|apply eat_fail; discriminate]].
  - unfold deserialise, section0, section1_4, section3, section4, section5. eapply eat_less; [|repeat estep]. vm_compute. discriminate.
  - unfold deserialise, section0, section1_3, section3, section4, section5. eapply eat_less; [|repeat estep]. vm_compute. discriminate.
Qed.
Lemma e_Run fc : eatf 328 (Run fc).
Proof.
  unfold Run. apply (eat_less _ (0 + 328)); [lia|]. apply eat_bind; [apply ef_uses, u_Seek|]. intros _. apply eat_bind0; [apply e_boot|]. intros _. apply ef_uses, u_get_msg.
Qed.
