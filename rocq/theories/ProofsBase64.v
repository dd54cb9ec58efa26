(** Strings in JSON are base64. *)
From Coq Require Import ZifyBool ZifyNat.
From Verif Require Import SpecMarshal ProofsBits ProofsBinary.

Definition up_to (n : nat) : list Z := map Z.of_nat (seq 0 n).
Lemma in_up_to n z : 0 <= z < Z.of_nat n -> In z (up_to n).
Proof. intros H. apply in_map_iff. exists (Z.to_nat z). split; [lia|]. apply in_seq. lia. Qed.
Definition cuts (x : Z) : bool :=
  (msb (firstn 6 (byte_bits x)) =? x / 4) && (msb (skipn 6 (byte_bits x)) =? x mod 4) &&
  (msb (firstn 4 (byte_bits x)) =? x / 16) && (msb (skipn 4 (byte_bits x)) =? x mod 16) &&
  (msb (firstn 2 (byte_bits x)) =? x / 64) && (msb (skipn 2 (byte_bits x)) =? x mod 64).
Lemma cuts_all : forallb cuts (up_to 256) = true. Proof. vm_compute. reflexivity. Qed.
Lemma cut_byte x : is_byte x ->
  msb (firstn 6 (byte_bits x)) = x / 4 /\ msb (skipn 6 (byte_bits x)) = x mod 4 /\
  msb (firstn 4 (byte_bits x)) = x / 16 /\ msb (skipn 4 (byte_bits x)) = x mod 16 /\
  msb (firstn 2 (byte_bits x)) = x / 64 /\ msb (skipn 2 (byte_bits x)) = x mod 64.
Proof.
  intros H. pose proof cuts_all as K. rewrite forallb_forall in K. specialize (K x (in_up_to 256 x H)). unfold cuts in K. repeat rewrite andb_true_iff in K. repeat rewrite Z.eqb_eq in K. tauto.
Qed.
Lemma letters_all : forallb (fun n => base64_char n =? nth (Z.to_nat n) base64_alphabet 0) (up_to 64) = true. Proof. vm_compute. reflexivity. Qed.
Lemma letter n : 0 <= n < 64 -> base64_char n = nth (Z.to_nat n) base64_alphabet 0.
Proof. intros H. pose proof letters_all as K. rewrite forallb_forall in K. apply Z.eqb_eq. apply (K n). now apply (in_up_to 64). Qed.
Lemma six l r : length l = 6%nat -> sextets (l ++ r) = l :: sextets r.
Proof. intros H. do 6 (destruct l as [|? l]; [discriminate|]). destruct l; [reflexivity|discriminate]. Qed.
Lemma halves k x : byte_bits x = firstn k (byte_bits x) ++ skipn k (byte_bits x).
Proof. symmetry. apply firstn_skipn. Qed.
Lemma letters_text b : Forall is_byte b -> base64_text b = base64 b.
Proof.
  intros HF. unfold base64_text. cbv zeta.
  assert (G : forall n b, (length b <= n)%nat -> Forall is_byte b ->
    base64 b = map (fun s => nth (Z.to_nat (msb s)) base64_alphabet 0) (sextets (bytes_bits b)) ++ repeat 61 ((3 - length b mod 3) mod 3) /\
    ((4 - length (sextets (bytes_bits b)) mod 4) mod 4 = (3 - length b mod 3) mod 3)%nat).
  { clear b HF. induction n as [|n IH]; intros [|x [|y [|z r]]] Hn HF; cbn [length] in Hn; try (exfalso; lia); try (split; reflexivity).
    - apply Forall_inv in HF. pose proof HF as Hx. destruct (cut_byte x HF) as (E1 & E2 & _). unfold is_byte in Hx.
      change (bytes_bits [x]) with (firstn 6 (byte_bits x) ++ skipn 6 (byte_bits x)). rewrite six by reflexivity.
      change (sextets (skipn 6 (byte_bits x))) with [skipn 6 (byte_bits x) ++ [false; false; false; false]]. split; [|reflexivity].
      cbn [map]. rewrite msb_app, E1, E2. change (msb [false; false; false; false]) with 0. change (2 ^ blen [false; false; false; false]) with 16. rewrite Z.add_0_r.
      cbn [base64]. rewrite !letter by (pose proof (Z.div_mod x 4); lia). reflexivity.
    - inversion HF as [|? ? Hx HF']; subst. inversion HF' as [|? ? Hy _]; subst. destruct (cut_byte x Hx) as (E1 & E2 & _), (cut_byte y Hy) as (_ & _ & F1 & F2 & _). unfold is_byte in *.
      change (bytes_bits [x; y]) with (firstn 6 (byte_bits x) ++ (skipn 6 (byte_bits x) ++ firstn 4 (byte_bits y)) ++ skipn 4 (byte_bits y)). rewrite !six by reflexivity.
      change (sextets (skipn 4 (byte_bits y))) with [skipn 4 (byte_bits y) ++ [false; false]]. split; [|reflexivity].
      cbn [map]. rewrite !msb_app, E1, E2, F1, F2. change (msb [false; false]) with 0. change (2 ^ blen [false; false]) with 4. change (2 ^ blen (firstn 4 (byte_bits y))) with 16. rewrite Z.add_0_r.
      cbn [base64]. rewrite !letter by (pose proof (Z.div_mod x 4); pose proof (Z.div_mod y 16); lia). reflexivity.
    - inversion HF as [|? ? Hx HF']; subst. inversion HF' as [|? ? Hy HF'']; subst. inversion HF'' as [|? ? Hz Hr]; subst.
      destruct (cut_byte x Hx) as (E1 & E2 & _), (cut_byte y Hy) as (_ & _ & F1 & F2 & _), (cut_byte z Hz) as (_ & _ & _ & _ & G1 & G2). unfold is_byte in *.
      change (bytes_bits (x :: y :: z :: r)) with (firstn 6 (byte_bits x) ++ (skipn 6 (byte_bits x) ++ firstn 4 (byte_bits y)) ++ (skipn 4 (byte_bits y) ++ firstn 2 (byte_bits z)) ++ skipn 2 (byte_bits z) ++ bytes_bits r).
      rewrite !six by reflexivity. destruct (IH r ltac:(lia) Hr) as [I1 I2]. split.
      + cbn [map]. rewrite !msb_app, E1, E2, F1, F2, G1, G2. change (2 ^ blen (firstn 4 (byte_bits y))) with 16. change (2 ^ blen (firstn 2 (byte_bits z))) with 4.
        change (base64 (x :: y :: z :: r)) with (base64_char (x / 4) :: base64_char (x mod 4 * 16 + y / 16) :: base64_char (y mod 16 * 4 + z / 64) :: base64_char (z mod 64) :: base64 r).
        rewrite !letter by (pose proof (Z.div_mod x 4); pose proof (Z.div_mod y 16); pose proof (Z.div_mod z 64); lia). rewrite I1.
        change (length (x :: y :: z :: r)) with (3 + length r)%nat. replace ((3 + length r) mod 3)%nat with (length r mod 3)%nat by (replace (3 + length r)%nat with (length r + 1 * 3)%nat by lia; now rewrite Nat.mod_add).
        reflexivity.
      + cbn [length]. change (S (S (S (length r)))) with (3 + length r)%nat. change (S (S (S (S (length (sextets (bytes_bits r))))))) with (4 + length (sextets (bytes_bits r)))%nat.
        replace ((3 + length r) mod 3)%nat with (length r mod 3)%nat by (replace (3 + length r)%nat with (length r + 1 * 3)%nat by lia; now rewrite Nat.mod_add).
        replace ((4 + length (sextets (bytes_bits r))) mod 4)%nat with (length (sextets (bytes_bits r)) mod 4)%nat by (replace (4 + length (sextets (bytes_bits r)))%nat with (length (sextets (bytes_bits r)) + 1 * 4)%nat by lia; now rewrite Nat.mod_add).
        exact I2. }
  destruct (G (length b) b (le_n _) HF) as [G1 G2]. rewrite map_length, G1, G2. reflexivity.
Qed.
Lemma marshal_shown v t : json_form v t -> marshal_value v = Ok t.
Proof.
  destruct 1 as [| |u|i|x Hx|b Hb|n l e p s b Hn H]; try reflexivity.
  - cbn. unfold marshal_float. now rewrite Hx.
  - cbn. now rewrite (letters_text b Hb).
  - destruct (cut l n Hn) as (sl & r & -> & El). rewrite (br_ReadBinary_ok e p n sl r El) in H. injection H as <- <-.
    assert (E : firstn (Z.to_nat n) (sl ++ r) = sl).
    { rewrite <- El. unfold blen. rewrite Nat2Z.id, firstn_app, Nat.sub_diag, firstn_all. cbn. apply app_nil_r. }
    rewrite E. cbn [marshal_value]. unfold Binary_MarshalJSON. rewrite <- El. fold (bin_of sl). rewrite Binary_String_bits. reflexivity.
Qed.
(** Documents made of forms. *)
Lemma slice_form {A} (f : A -> res (list token)) (P : A -> list token -> Prop) l ts :
  (forall x t, P x t -> f x = Ok t) -> Forall2 P l ts -> marshal_slice f l = Ok (json_slice ts).
Proof.
  intros HP H. assert (E : marshal_all f l = Ok (concat ts)).
  { induction H as [|x t l ts Hx _ IH]; [reflexivity|]. cbn [marshal_all concat]. now rewrite (HP _ _ Hx), IH. }
  unfold marshal_slice, json_slice. destruct H; [reflexivity|]. rewrite E. reflexivity.
Qed.
Lemma marshal_document pay ts : payload_document pay ts -> marshal_payload pay = Ok ts.
Proof.
  intros (tss & H & ->). unfold marshal_payload. apply (slice_form _ (fun sb t => exists u, t = json_array u /\ Forall2 json_form (map c_val (sb_cells sb)) u)).
  - intros sb t (u & -> & Hs). unfold marshal_subset.
    enough (E : marshal_all (fun c => one_token (marshal_value (c_val c))) (sb_cells sb) = Ok u) by (rewrite E; reflexivity).
    revert u Hs. induction (sb_cells sb) as [|c r IHr]; intros ts Hs; inversion Hs as [|v t vs ts' Hv Hr]; subst; [reflexivity|].
    cbn [marshal_all]. rewrite (marshal_shown _ _ Hv), (IHr _ Hr). reflexivity.
  - induction H; cbn [map]; constructor; eauto.
Qed.
Lemma marshal_field_form v ts : field_form v ts -> marshal_fvalue v = Ok ts.
Proof.
  destruct 1 as [u|i|x Hx|b|b Hb|b t Hb|ids|c pay ts Hp]; try reflexivity.
  - cbn. unfold marshal_float. now rewrite Hx.
  - cbn. now rewrite (letters_text b Hb).
  - apply marshal_shown in Hb. destruct b; cbn in Hb |- *; now injection Hb as <-.
  - apply marshal_document, Hp.
Qed.
