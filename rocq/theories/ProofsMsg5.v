(** Finding a message, and decoding a whole one. *)
From Coq Require Import ZifyBool ZifyNat.
From Verif Require Export ProofsMsg4.
From Verif Require Import ProofsBits ProofsBitProps ProofsUnpack ProofsTable.
From Verif Require Import SpecMessage ModelFactory.
Notation field := ModelFactory.field.

(** ** Whole bytes *)
Lemma app_inv_len {A} (a b c d : list A) : length a = length c -> a ++ b = c ++ d -> a = c /\ b = d.
Proof. revert c. induction a as [|x a IH]; intros [|y c] H E; try discriminate; [split; [reflexivity|exact E]|]. injection H as H. injection E as -> E. destruct (IH _ H E) as [-> ->]. auto. Qed.
Lemma chunks8_whole k : forall l : list bool, length l = (8 * k)%nat -> bytes_bits (map msb (chunks8 l)) = l.
Proof.
  induction k as [|k IH]; intros l H.
  - destruct l; [reflexivity|discriminate].
  - destruct (split_at 8 l) as (c & r & -> & Hc & _); [lia|]. rewrite chunks8_cons by exact Hc. cbn [map]. rewrite bytes_bits_cons.
    rewrite IH by (rewrite app_length in H; lia). f_equal.
    do 8 (destruct c as [|? c]; [discriminate|]). destruct c; [|discriminate].
    repeat match goal with b : bool |- _ => destruct b end; reflexivity.
Qed.
Lemma signature_bits l : 32 <= blen l -> (gs_eqb (map msb (chunks8 (firstn 32 l))) BUFR = true <-> signed_here l).
Proof.
  intros H. assert (L : length (firstn 32 l) = (8 * 4)%nat) by (rewrite firstn_length; unfold blen in H; lia).
  rewrite gs_eqb_eq. split.
  - intros E. exists (skipn 32 l). rewrite <- (firstn_skipn 32 l) at 1. rewrite <- (chunks8_whole 4 _ L), E. reflexivity.
  - intros [rest ->]. change (firstn 32 (bytes_bits [66; 85; 70; 82] ++ rest)) with (bytes_bits BUFR). apply chunks8_bytes.
    unfold BUFR. repeat constructor; unfold is_byte; lia.
Qed.
Lemma signed_len l : signed_here l -> 32 <= blen l.
Proof. intros [r ->]. rewrite blen_app, blen_bytes_bits. pose proof (blen_nonneg r). change (blen [66; 85; 70; 82]) with 4. lia. Qed.

(** ** Peeking *)
Lemma peek4 l e p : 0 <= p -> p mod 8 = 0 -> blen l mod 8 = 0 ->
  r_PeekBytes 0 4 (RBit (mkBR l e p)) = (RBit (mkBR l e p),
    if blen l <? 32 then Err (EWrap "cannot peek bytes" e) else Ok (map msb (chunks8 (firstn 32 l)))).
Proof.
  intros Hp H1 H2. unfold r_PeekBytes, on_reader, pbr_PeekBytes. rewrite pbr_peek_spec by (cbn [br_pos br_bits]; lia). cbn [br_bits br_err].
  change (8 * (0 + 4)) with 32. destruct (blen l <? 32) eqn:E; [reflexivity|]. change (Z.to_nat (8 * 0)) with 0%nat. change (Z.to_nat (8 * 4)) with 32%nat. cbn [skipn].
  rewrite <- (app_nil_r (firstn 32 l)) at 1. rewrite br_ReadBytes_ok; [reflexivity|lia|]. unfold blen. rewrite firstn_length. unfold blen in E. lia.
Qed.
Lemma peek_edition pl l e p : 0 <= p -> p mod 8 = 0 -> blen l mod 8 = 0 -> 64 <= blen l ->
  r_PeekUint pl 7 8 (RBit (mkBR l e p)) = (RBit (mkBR l e p), Ok (msb (firstn 8 (skipn 56 l)))).
Proof.
  intros Hp H1 H2 Hl. unfold r_PeekUint, on_reader, pbr_PeekUint. change (go_quot 8 8 + (if 0 <? go_rem 8 8 then 1 else 0)) with 1.
  rewrite pbr_peek_spec by (cbn [br_pos br_bits]; lia). cbn [br_bits br_err].
  change (8 * (7 + 1)) with 64. replace (blen l <? 64) with false by lia. change (Z.to_nat (8 * 7)) with 56%nat. change (Z.to_nat (8 * 1)) with 8%nat.
  set (b := firstn 8 (skipn 56 l)). assert (Hb : blen b = 8) by (unfold b, blen; rewrite firstn_length, skipn_length; unfold blen in Hl; lia).
  rewrite <- (app_nil_r b) at 1. rewrite br_ReadUint_ok by lia. cbn [snd]. pose proof (msb_bound b) as B. rewrite Hb in B.
  change (2 ^ 8) with 256 in B. replace (u64 (msb b)) with (msb b); [reflexivity|]. unfold u64. rewrite Z.mod_small; [reflexivity|lia].
Qed.
Lemma peek_edition_inv pl l e p r x : 0 <= p -> p mod 8 = 0 -> blen l mod 8 = 0 ->
  r_PeekUint pl 7 8 (RBit (mkBR l e p)) = (r, Ok x) -> 64 <= blen l.
Proof.
  intros Hp H1 H2. unfold r_PeekUint, on_reader, pbr_PeekUint. change (go_quot 8 8 + (if 0 <? go_rem 8 8 then 1 else 0)) with 1.
  rewrite pbr_peek_spec by (cbn [br_pos br_bits]; lia). cbn [br_bits br_err].
  change (8 * (7 + 1)) with 64. destruct (blen l <? 64) eqn:E; [discriminate|]. lia.
Qed.

(** ** Seeking *)
Definition fst_ (l : list bool) (e : err) (p : Z) m ut g : fac := mkFac (RBit (mkBR l e p)) m ut g.
Lemma seek_step n l e p m ut g : 0 <= p -> p mod 8 = 0 -> blen l mod 8 = 0 ->
  SeekStartSignature (S n) (fst_ l e p m ut g) =
  if blen l <? 32 then (fst_ l e p m ut g, Err (EWrap "cannot peek bytes" e))
  else if gs_eqb (map msb (chunks8 (firstn 32 l))) BUFR then (fst_ l e p m ut g, Ok tt)
  else SeekStartSignature n (fst_ (skipn 8 l) e (p + 8) m ut g).
Proof.
  intros Hp H1 H2. unfold fst_ at 1. cbn [SeekStartSignature]. unfold bind at 1. rewrite (onr_eq _ _ _ _ _ _ _ _ _ (peek4 l e p Hp H1 H2)).
  destruct (blen l <? 32) eqn:E; [reflexivity|].
  assert (L : length (firstn 32 l) = (8 * 4)%nat) by (rewrite firstn_length; unfold blen in E; lia).
  assert (LB : length (map msb (chunks8 (firstn 32 l))) = 4%nat).
  { pose proof (f_equal (@length bool) (chunks8_whole 4 _ L)) as K. rewrite length_bytes_bits, L in K. lia. }
  rewrite LB. cbn [Nat.ltb Nat.leb]. destruct (gs_eqb _ BUFR); [reflexivity|].
  rewrite <- (firstn_skipn 8 l) at 1. rewrite (onr_eq _ _ _ _ _ _ _ _ _ (rd_bytes 1 (firstn 8 l) (skipn 8 l) e p ltac:(lia) ltac:(unfold blen; rewrite firstn_length; unfold blen in E; lia))).
  reflexivity.
Qed.
Lemma skip_len (l : list bool) : 8 <= blen l -> blen (skipn 8 l) = blen l - 8.
Proof. unfold blen. rewrite skipn_length. lia. Qed.
Lemma first_here bits : signed_here bits -> first_signature [] bits.
Proof. intros H. split; [reflexivity|]. split; [exact H|]. intros a b E _ Hb. symmetry in E. apply app_eq_nil in E. tauto. Qed.
Lemma first_next c skipped bits : blen c = 8 -> ~ signed_here (c ++ skipped ++ bits) -> first_signature skipped bits -> first_signature (c ++ skipped) bits.
Proof.
  intros Hc Hn (H8 & Hs & Hf). split; [rewrite blen_app; lia|]. split; [exact Hs|]. intros a b E Ha Hb.
  destruct (Z.lt_ge_cases (blen a) 8) as [D|D].
  - pose proof (blen_nonneg a). assert (a = []) as -> by (apply blen_0; lia). cbn [app] in E. subst b. now rewrite <- app_assoc.
  - destruct (cut_bits a 8) as (a1 & a2 & -> & La); [lia|lia|]. rewrite <- app_assoc in E.
    apply app_inv_len in E; [|unfold blen in Hc, La; lia]. destruct E as [_ E]. apply (Hf a2 b E); [rewrite blen_app in Ha; lia|exact Hb].
Qed.
Lemma seek_inv n : forall l e p m ut g s', 0 <= p -> p mod 8 = 0 -> blen l mod 8 = 0 ->
  SeekStartSignature n (fst_ l e p m ut g) = (s', Ok tt) ->
  exists skipped bits, l = skipped ++ bits /\ first_signature skipped bits /\ s' = fst_ bits e (p + blen skipped) m ut g.
Proof.
  induction n as [|n IH]; intros l e p m ut g s' Hp H1 H2 H; [discriminate|]. rewrite seek_step in H by assumption.
  destruct (blen l <? 32) eqn:E; [discriminate|]. destruct (gs_eqb _ BUFR) eqn:G.
  - injection H as <-. exists [], l. split; [reflexivity|]. split; [apply first_here, signature_bits; [lia|exact G]|]. rewrite blen_nil, Z.add_0_r. reflexivity.
  - pose proof (skip_len l ltac:(lia)) as L. apply IH in H; [|lia|lia|lia]. destruct H as (skipped & bits & Hl & Hf & ->).
    assert (Hc : blen (firstn 8 l) = 8) by (unfold blen; rewrite firstn_length; unfold blen in E; lia).
    exists (firstn 8 l ++ skipped), bits. rewrite <- app_assoc, <- Hl, firstn_skipn. split; [reflexivity|]. split.
    + apply first_next; [exact Hc| |exact Hf]. rewrite <- Hl, firstn_skipn. intros K. apply signature_bits in K; [congruence|lia].
    + rewrite blen_app, Hc. now rewrite Z.add_assoc.
Qed.
Lemma first_tail c skipped bits : blen c = 8 -> first_signature (c ++ skipped) bits -> first_signature skipped bits.
Proof.
  intros Hc (H8 & Hs & Hf). rewrite blen_app in H8. split; [lia|]. split; [exact Hs|]. intros a b E Ha Hb. apply (Hf (c ++ a) b); [now rewrite E, app_assoc|rewrite blen_app; lia|exact Hb].
Qed.
Lemma seek_ok n : forall skipped bits e p m ut g, 0 <= p -> p mod 8 = 0 -> blen bits mod 8 = 0 -> first_signature skipped bits ->
  blen skipped < 8 * Z.of_nat n ->
  SeekStartSignature n (fst_ (skipped ++ bits) e p m ut g) = (fst_ bits e (p + blen skipped) m ut g, Ok tt).
Proof.
  induction n as [|n IH]; intros skipped bits e p m ut g Hp H1 H2 Hf Hn; [pose proof (blen_nonneg skipped); lia|].
  destruct Hf as (H8 & Hs & Hf0). pose proof (signed_len _ Hs) as L. pose proof (blen_nonneg skipped) as B.
  rewrite seek_step by (rewrite ?blen_app; lia). rewrite blen_app. replace (blen skipped + blen bits <? 32) with false by lia.
  destruct (Z.eq_dec (blen skipped) 0) as [Z0|Z0].
  - assert (skipped = []) as -> by (apply blen_0; lia). cbn [app]. rewrite (proj2 (signature_bits bits L) Hs). rewrite blen_nil, Z.add_0_r. reflexivity.
  - destruct (cut_bits skipped 8) as (c & sk & -> & Hc); [lia|lia|]. destruct (gs_eqb _ BUFR) eqn:G.
    { exfalso. apply signature_bits in G; [|rewrite !blen_app in *; pose proof (blen_nonneg sk); lia]. apply (Hf0 [] (c ++ sk)); [reflexivity|reflexivity| |exact G].
      intros K. apply app_eq_nil in K. destruct K as [-> _]. discriminate. }
    rewrite <- app_assoc. replace (skipn 8 (c ++ sk ++ bits)) with (sk ++ bits).
    2:{ replace 8%nat with (length c) by (unfold blen in Hc; lia). rewrite skipn_app, skipn_all, Nat.sub_diag. reflexivity. }
    rewrite blen_app in *. rewrite IH; [rewrite Hc, Z.add_assoc; reflexivity|lia|lia|exact H2| |lia].
    apply (first_tail c); [exact Hc|]. split; [rewrite blen_app; lia|split; [exact Hs|exact Hf0]].
Qed.
Lemma seek_none n : forall l e p m ut g, 0 <= p -> p mod 8 = 0 -> blen l mod 8 = 0 -> no_signature l ->
  blen l < 8 * Z.of_nat n -> exists s' x, SeekStartSignature n (fst_ l e p m ut g) = (s', Err x).
Proof.
  induction n as [|n IH]; intros l e p m ut g Hp H1 H2 Hf Hn; [pose proof (blen_nonneg l); lia|]. rewrite seek_step by assumption.
  destruct (blen l <? 32) eqn:E; [eauto|]. destruct (gs_eqb _ BUFR) eqn:G.
  { exfalso. apply signature_bits in G; [|lia]. exact (Hf [] l eq_refl eq_refl G). }
  pose proof (skip_len l ltac:(lia)) as L. apply IH; [lia|lia|lia| |lia]. intros a b E' Ha. apply (Hf (firstn 8 l ++ a) b); [now rewrite <- app_assoc, <- E', firstn_skipn|].
  rewrite blen_app. unfold blen at 1. rewrite firstn_length. unfold blen in E. replace (Z.of_nat (Nat.min 8 (length l))) with 8 by lia. lia.
Qed.

(** ** Fields by name *)
Fixpoint slot_of (nm : string) (slots : list slot) : option (datatype * Z * bool) :=
  match slots with
  | [] => None
  | (n, t, w, px) :: slots' => if String.eqb n nm then Some (t, w, px) else slot_of nm slots'
  end.
Fixpoint once (nm : string) (slots : list slot) : bool :=
  match slots with
  | [] => true
  | (n, _, _, _) :: slots' => if String.eqb n nm then match slot_of nm slots' with None => true | Some _ => false end else once nm slots'
  end.
Lemma fills_find nm slots bits fs : fills slots bits fs -> forall t w px, slot_of nm slots = Some (t, w, px) ->
  exists seg, blen seg = w /\ forall more, find_field nm (fs ++ more) = Some (mkField nm (meaning t seg) w false).
Proof.
  induction 1 as [|n t w px slots seg bits fs Hl _ IH]; intros t' w' px' H; [discriminate|]. cbn [slot_of] in H. cbn [app find_field f_name].
  destruct (String.eqb n nm) eqn:E; [|eauto]. apply String.eqb_eq in E. subst n. injection H as <- <- <-. eauto.
Qed.
Lemma registers_other nm slots bits fs : fills slots bits fs -> slot_of nm slots = None -> forall prox, proxy_get nm (registers slots fs prox) = proxy_get nm prox.
Proof.
  induction 1 as [|n t w px slots seg bits fs Hl _ IH]; intros H prox; [reflexivity|]. cbn [slot_of] in H. cbn [registers f_name].
  destruct (String.eqb n nm) eqn:E; [discriminate|]. rewrite (IH H). destruct px; [|reflexivity]. cbn [proxy_get]. now rewrite E.
Qed.
Lemma registers_find nm slots bits fs : fills slots bits fs -> once nm slots = true -> forall t w, slot_of nm slots = Some (t, w, true) ->
  forall more prox, proxy_get nm (registers slots fs prox) = find_field nm (fs ++ more).
Proof.
  induction 1 as [|n t w px slots seg bits fs Hl Hf IH]; intros H t' w' H' more prox; [discriminate|]. cbn [slot_of once] in H, H'. cbn [registers find_field app f_name].
  destruct (String.eqb n nm) eqn:E; [|eapply IH; eassumption].
  injection H' as -> -> ->. destruct (slot_of nm slots) eqn:E2; [discriminate|]. rewrite (registers_other nm _ _ _ Hf E2). cbn [proxy_get]. now rewrite E.
Qed.
