(** Property theorem C91: messages end. *)
From Verif Require Import ProofsBits ProofsMsg8 PropsMessage.
From Verif Require Export SpecInterp ProofsFinite.

(** ** A finite input holds finitely many messages *)

(** Whatever comes of it, a call of Run leaves a suffix of what it found; a message takes at
    least 41 bytes. *)
Definition least : Z := 8 * 41.
Theorem C91_consumes : forall fc s r, reads s r -> exists used r', br_bits r = used ++ br_bits r' /\
  reads (fst (Run fc s)) r' /\ (forall m, snd (Run fc s) = Ok m -> least <= blen used).
Proof.
  intros fc s r H. unfold reads in *. assert (L : look_f s = Some (br_bits r)) by (unfold look_f; now rewrite H).
  destruct (e_Run fc s _ L) as (u & l' & H1 & H2 & H3). unfold look_f in H1. destruct (fa_r (fst (Run fc s))) as [r'|]; [|discriminate].
  injection H1 as <-. exists u, r'. auto.
Qed.
Print Assumptions C91_consumes.

Definition is_ok {A} (x : res A) : bool := match x with Ok _ => true | _ => false end.
(** However often Run is called, also after failures: *)
Theorem C91_count : forall fc n s r, reads s r ->
  least * blen (filter is_ok (snd (repeated (Run fc) n s))) <= blen (br_bits r).
Proof.
  intros fc n. induction n as [|n IH]; intros s r H; cbn [repeated snd filter]; [rewrite Z.mul_0_r; apply blen_nonneg|].
  destruct (C91_consumes fc s r H) as (u & r' & E & H1 & H2). destruct (Run fc s) as [s1 x]. cbn [fst snd] in *. specialize (IH s1 r' H1). destruct (repeated (Run fc) n s1) as [s2 xs]. cbn [snd] in *.
  rewrite E, blen_app. pose proof (blen_nonneg u). cbn [filter]. destruct x as [m|e|p|]; cbn [is_ok]; try lia.
  specialize (H2 m eq_refl). rewrite blen_cons. lia.
Qed.
Print Assumptions C91_count.

(** So a program that decodes message by message until a call fails ends: after at most as
    many calls as there are 41 bytes, and one. *)
Theorem C91_loop_ends : forall fc n s r ms s' x, reads s r -> Runs fc n s = (ms, s', x) ->
  least * blen ms <= blen (br_bits r) /\
  (blen (br_bits r) < least * Z.of_nat n -> exists s0, Run fc s0 = (s', x) /\ forall m, x <> Ok m).
Proof.
  intros fc n. induction n as [|n IH]; intros s r ms s' x H E; cbn [Runs] in E.
  - injection E as <- <- <-. pose proof (blen_nonneg (br_bits r)). split; [exact H0|]. intros K. exfalso. rewrite Z.mul_0_r in K. lia.
  - destruct (C91_consumes fc s r H) as (u & r' & Eb & H1 & H2). destruct (Run fc s) as [s1 y] eqn:ER. cbn [fst snd] in *.
    pose proof (blen_nonneg u). pose proof (blen_nonneg (br_bits r')). destruct y as [m|e|p|].
    + destruct (Runs fc n s1) as [[ms1 s2] x1] eqn:E1. injection E as <- <- <-. destruct (IH s1 r' ms1 s2 x1 H1 E1) as (K1 & K2). specialize (H2 m eq_refl).
      rewrite Eb, blen_app, blen_cons. split; [lia|]. intros K. apply K2. lia.
    + injection E as <- <- <-. split; [cbn; rewrite Eb, blen_app; lia|]. intros _. exists s. split; [exact ER|discriminate].
    + injection E as <- <- <-. split; [cbn; rewrite Eb, blen_app; lia|]. intros _. exists s. split; [exact ER|discriminate].
    + injection E as <- <- <-. split; [cbn; rewrite Eb, blen_app; lia|]. intros _. exists s. split; [exact ER|discriminate].
Qed.
Print Assumptions C91_loop_ends.

(** ** A message is known when its last byte is *)

Lemma signed_long a b : 32 <= blen a -> signed_here (a ++ b) -> signed_here a.
Proof.
  intros L (r & E). exists (skipn 32 a). assert (F : firstn 32 (a ++ b) = bytes_bits [66; 85; 70; 82]) by (rewrite E; reflexivity).
  rewrite firstn_app in F. replace (32 - length a)%nat with O in F by (unfold blen in L; lia). rewrite firstn_O, app_nil_r in F. rewrite <- F. symmetry. apply firstn_skipn.
Qed.
Lemma signed_more a b : signed_here a -> signed_here (a ++ b).
Proof. intros (r & ->). exists (r ++ b). now rewrite <- app_assoc. Qed.
Lemma message_long fc at_ bits secs : is_message fc at_ bits secs -> 32 <= blen bits.
Proof.
  intros (ed & b0 & b1 & b2 & b3 & b4 & b5 & s0 & s1 & s2 & s3 & s4 & s5 & flag & ids & n & c & g & -> & _ & M). cbv zeta in M. destruct M as ((fs & _ & _ & F) & _).
  apply (f_equal (@length bool)) in F. rewrite firstn_length in F. change (length (bytes_bits [66; 85; 70; 82])) with 32%nat in F.
  unfold blen. rewrite app_length. lia.
Qed.

(** What follows a message does not matter: it is decoded as soon as its bytes have arrived. *)
Theorem C91_early : forall fc s r s' m, fc_json fc = false -> reads s r -> in_step r -> Run fc s = (s', Ok m) ->
  exists used rest p', br_bits r = used ++ rest /\ reads s' (mkBR rest (br_err r) p') /\
    forall t more e, reads t (mkBR (used ++ more) e (br_pos r)) -> blen (used ++ more) mod 8 = 0 ->
      exists t' m', Run fc t = (t', Ok m') /\ msg_sections m' = msg_sections m /\ reads t' (mkBR more e p').
Proof.
  intros fc s [l e p] s' m Hj Hr [Hp H8] H. cbn [br_bits br_err br_pos] in *.
  destruct (run_sound fc Hj _ _ _ _ _ _ Hr Hp H8 H) as (P8 & L8 & sk & b & rest & -> & F & Hf & M & R & _).
  exists (sk ++ b), rest, (8 * behind (msg_sections m)). split; [now rewrite <- app_assoc|]. split; [exact R|]. intros t more e' Ht T8. rewrite <- app_assoc in Ht, T8.
  destruct F as (F1 & F2 & F3). pose proof (message_long _ _ _ _ M) as ML.
  destruct (run_complete fc Hj t sk b more e' p (msg_sections m) Ht Hp P8) as (t' & m' & K1 & K2 & K3 & _).
  - split; [exact F1|]. split; [apply signed_more, (signed_long b rest ML F2)|]. intros x y Ex X8 Ny Hs. apply (F3 x y Ex X8 Ny).
    rewrite app_assoc in Hs |- *. apply signed_more. apply (signed_long _ more); [rewrite blen_app; pose proof (blen_nonneg y); lia|exact Hs].
  - rewrite blen_app in T8. lia.
  - exact Hf.
  - exact M.
  - exists t', m'. auto.
Qed.
Print Assumptions C91_early.

(** A message that is cut off is not taken for a message. *)
Theorem C91_cut_off : forall fc s r s' m r', fc_json fc = false -> reads s r -> in_step r -> Run fc s = (s', Ok m) -> reads s' r' ->
  forall used short cut, br_bits r = used ++ br_bits r' -> used = short ++ cut -> cut <> [] ->
  forall t e, reads t (mkBR short e (br_pos r)) -> blen short mod 8 = 0 -> forall t' m', Run fc t <> (t', Ok m').
Proof.
  intros fc s r s' m r' Hj Hr I H Hr' used short cut E -> Nc t e Ht S8 t' m' K.
  assert (P8 : br_pos r mod 8 = 0 /\ blen (br_bits r) mod 8 = 0).
  { destruct r as [l e0 p], I as [Hp H8]. cbn [br_pos br_bits] in *. destruct (run_sound fc Hj _ _ _ _ _ _ Hr Hp H8 H) as (A & B & _). auto. }
  destruct P8 as [P8 L8]. destruct (C91_early fc t _ t' m' Hj Ht) as (u2 & rest2 & p2 & E2 & R2 & G); [|exact K|].
  { split; [apply I|]. cbn [br_pos br_bits]. rewrite Z.add_mod, P8, S8 by lia. reflexivity. }
  cbn [br_bits br_pos br_err] in *. destruct (G s (rest2 ++ cut ++ br_bits r') (br_err r)) as (s2 & m2 & K1 & _ & K3).
  - replace (u2 ++ rest2 ++ cut ++ br_bits r') with (br_bits r); [now destruct r|]. rewrite E, E2. now rewrite <- !app_assoc.
  - replace (u2 ++ rest2 ++ cut ++ br_bits r') with (br_bits r); [exact L8|]. rewrite E, E2. now rewrite <- !app_assoc.
  - rewrite H in K1. injection K1 as <- _. unfold reads in *. rewrite Hr' in K3. injection K3 as K3. apply (f_equal br_bits) in K3. cbn [br_bits] in K3.
    apply (f_equal (@length bool)) in K3. rewrite !app_length in K3. destruct cut as [|c cut]; [now apply Nc|]. cbn [length] in K3. lia.
Qed.
Print Assumptions C91_cut_off.

(** The least message: edition 3, no descriptors, no subset.  It decodes, with whatever follows
    it; not without its last byte; three of them in a row decode, and then no more. *)
Definition least_message : list Z :=
  [66; 85; 70; 82; 0; 0; 41; 3;  0; 0; 18; 0; 0; 1; 0; 0; 0; 0; 18; 0; 16; 1; 1; 0; 0; 0;
   0; 0; 7; 0; 0; 0; 0;  0; 0; 4; 0;  55; 55; 55; 55].
Example C91_example : 8 * blen least_message = least /\ ok (Run ex_fc (on_bytes least_message)) = true /\
  (forall more, ok (Run ex_fc (on_bytes (least_message ++ more))) = true) /\
  (forall n, (n < 41)%nat -> ok (Run ex_fc (on_bytes (firstn n least_message))) = false) /\
  map is_ok (snd (repeated (Run ex_fc) 5 (on_bytes (least_message ++ [0] ++ least_message ++ least_message)))) = [true; true; true; false; false].
Proof.
  assert (B : forall x y, bytes_bits (x ++ y) = bytes_bits x ++ bytes_bits y) by (intros; apply flat_map_app).
  assert (L : forall x, blen (bytes_bits x) mod 8 = 0).
  { intros x. induction x as [|a x IH]; [reflexivity|]. change (a :: x) with ([a] ++ x). rewrite B, blen_app. change (blen (bytes_bits [a])) with 8. lia. }
  split; [reflexivity|]. split; [vm_compute; reflexivity|].
  destruct (Run ex_fc (on_bytes least_message)) as [s' [m|e|p|]] eqn:E; try (exfalso; apply (f_equal ok) in E; vm_compute in E; discriminate).
  assert (I : in_step (mkBR (bytes_bits least_message) EEof 0)) by (split; [apply Z.le_refl|reflexivity]).
  assert (R : exists r', reads s' r' /\ br_bits r' = []).
  { exists (mkBR [] EEof 328). apply (f_equal (fun x => fa_r (fst x))) in E. cbn [fst] in E. unfold reads. rewrite <- E. vm_compute. auto. }
  assert (H : reads (on_bytes least_message) (mkBR (bytes_bits least_message) EEof 0)) by reflexivity.
  destruct R as (r' & R & R0). split; [|split; [|vm_compute; reflexivity]].
  - intros more. destruct (C91_early ex_fc _ _ s' m eq_refl H I E) as (used & rest & p' & E1 & E2 & G). unfold reads in *. rewrite R in E2. injection E2 as ->. cbn [br_bits] in *. subst rest.
    rewrite app_nil_r in E1. subst used. destruct (G (on_bytes (least_message ++ more)) (bytes_bits more) EEof) as (t' & m' & -> & _); [unfold on_bytes; now rewrite B|rewrite <- B; apply L|reflexivity].
  - intros n Hn. destruct (Run ex_fc (on_bytes (firstn n least_message))) as [t' [m'|e|p|]] eqn:E'; try reflexivity. exfalso.
    refine (C91_cut_off ex_fc _ _ s' m r' eq_refl H I E R (bytes_bits least_message) (bytes_bits (firstn n least_message)) (bytes_bits (skipn n least_message)) _ _ _
      (on_bytes (firstn n least_message)) EEof _ (L _) t' m' E').
    + cbn [br_bits]. now rewrite R0, app_nil_r.
    + now rewrite <- B, firstn_skipn.
    + intros Z. assert (N : (0 < length (skipn n least_message))%nat) by (rewrite skipn_length; cbn [length least_message]; lia).
      destruct (skipn n least_message); [cbn in N; lia|discriminate].
    + reflexivity.
Qed.
