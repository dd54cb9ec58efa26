(** Runs of whole messages and of sequences of messages. *)
From Coq Require Import ZifyBool ZifyNat.
From Verif Require Export ProofsMsg7.
From Verif Require Import ProofsBase ProofsBits ProofsBitProps ProofsUnpack.
From Verif Require Import SpecMessage ModelFactory.
Notation field := ModelFactory.field.

(** ** Sizes *)
Lemma len_of num desc start pd xs body fs more : fills (len_slot :: xs) body fs ->
  has (mkSection num desc start pd (fs ++ more)) "lengthInBytes" (FUint (announced body)).
Proof.
  intros H. inversion H as [|nm t w px slots seg bits fs' Hs Hf]; subst. unfold has, FieldByName.
  rewrite announced_app by exact Hs. reflexivity.
Qed.
Lemma len_unique s n n' : has s "lengthInBytes" (FUint n) -> has s "lengthInBytes" (FUint n') -> n = n'.
Proof. unfold has. intros H H'. rewrite H in H'. now injection H'. Qed.
Lemma size0 at_ b s : is_section0 at_ b s -> blen b = 64.
Proof. intros (fs & Hf & _). apply fills_len in Hf. exact Hf. Qed.
Lemma size5 at_ b s : is_section5 at_ b s -> blen b = 32.
Proof. intros (fs & Hf & _). apply fills_len in Hf. exact Hf. Qed.
Lemma size1 ed at_ b s : is_section1 ed at_ b s -> blen b = 8 * announced b /\ has s "lengthInBytes" (FUint (announced b)).
Proof.
  intros (body & pad & fs & -> & Hf & Hb & ->). split; [exact Hb|]. rewrite layout1_eq in Hf. rewrite (announced_fills _ _ _ _ Hf). eapply len_of; exact Hf.
Qed.
Lemma size2 at_ b s : is_section2 at_ b s -> blen b = 8 * Z.max 4 (announced b) /\ has s "lengthInBytes" (FUint (announced b)).
Proof.
  intros (body & loc & fs & -> & Hf & Hb & ->). pose proof (fills_len _ _ _ Hf) as L. cbn in L. rewrite blen_app. change layout2 with (len_slot :: tl layout2) in Hf.
  split; [lia|]. rewrite (announced_fills _ _ _ _ Hf). eapply len_of; exact Hf.
Qed.
Lemma size3 at_ b ids s : is_section3 at_ b ids s -> blen b = 8 * announced b /\ has s "lengthInBytes" (FUint (announced b)).
Proof.
  intros (body & segs & pad & fs & -> & Hf & _ & _ & Hb & ->). split; [exact Hb|]. change layout3 with (len_slot :: tl layout3) in Hf.
  rewrite (announced_fills _ _ _ _ Hf). eapply len_of; exact Hf.
Qed.
Lemma size4 fc g ids n c at_ b s : is_section4 fc g ids n c at_ b s -> has s "lengthInBytes" (FUint (announced b)) /\ (regular s -> blen b = 8 * announced b).
Proof.
  intros (body & pay & moved & pad & fs & subs & -> & Hf & Hp & Hb & ->). change layout4 with (len_slot :: tl layout4) in Hf. split.
  - rewrite (announced_fills _ _ _ _ Hf). eapply len_of; exact Hf.
  - intros R. unfold regular in R. cbn [sec_fields] in R. apply Forall_app in R. destruct R as [_ R]. inversion R as [|f fs' Rf _]; subst.
    destruct (Rf c subs eq_refl) as [Hc Hs]. pose proof (pay_exact _ _ _ _ _ _ _ _ Hp Hc Hs) as E.
    apply fills_len in Hf. cbn in Hf. rewrite !blen_app. lia.
Qed.

(** ** Moving a message *)
Lemma FieldByName_moved k s nm : FieldByName (moved_by k s) nm = FieldByName s nm. Proof. reflexivity. Qed.
Lemma has_moved k s nm v : has s nm v -> has (moved_by k s) nm v. Proof. exact (fun H => H). Qed.
Lemma message_moved fc k start bits secs : is_message fc start bits secs -> is_message fc (start + k) bits (map (moved_by k) secs).
Proof.
  intros (ed & b0 & b1 & b2 & b3 & b4 & b5 & s0 & s1 & s2 & s3 & s4 & s5 & flag & ids & n & c & g & -> & -> & H). cbv zeta in H.
  destruct H as (H0 & He & Hed & H1 & Hfl & H2 & H3 & Hn & Hc & Ht & H4 & H5).
  exists ed, b0, b1, b2, b3, b4, b5, (moved_by k s0), (moved_by k s1), (map (moved_by k) s2), (moved_by k s3), (moved_by k s4), (moved_by k s5), flag, ids, n, c, g.
  split; [reflexivity|]. split; [cbn; now rewrite map_app|]. cbv zeta.
  split; [destruct H0 as (fs & F & -> & S); exists fs; auto|]. split; [exact He|]. split; [exact Hed|].
  replace (start + k + 8) with (start + 8 + k) by lia.
  split; [destruct H1 as (body & pad & fs & E & F & L & ->); exists body, pad, fs; auto|]. split; [exact Hfl|].
  split. { destruct flag; [|destruct H2 as [-> ->]; auto]. destruct H2 as (s & -> & body & loc & fs & E & F & L & ->). eexists. split; [reflexivity|].
    exists body, loc, fs. split; [exact E|]. split; [exact F|]. split; [exact L|]. unfold moved_by. cbn. f_equal; lia. }
  split. { destruct H3 as (body & segs & pad & fs & E & F & D & P & L & ->). exists body, segs, pad, fs. repeat (split; [assumption|]). unfold moved_by. cbn. f_equal. destruct flag; lia. }
  split; [exact Hn|]. split; [exact Hc|]. split; [exact Ht|].
  split. { destruct H4 as (body & pay & moved & pad & fs & subs & E & F & P & L & ->). exists body, pay, moved, pad, fs, subs. repeat (split; [assumption|]). unfold moved_by. cbn. f_equal. destruct flag; lia. }
  destruct H5 as (fs & F & ->). exists fs. split; [exact F|]. unfold moved_by. cbn. f_equal. destruct flag; lia.
Qed.
Lemma behind_eq secs : secs <> [] -> behind secs = sec_start (last secs the_end) + 4.
Proof.
  intros H. unfold behind. destruct (exists_last H) as (pre & s & ->). rewrite rev_app_distr, last_last. reflexivity.
Qed.
Lemma message_sections fc start bits secs : is_message fc start bits secs -> secs <> [].
Proof. intros (ed & b0 & b1 & b2 & b3 & b4 & b5 & s0 & s1 & s2 & s3 & s4 & s5 & flag & ids & n & c & g & _ & -> & _). discriminate. Qed.
Lemma message_bytes fc start bits secs : is_message fc start bits secs -> Forall regular secs -> blen bits mod 8 = 0.
Proof.
  intros (ed & b0 & b1 & b2 & b3 & b4 & b5 & s0 & s1 & s2 & s3 & s4 & s5 & flag & ids & n & c & g & -> & -> & H) R. cbv zeta in H.
  destruct H as (H0 & He & Hed & H1 & Hfl & H2 & H3 & Hn & Hc & Ht & H4 & H5).
  assert (R4 : regular s4). { rewrite Forall_forall in R. apply R. right. right. apply in_or_app. right. right. left. reflexivity. }
  apply size0 in H0. apply size1 in H1. apply size3 in H3. apply size4 in H4. apply size5 in H5. destruct H4 as [_ H4]. specialize (H4 R4).
  assert (blen b2 mod 8 = 0). { destruct flag; [|destruct H2 as [_ ->]; reflexivity]. destruct H2 as (s & _ & H2). apply size2 in H2. lia. }
  rewrite !blen_app. lia.
Qed.
Lemma message_start fc start bits secs : is_message fc start bits secs -> 0 <= start -> 0 <= behind secs.
Proof.
  intros (ed & b0 & b1 & b2 & b3 & b4 & b5 & s0 & s1 & s2 & s3 & s4 & s5 & flag & ids & n & c & g & -> & -> & H) R. cbv zeta in H.
  destruct H as (H0 & He & Hed & H1 & Hfl & H2 & H3 & Hn & Hc & Ht & H4 & H5). rewrite behind_eq by discriminate.
  replace (last _ the_end) with s5. 2:{ change (s0 :: s1 :: s2 ++ [s3; s4; s5]) with ([s0; s1] ++ s2 ++ [s3; s4; s5]). rewrite app_assoc. change [s3; s4; s5] with ([s3; s4] ++ [s5]). rewrite app_assoc. now rewrite last_last. }
  destruct H5 as (fs & _ & ->). cbn [sec_start]. pose proof (announced_nonneg b1). pose proof (announced_nonneg b2). pose proof (announced_nonneg b3). pose proof (announced_nonneg b4). destruct flag; lia.
Qed.

(** ** Run *)
Section Run.
  Variable fc : fconfig.
  Hypothesis Hj : fc_json fc = false.
  Lemma fst_eta s l e p : fa_r s = RBit (mkBR l e p) -> s = fst_ l e p (fa_msg s) (fa_ut s) (fa_group s).
  Proof. destruct s. cbn. intros ->. reflexivity. Qed.
  Lemma run_complete s skipped bits rest e p secs : reads s (mkBR (skipped ++ bits ++ rest) e p) -> 0 <= p -> p mod 8 = 0 ->
    first_signature skipped (bits ++ rest) -> blen (bits ++ rest) mod 8 = 0 -> blen skipped < 8 * Z.of_nat (fc_fuel fc) ->
    is_message fc ((p + blen skipped) / 8) bits secs ->
    exists s' m, Run fc s = (s', Ok m) /\ msg_sections m = secs /\ reads s' (mkBR rest e (8 * behind secs)) /\ resolved secs (msg_proxy m).
  Proof.
    intros Hr Hp H8 Hf Hw Hfu Hm. rewrite (fst_eta _ _ _ _ Hr).
    destruct (Run_ok fc Hj skipped _ bits secs rest e p (fa_msg s) (fa_ut s) (fa_group s) Hp H8 eq_refl Hf Hw Hfu Hm) as (m & ids & gr & E & Es & R).
    eexists _, m. split; [exact E|]. split; [exact Es|]. rewrite behind_eq by (eapply message_sections; exact Hm). split; [reflexivity|exact R].
  Qed.
  Lemma run_sound s l e p s' m : reads s (mkBR l e p) -> 0 <= p -> (p + blen l) mod 8 = 0 -> Run fc s = (s', Ok m) ->
    p mod 8 = 0 /\ blen l mod 8 = 0 /\ exists skipped bits rest, l = skipped ++ bits ++ rest /\ first_signature skipped (bits ++ rest) /\
      blen skipped < 8 * Z.of_nat (fc_fuel fc) /\
      is_message fc ((p + blen skipped) / 8) bits (msg_sections m) /\ reads s' (mkBR rest e (8 * behind (msg_sections m))) /\ resolved (msg_sections m) (msg_proxy m).
  Proof.
    intros Hr Hp H8 H. pose proof H as H'. rewrite (fst_eta _ _ _ _ Hr) in H'. destruct (Run_inv fc Hj _ _ _ _ _ _ _ _ Hp H8 H') as (P8 & L8 & skipped & bits & rest & secs & -> & Hf & Hfu & Hm).
    split; [exact P8|]. split; [exact L8|]. exists skipped, bits, rest.
    assert (HS : blen skipped mod 8 = 0) by apply Hf. rewrite blen_app in L8.
    destruct (run_complete s skipped bits rest e p secs Hr Hp P8 Hf ltac:(lia) Hfu Hm) as (s2 & m2 & E & Es & Er & R). rewrite H in E. injection E as <- <-. rewrite Es. auto 10.
  Qed.
  Lemma run_none s l e p : reads s (mkBR l e p) -> 0 <= p -> p mod 8 = 0 -> blen l mod 8 = 0 -> no_signature l -> blen l < 8 * Z.of_nat (fc_fuel fc) ->
    exists s' x, Run fc s = (s', Err x).
  Proof.
    intros Hr Hp H8 L8 Hn Hfu. rewrite (fst_eta _ _ _ _ Hr). destruct (seek_none (fc_fuel fc) l e p (fa_msg s) (fa_ut s) (fa_group s) Hp H8 L8 Hn Hfu) as (s1 & x & E).
    exists s1, x. unfold Run, bind at 1. now rewrite E.
  Qed.
  Lemma runs_complete_ start l mss rest : messages fc start l mss rest -> forall s e, reads s (mkBR l e (8 * start)) -> 0 <= start -> blen l mod 8 = 0 ->
    blen l < 8 * Z.of_nat (fc_fuel fc) -> no_signature rest ->
    exists ms s' x, Runs fc (S (length mss)) s = (ms, s', Err x) /\ map msg_sections ms = mss.
  Proof.
    induction 1 as [start rest|start skipped bits more secs mss rest Hf Hb Hm Hr IH]; intros s e Hs H0 H8 Hfu Hn.
    - destruct (run_none s rest e (8 * start) Hs ltac:(lia) ltac:(lia) H8 Hn Hfu) as (s' & x & E). exists [], s', x. cbn [Runs length]. now rewrite E.
    - assert (HS : blen skipped mod 8 = 0) by apply Hf. rewrite !blen_app in H8, Hfu. pose proof (blen_nonneg skipped). pose proof (blen_nonneg bits). pose proof (blen_nonneg more).
      destruct (run_complete s skipped bits more e (8 * start) secs Hs ltac:(lia) ltac:(lia) Hf ltac:(rewrite blen_app; lia) ltac:(lia)) as (s1 & m & E & Es & Er & _).
      { replace ((8 * start + blen skipped) / 8) with (start + blen skipped / 8); [exact Hm|]. rewrite Z.mul_comm, Z.div_add_l; lia. }
      destruct (IH s1 e Er) as (ms & s' & x & E' & Ems); [eapply message_start; [exact Hm|lia]|lia|lia|exact Hn|].
      exists (m :: ms), s', x. change (length (secs :: mss)) with (S (length mss)). cbn [Runs] in E' |- *. rewrite E, E'. cbn [map]. now rewrite Es, Ems.
  Qed.
  Lemma runs_sound_ n : forall s l e start ms s' x, reads s (mkBR l e (8 * start)) -> 0 <= start -> blen l mod 8 = 0 ->
    Runs fc n s = (ms, s', x) -> Forall (fun m => Forall regular (msg_sections m)) ms ->
    exists rest, messages fc start l (map msg_sections ms) rest.
  Proof.
    induction n as [|n IH]; intros s l e start ms s' x Hs H0 H8 H R; cbn [Runs] in H.
    - injection H as <- _ _. exists l. constructor.
    - destruct (Run fc s) as [s1 [m|y|q|]] eqn:E; try (injection H as <- _ _; exists l; constructor; fail).
      destruct (Runs fc n s1) as [[ms1 s2] y] eqn:E'. injection H as <- _ _. inversion R as [|? ? Rm Rms]; subst.
      destruct (run_sound _ _ _ _ _ _ Hs ltac:(lia) ltac:(lia) E) as (_ & _ & skipped & bits & more & -> & Hf & _ & Hm & Hr & _).
      assert (HS : blen skipped mod 8 = 0) by apply Hf. pose proof (blen_nonneg skipped).
      assert (A : (8 * start + blen skipped) / 8 = start + blen skipped / 8) by (rewrite Z.mul_comm, Z.div_add_l; lia). rewrite A in Hm.
      pose proof (message_bytes _ _ _ _ Hm Rm) as Hb. rewrite !blen_app in H8.
      destruct (IH s1 more e (behind (msg_sections m)) ms1 s2 y Hr) as (rest & HM); [eapply message_start; [exact Hm|lia]|lia|exact E'|exact Rms|].
      exists rest. cbn [map]. econstructor; eassumption.
  Qed.
End Run.
