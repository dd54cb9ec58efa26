(** Signatures, templates, field tables and ends of streams. *)
From Coq Require Import ZifyBool ZifyNat.
From Verif Require Export ProofsMsg8.
From Verif Require Import ProofsBase ProofsBits ProofsBitProps ProofsUnpack.
From Verif Require Import SpecMessage ModelFactory.
Notation field := ModelFactory.field.

(** ** Signatures *)
Lemma signed_dec l : signed_here l \/ ~ signed_here l.
Proof.
  destruct (Z.lt_ge_cases (blen l) 32) as [H|H].
  - right. intros K. apply signed_len in K. lia.
  - destruct (gs_eqb (map msb (chunks8 (firstn 32 l))) BUFR) eqn:E; [left|right]; [now apply signature_bits|]. intros K. apply signature_bits in K; [congruence|lia].
Qed.
Lemma no_sig_nil : no_signature [].
Proof. intros a b E _ K. symmetry in E. apply app_eq_nil in E. destruct E as [_ ->]. apply signed_len in K. vm_compute in K. contradiction. Qed.
Lemma no_sig_next c l : blen c = 8 -> ~ signed_here (c ++ l) -> no_signature l -> no_signature (c ++ l).
Proof.
  intros Hc Hn Hl a b E Ha K. destruct (Z.lt_ge_cases (blen a) 8) as [D|D].
  - assert (a = []) as -> by (apply blen_0; pose proof (blen_nonneg a); lia). cbn in E. subst b. exact (Hn K).
  - destruct (cut_bits a 8 ltac:(lia) D) as (a1 & a2 & -> & La). rewrite <- app_assoc in E. apply app_inv_len in E; [|unfold blen in Hc, La; lia]. destruct E as [_ E].
    apply (Hl a2 b E); [rewrite blen_app in Ha; lia|exact K].
Qed.
Lemma signature_cases n : forall l : list bool, length l = (8 * n)%nat -> no_signature l \/ exists skipped bits, l = skipped ++ bits /\ first_signature skipped bits.
Proof.
  induction n as [|n IH]; intros l H.
  - left. assert (l = []) as -> by (destruct l; [reflexivity|discriminate]). apply no_sig_nil.
  - destruct (signed_dec l) as [K|K]; [right; exists [], l; split; [reflexivity|now apply first_here]|].
    destruct (cut_bits l 8 ltac:(lia) ltac:(unfold blen; lia)) as (c & t & -> & Hc). destruct (IH t) as [N|(sk & b & -> & F)].
    { rewrite app_length in H. unfold blen in Hc. lia. }
    + left. now apply no_sig_next.
    + right. exists (c ++ sk), b. split; [apply app_assoc|]. now apply first_next.
Qed.
Lemma first_not_none sk b : first_signature sk b -> ~ no_signature (sk ++ b).
Proof. intros (H8 & Hs & _) N. exact (N sk b eq_refl H8 Hs). Qed.
Lemma first_unique_le a b a' b' : first_signature a b -> first_signature a' b' -> a ++ b = a' ++ b' -> blen a <= blen a' -> a = a'.
Proof.
  intros (H8 & Hs & _) (H8' & _ & Hf) E L. destruct (cut_bits a' (blen a) (blen_nonneg _) L) as (a1 & d & -> & La). rewrite <- app_assoc in E.
  apply app_inv_len in E; [|unfold blen in La; lia]. destruct E as [-> ->]. destruct d as [|x d]; [now rewrite app_nil_r|].
  exfalso. apply (Hf a1 (x :: d) eq_refl); [lia|discriminate|exact Hs].
Qed.
Lemma first_unique a b a' b' : first_signature a b -> first_signature a' b' -> a ++ b = a' ++ b' -> a = a' /\ b = b'.
Proof.
  intros H H' E. assert (K : a = a'). { destruct (Z.le_ge_cases (blen a) (blen a')); [eapply first_unique_le; eassumption|symmetry; eapply first_unique_le; try eassumption; now symmetry]. }
  split; [exact K|]. subst a'. now apply app_inv_head in E.
Qed.

(** ** Templates *)
Section Template.
  Variable fc : fconfig.
  Lemma read_id_short l e p m0 ut g : blen l < 16 -> exists s' x, read_id fc 2 6 8 (mkFac (RBit (mkBR l e p)) m0 ut g) = (s', Err x).
  Proof.
    intros H. unfold read_id.
    assert (I : forall w l0 p0, 0 <= w <= 63 -> (exists s1 x, onr (r_ReadUint (fc_plat fc) w) (mkFac (RBit (mkBR l0 e p0)) m0 ut g) = (s1, Err x)) \/
        exists a r x, l0 = a ++ r /\ blen a = w /\ onr (r_ReadUint (fc_plat fc) w) (mkFac (RBit (mkBR l0 e p0)) m0 ut g) = (mkFac (RBit (mkBR r e (p0 + w))) m0 ut g, Ok x)).
    { intros w l0 p0 Hw. destruct (Z.lt_ge_cases (blen l0) w) as [D|D].
      - left. destruct (rd_uint_short (fc_plat fc) w l0 e p0 D) as (l' & K & _). rewrite (onr_eq _ _ _ _ _ _ _ _ _ K). eauto.
      - right. destruct (cut_bits l0 w) as (a & r & -> & Ha); [lia|lia|]. rewrite uint_step by assumption. eauto 6. }
    destruct (I 2 l p ltac:(lia)) as [(s1 & x & E)|(a1 & r1 & x1 & -> & L1 & E1)]; [unfold bind at 1; rewrite E; eauto|]. rewrite (bind_ok _ _ _ _ _ E1).
    destruct (I 6 r1 (p + 2) ltac:(lia)) as [(s1 & x & E)|(a2 & r2 & x2 & -> & L2 & E2)]; [unfold bind at 1; rewrite E; eauto|]. rewrite (bind_ok _ _ _ _ _ E2).
    destruct (I 8 r2 (p + 2 + 6) ltac:(lia)) as [(s1 & x & E)|(a3 & r3 & x3 & -> & L3 & E3)]; [unfold bind at 1; rewrite E; eauto|].
    exfalso. rewrite !blen_app in H. pose proof (blen_nonneg r3). lia.
  Qed.
  Lemma read_ids_short n : forall l e p m0 ut g, blen l < 16 * Z.of_nat n -> exists s' x, replicateM n (read_id fc 2 6 8) (mkFac (RBit (mkBR l e p)) m0 ut g) = (s', Err x).
  Proof.
    induction n as [|n IH]; intros l e p m0 ut g H; [pose proof (blen_nonneg l); lia|]. cbn [replicateM]. destruct (Z.lt_ge_cases (blen l) 16) as [D|D].
    - destruct (read_id_short l e p m0 ut g D) as (s' & x & E). unfold bind at 1. rewrite E. eauto.
    - destruct (cut_bits l 16 ltac:(lia) D) as (seg & rest & -> & Hs). rewrite blen_app in H.
      erewrite bind_ok; [|apply (read_id_ok fc _ seg); split; [exact Hs|reflexivity]]. destruct (IH rest e (p + 16) m0 ut g ltac:(lia)) as (s' & x & E). unfold bind at 1. rewrite E. eauto.
  Qed.
  Lemma cut_descriptors n : forall l : list bool, 16 * Z.of_nat n <= blen l -> exists ids segs rest, l = concat segs ++ rest /\ Forall2 is_descriptor ids segs /\ length ids = n.
  Proof.
    induction n as [|n IH]; intros l H; [exists [], [], l; repeat split; constructor|].
    destruct (cut_bits l 16 ltac:(lia) ltac:(lia)) as (seg & rest & -> & Hs). rewrite blen_app in H. destruct (IH rest ltac:(lia)) as (ids & segs & rest' & -> & Hf & Hn).
    eexists (_ :: ids), (seg :: segs), rest'. split; [cbn [concat]; now rewrite app_assoc|]. split; [|cbn; now rewrite Hn]. constructor; [split; [exact Hs|reflexivity]|exact Hf].
  Qed.
  (** Everything about the template field but the bits it needs. *)
  Lemma template_step nm n l e p done sec prox ut g : NewTemplateField fc nm 2 6 8 n (st l e p done sec prox ut g) =
    let k := Z.quot (8 * n - (p - 8 * sec_start sec)) 16 in
    if k <? 0 then (st l e p done sec prox ut g, Panic PMake)
    else match replicateM (Z.to_nat k) (read_id fc 2 6 8) (st l e p done sec prox ut g) with
         | (s1, Ok ids) =>
             (modify (fun s => mkFac (fa_r s) (fa_msg s) (Some ids) (fa_group s)) ;;
              let f := mkField nm (FTemplate ids) (Z.of_nat (length ids) * 16) false in AddField f ;; set_proxy f ;; ret f)%M s1
         | (s1, Err x) => (s1, Err x) | (s1, Panic x) => (s1, Panic x) | (s1, NoFuel) => (s1, NoFuel)
         end.
  Proof.
    unfold NewTemplateField. unfold bind at 1 2. cbv [gets get_section bind get_msg ret st fa_r fa_msg msg_cur r_Pos br_pos]. unfold NBITS_PER_BYTE.
    replace (n * 8 - (p - sec_start sec * 8)) with (8 * n - (p - 8 * sec_start sec)) by lia. cbv zeta. change (2 + 6 + 8 =? 0) with false. change (2 + 6 + 8) with 16. cbv iota.
    destruct (_ <? 0); reflexivity.
  Qed.
End Template.
