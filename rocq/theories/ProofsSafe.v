(** Decoding a plain template never panics. *)
From Coq Require Import ZifyBool ZifyNat.
From Verif Require Export SpecSafe.
From Verif Require Import ProofsBase ProofsRun3 ProofsParser3 ProofsParser4 ProofsTable ProofsRun6.

(** ** Readers *)
Definition rsafe {A} (m : M reader A) (Q : A -> Prop) : Prop := forall b,
  match m (RBit b) with
  | (r, Ok a) => (exists b', r = RBit b') /\ Q a
  | (r, Err _) => exists b', r = RBit b'
  | _ => False
  end.
Lemma rs_bind {A B} (m : M reader A) (f : A -> M reader B) P Q : rsafe m P -> (forall a, P a -> rsafe (f a) Q) -> rsafe (bind m f) Q.
Proof.
  intros H K b. unfold bind. specialize (H b). destruct (m (RBit b)) as [r [a|e|q|]]; try exact H. destruct H as [[b' ->] Ha]. apply K, Ha.
Qed.
Lemma rs_ret {A} (a : A) (Q : A -> Prop) : Q a -> rsafe (ret a) Q.
Proof. intros H b. cbn. eauto. Qed.
Lemma rs_fail {A} e (Q : A -> Prop) : rsafe (fail e) Q.
Proof. intros b. cbn. eauto. Qed.
Lemma rs_weaken {A} (m : M reader A) (P Q : A -> Prop) : rsafe m P -> (forall a, P a -> Q a) -> rsafe m Q.
Proof. intros H K b. specialize (H b). destruct (m (RBit b)) as [r [a|e|q|]]; auto. destruct H. auto. Qed.
Definition bsafe {S A} (m : M S A) (Q : A -> Prop) : Prop := forall s, match m s with (_, Ok a) => Q a | (_, Err _) => True | _ => False end.
Lemma bs_bind {S A B} (m : M S A) (f : A -> M S B) P Q : bsafe m P -> (forall a, P a -> bsafe (f a) Q) -> bsafe (bind m f) Q.
Proof. intros H K s. unfold bind. specialize (H s). destruct (m s) as [r [a|e|q|]]; auto. apply K, H. Qed.
Lemma bs_ret {S A} (a : A) (Q : A -> Prop) : Q a -> bsafe (S := S) (ret a) Q.
Proof. intros H s. exact H. Qed.
Lemma bs_byte e : bsafe (lib_read_byte e) (fun _ => True).
Proof. intros s. do 8 (destruct s as [|? s]; [exact I|]). exact I. Qed.
Lemma bs_bit e : bsafe (lib_read_bit e) (fun _ => True).
Proof. intros [|? ?]; exact I. Qed.
Lemma bs_bytes e k : forall u, bsafe (lib_read_bits_bytes e k u) (fun _ => True).
Proof. induction k as [|k IH]; intros u; cbn [lib_read_bits_bytes]; [now apply bs_ret|]. eapply bs_bind; [apply bs_byte|]. intros; apply IH. Qed.
Lemma u64_range x : 0 <= u64 x < 2 ^ 64.
Proof. apply Z.mod_pos_bound. lia. Qed.
Lemma bs_bits e k : forall u, bsafe (lib_read_bits_bits e k u)
  (fun x => 0 <= u -> (u + 1) * 2 ^ Z.of_nat k <= 2 ^ 64 -> 0 <= x < (u + 1) * 2 ^ Z.of_nat k).
Proof.
  induction k as [|k IH]; intros u; cbn [lib_read_bits_bits]; [apply bs_ret; cbn; lia|].
  eapply bs_bind; [apply bs_bit|]. intros b _ s. specialize (IH (u64 (u * 2 + b2z b)) s).
  destruct (lib_read_bits_bits _ _ _ s) as [s' [x|?|?|]]; auto. intros Hu Hl.
  rewrite Nat2Z.inj_succ, Z.pow_succ_r in * by lia. pose proof (Z.pow_pos_nonneg 2 (Z.of_nat k) ltac:(lia) ltac:(lia)) as Hp.
  assert (Hb : 0 <= b2z b <= 1) by (destruct b; cbn; lia).
  assert (E : u64 (u * 2 + b2z b) = u * 2 + b2z b) by (unfold u64; apply Z.mod_small; nia).
  rewrite E in *. assert (K : (u * 2 + b2z b + 1) * 2 ^ Z.of_nat k <= (u + 1) * (2 * 2 ^ Z.of_nat k)) by nia.
  specialize (IH ltac:(lia) ltac:(lia)). lia.
Qed.
Lemma bs_lib e n : bsafe (lib_read_bits e n) (fun _ => True).
Proof.
  unfold lib_read_bits. destruct (_ <=? _); [now apply bs_ret|]. eapply bs_bind; [apply bs_bytes|]. intros u _ s. pose proof (bs_bits e (Z.to_nat (n mod 8)) u s) as H.
  destruct (lib_read_bits_bits _ _ _ s) as [s' [x|?|?|]]; auto.
Qed.
Lemma bs_br {A} (f : err -> M (list bool) A) Q : (forall e, bsafe (f e) Q) -> bsafe (br_lib f) Q.
Proof. intros H r. unfold br_lib. specialize (H (br_err r) (br_bits r)). destruct (f _ _) as [bs [a|e|q|]]; auto. Qed.
Lemma bs_pos n : bsafe (br_add_pos n) (fun _ => True).
Proof. intros r. exact I. Qed.
Lemma bs_replicate {S A} (m : M S A) P k : bsafe m P -> bsafe (replicateM k m) (fun l => length l = k /\ Forall P l).
Proof.
  intros H. induction k as [|k IH]; cbn [replicateM]; [apply bs_ret; auto|]. eapply bs_bind; [exact H|]. intros a Ha.
  eapply bs_bind; [exact IH|]. intros l [Hl Hf]. apply bs_ret. cbn. auto.
Qed.
Lemma rs_on {A} (mb : M bitreader A) mj Q : bsafe mb Q -> rsafe (on_reader mb mj) Q.
Proof. intros H b. cbn. specialize (H b). destruct (mb b) as [b' [a|e|q|]]; eauto. Qed.
Lemma rs_uint pl n : rsafe (r_ReadUint pl n) (fun _ => True).
Proof. apply rs_on. unfold br_ReadUint. eapply bs_bind; [apply bs_pos|]. intros _ _. apply bs_br. intros; apply bs_lib. Qed.
Lemma rs_diff pl : rsafe (readNbitsDiff pl) (fun d => 0 <= d < 64).
Proof.
  unfold readNbitsDiff. apply rs_bind with (P := fun x => 0 <= x < 64).
  - apply rs_on. unfold br_ReadUint. eapply bs_bind; [apply bs_pos|]. intros _ _. apply bs_br. intros e. unfold lib_read_bits, NBITS_FOR_NBITS_DIFF.
    cbn [Z.leb Z.compare]. change (Z.to_nat (6 / 8)) with O. change (Z.to_nat (6 mod 8)) with 6%nat. cbn [lib_read_bits_bytes].
    eapply bs_bind with (P := fun u => u = 0); [now apply bs_ret|]. intros u -> s. pose proof (bs_bits e 6 0 s) as H.
    destruct (lib_read_bits_bits _ _ _ s) as [s' [x|?|?|]]; auto. change (Z.of_nat 6) with 6 in H. specialize (H ltac:(lia) ltac:(lia)). lia.
  - intros x Hx. apply rs_ret. unfold i64. rewrite Z.mod_small by lia. assert (x <? 2 ^ 63 = true) as -> by lia. lia.
Qed.
Lemma rs_bytes n : 0 <= n -> rsafe (r_ReadBytes n) (fun _ => True).
Proof.
  intros Hn. apply rs_on. unfold br_ReadBytes. eapply bs_bind; [apply bs_pos|]. intros _ _. assert (n <? 0 = false) as -> by lia.
  intros r. pose proof (bs_replicate (br_lib lib_read_byte) (fun _ => True) (Z.to_nat n)) as H. specialize (H ltac:(apply bs_br; intros; apply bs_byte) r).
  destruct (replicateM _ _ r) as [? [?|?|?|]]; auto.
Qed.
Lemma bs_binary_loop k : forall n, bsafe (br_ReadBinary_loop k n) (fun _ => True).
Proof.
  induction k as [|k IH]; intros n; cbn [br_ReadBinary_loop]; [now apply bs_ret|]. eapply bs_bind; [apply bs_br; intros; apply bs_lib|].
  intros v _. eapply bs_bind; [apply IH|]. intros. now apply bs_ret.
Qed.
Lemma rs_binary n : rsafe (r_ReadBinary n) (fun _ => True).
Proof.
  apply rs_on. intros r. unfold br_ReadBinary. pose proof (bs_bind (br_add_pos n) (fun _ => br_ReadBinary_loop (Z.to_nat ((n + 7) / 8)) n) _ (fun _ => True) (bs_pos n) (fun _ _ => bs_binary_loop _ _) r) as H.
  destruct (bind _ _ r) as [? [?|?|?|]]; auto.
Qed.
Lemma rs_replicate {A} (m : M reader A) P k : rsafe m P -> rsafe (replicateM k m) (fun l => length l = k /\ Forall P l).
Proof.
  intros H. induction k as [|k IH]; cbn [replicateM]; [apply rs_ret; auto|]. eapply rs_bind; [exact H|]. intros a Ha.
  eapply rs_bind; [exact IH|]. intros l [Hl Hf]. apply rs_ret. cbn. auto.
Qed.

(** ** Unpacking *)
Definition comparable (v : value) : Prop := (forall b, v <> VBytes b) /\ v <> VBin None.
Lemma comparable_binary l : Forall comparable l -> Forall (fun v => v <> VBin None) l.
Proof. apply Forall_impl. now intros v [_ ?]. Qed.
(** What may be unpacked at all. *)
Definition readable (nolocal columns : bool) (i : pinfo) : Prop :=
  (nolocal = true -> pi_unit i <> BINARY) /\ (pi_unit i = STRING -> 0 <= pi_nbits i) /\ (columns = true -> pi_unit i <> CODE /\ pi_unit i <> BINARY) /\ pi_unit i <> CODE.
Definition unpacked (columns : bool) (n : nat) (i : pinfo) (u : uval) : Prop :=
  match u with
  | UV v => columns = false /\ (pi_unit i <> BINARY -> v <> VBin None)
  | UC c => columns = true /\ length (cv_vals c) = n /\ Forall (fun v => v <> VBin None) (cv_vals c) /\ (pi_unit i <> STRING -> Forall comparable (cv_vals c))
  end.
Lemma missing_comparable i x : comparable (unpackMissing i x).
Proof. unfold comparable, unpackMissing. destruct (IsMissing _ _); split; discriminate. Qed.
Lemma numeric_comparable i x : comparable (unpackNumeric i x).
Proof. unfold comparable, unpackNumeric. destruct (unpackMissing i x); split; discriminate. Qed.
Lemma Forall_repeat {A} (P : A -> Prop) a n : P a -> Forall P (repeat a n).
Proof. intros H. induction n; cbn; auto. Qed.
Lemma rs_others pl n i f : 0 <= n -> (forall x, exists v, f x = Ok v /\ comparable v) ->
  rsafe (c_unpackOthers pl n i f) (fun c => length (cv_vals c) = Z.to_nat n /\ Forall comparable (cv_vals c)).
Proof.
  intros Hn Hf. unfold c_unpackOthers. cbv zeta. eapply rs_bind; [apply rs_uint|]. intros mn _. eapply rs_bind; [apply rs_diff|]. intros d Hd. cbv beta in Hd.
  eapply rs_bind with (P := fun _ => True). { unfold make_values. assert (n <? 0 = false) as -> by lia. now apply rs_ret. }
  intros _ _. destruct (_ =? _).
  - destruct (Hf mn) as (v & E & Hv). apply rs_bind with (P := comparable). { rewrite E. now apply (rs_ret v). }
    intros w Hw. apply rs_ret. cbn. rewrite repeat_length. split; [reflexivity|]. now apply Forall_repeat.
  - destruct (IsMissing _ _); [apply rs_fail|]. eapply rs_bind; [apply rs_replicate with (P := comparable)|].
    + eapply rs_bind; [apply rs_uint|]. intros x _. destruct (IsMissing _ _); [apply rs_ret; split; discriminate|].
      destruct (Hf (u64 (mn + x))) as (v & E & Hv). rewrite E. now apply (rs_ret v).
    + intros l [Hl Hc]. apply rs_ret. cbn. auto.
Qed.
Lemma rs_string pl n i : 0 <= n -> 0 <= pi_nbits i -> rsafe (c_unpackString pl n i) (fun c => length (cv_vals c) = Z.to_nat n /\ Forall (fun v => v <> VBin None) (cv_vals c)).
Proof.
  intros Hn Hb. unfold c_unpackString. cbv zeta. eapply rs_bind; [apply rs_bytes|]. { apply Z.quot_pos; [exact Hb|]. unfold NBITS_PER_BYTE. lia. }
  intros mn _. eapply rs_bind; [apply rs_diff|]. intros d Hd. cbv beta in Hd.
  eapply rs_bind with (P := fun _ => True). { unfold make_values. assert (n <? 0 = false) as -> by lia. now apply rs_ret. }
  intros _ _. destruct (_ =? _); [apply rs_ret; cbn; split; [apply repeat_length|apply Forall_repeat; discriminate]|]. destruct (negb _); [apply rs_fail|].
  eapply rs_bind; [apply rs_replicate with (P := fun v => v <> VBin None)|].
  - eapply rs_bind; [apply rs_bytes; lia|]. intros. apply rs_ret. discriminate.
  - intros l [Hl Hf]. apply rs_ret. cbn. auto.
Qed.

Section Safe.
  Variable cf : config.
  Hypothesis Hj : cf_json cf = false.
  Variable nolocal : bool.
  Let columns := cf_compressed cf.
  Hypothesis Hn : columns = true -> 0 < cf_nsubsets cf.
  Let n := Z.to_nat (cf_nsubsets cf).

  Lemma rs_unpack info : readable nolocal columns info ->
    rsafe (if cf_json cf then json_Unpack (cf_plat cf) info
           else if cf_compressed cf then compressed_Unpack (cf_plat cf) (cf_fuel cf) (cf_nsubsets cf) info
           else uncompressed_Unpack (cf_plat cf) info) (unpacked columns n info).
  Proof.
    intros (Hb & Hs & Hc & Hd). rewrite Hj. fold columns. destruct columns.
    - specialize (Hn eq_refl). destruct (Hc eq_refl) as [H1 H2]. unfold compressed_Unpack.
      apply rs_bind with (P := fun c => length (cv_vals c) = n /\ Forall (fun v => v <> VBin None) (cv_vals c) /\ (pi_unit info <> STRING -> Forall comparable (cv_vals c))).
      + destruct (pi_unit info) eqn:Eu; try congruence.
        * eapply rs_weaken; [apply rs_others; [lia|]|]; [|intros c [? ?]; auto using comparable_binary].
          intros x. eexists. split; [reflexivity|apply numeric_comparable].
        * eapply rs_weaken; [apply rs_string; [lia|auto]|]. intros c [E ?]. repeat split; [exact E|assumption|congruence].
        * destruct (_ =? 0).
          -- eapply rs_bind with (P := fun _ => True). { unfold make_values. assert (cf_nsubsets cf <? 0 = false) as -> by lia. now apply rs_ret. }
             intros _ _. apply rs_ret. cbn. rewrite repeat_length. repeat split; [apply Forall_repeat; discriminate|]. intros _. apply Forall_repeat. split; discriminate.
          -- eapply rs_weaken; [apply rs_others; [lia|]|]; [|intros c [? ?]; auto using comparable_binary].
             intros x. eexists. split; [reflexivity|apply missing_comparable].
        * destruct (_ =? 0).
          -- eapply rs_bind with (P := fun _ => True). { unfold make_values. assert (cf_nsubsets cf <? 0 = false) as -> by lia. now apply rs_ret. }
             intros _ _. apply rs_ret. cbn. rewrite repeat_length. repeat split; [apply Forall_repeat; discriminate|]. intros _. apply Forall_repeat. split; discriminate.
          -- eapply rs_weaken; [apply rs_others; [lia|]|]; [|intros c [? ?]; auto using comparable_binary].
             intros x. eexists. split; [reflexivity|apply missing_comparable].
      + intros c (? & ? & ?). apply rs_ret. cbn. auto.
    - unfold uncompressed_Unpack. destruct (pi_unit info) eqn:Eu; try congruence.
      + eapply rs_bind; [apply rs_uint|]. intros. apply rs_ret. cbn. split; [reflexivity|]. intros _. apply numeric_comparable.
      + eapply rs_bind; [apply rs_bytes|]. { apply Z.quot_pos; [auto|]. unfold NBITS_PER_BYTE. lia. } intros. apply rs_ret. cbn. split; [reflexivity|discriminate].
      + destruct (_ =? 0); [apply rs_ret; cbn; split; [reflexivity|discriminate]|]. eapply rs_bind; [apply rs_uint|]. intros. apply rs_ret. cbn. split; [reflexivity|]. intros _. apply missing_comparable.
      + destruct (_ =? 0); [apply rs_ret; cbn; split; [reflexivity|discriminate]|]. eapply rs_bind; [apply rs_uint|]. intros. apply rs_ret. cbn. split; [reflexivity|]. intros _. apply missing_comparable.
      + eapply rs_bind; [apply rs_binary|]. intros. apply rs_ret. cbn. rewrite Eu. split; [reflexivity|congruence].
  Qed.

  (** ** The visitor *)
  Definition rows_ok (c : cellsb) : Prop :=
    match c with
    | UCells l => columns = false /\ (nolocal = true -> Forall (fun c => c_val c <> VBin None) l)
    | CCells ts => columns = true /\ length ts = n /\ (exists k, Forall (fun t => length t = k) ts) /\
        Forall (Forall (fun c => c_val c <> VBin None)) ts
    end.
  Definition clean (p : list subset) : Prop := Forall (fun sb => Forall (fun c => c_val c <> VBin None) (sb_cells sb)) p.
  Definition fine (st : list nat) (k : nat) (s : vst) : Prop :=
    t_stack (v_tree s) = st /\ rows_ok (v_cells s) /\ g_newRefvals (v_regs s) = None /\ 0 <= g_nbitsString (v_regs s) /\
    (k <= length (g_assoc (v_regs s)))%nat /\ (exists b, v_r s = RBit b) /\ (nolocal = true -> clean (v_pay s)).
  Definition safe {A} (P : vst -> Prop) (st : list nat) (m : M vst A) (Q : A -> vst -> Prop) : Prop := forall s, P s ->
    match m s with
    | (s', Ok a) => Q a s'
    | (s', Err _) => t_stack (v_tree s') = st
    | _ => False
    end.
  Lemma sf_bind {A B} P st (m : M vst A) (f : A -> M vst B) R Q : safe P st m R -> (forall a, safe (R a) st (f a) Q) -> safe P st (bind m f) Q.
  Proof. intros H K s Hs. unfold bind. specialize (H s Hs). destruct (m s) as [s' [a|e|q|]]; auto. apply K, H. Qed.
  Lemma sf_wrap {A} P st t (m : M vst A) Q : safe P st m Q -> safe P st (wrap t m) Q.
  Proof. intros H s Hs. unfold wrap. specialize (H s Hs). destruct (m s) as [s' [a|e|q|]]; auto. Qed.
  Lemma sf_ret {A} (P : vst -> Prop) st (a : A) (Q : A -> vst -> Prop) : (forall s, P s -> Q a s) -> safe P st (ret a) Q.
  Proof. intros H s Hs. apply H, Hs. Qed.
  Lemma sf_weaken {A} (P P' : vst -> Prop) st (m : M vst A) (Q Q' : A -> vst -> Prop) : safe P' st m Q' -> (forall s, P s -> P' s) -> (forall a s, Q' a s -> Q a s) -> safe P st m Q.
  Proof. intros H H1 H2 s Hs. specialize (H s (H1 s Hs)). destruct (m s) as [s' [a|e|q|]]; auto. Qed.
  Lemma sf_modify (P : vst -> Prop) st f (Q : unit -> vst -> Prop) : (forall s, P s -> Q tt (f s)) -> safe P st (modify f) Q.
  Proof. intros H s Hs. exact (H s Hs). Qed.
  Lemma sf_gets {A} (P : vst -> Prop) st (f : vst -> A) : safe P st (gets f) (fun a s => P s /\ a = f s).
  Proof. intros s Hs. cbn. auto. Qed.
  Lemma fine_stack st k s : fine st k s -> t_stack (v_tree s) = st.
  Proof. now intros [? _]. Qed.
  Lemma fine_less st k j s : (j <= k)%nat -> fine st k s -> fine st j s.
  Proof. intros H (? & ? & ? & ? & ? & ? & ?). repeat split; auto. lia. Qed.
  Lemma sf_alloc st k nk : safe (fine st k) st (alloc nk) (fun _ => fine st k).
  Proof. intros s (H & H'). cbn. split; [exact H|exact H']. Qed.
  Lemma sf_member st k i m : safe (fine st k) st (AddMember i m) (fun _ => fine st k).
  Proof. intros s (H & H'). cbn. split; [exact H|exact H']. Qed.
  Lemma sf_add st k i : safe (fine st k) st (tree_Add i) (fun _ => fine st k).
  Proof. intros s (H & H'). cbn. split; [exact H|exact H']. Qed.
  Lemma sf_valueless st k d : safe (fine st k) st (add_valueless d) (fun _ => fine st k).
  Proof. intros s (H & H'). cbn. split; [exact H|exact H']. Qed.
  Lemma sf_scope st k k' i (m : M vst unit) : (forall st', safe (fine st' k) st' m (fun _ => fine st' k')) ->
    safe (fine st k) st (tree_Push i ;; deferM tree_Pop m)%M (fun _ => fine st k').
  Proof.
    intros H s (Hs & H'). unfold bind, tree_Push, modify, deferM. cbv zeta.
    set (s1 := set_tree _ s). specialize (H (t_node (v_tree s) :: st) s1). 
    assert (F : fine (t_node (v_tree s) :: st) k s1) by (split; [cbn; now rewrite Hs|exact H']).
    specialize (H F). destruct (m s1) as [s2 [a|e|q|]]; try contradiction.
    - destruct H as (E & K). unfold tree_Pop. rewrite E. split; [reflexivity|exact K].
    - unfold tree_Pop. rewrite H. reflexivity.
  Qed.
  Lemma sf_mapM {A} (P : vst -> Prop) st (f : A -> M vst unit) l : (forall a, In a l -> safe P st (f a) (fun _ => P)) -> safe P st (mapM_ f l) (fun _ => P).
  Proof.
    induction l as [|a l IH]; intros H; cbn [mapM_]; [now apply sf_ret|]. eapply sf_bind; [apply H; now left|]. intros ?; cbv beta. apply IH. intros b Hb. apply H. now right.
  Qed.
  Lemma sf_mapM' {A B} (P : vst -> Prop) st (f : A -> M vst B) l : (forall a, In a l -> safe P st (f a) (fun _ => P)) -> safe P st (mapM f l) (fun _ => P).
  Proof.
    induction l as [|a l IH]; intros H; cbn [mapM]; [now apply sf_ret|]. eapply sf_bind; [apply H; now left|]. intros b.
    eapply sf_bind; [apply IH; intros c Hc; apply H; now right|]. intros bs. now apply sf_ret.
  Qed.
  Lemma sf_iter (P : vst -> Prop) st (f : M vst unit) z : safe P st f (fun _ => P) -> safe P st (iter_Z z f) (fun _ => P).
  Proof.
    intros H. unfold iter_Z. destruct z; try now apply sf_ret. induction p as [p IH|p IH|]; cbn [iter_pos]; auto.
    - eapply sf_bind; [exact H|]. intros ?. cbv beta. eapply sf_bind; [exact IH|]. intros ?. exact IH.
    - eapply sf_bind; [exact IH|]. intros ?. exact IH.
  Qed.
  Lemma sf_unpack st k info : readable nolocal columns info ->
    safe (fine st k) st (Unpack cf info) (fun u s => fine st k s /\ unpacked columns n info u).
  Proof.
    intros Hr s (H & H1 & H2 & H3 & H4 & (b & Hb) & Hp). unfold Unpack, zoom. rewrite Hb. pose proof (rs_unpack info Hr b) as K.
    match goal with |- context [(if cf_json cf then ?a else ?c) (RBit b)] => destruct ((if cf_json cf then a else c) (RBit b)) as [r [u|e|q|]] end; try contradiction.
    - destruct K as [[b' ->] K]. split; [|exact K]. repeat split; auto. cbn. eauto.
    - exact H.
  Qed.
  Lemma column_ok vn : forall ts vs k, length ts = length vs -> Forall (fun t => length t = k) ts ->
    exists ts', add_column vn ts vs = Ok ts' /\ length ts' = length ts /\ Forall (fun t => length t = S k) ts' /\
      (Forall (fun v => v <> VBin None) vs -> Forall (Forall (fun c => c_val c <> VBin None)) ts -> Forall (Forall (fun c => c_val c <> VBin None)) ts') /\
      (Forall comparable vs -> Forall (fun t => exists c, nth_error t k = Some c /\ comparable (c_val c)) ts').
  Proof.
    induction ts as [|t ts IH]; intros [|v vs] k Hl Hf; try discriminate; cbn [add_column].
    - exists []. repeat split; auto.
    - injection Hl as Hl. inversion Hf; subst. destruct (IH vs _ Hl H2) as (ts' & -> & E1 & E2 & E4 & E3). cbn [rbind].
      eexists. split; [reflexivity|]. cbn [length]. rewrite E1. split; [reflexivity|]. split.
      + constructor; [|exact E2]. rewrite app_length. cbn. lia.
      + split; [intros Hv Ht; inversion Hv; inversion Ht; subst; constructor; [apply Forall_app; split; auto|auto]|]. intros Hc. inversion Hc; subst. constructor; [|auto]. exists (mkCell vn v). split; [|assumption].
        rewrite nth_error_app2 by lia. now rewrite Nat.sub_diag.
  Qed.
  (** The last cells exist and can be compared. *)
  Definition last_ok (s : vst) : Prop :=
    match v_cells s with
    | UCells l => l <> []
    | CCells ts => exists k, Forall (fun t => length t = S k /\ exists c, nth_error t k = Some c /\ comparable (c_val c)) ts
    end.
  Lemma sf_add_valued st k d info u : readable nolocal columns info -> unpacked columns n info u ->
    safe (fine st k) st (add_valued d info u) (fun _ s => fine st k s /\ ((columns = true -> pi_unit info <> STRING) -> last_ok s)).
  Proof.
    intros Hr Hu s Hs. pose proof Hs as (H1 & H2 & H3 & H4 & H5 & H6 & H7).
    assert (HL : exists z, cells_Len (v_cells s) = Ok z).
    { destruct (v_cells s) as [l|[|t ts]] eqn:Ec; cbn in *; eauto. destruct H2 as (Hc & Hl & _). specialize (Hn Hc). cbn in Hl. unfold n in Hl. lia. }
    destruct HL as [z HL]. unfold add_valued. unfold bind at 1. unfold Len at 1. rewrite HL. unfold bind at 1. cbn [gets].
    cbv beta iota. unfold bind at 1. cbn [alloc]. cbv beta iota zeta. unfold bind at 1. cbn [tree_Add bind gets AddMember modify].
    cbv beta iota. unfold bind at 1. cbn [gets]. cbv beta iota. cbn [set_tree v_cells].
    set (vn := mkVnode _ _ _ _ _ _).
    destruct (v_cells s) as [l|ts] eqn:Ec; destruct u as [v|c]; cbn [unpacked rows_ok] in *.
    - unfold bind, modify, ret. cbv beta iota. split.
      + unfold fine in *. rewrite Ec in *. cbn in *. repeat split; try tauto. intros Hnl. apply Forall_app. split; [tauto|]. constructor; [|constructor]. apply (proj2 Hu). apply (proj1 Hr). exact Hnl.
      + intros _. unfold last_ok. cbn. destruct l; discriminate.
    - destruct Hu, H2; congruence.
    - destruct Hu, H2; congruence.
    - destruct Hu as (Hc & Hv & Hnv & Hcmp). destruct H2 as (_ & Hl & (k0 & Hk0) & Hcl).
      destruct (column_ok vn ts (cv_vals c) k0 ltac:(congruence) Hk0) as (ts' & E & E1 & E2 & E4 & E3).
      unfold bind, lift_res, modify, ret. cbv beta iota. rewrite E. split.
      + unfold fine in *. cbn. repeat split; auto; try tauto. congruence. eauto.
      + intros Hu. unfold last_ok. cbn. exists k0. specialize (E3 (Hcmp (Hu Hc))). rewrite Forall_forall in *. intros t Ht. split; auto.
  Qed.
  Lemma sf_need P st (d : descriptor) (f : descriptor -> M vst unit) Q : safe P st (f d) Q -> safe P st (bind (need (Some d)) f) Q.
  Proof. intros H. exact H. Qed.
  Lemma sf_build st k d info : readable nolocal columns info ->
    safe (fine st k) st (buildValuedNodeWithInfo cf d info) (fun _ s => fine st k s /\ ((columns = true -> pi_unit info <> STRING) -> last_ok s)).
  Proof.
    intros Hr. unfold buildValuedNodeWithInfo. eapply sf_bind; [apply sf_wrap, sf_unpack, Hr|]. intros u s [Hs Hu].
    exact (sf_add_valued st k d info u Hr Hu s Hs).
  Qed.
  Definition entry_ok (e : bentry) : Prop := 0 <= be_nbits e /\ In (be_unit e) [NUMERIC; STRING; NONNEG_CODE; FLAG].
  Lemma sf_calc st k d e : d_entry d = EB e -> entry_ok e ->
    safe (fine st k) st (calcPackingInfo d) (fun i s => fine st k s /\ readable nolocal columns i /\ pi_unit i = be_unit e).
  Proof.
    intros He [Hb Hu] s Hs. pose proof Hs as (_ & _ & H3 & H4 & _). unfold calcPackingInfo. rewrite He. unfold bind at 1. cbn [gets]. cbv beta iota.
    unfold readable. destruct (be_unit e) eqn:Eu; cbn in Hu; try (exfalso; clear - Hu; intuition discriminate).
    - unfold bind. rewrite H3. cbn. split; [exact Hs|]. repeat split; intros; try discriminate.
    - cbn. split; [exact Hs|]. repeat split; intros; try discriminate. destruct (negb _); auto.
    - cbn. split; [exact Hs|]. repeat split; intros; discriminate.
    - cbn. split; [exact Hs|]. repeat split; intros; discriminate.
  Qed.
  Lemma sf_valued st k d e : d_entry d = EB e -> entry_ok e ->
    safe (fine st k) st (buildValuedNode cf d) (fun _ s => fine st k s /\ ((columns = true -> be_unit e <> STRING) -> last_ok s)).
  Proof.
    intros He Ho. unfold buildValuedNode. eapply sf_bind; [apply sf_wrap; eapply sf_calc; eauto|]. intros i s (Hs & Hr & Hu).
    rewrite <- Hu. exact (sf_build st k d i Hr s Hs).
  Qed.
  Lemma readable_code w : readable nolocal columns (plain_info NONNEG_CODE w).
  Proof. repeat split; discriminate. Qed.
  Lemma last_ok_tree s t : last_ok s -> last_ok (set_tree t s).
  Proof. auto. Qed.
  Lemma sf_element st k d e : d_entry d = EB e -> entry_ok e ->
    safe (fine st k) st (visit_element cf false (Some d)) (fun _ s => fine st k s /\ ((columns = true -> be_unit e <> STRING) -> last_ok s)).
  Proof.
    intros He Ho. unfold visit_element. apply sf_need. eapply sf_bind with (R := fun _ => fine st k).
    - apply sf_wrap. unfold buildAssocNodes. eapply sf_bind; [apply sf_gets|]. intros g.
      eapply sf_weaken with (P' := fine st k) (Q' := fun _ => fine st k); [|tauto|auto].
      destruct (_ =? _); [now apply sf_ret|]. apply sf_mapM'. intros p _. eapply sf_bind with (R := fun _ => fine st k).
      + apply sf_wrap. eapply sf_weaken; [apply (sf_build st k), readable_code|auto|intros ? ? [? _]; assumption].
      + intros vn. eapply sf_bind; [apply (sf_member st k)|]. intros ?. now apply sf_ret.
    - intros an. eapply sf_bind; [apply sf_wrap; eapply sf_valued; eauto|]. intros vn. apply sf_mapM. intros a _ s [Hs Hl].
      pose proof (sf_member st k (vn_id vn) (Some (vn_id a)) s Hs) as K. cbn in *. split; [exact K|]. intros H. apply Hl, H.
  Qed.
  Lemma sf_031021 st k d e : d_entry d = EB e -> entry_ok e ->
    safe (fine st k) st (visit_031021 cf (Some d)) (fun _ s => fine st k s /\ ((columns = true -> be_unit e <> STRING) -> last_ok s)).
  Proof.
    intros He Ho. unfold visit_031021. apply sf_need. eapply sf_bind; [apply sf_wrap; eapply sf_valued; eauto|]. intros vn s [Hs Hl].
    unfold assoc_SetNode, upd_regs, modify. cbv beta iota. split; [|exact Hl].
    destruct Hs as (H1 & H2 & H3 & H4 & H5 & H6 & H7). destruct (g_assoc (v_regs s)) as [|p l] eqn:Ea.
    - repeat split; auto. cbn [v_regs set_regs]. rewrite Ea. exact H5.
    - repeat split; auto. cbn [v_regs set_regs set_assoc g_assoc]. rewrite app_length.
      rewrite (app_removelast_last (0, None) (l := p :: l)) in H5 by discriminate. rewrite app_length in H5. exact H5.
  Qed.

  (** What is known of every node of the tree. *)
  Definition plain_kind (n : anode) : Prop :=
    match an_kind n with
    | KElement np => np = false
    | KE031021 | KFixed | KDelayed | KSequence | KNbitsOffset | KScaleOffset | KAssocField | KInsertString
    | KModifyPacking | KSetStringLength => True
    | KSkipLocal => nolocal = false /\ columns = false /\ an_members n <> []
    | _ => False
    end.
  Definition safe_node (n : anode) : Prop :=
    plain_kind n /\
    (exists d, an_desc n = Some d /\
       (an_kind n = KElement false \/ an_kind n = KE031021 -> exists e, d_entry d = EB e /\ entry_ok e) /\
       0 <= id_Y (d_id d) /\ (an_kind n = KAssocField <-> d_id d / 1000 = 204) /\ id_Y (d_id d) = d_id d mod 1000) /\
    closes_opened 0 (an_members n) /\
    (an_kind n = KDelayed -> exists m rest d e, an_members n = m :: rest /\ (an_kind m = KElement false \/ an_kind m = KE031021) /\
       an_desc m = Some d /\ d_entry d = EB e /\ d_id d / 1000 <> 204 /\ (columns = true -> be_unit e <> STRING)).
  (** The number of open associated fields after a node. *)
  Definition after (n : anode) (k : nat) : nat :=
    match an_desc n with
    | Some d => if d_id d / 1000 =? 204 then if d_id d mod 1000 =? 0 then pred k else S k else k
    | None => k
    end.
  Definition closable (n : anode) (k : nat) : Prop :=
    match an_desc n with
    | Some d => d_id d / 1000 = 204 -> d_id d mod 1000 = 0 -> (0 < k)%nat
    | None => True
    end.
  Definition visit_safe (m : anode) : Prop := all_nodes safe_node m -> forall st k, closable m k ->
    safe (fine st k) st (visit cf m) (fun _ => fine st (after m k)).
  Lemma sf_list ms : Forall visit_safe ms -> Forall (all_nodes safe_node) ms -> forall st j k, closes_opened j ms -> (j <= k)%nat ->
    safe (fine st k) st (mapM_ (visit cf) ms) (fun _ => fine st (k - j)).
  Proof.
    intros Hv Hs st. induction ms as [|m ms IH]; intros j k Hc Hjk; cbn [mapM_].
    - apply sf_ret. intros s. apply fine_less. lia.
    - inversion Hv; subst. inversion Hs; subst.
      assert (K : closable m k /\ exists j', closes_opened j' ms /\ (j' <= after m k)%nat /\ (k - j <= after m k - j')%nat).
      { cbn [closes_opened] in Hc. unfold closable, after. destruct (an_desc m) as [d|]; [|split; [exact I|]; exists j; auto].
        destruct (d_id d / 1000 =? 204) eqn:E1; [|split; [lia|]; exists j; auto].
        destruct (d_id d mod 1000 =? 0) eqn:E2.
        - destruct Hc. split; [lia|]. exists (pred j). repeat split; auto; lia.
        - split; [lia|]. exists (S j). repeat split; auto; lia. }
      destruct K as (Hcl & j' & Hj' & Hle & Hd). eapply sf_bind; [apply H1; auto|]. intros ?. cbv beta.
      eapply sf_weaken; [apply (IH H2 H4 j' (after m k) Hj' Hle)|auto|]. intros ? s. cbv beta. apply fine_less. exact Hd.
  Qed.
  Lemma sf_block ms : Forall visit_safe ms -> Forall (all_nodes safe_node) ms -> closes_opened 0 ms -> forall st k,
    safe (fine st k) st (b <- alloc NBlock ;; tree_Push b ;; deferM tree_Pop (wrap "cannot process replicated block" (mapM_ (visit cf) ms)))%M (fun _ => fine st k).
  Proof.
    intros Hv Hs Hc st k. eapply sf_bind; [apply (sf_alloc st k)|]. intros b. cbv beta. apply sf_scope. intros st'. apply sf_wrap.
    eapply sf_weaken; [apply (sf_list ms Hv Hs st' 0 k Hc); lia|auto|]. intros ? s. cbv beta. apply fine_less. lia.
  Qed.
  Lemma sf_regs st k j f : (forall g, g_newRefvals g = None -> 0 <= g_nbitsString g -> (k <= length (g_assoc g))%nat ->
      g_newRefvals (f g) = None /\ 0 <= g_nbitsString (f g) /\ (j <= length (g_assoc (f g)))%nat) ->
    safe (fine st k) st (upd_regs f) (fun _ => fine st j).
  Proof.
    intros H. apply sf_modify. intros s (H1 & H2 & H3 & H4 & H5 & H6 & H7). destruct (H _ H3 H4 H5) as (? & ? & ?). repeat split; auto.
  Qed.
  Lemma sf_last_equal st k : safe (fun s => fine st k s /\ last_ok s) st LastCellEquality (fun _ s => fine st k s /\ last_ok s).
  Proof.
    intros s [Hs Hl]. unfold LastCellEquality. assert (K : exists b, cells_LastCellEquality (v_cells s) = Ok b).
    { destruct Hs as (_ & H2 & _). unfold last_ok in Hl. destruct (v_cells s) as [l|ts]; [eexists; reflexivity|]. cbn [rows_ok] in H2.
      destruct H2 as (Hc & Hlen & _). destruct Hl as (k0 & Hk). destruct ts as [|t ts]; [specialize (Hn Hc); cbn in Hlen; unfold n in Hlen; lia|].
      cbn [cells_LastCellEquality]. cbv zeta. inversion Hk as [|? ? [E1 (c & E2 & E3)] Hk']; subst. rewrite E1.
      assert (G : forall (t : list cell) c, nth_error t k0 = Some c -> go_nth t (Z.of_nat (S k0) - 1) = Ok c).
      { intros t0 c0 E. unfold go_nth. replace (Z.of_nat (S k0) - 1) with (Z.of_nat k0) by lia. assert (Z.of_nat k0 <? 0 = false) as -> by lia. rewrite Nat2Z.id, E. reflexivity. }
      rewrite (G _ _ E2). cbn [rbind]. clear - G E3 Hk'. induction Hk' as [|t' ts [E1 (c' & E2 & E4)] _ IH]; cbn [last_equal]; [eauto|].
      rewrite (G _ _ E2). cbn [rbind]. assert (V : exists b, value_eq (c_val c) (c_val c') = Ok b).
      { unfold comparable in *. destruct (c_val c) as [| | | |b1|b1], (c_val c') as [| | | |b2|b2]; cbn; eauto; try (exfalso; eapply (proj1 E3); reflexivity). all: destruct b1; eauto. destruct b2; eauto. }
      destruct V as [[|] ->]; cbn [rbind]; eauto. }
    destruct K as [b ->]. auto.
  Qed.
  Lemma sf_factor {A} st k (f : cell -> M vst A) Q : (forall c, safe (fine st k) st (f c) Q) ->
    safe (fun s => fine st k s /\ last_ok s) st (len <- Len ;; c <- CellAt (len - 1) ;; f c)%M Q.
  Proof.
    intros K s [Hs Hl]. unfold bind, Len, CellAt. unfold last_ok in Hl. pose proof Hs as (_ & H2 & _).
    destruct (v_cells s) as [l|ts] eqn:Ec; cbn [cells_Len cells_Cell].
    - unfold go_nth. destruct l as [|c l]; [congruence|]. assert (Z.of_nat (length (c :: l)) - 1 <? 0 = false) as -> by (cbn [length]; lia).
      destruct (nth_error (c :: l) _) eqn:E; [apply K, Hs|]. apply nth_error_None in E. cbn [length] in E. lia.
    - destruct ts as [|t ts]; [destruct H2 as (Hc & Hlen & _); specialize (Hn Hc); cbn in Hlen; unfold n in Hlen; lia|].
      destruct Hl as (k0 & Hk). inversion Hk as [|? ? [E1 (c & E2 & E3)] Hk']; subst. cbn [cells_Len cells_Cell]. rewrite E1. unfold go_nth.
      replace (Z.of_nat (S k0) - 1) with (Z.of_nat k0) by lia. assert (Z.of_nat k0 <? 0 = false) as -> by lia. rewrite Nat2Z.id, E2. apply K, Hs.
  Qed.
  Lemma sf_open st k k' nk (m : M vst unit) : (forall st', safe (fine st' k) st' m (fun _ => fine st' k')) ->
    safe (fine st k) st ((i <- alloc nk ;; tree_Push i) ;; deferM tree_Pop m)%M (fun _ => fine st k').
  Proof.
    intros H s Hs. rewrite bind_assoc. revert s Hs. change (safe (fine st k) st (i <- alloc nk ;; tree_Push i ;; deferM tree_Pop m)%M (fun _ => fine st k')).
    eapply sf_bind; [apply (sf_alloc st k)|]. intros i. cbv beta. apply sf_scope, H.
  Qed.
  Lemma after_other d ms b at_ kd k : an_desc (ANode kd (Some d) ms b at_) = Some d -> d_id d / 1000 <> 204 -> after (ANode kd (Some d) ms b at_) k = k.
  Proof. intros _ H. unfold after. cbn [an_desc]. assert (d_id d / 1000 =? 204 = false) as -> by lia. reflexivity. Qed.
  Lemma visit_is_safe m : visit_safe m.
  Proof.
    induction m as [kd od ms bm at_ Hms _ _] using anode_full_ind. intros Ha st k Hcl. apply all_nodes_eq in Ha.
    destruct Ha as ((Hk & (d & Hd & He & Hy & H204 & Hym) & Hco & Hdel) & Hams & _ & _). cbn [an_desc an_members an_kind plain_kind] in *. subst od.
    assert (Hno : kd <> KAssocField -> after (ANode kd (Some d) ms bm at_) k = k) by (intros H; apply after_other; [reflexivity|tauto]).
    assert (Hlist : forall st k, safe (fine st k) st (mapM_ (visit cf) ms) (fun _ => fine st k)).
    { intros st' k'. eapply sf_weaken; [apply (sf_list ms Hms Hams st' 0 k' Hco); lia|auto|]. intros ? s. cbv beta. apply fine_less. lia. }
    unfold plain_kind in Hk. cbn [an_kind an_members] in Hk. destruct kd; try contradiction; try rewrite Hno by discriminate; cbn [visit].
    - subst. destruct He as (e & He & Ho); [auto|]. eapply sf_weaken; [apply (sf_element st k d e He Ho)|auto|]. intros ? ? [? _]. assumption.
    - destruct He as (e & He & Ho); [auto|]. eapply sf_weaken; [apply (sf_031021 st k d e He Ho)|auto|]. intros ? ? [? _]. assumption.
    - apply sf_open. intros st'. apply sf_wrap, Hlist.
    - apply sf_open. intros st'. apply sf_need. apply sf_iter, sf_wrap, sf_block; auto.
    - apply sf_open. intros st'. destruct (Hdel eq_refl) as (m0 & rest & fd & e & -> & Hkm & Hdm & Hem & Hf & Hu).
      inversion Hms as [|? ? _ Hrest]; subst. inversion Hams as [|? ? Hm0 Harest]; subst.
      destruct m0 as [km dm mm bm0 am]. cbn [an_kind an_desc] in *. subst dm. apply all_nodes_eq in Hm0. destruct Hm0 as ((_ & (d' & Hd' & He' & _) & _) & _).
      cbn [an_kind an_desc] in *. injection Hd' as <-. destruct (He' Hkm) as (e' & Hee & Ho). rewrite Hem in Hee. injection Hee as <-.
      assert (Hc0 : closes_opened 0 rest).
      { cbn [closes_opened an_desc] in Hco. assert (d_id fd / 1000 =? 204 = false) as E by lia. rewrite E in Hco. exact Hco. }
      eapply sf_bind with (R := fun _ s => fine st' k s /\ last_ok s).
      + apply sf_wrap. destruct Hkm as [-> | ->]; cbn [visit].
        * eapply sf_weaken; [apply (sf_element st' k fd e Hem Ho)|auto|]. intros ? ? [? H]. auto.
        * eapply sf_weaken; [apply (sf_031021 st' k fd e Hem Ho)|auto|]. intros ? ? [? H]. auto.
      + intros ?. cbv beta. eapply sf_bind; [apply sf_last_equal|]. intros eq. cbv beta. destruct (negb eq).
        * intros s [Hs _]. exact (fine_stack _ _ _ Hs).
        * apply sf_factor. intros c. eapply sf_bind with (R := fun _ => fine st' k).
          -- apply sf_wrap. intros s Hs. unfold lift_res. destruct (c_val c); cbn [UintValue]; try exact Hs; exact (fine_stack _ _ _ Hs).
          -- intros nrep. apply sf_iter, sf_wrap, sf_block; auto.
    - eapply sf_bind; [apply (sf_valueless st k)|]. intros ?. cbv beta. apply sf_need. cbv zeta. apply sf_regs. intros g. cbn. auto.
    - eapply sf_bind; [apply (sf_valueless st k)|]. intros ?. cbv beta. apply sf_need. cbv zeta. apply sf_regs. intros g. cbn. auto.
    - eapply sf_bind; [apply (sf_valueless st k)|]. intros ?. cbv beta. apply sf_need. cbv zeta.
      assert (E4 : d_id d / 1000 = 204) by tauto. unfold closable in Hcl. cbn [an_desc] in Hcl. unfold after. cbn [an_desc].
      assert (d_id d / 1000 =? 204 = true) as -> by lia. rewrite Hym. eapply sf_bind with (R := fun _ => fine st (if d_id d mod 1000 =? 0 then pred k else S k)).
      + destruct (_ =? 0) eqn:E.
        * specialize (Hcl E4 ltac:(lia)). intros s (H1 & H2 & H3 & H4 & H5 & H6 & H7). unfold assoc_Pop. destruct (g_assoc (v_regs s)) as [|x l] eqn:Ea; [cbn in H5; lia|].
          repeat split; auto. cbn [v_regs set_regs set_assoc g_assoc].
          rewrite (app_removelast_last (0, None) (l := x :: l)) in H5 by discriminate. rewrite app_length in H5. cbn [length] in H5. lia.
        * apply sf_regs. intros g. cbn. rewrite app_length. cbn. intros. repeat split; auto. lia.
      + intros ?. cbv beta. apply sf_wrap, Hlist.
    - apply sf_need. eapply sf_bind; [apply (sf_build st k)|].
      + repeat split; intros; try discriminate. cbn. unfold NBITS_PER_BYTE. lia.
      + intros ?. apply sf_ret. tauto.
    - destruct Hk as (Hk0 & Hk1 & Hk2). eapply sf_bind; [apply (sf_valueless st k)|]. intros ?. cbv beta. apply sf_need. destruct ms as [|m0 rest]; [congruence|].
      inversion Hams as [|? ? Hm0 Harest]; subst. destruct m0 as [km dm mm bm0 am]. apply all_nodes_eq in Hm0. destruct Hm0 as ((_ & (d' & Hd' & _) & _) & _).
      cbn [an_kind an_desc] in *. subst dm. apply sf_need. eapply sf_bind; [apply (sf_build st k)|].
      + repeat split; intros; try discriminate; cbn; congruence.
      + intros ?. apply sf_ret. tauto.
    - eapply sf_bind; [apply (sf_valueless st k)|]. intros ?. cbv beta. apply sf_need. cbv zeta. apply sf_regs. intros g. destruct (_ =? 0); cbn; auto.
    - eapply sf_bind; [apply (sf_valueless st k)|]. intros ?. cbv beta. apply sf_need. cbv zeta. apply sf_regs. intros g. cbn. unfold NBITS_PER_BYTE. repeat split; auto. lia.
  Qed.

  Lemma run_is_safe ms s : Forall (all_nodes safe_node) ms -> closes_opened 0 ms -> (exists b, v_r s = RBit b) ->
    (nolocal = true -> clean (v_pay s)) ->
    exists s', (run_payload cf (root ms) s = (s', Ok tt) /\ (nolocal = true -> clean (v_pay s'))) \/ exists e, run_payload cf (root ms) s = (s', Err e).
  Proof.
    intros Ha Hc Hs Hp0.
    set (I := fun s => (exists b, v_r s = RBit b) /\ (nolocal = true -> clean (v_pay s))).
    assert (K : safe I [] (run_payload cf (root ms)) (fun _ => I)).
    2:{ specialize (K s (conj Hs Hp0)). destruct (run_payload cf (root ms) s) as [s' [[]|e|q|]]; try contradiction; exists s'; [left; split; [reflexivity|apply K]|eauto]. }
    unfold run_payload. apply sf_iter. eapply sf_bind with (R := fun _ => fine [] 0).
    - unfold root. cbn [visit]. eapply sf_bind with (R := fun _ => fine [] 0).
      + intros s0 [Hs0 Hs1]. unfold reset. cbv zeta. rewrite Hj. cbn [negb]. rewrite andb_true_r. change (cf_compressed cf) with columns. destruct columns eqn:Ec.
        * specialize (Hn eq_refl). assert (cf_nsubsets cf <? 0 = false) as -> by lia. repeat split; auto; cbn; try lia.
          apply repeat_length. exists 0%nat. apply Forall_repeat. reflexivity. apply Forall_repeat. constructor.
        * repeat split; auto; cbn; lia.
      + intros ?. cbv beta. apply sf_wrap. eapply sf_weaken; [apply (sf_list ms) with (j := 0%nat) (k := 0%nat) (st := []); auto|auto|].
        apply Forall_forall. intros m _. apply visit_is_safe. intros ? ?. cbv beta. apply fine_less. lia.
    - intros ?. cbv beta. intros s0 Hs0. unfold Produce, bind, tree_Root. destruct Hs0 as (E & Hc0 & _ & _ & _ & Hr & Hcl). rewrite E. split; [exact Hr|]. intros Hnl. cbn [v_pay set_pay].
      assert (Q : forall h i ls p, clean p -> Forall (Forall (fun c => c_val c <> VBin None)) ls -> clean (add_subsets h i ls p)).
      { intros h i ls. induction ls as [|l ls IH]; intros p Hp Hl; cbn [add_subsets]; [exact Hp|]. inversion Hl; subst. apply IH; [|assumption]. apply Forall_app. split; [exact Hp|]. constructor; [assumption|constructor]. }
      apply Q; [auto|]. destruct (v_cells s0) as [l|ts]; cbn [rows_ok] in Hc0; [constructor; [tauto|constructor]|tauto].
  Qed.
End Safe.

Lemma all_and (P Q : anode -> Prop) m : all_nodes P m -> all_nodes Q m -> all_nodes (fun n => P n /\ Q n) m.
Proof.
  induction m as [kd od ms bm at_ Hms Hb Hat] using anode_full_ind. rewrite !all_nodes_eq. intros (H1 & H2 & H3 & H4) (K1 & K2 & K3 & K4).
  assert (L : forall l, Forall (fun m => all_nodes P m -> all_nodes Q m -> all_nodes (fun n => P n /\ Q n) m) l -> Forall (all_nodes P) l -> Forall (all_nodes Q) l -> Forall (all_nodes (fun n => P n /\ Q n)) l).
  { intros l H K L. rewrite Forall_forall in *. auto. }
  repeat split; auto. destruct bm; auto.
Qed.
Lemma all_impl (P Q : anode -> Prop) m : (forall n, P n -> Q n) -> all_nodes P m -> all_nodes Q m.
Proof.
  intros HI. induction m as [kd od ms bm at_ Hms Hb Hat] using anode_full_ind. rewrite !all_nodes_eq. intros (H1 & H2 & H3 & H4).
  assert (L : forall l, Forall (fun m => all_nodes P m -> all_nodes Q m) l -> Forall (all_nodes P) l -> Forall (all_nodes Q) l).
  { intros l H K. rewrite Forall_forall in *. auto. }
  repeat split; auto. destruct bm; auto.
Qed.
Definition element_sane (m : anode) : Prop := an_kind m = KElement false \/ an_kind m = KE031021 ->
  exists d e, an_desc m = Some d /\ d_entry d = EB e /\ entry_ok e.
Lemma elements_sane g sk ids ns sk' : loaded_tables g -> parses g sk ids ns sk' -> Forall (all_nodes element_sane) ns.
Proof.
  intros Hg. revert sk ids ns sk'.
  assert (St : forall id k, standalone id = Some k -> k <> KElement false /\ k <> KE031021).
  { intros id k Hs. unfold standalone in Hs. cbv zeta in Hs.
    repeat match type of Hs with (if ?c then _ else _) = _ => destruct c; [injection Hs as <-; split; discriminate|] end. discriminate. }
  assert (Wo : forall id k n, with_operands id = Some (k, n) -> k <> KElement false /\ k <> KE031021).
  { intros id k n Hs. unfold with_operands in Hs. cbv zeta in Hs.
    repeat match type of Hs with (if ?c then _ else _) = _ => destruct c; [injection Hs as <- _; split; discriminate|] end. discriminate. }
  refine (proj1 (grammar_nodes g element_sane _ _ _ _ _ _ _ _ _ _ _ _)); unfold element_sane; cbn [an_kind]; try (intros; exfalso; intuition discriminate).
  - intros id d HF HL _. rewrite element_desc. pose proof (Lookup_kind _ _ _ HL) as (_ & _ & K). destruct (d_entry d) as [e| | |] eqn:E; try lia.
    exists d, e. split; [reflexivity|]. split; [exact E|]. exact (Hg _ _ _ HL E).
  - intros id HF _. rewrite element_desc. exists (local_element id), local_bentry. repeat split; auto. cbn. lia. now left.
  - intros id d k _ Hs _ Hk. apply St in Hs. exfalso. tauto.
  - intros sk id d k n block ms sk' _ Hs _ _ _ Hk. apply Wo in Hs. exfalso. tauto.
Qed.
Lemma all_deep (P : anode -> Prop) m : all_nodes P m -> all_nodes (all_nodes P) m.
Proof.
  induction m as [kd od ms' bm at_ Hms Hb Hat] using anode_full_ind. intros H. pose proof H as H'.
  apply all_nodes_eq in H. destruct H as (H1 & H2 & H3 & H4). rewrite Forall_forall in *. apply (all_nodes_eq (all_nodes P)).
  split; [exact H'|]. split; [apply Forall_forall; auto|]. split; [destruct bm; auto|apply Forall_forall; auto].
Qed.
(** The kinds the identifiers call for. *)
Lemma id_ranges id : plain_id id = true -> 0 <= id /\ ((0 <= id < 100000 /\ id_F id = 0) \/ (100000 <= id < 200000 /\ id_F id = 1) \/ (300000 <= id < 400000 /\ id_F id = 3) \/
  (201000 <= id < 209000 /\ id / 1000 <> 203 /\ id_F id = 2)).
Proof.
  unfold plain_id, id_F. intros H. apply orb_true_iff in H. destruct H as [H|H]; apply existsb_exists in H; destruct H as (x & Hi & Hx); apply Z.eqb_eq in Hx; cbn in Hi.
  - assert (R : 0 <= x <= 3) by lia. pose proof (Z.div_mod id 100000) as E. pose proof (Z.mod_pos_bound id 100000) as B.
    assert (0 <= id) by lia. split; [assumption|]. rewrite Z.quot_div_nonneg by lia.
    assert (x = 0 \/ x = 1 \/ x = 3) as [?|[?|?]] by lia; subst x; lia.
  - assert (R : 201 <= x <= 208 /\ x <> 203) by lia. pose proof (Z.div_mod id 1000) as E. pose proof (Z.mod_pos_bound id 1000) as B.
    assert (0 <= id) by lia. split; [assumption|]. rewrite Z.quot_div_nonneg by lia. right. right. right. split; [lia|]. split; [lia|].
    symmetry; apply Z.div_unique with (r := id - 200000); lia.
Qed.
Lemma op_kind id k : 201000 <= id < 209000 -> id / 1000 <> 203 -> Some k = documented id ->
  match k with KNbitsOffset | KScaleOffset | KInsertString | KModifyPacking | KSetStringLength => id / 1000 <> 204
  | KAssocField => id / 1000 = 204 | KSkipLocal => id / 1000 = 206 | _ => False end.
Proof.
  intros R N. unfold documented. assert (H : id / 1000 = 201 \/ id / 1000 = 202 \/ id / 1000 = 204 \/ id / 1000 = 205 \/ id / 1000 = 206 \/ id / 1000 = 207 \/ id / 1000 = 208).
  { pose proof (Z.div_mod id 1000). pose proof (Z.mod_pos_bound id 1000). lia. }
  destruct H as [E|[E|[E|[E|[E|[E|E]]]]]]; rewrite E; intros [= ->]; lia.
Qed.
Lemma plain_safe cf nl g ids ms : loaded_tables g -> (nl = true -> without_206 ms) -> parsed g ids ms -> Forall (all_nodes (plain_node (cf_compressed cf))) ms -> Forall (all_nodes (safe_node cf nl)) ms.
Proof.
  intros Hg Hnl Hp Hpl. apply parsed_iff in Hp. pose proof (right_kinds _ _ _ _ _ Hp) as HR. pose proof (all_members_parsed _ _ _ _ _ Hp) as HM.
  pose proof (elements_sane _ _ _ _ _ Hg Hp) as HE. rewrite Forall_forall in *. intros m Hm.
  assert (Hall : all_nodes (fun n => (right_kind n /\ members_parsed g n) /\ ((element_sane n /\ plain_node (cf_compressed cf) n) /\ (all_nodes right_kind n /\ (nl = true -> forall d, an_desc n = Some d -> d_id d / 1000 <> 206)))) m).
  { apply all_and; [apply all_and; auto|]. apply all_and; [apply all_and; auto|]. apply all_and; [apply all_deep; auto|].
    destruct nl; [|eapply all_impl; [|apply (HR m Hm)]; intros; discriminate]. specialize (Hnl eq_refl). unfold without_206 in Hnl. rewrite Forall_forall in Hnl. eapply all_impl; [|apply Hnl, Hm]. auto. }
  revert Hall. apply all_impl. clear. intros [kd od ms bm at_] ((HR & HM) & (HE & ((d & Hd & Hid & H206) & Hco & Hff)) & Hrk & Hnl).
  cbn [an_desc an_kind an_members] in *. subst od. unfold right_kind in HR. cbn [an_desc an_kind] in HR.
  destruct (id_ranges _ Hid) as [H0 HF]. pose proof (y_mod _ H0) as Hy.
  assert (HY : 0 <= id_Y (d_id d)) by (rewrite Hy; apply Z.mod_pos_bound; lia).
  assert (Hmore : (kd = KElement false \/ kd = KE031021 -> exists e, d_entry d = EB e /\ entry_ok e)).
  { intros Hk. destruct (HE Hk) as (d' & e & Hd' & K). cbn in Hd'. injection Hd' as <-. eauto. }
  assert (Q : plain_kind cf nl (ANode kd (Some d) ms bm at_) /\ (kd = KAssocField <-> d_id d / 1000 = 204) /\ (kd = KDelayed -> 100000 <= d_id d < 200000 /\ d_id d mod 1000 = 0)).
  { destruct HF as [[R HF]|[[R HF]|[[R HF]|(R & N & HF)]]]; rewrite HF in HR.
    - assert (d_id d / 1000 < 100) by (apply Z.div_lt_upper_bound; lia). destruct (_ =? _) in HR; subst kd; (split; [exact I || reflexivity|]); split; try discriminate; split; intros; [discriminate|lia|discriminate|lia].
    - assert (d_id d / 1000 < 200) by (apply Z.div_lt_upper_bound; lia). destruct (_ =? _) eqn:E in HR; subst kd; (split; [exact I|]); split; try discriminate; try (split; intros; [discriminate|lia]); intros; lia.
    - assert (300 <= d_id d / 1000) by (apply Z.div_le_lower_bound; lia). subst kd. split; [exact I|]. split; [|discriminate]. split; intros; [discriminate|lia].
    - pose proof (op_kind _ _ R N HR) as K. unfold plain_kind. cbn [an_kind an_members]. destruct kd; try contradiction; (split; [try exact I|split; [split; intros; try discriminate; try lia; try reflexivity|try discriminate]]).
      split; [destruct nl; [exfalso; apply (Hnl eq_refl d eq_refl); exact K|reflexivity]|].
      split; [destruct (cf_compressed cf); [exfalso; apply H206; auto|reflexivity]|]. cbn [members_parsed] in HM. destruct HM as (sk & sk' & block & Hl & Hp). intros ->. inversion Hp; subst. discriminate. }
  destruct Q as (Q1 & Q2 & Q3). unfold safe_node. cbn [an_desc an_kind an_members]. split; [exact Q1|]. split; [exists d; repeat split; auto; tauto|]. split; [exact Hco|].
  intros Hk. destruct (Q3 Hk) as [R Hz]. assert (E1 : d_id d / 100000 = 1) by (symmetry; apply Z.div_unique with (r := d_id d - 100000); lia).
  destruct (Hff d eq_refl E1 Hz) as (m & fd & e & Hh & Hdm & HF0 & He & Hu). cbn [an_members] in Hh. destruct ms as [|m' rest]; [discriminate|]. injection Hh as ->.
  exists m, rest, fd, e. repeat split; auto.
  - apply all_nodes_eq in Hrk. destruct Hrk as (_ & Hrk & _). inversion Hrk as [|? ? Hm _]; subst. destruct m as [km dm mm bm' am]. cbn [an_desc an_kind] in *. subst dm. apply all_nodes_eq in Hm.
    destruct Hm as [Hm _]. unfold right_kind in Hm. cbn [an_desc an_kind] in Hm.
    assert (HR0 : 0 <= d_id fd < 100000) by (pose proof (Z.div_mod (d_id fd) 100000); pose proof (Z.mod_pos_bound (d_id fd) 100000); lia).
    assert (id_F (d_id fd) = 0) as E by (unfold id_F; apply Z.quot_small; lia). rewrite E in Hm. destruct (_ =? _) in Hm; auto.
  - pose proof (Z.div_mod (d_id fd) 100000). pose proof (Z.mod_pos_bound (d_id fd) 100000).
    assert (d_id fd / 1000 < 100) by (apply Z.div_lt_upper_bound; lia). lia.
Qed.
