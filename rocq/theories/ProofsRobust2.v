(** How decoding a message can end: the sections. *)
From Coq Require Import ZifyBool ZifyNat.
From Verif Require Export SpecRobust.
From Verif Require Import ProofsBase ProofsMsg1 ProofsMsg2 ProofsMsg3 ProofsSafe ProofsSafe2 ProofsParser5 ProofsRobust PropsSafe.
From Verif Require Import SpecMessage.
Notation field := ModelFactory.field.

(** ** Readers and their position *)
Definition moves {A} (w : Z) (m : M bitreader A) (Q : A -> Prop) : Prop := forall b,
  match m b with (b', Ok a) => br_pos b' = br_pos b + w /\ Q a | (_, Err _) => True | _ => False end.
Lemma mv_bind {A B} w1 w2 w (m : M bitreader A) (f : A -> M bitreader B) P Q :
  moves w1 m P -> (forall a, P a -> moves w2 (f a) Q) -> w = w1 + w2 -> moves w (bind m f) Q.
Proof.
  intros H K -> b. unfold bind. specialize (H b). destruct (m b) as [b1 [a|e|q|]]; auto. destruct H as [H1 H2]. specialize (K a H2 b1).
  destruct (f a b1) as [b2 [c|e|q|]]; auto. destruct K. split; [lia|auto].
Qed.
Lemma mv_pos w : moves w (br_add_pos w) (fun _ => True). Proof. intros b. cbn. auto. Qed.
Lemma mv_ret {A} (a : A) : moves 0 (ret a) (fun _ => True). Proof. intros b. cbn. split; [lia|exact I]. Qed.
Lemma mv_lib {A} (f : err -> M (list bool) A) : (forall e, bsafe (f e) (fun _ => True)) -> moves 0 (br_lib f) (fun _ => True).
Proof. intros H r. unfold br_lib. specialize (H (br_err r) (br_bits r)). destruct (f _ _) as [bs [a|e|q|]]; auto. cbn. split; [lia|exact I]. Qed.
Lemma mv_replicate {A} (m : M bitreader A) k : moves 0 m (fun _ => True) -> moves 0 (replicateM k m) (fun _ => True).
Proof.
  intros H. induction k as [|k IH]; cbn [replicateM]; [apply mv_ret|]. eapply mv_bind; [exact H| |]; cycle 1; [reflexivity|]. intros a _.
  eapply mv_bind; [exact IH| |]; cycle 1; [reflexivity|]. intros l _. apply mv_ret.
Qed.
Lemma bs_lib0 e n : bsafe (lib_read_bits e n) (fun u => 0 <= u).
Proof.
  assert (Hy : forall k u, 0 <= u -> bsafe (lib_read_bits_bytes e k u) (fun u => 0 <= u)).
  { induction k as [|k IH]; intros u Hu; cbn [lib_read_bits_bytes]; [now apply bs_ret|]. eapply bs_bind; [apply bs_byte|]. intros b _. apply IH, u64_range. }
  assert (Hi : forall k u, 0 <= u -> bsafe (lib_read_bits_bits e k u) (fun u => 0 <= u)).
  { induction k as [|k IH]; intros u Hu; cbn [lib_read_bits_bits]; [now apply bs_ret|]. eapply bs_bind; [apply bs_bit|]. intros b _. apply IH, u64_range. }
  unfold lib_read_bits. destruct (_ <=? _); [apply bs_ret; lia|]. eapply bs_bind; [apply Hy; lia|]. intros u Hu. now apply Hi.
Qed.
Lemma mv_uint n : moves n (br_ReadUint n) (fun u => 0 <= u).
Proof.
  eapply mv_bind; [apply mv_pos| |]; [|instantiate (1 := 0); lia]. intros _ _ r. unfold br_lib. pose proof (bs_lib0 (br_err r) n (br_bits r)) as H.
  destruct (lib_read_bits _ _ _) as [bs [a|e|q|]]; auto. cbn. split; [lia|exact H].
Qed.
Lemma mv_bool : moves 1 br_ReadBool (fun _ => True).
Proof. eapply mv_bind; [apply mv_pos|intros _ _; apply mv_lib; intros; apply bs_bit|lia]. Qed.
Lemma mv_int n : moves n (br_ReadInt n) (fun _ => True).
Proof.
  eapply mv_bind; [apply mv_bool| |]; cycle 1; [|intros neg _; eapply mv_bind; [apply mv_pos| |]; cycle 1; [|intros _ _; eapply mv_bind; [apply mv_lib; intros; apply bs_lib|intros; apply mv_ret|reflexivity]]].
  2: reflexivity. lia.
Qed.
Lemma mv_bytes n : 0 <= n -> moves (n * 8) (br_ReadBytes n) (fun _ => True).
Proof.
  intros Hn. eapply mv_bind; [apply mv_pos| |]; cycle 1; [|intros _ _; assert (n <? 0 = false) as -> by lia; apply mv_replicate, mv_lib; intros; apply bs_byte].
  unfold NBITS_PER_BYTE. lia.
Qed.
Lemma mv_binary_loop k : forall n, moves 0 (br_ReadBinary_loop k n) (fun _ => True).
Proof.
  induction k as [|k IH]; intros n; cbn [br_ReadBinary_loop]; [apply mv_ret|]. eapply mv_bind; [apply mv_lib; intros; apply bs_lib| |]; cycle 1; [reflexivity|].
  intros v _. eapply mv_bind; [apply IH|intros; apply mv_ret|reflexivity].
Qed.
(** At the end of the stream the answer is nil, and less than a byte is left. *)
Definition binary_spec (n : Z) (b : bitreader) (x : bitreader * res (option binary)) : Prop :=
  match x with
  | (b', Ok (Some _)) => br_pos b' = br_pos b + n
  | (b', Ok None) => br_pos b' = br_pos b + n /\ blen (br_bits b') < 8
  | _ => False
  end.
Lemma keeps_lib {A} (f : err -> M (list bool) A) b : br_pos (fst (br_lib f b)) = br_pos b.
Proof. unfold br_lib. now destruct (f _ _). Qed.
Lemma keeps_loop k : forall n b, br_pos (fst (br_ReadBinary_loop k n b)) = br_pos b.
Proof.
  induction k as [|k IH]; intros n b; [reflexivity|]. cbn [br_ReadBinary_loop]. unfold bind.
  pose proof (keeps_lib (fun e => lib_read_bits e (if n <? NBITS_PER_BYTE then n else NBITS_PER_BYTE)) b) as H.
  destruct (br_lib _ b) as [b1 [v|e|q|]]; cbn [fst] in *; auto. specialize (IH (n - NBITS_PER_BYTE) b1).
  destruct (br_ReadBinary_loop k _ b1) as [b2 [l|e|q|]]; cbn [fst ret] in *; lia.
Qed.
Lemma binary_any n b : binary_spec n b (br_ReadBinary n b).
Proof.
  unfold br_ReadBinary, bind, br_add_pos, modify. cbn [br_bits br_err br_pos]. set (b0 := mkBR (br_bits b) (br_err b) (br_pos b + n)).
  pose proof (bs_binary_loop (Z.to_nat ((n + 7) / 8)) n b0) as H. pose proof (keeps_loop (Z.to_nat ((n + 7) / 8)) n b0) as K.
  destruct (br_ReadBinary_loop _ n b0) as [b1 [l|e|q|]] eqn:E; try contradiction; cbn [fst] in K; subst b0; cbn [br_pos] in K; cbn; auto.
  split; [exact K|]. eapply binary_loop_left, E.
Qed.
Lemma mv_binary n : moves n (br_ReadBinary n) (fun _ => True).
Proof. intros b. pose proof (binary_any n b) as H. destruct (br_ReadBinary n b) as [b' [[v|]|e|q|]]; cbn in H; try contradiction; tauto. Qed.

(** ** Outcomes *)
Definition reading (s : fac) : Prop := exists r, reads s r.
Definition good {A} (Q : A -> fac -> Prop) (x : fac * res A) : Prop :=
  accounted x /\ forall a, snd x = Ok a -> Q a (fst x).
Definition triple {A} (P : fac -> Prop) (m : M fac A) (Q : A -> fac -> Prop) : Prop := forall s, P s -> reading s -> good Q (m s).
Lemma good_err {A} (Q : A -> fac -> Prop) s e : reading s -> good Q (s, Err e).
Proof. intros H. split; [split; [exact H|exact I]|]. cbn. discriminate. Qed.
Lemma good_ok {A} (Q : A -> fac -> Prop) s a : reading s -> Q a s -> good Q (s, Ok a).
Proof. intros H K. split; [split; [exact H|exact I]|]. cbn. intros a' E. injection E as <-. exact K. Qed.
Lemma t_bind {A B} P (m : M fac A) (f : A -> M fac B) R Q : triple P m R -> (forall a, triple (R a) (f a) Q) -> triple P (bind m f) Q.
Proof.
  intros H K s Hs Hr. specialize (H s Hs Hr). unfold bind. destruct (m s) as [s' [a|e|p|]]; destruct H as [H1 H2]; cbn [snd fst] in *;
    [apply K; [now apply H2|apply H1]|..]; (split; [exact H1|discriminate]).
Qed.
Lemma t_ret {A} (P : fac -> Prop) (a : A) (Q : A -> fac -> Prop) : (forall s, P s -> Q a s) -> triple P (ret a) Q.
Proof. intros H s Hs Hr. apply good_ok; auto. Qed.
Lemma t_fail {A} P e (Q : A -> fac -> Prop) : triple P (fail e) Q.
Proof. intros s Hs Hr. now apply good_err. Qed.
Lemma t_weaken {A} (P P' : fac -> Prop) (m : M fac A) (Q Q' : A -> fac -> Prop) : triple P m Q -> (forall s, P' s -> P s) -> (forall a s, Q a s -> Q' a s) -> triple P' m Q'.
Proof. intros H HP HQ s Hs Hr. destruct (H s (HP s Hs) Hr) as [H1 H2]. split; auto. Qed.
Lemma t_post {A} P (m : M fac A) (Q Q' : A -> fac -> Prop) : triple P m Q -> (forall a s, Q a s -> Q' a s) -> triple P m Q'.
Proof. intros H HQ. eapply t_weaken; eauto. Qed.
Lemma lua_good {A} (Q : A -> fac -> Prop) m s : good Q (m s) -> good Q (lua_call m s).
Proof. intros H. unfold lua_call. destruct (m s) as [s' [a|e|p|]]; auto. apply good_err. apply H. Qed.
Lemma t_lua {A} P (m : M fac A) Q : triple P m Q -> triple P (lua_call m) Q.
Proof. intros H s Hs Hr. apply lua_good, H; auto. Qed.

(** A message with position [p] and registered fields [prox]; in its section [sec]. *)
Definition out_ (p : Z) prox ut g (s : fac) : Prop :=
  exists l e m, s = mkFac (RBit (mkBR l e p)) (Some m) ut g /\ msg_proxy m = prox.
Definition in_ (p : Z) sec prox ut g (s : fac) : Prop :=
  exists l e done, s = st l e p done sec prox ut g.
Lemma in_out p sec prox ut g s : in_ p sec prox ut g s -> out_ p prox ut g s.
Proof. intros (l & e & done & ->). unfold st. do 3 eexists. split; reflexivity. Qed.
Lemma t_NewMessage ut g : triple (fun s => fa_ut s = ut /\ fa_group s = g) NewMessage (fun _ s => exists p, out_ p [] ut g s).
Proof.
  intros s [<- <-] [[l e p] H]. unfold NewMessage, modify, set_msg. apply good_ok; [exists (mkBR l e p); exact H|]. exists p, l, e. eexists. split; [rewrite H; reflexivity|reflexivity].
Qed.
Lemma t_NewSection n d p prox ut g : triple (out_ p prox ut g) (NewSection n d) (fun _ => in_ p (mkSection n d (go_quot p 8) 0 []) prox ut g).
Proof.
  intros s (l & e & m & -> & <-) Hr. unfold NewSection, bind, get_msg, gets, modify, set_msg. cbn [fa_msg fa_r fa_ut fa_group r_Pos br_pos].
  apply good_ok; [eexists; reflexivity|]. exists l, e. eexists. reflexivity.
Qed.

(** ** Fields *)
Definition typed (t : datatype) (f : field) (nm : string) (w : Z) : Prop :=
  f_name f = nm /\ f_nbits f = w /\ f_hidden f = false /\
  match t, f_value f with DUINT, FUint u => 0 <= u | DINT, FInt _ | DBOOL, FBool _ | DBYTES, FBytes _ | DBINARY, FBin _ => True | _, _ => False end.
Definition readable (t : datatype) (w : Z) : Prop :=
  match t with DINT | DUINT | DBINARY => True | DBOOL => w = 1 | DBYTES => 0 <= w /\ w mod 8 = 0 | _ => False end.
Definition ofty (t : datatype) (v : fvalue) : Prop :=
  match t, v with DUINT, FUint u => 0 <= u | DINT, FInt _ | DBOOL, FBool _ | DBYTES, FBytes _ | DBINARY, FBin _ => True | _, _ => False end.
Lemma onr_moves {A} w (mb : M bitreader A) mj b m0 ut g (h : A -> fvalue) t (Q : A -> Prop) : moves w mb Q -> (forall a, Q a -> ofty t (h a)) ->
  match (x <- onr (on_reader mb mj) ;; ret (h x))%M (mkFac (RBit b) m0 ut g) with
  | (s', Ok v) => (exists b', s' = mkFac (RBit b') m0 ut g /\ br_pos b' = br_pos b + w) /\ ofty t v
  | (s', Err _) => reading s'
  | _ => False
  end.
Proof.
  intros H Ht. unfold bind, onr, zoom. cbn [fa_r on_reader]. specialize (H b). destruct (mb b) as [b' [a|e|q|]]; try contradiction; cbn.
  - destruct H as [H HQ]. split; [exists b'; split; [reflexivity|tauto]|apply Ht, HQ].
  - eexists; reflexivity.
Qed.
Section Fields.
  Variable fc : fconfig.
  Lemma value_any t w b m0 ut g : readable t w ->
    match read_value fc t w (mkFac (RBit b) m0 ut g) with
    | (s', Ok v) => (exists b', s' = mkFac (RBit b') m0 ut g /\ br_pos b' = br_pos b + w) /\ ofty t v
    | (s', Err _) => reading s'
    | _ => False
    end.
  Proof.
    intros H. destruct t; try contradiction; cbn [readable] in H; unfold read_value.
    - apply (onr_moves w (br_ReadInt w) _ b m0 ut g FInt DINT _ (mv_int w)). intros; exact I.
    - apply (onr_moves w (br_ReadUint w) _ b m0 ut g FUint DUINT _ (mv_uint w)). intros a Ha; exact Ha.
    - subst w. apply (onr_moves 1 br_ReadBool _ b m0 ut g FBool DBOOL _ mv_bool). intros; exact I.
    - destruct H as [H0 H8]. assert (E : go_quot w NBITS_PER_BYTE = w / 8) by (unfold NBITS_PER_BYTE; apply Z.quot_div_nonneg; lia). rewrite E.
      pose proof (Z.div_mod w 8). pose proof (mv_bytes (w / 8) ltac:(apply Z.div_pos; lia)) as K. replace (w / 8 * 8) with w in K by lia.
      apply (onr_moves w _ _ b m0 ut g FBytes DBYTES _ K). intros; exact I.
    - apply (onr_moves w (br_ReadBinary w) _ b m0 ut g FBin DBINARY _ (mv_binary w)). intros; exact I.
  Qed.
  Lemma t_NewField nm t w px p sec prox ut g : readable t w ->
    triple (in_ p sec prox ut g) (NewField fc nm t w px)
      (fun f s => typed t f nm w /\ in_ (p + w) (with_fields sec [f]) (if px : bool then (nm, f) :: prox else prox) ut g s).
  Proof.
    intros H s (l & e & done & ->) Hr. rewrite NewField_eq. unfold bind at 1. unfold st at 1.
    pose proof (value_any t w (mkBR l e p) (Some (mkMessage done (Some sec) prox)) ut g H) as K.
    destruct (read_value fc t w _) as [s' [v|er|q|]]; try contradiction; [|now apply good_err].
    destruct K as [([l' e' p'] & -> & Hp) Ht]. cbn [br_pos] in Hp. subst p'. cbv zeta.
    pose proof (add_field_ok (mkField nm v w false) px l' e' (p + w) done sec prox ut g) as E. unfold st at 1 in E. rewrite E.
    apply good_ok; [eexists; reflexivity|]. split; [repeat split; exact Ht|]. cbn [f_name]. do 3 eexists. reflexivity.
  Qed.
  Lemma t_field nm ty w px p sec prox ut g : readable (lua_to_datatype (lua_datatype ty)) w ->
    triple (in_ p sec prox ut g) (newField fc nm ty w px)
      (fun f s => typed (lua_to_datatype (lua_datatype ty)) f nm w /\ in_ (p + w) (with_fields sec [f]) (if px : bool then (nm, f) :: prox else prox) ut g s).
  Proof. intros H. apply t_lua, t_NewField, H. Qed.
  Lemma t_field_ nm ty w px p sec prox ut g : readable (lua_to_datatype (lua_datatype ty)) w ->
    triple (in_ p sec prox ut g) (newField_ fc nm ty w px)
      (fun _ s => exists f, typed (lua_to_datatype (lua_datatype ty)) f nm w /\ in_ (p + w) (with_fields sec [f]) (if px : bool then (nm, f) :: prox else prox) ut g s).
  Proof. intros H. eapply t_bind; [now apply t_field|]. intros f. apply t_ret. eauto. Qed.
End Fields.
Lemma t_padding n p sec prox ut g : In (sec_number sec) [1; 3; 4] ->
  triple (in_ p sec prox ut g) (lua_call (Padding n)) (fun _ => out_ (8 * (sec_start sec + n)) prox ut g).
Proof.
  intros Hn. apply t_lua. intros s (l & e & done & ->) Hr. unfold Padding. cbv [bind gets get_section get_msg ret st fa_r fa_msg msg_cur r_Pos br_pos]. unfold NBITS_PER_BYTE.
  set (k := n * 8 - (p - sec_start sec * 8)). destruct (k =? 0) eqn:E0.
  { apply good_ok; [eexists; reflexivity|]. apply in_out with (sec := sec). replace (8 * (sec_start sec + n)) with p by lia. do 3 eexists. reflexivity. }
  destruct (k <? 0) eqn:E1; [now apply good_err|].
  cbv [upd_section bind get_msg modify wrap onr zoom set_msg set_fr fa_r fa_msg fa_ut fa_group msg_cur msg_done msg_proxy].
  unfold r_ReadBinary, on_reader. pose proof (binary_any k (mkBR l e p)) as K. destruct (br_ReadBinary k (mkBR l e p)) as [[l' e' p'] [[v|]|er|q|]]; cbn in K; try contradiction.
  - subst p'. apply good_ok; [eexists; reflexivity|]. cbn. exists l', e', (mkMessage done (Some (mkSection (sec_number sec) (sec_description sec) (sec_start sec) k (sec_fields sec ++ [mkField "padding" (FBin (Some v)) (Binary_Nbits v) true]))) prox). split; [|reflexivity]. replace (p + k) with (8 * (sec_start sec + n)) by lia. reflexivity.
  - destruct K as [K1 K2]. split; [|discriminate]. split; [eexists; reflexivity|]. cbn [snd fst throw]. right. left. split; [reflexivity|]. eexists. eexists. split; [eexists; split; reflexivity|]. cbn [sec_number sec_padding].
    split; [exact Hn|]. split; [lia|]. split; [reflexivity|exact K2].
Qed.

(** ** Sections *)
Lemma t_ex {A B} (P : B -> fac -> Prop) (m : M fac A) Q : (forall x, triple (P x) m Q) -> triple (fun s => exists x, P x s) m Q.
Proof. intros H s [x Hx] Hr. now apply (H x). Qed.
Lemma t_and {A} (F : Prop) (P : fac -> Prop) (m : M fac A) Q : (F -> triple P m Q) -> triple (fun s => F /\ P s) m Q.
Proof. intros H s [Hf Hx] Hr. now apply H. Qed.
Lemma t_number {A} P f nm w (h : Z -> M fac A) Q : typed DUINT f nm w -> (forall u, f_value f = FUint u -> triple P (h u) Q) -> triple P (bind (field_number f) h) Q.
Proof.
  intros (_ & _ & _ & H) K. unfold field_number. destruct (f_value f) as [u| | | | | | |]; try contradiction. exact (K u eq_refl).
Qed.
Definition anywhere ut g (s : fac) : Prop := exists p prox, out_ p prox ut g s.
Definition aligned ut g (s : fac) : Prop := exists q prox, out_ (8 * q) prox ut g s.
(** Registered by section 3. *)
Definition counted (prox : list (string * field)) (n : Z) (c : bool) : Prop :=
  0 <= n /\ exists fn fb, proxy_get "nSubsets" prox = Some fn /\ f_value fn = FUint n /\ proxy_get "isCompressed" prox = Some fb /\ f_value fb = FBool c.
Definition described g (s : fac) : Prop := exists p prox n c ids, counted prox n c /\ out_ p prox (Some ids) g s.
Ltac fld := eapply t_bind; [apply t_field_; cbn; lia|]; intros ?; apply t_ex; intros ?f; apply t_and; intros ?T.
Ltac lenfld := eapply t_bind; [apply t_field; cbn; lia|]; intros ?len; apply t_and; intros ?TL.
Section Sections.
  Variable fc : fconfig.
  Lemma t_section0 ut g : triple (fun s => exists p, out_ p [] ut g s) (section0 fc) (fun _ => anywhere ut g).
  Proof.
    apply t_ex. intros p. unfold section0. eapply t_bind; [apply t_NewSection|]. intros ?. fld. fld.
    eapply t_post; [apply t_field_; cbn; lia|]. intros ? s (f3 & _ & H). apply in_out in H. do 2 eexists. exact H.
  Qed.
  Lemma t_section1_4 ut g : triple (anywhere ut g) (section1_4 fc) (fun _ => aligned ut g).
  Proof.
    do 2 (apply t_ex; intros ?). unfold section1_4. eapply t_bind; [apply t_NewSection|]. intros ?. lenfld. do 17 fld.
    eapply t_number; [exact TL|]. intros u _. eapply t_post; [apply t_padding; cbn; tauto|]. intros ? s H. do 2 eexists. exact H.
  Qed.
  Lemma t_section1_3 ut g : triple (anywhere ut g) (section1_3 fc) (fun _ => aligned ut g).
  Proof.
    do 2 (apply t_ex; intros ?). unfold section1_3. eapply t_bind; [apply t_NewSection|]. intros ?. lenfld. do 16 fld.
    eapply t_number; [exact TL|]. intros u _. eapply t_post; [apply t_padding; cbn; tauto|]. intros ? s H. do 2 eexists. exact H.
  Qed.
  Lemma t_section2 ut g : triple (aligned ut g) (section2 fc) (fun _ => aligned ut g).
  Proof.
    apply t_ex; intros q. apply t_ex; intros prox. unfold section2. eapply t_bind; [apply t_NewSection|]. intros ?. lenfld. fld. eapply t_number; [exact TL|]. intros u _.
    eapply t_post; [apply t_field_; exact I|]. intros ? s (f3 & _ & H). apply in_out in H. unfold NBITS_PER_BYTE in H.
    replace (8 * q + 24 + 8 + (u - 4) * 8) with (8 * (q + u)) in H by lia. do 2 eexists. exact H.
  Qed.
  Lemma ids_any k : forall b m0 ut g, match replicateM k (read_id fc 2 6 8) (mkFac (RBit b) m0 ut g) with
    | (s', Ok _) => exists b', s' = mkFac (RBit b') m0 ut g
    | (s', Err _) => reading s'
    | _ => False
    end.
  Proof.
    assert (U : forall n b m0 ut g, match onr (r_ReadUint (fc_plat fc) n) (mkFac (RBit b) m0 ut g) with
      | (s', Ok _) => exists b', s' = mkFac (RBit b') m0 ut g | (s', Err _) => reading s' | _ => False end).
    { intros n b m0 ut g. unfold onr, zoom. cbn [fa_r]. pose proof (rs_uint (fc_plat fc) n b) as H. destruct (r_ReadUint _ n (RBit b)) as [r [a|e|q|]]; try contradiction.
      - destruct H as [[b' ->] _]. cbn. exists b'. reflexivity.
      - destruct H as [b' ->]. eexists; reflexivity. }
    induction k as [|k IH]; intros b m0 ut g; [cbn; eauto|]. cbn [replicateM]. unfold bind at 1. unfold read_id, bind.
    pose proof (U 2 b m0 ut g) as H. destruct (onr _ (mkFac (RBit b) m0 ut g)) as [s1 [x1|e|q|]]; auto. destruct H as [b1 ->]. clear b.
    pose proof (U 6 b1 m0 ut g) as H. destruct (onr _ (mkFac (RBit b1) m0 ut g)) as [s1 [x2|e|q|]]; auto. destruct H as [b2 ->]. clear b1.
    pose proof (U 8 b2 m0 ut g) as H. destruct (onr _ (mkFac (RBit b2) m0 ut g)) as [s1 [x3|e|q|]]; auto. destruct H as [b3 ->]. clear b2. cbn [ret].
    specialize (IH b3 m0 ut g). unfold read_id, bind in IH. destruct (replicateM k _ (mkFac (RBit b3) m0 ut g)) as [s1 [xs|e|q|]]; auto.
  Qed.
  Lemma t_template q p0 sec l prox ut g : p0 = 8 * q + 56 -> sec_start sec = q -> sec_number sec = 3 -> has sec "lengthInBytes" (FUint l) ->
    triple (in_ p0 sec prox ut g) (lua_call (NewTemplateField fc "unexpandedTemplate" 2 6 8 l))
      (fun _ s => exists p f ids, in_ p (with_fields sec [f]) (("unexpandedTemplate"%string, f) :: prox) (Some ids) g s).
  Proof.
    intros -> Hq H3 Hl. apply t_lua. intros s (bs & e & done & ->) Hr. unfold NewTemplateField, bind, gets, get_section, bind, get_msg, ret, st. cbn [fa_r fa_msg msg_cur r_Pos br_pos].
    change (2 + 6 + 8) with 16. cbn [Z.eqb]. unfold NBITS_PER_BYTE. replace (l * 8 - (8 * q + 56 - sec_start sec * 8)) with (l * 8 - 56) by lia.
    destruct (go_quot (l * 8 - 56) 16 <? 0) eqn:E.
    { split; [|discriminate]. split; [exact Hr|]. cbn [snd fst throw]. left. split; [reflexivity|]. exists sec, l. split; [eexists; split; reflexivity|]. split; [exact H3|]. split; [exact Hl|].
      unfold go_quot in E. destruct (Z.le_gt_cases l 5) as [D|D]; [exact D|]. 
      destruct (Z.le_gt_cases 7 l) as [D'|D']; [assert (0 <= (l * 8 - 56) ÷ 16) by (apply Z.quot_pos; lia); apply Z.ltb_lt in E; exfalso; apply (Z.lt_irrefl 0); eapply Z.le_lt_trans; eassumption|]. replace l with 6 in E by lia. discriminate E. }
    pose proof (ids_any (Z.to_nat (go_quot (l * 8 - 56) 16)) (mkBR bs e (8 * q + 56)) (Some (mkMessage done (Some sec) prox)) ut g) as K.
    unfold bind in K. destruct (replicateM _ _ _) as [s' [ids|er|pn|]]; try contradiction; [|now apply good_err]. destruct K as [[bs' e' p'] ->].
    cbn. apply good_ok; [eexists; reflexivity|]. do 3 eexists. do 3 eexists. reflexivity.
  Qed.
  Lemma t_section3 ut g : triple (aligned ut g) (section3 fc) (fun _ => described g).
  Proof.
    apply t_ex; intros q. apply t_ex; intros prox. unfold section3. eapply t_bind; [apply t_NewSection|]. intros ?. lenfld. do 5 fld. eapply t_number; [exact TL|]. intros u Hu.
    eapply t_bind.
    - apply (t_template q).
      + lia.
      + now apply quot8.
      + reflexivity.
      + unfold has, FieldByName. cbn. destruct TL as (-> & _). cbn. now rewrite Hu.
    - intros f5. do 3 (apply t_ex; intros ?). eapply t_post; [apply t_padding; cbn; tauto|]. intros ? s H.
      destruct T0 as (_ & _ & _ & T0), T2 as (_ & _ & _ & T2). cbn in T0, T2. destruct (f_value f0) as [n| | | | | | |] eqn:E0; try contradiction. destruct (f_value f2) as [| | |c| | | |] eqn:E2; try contradiction.
      unfold described. do 2 eexists. exists n, c. eexists. split; [|exact H]. split; [exact T0|]. exists f0, f2. repeat split; assumption.
  Qed.
End Sections.
