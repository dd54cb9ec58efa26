(** Numbers cross the border to the scripts unchanged (C83). *)
From Coq Require Import ZifyBool ZifyNat Reals.
From Flocq Require Import Core.Core IEEE754.BinarySingleNaN.
From Verif Require Export ModelLua.
From Verif Require Import ProofsBase ProofsBits ProofsFloat ProofsReal ProofsUnpack ProofsRun.
From Coq Require Import Lia Lra.
Notation field := ModelFactory.field.
Local Open Scope Z_scope.

(** ** Arithmetic of whole numbers *)
Lemma mul_exact a b : Z.abs a < 2 ^ 53 -> 0 < b < 2 ^ 53 -> Z.abs (a * b) < 2 ^ 53 -> f64_mul (f64_of_Z a) (f64_of_Z b) = f64_of_Z (a * b).
Proof.
  intros Ha Hb Hab. destruct (of_Z_full a Ha) as (x & Ex & Fx & Rx & Sx). destruct (of_Z_full b ltac:(lia)) as (y & Ey & Fy & Ry & Sy).
  destruct (of_Z_full (a * b) Hab) as (c & Ec & Fc & Rc & Sc). rewrite Ex, Ey, Ec, mul_B. f_equal.
  pose proof (Bmult_correct _ _ Hprec Hmax mode_NE x y) as H. rewrite rne_fx in H. rewrite Rx, Ry, <- mult_IZR in H. unfold rne in H.
  rewrite round_generic in H by (auto with typeclass_instances; now apply int_format).
  rewrite Rlt_bool_true in H by (eapply Rlt_trans; [now apply int_lt|now apply bpow_lt]).
  destruct H as (H1 & H2 & H3). rewrite Fx, Fy in H2. cbn in H2. apply B2R_Bsign_inj; auto; [congruence|].
  rewrite H3 by (destruct (Bmult mode_NE x y); cbn in *; congruence). rewrite Sx, Sy, Sc.
  assert (P : (0 < IZR b)%R) by (apply IZR_lt; lia).
  destruct (Rcompare_spec (IZR b) 0) as [L|L|L]; [exfalso; lra|exfalso; lra|].
  destruct (Rcompare_spec (IZR a) 0) as [A|A|A]; destruct (Rcompare_spec (IZR (a * b)) 0) as [C|C|C]; try reflexivity; exfalso; apply lt_IZR in A || apply eq_IZR in A; apply lt_IZR in C || apply eq_IZR in C; nia.
Qed.
Lemma sub_exact a b : 0 <= a < 2 ^ 53 -> 0 < b < 2 ^ 53 -> lua_sub (f64_of_Z a) (f64_of_Z b) = f64_of_Z (a - b).
Proof.
  intros Ha Hb. unfold lua_sub. assert (E : SFopp (f64_of_Z b) = f64_of_Z (- b)).
  { rewrite !f64_of_Z_exact by lia. destruct b as [|b|b]; try lia. reflexivity. }
  rewrite E. pose proof (sum_exact a (- b) ltac:(lia) ltac:(lia) ltac:(lia) ltac:(lia)) as H. unfold sum64 in H. rewrite nonzero_of_Z in H by lia.
  destruct (Z.eqb_spec (- b) 0); [lia|]. exact H.
Qed.

(** ** Conversions *)
Lemma integer_back pl n : Z.abs n < 2 ^ 53 -> to_integer pl (push_number n) = n.
Proof. intros H. now apply f64_to_int_of_Z. Qed.
Lemma unsigned_back pl n : Z.abs n < 2 ^ 53 -> to_unsigned pl (push_number n) = n mod 2 ^ 32.
Proof. intros H. unfold to_unsigned, push_number. now rewrite f64_trunc_of_Z. Qed.

(** ** Programs with the same effect, and what holds after them *)
Definition agrees {A} (P : fac -> Prop) (m' m : M fac A) (Q : A -> fac -> Prop) : Prop :=
  forall s, P s -> m' s = m s /\ forall s1 a, m s = (s1, Ok a) -> Q a s1.
Lemma ag_bind {A B} P (m' m : M fac A) (f' f : A -> M fac B) R Q :
  agrees P m' m R -> (forall a, agrees (R a) (f' a) (f a) Q) -> agrees P (bind m' f') (bind m f) Q.
Proof.
  intros H K s Hs. destruct (H s Hs) as [E H1]. unfold bind. rewrite E. destruct (m s) as [s1 [a|e|p|]] eqn:Em.
  - destruct (K a s1 (H1 s1 a eq_refl)) as [E2 H2]. rewrite E2. split; [reflexivity|exact H2].
  - split; [reflexivity|discriminate].
  - split; [reflexivity|discriminate].
  - split; [reflexivity|discriminate].
Qed.
Lemma ag_lua {A} P (m' m : M fac A) Q : agrees P m' m Q -> agrees P (lua_call m') (lua_call m) Q.
Proof.
  intros H s Hs. destruct (H s Hs) as [E H1]. unfold lua_call. rewrite E. split; [reflexivity|]. intros s1 a. destruct (m s) as [s2 [x|e|p|]]; try discriminate. apply H1.
Qed.
Lemma ag_same {A} (P : fac -> Prop) (m : M fac A) : agrees P m m (fun _ _ => True).
Proof. intros s _. auto. Qed.
Lemma ag_post {A} P (m' m : M fac A) (Q Q' : A -> fac -> Prop) : agrees P m' m Q -> (forall a s, Q a s -> Q' a s) -> agrees P m' m Q'.
Proof. intros H K s Hs. destruct (H s Hs) as [E H1]. split; [exact E|eauto]. Qed.
Lemma ag_pre {A} (P P' : fac -> Prop) (m' m : M fac A) Q : agrees P m' m Q -> (forall s, P' s -> P s) -> agrees P' m' m Q.
Proof. intros H K s Hs. apply H. auto. Qed.
Lemma ag_fact {A} (F : Prop) (P : fac -> Prop) (m' m : M fac A) Q : (F -> agrees P m' m Q) -> agrees (fun s => F /\ P s) m' m Q.
Proof. intros H s [Hf Hs]. now apply H. Qed.

(** ** The invariant: a binary reader, and the numbers the scripts ask for are short *)
Definition numbers : list string :=
  ["nSubsets"; "masterTableNumber"; "originatingCentre"; "originatingSubCentre"; "masterTableVersion"; "localTableVersion"]%string.
Definition short (v : fvalue) : Prop := exists u, v = FUint u /\ 0 <= u < 2 ^ 24.
Definition named (prox : list (string * field)) : Prop :=
  forall nm f, In nm numbers -> proxy_get nm prox = Some f -> short (f_value f).
Definition binary (s : fac) : Prop := exists b, fa_r s = RBit b.
Definition inv (s : fac) : Prop := binary s /\ forall m, fa_msg s = Some m -> named (msg_proxy m).

Lemma onr_keeps {A} (mb : M bitreader A) mj s s1 r : inv s -> onr (on_reader mb mj) s = (s1, r) -> inv s1 /\ fa_msg s1 = fa_msg s.
Proof.
  intros [[b Hb] Hm] H. unfold onr, zoom in H. rewrite Hb in H. cbn [on_reader] in H. destruct (mb b) as [b' x]. injection H as <- <-.
  cbn. split; [|reflexivity]. split; [exists b'; reflexivity|exact Hm].
Qed.
Lemma named_cons nm f prox : named prox -> (In nm numbers -> short (f_value f)) -> named ((nm, f) :: prox).
Proof. intros H K n g Hn. cbn [proxy_get]. destruct (String.eqb_spec nm n) as [->|]; [intros E; injection E as <-; auto|now apply H]. Qed.
Lemma add_keeps f px s s1 r : inv s -> (px = true -> In (f_name f) numbers -> short (f_value f)) ->
  (AddField f ;; (if px : bool then set_proxy f else ret tt) ;; ret f)%M s = (s1, Ok r) -> inv s1 /\ r = f.
Proof.
  intros [Hb Hm] Hf H. unfold AddField, upd_section, set_proxy, bind, get_msg, modify, ret, throw in H.
  destruct (fa_msg s) as [m|] eqn:Em; [|discriminate]. destruct (msg_cur m) as [x|] eqn:Ec; [|discriminate].
  destruct px; cbn in H; injection H as <- <-; (split; [|reflexivity]); (split; [exact Hb|]); cbn; intros m0 E; injection E as <-; cbn [msg_proxy SetProxyField].
  - apply named_cons; auto.
  - auto.
Qed.
Lemma read_range b n u : 0 <= n <= 24 -> snd (br_ReadUint n b) = Ok u -> 0 <= u < 2 ^ 24.
Proof.
  destruct b as [l e p]. intros Hn H. destruct (Z.lt_ge_cases (blen l) n) as [D|D].
  - destruct (br_ReadUint_short e p n l D) as (l' & E & _). rewrite E in H. discriminate.
  - destruct (cut_bits l n ltac:(lia) D) as (seg & rest & -> & Hl). rewrite (br_ReadUint_ok e p n seg rest Hl) in H. injection H as <-.
    pose proof (msb_bound seg) as R. assert (2 ^ blen seg <= 2 ^ 24) by (apply Z.pow_le_mono_r; lia). unfold u64. rewrite Z.mod_small by lia. lia.
Qed.
Lemma uint_range fc n s s1 u : 0 <= n <= 24 -> binary s -> onr (r_ReadUint (fc_plat fc) n) s = (s1, Ok u) -> 0 <= u < 2 ^ 24.
Proof.
  intros Hn [b Hb] H. unfold onr, zoom in H. rewrite Hb in H. unfold r_ReadUint, on_reader in H.
  destruct (br_ReadUint n b) as [b' x] eqn:E. injection H as _ ->. apply (read_range b n); [exact Hn|]. now rewrite E.
Qed.
Lemma edition_range fc s s1 u : binary s -> PeekEditionNumber fc s = (s1, Ok u) -> 0 <= u < 2 ^ 24.
Proof.
  intros [b Hb] H. unfold PeekEditionNumber, onr, zoom in H. rewrite Hb in H. unfold r_PeekUint, on_reader, pbr_PeekUint in H. injection H as _ H.
  destruct (pbr_peek _ _ b) as [x|x|x|]; try discriminate H.
  match type of H with context [snd (br_ReadUint ?n ?r)] => destruct (snd (br_ReadUint n r)) as [v| | |] eqn:E; try discriminate H; injection H as <-; apply (read_range r n); [lia|exact E] end.
Qed.
Lemma is_exact n k : 0 <= n < 2 ^ 24 -> 0 <= k < 2 ^ 24 -> lua_is (push_number n) k = (n =? k).
Proof.
  intros Hn Hk. unfold lua_is, push_number, f64_eqb, SFeqb. destruct (of_Z_full n ltac:(lia)) as (x & Ex & Fx & Rx & _). destruct (of_Z_full k ltac:(lia)) as (y & Ey & Fy & Ry & _).
  rewrite Ex, Ey. change (SFcompare (B2SF x) (B2SF y)) with (Bcompare x y). rewrite (Bcompare_correct _ _ x y Fx Fy), Rx, Ry, Rcompare_IZR.
  destruct (Z.compare_spec n k); lia.
Qed.

Section Steps.
  Variable fc : fconfig.
  Notation pl := (fc_plat fc).
  Lemma ag_NewField nm t w px : (px = true -> In nm numbers -> t = DUINT /\ 0 <= w <= 24) ->
    agrees inv (NewField fc nm t w px) (NewField fc nm t w px) (fun f s => inv s /\ (t = DUINT -> 0 <= w <= 24 -> short (f_value f))).
  Proof.
    intros Hx s Hs. split; [reflexivity|]. intros s1 f H. unfold NewField in H. binv H.
    assert (K : inv s0 /\ (t = DUINT -> 0 <= w <= 24 -> short a)).
    { destruct t; try (binv E; injection E as <- <-); try (destruct (onr_keeps _ _ _ _ _ Hs E0) as [K _]; split; [exact K|intros T _; discriminate T]).
      - destruct (onr_keeps _ _ _ _ _ Hs E0) as [K _]. split; [exact K|]. intros _ Hw. exists a0. split; [reflexivity|]. eapply uint_range; [exact Hw|apply Hs|exact E0].
      - discriminate E. }
    destruct K as [K1 K2]. assert (K4 : px = true -> In nm numbers -> short a) by (intros Hp Hn; destruct (Hx Hp Hn); auto).
    destruct (add_keeps (mkField nm a w false) px _ _ _ K1 K4 H) as [K3 ->]. split; [exact K3|exact K2].
  Qed.
  Lemma same_type ty : datatype_of_number (to_integer pl (lua_global ty)) = lua_to_datatype (lua_datatype ty).
  Proof.
    unfold lua_global. destruct (lua_datatype ty) as [d|]; [|reflexivity]. rewrite integer_back by (destruct d; cbn; lia). destruct d; reflexivity.
  Qed.
  (** a field whose width is a short number *)
  Definition fields_ok (nm ty : string) (w : Z) (px : bool) : bool :=
    (Z.abs w <? 2 ^ 53) && (negb px || negb (existsb (String.eqb nm) numbers) || (match lua_datatype ty with Some DUINT => true | _ => false end && (0 <=? w) && (w <=? 24))).
  Lemma ag_newField nm ty w px : fields_ok nm ty w px = true ->
    agrees inv (l_newField fc nm ty (push_number w) px) (newField fc nm ty w px)
      (fun f s => (lua_datatype ty = Some DUINT -> 0 <= w <= 24 -> short (f_value f)) /\ inv s).
  Proof.
    unfold fields_ok. intros H. apply andb_prop in H. destruct H as [H1 H2]. unfold l_newField, newField. rewrite same_type, integer_back by lia.
    apply ag_lua. eapply ag_post.
    - apply ag_NewField. intros -> Hn. cbn [negb orb] in H2. assert (E : existsb (String.eqb nm) numbers = true) by (apply existsb_exists; exists nm; split; [exact Hn|apply String.eqb_refl]).
      rewrite E in H2. cbn [negb orb] in H2. destruct (lua_datatype ty) as [[]|]; try discriminate H2. cbn. split; [reflexivity|lia].
    - intros f s [H3 H4]. split; [|exact H3]. intros E. apply H4. rewrite E. reflexivity.
  Qed.
  Lemma ag_newField_ nm ty w px : fields_ok nm ty w px = true ->
    agrees inv (l_newField_ fc nm ty w px) (newField_ fc nm ty w px) (fun _ s => inv s).
  Proof.
    intros H. unfold l_newField_, newField_. eapply ag_bind; [apply ag_newField, H|]. intros f s [_ Hs]. split; [reflexivity|].
    intros s1 a E. injection E as <- <-. exact Hs.
  Qed.
  Lemma ag_NewSection n d : Z.abs n < 2 ^ 53 -> agrees inv (l_newSection fc n d) (NewSection n d) (fun _ s => inv s).
  Proof.
    intros Hn s Hs. unfold l_newSection. rewrite integer_back by exact Hn. split; [reflexivity|]. intros s1 a H.
    unfold NewSection, bind, get_msg, gets, modify in H. destruct (fa_msg s) as [m|] eqn:Em; [|discriminate]. injection H as <- <-.
    destruct Hs as [Hb Hm]. split; [exact Hb|]. cbn. intros m0 E. injection E as <-. cbn. auto.
  Qed.
  Lemma ag_Padding n : agrees inv (Padding n) (Padding n) (fun _ s => inv s).
  Proof.
    intros s Hs. split; [reflexivity|]. intros s1 a H. unfold Padding, get_section, upd_section, AddField, bind, gets, get_msg, ret, fail, throw, modify, wrap in H.
    pose proof Hs as [Hb Hm]. destruct (fa_msg s) as [m|] eqn:Em; [|discriminate]. destruct (msg_cur m) as [x|] eqn:Ec; [|discriminate].
    cbv zeta in H. destruct (_ =? 0); [injection H as <- <-; exact Hs|]. destruct (_ <? 0); [discriminate|]. cbv beta iota in H. rewrite ?Em, ?Ec in H.
    match type of H with context [onr ?r ?s0] => destruct (onr r s0) as [s2 b] eqn:E; assert (I0 : inv s0) by (split; [exact Hb|cbn; intros m0 E0; injection E0 as <-; cbn; auto]) end.
    destruct (onr_keeps _ _ _ _ _ I0 E) as [[Hb2 Hm2] Em2]. destruct b as [[b|]| | |]; try discriminate H.
    cbn [fa_msg set_msg] in Em2. unfold upd_section, bind, get_msg, modify, throw in H. rewrite Em2 in H. cbn in H. injection H as <- <-. split; [exact Hb2|]. cbn. intros m0 E0. injection E0 as <-. cbn. apply (Hm2 _ Em2).
  Qed.
  Lemma ag_l_padding u : 0 <= u < 2 ^ 24 -> agrees inv (l_padding fc (push_number u)) (lua_call (Padding u)) (fun _ s => inv s).
  Proof. intros Hu. unfold l_padding. rewrite unsigned_back, Z.mod_small by lia. apply ag_lua, ag_Padding. Qed.
  Lemma ag_value f (P : fac -> Prop) {A} (k' : lval -> M fac A) (k : Z -> M fac A) Q : short (f_value f) ->
    (forall u, f_value f = FUint u -> 0 <= u < 2 ^ 24 -> agrees P (k' (push_number u)) (k u) Q) -> agrees P (bind (lua_value f) k') (bind (field_number f) k) Q.
  Proof. intros (u & E & Hu) H s Hs. unfold lua_value, field_number. rewrite E. cbn. apply H; assumption. Qed.
  Lemma read_id_keeps f x y s s1 r : inv s -> read_id fc f x y s = (s1, r) -> inv s1 /\ fa_msg s1 = fa_msg s.
  Proof.
    intros Hs H. unfold read_id, bind in H.
    repeat (match type of H with context [onr ?m ?t] => let E := fresh "E" in destruct (onr m t) as [? []] eqn:E end; cbv beta iota in H;
      [|injection H as <- <-|injection H as <- <-|injection H as <- <-]).
    1: injection H as <- <-.
    all: repeat match goal with I : inv ?t, E : onr _ ?t = _ |- _ => let K := fresh "K" in pose proof (onr_keeps _ _ _ _ _ I E) as K; clear E; destruct K end.
    all: split; congruence.
  Qed.
  Lemma read_ids_keeps n f x y s s1 r : inv s -> replicateM n (read_id fc f x y) s = (s1, r) -> inv s1 /\ fa_msg s1 = fa_msg s.
  Proof.
    revert s s1 r. induction n as [|n IH]; intros s s1 r Hs H; cbn in H; [injection H as <- <-; auto|]. unfold bind in H.
    destruct (read_id fc f x y s) as [s2 r2] eqn:E. destruct (read_id_keeps _ _ _ _ _ _ Hs E) as [K1 K2]. destruct r2; [|injection H as <- <-; auto..].
    destruct (replicateM n _ s2) as [s3 r3] eqn:E3. destruct (IH _ _ _ K1 E3) as [K3 K4]. destruct r3; injection H as <- <-; split; congruence || assumption.
  Qed.
  Lemma ag_Template n : agrees inv (NewTemplateField fc "unexpandedTemplate" 2 6 8 n) (NewTemplateField fc "unexpandedTemplate" 2 6 8 n) (fun _ s => inv s).
  Proof.
    intros s Hs. split; [reflexivity|]. intros s1 f H. unfold NewTemplateField in H. unfold bind at 1, gets at 1 in H. unfold bind at 1 in H.
    destruct (get_section s) as [s0 []] eqn:E; try discriminate H. assert (s0 = s) as ->.
    { unfold get_section, bind, get_msg in E. destruct (fa_msg s) as [m|]; [|discriminate E]. destruct (msg_cur m); [|discriminate E]. now injection E as <- _. }
    cbv zeta in H. change (2 + 6 + 8 =? 0) with false in H. cbv iota in H. destruct (_ <? 0); [discriminate H|]. binv H.
    destruct (read_ids_keeps _ _ _ _ _ _ _ Hs E0) as [K _]. unfold bind at 1, modify at 1 in H.
    refine (proj1 (add_keeps (mkField "unexpandedTemplate" (FTemplate a0) _ false) true _ _ _ _ _ H)); [exact K|].
    cbn. intros _ Hn. exfalso. repeat (destruct Hn as [Hn|Hn]; [discriminate|]). exact Hn.
  Qed.
  Lemma ag_Init a b c d e : agrees inv (InitTableGroup fc a b c d e) (InitTableGroup fc a b c d e) (fun _ s => inv s).
  Proof.
    intros s Hs. split; [reflexivity|]. intros s1 r H. unfold InitTableGroup in H. destruct (AddLocalAndWmoTableGroups _ _ _ _ _ _ _) as [l []]; try discriminate H. injection H as <- <-. exact Hs.
  Qed.
  Lemma ag_number nm {A} (k' : lval -> M fac A) (k : Z -> M fac A) Q : In nm numbers ->
    (forall u, 0 <= u < 2 ^ 24 -> agrees inv (k' (push_number u)) (k u) Q) -> agrees inv (bind (lua_proxy nm) k') (bind (proxy_number nm) k) Q.
  Proof.
    intros Hn H s Hs. unfold lua_proxy, proxy_number. unfold bind at 1 2 3 4. unfold proxy_field, lua_call, bind, get_msg.
    destruct (fa_msg s) as [m|] eqn:Em; cbv beta iota; [|split; [reflexivity|discriminate]]. unfold ProxyField, lift_res.
    destruct (proxy_get nm (msg_proxy m)) as [f|] eqn:Ep; cbv beta iota; [|split; [reflexivity|discriminate]].
    destruct (proj2 Hs m Em nm f Hn Ep) as (u & E & Hu). unfold lua_value, field_number. rewrite E. cbn. apply H; assumption.
  Qed.
  Lemma ag_bool nm {A} (k' : lval -> M fac A) (k : bool -> M fac A) Q :
    (forall v, agrees inv (k' v) (k (to_boolean v)) Q) -> agrees inv (bind (lua_proxy nm) k') (bind (proxy_bool nm) k) Q.
  Proof.
    intros H s Hs. unfold lua_proxy, proxy_bool. unfold bind at 1 2 3 4. unfold proxy_field, lua_call, bind, get_msg.
    destruct (fa_msg s) as [m|] eqn:Em; cbv beta iota; [|split; [reflexivity|discriminate]]. unfold ProxyField, lift_res.
    destruct (proxy_get nm (msg_proxy m)) as [f|] eqn:Ep; cbv beta iota; [|split; [reflexivity|discriminate]].
    unfold lua_value, field_bool. destruct (f_value f) as [u|u|u|b|u|u|u|u v]; cbn; try (split; [reflexivity|discriminate]); try apply (H (LNum _)); try exact Hs.
    - destruct b; [exact (H (LBool true) s Hs)|exact (H (LBool false) s Hs)].
    - exact (H LUser s Hs).
  Qed.

  Ltac step := eapply ag_bind; [first [apply ag_NewSection; lia | apply ag_newField_; reflexivity]|cbv beta; intros _].
  Ltac lstep := eapply ag_bind; [apply ag_newField; reflexivity|]; let len := fresh "len" in let Hl := fresh "Hl" in
    cbv beta; intros len; apply ag_fact; intros Hl; specialize (Hl eq_refl ltac:(lia)).
  Lemma ag_section0 : agrees inv (l_section0 fc) (section0 fc) (fun _ s => inv s).
  Proof. unfold l_section0, section0. do 3 step. apply ag_newField_. reflexivity. Qed.
  Lemma ag_section1_4 : agrees inv (l_section1_4 fc) (section1_4 fc) (fun _ s => inv s).
  Proof. unfold l_section1_4, section1_4. step. lstep. do 17 step. apply ag_value; [exact Hl|]. intros u _ Hu. now apply ag_l_padding. Qed.
  Lemma ag_section1_3 : agrees inv (l_section1_3 fc) (section1_3 fc) (fun _ s => inv s).
  Proof. unfold l_section1_3, section1_3. step. lstep. do 16 step. apply ag_value; [exact Hl|]. intros u _ Hu. now apply ag_l_padding. Qed.
  Lemma ag_section2 : agrees inv (l_section2 fc) (section2 fc) (fun _ s => inv s).
  Proof.
    unfold l_section2, section2. step. lstep. step. apply ag_value; [exact Hl|]. intros u _ Hu.
    intros s Hs. unfold lua_arith at 1, push_number. unfold bind at 1, ret at 1. rewrite sub_exact by lia. unfold lua_arith at 1. unfold bind at 1, ret at 1. unfold NBITS_PER_BYTE.
    rewrite mul_exact by lia. apply ag_newField_; [|exact Hs]. unfold fields_ok. cbn [negb orb]. lia.
  Qed.
  Lemma ag_section3 : agrees inv (l_section3 fc) (section3 fc) (fun _ s => inv s).
  Proof.
    unfold l_section3, section3. step. lstep. do 5 step. apply ag_value; [exact Hl|]. intros u E Hu. rewrite !integer_back, unsigned_back, Z.mod_small by lia.
    eapply ag_bind; [apply ag_lua, ag_Template|]. cbv beta; intros _ s Hs. unfold lua_value. rewrite E. cbn. apply ag_l_padding; assumption.
  Qed.
  Lemma ag_section4 : agrees inv (l_section4 fc) (section4 fc) (fun _ _ => True).
  Proof.
    unfold l_section4, section4. step. lstep. step. apply ag_number; [cbn; auto|]. intros n Hn. apply ag_bool. intros c. rewrite integer_back by lia.
    eapply ag_bind; [apply ag_lua, ag_same|]. cbv beta; intros _. apply ag_value; [exact Hl|]. intros u _ Hu. unfold l_padding. rewrite unsigned_back, Z.mod_small by lia. apply ag_same.
  Qed.
  Lemma section5_eq : l_section5 fc = section5 fc.
  Proof.
    unfold l_section5, section5, l_newSection, l_newField_, newField_, l_newField, newField. rewrite same_type, !integer_back by (cbn; lia). reflexivity.
  Qed.
  Lemma ag_deserialise l1 s1 : agrees inv l1 s1 (fun _ s => inv s) -> agrees binary (l_deserialise fc l1) (deserialise fc s1) (fun _ _ => True).
  Proof.
    intros H1. unfold l_deserialise, deserialise. eapply ag_bind with (R := fun _ s => inv s).
    { intros s Hs. split; [reflexivity|]. intros s2 a E. unfold NewMessage, modify in E. injection E as <- <-. split; [exact Hs|]. cbn. intros m E. injection E as <-. intros nm f _ E. discriminate E. }
    cbv beta; intros _. eapply ag_bind; [apply ag_section0|]. cbv beta; intros _. eapply ag_bind; [apply H1|]. cbv beta; intros _. apply ag_bool. intros v.
    eapply ag_bind with (R := fun _ s => inv s).
    { destruct (to_boolean v); [apply ag_section2|]. intros s Hs. split; [reflexivity|]. intros s2 a E. injection E as <- <-. exact Hs. }
    cbv beta; intros _. eapply ag_bind; [apply ag_section3|]. cbv beta; intros _.
    do 5 (apply ag_number; [cbn; tauto|]; intros ? ?). rewrite !integer_back by lia.
    eapply ag_bind; [apply ag_lua, ag_Init|]. cbv beta; intros _. eapply ag_bind; [apply ag_section4|]. cbv beta; intros _. rewrite section5_eq. apply ag_same.
  Qed.
  Lemma onr_binary {A} (mb : M bitreader A) mj s s1 r : binary s -> onr (on_reader mb mj) s = (s1, r) -> binary s1.
  Proof. intros [b Hb] H. unfold onr, zoom in H. rewrite Hb in H. cbn [on_reader] in H. destruct (mb b) as [b' x]. injection H as <- <-. now exists b'. Qed.
  Lemma ag_boot : agrees binary (l_boot fc) (boot fc) (fun _ _ => True).
  Proof.
    unfold l_boot, boot. eapply ag_bind with (R := fun n s => 0 <= n < 2 ^ 24 /\ binary s).
    { apply ag_lua. intros s Hs. split; [reflexivity|]. intros s1 a E. split; [eapply edition_range; eassumption|]. exact (onr_binary _ _ _ _ _ Hs E). }
    cbv beta; intros n. apply ag_fact. intros Hn. cbv zeta. rewrite !is_exact by lia.
    destruct (n =? 4); [apply ag_deserialise, ag_section1_4|]. destruct (n =? 3); [apply ag_deserialise, ag_section1_3|]. apply ag_same.
  Qed.
  Lemma ag_seek k : agrees binary (SeekStartSignature k) (SeekStartSignature k) (fun _ s => binary s).
  Proof.
    intros s Hs. split; [reflexivity|]. revert s Hs. induction k as [|k IH]; intros s Hs s1 a H; cbn [SeekStartSignature] in H; [discriminate H|].
    unfold bind in H. destruct (onr (r_PeekBytes 0 4) s) as [s2 r2] eqn:E. pose proof (onr_binary _ _ _ _ _ Hs E) as K. destruct r2; try discriminate H.
    destruct (_ <? _)%nat; [discriminate H|]. destruct (gs_eqb _ _); [injection H as <- <-; exact K|].
    destruct (onr (r_ReadBytes 1) s2) as [s3 r3] eqn:E3. pose proof (onr_binary _ _ _ _ _ K E3) as K3. destruct r3; try discriminate H; eapply IH; eassumption.
  Qed.
  Lemma ag_Run : agrees binary (l_Run fc) (Run fc) (fun _ _ => True).
  Proof. unfold l_Run, Run. eapply ag_bind; [apply ag_seek|]. cbv beta; intros _. eapply ag_bind; [apply ag_boot|]. cbv beta; intros _. apply ag_same. Qed.
End Steps.
