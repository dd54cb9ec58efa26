(** Proofs on identifiers, lookup, loading and cache keys (C15, C16, C18, C19, C20). *)
From Coq Require Import ZifyBool ZifyNat.
From Verif Require Export ModelManager SpecTable.
Ltac Zify.zify_post_hook ::= Z.div_mod_to_equations.

(** ** Decimal text *)

Lemma log2_div10 z : 10 <= z -> 0 <= Z.log2 (z / 10) < Z.log2 z.
Proof.
  intros H. split; [apply Z.log2_nonneg|].
  assert (Hz : 1 <= z / 10) by lia.
  assert (Hlt : Z.log2 (z / 10) + 1 <= Z.log2 z); [|lia].
  replace (Z.log2 (z / 10) + 1) with (Z.log2 (2 * (z / 10))).
  - apply Z.log2_le_mono. lia.
  - rewrite Z.log2_double by lia. lia.
Qed.

Fixpoint padded (k : nat) (z : Z) : gostring :=
  match k with O => [] | S k' => padded k' (z / 10) ++ [48 + z mod 10] end.

Lemma length_padded k : forall z, length (padded k z) = k.
Proof. induction k; intros z; cbn; [reflexivity|]. rewrite app_length, IHk. cbn. lia. Qed.

Lemma digits_padded k : forall fuel z, 0 <= z < 10 ^ Z.of_nat k -> (0 < k)%nat ->
  Z.log2 z < Z.of_nat fuel ->
  (length (digits fuel z) <= k)%nat /\
  repeat 48 (k - length (digits fuel z)) ++ digits fuel z = padded k z.
Proof.
  induction k as [|k IH]; intros fuel z Hz Hk Hf; [lia|].
  assert (Hfp : (0 < fuel)%nat) by (pose proof (Z.log2_nonneg z); lia).
  destruct fuel as [|fuel]; [lia|]. cbn [digits padded].
  destruct (Z.ltb_spec z 10) as [Hlt|Hge].
  - cbn [length]. split; [lia|]. rewrite Z.mod_small, Z.div_small by lia.
    replace (S k - 1)%nat with k by lia. f_equal.
    clear. induction k; cbn; [reflexivity|]. rewrite <- IHk. apply repeat_cons.
  - destruct k as [|k]; [lia|].
    destruct (IH fuel (z / 10)) as [H1 H2].
    + rewrite Nat2Z.inj_succ, Z.pow_succ_r in Hz by lia. lia.
    + lia.
    + pose proof (log2_div10 z Hge). lia.
    + rewrite app_length. cbn [length]. split; [lia|].
      replace (S (S k) - (length (digits fuel (z / 10)) + 1))%nat
        with (S k - length (digits fuel (z / 10)))%nat by lia.
      rewrite app_assoc, H2. reflexivity.
Qed.

Lemma id_String_padded z : 0 <= z < 10 ^ 6 -> id_String z = padded 6 z.
Proof.
  intros H. unfold id_String, itoa. destruct (Z.ltb_spec z 0); [lia|].
  apply digits_padded; [exact H|lia|]. pose proof (Z.log2_nonneg z). lia.
Qed.

Lemma parse_digits_app s : forall acc t,
  parse_digits acc (s ++ t) = match parse_digits acc s with Some v => parse_digits v t | None => None end.
Proof.
  induction s as [|c s IH]; intros acc t; cbn [app parse_digits]; [reflexivity|].
  destruct (_ && _); [apply IH|reflexivity].
Qed.
Lemma parse_digits_digits fuel : forall z, 0 <= z -> Z.log2 z < Z.of_nat fuel ->
  parse_digits 0 (digits fuel z) = Some z /\ (0 < length (digits fuel z))%nat /\
  Forall (fun c => 48 <= c <= 57) (digits fuel z).
Proof.
  induction fuel as [|fuel IH]; intros z Hz Hf; [pose proof (Z.log2_nonneg z); lia|].
  cbn [digits]. destruct (Z.ltb_spec z 10) as [Hlt|Hge].
  - cbn [parse_digits]. assert ((48 <=? 48 + z) && (48 + z <=? 57) = true) as -> by lia.
    split; [f_equal; lia|]. split; [cbn; lia|]. repeat constructor; lia.
  - destruct (IH (z / 10)) as (H1 & H2 & H3); [lia|pose proof (log2_div10 z Hge); lia|].
    rewrite parse_digits_app, H1. cbn [parse_digits].
    assert ((48 <=? 48 + z mod 10) && (48 + z mod 10 <=? 57) = true) as -> by lia.
    split; [f_equal; lia|]. rewrite app_length. split; [cbn; lia|].
    apply Forall_app. split; [exact H3|]. repeat constructor; lia.
Qed.
Lemma itoa_cases z :
  exists ds, Forall (fun c => 48 <= c <= 57) ds /\ (0 < length ds)%nat /\
    parse_digits 0 ds = Some (Z.abs z) /\ itoa z = if z <? 0 then 45 :: ds else ds.
Proof.
  unfold itoa. destruct (Z.ltb_spec z 0) as [H|H].
  - destruct (parse_digits_digits (S (Z.to_nat (Z.log2 (- z)))) (- z)) as (H1 & H2 & H3);
      [lia|pose proof (Z.log2_nonneg (- z)); lia|].
    eexists. repeat split; [exact H3|exact H2|]. rewrite H1. f_equal. lia.
  - destruct (parse_digits_digits (S (Z.to_nat (Z.log2 z))) z) as (H1 & H2 & H3);
      [lia|pose proof (Z.log2_nonneg z); lia|].
    eexists. repeat split; [exact H3|exact H2|]. rewrite H1. f_equal. lia.
Qed.
Lemma itoa_inj a b : itoa a = itoa b -> a = b.
Proof.
  intros H. destruct (itoa_cases a) as (da & Fa & La & Pa & Ea).
  destruct (itoa_cases b) as (db & Fb & Lb & Pb & Eb). rewrite Ea, Eb in H.
  destruct (Z.ltb_spec a 0), (Z.ltb_spec b 0).
  - injection H as ->. rewrite Pa in Pb. injection Pb as Pb. lia.
  - subst db. inversion Fb; lia.
  - subst da. inversion Fa; lia.
  - subst db. rewrite Pa in Pb. injection Pb as Pb. lia.
Qed.
(** Characters of a decimal number: digits and the minus sign, at least one digit. *)
Lemma itoa_chars z : Forall (fun c => c = 45 \/ 48 <= c <= 57) (itoa z) /\ itoa z <> [].
Proof.
  destruct (itoa_cases z) as (ds & F & L & _ & ->).
  assert (F' : Forall (fun c => c = 45 \/ 48 <= c <= 57) ds)
    by (eapply Forall_impl; [|exact F]; cbn; auto).
  destruct (z <? 0); split; auto; try discriminate. destruct ds; [cbn in L; lia|discriminate].
Qed.
Lemma atoi_itoa z : - 2 ^ 63 <= z < 2 ^ 63 -> atoi (itoa z) = Ok z.
Proof.
  intros Hz. destruct (itoa_cases z) as (ds & F & L & P & ->).
  destruct ds as [|c ds]; [cbn in L; lia|]. inversion F as [|? ? Hc _]; subst.
  destruct (Z.ltb_spec z 0) as [Hn|Hp].
  - unfold atoi. rewrite P. destruct (_ && _) eqn:E; [f_equal; lia|lia].
  - assert (Hgo : atoi (c :: ds) = match parse_digits 0 (c :: ds) with
           | Some v => if (- 2 ^ 63 <=? v) && (v <? 2 ^ 63) then Ok v else Err (EMsg "strconv.Atoi")
           | None => Err (EMsg "strconv.Atoi") end).
    { unfold atoi. assert (c <> 45 /\ c <> 43) by lia.
      destruct c as [|c|c]; try lia.
      do 7 (destruct c as [c|c|]; try reflexivity; try lia). }
    rewrite Hgo, P. destruct (_ && _) eqn:E; [f_equal; lia|lia].
Qed.

(** ** C15 *)
Section FXY.
  Variables F X Y : Z.
  Hypothesis HF : 0 <= F <= 3.
  Hypothesis HX : 0 <= X <= 63.
  Hypothesis HY : 0 <= Y <= 255.
  Let id := F * 100000 + X * 1000 + Y.
  Lemma fxy_F : id_F id = F.
  Proof. unfold id_F. rewrite Z.quot_div_nonneg by (unfold id; lia). unfold id. lia. Qed.
  Lemma fxy_X : id_X id = X.
  Proof.
    unfold id_X. rewrite Z.quot_div_nonneg by (unfold id; lia).
    rewrite Z.rem_mod_nonneg by (unfold id; lia). unfold id. lia.
  Qed.
  Lemma fxy_Y : id_Y id = Y.
  Proof. unfold id_Y. rewrite Z.rem_mod_nonneg by (unfold id; lia). unfold id. lia. Qed.
  Lemma fxy_String : id_String id =
    [48 + F; 48 + X / 10; 48 + X mod 10; 48 + Y / 100; 48 + Y / 10 mod 10; 48 + Y mod 10].
  Proof.
    rewrite id_String_padded by (unfold id; lia). cbn [padded app].
    assert (E1 : id mod 10 = Y mod 10) by (unfold id; lia).
    assert (E2 : id / 10 mod 10 = Y / 10 mod 10) by (unfold id; lia).
    assert (E3 : id / 10 / 10 mod 10 = Y / 100) by (unfold id; lia).
    assert (E4 : id / 10 / 10 / 10 mod 10 = X mod 10) by (unfold id; lia).
    assert (E5 : id / 10 / 10 / 10 / 10 mod 10 = X / 10) by (unfold id; lia).
    assert (E6 : id / 10 / 10 / 10 / 10 / 10 mod 10 = F) by (unfold id; lia).
    now rewrite E1, E2, E3, E4, E5, E6.
  Qed.
End FXY.

(** ** C16 *)
Lemma single_Lookup_spec g id :
  match single_Lookup g id with
  | Ok d => knows g id d
  | Err _ => forall d, ~ knows g id d
  | _ => False
  end.
Proof.
  unfold single_Lookup, knows. fold (id_F id). unfold F_ELEMENT, F_REPLICATION, F_OPERATOR, F_SEQUENCE.
  destruct (Z.eqb_spec (id_F id) 0) as [H0|H0].
  { destruct (s_b g id) as [e|] eqn:E.
    - left. eauto.
    - intros d [[_ (e & He & _)]|[[? _]|[[? _]|[? _]]]]; try lia. congruence. }
  destruct (Z.eqb_spec (id_F id) 1) as [H1|H1]; [right; left; auto|].
  destruct (Z.eqb_spec (id_F id) 2) as [H2|H2]; [right; right; left; auto|].
  destruct (Z.eqb_spec (id_F id) 3) as [H3|H3].
  { destruct (s_d g id) as [ms|] eqn:E.
    - right; right; right. eauto.
    - intros d [[? _]|[[? _]|[[? _]|[_ (e & He & _)]]]]; try lia. congruence. }
  intros d [[? _]|[[? _]|[[? _]|[? _]]]]; lia.
Qed.
Lemma knows_fun g id d d' : knows g id d -> knows g id d' -> d = d'.
Proof.
  intros [[? (e & He & ->)]|[[? ->]|[[? ->]|[? (e & He & ->)]]]]
         [[? (e' & He' & ->)]|[[? ->]|[[? ->]|[? (e' & He' & ->)]]]]; try lia; congruence.
Qed.
Lemma single_Lookup_ok g id d : single_Lookup g id = Ok d <-> knows g id d.
Proof.
  pose proof (single_Lookup_spec g id) as H. destruct (single_Lookup g id) as [d'|e|p|]; try contradiction.
  - split; [intros [= <-]; exact H|]. intros Hd. f_equal. eapply knows_fun; eauto.
  - split; [discriminate|]. intros Hd. exfalso. now apply (H d).
Qed.
Lemma chain_Lookup_spec gs id :
  match chain_Lookup gs id with
  | Ok d => exists pre g post, gs = pre ++ g :: post /\ knows g id d /\
              Forall (fun g' => forall d', ~ knows g' id d') pre
  | Err _ => Forall (fun g' => forall d', ~ knows g' id d') gs
  | _ => False
  end.
Proof.
  induction gs as [|g gs IH]; cbn [chain_Lookup]; [constructor|].
  pose proof (single_Lookup_spec g id) as H. destruct (single_Lookup g id) as [d|e|p|]; try contradiction.
  - exists [], g, gs. repeat split; auto.
  - destruct (chain_Lookup gs id) as [d|e'|p|]; try contradiction.
    + destruct IH as (pre & g' & post & -> & Hk & Hp). exists (g :: pre), g', post. repeat split; auto.
    + constructor; auto.
Qed.

Lemma first_unique (P : single -> Prop) pre g post pre' g' post' :
  pre ++ g :: post = pre' ++ g' :: post' -> P g -> P g' ->
  Forall (fun x => ~ P x) pre -> Forall (fun x => ~ P x) pre' -> g = g'.
Proof.
  revert pre'. induction pre as [|x pre IH]; intros [|y pre'] H Hg Hg' Hp Hp'; cbn [app] in H.
  - congruence.
  - injection H as <- _. inversion Hp'; contradiction.
  - injection H as -> _. inversion Hp; contradiction.
  - injection H as _ H. inversion Hp; inversion Hp'; subst. eapply IH; eauto.
Qed.
Lemma chain_Lookup_ok gs id d : chain_Lookup gs id = Ok d <->
  exists pre g post, gs = pre ++ g :: post /\ knows g id d /\
    Forall (fun g' => forall d', ~ knows g' id d') pre.
Proof.
  pose proof (chain_Lookup_spec gs id) as H. split.
  - intros E. now rewrite E in H.
  - intros (pre & g & post & -> & Hk & Hp).
    destruct (chain_Lookup _ id) as [d'|e|p|]; try contradiction.
    + destruct H as (pre' & g' & post' & Heq & Hk' & Hp').
      assert (g = g').
      { eapply (first_unique (fun x => exists d, knows x id d)); eauto.
        - eapply Forall_impl; [|exact Hp]. intros a Ha [d0 Hd0]. eapply Ha; eauto.
        - eapply Forall_impl; [|exact Hp']. intros a Ha [d0 Hd0]. eapply Ha; eauto. }
      subst g'. f_equal. eapply knows_fun; eauto.
    + apply Forall_app in H. destruct H as [_ H]. inversion H; subst. exfalso. eapply H2; eauto.
Qed.

(** ** C18 *)
Definition no_slash (s : gostring) : Prop := Forall (fun c => c <> 47) s.

Lemma split_no_slash s : no_slash s -> split_slash s = [s].
Proof.
  induction 1 as [|c s Hc _ IH]; cbn [split_slash]; [reflexivity|].
  destruct (Z.eqb_spec c 47); [contradiction|]. now rewrite IH.
Qed.
Lemma split_nonempty s : split_slash s <> [].
Proof.
  destruct s as [|c s]; cbn; [discriminate|]. destruct (c =? 47); [discriminate|].
  destruct (split_slash s); discriminate.
Qed.
Lemma split_app s t : split_slash (s ++ 47 :: t) = split_slash s ++ split_slash t.
Proof.
  induction s as [|c s IH]; cbn [app split_slash].
  - reflexivity.
  - destruct (Z.eqb_spec c 47).
    + now rewrite IH.
    + rewrite IH. destruct (split_slash s) as [|h tl] eqn:E; [now apply split_nonempty in E|]. reflexivity.
Qed.
Lemma split_comps s : Forall no_slash (split_slash s).
Proof.
  induction s as [|c s IH]; cbn [split_slash]; [repeat constructor|].
  destruct (Z.eqb_spec c 47); [constructor; [constructor|exact IH]|].
  destruct (split_slash s) as [|h tl]; inversion IH; subst; repeat constructor; auto.
Qed.
Lemma split_join l : l <> [] -> Forall no_slash l -> split_slash (join_slash l) = l.
Proof.
  induction l as [|a l IH]; intros Hne Hf; [congruence|]. inversion Hf; subst.
  destruct l as [|b l].
  - now apply split_no_slash.
  - change (join_slash (a :: b :: l)) with (a ++ 47 :: join_slash (b :: l)).
    rewrite split_app, split_no_slash by assumption. rewrite IH by (discriminate || assumption). reflexivity.
Qed.

(** A path component that Clean leaves alone. *)
Definition plain (c : gostring) : Prop := no_slash c /\ c <> [] /\ c <> [46] /\ c <> [46; 46].
Lemma gs_eqb_eq a : forall b, gs_eqb a b = true <-> a = b.
Proof.
  induction a as [|x a IH]; intros [|y b]; cbn.
  - split; reflexivity.
  - split; discriminate.
  - split; discriminate.
  - rewrite andb_true_iff, Z.eqb_eq, IH. split; [intros [-> ->]; reflexivity|intros [= -> ->]; auto].
Qed.
Lemma gs_eqb_neq a b : a <> b -> gs_eqb a b = false.
Proof. intros H. destruct (gs_eqb a b) eqn:E; [|reflexivity]. apply gs_eqb_eq in E. contradiction. Qed.

Lemma clean_loop_plain rooted tail : Forall plain tail -> forall acc,
  clean_loop rooted tail acc = rev acc ++ tail.
Proof.
  induction 1 as [|c cs (Hs & H1 & H2 & H3) _ IH]; intros acc; cbn [clean_loop].
  - now rewrite app_nil_r.
  - rewrite !gs_eqb_neq by assumption. cbn [orb]. rewrite IH. cbn [rev]. now rewrite <- app_assoc.
Qed.
(** The stack left by the base path does not depend on what follows. *)
Lemma clean_loop_app rooted base tail : Forall plain tail -> forall acc,
  clean_loop rooted (base ++ tail) acc = clean_loop rooted base acc ++ tail.
Proof.
  intros Ht. induction base as [|c base IH]; intros acc; cbn [app clean_loop].
  - now apply clean_loop_plain.
  - destruct (_ || _); [apply IH|]. destruct (gs_eqb c [46; 46]); [|apply IH].
    destruct acc as [|p acc]; [destruct rooted; apply IH|]. destruct (gs_eqb p [46; 46]); apply IH.
Qed.
Lemma clean_loop_no_slash rooted comps : Forall no_slash comps -> forall acc, Forall no_slash acc ->
  Forall no_slash (clean_loop rooted comps acc).
Proof.
  induction 1 as [|c cs Hc _ IH]; intros acc Ha; cbn [clean_loop].
  - now apply Forall_rev.
  - destruct (_ || _); [now apply IH|]. destruct (gs_eqb c [46; 46]).
    + destruct acc as [|p acc]; [destruct rooted; apply IH; repeat constructor; auto|].
      inversion Ha; subst. destruct (gs_eqb p [46; 46]); apply IH; repeat constructor; auto.
    + apply IH. now constructor.
Qed.

Lemma itoa_plain z : plain (itoa z).
Proof.
  destruct (itoa_chars z) as [F Hne]. repeat split.
  - eapply Forall_impl; [|exact F]. cbn. intros; lia.
  - exact Hne.
  - intros E. rewrite E in F. inversion F; lia.
  - intros E. rewrite E in F. inversion F; lia.
Qed.
Lemma names_plain : plain (gs "TableB.json") /\ plain (gs "TableD.json").
Proof. split; repeat split; try (vm_compute; discriminate); repeat constructor; vm_compute; discriminate. Qed.

Definition clean_base (base : gostring) : list gostring := clean_loop (is_rooted base) (split_slash base) [].

Lemma join_slash_app base a l : join_slash (base :: a :: l) = base ++ 47 :: join_slash (a :: l).
Proof. reflexivity. Qed.
Lemma Clean_tail (base : gostring) tail : base <> [] -> tail <> [] -> Forall plain tail ->
  Clean (base ++ 47 :: join_slash tail) =
    (if is_rooted base then [47] else []) ++ join_slash (clean_base base ++ tail).
Proof.
  intros Hb Ht Hp.
  assert (Hns : Forall no_slash tail) by (eapply Forall_impl; [|exact Hp]; intros a Ha; apply Ha).
  unfold Clean. assert (is_rooted (base ++ 47 :: join_slash tail) = is_rooted base) as ->
    by (destruct base; [congruence|reflexivity]).
  rewrite split_app, split_join by assumption. rewrite clean_loop_app by assumption.
  fold (clean_base base). destruct (is_rooted base); [reflexivity|].
  cbn [app]. assert (Hne : join_slash (clean_base base ++ tail) <> []).
  { destruct tail as [|t tl]; [congruence|]. inversion Hp as [|? ? Hp1 _]; subst.
    destruct Hp1 as (_ & Hp1 & _). destruct (clean_base base) as [|x [|y l]]; cbn.
    - destruct t; [congruence|]. destruct tl; discriminate.
    - destruct x; discriminate.
    - destruct x; discriminate. }
  destruct (join_slash (clean_base base ++ tail)) eqn:E; [congruence|reflexivity].
Qed.
Lemma Clean_plain tail : tail <> [] -> Forall plain tail -> Clean (join_slash tail) = join_slash tail.
Proof.
  intros Ht Hp.
  assert (Hns : Forall no_slash tail) by (eapply Forall_impl; [|exact Hp]; intros a Ha; apply Ha).
  destruct tail as [|t tl]; [congruence|]. inversion Hp as [|? ? Hp1 _]; subst.
  destruct Hp1 as (Hs & Hne & _).
  assert (Hr : is_rooted (join_slash (t :: tl)) = false /\ join_slash (t :: tl) <> []).
  { destruct t as [|c t]; [congruence|]. inversion Hs; subst.
    destruct tl; cbn; split; try discriminate; lia. }
  destruct Hr as [Hr Hj].
  unfold Clean. rewrite Hr. rewrite split_join by (discriminate || assumption).
  rewrite clean_loop_plain by assumption. cbn [rev app].
  destruct (join_slash (t :: tl)) eqn:E; [congruence|reflexivity].
Qed.

(** The key, for any base path: the quintuple can be read off its end. *)
Lemma composeTablePath_inj base name name' m c s v m' c' s' v' :
  plain name -> plain name' ->
  composeTablePath base m c s v name = composeTablePath base m' c' s' v' name' ->
  m = m' /\ c = c' /\ s = s' /\ v = v' /\ name = name'.
Proof.
  intros Hn Hn' H.
  set (t1 := [itoa m; itoa c; itoa s; itoa v; name]) in *.
  set (t2 := [itoa m'; itoa c'; itoa s'; itoa v'; name']) in *.
  assert (P1 : Forall plain t1) by (unfold t1, t2; repeat first [apply Forall_nil | apply Forall_cons]; auto using itoa_plain).
  assert (P2 : Forall plain t2) by (unfold t1, t2; repeat first [apply Forall_nil | apply Forall_cons]; auto using itoa_plain).
  assert (N1 : Forall no_slash t1) by (eapply Forall_impl; [|exact P1]; intros a Ha; apply Ha).
  assert (N2 : Forall no_slash t2) by (eapply Forall_impl; [|exact P2]; intros a Ha; apply Ha).
  assert (E : t1 = t2).
  { unfold composeTablePath in H. destruct base as [|b base].
    - cbn [Join] in H. 
      assert (J : forall x l, x <> [] -> Join (x :: l) = Clean (join_slash (x :: l)))
        by (intros [|y x] l Hx; [congruence|reflexivity]).
      change (Join t1 = Join t2) in H. unfold t1, t2 in H.
      rewrite !J in H by apply itoa_plain. fold t1 t2 in H.
      rewrite !Clean_plain in H by (assumption || discriminate).
      apply (f_equal split_slash) in H.
      rewrite !split_join in H by (assumption || discriminate). exact H.
    - change (Clean ((b :: base) ++ 47 :: join_slash t1) = Clean ((b :: base) ++ 47 :: join_slash t2)) in H.
      rewrite !Clean_tail in H by (assumption || discriminate).
      apply app_inv_head in H.
      assert (Hc : Forall no_slash (clean_base (b :: base)))
        by (apply clean_loop_no_slash; [apply split_comps|constructor]).
      apply (f_equal split_slash) in H.
      rewrite !split_join in H.
      + now apply app_inv_head in H.
      + unfold t2. destruct (clean_base (b :: base)); discriminate.
      + apply Forall_app; auto.
      + unfold t1. destruct (clean_base (b :: base)); discriminate.
      + apply Forall_app; auto. }
  unfold t1, t2 in E. injection E as E1 E2 E3 E4 E5.
  repeat split; auto using itoa_inj.
Qed.

(** ** C20: units *)
Lemma has_prefix_spec s p : has_prefix s p = true <-> exists t, s = p ++ t.
Proof.
  unfold has_prefix. rewrite gs_eqb_eq. split.
  - intros H. exists (skipn (length p) s). rewrite <- H at 1. now rewrite firstn_skipn.
  - intros [t ->]. rewrite firstn_app, firstn_all, Nat.sub_diag. cbn. apply app_nil_r.
Qed.
