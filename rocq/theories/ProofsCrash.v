(** Which panics decoding can end with, for templates of any kind. *)
From Coq Require Import ZifyBool ZifyNat.
From Verif Require Export ProofsSafe.
From Verif Require Import ProofsBase ProofsRun3 ProofsParser2 ProofsParser3 ProofsParser4 ProofsTable ProofsRun6.
From Verif Require Import ProofsSafe.

Section May.
  Variable cf : config.
  Hypothesis Hj : cf_json cf = false.
  (** The panics that are allowed, and whether running on is. *)
  Variable A : panic -> Prop.
  Variable H : Prop.
  Let columns := cf_compressed cf.
  Hypothesis Hn : columns = true -> 0 <= cf_nsubsets cf.
  Hypothesis Hz : A PIndex \/ (columns = true -> 0 < cf_nsubsets cf).
  Let n := Z.to_nat (cf_nsubsets cf).

  (** ** Readers *)
  Definition rmay {X} (m : M reader X) (Q : X -> Prop) : Prop := forall b,
    match m (RBit b) with
    | (r, Ok a) => (exists b', r = RBit b') /\ Q a
    | (r, Err _) => True
    | (_, Panic p) => A p
    | (_, NoFuel) => H
    end.
  Lemma rm_safe {X} (m : M reader X) Q : rsafe m Q -> rmay m Q.
  Proof. intros K b. specialize (K b). destruct (m (RBit b)) as [r [a|e|q|]]; auto; contradiction. Qed.
  Lemma rm_bind {X Y} (m : M reader X) (f : X -> M reader Y) P Q : rmay m P -> (forall a, P a -> rmay (f a) Q) -> rmay (bind m f) Q.
  Proof.
    intros K L b. unfold bind. specialize (K b). destruct (m (RBit b)) as [r [a|e|q|]]; auto. destruct K as [[b' ->] Ha]. apply L, Ha.
  Qed.
  Lemma rm_weaken {X} (m : M reader X) (P Q : X -> Prop) : rmay m P -> (forall a, P a -> Q a) -> rmay m Q.
  Proof. intros K L b. specialize (K b). destruct (m (RBit b)) as [r [a|e|q|]]; auto. destruct K. auto. Qed.
  Lemma rm_replicate {X} (m : M reader X) P k : rmay m P -> rmay (replicateM k m) (fun l => length l = k /\ Forall P l).
  Proof.
    intros K. induction k as [|k IH]; cbn [replicateM]; [apply rm_safe, rs_ret; auto|]. eapply rm_bind; [exact K|]. intros a Ha.
    eapply rm_bind; [exact IH|]. intros l [Hl Hf]. apply rm_safe, rs_ret. cbn. auto.
  Qed.
  Lemma rs_int pl w : rsafe (r_ReadInt pl w) (fun _ => True).
  Proof.
    apply rs_on. unfold br_ReadInt. eapply bs_bind with (P := fun _ => True).
    - unfold br_ReadBool. eapply bs_bind; [apply bs_pos|]. intros _ _. apply bs_br. intros e. apply bs_bit.
    - intros b _. eapply bs_bind; [apply bs_pos|]. intros _ _. eapply bs_bind; [apply bs_br; intros; apply bs_lib|]. intros. now apply bs_ret.
  Qed.
  Lemma rm_make w : 0 <= w -> rmay (make_values w) (fun _ => True).
  Proof. intros Hw. apply rm_safe. unfold make_values. assert (w <? 0 = false) as -> by lia. now apply rs_ret. Qed.
  Definition value_may (r : res value) : Prop :=
    match r with Ok v => comparable v | Err _ => True | Panic p => A p | NoFuel => H end.
  Lemma rm_lift r : value_may r -> rmay (lift_res r) comparable.
  Proof. intros K b. unfold lift_res. destruct r; cbn in *; eauto. Qed.
  Lemma rm_others pl w i f : 0 <= w -> (forall x, value_may (f x)) ->
    rmay (c_unpackOthers pl w i f) (fun c => length (cv_vals c) = Z.to_nat w /\ Forall comparable (cv_vals c)).
  Proof.
    intros Hw Hf. unfold c_unpackOthers. cbv zeta. eapply rm_bind; [apply rm_safe, rs_uint|]. intros mn _. eapply rm_bind; [apply rm_safe, rs_diff|]. intros d Hd.
    eapply rm_bind; [apply rm_make, Hw|]. intros _ _. destruct (_ =? _).
    - eapply rm_bind; [apply rm_lift, Hf|]. intros v Hv. apply rm_safe, rs_ret. cbn. rewrite repeat_length. split; [reflexivity|]. now apply Forall_repeat.
    - destruct (IsMissing _ _); [apply rm_safe, rs_fail|]. eapply rm_bind; [apply rm_replicate with (P := comparable)|].
      + eapply rm_bind; [apply rm_safe, rs_uint|]. intros x _. destruct (IsMissing _ _); [apply rm_safe, rs_ret; split; discriminate|]. apply rm_lift, Hf.
      + intros l [Hl Hc]. apply rm_safe, rs_ret. cbn. auto.
  Qed.
  Lemma rm_code pl w i : 0 <= w -> A PType -> rmay (c_unpackCode pl w i) (fun c => length (cv_vals c) = Z.to_nat w /\ Forall comparable (cv_vals c)).
  Proof.
    intros Hw HA. unfold c_unpackCode. cbv zeta. eapply rm_bind; [apply rm_safe, rs_int|]. intros mn _. eapply rm_bind; [apply rm_safe, rs_diff|]. intros d Hd.
    eapply rm_bind; [apply rm_make, Hw|]. intros _ _. destruct (_ =? _).
    - apply rm_safe, rs_ret. cbn. rewrite repeat_length. split; [reflexivity|]. apply Forall_repeat. split; discriminate.
    - eapply rm_bind; [apply rm_replicate with (P := comparable)|].
      + eapply rm_bind; [apply rm_safe, rs_uint|]. intros x _. destruct (IsMissing _ _); [apply rm_safe, rs_ret; split; discriminate|]. intros b. exact HA.
      + intros l [Hl Hc]. apply rm_safe, rs_ret. cbn. auto.
  Qed.
  Lemma binary_may i fuel x : H -> value_may (unpackBinary fuel i x).
  Proof.
    intros HH. unfold unpackBinary, NewBinaryFromUint. generalize (u64 (pi_nbits i - NBITS_PER_BYTE)) as z, (@nil Z) as l. induction fuel as [|fuel IH]; intros z l; cbn [binary_from_uint_loop]; [exact HH|].
    destruct (0 <=? z); [apply IH|]. unfold NewBinary. destruct (negb _); cbn; [exact I|]. split; discriminate.
  Qed.
  Definition readable' (i : pinfo) : Prop :=
    (pi_unit i = STRING -> 0 <= pi_nbits i) /\ (columns = true -> (pi_unit i = CODE -> A PType) /\ (pi_unit i = BINARY -> H)).
  Definition unpacked' (i : pinfo) (u : uval) : Prop :=
    match u with
    | UV v => columns = false
    | UC c => columns = true /\ length (cv_vals c) = n /\ (pi_unit i <> STRING -> Forall comparable (cv_vals c))
    end.
  Lemma rm_unpack info : readable' info ->
    rmay (if cf_json cf then json_Unpack (cf_plat cf) info
           else if cf_compressed cf then compressed_Unpack (cf_plat cf) (cf_fuel cf) (cf_nsubsets cf) info
           else uncompressed_Unpack (cf_plat cf) info) (unpacked' info).
  Proof.
    intros (Hs & Hc). rewrite Hj. fold columns. destruct columns eqn:Ec.
    - specialize (Hn eq_refl). destruct (Hc eq_refl) as [H1 H2]. unfold compressed_Unpack.
      apply rm_bind with (P := fun c => length (cv_vals c) = n /\ (pi_unit info <> STRING -> Forall comparable (cv_vals c))).
      + assert (Z0 : rmay (make_values (cf_nsubsets cf) ;; ret (mkCval (VUint 0) 0 (repeat (VUint 0) (Z.to_nat (cf_nsubsets cf)))))%M
          (fun c => length (cv_vals c) = n /\ (pi_unit info <> STRING -> Forall comparable (cv_vals c)))).
        { eapply rm_bind; [apply rm_make; lia|]. intros _ _. apply rm_safe, rs_ret. cbn. rewrite repeat_length. split; [reflexivity|]. intros _. apply Forall_repeat. split; discriminate. }
        destruct (pi_unit info) eqn:Eu.
        * eapply rm_weaken; [apply rm_others; [lia|]|]; [|intros c [? ?]; auto]. intros x. apply numeric_comparable.
        * eapply rm_weaken; [apply rm_safe, rs_string; [lia|auto]|]. intros c [E ?]. split; [exact E|congruence].
        * destruct (_ =? 0); [exact Z0|]. eapply rm_weaken; [apply rm_others; [lia|]|]; [|intros c [? ?]; auto]. intros x. apply missing_comparable.
        * eapply rm_weaken; [apply rm_code; [lia|auto]|]. intros c [? ?]; auto.
        * destruct (_ =? 0); [exact Z0|]. eapply rm_weaken; [apply rm_others; [lia|]|]; [|intros c [? ?]; auto]. intros x. apply missing_comparable.
        * eapply rm_weaken; [apply rm_others; [lia|]|]; [|intros c [? ?]; auto]. intros x. apply binary_may. auto.
      + intros c (? & ?). apply rm_safe, rs_ret. cbn. auto.
    - unfold uncompressed_Unpack. apply rm_safe. destruct (pi_unit info) eqn:Eu.
      + eapply rs_bind; [apply rs_uint|]. intros. now apply rs_ret.
      + eapply rs_bind; [apply rs_bytes|]. { apply Z.quot_pos; [auto|]. unfold NBITS_PER_BYTE. lia. } intros. now apply rs_ret.
      + destruct (_ =? 0); [now apply rs_ret|]. eapply rs_bind; [apply rs_uint|]. intros. now apply rs_ret.
      + eapply rs_bind; [apply rs_int|]. intros. now apply rs_ret.
      + destruct (_ =? 0); [now apply rs_ret|]. eapply rs_bind; [apply rs_uint|]. intros. now apply rs_ret.
      + eapply rs_bind; [apply rs_binary|]. intros. now apply rs_ret.
  Qed.

  (** ** The visitor *)
  Definition node_ok (v : vnode) : Prop := forall e, d_entry (vn_desc v) = EB e -> entry_ok e.
  Definition cells_ok (l : list cell) : Prop := Forall (fun c => node_ok (c_node c)) l.
  Definition rows (c : cellsb) : Prop :=
    match c with
    | UCells l => columns = false /\ cells_ok l
    | CCells ts => columns = true /\ length ts = n /\ (exists k, Forall (fun t => length t = k) ts) /\ Forall cells_ok ts
    end.
  Definition fit (st : list nat) (k : nat) (s : vst) : Prop :=
    t_stack (v_tree s) = st /\ rows (v_cells s) /\ g_newRefvals (v_regs s) = None /\ 0 <= g_nbitsString (v_regs s) /\
    (A PIndex \/ (k <= length (g_assoc (v_regs s)))%nat) /\ (exists b, v_r s = RBit b) /\ Forall node_ok (m_targets (v_bm s)).
  (** What holds after a failure. *)
  Definition measured (c : cellsb) : Prop := (exists z, cells_Len c = Ok z) \/ (cells_Len c = Panic PIndex /\ A PIndex).
  Definition left_as (st : list nat) (s : vst) : Prop :=
    t_stack (v_tree s) = st /\ measured (v_cells s).
  Definition may {X} (P : vst -> Prop) (st : list nat) (m : M vst X) (Q : X -> vst -> Prop) : Prop := forall s, P s ->
    match m s with
    | (s', Ok a) => Q a s'
    | (s', Err _) => left_as st s'
    | (s', Panic p) => A p /\ left_as st s'
    | (s', NoFuel) => H /\ left_as st s'
    end.
  Lemma rows_len c : rows c -> measured c.
  Proof.
    unfold measured. destruct c as [l|[|t ts]]; cbn [rows cells_Len]; eauto. intros (Hc & Hl & _). destruct Hz as [HA|HA]; [auto|]. specialize (HA Hc). cbn in Hl. unfold n in Hl. lia.
  Qed.
  Lemma fit_left st k s : fit st k s -> left_as st s.
  Proof. intros (H1 & H2 & _). split; [exact H1|apply rows_len, H2]. Qed.
  Lemma my_bind {X Y} P st (m : M vst X) (f : X -> M vst Y) R Q : may P st m R -> (forall a, may (R a) st (f a) Q) -> may P st (bind m f) Q.
  Proof. intros K L s Hs. unfold bind. specialize (K s Hs). destruct (m s) as [s' [a|e|q|]]; auto. apply L, K. Qed.
  Lemma my_wrap {X} P st t (m : M vst X) Q : may P st m Q -> may P st (wrap t m) Q.
  Proof. intros K s Hs. unfold wrap. specialize (K s Hs). destruct (m s) as [s' [a|e|q|]]; auto. Qed.
  Lemma my_ret {X} (P : vst -> Prop) st (a : X) (Q : X -> vst -> Prop) : (forall s, P s -> Q a s) -> may P st (ret a) Q.
  Proof. intros K s Hs. apply K, Hs. Qed.
  Lemma my_weaken {X} (P P' : vst -> Prop) st (m : M vst X) (Q Q' : X -> vst -> Prop) : may P' st m Q' -> (forall s, P s -> P' s) -> (forall a s, Q' a s -> Q a s) -> may P st m Q.
  Proof. intros K H1 H2 s Hs. specialize (K s (H1 s Hs)). destruct (m s) as [s' [a|e|q|]]; auto. Qed.
  Lemma my_modify (P : vst -> Prop) st f (Q : unit -> vst -> Prop) : (forall s, P s -> Q tt (f s)) -> may P st (modify f) Q.
  Proof. intros K s Hs. exact (K s Hs). Qed.
  Lemma my_gets {X} (P : vst -> Prop) st (f : vst -> X) : may P st (gets f) (fun a s => P s /\ a = f s).
  Proof. intros s Hs. cbn. auto. Qed.
  Lemma my_throw {X} st k p (Q : X -> vst -> Prop) : A p -> may (fit st k) st (throw p) Q.
  Proof. intros HA s Hs. cbn. split; [exact HA|]. eapply fit_left; eauto. Qed.
  Lemma fit_less st k j s : (A PIndex \/ (j <= k)%nat) -> fit st k s -> fit st j s.
  Proof. intros L (? & ? & ? & ? & L' & ? & ?). repeat split; auto. destruct L, L'; auto. right. lia. Qed.
  Lemma my_alloc st k nk : may (fit st k) st (alloc nk) (fun _ => fit st k).
  Proof. intros s (K & K'). cbn. split; [exact K|exact K']. Qed.
  Lemma my_member st k i m : may (fit st k) st (AddMember i m) (fun _ => fit st k).
  Proof. intros s (K & K'). cbn. split; [exact K|exact K']. Qed.
  Lemma my_valueless st k d : may (fit st k) st (add_valueless d) (fun _ => fit st k).
  Proof. intros s (K & K'). cbn. split; [exact K|exact K']. Qed.
  Lemma my_scope st k k' i (m : M vst unit) : (forall st', may (fit st' k) st' m (fun _ => fit st' k')) ->
    may (fit st k) st (tree_Push i ;; deferM tree_Pop m)%M (fun _ => fit st k').
  Proof.
    intros K s (Hs & H'). unfold bind, tree_Push, modify, deferM. cbv zeta.
    set (s1 := set_tree _ s). specialize (K (t_node (v_tree s) :: st) s1).
    assert (F : fit (t_node (v_tree s) :: st) k s1) by (split; [cbn; now rewrite Hs|exact H']).
    specialize (K F). destruct (m s1) as [s2 [a|e|q|]].
    - destruct K as (E & K). unfold tree_Pop. rewrite E. split; [reflexivity|exact K].
    - destruct K as (E & K). unfold tree_Pop. rewrite E. split; [reflexivity|exact K].
    - destruct K as (HA & E & K). unfold tree_Pop. rewrite E. split; [exact HA|]. split; [reflexivity|exact K].
    - destruct K as (HA & E & K). unfold tree_Pop. rewrite E. split; [exact HA|]. split; [reflexivity|exact K].
  Qed.
  Lemma my_mapM {X} (P : vst -> Prop) st (f : X -> M vst unit) l : (forall a, In a l -> may P st (f a) (fun _ => P)) -> may P st (mapM_ f l) (fun _ => P).
  Proof.
    induction l as [|a l IH]; intros K; cbn [mapM_]; [now apply my_ret|]. eapply my_bind; [apply K; now left|]. intros ?; cbv beta. apply IH. intros b Hb. apply K. now right.
  Qed.
  Lemma my_mapM' {X Y} (P : vst -> Prop) st (f : X -> M vst Y) l : (forall a, In a l -> may P st (f a) (fun _ => P)) -> may P st (mapM f l) (fun _ => P).
  Proof.
    induction l as [|a l IH]; intros K; cbn [mapM]; [now apply my_ret|]. eapply my_bind; [apply K; now left|]. intros b.
    eapply my_bind; [apply IH; intros c Hc; apply K; now right|]. intros bs. now apply my_ret.
  Qed.
  Lemma my_iter (P : vst -> Prop) st (f : M vst unit) z : may P st f (fun _ => P) -> may P st (iter_Z z f) (fun _ => P).
  Proof.
    intros K. unfold iter_Z. destruct z; try now apply my_ret. induction p as [p IH|p IH|]; cbn [iter_pos]; auto.
    - eapply my_bind; [exact K|]. intros ?. cbv beta. eapply my_bind; [exact IH|]. intros ?. exact IH.
    - eapply my_bind; [exact IH|]. intros ?. exact IH.
  Qed.
  Lemma my_unpack st k info : readable' info ->
    may (fit st k) st (Unpack cf info) (fun u s => fit st k s /\ unpacked' info u).
  Proof.
    intros Hr s Hs. pose proof (fit_left _ _ _ Hs) as HL. destruct Hs as (H0 & H1 & H2 & H3 & H4 & (b & Hb) & Hp). unfold Unpack, zoom. rewrite Hb. pose proof (rm_unpack info Hr b) as K.
    match goal with |- context [(if cf_json cf then ?a else ?c) (RBit b)] => destruct ((if cf_json cf then a else c) (RBit b)) as [r [u|e|q|]] end.
    - destruct K as [[b' ->] K]. split; [|exact K]. repeat split; auto. cbn. eauto.
    - exact HL.
    - split; [exact K|exact HL].
    - split; [exact K|exact HL].
  Qed.
  Lemma column_fit vn : node_ok vn -> forall ts vs k, length ts = length vs -> Forall (fun t => length t = k) ts -> Forall cells_ok ts ->
    exists ts', add_column vn ts vs = Ok ts' /\ length ts' = length ts /\ Forall (fun t => length t = S k) ts' /\ Forall cells_ok ts' /\
      (Forall comparable vs -> Forall (fun t => exists c, nth_error t k = Some c /\ comparable (c_val c)) ts').
  Proof.
    intros Hv. induction ts as [|t ts IH]; intros [|v vs] k Hl Hf Ho; try discriminate; cbn [add_column].
    - exists []. repeat split; auto.
    - injection Hl as Hl. inversion Hf; subst. inversion Ho; subst. destruct (IH vs _ Hl ltac:(eassumption) ltac:(eassumption)) as (ts' & -> & E1 & E2 & E4 & E3). cbn [rbind].
      eexists. split; [reflexivity|]. cbn [length]. rewrite E1. split; [reflexivity|]. split; [|split].
      + constructor; [|exact E2]. rewrite app_length. cbn. lia.
      + constructor; [|exact E4]. apply Forall_app. split; [assumption|]. constructor; [exact Hv|constructor].
      + intros Hc. inversion Hc; subst. constructor; [|auto]. exists (mkCell vn v). split; [|assumption].
        rewrite nth_error_app2 by lia. now rewrite Nat.sub_diag.
  Qed.
  (** The last cells exist and, if that matters, can be compared. *)
  Definition last_fit (s : vst) : Prop :=
    match v_cells s with
    | UCells l => l <> []
    | CCells ts => exists k, Forall (fun t => exists c, length t = S k /\ nth_error t k = Some c /\ (A PCompare \/ comparable (c_val c))) ts
    end.
  Definition desc_ok (d : descriptor) : Prop := forall e, d_entry d = EB e -> entry_ok e.
  Lemma my_add_valued st k d info u : desc_ok d -> unpacked' info u ->
    may (fit st k) st (add_valued d info u) (fun v s => fit st k s /\ ((columns = true -> A PCompare \/ pi_unit info <> STRING) -> last_fit s)).
  Proof.
    intros Hd Hu s Hs. pose proof Hs as (H1 & H2 & H3 & H4 & H5 & H6 & H7).
    pose proof (fit_left _ _ _ Hs) as HF. destruct (rows_len _ H2) as [[z HL]|[HL HA]]; (unfold add_valued; unfold bind at 1; unfold Len at 1; rewrite HL); [|auto]. unfold bind at 1. cbn [gets].
    cbv beta iota. unfold bind at 1. cbn [alloc]. cbv beta iota zeta. unfold bind at 1. cbn [tree_Add bind gets AddMember modify].
    cbv beta iota. unfold bind at 1. cbn [gets]. cbv beta iota. cbn [set_tree v_cells].
    set (vn := mkVnode _ _ _ _ _ _). assert (Hvn : node_ok vn) by exact Hd.
    destruct (v_cells s) as [l|ts] eqn:Ec; destruct u as [v|c]; cbn [unpacked' rows] in *.
    - unfold bind, modify, ret. cbv beta iota. split.
      + unfold fit in *. rewrite Ec in *. cbn in *. repeat split; try tauto. apply Forall_app. split; [tauto|]. constructor; [exact Hvn|constructor].
      + intros _. unfold last_fit. cbn. destruct l; discriminate.
    - destruct Hu, H2; congruence.
    - destruct H2; congruence.
    - destruct Hu as (Hc & Hv & Hcmp). destruct H2 as (_ & Hl & (k0 & Hk0) & Hcl).
      destruct (column_fit vn Hvn ts (cv_vals c) k0 ltac:(congruence) Hk0 Hcl) as (ts' & E & E1 & E2 & E4 & E3).
      unfold bind, lift_res, modify, ret. cbv beta iota. rewrite E. split.
      + unfold fit in *. cbn. repeat split; auto; try tauto. congruence. eauto.
      + intros Hu. unfold last_fit. cbn. exists k0. rewrite Forall_forall in *. intros t Ht. specialize (E2 t Ht).
        destruct (Hu Hc) as [HA|HA].
        * destruct (nth_error t k0) as [x|] eqn:Ex; [eauto|]. apply nth_error_None in Ex. lia.
        * destruct (proj1 (Forall_forall _ _) (E3 (Hcmp HA)) t Ht) as (x & Ex & Hx). eauto.
  Qed.
  Lemma my_need P st (d : descriptor) X (f : descriptor -> M vst X) Q : may P st (f d) Q -> may P st (bind (need (Some d)) f) Q.
  Proof. intros K. exact K. Qed.
  Lemma my_build st k d info : desc_ok d -> readable' info ->
    may (fit st k) st (buildValuedNodeWithInfo cf d info) (fun _ s => fit st k s /\ ((columns = true -> A PCompare \/ pi_unit info <> STRING) -> last_fit s)).
  Proof.
    intros Hd Hr. unfold buildValuedNodeWithInfo. eapply my_bind; [apply my_wrap, my_unpack, Hr|]. intros u s [Hs Hu].
    exact (my_add_valued st k d info u Hd Hu s Hs).
  Qed.
  Lemma my_build' st k d info : desc_ok d -> readable' info -> may (fit st k) st (buildValuedNodeWithInfo cf d info) (fun _ => fit st k).
  Proof. intros Hd Hr. eapply my_weaken; [apply (my_build st k d info Hd Hr)|auto|]. intros ? ? [? _]. assumption. Qed.
  Lemma my_calc st k d e : d_entry d = EB e -> entry_ok e ->
    may (fit st k) st (calcPackingInfo d) (fun i s => fit st k s /\ (readable' i /\ pi_unit i <> CODE /\ pi_unit i <> BINARY) /\ pi_unit i = be_unit e).
  Proof.
    intros He [Hb Hu] s Hs. pose proof Hs as (_ & _ & H3 & H4 & _). unfold calcPackingInfo. rewrite He. unfold bind at 1. cbn [gets]. cbv beta iota.
    unfold readable'. destruct (be_unit e) eqn:Eu; cbn in Hu; try (exfalso; clear - Hu; intuition discriminate).
    - unfold bind. rewrite H3. cbn. split; [exact Hs|]. repeat split; intros; discriminate.
    - cbn. split; [exact Hs|]. repeat split; intros; try discriminate. destruct (negb _); auto.
    - cbn. split; [exact Hs|]. repeat split; intros; discriminate.
    - cbn. split; [exact Hs|]. repeat split; intros; discriminate.
  Qed.
  Lemma desc_entry d e : d_entry d = EB e -> entry_ok e -> desc_ok d.
  Proof. intros E K e' E'. congruence. Qed.
  Lemma my_valued st k d e : d_entry d = EB e -> entry_ok e ->
    may (fit st k) st (buildValuedNode cf d) (fun _ s => fit st k s /\ ((columns = true -> A PCompare \/ be_unit e <> STRING) -> last_fit s)).
  Proof.
    intros He Ho. unfold buildValuedNode. eapply my_bind; [apply my_wrap; eapply my_calc; eauto|]. intros i s (Hs & (Hr & _) & Hu).
    rewrite <- Hu. exact (my_build st k d i (desc_entry _ _ He Ho) Hr s Hs).
  Qed.
  Lemma readable_other u w : u <> STRING -> u <> CODE -> u <> BINARY -> readable' (plain_info u w).
  Proof. intros. repeat split; cbn; congruence. Qed.
  Lemma my_element st k d e : d_entry d = EB e -> entry_ok e ->
    may (fit st k) st (visit_element cf false (Some d)) (fun _ s => fit st k s /\ ((columns = true -> A PCompare \/ be_unit e <> STRING) -> last_fit s)).
  Proof.
    intros He Ho. unfold visit_element. apply my_need. eapply my_bind with (R := fun _ => fit st k).
    - apply my_wrap. unfold buildAssocNodes. eapply my_bind; [apply my_gets|]. intros g.
      eapply my_weaken with (P' := fit st k) (Q' := fun _ => fit st k); [|tauto|auto].
      destruct (_ =? _); [now apply my_ret|]. apply my_mapM'. intros p _. eapply my_bind with (R := fun _ => fit st k).
      + apply my_wrap, my_build'; [intros e'; cbn; intros E; rewrite E in He; injection He as ->; exact Ho|apply readable_other; discriminate].
      + intros vn. eapply my_bind; [apply (my_member st k)|]. intros ?. now apply my_ret.
    - intros an. eapply my_bind; [apply my_wrap; eapply my_valued; eauto|]. intros vn. apply my_mapM. intros a _ s [Hs Hl].
      pose proof (my_member st k (vn_id vn) (Some (vn_id a)) s Hs) as K. cbn in *. split; [exact K|]. intros L. apply Hl, L.
  Qed.
  Lemma my_031021 st k d e : d_entry d = EB e -> entry_ok e ->
    may (fit st k) st (visit_031021 cf (Some d)) (fun _ s => fit st k s /\ ((columns = true -> A PCompare \/ be_unit e <> STRING) -> last_fit s)).
  Proof.
    intros He Ho. unfold visit_031021. apply my_need. eapply my_bind; [apply my_wrap; eapply my_valued; eauto|]. intros vn s [Hs Hl].
    unfold assoc_SetNode, upd_regs, modify. cbv beta iota. split; [|exact Hl].
    destruct Hs as (H1 & H2 & H3 & H4 & H5 & H6 & H7). destruct (g_assoc (v_regs s)) as [|p l] eqn:Ea.
    - repeat split; auto. cbn [v_regs set_regs]. rewrite Ea. exact H5.
    - repeat split; auto. cbn [v_regs set_regs set_assoc g_assoc]. destruct H5 as [H5|H5]; [auto|right]. rewrite app_length.
      rewrite (app_removelast_last (0, None) (l := p :: l)) in H5 by discriminate. rewrite app_length in H5. exact H5.
  Qed.
  Lemma my_zero st k d : desc_ok d -> may (fit st k) st (buildZeroNode cf (Some d)) (fun _ => fit st k).
  Proof.
    intros Hd s Hs. unfold buildZeroNode. destruct (cf_compatible cf); [|exact (my_valueless st k (Some d) s Hs)].
    assert (Hr : readable' (plain_info NONNEG_CODE 0)) by (apply readable_other; discriminate).
    pose proof (my_build' st k d _ Hd Hr s Hs) as K. cbn [need]. unfold bind at 1. cbn [ret].
    (* the unpacking of nothing does not fail *)
    assert (E : forall s' e, buildValuedNodeWithInfo cf d (plain_info NONNEG_CODE 0) s <> (s', Err e)).
    { intros s' e E. unfold buildValuedNodeWithInfo in E. unfold bind in E at 1. unfold wrap in E.
      pose proof (my_unpack st k _ Hr s Hs) as U. destruct (Unpack cf (plain_info NONNEG_CODE 0) s) as [s1 [u|e1|q|]] eqn:EU.
      - destruct U as [U1 U2]. revert E. unfold add_valued. destruct U1 as (_ & R & _). destruct (rows_len _ R) as [[z HL]|[HL HA]]; unfold bind at 1; unfold Len at 1; rewrite HL; [|discriminate]. unfold bind at 1. cbn [gets].
        cbv beta iota. unfold bind at 1. cbn [alloc]. cbv beta iota zeta. unfold bind at 1. cbn [tree_Add bind gets AddMember modify].
        cbv beta iota. unfold bind at 1. cbn [gets]. cbv beta iota. cbn [set_tree v_cells]. set (vn := mkVnode _ _ _ _ _ _).
        destruct (v_cells s1) as [l|ts], u as [v|c]; try discriminate. unfold bind, lift_res, modify, ret.
        assert (C : forall ts vs e, add_column vn ts vs <> Err e).
        { clear. induction ts as [|t ts IH]; intros [|v vs] e; try discriminate. cbn [add_column]. specialize (IH vs). destruct (add_column vn ts vs); cbn [rbind]; try discriminate. exfalso. eapply IH. reflexivity. }
        destruct (add_column vn ts (cv_vals c)) eqn:EC; try discriminate. now apply C in EC.
      - clear - EU Hj Hn. unfold Unpack, zoom in EU. rewrite Hj in EU. revert EU. fold columns. destruct columns eqn:Ec.
        + unfold compressed_Unpack, make_values. cbn. assert (cf_nsubsets cf <? 0 = false) as -> by (specialize (Hn eq_refl); lia). discriminate.
        + discriminate.
      - discriminate.
      - discriminate. }
    destruct (buildValuedNodeWithInfo cf d (plain_info NONNEG_CODE 0) s) as [s' [v|e|p|]]; auto. exfalso. eapply E. reflexivity.
  Qed.
  Lemma my_len {X} st k (f : Z -> M vst X) Q : (forall z, may (fit st k) st (f z) Q) -> may (fit st k) st (bind Len f) Q.
  Proof.
    intros K s Hs. unfold bind, Len. pose proof Hs as (_ & R & _). pose proof (fit_left _ _ _ Hs). destruct (rows_len _ R) as [[z ->]|[-> HA]]; [apply K, Hs|auto].
  Qed.
  Lemma my_regs st k j f : (forall g, g_newRefvals g = None -> 0 <= g_nbitsString g -> (A PIndex \/ (k <= length (g_assoc g))%nat) ->
      g_newRefvals (f g) = None /\ 0 <= g_nbitsString (f g) /\ (A PIndex \/ (j <= length (g_assoc (f g)))%nat)) ->
    may (fit st k) st (upd_regs f) (fun _ => fit st j).
  Proof.
    intros K. apply my_modify. intros s (H1 & H2 & H3 & H4 & H5 & H6 & H7). destruct (K _ H3 H4 H5) as (? & ? & ?). repeat split; auto.
  Qed.
  Lemma my_last_equal st k : may (fun s => fit st k s /\ last_fit s) st LastCellEquality (fun _ s => fit st k s /\ last_fit s).
  Proof.
    intros s [Hs Hl]. unfold LastCellEquality. pose proof (fit_left _ _ _ Hs) as HL.
    assert (K : match cells_LastCellEquality (v_cells s) with Ok _ => True | Panic PCompare => A PCompare | Panic PIndex => A PIndex | _ => False end).
    { destruct Hs as (_ & H2 & _). unfold last_fit in Hl. destruct (v_cells s) as [l|ts]; [exact I|]. cbn [rows] in H2.
      destruct H2 as (Hc & Hlen & _). destruct Hl as (k0 & Hk). destruct ts as [|t ts]; [destruct Hz as [HA|HA]; [exact HA|]; specialize (HA Hc); cbn in Hlen; unfold n in Hlen; lia|].
      cbn [cells_LastCellEquality]. cbv zeta. inversion Hk as [|? ? (c & E1 & E2 & E3) Hk']; subst. rewrite E1.
      assert (G : forall (t : list cell) c, nth_error t k0 = Some c -> go_nth t (Z.of_nat (S k0) - 1) = Ok c).
      { intros t0 c0 E. unfold go_nth. replace (Z.of_nat (S k0) - 1) with (Z.of_nat k0) by lia. assert (Z.of_nat k0 <? 0 = false) as -> by lia. rewrite Nat2Z.id, E. reflexivity. }
      rewrite (G _ _ E2). cbn [rbind]. clear - G E3 Hk'. induction Hk' as [|t' ts (c' & E1 & E2 & E4) _ IH]; cbn [last_equal]; [exact I|].
      rewrite (G _ _ E2). cbn [rbind]. assert (V : match value_eq (c_val c) (c_val c') with Ok _ => True | Panic PCompare => A PCompare | _ => False end).
      { unfold comparable in *. destruct (c_val c) as [| | | |b1|b1], (c_val c') as [| | | |b2|b2]; cbn; auto; try (destruct b1; exact I).
        - destruct E3 as [E3|E3]; [exact E3|]. exfalso. eapply (proj1 E3). reflexivity.
        - destruct b1, b2; exact I. }
      destruct (value_eq _ _) as [[|]|e|[]|]; cbn [rbind]; auto; contradiction. }
    destruct (cells_LastCellEquality _) as [b|e|[]|]; auto; contradiction.
  Qed.
  Lemma my_factor {X} st k (f : cell -> M vst X) Q : (forall c, may (fit st k) st (f c) Q) ->
    may (fun s => fit st k s /\ last_fit s) st (len <- Len ;; c <- CellAt (len - 1) ;; f c)%M Q.
  Proof.
    intros K s [Hs Hl]. unfold bind, Len, CellAt. unfold last_fit in Hl. pose proof Hs as (_ & H2 & _).
    destruct (v_cells s) as [l|ts] eqn:Ec; cbn [cells_Len cells_Cell].
    - unfold go_nth. destruct l as [|c l]; [congruence|]. assert (Z.of_nat (length (c :: l)) - 1 <? 0 = false) as -> by (cbn [length]; lia).
      destruct (nth_error (c :: l) _) eqn:E; [apply K, Hs|]. apply nth_error_None in E. cbn [length] in E. lia.
    - destruct ts as [|t ts]; [pose proof (fit_left _ _ _ Hs) as HF; destruct Hz as [HA|HA]; [cbn; auto|]; destruct H2 as (Hc & Hlen & _); specialize (HA Hc); cbn in Hlen; unfold n in Hlen; lia|].
      destruct Hl as (k0 & Hk). inversion Hk as [|? ? (c & E1 & E2 & E3) Hk']; subst. cbn [cells_Len cells_Cell]. rewrite E1. unfold go_nth.
      replace (Z.of_nat (S k0) - 1) with (Z.of_nat k0) by lia. assert (Z.of_nat k0 <? 0 = false) as -> by lia. rewrite Nat2Z.id, E2. apply K, Hs.
  Qed.
  (** Results of looking into the cells. *)
  Definition looked {X} (B : panic -> Prop) (r : res X) (Q : X -> Prop) : Prop :=
    match r with Ok a => Q a | Err _ => True | Panic p => B p | NoFuel => False end.
  Lemma my_lift {X} st k (r : res X) Q : looked A r Q -> may (fit st k) st (lift_res r) (fun a s => fit st k s /\ Q a).
  Proof.
    intros K s Hs. unfold lift_res. pose proof (fit_left _ _ _ Hs). destruct r; cbn in *; auto. contradiction.
  Qed.
  Lemma nth_looked {X} (l : list X) i : A PIndex -> looked A (go_nth l i) (fun x => In x l).
  Proof.
    intros HA. unfold go_nth. destruct (i <? 0); [exact HA|]. destruct (nth_error l (Z.to_nat i)) eqn:E; [|exact HA]. eapply nth_error_In; eauto.
  Qed.
  Lemma cell_looked c i : A PIndex -> rows c -> looked A (cells_Cell c i) (fun x => node_ok (c_node x)).
  Proof.
    intros HA Hr. destruct c as [l|[|t ts]]; cbn [cells_Cell rows] in *.
    - pose proof (nth_looked l i HA) as K. unfold looked in *. destruct (go_nth l i); auto. destruct Hr as [_ Hr]. unfold cells_ok in Hr. rewrite Forall_forall in Hr. auto.
    - exact HA.
    - pose proof (nth_looked t i HA) as K. unfold looked in *. destruct (go_nth t i); auto. destruct Hr as (_ & _ & _ & Hr). inversion Hr as [|? ? Ht _]; subst. unfold cells_ok in Ht. rewrite Forall_forall in Ht. auto.
  Qed.
  Lemma rb_looked {X Y} (r : res X) (f : X -> res Y) P Q : looked A r P -> (forall a, P a -> looked A (f a) Q) -> looked A (rbind r f) Q.
  Proof. intros K L. destruct r; cbn in *; auto. Qed.
  Lemma cell_nodes_looked c w : A PIndex -> rows c -> forall i, looked A (cell_nodes c i w) (fun _ => True).
  Proof.
    intros HA Hr. induction w as [|w IH]; intros i; cbn [cell_nodes]; [exact I|]. eapply rb_looked; [apply cell_looked; auto|]. intros x _.
    eapply rb_looked; [apply IH|]. intros l _. exact I.
  Qed.
  Lemma bits_looked pl c w : A PIndex -> rows c -> forall i, looked A (read_bits pl c i w) (fun _ => True).
  Proof.
    intros HA Hr. induction w as [|w IH]; intros i; cbn [read_bits]; [exact I|]. eapply rb_looked; [apply cell_looked; auto|]. intros x _.
    destruct (UintValue pl (c_val x)) as [b|e|p|] eqn:E; cbn; auto; [|destruct (c_val x); discriminate|destruct (c_val x); discriminate].
    eapply rb_looked; [apply IH|]. intros l _. exact I.
  Qed.
  Lemma collect_looked c want : A PIndex -> rows c -> forall i acc, Forall node_ok acc -> looked A (collect_nodes c i want acc) (Forall node_ok).
  Proof.
    intros HA Hr. induction i as [|i IH]; intros acc Hacc; cbn [collect_nodes]; [exact Hacc|]. eapply rb_looked; [apply cell_looked; auto|]. intros x Hx. cbv zeta.
    destruct (_ <? _)%nat; [apply IH; auto|]. cbn. auto.
  Qed.
  Lemma select_ok : forall bits nodes, Forall node_ok nodes -> Forall node_ok (select_zero bits nodes).
  Proof. induction bits as [|b bits IH]; intros [|x nodes] K; cbn [select_zero]; auto. inversion K; subst. destruct (_ =? 0); auto. Qed.
  Lemma my_since st k a0 : A PIndex -> A PMake -> may (fit st k) st (nodes_since a0) (fun _ => fit st k).
  Proof.
    intros HA HM. unfold nodes_since. apply my_len. intros a1. destruct (_ <? 0); [now apply my_throw|]. intros s Hs. unfold bind. cbn [gets].
    pose proof Hs as (_ & R & _). pose proof (my_lift st k _ _ (cell_nodes_looked _ (Z.to_nat (a1 - a0)) HA R a0) s Hs) as K.
    cbv beta iota. destruct (lift_res _ s) as [s' [l|e|p|]]; auto. destruct K; assumption.
  Qed.
  Lemma my_targets st k : A PIndex -> A PMake -> A PNil -> may (fit st k) st (InitTargetNodes (cf_plat cf)) (fun _ => fit st k).
  Proof.
    intros HA HM HN. unfold InitTargetNodes. eapply my_bind with (R := fun _ => fit st k).
    - intros s Hs. unfold Bits, bind. cbn [gets]. cbv beta iota. pose proof (fit_left _ _ _ Hs) as HL. destruct (m_current _) as [i|]; [|cbn; auto].
      destruct (nth_error _ i) as [[i0 i1]|]; [|cbn; auto]. destruct (_ <? 0); [cbn; auto|]. pose proof Hs as (_ & R & _).
      pose proof (my_lift st k _ _ (bits_looked (cf_plat cf) _ (Z.to_nat (i1 - i0)) HA R i0) s Hs) as K. destruct (lift_res _ s) as [s' [l|e|p|]]; auto. destruct K; assumption.
    - intros bits s Hs. unfold bind at 1. cbn [gets]. cbv beta iota. unfold bind at 1. cbn [gets]. cbv beta iota. pose proof Hs as (_ & R & _).
      revert s Hs R. intros s Hs R.
      pose proof (my_lift st k _ _ (collect_looked _ (length bits) HA R (Z.to_nat (m_backref1 (v_bm s) + 1)) [] ltac:(constructor)) s Hs) as K. unfold bind at 1.
      destruct (lift_res (collect_nodes _ _ _ _) s) as [s' [l|e|p|]] eqn:E; auto.
      unfold lift_res in E. destruct (collect_nodes _ _ _ _); try discriminate E. injection E as <- ->.
      destruct K as [K1 K2]. destruct (negb _); [exact (fit_left _ _ _ Hs)|]. unfold bind, modify, ret. cbv beta iota zeta.
      destruct K1 as (H1 & H2 & H3 & H4 & H5 & H6 & H7). repeat split; auto. cbn. now apply select_ok.
  Qed.
  Lemma my_attach st k anodes targets : A PIndex -> forall snodes i, may (fit st k) st (attach i targets snodes anodes) (fun _ => fit st k).
  Proof.
    intros HA. induction snodes as [|sn snodes IH]; intros i; cbn [attach]; [now apply my_ret|].
    eapply my_bind with (R := fun _ => fit st k).
    - eapply my_weaken; [apply (my_lift st k _ _ (nth_looked targets i HA))|auto|]. cbv beta. tauto.
    - intros t. eapply my_bind; [apply (my_member st k)|]. intros ?. cbv beta. eapply my_bind; [apply my_mapM; intros x _; apply (my_member st k)|]. intros ?. apply IH.
  Qed.
  Lemma my_marker st k d : desc_ok d -> A PIndex -> A PType -> may (fit st k) st (visit_marker cf (Some d)) (fun _ => fit st k).
  Proof.
    intros Hd HA HT. unfold visit_marker. eapply my_bind with (R := fun t s => fit st k s /\ node_ok t).
    - intros s Hs. unfold NextTargetNode. pose proof (fit_left _ _ _ Hs). destruct Hs as (H1 & H2 & H3 & H4 & H5 & H6 & H7). destruct (m_targets (v_bm s)) as [|t ts]; [cbn; auto|].
      inversion H7; subst. split; [|assumption]. repeat split; auto.
    - intros t. eapply my_bind with (R := fun i s => fit st k s /\ readable' i /\ pi_unit i <> CODE /\ pi_unit i <> BINARY).
      + intros s [Hs Ht]. destruct (d_entry (vn_desc t)) as [e| | |] eqn:E.
        * pose proof (my_calc st k _ e E (Ht _ E) s Hs) as K. destruct (calcPackingInfo _ s) as [s' [i|?|?|]]; auto. tauto.
        * unfold calcPackingInfo. rewrite E. split; [exact HT|exact (fit_left _ _ _ Hs)].
        * unfold calcPackingInfo. rewrite E. split; [exact HT|exact (fit_left _ _ _ Hs)].
        * unfold calcPackingInfo. rewrite E. split; [exact HT|exact (fit_left _ _ _ Hs)].
      + intros i s (Hs & (Hr & Hc) & H1 & H2). cbv zeta. revert s Hs. apply my_need. eapply my_bind; [apply my_build'; [exact Hd|]|intros ?; now apply my_ret].
        destruct (_ =? 225); [|split; auto]. split; cbn; [intros E; specialize (Hr E); lia|]. intros _. split; intros; contradiction.
  Qed.

  (** What is known of every node of the tree. *)
  Definition may_node (m : anode) : Prop :=
    match an_desc m with
    | None => an_kind m = KBitmap /\ A PNil
    | Some d =>
        desc_ok d /\ (an_kind m = KAssocField <-> d_id d / 1000 = 204) /\
        (A PIndex \/ closes_opened 0 (an_members m)) /\
        match an_kind m with
        | KBase => False
        | KElement np => np = false /\ exists e, d_entry d = EB e
        | KE031021 => exists e, d_entry d = EB e
        | KAssocField => id_Y (d_id d) = d_id d mod 1000
        | KInsertString | KSetStringLength => 0 <= id_Y (d_id d)
        | KDelayed => A PIndex /\ (columns = true -> A PCompare) \/
            exists x rest fd e, an_members m = x :: rest /\ (an_kind x = KElement false \/ an_kind x = KE031021) /\
              an_desc x = Some fd /\ d_entry fd = EB e /\ d_id fd / 1000 <> 204 /\ (columns = true -> A PCompare \/ be_unit e <> STRING)
        | KNewRefval => id_Operand (d_id d) <> 255 -> A PNilMap /\ (columns = true -> A PType)
        | KSkipLocal => (columns = true -> H) /\ an_members m <> []
        | KAssessment => A PIndex /\ A PNil /\ A PMake /\ an_bitmap m <> None
        | KMarker => A PIndex /\ A PType
        | KBitmap => d_id d = ID_237000 \/ A PNil
        | _ => True
        end
    end.
  Definition closable' (m : anode) (k : nat) : Prop := A PIndex \/ closable m k.
  Definition visit_may (m : anode) : Prop := all_nodes may_node m -> forall st k, closable' m k ->
    may (fit st k) st (visit cf m) (fun _ => fit st (after m k)).
  Lemma my_list ms : Forall visit_may ms -> Forall (all_nodes may_node) ms -> forall st j k, (A PIndex \/ closes_opened j ms) -> (A PIndex \/ (j <= k)%nat) ->
    may (fit st k) st (mapM_ (visit cf) ms) (fun _ => fit st (k - j)).
  Proof.
    intros Hv Hs st. induction ms as [|m ms IH]; intros j k Hc Hjk; cbn [mapM_].
    - apply my_ret. intros s. apply fit_less. right. lia.
    - inversion Hv; subst. inversion Hs; subst.
      assert (K : closable' m k /\ exists j', (A PIndex \/ closes_opened j' ms) /\ (A PIndex \/ (j' <= after m k)%nat) /\ (A PIndex \/ (k - j <= after m k - j')%nat)).
      { destruct Hc as [Hc|Hc]; [split; [now left|exists 0%nat; auto]|]. destruct Hjk as [Hjk|Hjk]; [split; [now left|exists 0%nat; auto]|].
        cbn [closes_opened] in Hc. unfold closable', closable, after. destruct (an_desc m) as [d|]; [|split; [now right|]; exists j; auto].
        destruct (d_id d / 1000 =? 204) eqn:E1; [|split; [right; lia|]; exists j; auto].
        destruct (d_id d mod 1000 =? 0) eqn:E2.
        - destruct Hc. split; [right; lia|]. exists (pred j). repeat split; auto; right; lia.
        - split; [right; lia|]. exists (S j). repeat split; auto; right; lia. }
      destruct K as (Hcl & j' & Hj' & Hle & Hd). eapply my_bind; [apply H2; auto|]. intros ?. cbv beta.
      eapply my_weaken; [apply (IH H3 H5 j' (after m k) Hj' Hle)|auto|]. intros ? s. cbv beta. apply fit_less. exact Hd.
  Qed.
  Lemma my_open st k k' nk (m : M vst unit) : (forall st', may (fit st' k) st' m (fun _ => fit st' k')) ->
    may (fit st k) st ((i <- alloc nk ;; tree_Push i) ;; deferM tree_Pop m)%M (fun _ => fit st k').
  Proof.
    intros K s Hs. rewrite bind_assoc. revert s Hs. change (may (fit st k) st (i <- alloc nk ;; tree_Push i ;; deferM tree_Pop m)%M (fun _ => fit st k')).
    eapply my_bind; [apply (my_alloc st k)|]. intros i. cbv beta. apply my_scope, K.
  Qed.
  Lemma my_bitmap st k d ms : desc_ok d -> (d_id d = ID_237000 \/ A PNil) -> (forall st k, may (fit st k) st (mapM_ (visit cf) ms) (fun _ => fit st k)) ->
    may (fit st k) st (buildZeroNode cf (Some d) ;; d <- need (Some d) ;; if d_id d =? ID_237000 then RecallBitmap else NewBitmap true ;; deferM EndBitmap (mapM_ (visit cf) ms))%M (fun _ => fit st k).
  Proof.
    intros Hd Hid Hlist. eapply my_bind; [apply (my_zero st k d Hd)|]. intros ?. cbv beta. apply my_need. destruct (d_id d =? ID_237000) eqn:E.
    - apply my_modify. intros s (H1 & H2 & H3 & H4 & H5 & H6 & H7). repeat split; auto.
    - destruct Hid as [Hid|HN]; [lia|]. eapply my_bind with (R := fun _ => fit st k).
      + unfold NewBitmap. apply my_len. intros z s Hs. unfold bind. cbn. destruct Hs as (H1 & H2 & H3 & H4 & H5 & H6 & H7). repeat split; auto.
      + intros ?. cbv beta. intros s Hs. unfold deferM. specialize (Hlist st k s Hs).
        assert (EB : forall s', left_as st s' -> match EndBitmap s' with
            | (s2, Ok _) => left_as st s2 /\ (fit st k s' -> fit st k s2)
            | (s2, Panic p) => A p /\ left_as st s2 | _ => False end).
        { intros s' [L1 L2]. unfold EndBitmap, bind. cbn [gets]. cbv beta iota. destruct (m_current _); [|cbn; split; [exact HN|split; eauto]].
          unfold Len. pose proof L2 as [[z ->]|[-> HX]]; [|split; [exact HX|split; [exact L1|exact L2]]]. cbv beta iota. split; [split; cbn; eauto|]. intros (H1 & H2 & H3 & H4 & H5 & H6 & H7). repeat split; auto. }
        destruct (mapM_ (visit cf) ms s) as [s' [?|?|?|]].
        * specialize (EB s' (fit_left _ _ _ Hlist)). destruct (EndBitmap s') as [s2 [x|e|p|]]; auto; try contradiction. destruct EB as [_ EB]. auto.
        * specialize (EB s' Hlist). destruct (EndBitmap s') as [s2 [x|e'|p|]]; auto; try contradiction. tauto.
        * destruct Hlist as [HA HL]. specialize (EB s' HL). destruct (EndBitmap s') as [s2 [x|e'|p'|]]; auto; try contradiction. tauto.
        * destruct Hlist as [HA HL]. specialize (EB s' HL). destruct (EndBitmap s') as [s2 [x|e'|p'|]]; auto; try contradiction. tauto.
  Qed.
  Lemma my_block ms : Forall visit_may ms -> Forall (all_nodes may_node) ms -> (A PIndex \/ closes_opened 0 ms) -> forall st k,
    may (fit st k) st (b <- alloc NBlock ;; tree_Push b ;; deferM tree_Pop (wrap "cannot process replicated block" (mapM_ (visit cf) ms)))%M (fun _ => fit st k).
  Proof.
    intros Hv Hs Hc st k. eapply my_bind; [apply (my_alloc st k)|]. intros b. cbv beta. apply my_scope. intros st'. apply my_wrap.
    eapply my_weaken; [apply (my_list ms Hv Hs st' 0 k Hc); right; lia|auto|]. intros ? s. cbv beta. apply fit_less. right. lia.
  Qed.
  Lemma after_le m k : A PIndex -> forall st s, fit st (after m k) s -> fit st k s.
  Proof. intros HA st s. apply fit_less. now left. Qed.
  Lemma visit_is_may m : visit_may m.
  Proof.
    induction m as [kd od ms bm at_ Hms Hbm Hat] using anode_full_ind. intros Ha st k Hcl. apply all_nodes_eq in Ha.
    destruct Ha as (Hk & Hams & Habm & Haat). unfold may_node in Hk. cbn [an_desc an_members an_kind an_bitmap] in Hk.
    destruct od as [d|]; [|destruct Hk as [-> HN]; cbn [visit after an_desc]; intros s Hs; unfold bind; cbn; split; [exact HN|]; eapply fit_left; eauto].
    destruct Hk as (Hd & H204 & Hco & Hk).
    assert (Hno : kd <> KAssocField -> after (ANode kd (Some d) ms bm at_) k = k) by (intros L; unfold after; cbn [an_desc]; destruct (d_id d / 1000 =? 204) eqn:E4; [exfalso; apply L, H204; lia|auto]).
    assert (Hlist : forall st k, may (fit st k) st (mapM_ (visit cf) ms) (fun _ => fit st k)).
    { intros st' k'. eapply my_weaken; [apply (my_list ms Hms Hams st' 0 k' Hco); right; lia|auto|]. intros ? s. cbv beta. apply fit_less. right. lia. }
    destruct kd; try contradiction; try rewrite Hno by discriminate; cbn [visit].
    - destruct Hk as [-> (e & He)]. eapply my_weaken; [apply (my_element st k d e He (Hd e He))|auto|]. intros ? ? [? _]. assumption.
    - destruct Hk as (e & He). eapply my_weaken; [apply (my_031021 st k d e He (Hd e He))|auto|]. intros ? ? [? _]. assumption.
    - apply my_open. intros st'. apply my_wrap, Hlist.
    - apply my_open. intros st'. apply my_need. apply my_iter, my_wrap, my_block; auto.
    - apply my_open. intros st'. destruct Hk as [[HI HC]|(m0 & rest & fd & e & -> & Hkm & Hdm & Hem & Hf & Hu)].
      + destruct ms as [|m0 rest]; [now apply my_throw|]. inversion Hms as [|? ? Hm0 Hrest]; subst. inversion Hams as [|? ? Ham0 Harest]; subst.
        eapply my_bind with (R := fun _ => fit st' k). { apply my_wrap. eapply my_weaken; [apply (Hm0 Ham0 st' k); now left|auto|]. intros ? s. cbv beta. apply fit_less. now left. }
        intros ?. cbv beta. eapply my_bind with (R := fun _ => fit st' k).
        * intros s Hs. unfold LastCellEquality. pose proof (fit_left _ _ _ Hs) as HL.
          assert (K : match cells_LastCellEquality (v_cells s) with Ok _ => True | Panic p => A p | _ => False end).
          { destruct Hs as (_ & R & _). destruct (v_cells s) as [l|[|t ts]]; cbn [cells_LastCellEquality rows] in *; auto. destruct R as [R _]. specialize (HC R). clear R. cbv zeta. generalize (Z.of_nat (length t) - 1). intros i.
            unfold go_nth at 1. destruct (i <? 0); [exact HI|]. destruct (nth_error t _) as [c|]; [|exact HI]. cbn [rbind]. clear - HI HC. induction ts as [|t ts IH]; cbn [last_equal]; [exact I|].
            unfold go_nth at 1. destruct (i <? 0); [exact HI|]. destruct (nth_error t _) as [c'|]; [|exact HI]. cbn [rbind].
            assert (V : match value_eq (c_val c) (c_val c') with Ok _ => True | Panic p => p = PCompare | _ => False end).
            { destruct (c_val c) as [| | | |b1|b1], (c_val c') as [| | | |b2|b2]; cbn; auto; destruct b1; auto; destruct b2; auto. }
            destruct (value_eq _ _) as [[|]|x|p|]; cbn [rbind]; auto. now subst p. }
          destruct (cells_LastCellEquality _) as [b|x|p|]; auto; contradiction.
        * intros eq. destruct (negb eq); [intros s Hs; exact (fit_left _ _ _ Hs)|]. apply my_len. intros len. eapply my_bind with (R := fun _ => fit st' k).
          -- intros s Hs. unfold CellAt. pose proof Hs as (_ & R & _). pose proof (cell_looked _ (len - 1) HI R) as K. pose proof (fit_left _ _ _ Hs) as HL. destruct (cells_Cell _ _); cbn in K; auto; contradiction.
          -- intros c. eapply my_bind with (R := fun _ => fit st' k).
             ++ apply my_wrap. intros s Hs. unfold lift_res. destruct (c_val c); cbn [UintValue]; try exact Hs; exact (fit_left _ _ _ Hs).
             ++ intros nrep. apply my_iter, my_wrap, my_block; auto.
      + inversion Hms as [|? ? _ Hrest]; subst. inversion Hams as [|? ? Hm0 Harest]; subst.
        destruct m0 as [km dm mm bm0 am]. cbn [an_kind an_desc] in *. subst dm. apply all_nodes_eq in Hm0. destruct Hm0 as (Hm0 & _). unfold may_node in Hm0.
        cbn [an_kind an_desc] in Hm0. destruct Hm0 as (Hdo & _). pose proof (Hdo e Hem) as Ho.
        assert (Hc0 : A PIndex \/ closes_opened 0 rest).
        { destruct Hco as [Hco|Hco]; [now left|right]. cbn [closes_opened an_desc] in Hco. assert (d_id fd / 1000 =? 204 = false) as E by lia. rewrite E in Hco. exact Hco. }
        eapply my_bind with (R := fun _ s => fit st' k s /\ last_fit s).
        * apply my_wrap. destruct Hkm as [-> | ->]; cbn [visit].
          -- eapply my_weaken; [apply (my_element st' k fd e Hem Ho)|auto|]. intros ? ? [? L]. auto.
          -- eapply my_weaken; [apply (my_031021 st' k fd e Hem Ho)|auto|]. intros ? ? [? L]. auto.
        * intros ?. cbv beta. eapply my_bind; [apply my_last_equal|]. intros eq. cbv beta. destruct (negb eq).
          -- intros s [Hs _]. exact (fit_left _ _ _ Hs).
          -- apply my_factor. intros c. eapply my_bind with (R := fun _ => fit st' k).
             ++ apply my_wrap. intros s Hs. unfold lift_res. destruct (c_val c); cbn [UintValue]; try exact Hs; exact (fit_left _ _ _ Hs).
             ++ intros nrep. apply my_iter, my_wrap, my_block; auto.
    - eapply my_bind; [apply (my_valueless st k)|]. intros ?. cbv beta. apply my_need. cbv zeta. apply my_regs. intros g. cbn. auto.
    - eapply my_bind; [apply (my_valueless st k)|]. intros ?. cbv beta. apply my_need. cbv zeta. apply my_regs. intros g. cbn. auto.
    - eapply my_bind; [apply (my_valueless st k)|]. intros ?. cbv beta. apply my_need. cbv zeta. destruct (negb _) eqn:E; [|now apply my_ret].
      destruct Hk as [HNM HPT]; [lia|]. apply my_mapM. intros m Hm. rewrite Forall_forall in Hams. specialize (Hams m Hm). destruct m as [km dm mm bm0 am]. apply all_nodes_eq in Hams.
      destruct Hams as (Hmn & _). unfold may_node in Hmn. cbn [an_desc an_kind] in Hmn. unfold visit_refval_member. cbn [an_desc]. destruct dm as [md|].
      + apply my_need. eapply my_bind; [apply my_wrap, my_build'; [tauto|]|].
        * split; cbn; [discriminate|]. intros Hcc. split; [auto|discriminate].
        * intros vn. cbv beta. intros s Hs. unfold bind. cbn [gets]. pose proof Hs as (_ & _ & H3 & _). cbv beta iota. rewrite H3. cbn. split; [exact HNM|]. eapply fit_left; eauto.
      + intros s Hs. unfold bind. cbn. split; [tauto|]. eapply fit_left; eauto.
    - eapply my_bind; [apply (my_valueless st k)|]. intros ?. cbv beta. apply my_need. cbv zeta.
      assert (E4 : d_id d / 1000 = 204) by tauto. unfold closable', closable in Hcl. cbn [an_desc] in Hcl. unfold after. cbn [an_desc].
      assert (d_id d / 1000 =? 204 = true) as -> by lia. rewrite Hk. eapply my_bind with (R := fun _ => fit st (if d_id d mod 1000 =? 0 then pred k else S k)).
      + destruct (_ =? 0) eqn:E.
        * intros s Hs. pose proof (fit_left _ _ _ Hs) as HL. destruct Hs as (H1 & H2 & H3 & H4 & H5 & H6 & H7). unfold assoc_Pop. destruct (g_assoc (v_regs s)) as [|x l] eqn:Ea.
          -- split; [|exact HL]. destruct Hcl as [Hcl|Hcl]; [exact Hcl|]. specialize (Hcl E4 ltac:(lia)). destruct H5 as [H5|H5]; [exact H5|]. cbn in H5. lia.
          -- repeat split; auto. cbn [v_regs set_regs set_assoc g_assoc]. destruct H5 as [H5|H5]; [now left|right].
             rewrite (app_removelast_last (0, None) (l := x :: l)) in H5 by discriminate. rewrite app_length in H5. cbn [length] in H5. lia.
        * apply my_regs. intros g. cbn. rewrite app_length. cbn. intros ? ? L. repeat split; auto. destruct L; [auto|right; lia].
      + intros ?. cbv beta. apply my_wrap, Hlist.
    - apply my_need. eapply my_bind; [apply (my_build' st k); [exact Hd|]|intros ?; now apply my_ret].
      repeat split; intros; try discriminate. cbn. unfold NBITS_PER_BYTE. lia.
    - destruct Hk as (Hk1 & Hk2). eapply my_bind; [apply (my_valueless st k)|]. intros ?. cbv beta. apply my_need. destruct ms as [|m0 rest]; [congruence|].
      inversion Hams as [|? ? Hm0 Harest]; subst. destruct m0 as [km dm mm bm0 am]. apply all_nodes_eq in Hm0. destruct Hm0 as (Hmn & _). unfold may_node in Hmn. cbn [an_desc an_kind] in Hmn. cbn [an_desc].
      destruct dm as [md|].
      + apply my_need. eapply my_bind; [apply (my_build' st k); [tauto|]|intros ?; now apply my_ret]. split; cbn; [discriminate|]. intros Hcc. split; [discriminate|auto].
      + intros s Hs. unfold bind. cbn. split; [tauto|]. eapply fit_left; eauto.
    - eapply my_bind; [apply (my_valueless st k)|]. intros ?. cbv beta. apply my_need. cbv zeta. apply my_regs. intros g. destruct (_ =? 0); cbn; auto.
    - eapply my_bind; [apply (my_valueless st k)|]. intros ?. cbv beta. apply my_need. cbv zeta. apply my_regs. intros g. cbn. unfold NBITS_PER_BYTE. repeat split; auto. lia.
    - eapply my_bind; [apply (my_valueless st k)|]. intros ?. cbv beta. apply my_wrap, Hlist.
    - destruct Hk as (HI & HN & HM & Hb). destruct bm as [bm|]; [|congruence].
      assert (Hl : forall ms, Forall visit_may ms -> Forall (all_nodes may_node) ms -> may (fit st k) st (mapM_ (visit cf) ms) (fun _ => fit st k)).
      { intros l L1 L2. eapply my_weaken; [apply (my_list l L1 L2 st 0 k); [now left|right; lia]|auto|]. intros ? s. cbv beta. apply fit_less. now left. }
      eapply my_bind with (R := fun _ => fit st k).
      { intros s Hs. unfold NewAssessment, bind. cbn [gets]. cbv beta iota. destruct (_ =? _); [|exact Hs]. unfold Len. pose proof Hs as (_ & R & _). destruct (rows_len _ R) as [[z ->]|[-> HX]]; [|split; [exact HX|exact (fit_left _ _ _ Hs)]].
        cbv beta iota. destruct Hs as (H1 & H2 & H3 & H4 & H5 & H6 & H7). repeat split; auto. }
      intros ?. cbv beta. eapply my_bind; [apply (my_zero st k d Hd)|]. intros ?. cbv beta. eapply my_bind with (R := fun _ => fit st k).
      { eapply my_weaken; [apply (Hbm Habm st k); now left|auto|]. intros ? s. cbv beta. apply fit_less. now left. }
      intros ?. cbv beta. apply my_len. intros ?. eapply my_bind; [apply my_wrap, Hl; auto|]. intros ?. cbv beta. eapply my_bind; [apply my_since; auto|]. intros an. cbv beta.
      eapply my_bind; [apply my_wrap, my_targets; auto|]. intros tg. cbv beta. apply my_len. intros ?. eapply my_bind; [apply my_wrap, Hl; auto|]. intros ?. cbv beta.
      eapply my_bind; [apply my_since; auto|]. intros sn. cbv beta. apply my_attach, HI.
    - destruct Hk as [HI HT]. apply my_marker; auto.
    - intros s Hs. unfold CancelBackref, CancelBitmap, bind, modify. destruct Hs as (H1 & H2 & H3 & H4 & H5 & H6 & H7). repeat split; auto.
    - apply my_bitmap; auto.
    - apply my_modify. intros s (H1 & H2 & H3 & H4 & H5 & H6 & H7). repeat split; auto.
  Qed.
  Lemma run_is_may ms s : Forall (all_nodes may_node) ms -> (A PIndex \/ closes_opened 0 ms) -> (exists b, v_r s = RBit b) ->
    match snd (run_payload cf (root ms) s) with Ok _ | Err _ => True | Panic p => A p | NoFuel => H end.
  Proof.
    intros Ha Hc Hs.
    set (I := fun s => exists b, v_r s = RBit b).
    set (J := fun (m : M vst unit) => forall s, I s -> match m s with (s', Ok _) => I s' | (_, Err _) => True | (_, Panic p) => A p | (_, NoFuel) => H end).
    assert (K : J (run_payload cf (root ms))).
    2:{ specialize (K s Hs). cbv beta in K. destruct (run_payload cf (root ms) s) as [s2 [[]|e|q|]]; cbn; auto; exact Logic.I. }
    unfold run_payload.
    assert (Jb : forall m1 m2, J m1 -> J m2 -> J (m1 ;; m2)%M).
    { intros m1 m2 J1 J2 s0 Hs0. unfold bind. specialize (J1 s0 Hs0). destruct (m1 s0) as [s1 [a|e|q|]]; try exact J1. exact (J2 s1 J1). }
    assert (JI : forall z m, J m -> J (iter_Z z m)).
    { intros z m Jm. unfold iter_Z. destruct z; try (intros s0 Hs0; exact Hs0). induction p as [p IH|p IH|]; cbn [iter_pos]; auto. }
    apply JI. intros s0 Hs0.
    assert (V : match visit cf (root ms) s0 with (s', Ok _) => fit [] 0 s' | (_, Err _) => True | (_, Panic p) => A p | (_, NoFuel) => H end).
    { unfold root. cbn [visit]. unfold bind at 1. destruct (reset cf s0) as [s1 [a|e|q|]] eqn:ER.
      - assert (F : fit [] 0 s1).
        { unfold reset in ER. cbv zeta in ER. rewrite Hj in ER. cbn [negb] in ER. rewrite andb_true_r in ER. revert ER. fold columns. destruct columns eqn:Ec.
          - specialize (Hn eq_refl). assert (cf_nsubsets cf <? 0 = false) as -> by lia. intros [= <-]. repeat split; auto; cbn; try lia.
            all: first [now apply repeat_length | (exists 0%nat; now apply Forall_repeat) | (apply Forall_repeat; constructor) | (right; lia) | constructor | idtac].
          - intros [= <-]. repeat split; auto; cbn; try lia; first [constructor; fail | (right; lia) | idtac]. }
        pose proof (my_list ms ltac:(apply Forall_forall; intros; apply visit_is_may) Ha [] 0 0 Hc ltac:(right; lia)) as L. apply (my_wrap _ _ "cannot process member node") in L.
        specialize (L s1 F). destruct (wrap _ _ s1) as [s2 [x|e|q|]]; try exact L; try exact Logic.I; tauto.
      - exact Logic.I.
      - unfold reset in ER. cbv zeta in ER. rewrite Hj in ER. cbn [negb] in ER. rewrite andb_true_r in ER. revert ER. fold columns. destruct columns eqn:Ec; [|discriminate].
        specialize (Hn eq_refl). assert (cf_nsubsets cf <? 0 = false) as -> by lia. discriminate.
      - unfold reset in ER. cbv zeta in ER. destruct (_ && _); [|discriminate]. destruct (_ <? 0); discriminate. }
    unfold bind. destruct (visit cf (root ms) s0) as [s1 [a|e|q|]]; auto. unfold Produce, bind, tree_Root. destruct V as (E & _ & _ & _ & _ & Hr & _). rewrite E. exact Hr.
  Qed.
End May.

(** ** The nodes of a parsed template *)
Lemma F1_range id : id_F id = 1 -> 100000 <= id < 200000.
Proof. unfold id_F. intros E. pose proof (Z.quot_rem id 100000 ltac:(lia)). pose proof (Z.rem_bound_abs id 100000 ltac:(lia)). assert (0 <= id) by lia. pose proof (Z.rem_bound_pos id 100000 ltac:(lia) ltac:(lia)). lia. Qed.
Lemma F3_range id : id_F id = 3 -> 300000 <= id < 400000.
Proof. unfold id_F. intros E. pose proof (Z.quot_rem id 100000 ltac:(lia)). pose proof (Z.rem_bound_abs id 100000 ltac:(lia)). assert (0 <= id) by lia. pose proof (Z.rem_bound_pos id 100000 ltac:(lia) ltac:(lia)). lia. Qed.
Lemma all_true m : all_nodes (fun _ => True) m.
Proof.
  induction m as [kd od ms bm at_ Hms Hb Hat] using anode_full_ind. apply all_nodes_eq. split; [exact I|]. split; [exact Hms|]. split; [destruct bm; auto|exact Hat].
Qed.
Lemma all_or (Q : Prop) (P : anode -> Prop) ms : Q \/ Forall (all_nodes P) ms -> Forall (all_nodes (fun n => Q \/ P n)) ms.
Proof.
  intros [K|K]; apply Forall_forall; intros m Hm; [eapply all_impl; [|apply all_true]; cbv beta; auto|].
  rewrite Forall_forall in K. eapply all_impl; [|apply K, Hm]. cbv beta. auto.
Qed.
Definition named (n : anode) : Prop := an_desc n <> None.
Definition no_assessment (n : anode) : Prop := an_kind n <> KAssessment.
(** Without assessments there are no bitmaps defined on the spot. *)
Lemma all_named g :
  (forall sk ids ns sk', parses g sk ids ns sk' -> Forall (all_nodes no_assessment) ns -> Forall (all_nodes named) ns) /\
  (forall sk ids n rest sk', reads g sk ids n rest sk' -> all_nodes no_assessment n -> all_nodes named n) /\
  (forall sk ids n rest sk', bitmap_reads g sk ids n rest sk' -> hd 0 ids = 236000 \/ hd 0 ids = 237000 -> all_nodes no_assessment n -> all_nodes named n).
Proof.
  assert (Hel : forall d, all_nodes named (element_node d)).
  { intros d. unfold element_node. destruct (d_id d =? 31021); apply all_nodes_eq; repeat split; auto; discriminate. }
  apply parses_mut; intros;
    try match goal with K : all_nodes _ (ANode _ _ _ _ _) |- _ => apply all_nodes_eq in K; destruct K as (K1 & K2 & K3 & K4) end;
    try (apply all_nodes_eq; repeat split; eauto; discriminate); auto.
  - inversion H3; subst. constructor; auto.
  - exfalso. apply K1. reflexivity.
  - exfalso. cbn [hd] in *. destruct H as [HF| ->]; [|lia]. destruct H4 as [-> | ->]; discriminate HF.
Qed.
Lemma documented_inv id k : documented id = Some k ->
  match k with
  | KNewRefval => id / 1000 = 203 | KAssocField => id / 1000 = 204 | KSkipLocal => id / 1000 = 206
  | KAssessment => assessment_id id = true | KMarker => marker_id id = true | KBitmap => id = 236000 \/ id = 237000
  | KInsertString => id / 1000 = 205 | KSetStringLength => id / 1000 = 208
  | KBase | KElement _ | KE031021 | KFixed | KDelayed | KSequence => False
  | _ => True
  end /\ (id / 1000 = 204 -> k = KAssocField).
Proof.
  unfold documented. pose proof (Z.div_mod id 1000 ltac:(lia)) as E. revert E. generalize (id / 1000) as x, (id mod 1000) as y. intros x y E K.
  repeat match type of K with
  | context [match ?p with _ => _ end] => is_var p; destruct p; try discriminate K
  end;
  injection K as <-; split; try discriminate; try reflexivity; try lia; try (intros; lia); try exact I;
    unfold assessment_id, marker_id; cbn [existsb]; try (right; lia); try (left; lia); try lia.
Qed.
Definition sane_node (n : anode) : Prop :=
  (forall d, an_desc n = Some d -> desc_ok d) /\
  (an_kind n = KElement false \/ an_kind n = KE031021 -> exists d e, an_desc n = Some d /\ d_entry d = EB e) /\
  (an_kind n = KAssessment -> an_bitmap n <> None).
Lemma sane_nodes g sk ids ns sk' : loaded_tables g -> parses g sk ids ns sk' -> Forall (all_nodes sane_node) ns.
Proof.
  intros Hg Hp. assert (HD : forall id d, Lookup g id = Ok d -> desc_ok d) by (intros id d HL e HE; exact (Hg _ _ _ HL HE)).
  pose proof (elements_sane _ _ _ _ _ Hg Hp) as HE.
  assert (HS : Forall (all_nodes (fun n => (forall d, an_desc n = Some d -> desc_ok d) /\ (an_kind n = KAssessment -> an_bitmap n <> None))) ns).
  { clear HE. revert sk ids ns sk' Hp. set (P := fun n => _ /\ _).
    assert (Hs : forall k d ms, k <> KAssessment -> desc_ok d -> P (ANode k (Some d) ms None [])).
    { intros k d ms Hk Hd. split; cbn [an_desc an_kind]; [intros d' [= <-]; exact Hd|contradiction]. }
    refine (proj1 (grammar_nodes g P _ _ _ _ _ _ _ _ _ _ _ _)).
    - intros id d _ HL. unfold element_node. destruct (_ =? _); apply Hs; eauto; discriminate.
    - intros id _. unfold element_node. destruct (_ =? _); apply Hs; try discriminate; intros e [= <-]; (split; cbn; [lia|tauto]).
    - intros. apply Hs; eauto; discriminate.
    - intros. apply Hs; eauto; discriminate.
    - intros. apply Hs; eauto; discriminate.
    - intros id d k _ K HL. apply Hs; eauto. intros ->. unfold standalone in K. cbv zeta in K.
      repeat match type of K with (if ?c then _ else _) = _ => destruct c; [discriminate|] end. discriminate.
    - intros sk id d k w block ms sk' _ K HL _ _. apply Hs; eauto. intros ->. unfold with_operands in K. cbv zeta in K.
      repeat match type of K with (if ?c then _ else _) = _ => destruct c; [discriminate|] end. discriminate.
    - intros. apply Hs; eauto; discriminate.
    - intros. apply Hs; eauto; discriminate.
    - intros id d mem ms bm attrs _ _ HL. split; cbn; [intros d' [= <-]; eauto|discriminate].
    - intros. apply Hs; eauto; discriminate.
    - intros ms. split; cbn; discriminate. }
  rewrite Forall_forall in *. intros m Hm. eapply all_impl; [|apply all_and; [apply HE, Hm|apply HS, Hm]]. clear. intros m (H1 & H2 & H3). split; [exact H2|]. split; [|exact H3].
  intros Hk. destruct (H1 Hk) as (d & e & ? & ? & _). eauto.
Qed.
Lemma crash_nodes cf (A : panic -> Prop) (H : Prop) g ids ms : loaded_tables g -> parsed g ids ms ->
  (A PIndex \/ Forall (all_nodes (fun n => closes_opened 0 (an_members n))) ms) ->
  (A PIndex \/ good_factors false ms) -> (cf_compressed cf = true -> A PCompare \/ good_factors true ms) ->
  (A PIndex \/ avoids marker_id ms) -> (A PType \/ avoids marker_id ms) ->
  (A PIndex \/ avoids assessment_id ms) -> (A PNil \/ avoids assessment_id ms) -> (A PMake \/ avoids assessment_id ms) ->
  (A PNilMap \/ avoids new_refval_id ms) -> (cf_compressed cf = true -> A PType \/ avoids new_refval_id ms) ->
  (cf_compressed cf = true -> H \/ avoids (is_operator 206) ms) -> (A PNil \/ avoids bitmap_id ms) ->
  Forall (all_nodes (may_node cf A H)) ms.
Proof.
  intros Hg Hp C1 C2 C3 C4 C5 C6 C7 C8 C9 C10 C11 C12. apply parsed_iff in Hp.
  pose proof (right_kinds _ _ _ _ _ Hp) as HR. pose proof (all_members_parsed _ _ _ _ _ Hp) as HM. pose proof (sane_nodes _ _ _ _ _ Hg Hp) as HS.
  assert (HN : A PNil \/ Forall (all_nodes named) ms).
  { destruct C7 as [C7|C7]; [now left|right]. eapply (proj1 (all_named g)); [exact Hp|]. unfold avoids in C7. rewrite Forall_forall in *. intros m Hm.
    eapply all_impl; [|apply all_and; [apply C7, Hm|apply HR, Hm]]. clear. intros m [K1 K2] Hk. unfold right_kind in K2. rewrite Hk in K2. destruct (an_desc m) as [d|]; [|discriminate].
    specialize (K1 d eq_refl). destruct (id_F (d_id d)) as [|[[]|[]|]|]; try discriminate; try contradiction; try (destruct (_ =? _) in K2; discriminate).
    symmetry in K2. destruct (documented_inv _ _ K2) as [K3 _]. congruence. }
  assert (C3' : (cf_compressed cf = true -> A PCompare) \/ good_factors true ms) by (destruct (cf_compressed cf); [destruct C3; auto|left; discriminate]).
  assert (C10' : (cf_compressed cf = true -> A PType) \/ avoids new_refval_id ms) by (destruct (cf_compressed cf); [destruct C10; auto|left; discriminate]).
  assert (C11' : (cf_compressed cf = true -> H) \/ avoids (is_operator 206) ms) by (destruct (cf_compressed cf); [destruct C11; auto|left; discriminate]).
  clear C3 C10 C11. apply all_or in C1, C2, C3', C4, C5, C6, C7, C8, C9, C10', C11', C12, HN. rewrite Forall_forall in *. intros m Hm.
  assert (HRd : all_nodes (all_nodes right_kind) m) by (apply all_deep; auto). specialize (HR m Hm).
  pose proof (all_and _ _ _ HR (all_and _ _ _ HRd (all_and _ _ _ (HM m Hm) (all_and _ _ _ (HS m Hm) (all_and _ _ _ (HN m Hm)
    (all_and _ _ _ (C1 m Hm) (all_and _ _ _ (C2 m Hm) (all_and _ _ _ (C3' m Hm) (all_and _ _ _ (C4 m Hm) (all_and _ _ _ (C5 m Hm)
    (all_and _ _ _ (C6 m Hm) (all_and _ _ _ (C7 m Hm) (all_and _ _ _ (C8 m Hm) (all_and _ _ _ (C9 m Hm) (all_and _ _ _ (C10' m Hm) (all_and _ _ _ (C11' m Hm) (C12 m Hm))))))))))))))))) as Hall.
  revert Hall. apply all_impl. clear. intros [kd od ms bm at_] (HR & HRd & HM & (HS1 & HS2 & HS3) & HN & C1 & C2 & C3 & C4 & C5 & C6 & C7 & C8 & C9 & C10 & C11 & C12).
  unfold right_kind, named in *. cbn [an_desc an_kind an_members an_bitmap] in *. unfold may_node. cbn [an_desc an_kind an_members an_bitmap].
  destruct od as [d|]; [|split; [exact HR|]; destruct HN as [HN|HN]; [exact HN|congruence]].
  assert (Cut : forall (Q : Prop) P, (Q \/ (forall d', Some d = Some d' -> P (d_id d') = false)) -> P (d_id d) = true -> Q).
  { intros Q P [K|K] E; [exact K|]. specialize (K d eq_refl). congruence. }
  split; [auto|]. 
  assert (HF : (id_F (d_id d) = 0 /\ kd = (if d_id d =? 31021 then KE031021 else KElement false)) \/
     (id_F (d_id d) = 1 /\ kd = (if id_Y (d_id d) =? 0 then KDelayed else KFixed)) \/ (id_F (d_id d) = 2 /\ Some kd = documented (d_id d)) \/ (id_F (d_id d) = 3 /\ kd = KSequence)).
  { destruct (id_F (d_id d)) as [|[[]|[]|]|]; auto; contradiction. }
  assert (R0 : id_F (d_id d) = 0 -> d_id d / 1000 < 100).
  { intros E. apply Z.div_lt_upper_bound; [lia|]. unfold id_F in E. destruct (Z.le_gt_cases 0 (d_id d)) as [L|L]; [|lia]. rewrite Z.quot_div_nonneg in E by lia.
    pose proof (Z.div_mod (d_id d) 100000). pose proof (Z.mod_pos_bound (d_id d) 100000). lia. }
  destruct HF as [[E ->]|[[E ->]|[[E K]|[E ->]]]].
  - specialize (R0 E). split; [destruct (_ =? _); split; [discriminate|lia|discriminate|lia]|]. split; [exact C1|].
    destruct (_ =? _); [|split; [reflexivity|]]; destruct HS2 as (d' & e & E1 & E2); auto; injection E1 as <-; eauto.
  - pose proof (F1_range _ E) as R. assert (R1 : d_id d / 1000 < 200) by (apply Z.div_lt_upper_bound; lia).
    split; [destruct (_ =? _); split; [discriminate|lia|discriminate|lia]|]. split; [exact C1|]. destruct (id_Y _ =? 0) eqn:EY; [|exact I].
    assert (Q : forall c, factor_first c (ANode KDelayed (Some d) ms bm at_) -> exists x rest fd e, ms = x :: rest /\ (an_kind x = KElement false \/ an_kind x = KE031021) /\
       an_desc x = Some fd /\ d_entry fd = EB e /\ d_id fd / 1000 <> 204 /\ (c = true -> be_unit e <> STRING)).
    { intros c K. assert (E1 : d_id d / 100000 = 1) by (symmetry; apply Z.div_unique with (r := d_id d - 100000); lia).
      rewrite y_mod in EY by lia. destruct (K d eq_refl E1 ltac:(lia)) as (x & fd & e & Hh & Hdm & HF0 & He & Hu). cbn [an_members] in Hh. destruct ms as [|m' rest]; [discriminate|]. injection Hh as ->.
      exists x, rest, fd, e. repeat split; auto.
      - apply all_nodes_eq in HRd. destruct HRd as (_ & HRd & _). inversion HRd as [|? ? Hm _]; subst. destruct x as [km dm mm bm' am]. cbn [an_desc an_kind] in *. subst dm. apply all_nodes_eq in Hm.
        destruct Hm as [Hm _]. cbn [an_desc an_kind] in Hm.
        assert (HR0 : 0 <= d_id fd < 100000) by (pose proof (Z.div_mod (d_id fd) 100000); pose proof (Z.mod_pos_bound (d_id fd) 100000); lia).
        assert (id_F (d_id fd) = 0) as E' by (unfold id_F; apply Z.quot_small; lia). rewrite E' in Hm. destruct (_ =? _) in Hm; auto.
      - pose proof (Z.div_mod (d_id fd) 100000). pose proof (Z.mod_pos_bound (d_id fd) 100000).
        assert (d_id fd / 1000 < 100) by (apply Z.div_lt_upper_bound; lia). lia. }
    destruct C3 as [C3|C3].
    + destruct C2 as [C2|C2]; [left; auto|right]. destruct (Q _ C2) as (x & rest & fd & e & ? & ? & ? & ? & ? & _). exists x, rest, fd, e. repeat split; auto.
    + right. destruct (Q _ C3) as (x & rest & fd & e & ? & ? & ? & ? & ? & L). exists x, rest, fd, e. repeat split; auto.
  - pose proof (F2_range _ E) as R. symmetry in K. destruct (documented_inv _ _ K) as [K1 K2].
    split; [split; [intros ->; exact K1|exact K2]|]. split; [exact C1|]. pose proof (y_mod (d_id d) ltac:(lia)) as Hy. pose proof (Z.mod_pos_bound (d_id d) 1000 ltac:(lia)).
    destruct kd; try contradiction; try exact I; try lia.
    + intros Hne. assert (En : new_refval_id (d_id d) = true).
      { unfold new_refval_id. assert (d_id d <> 203255); [|lia]. intros E3. apply Hne. rewrite E3. reflexivity. }
      split; [exact (Cut _ _ C9 En)|exact (Cut _ _ C10 En)].
    + split; [apply (Cut _ _ C11); unfold is_operator; lia|]. cbn [members_parsed] in HM. destruct HM as (sk & sk' & block & Hl & Hp). intros ->. inversion Hp; subst. discriminate.
    + repeat split; [exact (Cut _ _ C6 K1)|exact (Cut _ _ C7 K1)|exact (Cut _ _ C8 K1)|auto].
    + split; [exact (Cut _ _ C4 K1)|exact (Cut _ _ C5 K1)].
    + destruct K1 as [K1|K1]; [right|left; exact K1]. apply (Cut _ _ C12). unfold bitmap_id. lia.
  - pose proof (F3_range _ E) as R. assert (300 <= d_id d / 1000) by (apply Z.div_le_lower_bound; lia). split; [split; [discriminate|lia]|]. split; [exact C1|exact I].
Qed.
Lemma panic_reason cf g ids ms s0 q : cf_json cf = false -> (cf_compressed cf = true -> 0 <= cf_nsubsets cf) -> loaded_tables g -> parsed g ids ms -> (exists b, v_r s0 = RBit b) ->
  (q = PIndex -> balanced ms /\ good_factors false ms /\ avoids marker_id ms /\ avoids assessment_id ms /\ (cf_compressed cf = true -> 0 < cf_nsubsets cf)) ->
  (q = PNilMap -> avoids new_refval_id ms) -> (q = PCompare -> cf_compressed cf = true -> good_factors true ms) ->
  (q = PType -> avoids marker_id ms /\ (cf_compressed cf = true -> avoids new_refval_id ms)) ->
  (q = PNil -> avoids assessment_id ms /\ avoids bitmap_id ms) -> (q = PMake -> avoids assessment_id ms) ->
  snd (run_payload cf (root ms) s0) <> Panic q.
Proof.
  intros Hj Hn Hg Hp H0 K1 K2 K3 K4 K5 K6 E.
  assert (Dq : forall x q : panic, x <> q \/ x = q) by (intros [] []; auto; left; discriminate).
  assert (Hb : PIndex <> q \/ balanced ms) by (destruct (Dq PIndex q) as [L|L]; [auto|right; apply K1; auto]).
  assert (HN : Forall (all_nodes (may_node cf (fun x => x <> q) True)) ms).
  { eapply crash_nodes; eauto.
    - destruct Hb as [Hb|[_ Hb]]; auto.
    - destruct (Dq PIndex q) as [L|L]; [auto|right; apply K1; auto].
    - intros Hc. destruct (Dq PCompare q) as [L|L]; [auto|right; apply K3; auto].
    - destruct (Dq PIndex q) as [L|L]; [auto|right; apply K1; auto].
    - destruct (Dq PType q) as [L|L]; [auto|right; apply K4; auto].
    - destruct (Dq PIndex q) as [L|L]; [auto|right; apply K1; auto].
    - destruct (Dq PNil q) as [L|L]; [auto|right; apply K5; auto].
    - destruct (Dq PMake q) as [L|L]; [auto|right; apply K6; auto].
    - destruct (Dq PNilMap q) as [L|L]; [auto|right; apply K2; auto].
    - intros Hc. destruct (Dq PType q) as [L|L]; [auto|right; apply K4; auto].
    - destruct (Dq PNil q) as [L|L]; [auto|right; apply K5; auto]. }
  assert (Hc : PIndex <> q \/ closes_opened 0 ms) by (destruct Hb as [Hb|[Hb _]]; auto).
  assert (Hz : PIndex <> q \/ (cf_compressed cf = true -> 0 < cf_nsubsets cf)) by (destruct (Dq PIndex q) as [L|L]; [auto|right; apply K1; auto]).
  pose proof (run_is_may cf Hj (fun x => x <> q) True Hn Hz ms s0 HN Hc H0) as R. rewrite E in R. now apply R.
Qed.
Lemma hang_reason cf g ids ms s0 : cf_json cf = false -> (cf_compressed cf = true -> 0 <= cf_nsubsets cf) -> loaded_tables g -> parsed g ids ms -> (exists b, v_r s0 = RBit b) ->
  (cf_compressed cf = true -> avoids (is_operator 206) ms) -> snd (run_payload cf (root ms) s0) <> NoFuel.
Proof.
  intros Hj Hn Hg Hp H0 K E.
  assert (HN : Forall (all_nodes (may_node cf (fun _ => True) False)) ms) by (eapply crash_nodes; eauto).
  pose proof (run_is_may cf Hj (fun _ => True) False Hn (or_introl Logic.I) ms s0 HN (or_introl Logic.I) H0) as R. rewrite E in R. exact R.
Qed.
Lemma breakdown_reason cf g ids ms s0 b : cf_json cf = false -> (cf_compressed cf = true -> 0 <= cf_nsubsets cf) -> loaded_tables g -> parsed g ids ms -> (exists b, v_r s0 = RBit b) ->
  excluded (cf_nsubsets cf) (cf_compressed cf) ms b -> ~ in_breakdown (snd (run_payload cf (root ms) s0)) b.
Proof.
  intros Hj Hn Hg Hp H0 K. destruct b as [q|]; [|eapply hang_reason; eauto]. cbn [in_breakdown].
  eapply panic_reason; eauto; intros ->; exact K.
Qed.
