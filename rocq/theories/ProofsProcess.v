(** Lemmas for C89. *)
From Verif Require Import ProofsTable ProofsObjects2.
From Verif Require Export SpecProcess.

Section P.
  Variable loadB : gostring -> res tblB.
  Variable loadD : gostring -> res tblD.

  (** ** A process with its answers read from the files *)
  Fixpoint alone {A} (p : proc A) : A :=
    match p with PRet x => x | PAskB path k => alone (k (loadB path)) | PAskD path k => alone (k (loadD path)) end.
  Fixpoint asks {A} (p : proc A) : nat :=
    match p with PRet _ => 0 | PAskB path k => S (asks (k (loadB path))) | PAskD path k => S (asks (k (loadD path))) end.

  Section A.
    Context {A : Type}.
    Variable base : gostring.
    Variable fc : fconfig.
    Notation fs := (files_of loadB loadD base).
    Notation fc' := (mkFconfig (fc_json fc) (fc_compatible fc) (fc_plat fc) fs (fc_fuel fc)).
    (** [p] is [k x], after at most [n] requests *)
    Definition is_after (n : nat) (p q : proc A) : Prop := alone p = alone q /\ (asks p <= n + asks q)%nat.
    Lemma after_refl n p : is_after n p p.
    Proof. split; [reflexivity|lia]. Qed.
    Lemma after_trans n m p q r : is_after n p q -> is_after m q r -> is_after (n + m) p r.
    Proof. intros (H1 & H2) (H3 & H4). split; [congruence|lia]. Qed.
    Lemma after_le n m p q : (n <= m)%nat -> is_after n p q -> is_after m p q.
    Proof. intros H (H1 & H2). split; [exact H1|lia]. Qed.
    Lemma single_after m c s v (k : res single -> proc A) :
      is_after 2 (p_Single base m c s v k) (k (NewSingleTableGroup fs m c s v)).
    Proof.
      unfold is_after, p_Single, NewSingleTableGroup. cbn [alone asks fs_B fs_D files_of].
      destruct (loadB (keyB base m c s v)) as [b| | |]; cbn [rbind alone asks]; try (split; [reflexivity|lia]).
      destruct (loadD (keyD base m c s v)) as [d| | |]; cbn [rbind]; split; try reflexivity; lia.
    Qed.
    Lemma add_after m c s v l (k : list single * res unit -> proc A) :
      is_after 2 (p_Add base m c s v l k) (k (AddSingleTableGroup fs m c s v l)).
    Proof.
      unfold p_Add. eapply (after_trans 2 0); [apply single_after|]. unfold AddSingleTableGroup, bind, lift_res, modify.
      destruct (NewSingleTableGroup fs m c s v); apply after_refl.
    Qed.
    Lemma groups_after m c s wv lv l (k : list single * res unit -> proc A) :
      is_after 6 (p_LocalAndWmo base m c s wv lv l k) (k (AddLocalAndWmoTableGroups fs m c s wv lv l)).
    Proof.
      unfold p_LocalAndWmo, AddLocalAndWmoTableGroups. destruct (negb (lv =? 0)); [|eapply after_le; [|apply add_after]; lia].
      eapply (after_trans 2 4); [apply add_after|]. destruct (AddSingleTableGroup fs m c s lv l) as [l' [u|e|e|]];
        try apply after_refl; [eapply after_le; [|apply add_after]; lia|].
      destruct (is_not_exist e); [|apply after_refl].
      eapply (after_trans 2 2); [apply add_after|]. unfold bind.
      destruct (AddSingleTableGroup fs m c 0 lv l') as [l2 [u|e2|e2|]];
        try apply after_refl. apply add_after.
    Qed.
    Lemma init_after m c s wv lv st (k : fac * res unit -> proc A) :
      is_after 6 (p_InitTableGroup base m c s wv lv st k) (k (InitTableGroup fc' m c s wv lv st)).
    Proof.
      unfold p_InitTableGroup. eapply (after_trans 6 0); [apply groups_after|]. unfold InitTableGroup. cbn [fc_fs].
      destruct (AddLocalAndWmoTableGroups fs m c s wv lv []) as [l [| | |]]; apply after_refl.
    Qed.
    (** The two halves are Run. *)
    Lemma first_same s : first_part fc s = first_part fc' s.
    Proof. reflexivity. Qed.
    Lemma second_same s : second_part fc s = second_part fc' s.
    Proof. reflexivity. Qed.
    Lemma Run_parts s : Run fc' s = bind (first_part fc)
      (fun '(m, c, sc, wv, lv) => bind (lua_call (InitTableGroup fc' m c sc wv lv)) (fun _ => second_part fc)) s.
    Proof.
      unfold Run, boot, first_part, deserialise, before_tables, second_part, bind, fail, ret.
      change (section0 fc') with (section0 fc). change (section1_4 fc') with (section1_4 fc). change (section1_3 fc') with (section1_3 fc).
      change (section2 fc') with (section2 fc). change (section3 fc') with (section3 fc). change (section4 fc') with (section4 fc).
      change (section5 fc') with (section5 fc). change (PeekEditionNumber fc') with (PeekEditionNumber fc). change (fc_fuel fc') with (fc_fuel fc).
      repeat (cbv beta iota; match goal with
      | |- ?x = ?x => reflexivity
      | |- context [if ?a =? ?b then _ else _] => destruct (a =? b)
      | |- context [if ?b then section2 fc else _] => destruct b
      | |- context [match ?m ?t with pair _ _ => _ end] =>
          lazymatch m with context [match _ with _ => _ end] => fail | (fun _ => _) => fail | _ => destruct (m t) as [? [| | |]] end
      end).
    Qed.
    Lemma run_after st (k : fac * res message -> proc A) : is_after 6 (p_Run base fc st k) (k (Run fc' st)).
    Proof.
      rewrite Run_parts, (bind_at (first_part fc)). unfold p_Run.
      destruct (first_part fc st) as [s1 [[[[[m c] s] wv] lv]|e|e|]]; try apply after_refl.
      eapply (after_trans 6 0); [apply init_after|]. apply after_refl.
    Qed.
    Lemma runs_after n : forall st (k : fac * list (res message) -> proc A),
      is_after (6 * n) (p_Runs base fc n st k) (k (repeated (Run fc') n st)).
    Proof.
      induction n as [|n IH]; intros st k; [apply after_refl|]. cbn [p_Runs repeated].
      replace (6 * S n)%nat with (6 + 6 * n)%nat by lia. eapply after_trans; [apply run_after|].
      destruct (Run fc' st) as [s1 x]. eapply (after_le (6 * n + 0)); [lia|]. eapply after_trans; [apply IH|].
      destruct (repeated (Run fc') n s1) as [s2 xs]. apply after_refl.
    Qed.
  End A.

  (** ** One cache *)
  Section Cache.
    Context {C : Type}.
    Variable load : gostring -> res C.
    Definition good_map (h : shared C) : Prop := forall p t, map_get (sh_map h) p = Some t -> load p = Ok (to_content t).
    Definition good_pc (c : pc C) : Prop :=
      match c with
      | PRUnlock p (Some t) | PStore p t => load p = Ok (to_content t)
      | PUnlock p r | PDone p r => with_tobj to_content r = load p
      | _ => True
      end.
    Definition left_over (c : pc C) : nat :=
      match c with
      | PRLock _ => 8 | PRead _ => 7 | PRUnlock _ _ => 6 | PLock _ => 5 | PCheck _ => 4 | PLoad _ => 3 | PStore _ _ => 2
      | PUnlock _ _ => 1 | PDone _ _ => 0
      end.
    Lemma cstep_good h c h' c' : cstep load h c = Some (h', c') -> good_map h -> good_pc c ->
      good_map h' /\ good_pc c' /\ pc_path c' = pc_path c /\ (left_over c' < left_over c)%nat.
    Proof.
      intros H G P. destruct c as [p|p|p hit|p|p|p|p t|p r|p r]; cbn [cstep] in H.
      - destruct (sh_writer h); [discriminate|]. injection H as <- <-. repeat split; auto; cbn; lia.
      - injection H as <- <-. split; [exact G|]. cbn. destruct (map_get (sh_map h) p) eqn:E; repeat split; auto; lia.
      - injection H as <- <-. split; [exact G|]. destruct hit as [t|]; cbn in *; repeat split; auto; try lia.
      - destruct (_ || _); [discriminate|]. injection H as <- <-. repeat split; auto; cbn; lia.
      - injection H as <- <-. split; [exact G|]. destruct (map_get (sh_map h) p) eqn:E; cbn; repeat split; auto; try lia.
        rewrite (G _ _ E). reflexivity.
      - destruct (load p) as [x|e|e|] eqn:E; injection H as <- <-; (split; [exact G|]); cbn; rewrite ?E; repeat split; auto; lia.
      - injection H as <- <-. cbn in *. repeat split; try lia; [|now rewrite P]. intros q u. cbn. destruct (gs_eqb p q) eqn:E; [|apply G].
        apply gs_eqb_eq in E. subst q. intros X. injection X as <-. exact P.
      - injection H as <- <-. cbn in *. repeat split; auto.
      - discriminate.
    Qed.
    (** who holds the lock *)
    Definition b2n (b : bool) : nat := if b then 1 else 0.
    Definition lock_ok (h : shared C) (r w : nat) : Prop :=
      sh_readers h = r /\ b2n (sh_writer h) = w /\ (sh_writer h = true -> sh_readers h = 0%nat).
    Lemma cstep_lock h c h' c' r w : cstep load h c = Some (h', c') -> lock_ok h (r + b2n (holds_read c)) (w + b2n (holds_write c)) ->
      lock_ok h' (r + b2n (holds_read c')) (w + b2n (holds_write c')).
    Proof.
      intros H (L1 & L2 & L3). unfold lock_ok in *. destruct c as [p|p|p hit|p|p|p|p t|p q|p q]; cbn [cstep] in H; cbn [holds_read holds_write b2n] in *.
      - destruct (sh_writer h) eqn:E; [discriminate|]. injection H as <- <-. cbn in *. split; [lia|]. split; [lia|discriminate].
      - injection H as <- <-. cbn in *. auto.
      - injection H as <- <-. destruct hit; cbn in *; (split; [lia|]; split; [lia|]; intros E; specialize (L3 E); lia).
      - destruct (sh_writer h) eqn:E; [discriminate|]. destruct (sh_readers h) eqn:E2; [|discriminate]. injection H as <- <-. cbn in *. split; [lia|]. split; [lia|reflexivity].
      - injection H as <- <-. destruct (map_get (sh_map h) p); cbn in *; auto.
      - destruct (load p); injection H as <- <-; cbn in *; auto.
      - injection H as <- <-; cbn in *; auto.
      - injection H as <- <-; cbn in *. split; [lia|]. split; [|discriminate]. destruct (sh_writer h); cbn in *; lia.
      - discriminate.
    Qed.
    Lemma cstep_blocked h c : cstep load h c = None -> match c with PDone _ _ => False | _ => True end ->
      (sh_writer h = true \/ (0 < sh_readers h)%nat) /\ holds_read c = false /\ holds_write c = false.
    Proof.
      destruct c as [p|p|p hit|p|p|p|p t|p q|p q]; cbn [cstep]; try discriminate; try tauto.
      - destruct (sh_writer h); [|discriminate]. cbn. auto.
      - destruct (sh_writer h); [cbn; auto|]. destruct (sh_readers h); [discriminate|]. cbn. intros _ _. split; [right; lia|auto].
      - destruct (load p); discriminate.
    Qed.
  End Cache.

  (** ** All of them *)
  Section W.
    Context {A : Type}.
    Implicit Types (t : thread A) (w : world A).
    Definition thread_ok (x : A) t : Prop :=
      match t with
      | TB c k => good_pc loadB c /\ left_over c <> 0%nat /\ alone (k (loadB (pc_path c))) = x
      | TD c k => good_pc loadD c /\ left_over c <> 0%nat /\ alone (k (loadD (pc_path c))) = x
      | TDone y => y = x
      end.
    Definition weight t : nat :=
      match t with
      | TB c k => left_over c + 8 * asks (k (loadB (pc_path c)))
      | TD c k => left_over c + 8 * asks (k (loadD (pc_path c)))
      | TDone _ => 0
      end.
    Definition rB t : bool := match t with TB c _ => holds_read c | _ => false end.
    Definition wB t : bool := match t with TB c _ => holds_write c | _ => false end.
    Definition rD t : bool := match t with TD c _ => holds_read c | _ => false end.
    Definition wD t : bool := match t with TD c _ => holds_write c | _ => false end.
    Fixpoint total (f : thread A -> nat) (l : list (thread A)) : nat := match l with [] => 0 | t :: l' => f t + total f l' end.
    Definition num (f : thread A -> bool) (l : list (thread A)) : nat := total (fun t => b2n (f t)) l.
    Record inv (xs : list A) (w : world A) : Prop := mkInv {
      i_threads : Forall2 thread_ok xs (w_threads w);
      i_B : good_map loadB (w_B w); i_D : good_map loadD (w_D w);
      i_lB : lock_ok (w_B w) (num rB (w_threads w)) (num wB (w_threads w));
      i_lD : lock_ok (w_D w) (num rD (w_threads w)) (num wD (w_threads w)) }.

    Lemma total_set f l i t t' : nth_error l i = Some t -> (total f (set_nth l i t') + f t = total f l + f t')%nat.
    Proof. revert i. induction l as [|a l IH]; intros [|i] H; try discriminate; cbn in *; [injection H as ->; lia|]. specialize (IH i H). lia. Qed.
    Lemma total_split f l i t : nth_error l i = Some t -> exists n, total f l = (n + f t)%nat /\ forall t', total f (set_nth l i t') = (n + f t')%nat.
    Proof.
      intros H. pose proof (total_set f l i t) as E. exists (total f l - f t)%nat. 
      assert (f t <= total f l)%nat.
      { clear E. revert i H. induction l as [|a l IH]; intros [|i] H; try discriminate; cbn in *; [injection H as ->; lia|]. specialize (IH i H). lia. }
      split; [lia|]. intros t'. specialize (E t' H). lia.
    Qed.
    Lemma Forall2_set {X} (P : X -> thread A -> Prop) xs l i x t' : Forall2 P xs l -> nth_error xs i = Some x -> P x t' -> Forall2 P xs (set_nth l i t').
    Proof.
      intros H. revert i. induction H as [|a b xs l H1 H2 IH]; intros [|i] E Ht; try discriminate; cbn in *; [injection E as ->; constructor; auto|constructor; auto].
    Qed.
    Lemma Forall2_nth {X} (P : X -> thread A -> Prop) xs l i t : Forall2 P xs l -> nth_error l i = Some t -> exists x, nth_error xs i = Some x /\ P x t.
    Proof.
      intros H. revert i. induction H as [|a b xs l H1 H2 IH]; intros [|i] E; try discriminate; cbn in *; [injection E as ->; eauto|auto].
    Qed.
    Lemma enter_ok p : thread_ok (alone p) (enter p) /\ weight (enter p) = (8 * asks p)%nat.
    Proof. destruct p; cbn [enter thread_ok weight alone asks good_pc left_over pc_path]; repeat split; try discriminate; try lia. Qed.
    Lemma enter_free p : rB (enter p) = false /\ wB (enter p) = false /\ rD (enter p) = false /\ wD (enter p) = false.
    Proof. destruct p; cbn; auto. Qed.
    Lemma resumeB_ok c k : good_pc loadB c -> thread_ok (alone (k (loadB (pc_path c)))) (resumeB c k) /\
      weight (resumeB c k) = (left_over c + 8 * asks (k (loadB (pc_path c))))%nat /\
      rB (resumeB c k) = holds_read c /\ wB (resumeB c k) = holds_write c /\ rD (resumeB c k) = false /\ wD (resumeB c k) = false.
    Proof.
      intros G. destruct c; cbn [resumeB]; try (cbn; repeat split; auto; discriminate).
      cbn [good_pc] in G. cbn [pc_path left_over holds_read holds_write]. rewrite <- G. destruct (enter_ok (k (with_tobj to_content r))) as (H1 & H2).
      destruct (enter_free (k (with_tobj to_content r))) as (F1 & F2 & F3 & F4). rewrite H2. auto 10.
    Qed.
    Lemma resumeD_ok c k : good_pc loadD c -> thread_ok (alone (k (loadD (pc_path c)))) (resumeD c k) /\
      weight (resumeD c k) = (left_over c + 8 * asks (k (loadD (pc_path c))))%nat /\
      rD (resumeD c k) = holds_read c /\ wD (resumeD c k) = holds_write c /\ rB (resumeD c k) = false /\ wB (resumeD c k) = false.
    Proof.
      intros G. destruct c; cbn [resumeD]; try (cbn; repeat split; auto; discriminate).
      cbn [good_pc] in G. cbn [pc_path left_over holds_read holds_write]. rewrite <- G. destruct (enter_ok (k (with_tobj to_content r))) as (H1 & H2).
      destruct (enter_free (k (with_tobj to_content r))) as (F1 & F2 & F3 & F4). rewrite H2. auto 10.
    Qed.
    Lemma inv_step xs w i w' : inv xs w -> wstep loadB loadD i w = Some w' ->
      inv xs w' /\ (total weight (w_threads w') < total weight (w_threads w))%nat.
    Proof.
      intros [I1 I2 I3 I4 I5] H. unfold wstep in H. destruct (nth_error (w_threads w) i) as [t|] eqn:E; [|discriminate].
      destruct (Forall2_nth _ _ _ _ _ I1 E) as (x & Ex & Hx).
      destruct (total_split weight _ _ _ E) as (n0 & W0 & W).
      destruct (total_split (fun t => b2n (rB t)) _ _ _ E) as (n1 & N1 & M1). destruct (total_split (fun t => b2n (wB t)) _ _ _ E) as (n2 & N2 & M2).
      destruct (total_split (fun t => b2n (rD t)) _ _ _ E) as (n3 & N3 & M3). destruct (total_split (fun t => b2n (wD t)) _ _ _ E) as (n4 & N4 & M4).
      unfold num in *. rewrite N1, N2 in I4. rewrite N3, N4 in I5.
      destruct t as [c k|c k|y]; [| |discriminate]; cbn [rB wB rD wD b2n] in *; destruct Hx as (G & _ & Ho).
      - destruct (cstep loadB (w_B w) c) as [[h c']|] eqn:Ec; [|discriminate]. injection H as <-.
        destruct (cstep_good loadB _ _ _ _ Ec I2 G) as (G1 & G2 & Gp & Gl). destruct (resumeB_ok c' k G2) as (T1 & T2 & T3 & T4 & T5 & T6).
        rewrite Gp, Ho in T1. rewrite Gp in T2. split; [|cbn [w_threads]; rewrite W, W0, T2; cbn [weight]; lia].
        constructor; cbn [w_threads w_B w_D]; auto.
        + eapply Forall2_set; eassumption.
        + unfold num. rewrite M1, M2, T3, T4. eapply cstep_lock; eassumption.
        + unfold num. rewrite M3, M4, T5, T6. exact I5.
      - destruct (cstep loadD (w_D w) c) as [[h c']|] eqn:Ec; [|discriminate]. injection H as <-.
        destruct (cstep_good loadD _ _ _ _ Ec I3 G) as (G1 & G2 & Gp & Gl). destruct (resumeD_ok c' k G2) as (T1 & T2 & T3 & T4 & T5 & T6).
        rewrite Gp, Ho in T1. rewrite Gp in T2. split; [|cbn [w_threads]; rewrite W, W0, T2; cbn [weight]; lia].
        constructor; cbn [w_threads w_B w_D]; auto.
        + eapply Forall2_set; eassumption.
        + unfold num. rewrite M1, M2, T5, T6. exact I4.
        + unfold num. rewrite M3, M4, T3, T4. eapply cstep_lock; eassumption.
    Qed.
    Lemma inv_steps xs w is w' : wsteps loadB loadD w is w' -> inv xs w ->
      inv xs w' /\ (length is + total weight (w_threads w') <= total weight (w_threads w))%nat.
    Proof.
      intros H. induction H as [w|w i w1 is w2 H1 H2 IH]; intros I; [split; [exact I|cbn; lia]|].
      destruct (inv_step xs w i w1 I H1) as (I1 & L1). destruct (IH I1) as (I2 & L2). split; [exact I2|]. cbn [length]. lia.
    Qed.
    Lemma inv_start ps : inv (map alone ps) (wstart ps) /\ total weight (w_threads (wstart ps)) = (8 * list_sum (map asks ps))%nat.
    Proof.
      assert (Z : forall f, (forall p, f (enter p) = false) -> num f (map enter ps) = 0%nat).
      { intros f Hf. unfold num. induction ps as [|p ps IH]; [reflexivity|]. cbn. rewrite Hf, IH. reflexivity. }
      split.
      - constructor; cbn [wstart w_threads w_B w_D]; try (intros ? ?; discriminate).
        + induction ps as [|p ps IH]; constructor; [apply enter_ok|]. apply IH. intros f Hf. unfold num.
          clear - Hf. induction ps as [|q ps IH]; [reflexivity|]. cbn. rewrite Hf, IH. reflexivity.
        + rewrite !Z; [repeat split; auto|..]; intros p; apply enter_free.
        + rewrite !Z; [repeat split; auto|..]; intros p; apply enter_free.
      - clear Z. cbn [wstart w_threads]. induction ps as [|p ps IH]; [reflexivity|]. cbn [map total list_sum fold_right].
        rewrite IH, (proj2 (enter_ok p)). unfold list_sum. cbn [fold_right]. lia.
    Qed.

    Lemma num_some f l : (0 < num f l)%nat -> exists i t, nth_error l i = Some t /\ f t = true.
    Proof.
      unfold num. induction l as [|t l IH]; cbn; [lia|]. destruct (f t) eqn:E; [exists 0%nat, t; auto|]. cbn. intros H.
      destruct (IH H) as (i & t' & H'). exists (S i), t'. exact H'.
    Qed.
    Lemma num_one f l i t : nth_error l i = Some t -> f t = true -> (1 <= num f l)%nat.
    Proof. intros E F. unfold num. destruct (total_split (fun t => b2n (f t)) _ _ _ E) as (n & -> & _). rewrite F. cbn. lia. Qed.
    Lemma num_two f l i j t u : nth_error l i = Some t -> nth_error l j = Some u -> i <> j -> f t = true -> f u = true -> (2 <= num f l)%nat.
    Proof.
      revert i j. induction l as [|a l IH]; intros [|i] [|j] E1 E2 N F1 F2; try discriminate; try congruence; cbn in *.
      - injection E1 as ->. rewrite F1. pose proof (num_one f l j u E2 F2). unfold num in *. cbn. lia.
      - injection E2 as ->. rewrite F2. pose proof (num_one f l i t E1 F1). unfold num in *. cbn. lia.
      - specialize (IH i j E1 E2 ltac:(congruence) F1 F2). unfold num in *. cbn. lia.
    Qed.
    Lemma progress xs w : inv xs w -> forallb finished (w_threads w) = true \/ exists i w', wstep loadB loadD i w = Some w'.
    Proof.
      intros I. destruct (forallb finished (w_threads w)) eqn:E; [now left|]. right.
      assert (H : exists i t, nth_error (w_threads w) i = Some t /\ finished t = false).
      { clear I. induction (w_threads w) as [|t l IH]; [discriminate|]. cbn in E. destruct (finished t) eqn:F; [|exists 0%nat, t; auto].
        destruct (IH E) as (i & t' & H). exists (S i), t'. exact H. }
      destruct H as (i & t & Ei & Ft). destruct I as [I1 I2 I3 (B1 & B2 & _) (D1 & D2 & _)].
      destruct (Forall2_nth _ _ _ _ _ I1 Ei) as (x & _ & Hx). destruct t as [c k|c k|y]; [| |discriminate].
      - destruct (cstep loadB (w_B w) c) as [[h c']|] eqn:Ec; [exists i; eexists; unfold wstep; rewrite Ei, Ec; reflexivity|].
        destruct (cstep_blocked loadB _ _ Ec) as ([Hw|Hr] & _ & _); [destruct Hx as (_ & Hx & _); destruct c; cbn in Hx; try exact I; congruence| |].
        + rewrite Hw in B2. cbn in B2. destruct (num_some wB (w_threads w)) as (j & u & Ej & Fj); [lia|].
          destruct u as [c2 k2|c2 k2|y]; try discriminate. cbn in Fj.
          destruct (cstep loadB (w_B w) c2) as [[h c']|] eqn:Ec2; [exists j; eexists; unfold wstep; rewrite Ej, Ec2; reflexivity|].
          exfalso. destruct (cstep_blocked loadB _ _ Ec2) as (_ & _ & X); [destruct c2; try exact I; discriminate Fj|congruence].
        + rewrite B1 in Hr. destruct (num_some rB (w_threads w) Hr) as (j & u & Ej & Fj).
          destruct u as [c2 k2|c2 k2|y]; try discriminate. cbn in Fj.
          destruct (cstep loadB (w_B w) c2) as [[h c']|] eqn:Ec2; [exists j; eexists; unfold wstep; rewrite Ej, Ec2; reflexivity|].
          exfalso. destruct (cstep_blocked loadB _ _ Ec2) as (_ & X & _); [destruct c2; try exact I; discriminate Fj|congruence].
      - destruct (cstep loadD (w_D w) c) as [[h c']|] eqn:Ec; [exists i; eexists; unfold wstep; rewrite Ei, Ec; reflexivity|].
        destruct (cstep_blocked loadD _ _ Ec) as ([Hw|Hr] & _ & _); [destruct Hx as (_ & Hx & _); destruct c; cbn in Hx; try exact I; congruence| |].
        + rewrite Hw in D2. cbn in D2. destruct (num_some wD (w_threads w)) as (j & u & Ej & Fj); [lia|].
          destruct u as [c2 k2|c2 k2|y]; try discriminate. cbn in Fj.
          destruct (cstep loadD (w_D w) c2) as [[h c']|] eqn:Ec2; [exists j; eexists; unfold wstep; rewrite Ej, Ec2; reflexivity|].
          exfalso. destruct (cstep_blocked loadD _ _ Ec2) as (_ & _ & X); [destruct c2; try exact I; discriminate Fj|congruence].
        + rewrite D1 in Hr. destruct (num_some rD (w_threads w) Hr) as (j & u & Ej & Fj).
          destruct u as [c2 k2|c2 k2|y]; try discriminate. cbn in Fj.
          destruct (cstep loadD (w_D w) c2) as [[h c']|] eqn:Ec2; [exists j; eexists; unfold wstep; rewrite Ej, Ec2; reflexivity|].
          exfalso. destruct (cstep_blocked loadD _ _ Ec2) as (_ & X & _); [destruct c2; try exact I; discriminate Fj|congruence].
    Qed.
    Lemma exclusive xs w i j t u : inv xs w -> nth_error (w_threads w) i = Some t -> nth_error (w_threads w) j = Some u -> i <> j ->
      (accesses_B true t = true -> accesses_B false u = false) /\ (accesses_D true t = true -> accesses_D false u = false).
    Proof.
      intros [_ _ _ (B1 & B2 & B3) (D1 & D2 & D3)] Ei Ej N. split; intros Ht; destruct t as [c k|c k|y]; try discriminate Ht; destruct u as [c2 k2|c2 k2|y2]; try reflexivity;
        cbn [accesses_B accesses_D] in *; destruct c; try discriminate Ht; destruct c2; try reflexivity; exfalso.
      - pose proof (num_one wB _ _ _ Ei eq_refl). pose proof (num_one rB _ _ _ Ej eq_refl). destruct (sh_writer (w_B w)); cbn in B2; [|lia]. specialize (B3 eq_refl). lia.
      - pose proof (num_two wB _ _ _ _ _ Ei Ej N eq_refl eq_refl). destruct (sh_writer (w_B w)); cbn in B2; lia.
      - pose proof (num_two wB _ _ _ _ _ Ei Ej N eq_refl eq_refl). destruct (sh_writer (w_B w)); cbn in B2; lia.
      - pose proof (num_one wD _ _ _ Ei eq_refl). pose proof (num_one rD _ _ _ Ej eq_refl). destruct (sh_writer (w_D w)); cbn in D2; [|lia]. specialize (D3 eq_refl). lia.
      - pose proof (num_two wD _ _ _ _ _ Ei Ej N eq_refl eq_refl). destruct (sh_writer (w_D w)); cbn in D2; lia.
      - pose proof (num_two wD _ _ _ _ _ Ei Ej N eq_refl eq_refl). destruct (sh_writer (w_D w)); cbn in D2; lia.
    Qed.
  End W.
End P.
