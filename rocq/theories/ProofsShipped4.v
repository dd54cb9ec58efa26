(** Parsing every sequence of every shipped table: all WMO versions at once, one bit each. *)
From Coq Require Import Lia ZifyBool ZifyNat.
From Coq Require Import FMapPositive.
From Verif Require Import SpecShipped ProofsTable ProofsParser ProofsParser2 ProofsParser3 ProofsShipped ProofsShipped2 ProofsShipped3.

(** The local table in front, if any, and its version. *)
Definition front := option (nat * Z).
Definition full : Z := 2 ^ 36 - 1.
Definition local_version (o : front) : Z := match o with None => 0 | Some (_, l) => l end.
Definition in_front (o : front) (mask : Z) : bool := match o with None => false | Some (j, _) => Z.testbit mask (Z.of_nat j) end.
(** The versions of the WMO tables with which a row can be seen. *)
Definition avail (o : front) (mask : Z) : Z := if in_front o mask then full else Z.land mask full.
Definition masks := PositiveMap.t Z.
Definition mask_get (t : masks) (id : Z) : Z :=
  if id <? 0 then 0 else match PositiveMap.find (key id) t with Some m => m | None => 0 end.
Definition mask_add (id m : Z) (t : masks) : masks := PositiveMap.add (key id) (Z.lor m (mask_get t id)) t.
Definition mask_tree {A} (o : front) (rows : list (Z * (Z * A))) : masks :=
  fold_right (fun r t => mask_add (fst (snd r)) (avail o (fst r)) t) (PositiveMap.empty Z) rows.
Definition bad_mask (o : front) (id : Z) : Z :=
  fold_right (fun k m => if existsb (Z.eqb id) (broken (local_version o) (Z.of_nat k + 6)) then Z.lor (2 ^ Z.of_nat k) m else m) 0 (seq 0 36).
Definition suspects : list Z :=
  [301072; 305007; 305009; 305011; 305018; 308015; 308016; 310014; 310015; 310016; 310023; 310024; 310195; 310196; 310197;
   310226; 312207; 312209; 313043; 340192].
Definition bad_tree (o : front) : masks := fold_right (fun id t => mask_add id (bad_mask o id) t) (PositiveMap.empty Z) suspects.
(** Sequences whose definitions are not composed in the simple way. *)
Definition others : list Z := [306044; 306045; 306046; 306048; 307093; 322001].
Definition known_mask (b d bad : masks) (a m : Z) : bool :=
  if id_F m =? 0 then Z.land a (mask_get b m) =? a
  else Z.land a (Z.ldiff (mask_get d m) (mask_get bad m)) =? a.
Definition check_row (b d bad : masks) (o : front) (r : Z * (Z * list Z)) : bool :=
  match r with
  | (mask, (id, ms)) =>
      if existsb (Z.eqb id) others then true
      else let a := Z.ldiff (avail o mask) (mask_get bad id) in
           if a =? 0 then true else shape (known_mask b d bad a) (length ms) ms
  end.
Definition check_front (o : front) : bool :=
  let b := mask_tree o b_rows in let d := mask_tree o d_rows in let bad := bad_tree o in
  forallb (check_row b d bad o) d_rows.
Definition fronts : list front := [None; Some (36%nat, 1); Some (37%nat, 2); Some (38%nat, 3); Some (39%nat, 101)].
Lemma fronts_checked : forallb check_front fronts = true.
Proof. vm_cast_no_check (eq_refl true). Qed.
(** The others, and those that do not parse, by running the parser. *)
Definition chain_of (table : nat -> single) (o : front) (k : nat) : group :=
  GChain (match o with None => [table k] | Some (j, _) => [table j; table k] end).
Definition bad_of (o : front) (k : nat) : list Z := broken (local_version o) (Z.of_nat k + 6).
Definition is_verdict (v : option bool) (b : bool) : bool := match v with Some b' => Bool.eqb b b' | None => false end.
Definition check_runs (fuel : nat) (trees : list single) (o : front) (k : nat) : bool :=
  let g := chain_of (fun i => nth i trees (mkSingle (fun _ => None) (fun _ => None))) o k in
  let bad := bad_of o k in
  forallb (fun id => is_verdict (verdict fuel g id) false) bad &&
  forallb (fun id => if existsb (Z.eqb id) bad then true
                     else match Lookup g id with Ok _ => is_verdict (verdict fuel g id) true | _ => true end) others.
Definition check_all_runs (fuel : nat) : bool :=
  let trees := map tree_table (seq 0 40) in
  forallb (fun o => forallb (check_runs fuel trees o) (seq 0 36)) fronts.
Lemma runs_checked : check_all_runs (Z.to_nat 3000) = true.
Proof. vm_cast_no_check (eq_refl true). Qed.

Lemma mask_get_add id id' m t : 0 <= id -> 0 <= id' ->
  mask_get (mask_add id m t) id' = if id =? id' then Z.lor m (mask_get t id) else mask_get t id'.
Proof.
  intros H H'. unfold mask_get at 1, mask_add. destruct (Z.ltb_spec id' 0) as [|_]; [lia|].
  destruct (Z.eqb_spec id id') as [<-|Hne]; [rewrite PositiveMap.gss; reflexivity|].
  rewrite PositiveMap.gso by (unfold key; lia). unfold mask_get. destruct (Z.ltb_spec id' 0); [lia|reflexivity].
Qed.
Lemma mask_get_neg t id : id < 0 -> mask_get t id = 0.
Proof. intros H. unfold mask_get. destruct (Z.ltb_spec id 0); [reflexivity|lia]. Qed.
Lemma mask_get_empty id : mask_get (PositiveMap.empty Z) id = 0.
Proof. unfold mask_get. rewrite PositiveMap.gempty. destruct (_ <? _); reflexivity. Qed.
Lemma mask_tree_bit {A} o (rows : list (Z * (Z * A))) id k : Forall (fun r => 0 <= fst (snd r)) rows ->
  Z.testbit (mask_get (mask_tree o rows) id) k = true -> exists m x, In (m, (id, x)) rows /\ Z.testbit (avail o m) k = true.
Proof.
  intros HF H. destruct (Z_lt_le_dec id 0) as [Hn|Hn]; [rewrite mask_get_neg, Z.bits_0 in H by exact Hn; discriminate|].
  induction HF as [|[m [i x]] rows Hi HF IH]; cbn [mask_tree fold_right fst snd] in H.
  - rewrite mask_get_empty, Z.bits_0 in H. discriminate.
  - cbn [fst snd] in Hi. rewrite mask_get_add in H by assumption. destruct (Z.eqb_spec i id) as [->|Hne].
    + rewrite Z.lor_spec in H. apply orb_prop in H. destruct H as [H|H]; [exists m, x; split; [left; reflexivity|exact H]|].
      destruct (IH H) as (m' & x' & HI & HB). exists m', x'. split; [right; exact HI|exact HB].
    + destruct (IH H) as (m' & x' & HI & HB). exists m', x'. split; [right; exact HI|exact HB].
Qed.
Lemma bad_mask_bit o id k : (k < 36)%nat -> Z.testbit (bad_mask o id) (Z.of_nat k) = existsb (Z.eqb id) (bad_of o k).
Proof.
  intros Hk. unfold bad_mask. assert (HG : forall l, NoDup l -> Z.testbit (fold_right (fun k m => if existsb (Z.eqb id) (broken (local_version o) (Z.of_nat k + 6)) then Z.lor (2 ^ Z.of_nat k) m else m) 0 l) (Z.of_nat k)
     = existsb (Nat.eqb k) l && existsb (Z.eqb id) (bad_of o k)).
  { induction l as [|i l IH]; intros HN; cbn [fold_right existsb]; [apply Z.bits_0|]. inversion HN; subst.
    destruct (Nat.eqb_spec k i) as [<-|Hne]; cbn [orb andb].
    - unfold bad_of in *. destruct (existsb (Z.eqb id) (broken _ _)) eqn:E.
      + rewrite Z.lor_spec, Z.pow2_bits_true by lia. reflexivity.
      + rewrite (IH H2), andb_false_r. reflexivity.
    - destruct (existsb (Z.eqb id) (broken _ (Z.of_nat i + 6))); [|apply IH, H2].
      rewrite Z.lor_spec, Z.pow2_bits_false by lia. apply IH, H2. }
  rewrite HG by apply seq_NoDup. replace (existsb (Nat.eqb k) (seq 0 36)) with true; [reflexivity|].
  symmetry. apply existsb_exists. exists k. rewrite in_seq, Nat.eqb_refl. split; [lia|reflexivity].
Qed.
Lemma broken_suspect l v id : In id (broken l v) -> In id suspects.
Proof.
  assert (HW : forall v, incl (wmo_broken v) suspects).
  { intros w i. unfold wmo_broken. destruct (w =? 6); [|destruct (w <=? 13); [|destruct (w <=? 18)]]; intros H; cbn [In] in H; repeat destruct H as [<-|H]; try contradiction; cbn; tauto. }
  unfold broken. intros H. repeat (rewrite ?in_app_iff, ?filter_In in H).
  repeat match type of H with context [if ?b then _ else _] => destruct b end; repeat (rewrite ?in_app_iff, ?filter_In in H);
    repeat (destruct H as [H|H]); try (apply (HW v); exact H); try (apply (HW v); apply H);
    cbn [In] in H; repeat destruct H as [<-|H]; try contradiction; cbn; tauto.
Qed.
Lemma bad_tree_bit o id k : (k < 36)%nat -> Z.testbit (mask_get (bad_tree o) id) (Z.of_nat k) = existsb (Z.eqb id) (bad_of o k).
Proof.
  intros Hk. assert (HG : forall l, Forall (fun i => 0 <= i) l -> NoDup l -> Z.testbit (mask_get (fold_right (fun id t => mask_add id (bad_mask o id) t) (PositiveMap.empty Z) l) id) (Z.of_nat k) =
     existsb (Z.eqb id) l && existsb (Z.eqb id) (bad_of o k)).
  { induction l as [|i l IH]; intros HP HN; cbn [fold_right existsb andb]; [rewrite mask_get_empty; apply Z.bits_0|].
    inversion HP; inversion HN; subst. destruct (Z_lt_le_dec id 0) as [Hn|Hn].
    - rewrite mask_get_neg by exact Hn. specialize (IH H2 H6). rewrite mask_get_neg in IH by exact Hn. rewrite Z.bits_0 in *.
      destruct (Z.eqb_spec id i); [lia|]. exact IH.
    - rewrite mask_get_add by assumption. rewrite (Z.eqb_sym id i). destruct (Z.eqb_spec i id) as [->|Hne]; cbn [orb andb]; [|apply IH; assumption].
      rewrite Z.lor_spec, bad_mask_bit by exact Hk. specialize (IH H2 H6). rewrite IH. destruct (existsb (Z.eqb id) (bad_of o k)); [reflexivity|]. rewrite andb_false_r. reflexivity. }
  unfold bad_tree. rewrite HG.
  - destruct (existsb (Z.eqb id) (bad_of o k)) eqn:E; [|apply andb_false_r]. rewrite andb_true_r. apply mem_spec. apply mem_spec in E. eapply broken_suspect, E.
  - repeat constructor; lia.
  - repeat constructor; cbn; lia.
Qed.
Lemma subset_bit a b k : (Z.land a b =? a) = true -> Z.testbit a k = true -> Z.testbit b k = true.
Proof. intros H Ha. apply Z.eqb_eq in H. rewrite <- H, Z.land_spec in Ha. apply andb_prop in Ha. tauto. Qed.
