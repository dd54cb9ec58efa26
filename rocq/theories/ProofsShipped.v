(** Proofs about the shipped tables: loading, acyclicity, units, magnitudes. *)
From Coq Require Import Lia Sorted FMapPositive ZifyBool.
From Verif Require Import SpecShipped ProofsTable ProofsTable2.

(** ** Rows *)
Lemma In_rows {A} k (rows : list (Z * A)) x : In x (rows_of k rows) <->
  exists m, In (m, x) rows /\ Z.testbit m (Z.of_nat k) = true.
Proof.
  unfold rows_of. rewrite in_map_iff. split.
  - intros ([m y] & <- & H). apply filter_In in H. exists m. exact H.
  - intros (m & H & Ht). exists (m, x). split; [reflexivity|]. apply filter_In. auto.
Qed.
Lemma rows_all {A} (P : A -> bool) (rows : list (Z * A)) : forallb (fun r => P (snd r)) rows = true ->
  forall k x, In x (rows_of k rows) -> P x = true.
Proof. intros H k x Hx. apply In_rows in Hx. destruct Hx as (m & Hm & _). rewrite forallb_forall in H. apply (H _ Hm). Qed.

(** No two rows of one table have the same identifier: ordered by identifier. *)
Fixpoint increasing (l : list Z) : bool :=
  match l with a :: (b :: _) as r => (a <? b) && increasing r | _ => true end.
Lemma increasing_lt : forall l a x, increasing (a :: l) = true -> In x l -> a < x.
Proof.
  induction l as [|b l IH]; intros a x H Hx; [contradiction|]. cbn in H. apply andb_prop in H. destruct H as (H1 & H2).
  destruct Hx as [<-|Hx]; [lia|]. specialize (IH b x H2 Hx). lia.
Qed.
Lemma increasing_NoDup : forall l, increasing l = true -> NoDup l.
Proof.
  induction l as [|a l IH]; intros H; constructor.
  - intros Ha. pose proof (increasing_lt _ _ _ H Ha). lia.
  - apply IH. cbn in H. destruct l; [reflexivity|]. apply andb_prop in H. tauto.
Qed.
Lemma b_increasing : forallb (fun k => increasing (map fst (rows_of k b_rows))) (seq 0 40) = true.
Proof. vm_compute. reflexivity. Qed.
Lemma d_increasing : forallb (fun k => increasing (map fst (rows_of k d_rows))) (seq 0 40) = true.
Proof. vm_compute. reflexivity. Qed.
Lemma table_lt k t : nth_error shipped_tables k = Some t -> (k < 40)%nat.
Proof. intros H. change 40%nat with (length shipped_tables). apply nth_error_Some. rewrite H. discriminate. Qed.
Lemma b_unique k : (k < 40)%nat -> NoDup (map fst (rows_of k b_rows)).
Proof. intros H. apply increasing_NoDup. pose proof b_increasing as HB. rewrite forallb_forall in HB. apply (HB k). apply in_seq. lia. Qed.
Lemma d_unique k : (k < 40)%nat -> NoDup (map fst (rows_of k d_rows)).
Proof. intros H. apply increasing_NoDup. pose proof d_increasing as HB. rewrite forallb_forall in HB. apply (HB k). apply in_seq. lia. Qed.
Lemma NoDup_fst {A B} (l : list (A * B)) a b b' : NoDup (map fst l) -> In (a, b) l -> In (a, b') l -> b = b'.
Proof.
  induction l as [|[x y] l IH]; intros HN H H'; [contradiction|]. cbn in HN. apply NoDup_cons_iff in HN. destruct HN as (HN & HN').
  destruct H as [H|H], H' as [H'|H'].
  - congruence.
  - injection H as -> ->. exfalso. apply HN. apply in_map_iff. exists (a, b'). auto.
  - injection H' as -> ->. exfalso. apply HN. apply in_map_iff. exists (a, b). auto.
  - auto.
Qed.

(** ** Magnitudes *)
Definition b_row_ok (r : Z * (string * Z * Z * Z)) : bool :=
  match r with
  | (id, (u, scale, refval, nbits)) =>
      (0 <=? id) && (id <? 100000) && (Z.abs scale <=? 19) && (Z.abs refval <=? 2 ^ 30) && (1 <=? nbits) && (nbits <? 2 ^ 53) &&
      (if gs_eqb (gs u) (gs "CCITT IA5") then nbits mod 8 =? 0 else nbits <=? 32)
  end.
Lemma b_rows_ok : forallb (fun r => b_row_ok (snd r)) b_rows = true.
Proof. vm_compute. reflexivity. Qed.
Definition d_row_ok (r : Z * list Z) : bool :=
  (300000 <=? fst r) && (fst r <? 400000) && forallb (fun i => (0 <=? i) && (i <? 400000)) (snd r).
Lemma d_rows_ok : forallb (fun r => d_row_ok (snd r)) d_rows = true.
Proof. vm_compute. reflexivity. Qed.

(** ** Loading *)
Lemma Forall2_in_r {A B} (P : A -> B -> Prop) l l' y : Forall2 P l l' -> In y l' -> exists x, In x l /\ P x y.
Proof.
  induction 1 as [|a b l l' HP HF IH]; intros Hy; [contradiction|]. destruct Hy as [<-|Hy].
  - exists a. split; [left; reflexivity|exact HP].
  - destruct (IH Hy) as (x & Hx & Hp). exists x. split; [right; exact Hx|exact Hp].
Qed.
Lemma Forall2_in_l {A B} (P : A -> B -> Prop) l l' x : Forall2 P l l' -> In x l -> exists y, In y l' /\ P x y.
Proof.
  induction 1 as [|a b l l' HP HF IH]; intros Hy; [contradiction|]. destruct Hy as [<-|Hy].
  - exists b. split; [left; reflexivity|exact HP].
  - destruct (IH Hy) as (y & Hx & Hp). exists y. split; [right; exact Hx|exact Hp].
Qed.
Lemma load_ok {A} (conv : list any -> res A) tag recs : forall acc,
  (forall key r, In (key, r) recs -> exists id e, atoi key = Ok id /\ conv r = Ok e) ->
  exists m, load_records conv tag recs acc = Ok m.
Proof.
  induction recs as [|[key r] recs IH]; intros acc H; cbn [load_records]; [eauto|].
  destruct (H key r) as (id & e & -> & ->); [left; reflexivity|]. apply IH. intros key' r' HI. apply H. right. exact HI.
Qed.

Section Load.
  Context {A B : Type}.
  Variable conv : list any -> res B.
  Variable P : Z * A -> gostring * list any -> Prop.
  Variable Q : A -> B -> Prop.
  Variable rows : list (Z * A).
  Hypothesis HN : NoDup (map fst rows).
  Hypothesis HP : forall id a rec, In (id, a) rows -> P (id, a) rec ->
    atoi (fst rec) = Ok id /\ exists b, conv (snd rec) = Ok b /\ Q a b.
  Lemma conv_rows recs rows' tag : Permutation rows' rows -> Forall2 P rows' recs ->
    (forall k r k' r' id, In (k, r) recs -> In (k', r') recs -> atoi k = Ok id -> atoi k' = Ok id -> r = r') ->
    exists m, load_records conv tag recs [] = Ok m /\
      (forall id b, assoc_get m id = Some b -> exists a, In (id, a) rows /\ Q a b) /\
      (forall id a, In (id, a) rows -> exists b, assoc_get m id = Some b /\ Q a b).
  Proof.
    intros Hp HF HD.
    assert (HR : forall key r, In (key, r) recs -> exists id a, In (id, a) rows /\ atoi key = Ok id /\ exists b, conv r = Ok b /\ Q a b).
    { intros key r HI. destruct (Forall2_in_r _ _ _ _ HF HI) as ([id a] & Ha & Hpa).
      assert (Hr : In (id, a) rows) by (apply (Permutation_in _ Hp Ha)). destruct (HP id a _ Hr Hpa) as (H1 & b & H2 & H3).
      exists id, a. split; [exact Hr|]. split; [exact H1|]. exists b. auto. }
    destruct (load_ok conv tag recs []) as (m & Hm).
    { intros key r HI. destruct (HR key r HI) as (id & a & _ & H1 & b & H2 & _). eauto. }
    exists m. split; [exact Hm|]. split.
    - intros id b Hb. apply (load_records_exact conv tag recs m id b Hm HD) in Hb. destruct Hb as (key & r & HI & Hk & Hc).
      destruct (HR key r HI) as (id' & a & Hr & H1 & b' & H2 & H3). exists a. split; [congruence|]. congruence.
    - intros id a Hr. assert (Ha : In (id, a) rows') by (apply (Permutation_in _ (Permutation_sym Hp) Hr)).
      destruct (Forall2_in_l _ _ _ _ HF Ha) as ([key r] & HI & Hpa). destruct (HP id a _ Hr Hpa) as (H1 & b & H2 & H3).
      exists b. split; [|exact H3]. apply (load_records_exact conv tag recs m id b Hm HD). exists key, r. auto.
  Qed.
  (** Keys are distinct when rows are. *)
  Lemma keys_distinct recs rows' : Permutation rows' rows -> Forall2 P rows' recs ->
    forall k r k' r' id, In (k, r) recs -> In (k', r') recs -> atoi k = Ok id -> atoi k' = Ok id -> r = r'.
  Proof.
    intros Hp HF.
    assert (HN' : NoDup (map fst rows')) by (apply (Permutation_NoDup (Permutation_map fst (Permutation_sym Hp)) HN)).
    assert (HA : forall x y, In x rows' -> P x y -> atoi (fst y) = Ok (fst x)).
    { intros [id a] y Hx Hy. apply (HP id a y); [apply (Permutation_in _ Hp Hx)|exact Hy]. }
    clear Hp. induction HF as [|x y rows' recs Hxy HF IH]; intros k r k' r' id H H' Hk Hk'; [contradiction|].
    cbn in HN'. apply NoDup_cons_iff in HN'. destruct HN' as (HN1 & HN2).
    assert (HD : forall kk rr, In (kk, rr) recs -> atoi kk = Ok (fst x) -> False).
    { intros kk rr HI Hkk. destruct (Forall2_in_r _ _ _ _ HF HI) as (x' & Hx' & Hp'). apply HN1.
      specialize (HA x' (kk, rr) (or_intror Hx') Hp'). cbn [fst] in HA. rewrite HA in Hkk. injection Hkk as Hkk. rewrite <- Hkk.
      apply in_map. exact Hx'. }
    pose proof (HA x y (or_introl eq_refl) Hxy) as Hy.
    destruct H as [H|H], H' as [H'|H'].
    - congruence.
    - exfalso. subst y. cbn [fst] in Hy. apply (HD k' r' H'). congruence.
    - exfalso. subst y. cbn [fst] in Hy. apply (HD k r H). congruence.
    - eapply IH; eauto. intros x' y' Hx'. apply HA. right. exact Hx'.
  Qed.
End Load.

Lemma shipped_loads pl k fb fd : (k < 40)%nat -> b_file k fb -> d_file k fd ->
  exists b d, LoadTableB pl fb = Ok b /\ LoadTableD fd = Ok d /\ is_table k (mkSingle b d).
Proof.
  intros Hk (rb & rowsb & -> & Hpb & HFb) (rd & rowsd & -> & Hpd & HFd).
  assert (HPb : forall id a rec, In (id, a) (rows_of k b_rows) -> b_record (id, a) rec ->
    atoi (fst rec) = Ok id /\ exists b, recordToBentry pl (snd rec) = Ok b /\ agrees b a).
  { intros id [[[u sc] rv] nb] rec HI (H1 & name & cu & cs & cn & Hcs & Hcn & H2).
    pose proof (rows_all b_row_ok b_rows b_rows_ok k _ HI) as HO. unfold b_row_ok in HO.
    rewrite !andb_true_iff in HO. destruct HO as ((((((Hi1 & Hi2) & Hsc) & Hrv) & Hn1) & Hn2) & _).
    split; [rewrite H1; apply atoi_id_String; lia|]. rewrite H2.
    pose proof (record_faithful pl name (gs u) sc rv nb cu cs cn []) as HR. rewrite app_nil_r in HR.
    rewrite HR; [|unfold json_int; lia|unfold json_int; lia|unfold json_int; lia|exact Hcs|exact Hcn].
    eexists. split; [reflexivity|]. cbn. auto. }
  assert (HPd : forall id a rec, In (id, a) (rows_of k d_rows) -> d_record (id, a) rec ->
    atoi (fst rec) = Ok id /\ exists b, recordToDentry (snd rec) = Ok b /\ a = b).
  { intros id ms rec HI (H1 & name & H2). pose proof (rows_all d_row_ok d_rows d_rows_ok k _ HI) as HO. unfold d_row_ok in HO.
    rewrite !andb_true_iff in HO. cbn [fst snd] in *. destruct HO as ((Hi1 & Hi2) & Hms).
    split; [rewrite H1; apply atoi_id_String; lia|]. rewrite H2. exists ms. split; [|reflexivity]. apply (dentry_faithful name ms []).
    rewrite forallb_forall in Hms. apply Forall_forall. intros i Hi. specialize (Hms i Hi). lia. }
  destruct (conv_rows (recordToBentry pl) b_record (fun a b => agrees b a) (rows_of k b_rows) HPb rb rowsb "error loading table B" Hpb HFb
    (keys_distinct (recordToBentry pl) b_record (fun a b => agrees b a) (rows_of k b_rows) (b_unique k Hk) HPb rb rowsb Hpb HFb)) as (mb & HLb & Hb1 & Hb2).
  destruct (conv_rows recordToDentry d_record eq (rows_of k d_rows) HPd rd rowsd "error loading table D" Hpd HFd
    (keys_distinct recordToDentry d_record eq (rows_of k d_rows) (d_unique k Hk) HPd rd rowsd Hpd HFd)) as (md & HLd & Hd1 & Hd2).
  exists (assoc_get mb), (assoc_get md). cbn [LoadTableB LoadTableD]. rewrite HLb, HLd. cbn [rbind].
  split; [reflexivity|]. split; [reflexivity|]. split; [|split]; cbn [s_b s_d].
  - intros id e He. destruct (Hb1 id e He) as (a & Ha & HA). eauto.
  - exact Hb2.
  - intros id ms. split.
    + intros Hm. destruct (Hd1 id ms Hm) as (a & Ha & ->). exact Ha.
    + intros Hm. destruct (Hd2 id ms Hm) as (b & Hb & ->). exact Hb.
Qed.
