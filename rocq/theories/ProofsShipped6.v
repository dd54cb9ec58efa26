(** Numbers and units of the shipped elements; a file system that holds the shipped tables. *)
From Coq Require Import Reals Lra Lia ZifyBool ZifyNat.
From Flocq Require Import Core BinarySingleNaN.
From Verif Require Import SpecUnpack SpecReal ProofsReal ProofsReal2 SpecShipped ProofsTable ProofsTable2 ProofsShipped ProofsShipped2.
Open Scope Z_scope.

Lemma mul_exact r y : Z.abs r < 2 ^ 53 -> 0 <= y <= 22 -> Z.abs (r * 10 ^ y) < 2 ^ 53 ->
  f64_mul (f64_of_Z r) (pow10 y) = f64_of_Z (r * 10 ^ y).
Proof.
  intros Hr Hy Hp. destruct (of_Z_full r Hr) as (a & Ea & Fa & Ra & Sa).
  destruct (of_Z_full (r * 10 ^ y) Hp) as (c & Ec & Fc & Rc & Sc).
  destruct (pow10_pos y Hy) as ((b & Eb & Fb) & Rb). unfold R64 in Rb. rewrite Eb, SF2R_B2SF in Rb.
  assert (H10 : (0 < IZR (10 ^ y))%R) by (apply IZR_lt, Z.pow_pos_nonneg; lia).
  assert (Sb : Bsign b = false).
  { destruct b as [s|s| |s m e B]; try discriminate Fb; cbn in Rb; [lra|]. destruct s; [|reflexivity]. exfalso.
    assert (HH : (F2R (Float radix2 (Z.neg m) e) < 0)%R) by (apply F2R_lt_0; reflexivity). cbn in HH, Rb. lra. }
  rewrite Ea, Eb, Ec, mul_B. f_equal.
  pose proof (Bmult_correct _ _ Hprec Hmax mode_NE a b) as H. rewrite rne_fx in H. rewrite Ra, Rb, <- mult_IZR in H. unfold rne in H.
  rewrite round_generic in H by (auto with typeclass_instances; now apply int_format).
  rewrite Rlt_bool_true in H by (eapply Rlt_trans; [now apply int_lt|now apply bpow_lt]).
  destruct H as (H1 & H2 & H3).
  assert (HF : is_finite (Bmult mode_NE a b) = true) by (rewrite H2, Fa, Fb; reflexivity).
  apply B2R_Bsign_inj; auto; [congruence|]. rewrite H3 by (destruct (Bmult mode_NE a b); try reflexivity; discriminate). rewrite Sa, Sb, Sc, xorb_false_r, mult_IZR.
  destruct (Rcompare_spec (IZR r) 0) as [L|L|L], (Rcompare_spec (IZR r * IZR (10 ^ y)) 0) as [M|M|M]; try reflexivity; exfalso; nra.
Qed.

(** ** Elements of a group *)
Lemma chain_EB gs id d e : Lookup (GChain gs) id = Ok d -> d_entry d = EB e -> exists g, In g gs /\ s_b g id = Some e.
Proof.
  cbn [Lookup]. intros H HE. apply chain_Lookup_ok in H. destruct H as (pre & g & post & -> & HK & _). exists g.
  split; [apply in_or_app; right; left; reflexivity|].
  destruct HK as [(_ & e' & He & ->)|[(_ & ->)|[(_ & ->)|(_ & ms & _ & ->)]]]; cbn in HE; try discriminate. congruence.
Qed.
(** Table [k] holds WMO version [k] + 6, or is one of the four local tables. *)
Lemma shipped_element g l v id d e : shipped_group g l v -> Lookup g id = Ok d -> d_entry d = EB e ->
  exists i r, (i < 40)%nat /\ In (id, r) (rows_of i b_rows) /\ agrees e r /\
    (Z.of_nat i + 6 = v \/ l <> 0 /\ (36 <= i)%nat).
Proof.
  intros HG HL HE. destruct HG as [k v g Hk Ht|j k l v h g Hj Hh Hk Ht].
  - destruct (chain_EB _ _ _ _ HL HE) as (g' & [<-|[]] & Hs). destruct Ht as (H1 & _). destruct (H1 _ _ Hs) as (r & Hr & Ha).
    exists k, r. destruct (wmo_index _ _ Hk) as (Hk' & ->). split; [lia|]. auto.
  - destruct (wmo_index _ _ Hk) as (Hk' & ->). destruct (local_index _ _ Hj) as (Hj' & Hl).
    assert (Hl0 : l <> 0) by (cbn [In] in Hl; repeat (destruct Hl as [Hl|Hl]; [injection Hl as _ <-; lia|]); contradiction).
    destruct (chain_EB _ _ _ _ HL HE) as (g' & [<-|[<-|[]]] & Hs).
    + destruct Hh as (H1 & _). destruct (H1 _ _ Hs) as (r & Hr & Ha). exists j, r. split; [lia|]. split; [exact Hr|]. split; [exact Ha|]. right. split; [exact Hl0|lia].
    + destruct Ht as (H1 & _). destruct (H1 _ _ Hs) as (r & Hr & Ha). exists k, r. split; [lia|]. auto.
Qed.
(** ** Magnitudes *)
Definition not_character (r : Z * (string * Z * Z * Z)) : bool :=
  match r with (_, (u, _, _, _)) => negb (gs_eqb (gs u) (gs "Character")) end.
Lemma no_character : forallb (fun r => not_character (snd r)) b_rows = true.
Proof. vm_compute. reflexivity. Qed.
Lemma shipped_magnitudes g l v id d e : shipped_group g l v -> Lookup g id = Ok d -> d_entry d = EB e ->
  Z.abs (be_scale e) <= 19 /\ Z.abs (be_refval e) <= 2 ^ 30 /\ 1 <= be_nbits e /\
  (be_unit e = STRING -> be_nbits e mod 8 = 0) /\ (be_unit e <> STRING -> be_nbits e <= 32).
Proof.
  intros HG HL HE. destruct (shipped_element _ _ _ _ _ _ HG HL HE) as (i & [[[u sc] rv] nb] & Hi & Hr & (_ & HU & -> & -> & ->) & _).
  pose proof (rows_all b_row_ok b_rows b_rows_ok i _ Hr) as HO. unfold b_row_ok in HO. rewrite !andb_true_iff in HO.
  destruct HO as ((((((Hi1 & Hi2) & Hsc) & Hrv) & Hn1) & Hn2) & H8). rewrite HU.
  split; [lia|]. split; [lia|]. split; [lia|].
  assert (HC : gs_eqb (gs u) (gs "CCITT IA5") = false -> unitOf (gs u) <> STRING \/ gs_eqb (gs u) (gs "Character") = true).
  { intros E. unfold unitOf. rewrite E. cbn [orb]. destruct (gs_eqb (gs u) (gs "Character")); [right; reflexivity|left].
    repeat match goal with |- context [if ?b then _ else _] => destruct b; try discriminate end. }
  assert (HN : gs_eqb (gs u) (gs "Character") = false).
  { pose proof (rows_all not_character b_rows no_character i _ Hr) as HX. apply negb_true_iff in HX. exact HX. }
  destruct (gs_eqb (gs u) (gs "CCITT IA5")) eqn:E.
  - split; [lia|]. intros H. exfalso. apply H. unfold unitOf. rewrite E. reflexivity.
  - split; [intros H|lia]. destruct (HC eq_refl) as [H'|H']; congruence.
Qed.
(** ** Units *)
Definition unit_is (a b : unit_t) : bool :=
  match a, b with STRING, STRING | FLAG, FLAG | NONNEG_CODE, NONNEG_CODE | NUMERIC, NUMERIC => true | _, _ => false end.
Lemma unit_is_eq a b : unit_is a b = true -> a = b.
Proof. destruct a, b; try discriminate; reflexivity. Qed.
Definition unit_right (mask : Z) (but : Z -> bool) (r : Z * (Z * (string * Z * Z * Z))) : bool :=
  match r with (m, (id, (u, _, _, _))) => (Z.land m mask =? 0) || but id || unit_is (unitOf (gs u)) (meant (gs u)) end.
Definition unit_wrong (mask : Z) (r : Z * (Z * (string * Z * Z * Z))) : bool :=
  match r with (m, (id, (u, _, _, _))) => (Z.land m mask =? 0) || unit_is (unitOf (gs u)) NUMERIC || unit_is (unitOf (gs u)) STRING end.
Definition local_mask : Z := 2 ^ 40 - 2 ^ 36.
Lemma units_old : forallb (unit_right (local_mask + (2 ^ 10 - 1)) (fun _ => false)) b_rows = true.
Proof. vm_compute. reflexivity. Qed.
Lemma units_middle : forallb (unit_right (local_mask + (2 ^ 29 - 1)) (Z.eqb 1032)) b_rows = true.
Proof. vm_compute. reflexivity. Qed.
Lemma units_new : forallb (unit_wrong (2 ^ 36 - 2 ^ 29)) b_rows = true.
Proof. vm_compute. reflexivity. Qed.
Lemma land_bit m mask k : Z.testbit m k = true -> Z.testbit mask k = true -> (Z.land m mask =? 0) = false.
Proof.
  intros H1 H2. apply Z.eqb_neq. intros E. assert (H : Z.testbit (Z.land m mask) k = true) by (rewrite Z.land_spec, H1, H2; reflexivity).
  rewrite E, Z.bits_0 in H. discriminate.
Qed.
Definition has_bits (mask : Z) (l : list nat) : bool := forallb (fun k => Z.testbit mask (Z.of_nat k)) l.
Lemma has_bits_in mask l k : has_bits mask l = true -> In k l -> Z.testbit mask (Z.of_nat k) = true.
Proof. unfold has_bits. rewrite forallb_forall. auto. Qed.
Lemma row_unit mask but i id r e : forallb (unit_right mask but) b_rows = true -> Z.testbit mask (Z.of_nat i) = true ->
  In (id, r) (rows_of i b_rows) -> agrees e r -> but id = false -> be_unit e = meant (be_unit_string e).
Proof.
  intros H Hm Hr Ha Hb. apply In_rows in Hr. destruct Hr as (m & Hr & Ht). rewrite forallb_forall in H. specialize (H _ Hr).
  destruct r as [[[u sc] rv] nb]. destruct Ha as (-> & -> & _). unfold unit_right in H. rewrite (land_bit _ _ _ Ht Hm), Hb in H. apply unit_is_eq, H.
Qed.
Lemma shipped_units_old g l v id d e : shipped_group g l v -> v <= 15 -> Lookup g id = Ok d -> d_entry d = EB e ->
  be_unit e = meant (be_unit_string e).
Proof.
  intros HG Hv HL HE. destruct (shipped_element _ _ _ _ _ _ HG HL HE) as (i & r & Hi & Hr & Ha & HX).
  eapply (row_unit _ _ i id r e units_old); eauto. apply (has_bits_in _ (seq 0 10 ++ seq 36 4)); [vm_compute; reflexivity|].
  apply in_or_app. rewrite !in_seq. lia.
Qed.
Lemma shipped_units_middle g l v id d e : shipped_group g l v -> v <= 34 -> id <> 1032 -> Lookup g id = Ok d -> d_entry d = EB e ->
  be_unit e = meant (be_unit_string e).
Proof.
  intros HG Hv Hid HL HE. destruct (shipped_element _ _ _ _ _ _ HG HL HE) as (i & r & Hi & Hr & Ha & HX).
  eapply (row_unit _ _ i id r e units_middle); eauto; [|lia]. apply (has_bits_in _ (seq 0 29 ++ seq 36 4)); [vm_compute; reflexivity|].
  apply in_or_app. rewrite !in_seq. lia.
Qed.
Lemma shipped_units_new g v id d e : shipped_group g 0 v -> 35 <= v -> Lookup g id = Ok d -> d_entry d = EB e ->
  be_unit e = NUMERIC \/ be_unit e = STRING.
Proof.
  intros HG Hv HL HE. destruct (shipped_element _ _ _ _ _ _ HG HL HE) as (i & r & Hi & Hr & Ha & HX).
  assert (Hb : Z.testbit (2 ^ 36 - 2 ^ 29) (Z.of_nat i) = true).
  { apply (has_bits_in _ (seq 29 7)); [vm_compute; reflexivity|]. rewrite in_seq.
    destruct HX as [HX|(HX & _)]; [|congruence]. destruct HG as [k v g Hk _|]; [destruct (wmo_index _ _ Hk); lia|].
    match goal with H : nth_error _ _ = Some (0, 0, 0, v) |- _ => destruct (wmo_index _ _ H); lia end. }
  apply In_rows in Hr. destruct Hr as (m & Hr & Ht). pose proof units_new as H. rewrite forallb_forall in H. specialize (H _ Hr).
  destruct r as [[[u sc] rv] nb]. destruct Ha as (_ & -> & _). unfold unit_wrong in H. rewrite (land_bit _ _ _ Ht Hb) in H. cbn [orb] in H.
  apply orb_prop in H. destruct H as [H|H]; apply unit_is_eq in H; auto.
Qed.
(** ** A file system with the shipped tables *)
Definition same_table (a b : Z * Z * Z * Z) : bool :=
  match a, b with (m, c, s, v), (m', c', s', v') => (m =? m') && (c =? c') && (s =? s') && (v =? v') end.
Lemma same_table_eq a b : same_table a b = true <-> a = b.
Proof.
  destruct a as [[[m c] s] v], b as [[[m' c'] s'] v']. cbn. rewrite !andb_true_iff, !Z.eqb_eq. split; [intros (((-> & ->) & ->) & ->); reflexivity|].
  intros H. injection H as -> -> -> ->. auto.
Qed.
Definition table_index (t : Z * Z * Z * Z) : option nat :=
  find (fun k => match nth_error shipped_tables k with Some t' => same_table t t' | None => false end) (seq 0 40).
Lemma table_index_nth k t : nth_error shipped_tables k = Some t -> table_index t = Some k.
Proof.
  intros H. pose proof (table_lt _ _ H) as Hk.
  assert (HC : forallb (fun k => match nth_error shipped_tables k with Some t => match table_index t with Some k' => Nat.eqb k k' | None => false end | None => false end) (seq 0 40) = true) by (vm_compute; reflexivity).
  rewrite forallb_forall in HC. specialize (HC k ltac:(apply in_seq; lia)). cbv beta in HC. rewrite H in HC.
  destruct (table_index t) as [k'|]; [|discriminate]. apply Nat.eqb_eq in HC. congruence.
Qed.
Lemma table_index_some k t : table_index t = Some k -> nth_error shipped_tables k = Some t.
Proof.
  intros H. apply find_some in H. destruct H as (_ & H). destruct (nth_error shipped_tables k) as [t'|]; [|discriminate]. apply same_table_eq in H. congruence.
Qed.
Definition b_file_of (k : nat) : file :=
  FileOk (map (fun r => match r with (id, (u, sc, rv, nb)) => (id_String id, record_of [] (gs u) sc rv nb [] 0 0) end) (rows_of k b_rows)).
Definition d_file_of (k : nat) : file :=
  FileOk (map (fun r => (id_String (fst r), [AStr []; AList (map (fun id => AStr (id_String id)) (snd r))])) (rows_of k d_rows)).
Lemma Forall2_map_self {A B} (P : A -> B -> Prop) (f : A -> B) l : (forall a, P a (f a)) -> Forall2 P l (map f l).
Proof. intros H. induction l; constructor; auto. Qed.
Lemma b_file_of_ok k : b_file k (b_file_of k).
Proof.
  eexists. exists (rows_of k b_rows). split; [reflexivity|]. split; [apply Permutation_refl|]. apply Forall2_map_self. intros [id [[[u sc] rv] nb]].
  split; [reflexivity|]. exists [], [], 0, 0. repeat split; reflexivity.
Qed.
Lemma d_file_of_ok k : d_file k (d_file_of k).
Proof.
  eexists. exists (rows_of k d_rows). split; [reflexivity|]. split; [apply Permutation_refl|]. apply Forall2_map_self. intros [id ms].
  split; [reflexivity|]. exists []. reflexivity.
Qed.
Definition files_fs (pl : platform) : tablefs :=
  mkTableFs (fun m c s v => match table_index (m, c, s, v) with Some k => LoadTableB pl (b_file_of k) | None => Err ENotExist end)
            (fun m c s v => match table_index (m, c, s, v) with Some k => LoadTableD (d_file_of k) | None => Err ENotExist end).
Lemma files_fs_shipped pl : shipped_fs (files_fs pl).
Proof.
  split.
  - intros k m c s v Hk. destruct (shipped_loads pl k _ _ (table_lt _ _ Hk) (b_file_of_ok k) (d_file_of_ok k)) as (b & d & Hb & Hd & HT).
    exists (mkSingle b d). split; [|exact HT]. unfold present. cbn [files_fs fs_B fs_D s_b s_d]. rewrite (table_index_nth _ _ Hk). auto.
  - intros m c s v Hn. cbn [files_fs fs_B]. destruct (table_index (m, c, s, v)) as [k|] eqn:E; [|reflexivity].
    exfalso. apply Hn. eapply nth_error_In, table_index_some, E.
Qed.
Lemma shipped_exists fs l v : shipped_fs fs -> In (0, 0, 0, v) shipped_tables -> l = 0 \/ In (0, 98, 0, l) shipped_tables ->
  exists g, shipped_group g l v.
Proof.
  intros (HF & _) Hv Hl. destruct (shipped_lookup _ Hv) as (k & Hk). destruct (HF _ _ _ _ _ Hk) as (g & _ & Hg). destruct Hl as [->|Hl].
  - exists (GChain [g]). econstructor; eauto.
  - destruct (shipped_lookup _ Hl) as (j & Hj). destruct (HF _ _ _ _ _ Hj) as (h & _ & Hh). exists (GChain [h; g]). econstructor; eauto.
Qed.
Lemma shipped_strings g l v id d e : shipped_group g l v -> Lookup g id = Ok d -> d_entry d = EB e -> be_unit e = STRING ->
  meant (be_unit_string e) = STRING.
Proof.
  intros HG HL HE HU. destruct (shipped_element _ _ _ _ _ _ HG HL HE) as (i & [[[u sc] rv] nb] & Hi & Hr & (-> & Hu & _) & _).
  rewrite Hu in HU. pose proof (rows_all not_character b_rows no_character i _ Hr) as HX. apply negb_true_iff in HX.
  unfold unitOf in HU. rewrite HX, orb_false_r in HU. destruct (gs_eqb (gs u) (gs "CCITT IA5")) eqn:E.
  - apply gs_eqb_eq in E. rewrite E. vm_compute. reflexivity.
  - repeat match type of HU with context [if ?b then _ else _] => destruct b; try discriminate end.
Qed.
Lemma shipped_strings_iff g l v id d e : shipped_group g l v -> Lookup g id = Ok d -> d_entry d = EB e ->
  (be_unit e = STRING <-> meant (be_unit_string e) = STRING).
Proof.
  intros HG HL HE. split; [now apply (shipped_strings g l v id d e)|].
  destruct (shipped_element _ _ _ _ _ _ HG HL HE) as (i & [[[u sc] rv] nb] & Hi & Hr & (-> & -> & _) & _).
  unfold meant, unitOf. destruct (contains _ _); [discriminate|]. destruct (contains _ _); [discriminate|].
  destruct (gs_eqb (gs u) (gs "CCITT IA5")); [reflexivity|discriminate].
Qed.
