(** Proofs about the String methods. *)
From Verif Require Import SpecNames ProofsTable ProofsTable2.
From Coq Require Import Lia.

Lemma numbered_inj t i j : numbered t i = numbered t j -> i = j.
Proof.
  unfold numbered. intros H. apply app_inv_head in H. apply app_inv_head in H. apply app_inv_tail in H. apply itoa_inj, H.
Qed.
Lemma prints_total type names i : exists t, prints type names i t.
Proof.
  destruct (in_dec Z.eq_dec i (map fst names)) as [H|H].
  - apply in_map_iff in H. destruct H as ([k n] & <- & H). exists (gs n). left. eauto.
  - exists (gs type ++ gs "(" ++ itoa i ++ gs ")"). right. auto.
Qed.

(** Decides a statement about each number of a short range. *)
Ltac one_of H i l :=
  match l with
  | nil => idtac
  | ?k :: ?l' => destruct (Z.eq_dec i k) as [->|]; [|one_of H i l']
  end.

Lemma Operator_prints i t : Operator_String i = Ok t <-> prints "Operator" operator_names i t.
Proof.
  assert (HF : forall k n, In (k, n) operator_names -> Operator_String k = Ok (gs n)).
  { intros k n H. cbn in H. repeat (destruct H as [H|H]; [injection H as <- <-; vm_compute; reflexivity|]). contradiction. }
  assert (HN : ~ In i (map fst operator_names) -> Operator_String i = Ok (numbered "Operator" i)).
  { intros H. cbn in H. unfold Operator_String.
    destruct ((201 <=? i) && (i <=? 208)) eqn:E1; [exfalso; apply H; lia|].
    destruct ((221 <=? i) && (i <=? 225)) eqn:E2; [exfalso; apply H; lia|].
    destruct (i =? 232) eqn:E3; [exfalso; apply H; lia|].
    destruct ((235 <=? i) && (i <=? 237)) eqn:E4; [exfalso; apply H; lia|].
    destruct ((241 <=? i) && (i <=? 243)) eqn:E5; [exfalso; apply H; lia|]. reflexivity. }
  split.
  - intros H. destruct (in_dec Z.eq_dec i (map fst operator_names)) as [HI|HI].
    + apply in_map_iff in HI. destruct HI as ([k n] & <- & HI). left. exists n. split; [exact HI|].
      cbn [fst] in H. rewrite (HF _ _ HI) in H. congruence.
    + right. split; [exact HI|]. rewrite (HN HI) in H. injection H as <-. reflexivity.
  - intros [(n & HI & ->)|(HI & ->)]; [apply HF, HI|apply HN, HI].
Qed.
Lemma EventCode_prints i t : EventCode_String i = Ok t <-> prints "EventCode" event_names i t.
Proof.
  assert (HF : forall k n, In (k, n) event_names -> EventCode_String k = Ok (gs n)).
  { intros k n H. cbn in H. repeat (destruct H as [H|H]; [injection H as <- <-; vm_compute; reflexivity|]). contradiction. }
  assert (HN : ~ In i (map fst event_names) -> EventCode_String i = Ok (numbered "EventCode" i)).
  { intros H. cbn in H. unfold EventCode_String.
    destruct ((i <? 0) || (13 <=? i)) eqn:E1; [reflexivity|exfalso; apply H; lia]. }
  split.
  - intros H. destruct (in_dec Z.eq_dec i (map fst event_names)) as [HI|HI].
    + apply in_map_iff in HI. destruct HI as ([k n] & <- & HI). left. exists n. split; [exact HI|].
      cbn [fst] in H. rewrite (HF _ _ HI) in H. congruence.
    + right. split; [exact HI|]. rewrite (HN HI) in H. injection H as <-. reflexivity.
  - intros [(n & HI & ->)|(HI & ->)]; [apply HF, HI|apply HN, HI].
Qed.

(** Different numbers print differently. *)
Lemma prints_inj type names i j t :
  NoDup (map (fun p => gs (snd p)) names) ->
  (forall k n z, In (k, n) names -> gs n <> numbered type z) ->
  prints type names i t -> prints type names j t -> i = j.
Proof.
  intros HN HD [(n & Hi & Ht)|(Hi & Ht)] [(m & Hj & Hu)|(Hj & Hu)].
  - rewrite Ht in Hu. clear HD t Ht. induction names as [|[k0 n0] l IH]; [contradiction|].
    cbn [map snd] in HN. apply NoDup_cons_iff in HN. destruct HN as (HN0 & HN).
    destruct Hi as [Hi|Hi], Hj as [Hj|Hj].
    + congruence.
    + injection Hi as -> ->. exfalso. apply HN0. rewrite Hu. apply in_map_iff. exists (j, m). auto.
    + injection Hj as -> ->. exfalso. apply HN0. rewrite <- Hu. apply in_map_iff. exists (i, n). auto.
    + auto.
  - exfalso. subst t. apply (HD _ _ j Hi). exact Hu.
  - exfalso. subst t. apply (HD _ _ i Hj). symmetry. exact Hu.
  - subst t. apply (numbered_inj type). exact Hu.
Qed.
Definition second (s : gostring) : Z := nth 1 s 0.
Ltac names_apart :=
  let k := fresh in let n := fresh in let z := fresh in let H := fresh in let E := fresh in
  intros k n z H E; apply (f_equal second) in E; cbn in H;
  repeat (destruct H as [H|H]; [injection H as <- <-; vm_compute in E; discriminate|]); contradiction.
Ltac no_dup := repeat (constructor; [cbn; intuition discriminate|]); constructor.
Lemma Operator_inj i j : Operator_String i = Operator_String j -> i = j.
Proof.
  intros H. destruct (prints_total "Operator" operator_names i) as (t & Ht).
  eapply prints_inj; [| |exact Ht|apply Operator_prints; rewrite <- H; apply Operator_prints, Ht].
  - no_dup.
  - names_apart.
Qed.
Lemma EventCode_inj i j : EventCode_String i = EventCode_String j -> i = j.
Proof.
  intros H. destruct (prints_total "EventCode" event_names i) as (t & Ht).
  eapply prints_inj; [| |exact Ht|apply EventCode_prints; rewrite <- H; apply EventCode_prints, Ht].
  - no_dup.
  - names_apart.
Qed.

(** ** The stale tables *)
Definition unit_shown : list (Z * string) :=
  [(0, "NUMERIC"); (1, "STRING"); (2, "CODE"); (3, "FLAG"); (4, "COMMON_CODE"); (5, "BIN")]%string.
Definition type_shown : list (Z * string) :=
  [(0, "INT"); (1, "UINT"); (2, "FLOAT"); (3, "BOOL"); (4, "BYTES"); (5, "BIN")]%string.
Lemma Unit_prints i t : Unit_String i = Ok t <-> prints "Unit" unit_shown i t.
Proof.
  assert (HF : forall k n, In (k, n) unit_shown -> Unit_String k = Ok (gs n)).
  { intros k n H. cbn in H. repeat (destruct H as [H|H]; [injection H as <- <-; vm_compute; reflexivity|]). contradiction. }
  assert (HN : ~ In i (map fst unit_shown) -> Unit_String i = Ok (numbered "Unit" i)).
  { intros H. cbn in H. unfold Unit_String.
    destruct ((i <? 0) || (6 <=? i)) eqn:E1; [reflexivity|exfalso; apply H; lia]. }
  split.
  - intros H. destruct (in_dec Z.eq_dec i (map fst unit_shown)) as [HI|HI].
    + apply in_map_iff in HI. destruct HI as ([k n] & <- & HI). left. exists n. split; [exact HI|].
      cbn [fst] in H. rewrite (HF _ _ HI) in H. congruence.
    + right. split; [exact HI|]. rewrite (HN HI) in H. injection H as <-. reflexivity.
  - intros [(n & HI & ->)|(HI & ->)]; [apply HF, HI|apply HN, HI].
Qed.
Lemma DataType_prints i t : DataType_String i = Ok t <-> prints "DataType" type_shown i t.
Proof.
  assert (HF : forall k n, In (k, n) type_shown -> DataType_String k = Ok (gs n)).
  { intros k n H. cbn in H. repeat (destruct H as [H|H]; [injection H as <- <-; vm_compute; reflexivity|]). contradiction. }
  assert (HN : ~ In i (map fst type_shown) -> DataType_String i = Ok (numbered "DataType" i)).
  { intros H. cbn in H. unfold DataType_String.
    destruct ((i <? 0) || (6 <=? i)) eqn:E1; [reflexivity|exfalso; apply H; lia]. }
  split.
  - intros H. destruct (in_dec Z.eq_dec i (map fst type_shown)) as [HI|HI].
    + apply in_map_iff in HI. destruct HI as ([k n] & <- & HI). left. exists n. split; [exact HI|].
      cbn [fst] in H. rewrite (HF _ _ HI) in H. congruence.
    + right. split; [exact HI|]. rewrite (HN HI) in H. injection H as <-. reflexivity.
  - intros [(n & HI & ->)|(HI & ->)]; [apply HF, HI|apply HN, HI].
Qed.
Lemma Unit_inj i j : Unit_String i = Unit_String j -> i = j.
Proof.
  intros H. destruct (prints_total "Unit" unit_shown i) as (t & Ht).
  eapply prints_inj; [| |exact Ht|apply Unit_prints; rewrite <- H; apply Unit_prints, Ht].
  - no_dup.
  - names_apart.
Qed.
Lemma DataType_inj i j : DataType_String i = DataType_String j -> i = j.
Proof.
  intros H. destruct (prints_total "DataType" type_shown i) as (t & Ht).
  eapply prints_inj; [| |exact Ht|apply DataType_prints; rewrite <- H; apply DataType_prints, Ht].
  - no_dup.
  - names_apart.
Qed.

(** ** Texts of identifiers *)
Lemma delim (c : Z) : forall x y a b, ~ In c x -> ~ In c y -> x ++ c :: a = y ++ c :: b -> x = y /\ a = b.
Proof.
  induction x as [|u x IH]; intros [|v y] a b Hx Hy H; cbn in H.
  - injection H as ->. auto.
  - injection H as -> _. exfalso. apply Hy. left. reflexivity.
  - injection H as -> _. exfalso. apply Hx. left. reflexivity.
  - injection H as -> H. destruct (IH y a b) as (-> & ->); auto.
    + intros Hc. apply Hx. right. exact Hc.
    + intros Hc. apply Hy. right. exact Hc.
Qed.
Lemma delim_last (c : Z) x y a b : ~ In c x -> ~ In c y -> a ++ c :: x = b ++ c :: y -> x = y /\ a = b.
Proof.
  intros Hx Hy H. apply (f_equal (@rev Z)) in H. rewrite !rev_app_distr in H. cbn [rev] in H. rewrite <- !app_assoc in H. cbn [app] in H.
  destruct (delim c (rev x) (rev y) (rev a) (rev b)) as (H1 & H2); [rewrite <- in_rev; exact Hx|rewrite <- in_rev; exact Hy|exact H|].
  apply (f_equal (@rev Z)) in H1, H2. rewrite !rev_involutive in H1, H2. auto.
Qed.
Lemma itoa_no c z : c <> 45 -> ~ (48 <= c <= 57) -> ~ In c (itoa z).
Proof. intros H1 H2 H. destruct (itoa_chars z) as (HF & _). rewrite Forall_forall in HF. specialize (HF _ H). lia. Qed.
Lemma id_String_length z : 0 <= z < 10 ^ 6 -> length (id_String z) = 6%nat.
Proof. intros H. rewrite (id_String_padded z H). apply length_padded. Qed.
Lemma id_String_inj a b : 0 <= a < 1000000 -> 0 <= b < 1000000 -> id_String a = id_String b -> a = b.
Proof. intros Ha Hb H. apply (f_equal atoi) in H. rewrite !atoi_id_String in H by lia. congruence. Qed.
Lemma padded_cons k : forall z, padded (S k) z = (48 + (z / 10 ^ Z.of_nat k) mod 10) :: padded k z.
Proof.
  induction k as [|k IH]; intros z; [cbn; rewrite Z.div_1_r; reflexivity|].
  change (padded (S (S k)) z) with (padded (S k) (z / 10) ++ [48 + z mod 10]). rewrite IH. cbn [app padded].
  rewrite Nat2Z.inj_succ, Z.pow_succ_r, Z.div_div by lia. reflexivity.
Qed.
Lemma id_String_chars z c : 0 <= z < 1000000 -> In c (id_String z) -> 48 <= c <= 57.
Proof.
  intros H. rewrite id_String_padded by lia. assert (G : forall k y, In c (padded k y) -> 48 <= c <= 57).
  { induction k as [|k IH]; intros y; cbn [padded]; [intros []|]. intros Hc. apply in_app_or in Hc. destruct Hc as [Hc|[<-|[]]]; [eauto|].
    pose proof (Z.mod_pos_bound y 10). lia. }
  apply G.
Qed.

(** The text of a descriptor, from its first six bytes. *)
Lemma descriptor_String_text dname d : 0 <= d_id d < 1000000 -> exists h t,
  descriptor_String dname d = Ok (h ++ 32 :: t) /\ length h = 6%nat /\
  h = if d_assoc d then 65 :: padded 5 (d_id d) else id_String (d_id d).
Proof.
  intros H. unfold descriptor_String. destruct (d_assoc d).
  - rewrite id_String_length, id_String_padded by lia. unfold str_slice. rewrite length_padded.
    change ((0 <=? 1) && (1 <=? Z.of_nat 6) && (Z.of_nat 6 <=? Z.of_nat 6)) with true. cbv iota. cbn [rbind].
    change (Z.to_nat (Z.of_nat 6 - 1)) with 5%nat. change (Z.to_nat 1) with 1%nat.
    rewrite padded_cons. cbn [skipn]. rewrite firstn_all2 by (rewrite length_padded; lia).
    exists (65 :: padded 5 (d_id d)), (gs "ASSOCIATED FIELD"). split; [reflexivity|]. split; [|reflexivity].
    cbn [length]. rewrite length_padded. reflexivity.
  - eexists (id_String (d_id d)), _. split; [reflexivity|]. split; [apply id_String_length; lia|reflexivity].
Qed.
Lemma app_inv_length {A} (a b c d : list A) : length a = length b -> a ++ c = b ++ d -> a = b /\ c = d.
Proof.
  revert b. induction a as [|x a IH]; intros [|y b] HL H; cbn in *; try lia; [auto|].
  injection H as -> H. destruct (IH b) as (-> & ->); auto.
Qed.
Lemma head_inj d d' : printable d -> printable d' ->
  (if d_assoc d then 65 :: padded 5 (d_id d) else id_String (d_id d)) =
  (if d_assoc d' then 65 :: padded 5 (d_id d') else id_String (d_id d')) -> d_id d = d_id d' /\ d_assoc d = d_assoc d'.
Proof.
  unfold printable. intros Hd Hd' H.
  assert (HA : forall z z', 0 <= z < 1000000 -> 65 :: padded 5 z' <> id_String z).
  { intros z z' Hz HE. enough (48 <= 65 <= 57) by lia. apply (id_String_chars z 65 Hz). rewrite <- HE. left. reflexivity. }
  destruct (d_assoc d), (d_assoc d').
  - apply (f_equal (@tl Z)) in H. cbn [tl] in H. split; [|reflexivity]. apply id_String_inj; [lia|lia|].
    rewrite !id_String_padded by lia. rewrite (padded_cons 5 (d_id d)), (padded_cons 5 (d_id d')). rewrite H. f_equal. rewrite !Z.div_small; [reflexivity|lia|lia].
  - exfalso. apply (HA (d_id d') (d_id d)); [lia|exact H].
  - exfalso. apply (HA (d_id d) (d_id d')); [lia|symmetry; exact H].
  - split; [|reflexivity]. apply id_String_inj; auto.
Qed.
Lemma descriptor_String_inj dname dname' d d' : printable d -> printable d' ->
  descriptor_String dname d = descriptor_String dname' d' -> d_id d = d_id d' /\ d_assoc d = d_assoc d'.
Proof.
  intros Hd Hd' H.
  destruct (descriptor_String_text dname d) as (h & t & E & L & Hh); [unfold printable in Hd; destruct (d_assoc d); lia|].
  destruct (descriptor_String_text dname' d') as (h' & t' & E' & L' & Hh'); [unfold printable in Hd'; destruct (d_assoc d'); lia|].
  rewrite E, E' in H. injection H as H. destruct (app_inv_length h h' (32 :: t) (32 :: t')) as (H1 & _); [lia|exact H|].
  apply head_inj; auto. congruence.
Qed.
Lemma node_String_inj dname dname' n n' : printable (vn_desc n) -> printable (vn_desc n') ->
  node_String dname n = node_String dname' n' ->
  vn_index n = vn_index n' /\ d_id (vn_desc n) = d_id (vn_desc n') /\ d_assoc (vn_desc n) = d_assoc (vn_desc n') /\
  pi_nbits (vn_info n) = pi_nbits (vn_info n').
Proof.
  intros Hd Hd' H. unfold node_String in H.
  destruct (descriptor_String_text dname (vn_desc n)) as (h & t & E & L & Hh); [unfold printable in Hd; destruct (d_assoc (vn_desc n)); lia|].
  destruct (descriptor_String_text dname' (vn_desc n')) as (h' & t' & E' & L' & Hh'); [unfold printable in Hd'; destruct (d_assoc (vn_desc n')); lia|].
  rewrite E, E' in H. cbn [rbind] in H. injection H as H.
  change (gs "] ") with [93; 32] in H. change (gs " (") with [32; 40] in H. change (gs ")") with [41] in H. cbn [app] in H.
  apply delim in H; [|apply itoa_no; lia|apply itoa_no; lia]. destruct H as (HI & H). injection H as H.
  rewrite <- !app_assoc in H. pose proof (app_inv_length h h' _ _ ltac:(lia) H) as (Hhh & H2).
  cbn [app] in H2. injection H2 as H2.
  assert (HW : itoa (pi_nbits (vn_info n)) ++ [41] = itoa (pi_nbits (vn_info n')) ++ [41]).
  { change (t ++ 32 :: 40 :: ?x) with (t ++ [32] ++ 40 :: x) in H2. change (t' ++ 32 :: 40 :: ?x) with (t' ++ [32] ++ 40 :: x) in H2.
    rewrite !(app_assoc _ [32]) in H2. apply delim_last in H2.
    - destruct H2 as (H2 & _). exact H2.
    - intros Hc. apply in_app_or in Hc. destruct Hc as [Hc|[Hc|[]]]; [apply itoa_no in Hc; [exact Hc|lia|lia]|lia].
    - intros Hc. apply in_app_or in Hc. destruct Hc as [Hc|[Hc|[]]]; [apply itoa_no in Hc; [exact Hc|lia|lia]|lia]. }
  apply app_inv_tail, itoa_inj in HW. apply itoa_inj in HI.
  destruct (head_inj (vn_desc n) (vn_desc n') Hd Hd') as (H3 & H4); [congruence|]. auto.
Qed.
Lemma spaced_length l : Forall (fun s => length s = 6%nat) l -> l <> [] -> (length (spaced l) + 1 = 7 * length l)%nat.
Proof.
  induction l as [|s l IH]; intros H HN; [congruence|]. inversion H; subst. destruct l as [|s' l]; [cbn [spaced length]; lia|].
  change (spaced (s :: s' :: l)) with (s ++ gs " " ++ spaced (s' :: l)).
  rewrite !app_length. change (length (gs " ")) with 1%nat. specialize (IH ltac:(assumption) ltac:(discriminate)).
  cbn [length] in *. lia.
Qed.
Lemma spaced_inj : forall l l', Forall (fun s => length s = 6%nat) l -> Forall (fun s => length s = 6%nat) l' ->
  spaced l = spaced l' -> l = l'.
Proof.
  induction l as [|s l IH]; intros [|s' l'] H H' E.
  - reflexivity.
  - exfalso. apply (f_equal (@length Z)) in E. pose proof (spaced_length (s' :: l') H' ltac:(discriminate)) as HL. rewrite <- E in HL. cbn [length spaced] in HL. lia.
  - exfalso. apply (f_equal (@length Z)) in E. pose proof (spaced_length (s :: l) H ltac:(discriminate)) as HL. rewrite E in HL. cbn [length spaced] in HL. lia.
  - assert (HL : length l = length l').
    { apply (f_equal (@length Z)) in E. pose proof (spaced_length (s :: l) H ltac:(discriminate)).
      pose proof (spaced_length (s' :: l') H' ltac:(discriminate)). cbn [length] in *. rewrite E in *. lia. }
    inversion H; inversion H'; subst. destruct l as [|u l], l' as [|u' l']; try discriminate; cbn [spaced] in E.
    + congruence.
    + destruct (app_inv_length s s' _ _ ltac:(lia) E) as (-> & E2). injection E2 as E2. f_equal. apply IH; auto.
Qed.
Lemma template_String_inj ids ids' : Forall (fun i => 0 <= i < 1000000) ids -> Forall (fun i => 0 <= i < 1000000) ids' ->
  template_String ids = template_String ids' -> ids = ids'.
Proof.
  intros H H' E. unfold template_String in E. apply app_inv_head, app_inv_tail in E. apply spaced_inj in E.
  - revert ids' H' E. induction H as [|i l Hi Hl IH]; intros [|j l'] H' E; try discriminate; [reflexivity|].
    inversion H'; subst. injection E as E1 E2. f_equal; [apply id_String_inj; auto|apply IH; auto].
  - apply Forall_map. revert H. apply Forall_impl. intros z Hz. apply id_String_length. lia.
  - apply Forall_map. revert H'. apply Forall_impl. intros z Hz. apply id_String_length. lia.
Qed.

(** Printing never fails, and the text of a node begins with its index. *)
Lemma id_String_long z : (6 <= length (id_String z))%nat.
Proof. unfold id_String. destruct (z <? 0); cbn [length]; rewrite ?app_length, ?repeat_length; cbn [length]; lia. Qed.
Lemma descriptor_String_total dname d : exists t, descriptor_String dname d = Ok t.
Proof.
  unfold descriptor_String. destruct (d_assoc d); [|eauto]. pose proof (id_String_long (d_id d)) as HL. unfold str_slice.
  replace ((0 <=? 1) && (1 <=? Z.of_nat (length (id_String (d_id d)))) && (Z.of_nat (length (id_String (d_id d))) <=? Z.of_nat (length (id_String (d_id d))))) with true by lia.
  cbn [rbind]. eauto.
Qed.
Lemma node_String_total dname n : exists t, node_String dname n = Ok t.
Proof. unfold node_String. destruct (descriptor_String_total dname (vn_desc n)) as (t & ->). cbn [rbind]. eauto. Qed.
Lemma node_String_index dname dname' n n' : node_String dname n = node_String dname' n' -> vn_index n = vn_index n'.
Proof.
  unfold node_String. destruct (descriptor_String_total dname (vn_desc n)) as (t & ->).
  destruct (descriptor_String_total dname' (vn_desc n')) as (t' & ->). cbn [rbind]. intros H. injection H as H.
  change (gs "] ") with [93; 32] in H. cbn [app] in H.
  apply delim in H; [|apply itoa_no; lia|apply itoa_no; lia]. apply itoa_inj, (proj1 H).
Qed.
