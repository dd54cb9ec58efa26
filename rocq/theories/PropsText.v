(** Property theorem C84: the printed line of a value.  Vocabulary: SpecText.v. *)
From Coq Require Import ZifyBool ZifyNat.
From Verif Require Import ProofsNames ProofsBinary ProofsTable ProofsBits ProofsBase Demo.
From Verif Require Export SpecText.

Lemma rune_characters s n : characters s n <-> rune_count s = n.
Proof.
  split.
  - induction 1 as [|c s n Hc _ IH|c s n Hc _ IH]; [reflexivity| |]; unfold rune_count in *; cbn [filter].
    + destruct (negb _) eqn:E; [|lia]. cbn [length]. congruence.
    + destruct (negb _) eqn:E; [lia|]. exact IH.
  - revert n. induction s as [|c s IH]; intros n H; unfold rune_count in *; cbn [filter] in H.
    + subst. constructor.
    + destruct (negb _) eqn:E; [|apply same_character; [lia|auto]]. cbn [length] in H. subst. apply one_character; [lia|auto].
Qed.
Lemma rune_pad s k : rune_count (s ++ repeat 32 k) = (rune_count s + k)%nat.
Proof. unfold rune_count. rewrite filter_app, app_length. f_equal. induction k; cbn; lia. Qed.

(** C84.  Every cell prints: the text of its node, filled up with blanks to 81 characters
    (longer ones are not cut), a blank, and the value. *)
Theorem C84_line : forall show dname c, exists t k n m,
  node_String dname (c_node c) = Ok t /\ characters t n /\ characters (t ++ repeat 32 k) m /\ m = Nat.max 81 n /\
  cell_String show dname c = Ok (t ++ repeat 32 k ++ 32 :: value_String show (c_val c)).
Proof.
  intros show dname c. destruct (node_String_total dname (c_node c)) as (t & E). exists t, (81 - rune_count t)%nat, (rune_count t), (Nat.max 81 (rune_count t)).
  split; [exact E|]. split; [now apply rune_characters|]. split; [apply rune_characters; rewrite rune_pad; lia|]. split; [reflexivity|].
  unfold cell_String. rewrite E. cbn [rbind]. unfold pad_right. now rewrite <- app_assoc.
Qed.
Print Assumptions C84_line.

(** Two lines printed with the same tables are equal only if position, descriptor, width and
    text of the value are. *)
Theorem C84_same_line : forall show dname c c', printable (vn_desc (c_node c)) -> printable (vn_desc (c_node c')) ->
  (d_id (vn_desc (c_node c)) = d_id (vn_desc (c_node c')) -> d_assoc (vn_desc (c_node c)) = d_assoc (vn_desc (c_node c')) ->
   vn_desc (c_node c) = vn_desc (c_node c')) ->
  cell_String show dname c = cell_String show dname c' ->
  vn_index (c_node c) = vn_index (c_node c') /\ vn_desc (c_node c) = vn_desc (c_node c') /\
  pi_nbits (vn_info (c_node c)) = pi_nbits (vn_info (c_node c')) /\ value_String show (c_val c) = value_String show (c_val c').
Proof.
  intros show dname c c' Hd Hd' HT H. unfold cell_String, node_String, pad_right in H.
  destruct (descriptor_String_text dname (vn_desc (c_node c))) as (h & t & E & L & Hh); [unfold printable in Hd; destruct (d_assoc _); lia|].
  destruct (descriptor_String_text dname (vn_desc (c_node c'))) as (h' & t' & E' & L' & Hh'); [unfold printable in Hd'; destruct (d_assoc _); lia|].
  rewrite E, E' in H. cbn [rbind] in H. injection H as H.
  match type of H with (_ ++ repeat 32 ?a) ++ _ = (_ ++ repeat 32 ?b) ++ _ => remember a as k eqn:Hk; remember b as k' eqn:Hk' end.
  change (gs "] ") with [93; 32] in *. change (gs " (") with [32; 40] in *. change (gs ")") with [41] in *. change (gs " ") with [32] in *.
  repeat (rewrite <- app_assoc in H || cbn [app] in H).
  pose proof (delim _ _ _ _ _ (itoa_no 93 _ ltac:(lia) ltac:(lia)) (itoa_no 93 _ ltac:(lia) ltac:(lia)) H) as (HI & H1).
  injection H1 as H1. pose proof (app_inv_length h h' _ _ ltac:(lia) H1) as (HH & H2). injection H2 as H2.
  destruct (head_inj _ _ Hd Hd') as (H3 & H4); [congruence|]. pose proof (HT H3 H4) as HD. rewrite HD in E. rewrite E in E'. injection E' as E'.
  rewrite HH in E'. apply app_inv_head in E'. injection E' as Et. rewrite Et in H2. apply app_inv_head in H2. injection H2 as H2.
  pose proof (delim _ _ _ _ _ (itoa_no 41 _ ltac:(lia) ltac:(lia)) (itoa_no 41 _ ltac:(lia) ltac:(lia)) H2) as (HN & H5).
  split; [now apply itoa_inj|]. split; [exact HD|]. split; [now apply itoa_inj|].
  assert (Ek : k = k') by (rewrite Hk, Hk', HI, HH, Et, HN; reflexivity). rewrite Ek in H5. apply app_inv_head in H5. now injection H5.
Qed.
Print Assumptions C84_same_line.

Lemma spaced_itoa : forall l l', spaced (map itoa l) ++ [93] = spaced (map itoa l') ++ [93] -> l = l'.
Proof.
  assert (N : forall z c, c = 32 \/ c = 93 -> ~ In c (itoa z)) by (intros z c H; apply itoa_no; lia).
  assert (Z0 : forall z s, itoa z ++ s <> [93] /\ itoa z <> []).
  { intros z s. destruct (itoa_chars z) as (F & K). split; [|exact K]. intros E. destruct (itoa z) as [|c r] eqn:Ei; [congruence|]. injection E as -> _.
    apply (N z 93); [auto|]. rewrite Ei. now left. }
  induction l as [|z l IH]; intros [|z' l'] E; cbn [map spaced app] in E.
  - reflexivity.
  - exfalso. destruct l'; cbn [map] in E; [|rewrite <- app_assoc in E]; symmetry in E; now apply (Z0 z') in E.
  - exfalso. destruct l; cbn [map] in E; [|rewrite <- app_assoc in E]; now apply (Z0 z) in E.
  - destruct l as [|y l], l' as [|y' l']; cbn [map] in E.
    + apply app_inv_tail, itoa_inj in E. congruence.
    + exfalso. rewrite <- app_assoc in E. change (gs " ") with [32] in E. cbn [app] in E.
      assert (In 32 (itoa z ++ [93])) by (rewrite E; apply in_app_iff; right; now left). apply in_app_iff in H. destruct H as [H|[H|[]]]; [now apply (N z 32) in H; auto|discriminate].
    + exfalso. rewrite <- app_assoc in E. change (gs " ") with [32] in E. cbn [app] in E.
      assert (In 32 (itoa z' ++ [93])) by (rewrite <- E; apply in_app_iff; right; now left). apply in_app_iff in H. destruct H as [H|[H|[]]]; [now apply (N z' 32) in H; auto|discriminate].
    + change (gs " ") with [32] in E. rewrite <- !app_assoc in E. cbn [app] in E. apply delim in E; [|apply N; auto|apply N; auto].
      destruct E as (Ez & E). apply itoa_inj in Ez. f_equal; [exact Ez|]. now apply IH.
Qed.
(** ... and values of one kind have the same text only if they are the same (numbers: if their
    texts are different for different numbers).  Unsigned, signed and floating-point values
    that are equal as numbers may print alike. *)
Theorem C84_same_value : forall show v v', same_kind show v v' -> value_String show v = value_String show v' -> v = v'.
Proof.
  intros show v v' [|u u'|i i'|x x' Hx|b b'|s s'] H; cbn [value_String] in H.
  - reflexivity.
  - apply itoa_inj in H. congruence.
  - apply itoa_inj in H. congruence.
  - f_equal. auto.
  - apply app_inv_head in H. apply spaced_itoa in H. congruence.
  - fold (bin_of s) (bin_of s') in *. rewrite !Binary_String_bits in H. apply (f_equal NewBinaryFromString) in H.
    rewrite !NewBinaryFromString_bits in H. congruence.
Qed.
Print Assumptions C84_same_value.

(** Missing values, and they alone (a local field cut off by the end of the stream apart),
    print as <nil>. *)
Theorem C84_missing : forall show v, (forall x, show x <> gs "<nil>") ->
  (forall b, v = VBin (Some b) -> exists s, b = mkBin (map msb (chunks8 s)) (blen s)) ->
  (value_String show v = gs "<nil>" <-> v = VNil \/ v = VBin None).
Proof.
  intros show v Hs Hb. split; [|intros [-> | ->]; reflexivity]. destruct v as [|u|i|x|b|[b|]]; cbn [value_String]; intros H; auto; exfalso.
  - apply (itoa_no 60 u); [lia|lia|]. rewrite H. now left.
  - apply (itoa_no 60 i); [lia|lia|]. rewrite H. now left.
  - now apply (Hs x).
  - discriminate H.
  - destruct (Hb b eq_refl) as (s & ->). fold (bin_of s) in H. rewrite Binary_String_bits in H. destruct s as [|[] s]; discriminate H.
Qed.
Print Assumptions C84_missing.

(** Character data are not printed as text in quotes, whatever they are: they are printed as
    the list of their bytes' numbers. *)
Theorem C84_quoted_refuted : forall show b, (exists t, value_String show (VBytes b) = 91 :: t) /\
  value_String show (VBytes b) <> gs "'" ++ b ++ gs "'" /\ value_String show (VBytes b) <> 34 :: b ++ [34].
Proof. intros show b. split; [eexists; reflexivity|]. split; discriminate. Qed.
Print Assumptions C84_quoted_refuted.

Example C84_case : forall show, let line v := cell_String show (fun _ => []) (mkCell (mkVnode 0 (mkDesc 1001 (EB (mkBentry (gs "X") [] NUMERIC 0 0 7 [] NUMERIC 0 0)) false) (mkInfo NUMERIC 0 (S754_zero false) 7) 3 VNil 0) v) in
  line (VUint 120) = Ok (gs "[3] 001001 X (7)" ++ repeat 32 65 ++ gs " 120") /\
  line (VBytes [65; 66]) = Ok (gs "[3] 001001 X (7)" ++ repeat 32 65 ++ gs " [65 66]") /\
  line VNil = Ok (gs "[3] 001001 X (7)" ++ repeat 32 65 ++ gs " <nil>") /\
  line (VBin (Some (mkBin [5] 3))) = Ok (gs "[3] 001001 X (7)" ++ repeat 32 65 ++ gs " 101").
Proof. intros show. vm_compute. auto. Qed.
