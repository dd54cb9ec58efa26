(** Which sequences of the shipped tables parse. *)
From Coq Require Import Lia ZifyBool ZifyNat.
From Coq Require Import FMapPositive.
From Verif Require Import SpecShipped ProofsTable ProofsParser ProofsParser2 ProofsParser3 ProofsShipped ProofsShipped2 ProofsShipped3 ProofsShipped4.

Definition indices (o : front) (k : nat) : list nat := match o with None => [k] | Some (j, _) => [j; k] end.
Lemma chain_indices t o k : chain_of t o k = GChain (map t (indices o k)).
Proof. destruct o as [[j l]|]; reflexivity. Qed.
Lemma indices_lt o k i : In o fronts -> (k < 36)%nat -> In i (indices o k) -> (i < 40)%nat.
Proof. intros Ho Hk Hi. cbn [fronts In] in Ho. repeat destruct Ho as [<-|Ho]; [..|contradiction]; cbn [indices In] in Hi; lia. Qed.
Lemma chain_any gs g id d : In g gs -> single_Lookup g id = Ok d -> exists d', Lookup (GChain gs) id = Ok d'.
Proof.
  cbn [Lookup]. induction gs as [|h gs IH]; intros Hi Hd; [contradiction|]. cbn [chain_Lookup].
  destruct Hi as [->|Hi]; [rewrite Hd; eauto|]. destruct (single_Lookup h id); eauto.
Qed.
Lemma avail_index o k m : (k < 36)%nat -> Z.testbit (avail o m) (Z.of_nat k) = true <->
  exists i, In i (indices o k) /\ Z.testbit m (Z.of_nat i) = true.
Proof.
  intros Hk. assert (HF : Z.testbit full (Z.of_nat k) = true) by (change full with (Z.ones 36); apply Z.ones_spec_low; lia).
  unfold avail. destruct o as [[j l]|]; cbn [in_front indices].
  - destruct (Z.testbit m (Z.of_nat j)) eqn:E.
    + split; [|intros _; exact HF]. intros _. exists j. split; [left; reflexivity|exact E].
    + rewrite Z.land_spec, HF, andb_true_r. split; [intros H; exists k; split; [right; left; reflexivity|exact H]|].
      intros (i & [<-|[<-|[]]] & H); congruence.
  - rewrite Z.land_spec, HF, andb_true_r. split; [intros H; exists k; split; [left; reflexivity|exact H]|].
    intros (i & [<-|[]] & H); congruence.
Qed.
Lemma b_positive : Forall (fun r => 0 <= fst (snd r)) b_rows.
Proof.
  apply Forall_forall. intros [m [i [[[u sc] rv] nb]]] Hi. pose proof b_rows_ok as HO. rewrite forallb_forall in HO. specialize (HO _ Hi).
  unfold b_row_ok in HO. cbn [fst snd] in *. lia.
Qed.
Lemma d_positive : Forall (fun r => 0 <= fst (snd r)) d_rows.
Proof.
  apply Forall_forall. intros [m [i ms]] Hi. pose proof d_rows_ok as HO. rewrite forallb_forall in HO. specialize (HO _ Hi).
  unfold d_row_ok in HO. cbn [fst snd] in *. lia.
Qed.
Lemma b_defined o k id m x : (k < 36)%nat -> In (m, (id, x)) b_rows -> Z.testbit (avail o m) (Z.of_nat k) = true ->
  exists d, Lookup (chain_of tree_table o k) id = Ok d.
Proof.
  intros Hk HI HA. apply avail_index in HA; [|exact Hk]. destruct HA as (i & Hi & Ht).
  pose proof b_positive as HP. rewrite Forall_forall in HP. pose proof b_rows_ok as HO. rewrite forallb_forall in HO. specialize (HO _ HI).
  assert (Hid : id_F id = 0) by (unfold b_row_ok in HO; destruct x as [[[u sc] rv] nb]; cbn [snd] in HO; unfold id_F; apply Z.quot_small; lia).
  assert (HIn : In (id, x) (rows_of i b_rows)) by (apply In_rows; eauto).
  destruct (tree_in_get (map (fun r => (fst r, bare (snd r))) (rows_of i b_rows)) id (bare x)) as (a & Ha).
  - apply Forall_map, Forall_forall. intros [i' r'] Hi'. apply In_rows in Hi'. destruct Hi' as (m' & Hm' & _). apply (HP _ Hm').
  - apply in_map_iff. exists (id, x). auto.
  - rewrite chain_indices. eapply (chain_any _ (tree_table i)); [apply in_map; exact Hi|]. unfold single_Lookup. rewrite Hid. cbn [Z.eqb F_ELEMENT tree_table s_b].
    rewrite Ha. reflexivity.
Qed.
Lemma d_defined o k id m x : (k < 36)%nat -> In (m, (id, x)) d_rows -> Z.testbit (avail o m) (Z.of_nat k) = true ->
  exists d, Lookup (chain_of tree_table o k) id = Ok d.
Proof.
  intros Hk HI HA. apply avail_index in HA; [|exact Hk]. destruct HA as (i & Hi & Ht).
  pose proof d_positive as HP. rewrite Forall_forall in HP. pose proof d_rows_ok as HO. rewrite forallb_forall in HO. specialize (HO _ HI).
  assert (Hid : id_F id = 3) by (unfold d_row_ok in HO; cbn [fst snd] in HO; unfold id_F; symmetry; apply (Z.quot_unique id 100000 3 (id - 300000)); lia).
  assert (HIn : In (id, x) (rows_of i d_rows)) by (apply In_rows; eauto).
  destruct (tree_in_get (rows_of i d_rows) id x) as (a & Ha).
  - apply Forall_forall. intros [i' r'] Hi'. apply In_rows in Hi'. destruct Hi' as (m' & Hm' & _). apply (HP _ Hm').
  - exact HIn.
  - rewrite chain_indices. eapply (chain_any _ (tree_table i)); [apply in_map; exact Hi|]. unfold single_Lookup. rewrite Hid.
    cbn [Z.eqb Pos.eqb F_ELEMENT F_REPLICATION F_OPERATOR F_SEQUENCE tree_table s_d]. rewrite Ha. reflexivity.
Qed.
Lemma verdict_false fuel g id : is_verdict (verdict fuel g id) false = true -> ~ exists ns, parsed g [id] ns.
Proof. intros H. destruct (verdict_parses fuel g id) as (_ & V). apply V. destruct (verdict fuel g id) as [[|]|]; try discriminate. reflexivity. Qed.
Lemma verdict_true fuel g id : is_verdict (verdict fuel g id) true = true -> exists ns, parsed g [id] ns.
Proof. intros H. destruct (verdict_parses fuel g id) as (V & _). apply V. destruct (verdict fuel g id) as [[|]|]; try discriminate. reflexivity. Qed.
Lemma check_runs_sound fuel trees o k : check_runs fuel trees o k = true ->
  let g := chain_of (fun i => nth i trees (mkSingle (fun _ => None) (fun _ => None))) o k in
  (forall id, In id (bad_of o k) -> ~ exists ns, parsed g [id] ns) /\
  (forall id d, In id others -> ~ In id (bad_of o k) -> Lookup g id = Ok d -> exists ns, parsed g [id] ns).
Proof.
  unfold check_runs. intros HR. cbv zeta in *. generalize dependent (chain_of (fun i => nth i trees (mkSingle (fun _ => None) (fun _ => None))) o k). intros g HR.
  apply andb_prop in HR. destruct HR as (H1 & H2). rewrite forallb_forall in H1, H2. split.
  - intros id Hb. eapply verdict_false, H1, Hb.
  - intros id d Hi Hb HL. specialize (H2 _ Hi). cbv beta in H2. rewrite HL in H2. rewrite <- mem_spec in Hb. destruct (existsb (Z.eqb id) (bad_of o k)); [congruence|].
    eapply verdict_true, H2.
Qed.
Lemma trees_nth t i : (i < 40)%nat -> nth i (map tree_table (seq 0 40)) t = tree_table i.
Proof.
  intros Hi. rewrite (nth_indep _ _ (tree_table 0)) by (rewrite map_length, seq_length; exact Hi). rewrite map_nth, seq_nth by exact Hi. reflexivity.
Qed.
Lemma all_runs_sound fuel o k : check_all_runs fuel = true -> In o fronts -> (k < 36)%nat ->
  check_runs fuel (map tree_table (seq 0 40)) o k = true.
Proof.
  unfold check_all_runs. intros HR Ho Hk. cbv zeta in HR. rewrite forallb_forall in HR. specialize (HR _ Ho). rewrite forallb_forall in HR.
  apply HR, in_seq. lia.
Qed.
Lemma chain_nth o k : In o fronts -> (k < 36)%nat ->
  chain_of (fun i => nth i (map tree_table (seq 0 40)) (mkSingle (fun _ => None) (fun _ => None))) o k = chain_of tree_table o k.
Proof.
  intros Ho Hk. rewrite !chain_indices. f_equal. apply map_ext_in. intros i Hi. apply (indices_lt _ _ _ Ho Hk) in Hi. apply trees_nth, Hi.
Qed.
Lemma runs_of o k : In o fronts -> (k < 36)%nat ->
  (forall id, In id (bad_of o k) -> ~ exists ns, parsed (chain_of tree_table o k) [id] ns) /\
  (forall id d, In id others -> ~ In id (bad_of o k) -> Lookup (chain_of tree_table o k) id = Ok d ->
     exists ns, parsed (chain_of tree_table o k) [id] ns).
Proof.
  intros Ho Hk. rewrite <- (chain_nth o k Ho Hk). exact (check_runs_sound _ _ _ _ (all_runs_sound _ o k runs_checked Ho Hk)).
Qed.
Lemma chain_total gs : gs <> [] -> forall id, id_F id = 1 \/ id_F id = 2 -> exists d, Lookup (GChain gs) id = Ok d.
Proof.
  intros H id HF. destruct gs as [|g gs]; [contradiction|].
  destruct HF as [HF|HF]; eapply (chain_any _ g); try (left; reflexivity); unfold single_Lookup; rewrite HF; reflexivity.
Qed.
Lemma tree_sequences o k : In o fronts -> (k < 36)%nat -> acyclic (chain_of tree_table o k) ->
  forall id d, id_F id = 3 -> Lookup (chain_of tree_table o k) id = Ok d ->
  ((exists ns, parsed (chain_of tree_table o k) [id] ns) <-> ~ In id (bad_of o k)).
Proof.
  intros Ho Hk HA. apply sequences_parse; [exact HA| |].
  { rewrite chain_indices. apply chain_total. destruct o as [[j l]|]; discriminate. }
  intros id d H3 HL. destruct (runs_of o k Ho Hk) as (HR1 & HR2).
  assert (HX : exists m ms, In (m, (id, ms)) d_rows /\ Z.testbit (avail o m) (Z.of_nat k) = true /\ d_entry d = ED ms).
  { pose proof HL as HL'. rewrite chain_indices in HL'. cbn [Lookup] in HL'. apply chain_Lookup_ok in HL'. destruct HL' as (pre & g & post & Eg & HK & _).
    destruct HK as [(HF & _)|[(HF & _)|[(HF & _)|(_ & ms & Hm & ->)]]]; [unfold id_F in *; congruence..|].
    assert (Hg : In g (map tree_table (indices o k))) by (rewrite Eg; apply in_or_app; right; left; reflexivity).
    apply in_map_iff in Hg. destruct Hg as (i & <- & Hi). cbn [tree_table s_d] in Hm. apply tree_get_in in Hm.
    - apply In_rows in Hm. destruct Hm as (m & Hm & Ht). exists m, ms. split; [exact Hm|]. split; [|reflexivity]. apply avail_index; [exact Hk|eauto].
    - pose proof d_positive as HP. rewrite Forall_forall in HP. apply Forall_forall. intros [i' r'] Hi'. apply In_rows in Hi'. destruct Hi' as (m' & Hm' & _). apply (HP _ Hm'). }
  destruct HX as (m & ms & HI & Hm & Hd). exists ms. split; [exact Hd|]. split; [apply HR1|]. intros Hn.
  pose proof fronts_checked as HC. rewrite forallb_forall in HC. specialize (HC _ Ho). unfold check_front in HC. cbv zeta in HC.
  rewrite forallb_forall in HC. specialize (HC _ HI). unfold check_row in HC. destruct (existsb (Z.eqb id) others) eqn:Eo.
  { left. apply mem_spec in Eo. eapply HR2; eauto. }
  right. set (a := Z.ldiff (avail o m) (mask_get (bad_tree o) id)) in HC. cbv zeta in HC.
  assert (Ha : Z.testbit a (Z.of_nat k) = true).
  { unfold a. rewrite Z.ldiff_spec, Hm, bad_tree_bit by exact Hk. rewrite <- mem_spec in Hn. destruct (existsb _ _); [congruence|reflexivity]. }
  destruct (Z.eqb_spec a 0) as [E|_]; [rewrite E, Z.bits_0 in Ha; discriminate|]. apply shape_composed in HC.
  eapply composed_weaken; [|exact HC]. intros x _ Hx. cbv beta in Hx. unfold known_mask in Hx. destruct (Z.eqb_spec (id_F x) 0) as [Hx0|Hx0].
  - split; [|intros; congruence]. apply (subset_bit _ _ (Z.of_nat k)) in Hx; [|exact Ha]. apply mask_tree_bit in Hx; [|exact b_positive].
    destruct Hx as (m' & x' & HI' & Hm'). eapply b_defined; eauto.
  - apply (subset_bit _ _ (Z.of_nat k)) in Hx; [|exact Ha]. rewrite Z.ldiff_spec, bad_tree_bit in Hx by exact Hk. apply andb_prop in Hx. destruct Hx as (Hx1 & Hx2).
    split; [|intros _ Hb; apply mem_spec in Hb; rewrite Hb in Hx2; discriminate]. apply mask_tree_bit in Hx1; [|exact d_positive].
    destruct Hx1 as (m' & x' & HI' & Hm'). eapply d_defined; eauto.
Qed.
(** ** The same for loaded tables *)
Lemma covers_acyclic g g' : covers g g' -> acyclic g' -> acyclic g.
Proof.
  intros HC (rank & HR). exists rank. intros id d ms HL HE. destruct (HC _ _ HL) as (d' & HL' & HE'). eapply HR; eauto.
Qed.
Lemma shipped_front g l v : shipped_group g l v -> exists o k gs, In o fronts /\ (k < 36)%nat /\ local_version o = l /\ v = Z.of_nat k + 6 /\
  g = GChain gs /\ Forall2 same_known gs (map tree_table (indices o k)) /\ bad_of o k = broken l v.
Proof.
  intros [k v' g' Hk Ht|j k l' v' h g' Hj Hh Hk Ht].
  - destruct (wmo_index _ _ Hk) as (Hk' & ->). exists None, k, [g']. split; [left; reflexivity|]. split; [exact Hk'|]. do 3 (split; [reflexivity|]). split; [|reflexivity].
    constructor; [|constructor]. apply tree_table_same; [lia|exact Ht].
  - destruct (wmo_index _ _ Hk) as (Hk' & ->). destruct (local_index _ _ Hj) as (Hj' & Hl). exists (Some (j, l')), k, [h; g'].
    split; [|split; [exact Hk'|]; do 3 (split; [reflexivity|]); split; [|reflexivity];
             constructor; [|constructor; [|constructor]]; apply tree_table_same; auto; lia].
    right. cbn [In] in *. repeat (destruct Hl as [Hl|Hl]; [injection Hl as <- <-; tauto|]). contradiction.
Qed.
Lemma Forall2_sym {A} (P : A -> A -> Prop) l l' : (forall a b, P a b -> P b a) -> Forall2 P l l' -> Forall2 P l' l.
Proof. intros H HF. induction HF; constructor; auto. Qed.
Lemma shipped_sequences g l v : shipped_group g l v -> forall id d, id_F id = 3 -> Lookup g id = Ok d ->
  ((exists ns, parsed g [id] ns) <-> ~ In id (broken l v)).
Proof.
  intros HG id d H3 HL. pose proof (shipped_acyclic _ _ _ HG) as HA.
  destruct (shipped_front _ _ _ HG) as (o & k & gs & Ho & Hk & _ & _ & -> & HS & <-).
  pose proof (chain_covers _ _ HS) as C1. pose proof (chain_covers _ _ (Forall2_sym _ _ _ same_sym HS)) as C2.
  rewrite <- chain_indices in C1, C2. destruct (C1 _ _ HL) as (d' & HL' & _).
  rewrite <- (tree_sequences o k Ho Hk (covers_acyclic _ _ C2 HA) id d' H3 HL'). split; apply covers_parsed; assumption.
Qed.
Lemma shipped_composed g l v : shipped_group g l v -> forall ids,
  composed (fun id => (exists d, Lookup g id = Ok d) /\ ~ In id (broken l v)) ids -> exists ns, parsed g ids ns.
Proof.
  intros HG ids HC. edestruct (parses_composed g) as (ns & Hn); [| | |exact HC|exists ns; apply parsed_iff; exact Hn].
  - intros id ((d & Hd) & _) _. eauto.
  - intros id ((d & Hd) & Hb) H3. apply (shipped_sequences g l v HG id d H3 Hd). exact Hb.
  - destruct (shipped_front _ _ _ HG) as (o & k & gs & Ho & Hk & _ & _ & -> & HS & _). apply chain_total. destruct o as [[j' l']|]; inversion HS; discriminate.
Qed.
