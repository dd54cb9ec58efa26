(** The members of value nodes (C67). *)
From Coq Require Import ZifyBool ZifyNat.
From Verif Require Export SpecTree ProofsRun8.

Notation seqn := List.seq.

(** ** Heaps *)
Lemma heap_add_nth h i m : forall j, nth_error (heap_add h i m) j =
  if Nat.eqb i j then option_map (fun n => mkHnode (h_kind n) (h_members n ++ [m])) (nth_error h j) else nth_error h j.
Proof.
  revert i. induction h as [|n h IH]; intros [|i] [|j]; cbn [heap_add nth_error Nat.eqb option_map]; try reflexivity.
  - now destruct (Nat.eqb i j).
  - apply IH.
Qed.
Lemma heap_add_length h i m : length (heap_add h i m) = length h.
Proof. revert i. induction h as [|n h IH]; intros [|i]; cbn; auto. Qed.

Definition ptr (nodes : list vnode) (q : option nat) : option nat :=
  match q with Some j => option_map vn_id (nth_error nodes j) | None => None end.
Definition in_range (nodes : list vnode) (q : option nat) : Prop :=
  match q with Some j => (j < length nodes)%nat | None => True end.
Lemma ptr_app nodes x q : in_range nodes q -> ptr (nodes ++ x) q = ptr nodes q.
Proof. destruct q as [j|]; cbn; [|reflexivity]. intros H. now rewrite nth_error_app1. Qed.
Lemma range_app nodes x q : in_range nodes q -> in_range (nodes ++ x) q.
Proof. destruct q as [j|]; cbn; [|auto]. rewrite app_length. lia. Qed.
Lemma map_ptr_app nodes x l : Forall (in_range nodes) l -> map (ptr (nodes ++ x)) l = map (ptr nodes) l.
Proof. induction 1; cbn; [reflexivity|]. rewrite ptr_app by assumption. congruence. Qed.

Record htree (nodes : list vnode) (ls : list link) (t : tree) : Prop := mkHt {
  ht_dup : NoDup (map vn_id nodes);
  ht_at : forall i n, nth_error nodes i = Some n ->
    nth_error (t_heap t) (vn_id n) = Some (mkHnode (NValued n) (map (ptr nodes) (children i ls)));
  ht_range : Forall (fun l => (fst l < length nodes)%nat /\ in_range nodes (snd l)) ls;
  ht_place : Forall (fun p => (p < length (t_heap t))%nat /\ ~ In p (map vn_id nodes)) (t_node t :: t_stack t) }.

Lemma children_app i a b : children i (a ++ b) = children i a ++ children i b.
Proof. unfold children. now rewrite filter_app, map_app. Qed.
Lemma children_range nodes ls i : Forall (fun l => (fst l < length nodes)%nat /\ in_range nodes (snd l)) ls ->
  Forall (in_range nodes) (children i ls).
Proof.
  unfold children. induction 1 as [|[a q] ls [H1 H2] _ IH]; cbn [filter map]; [constructor|].
  cbn [fst snd] in *. destruct (Nat.eqb a i); cbn [map]; [constructor; assumption|exact IH].
Qed.
Lemma children_out nodes ls i : Forall (fun l => (fst l < length nodes)%nat /\ in_range nodes (snd l)) ls ->
  (length nodes <= i)%nat -> children i ls = [].
Proof.
  unfold children. intros H Hi. induction H as [|[a q] ls [H1 H2] _ IH]; cbn [filter map]; [reflexivity|].
  cbn [fst] in *. destruct (Nat.eqb_spec a i); [lia|exact IH].
Qed.
Lemma node_id nodes ls t i n : htree nodes ls t -> nth_error nodes i = Some n -> (vn_id n < length (t_heap t))%nat.
Proof. intros H E. apply nth_error_Some. rewrite (ht_at _ _ _ H _ _ E). discriminate. Qed.

(** A node that is not a value is allocated and made a member of the current node. *)
Lemma ht_add_node nodes ls t k : htree nodes ls t ->
  htree nodes ls (mkTree (heap_add (t_heap t ++ [mkHnode k []]) (t_node t) (Some (length (t_heap t)))) (t_node t) (t_stack t)).
Proof.
  intros H. pose proof H as [H1 H2 H3 H4]. constructor; cbn [t_heap t_node t_stack]; auto.
  - intros i n E. rewrite heap_add_nth. pose proof (node_id _ _ _ _ _ H E) as Hl.
    inversion H4 as [|? ? [_ Hn] _]; subst. destruct (Nat.eqb_spec (t_node t) (vn_id n)) as [e|e].
    + exfalso. apply Hn. rewrite e. apply in_map. eapply nth_error_In; eauto.
    + rewrite nth_error_app1 by lia. auto.
  - rewrite heap_add_length, app_length. eapply Forall_impl; [|exact H4]. cbn. intros p [? ?]. split; [lia|assumption].
Qed.
Lemma ht_pushed nodes ls t k : htree nodes ls t ->
  htree nodes ls (mkTree (t_heap t ++ [mkHnode k []]) (length (t_heap t)) (t_node t :: t_stack t)).
Proof.
  intros H. pose proof H as [H1 H2 H3 H4]. constructor; cbn [t_heap t_node t_stack]; auto.
  - intros i n E. pose proof (node_id _ _ _ _ _ H E) as Hl. rewrite nth_error_app1 by lia. auto.
  - rewrite app_length. cbn [length]. constructor.
    + split; [lia|]. intros Hin. apply in_map_iff in Hin. destruct Hin as (n & E & Hin). apply In_nth_error in Hin.
      destruct Hin as [i Hi]. pose proof (node_id _ _ _ _ _ H Hi). lia.
    + eapply Forall_impl; [|exact H4]. cbn. intros p [? ?]. split; [lia|assumption].
Qed.
Lemma ht_pop nodes ls heap a b st : htree nodes ls (mkTree heap a (b :: st)) -> htree nodes ls (mkTree heap b st).
Proof. intros [H1 H2 H3 H4]. constructor; auto. cbn [t_node t_stack t_heap] in *. now inversion H4. Qed.
(** A value node is allocated and made a member of the current node. *)
Lemma NoDup_snoc {A} (l : list A) x : NoDup l -> ~ In x l -> NoDup (l ++ [x]).
Proof.
  induction 1 as [|a l Ha Hl IH]; cbn; intros Hx; [constructor; [auto|constructor]|].
  constructor; [|apply IH; tauto]. rewrite in_app_iff. cbn. intros [H|[H|[]]]; [auto|subst; tauto].
Qed.
Lemma ht_add_value nodes ls t n : htree nodes ls t -> vn_id n = length (t_heap t) ->
  htree (nodes ++ [n]) ls (mkTree (heap_add (t_heap t ++ [mkHnode (NValued n) []]) (t_node t) (Some (length (t_heap t)))) (t_node t) (t_stack t)).
Proof.
  intros H Hid. pose proof H as [H1 H2 H3 H4].
  assert (Hfresh : ~ In (vn_id n) (map vn_id nodes)).
  { intros Hin. apply in_map_iff in Hin. destruct Hin as (m & E & Hin). apply In_nth_error in Hin.
    destruct Hin as [i Hi]. pose proof (node_id _ _ _ _ _ H Hi). lia. }
  assert (Hpl : t_node t <> vn_id n) by (inversion H4 as [|? ? [Hl _] _]; lia).
  constructor; cbn [t_heap t_node t_stack].
  - rewrite map_app. now apply NoDup_snoc.
  - intros i m E. rewrite map_ptr_app by now apply children_range. rewrite heap_add_nth.
    destruct (Nat.lt_ge_cases i (length nodes)) as [Hi|Hi].
    + rewrite nth_error_app1 in E by lia. pose proof (node_id _ _ _ _ _ H E) as Hl.
      inversion H4 as [|? ? [_ Hn] _]; subst. destruct (Nat.eqb_spec (t_node t) (vn_id m)) as [e|e].
      * exfalso. apply Hn. rewrite e. apply in_map. eapply nth_error_In; eauto.
      * rewrite nth_error_app1 by lia. auto.
    + rewrite nth_error_app2 in E by lia. destruct (i - length nodes)%nat as [|j] eqn:Ej; [|destruct j; discriminate].
      injection E as <-. destruct (Nat.eqb_spec (t_node t) (vn_id n)) as [e|e]; [contradiction|].
      rewrite nth_error_app2, Hid, Nat.sub_diag by lia. rewrite (children_out nodes ls i H3 Hi). reflexivity.
  - eapply Forall_impl; [|exact H3]. cbn. intros l [? ?]. split; [rewrite app_length; lia|now apply range_app].
  - rewrite heap_add_length, app_length, map_app. eapply Forall_impl; [|exact H4]. cbn. intros p [? ?]. split; [lia|].
    rewrite in_app_iff. cbn. intros [?|[?|[]]]; [auto|]. lia.
Qed.
(** A link. *)
Lemma ht_link nodes ls t i n q : htree nodes ls t -> nth_error nodes i = Some n -> in_range nodes q ->
  htree nodes (ls ++ [(i, q)]) (mkTree (heap_add (t_heap t) (vn_id n) (ptr nodes q)) (t_node t) (t_stack t)).
Proof.
  intros H Hi Hq. pose proof H as [H1 H2 H3 H4]. constructor; cbn [t_heap t_node t_stack]; auto.
  - intros j m E. rewrite heap_add_nth, children_app. unfold children at 2. cbn [filter fst].
    rewrite (H2 _ _ E). destruct (Nat.eqb_spec (vn_id n) (vn_id m)) as [e|e].
    + assert (i = j) as <-.
      { eapply (proj1 (NoDup_nth_error (map vn_id nodes)) H1); [rewrite map_length; apply nth_error_Some; congruence|].
        rewrite (map_nth_error vn_id _ _ Hi), (map_nth_error vn_id _ _ E). congruence. }
      rewrite Nat.eqb_refl. cbn [map option_map snd h_kind h_members]. now rewrite map_app.
    + destruct (Nat.eqb_spec i j) as [->|e']; [congruence|]. cbn [map]. now rewrite app_nil_r.
  - apply Forall_app. split; [exact H3|]. constructor; [|constructor]. split; [|exact Hq]. apply nth_error_Some. cbn. congruence.
  - now rewrite heap_add_length.
Qed.

(** ** The visitor's steps *)
Definition nodes_of (s : vst) : list vnode := map c_node (lane0 (v_cells s)).
Lemma add_valueless_tree d s s' : add_valueless d s = (s', Ok tt) -> forall ls,
  htree (nodes_of s) ls (v_tree s) -> htree (nodes_of s') ls (v_tree s') /\ nodes_of s' = nodes_of s /\ v_regs s' = v_regs s.
Proof. intros H ls HT. injection H as <-. split; [|split; reflexivity]. exact (ht_add_node _ _ _ (NValueless d) HT). Qed.
Lemma add_valued_tree d info u s s' n : add_valued d info u s = (s', Ok n) ->
  v_tree s' = mkTree (heap_add (t_heap (v_tree s) ++ [mkHnode (NValued n) []]) (t_node (v_tree s)) (Some (length (t_heap (v_tree s)))))
                (t_node (v_tree s)) (t_stack (v_tree s)).
Proof.
  intros H. unfold add_valued in H. binv H. unfold Len in E. injection E as <- _. binv H. apply ok_inv in E. destruct E as [<- <-].
  cbv zeta in H. binv H. apply ok_inv in E. destruct E as [<- <-]. binv H. apply ok_inv in E. destruct E as [<- _].
  binv H. apply ok_inv in E. destruct E as [<- <-]. binv H. apply ok_inv in H. destruct H as [<- <-].
  cbn [v_cells set_tree] in E. destruct (v_cells s) as [l|ts], u as [v|c]; try discriminate E.
  - apply ok_inv in E. destruct E as [<- _]. reflexivity.
  - binv E. apply pair_equal_spec in E0. destruct E0 as [<- _]. apply ok_inv in E. destruct E as [<- _]. reflexivity.
Qed.
Lemma build_tree cf ds d info s s' n ls : (0 < lanes cf)%nat -> rep_cells cf ds (v_cells s) ->
  buildValuedNodeWithInfo cf d info s = (s', Ok n) -> htree (nodes_of s) ls (v_tree s) ->
  htree (nodes_of s') ls (v_tree s') /\ nodes_of s' = nodes_of s ++ [n] /\ v_regs s' = v_regs s /\ v_bm s' = v_bm s /\
  exists x, rep_cells cf (ds ++ [x]) (v_cells s').
Proof.
  intros Hp R H HT. destruct (build_sound _ _ _ _ _ _ _ Hp R H) as (x & _ & (P & Hg & Hb & HR & (c & Hc & <-) & Hid)).
  assert (HN : nodes_of s' = nodes_of s ++ [c_node c]) by (unfold nodes_of; now rewrite Hc, map_app).
  split; [|split; [exact HN|eauto]]. rewrite HN.
  unfold buildValuedNodeWithInfo in H. binv H. apply wrap_inv in E. rewrite Unpack_eq in E. injection E as <- _.
  apply add_valued_tree in H. cbn [set_r v_tree] in H. rewrite H. now apply ht_add_value.
Qed.
Lemma link_tree s i n q ls : htree (nodes_of s) ls (v_tree s) -> nth_error (nodes_of s) i = Some n -> in_range (nodes_of s) q ->
  exists s', AddMember (vn_id n) (ptr (nodes_of s) q) s = (s', Ok tt) /\ htree (nodes_of s') (ls ++ [(i, q)]) (v_tree s') /\
    only_heap s s' /\ nodes_of s' = nodes_of s.
Proof. intros HT Hi Hq. eexists. split; [reflexivity|]. split; [exact (ht_link _ _ _ _ _ _ HT Hi Hq)|]. split; [repeat split|reflexivity]. Qed.
(** A run of cells made members of one cell. *)
Lemma links_tree i n ms : forall a s ls s', htree (nodes_of s) ls (v_tree s) -> nth_error (nodes_of s) i = Some n ->
  firstn (length ms) (skipn a (nodes_of s)) = ms -> (a + length ms <= length (nodes_of s))%nat ->
  mapM_ (fun m => AddMember (vn_id n) (Some (vn_id m))) ms s = (s', Ok tt) ->
  htree (nodes_of s') (ls ++ map (fun q => (i, Some q)) (seqn a (length ms))) (v_tree s') /\ only_heap s s' /\ nodes_of s' = nodes_of s.
Proof.
  induction ms as [|m ms IH]; intros a s ls s' HT Hn Hm Hl H; cbn [mapM_ length seqn map] in *.
  - apply ok_inv in H. destruct H as [<- _]. rewrite app_nil_r. split; [exact HT|]. split; [apply only_heap_refl|reflexivity].
  - rewrite (skipn_nth (nodes_of s) a) in Hm. destruct (nth_error (nodes_of s) a) as [m0|] eqn:E0; [|apply nth_error_None in E0; lia].
    cbn [firstn] in Hm. injection Hm as -> Hm.
    destruct (link_tree s i n (Some a) ls HT Hn) as (s1 & E1 & HT1 & O1 & N1); [cbn; lia|].
    cbn [ptr] in E1. rewrite E0 in E1. cbn [option_map] in E1. rewrite (bind_ok _ _ _ _ _ E1) in H.
    rewrite <- N1 in Hn, Hm, Hl. destruct (IH (S a) s1 _ s' HT1 Hn Hm ltac:(lia) H) as (HT2 & O2 & N2).
    rewrite <- app_assoc in HT2. split; [exact HT2|]. split; [eapply only_heap_trans; eauto|congruence].
Qed.

Lemma map_seq_shift {B} (f g : nat -> B) n : forall a b, (forall k, (k < n)%nat -> f (a + k)%nat = g (b + k)%nat) ->
  map f (seqn a n) = map g (seqn b n).
Proof.
  induction n as [|n IH]; intros a b H; cbn [seqn map]; [reflexivity|]. f_equal.
  - specialize (H 0%nat ltac:(lia)). now rewrite !Nat.add_0_r in H.
  - apply IH. intros k Hk. specialize (H (S k) ltac:(lia)). now rewrite !Nat.add_succ_r in H.
Qed.
(** Associated fields. *)
Lemma assoc_tree cf d : (0 < lanes cf)%nat -> forall ws ds s s' ns ls sg, rep_cells cf ds (v_cells s) ->
  htree (nodes_of s) ls (v_tree s) -> map snd ws = map (ptr (nodes_of s)) sg -> Forall (in_range (nodes_of s)) sg ->
  mapM (fun p : Z * option nat =>
            n <- wrap "cannot build associated field node"
                   (buildValuedNodeWithInfo cf (DecorateDescriptor d) (plain_info NONNEG_CODE (fst p))) ;;
            AddMember (vn_id n) (snd p) ;;
            ret n)%M ws s = (s', Ok ns) ->
  htree (nodes_of s') (ls ++ map (fun j => (length (nodes_of s) + j, nth j sg None))%nat (seqn 0 (length ns))) (v_tree s') /\
  nodes_of s' = nodes_of s ++ ns /\ length ns = length ws /\ v_regs s' = v_regs s /\ exists xs, rep_cells cf (ds ++ xs) (v_cells s').
Proof.
  intros Hp. induction ws as [|w ws IH]; intros ds s s' ns ls sg R HT Hw Hr H; cbn [mapM map] in *.
  - apply ok_inv in H. destruct H as [<- <-]. cbn. rewrite !app_nil_r. repeat (split; [first [assumption|reflexivity]|]). exists []. now rewrite app_nil_r.
  - destruct sg as [|q sg]; [discriminate|]. cbn [map] in Hw. injection Hw as Hq Hw. inversion Hr as [|? ? Rq Rsg]; subst.
    binv H. binv E. apply wrap_inv in E0. destruct (build_tree _ _ _ _ _ _ _ _ Hp R E0 HT) as (HT1 & N1 & G1 & _ & x & R1).
    assert (Ha : nth_error (nodes_of s1) (length (nodes_of s)) = Some a0) by (rewrite N1, nth_error_app2, Nat.sub_diag by lia; reflexivity).
    destruct (link_tree s1 (length (nodes_of s)) a0 q ls HT1 Ha) as (s2 & E2 & HT2 & O2 & N2); [rewrite N1; now apply range_app|].
    rewrite N1, ptr_app, <- Hq in E2 by assumption. rewrite (bind_ok _ _ _ _ _ E2) in E. apply ok_inv in E. destruct E as [<- <-].
    binv H. apply ok_inv in H. destruct H as [<- <-].
    assert (R2 : rep_cells cf (ds ++ [x]) (v_cells s2)). { destruct O2 as (_ & _ & -> & _). exact R1. }
    destruct (IH _ _ s0 a _ sg R2 HT2) as (HT3 & N3 & L3 & G3 & xs & R3).
    { rewrite N2, N1, map_ptr_app by assumption. exact Hw. }
    { rewrite N2, N1. eapply Forall_impl; [|exact Rsg]. intros; now apply range_app. }
    { exact E. }
    split; [|split; [rewrite N3, N2, N1, <- app_assoc; reflexivity|]].
    + cbn [length seqn map]. rewrite <- app_assoc in HT3. cbn [app] in HT3. rewrite Nat.add_0_r. cbn [nth].
      replace (map _ (seqn 1 (length a))) with (map (fun j => (length (nodes_of s2) + j, nth j sg None))%nat (seqn 0 (length a))); [exact HT3|].
      apply map_seq_shift. intros k Hk. rewrite N2, N1, app_length. cbn [length nth Nat.add]. f_equal. lia.
    + split; [cbn; lia|]. split; [destruct O2 as (_ & _ & _ & O2 & _); congruence|]. exists ([x] ++ xs). now rewrite app_assoc.
Qed.

(** ** Cells, members and significances together *)
Definition tied (h : history) (ls : list link) (s : vst) : Prop :=
  htree (nodes_of s) ls (v_tree s) /\ map snd (g_assoc (v_regs s)) = map (ptr (nodes_of s)) (significances h) /\
  Forall (in_range (nodes_of s)) (significances h).
Lemma tied_grow h h' ls ls' s s' l : tied h ls s -> htree (nodes_of s') ls' (v_tree s') -> nodes_of s' = nodes_of s ++ l ->
  g_assoc (v_regs s') = g_assoc (v_regs s) -> significances h' = significances h -> tied h' ls' s'.
Proof.
  intros (H1 & H2 & H3) HT HN HG HS. split; [exact HT|]. rewrite HG, HS, HN. split; [now rewrite map_ptr_app|].
  eapply Forall_impl; [|exact H3]. intros; now apply range_app.
Qed.
Lemma tied_same h h' ls s s' : tied h ls s -> v_tree s' = v_tree s -> v_cells s' = v_cells s ->
  g_assoc (v_regs s') = g_assoc (v_regs s) -> significances h' = significances h -> tied h' ls s'.
Proof.
  intros H E1 E2 E3 E4. eapply (tied_grow _ _ _ _ _ _ []); eauto.
  - unfold nodes_of. rewrite E1, E2. apply H.
  - unfold nodes_of. now rewrite E2, app_nil_r.
Qed.
Lemma nodes_len cf h s : (0 < lanes cf)%nat -> rep cf h s -> length (nodes_of s) = ncells h.
Proof.
  intros Hp R. unfold nodes_of, ncells. rewrite map_length. destruct (rep_lane0 cf (data h) (v_cells s) ltac:(apply R) Hp) as [-> _]. reflexivity.
Qed.
Lemma removelast_map {A B} (f : A -> B) l : removelast (map f l) = map f (removelast l).
Proof. induction l as [|a [|b l] IH]; [reflexivity|reflexivity|]. cbn in IH |- *. now rewrite IH. Qed.
Lemma removelast_Forall {A} (P : A -> Prop) l : Forall P l -> Forall P (removelast l).
Proof. induction 1 as [|a [|b l] Ha Hl IH]; cbn in *; [constructor|constructor|]. constructor; assumption. Qed.

(** Cells are only appended. *)
Lemma add_valued_cells d info u s : exists l, nodes_of (fst (add_valued d info u s)) = nodes_of s ++ l.
Proof.
  destruct s as [r t cs g b p]. destruct cs as [l|[|l ls]], u as [v|c];
    unfold add_valued, bind, Len, gets, alloc, tree_Add, AddMember, modify, lift_res, throw; cbn -[nodes_of add_column];
    unfold nodes_of; cbn -[add_column]; try (exists []; now rewrite app_nil_r); try (exists []; reflexivity).
  - rewrite map_app. cbn. eauto.
  - destruct (cv_vals c) as [|v vs]; cbn; [exists []; now rewrite app_nil_r|]. destruct (add_column _ ls vs); cbn; try (exists []; now rewrite app_nil_r).
    rewrite map_app. eauto.
Qed.
Lemma visit_cells cf n s : no_base n -> exists l, nodes_of (fst (visit cf n s)) = nodes_of s ++ l.
Proof.
  intros Hn. apply (ke_visit cf (fun x => exists l, nodes_of x = nodes_of s ++ l) (fun k => k <> KBase)); try (intros; assumption);
    try (intros; intros ? ?; assumption); try exact Hn.
  - intros d info u s0 [l H]. destruct (add_valued_cells d info u s0) as [l' H']. exists (l ++ l'). now rewrite H', H, app_assoc.
  - intros k _ _ s0 H. unfold tree_Pop. destruct (t_stack (v_tree s0)); exact H.
  - intros H. contradiction.
  - exists []. now rewrite app_nil_r.
Qed.
Lemma vlist_cells cf ms : Forall no_base ms -> forall s s', vlist cf ms s = (s', Ok tt) -> exists l, nodes_of s' = nodes_of s ++ l.
Proof.
  unfold vlist. induction 1 as [|n ms Hn Hm IH]; intros s s' H; cbn [mapM_] in H.
  - apply ok_inv in H. destruct H as [<- _]. exists []. now rewrite app_nil_r.
  - binv H. destruct a. destruct (visit_cells cf n s Hn) as [l Hl]. rewrite E in Hl. cbn [fst] in Hl. destruct (IH _ _ H) as [l' Hl'].
    exists (l ++ l'). now rewrite Hl', Hl, app_assoc.
Qed.
(** Forgetting the links. *)
Scheme links_mut := Induction for links Sort Prop
  with links_list_mut := Induction for links_list Sort Prop
  with links_times_mut := Induction for links_times Sort Prop.
Combined Scheme links_all from links_mut, links_list_mut, links_times_mut.
Lemma links_run cf :
  (forall h r n h' r' l, links cf h r n h' r' l -> runs cf h r n h' r') /\
  (forall h r ns h' r' l, links_list cf h r ns h' r' l -> runs_list cf h r ns h' r') /\
  (forall k h r ns h' r' l, links_times cf k h r ns h' r' l -> runs_times cf k h r ns h' r').
Proof. apply links_all; intros; try assumption; try (econstructor; eauto; fail). Qed.
Lemma links_list_runs cf h r ns h' r' l : links_list cf h r ns h' r' l -> runs_list cf h r ns h' r'.
Proof. apply (links_run cf). Qed.

Notation lrel := (history -> reader -> history -> reader -> list link -> Prop).
Section Links.
  Variable cf : config.
  Hypothesis Hp : (0 < lanes cf)%nat.
  Notation does := (does cf).
  Ltac notop := match goal with H : In _ _ |- _ => destruct H as [H|[H|[H|[H|[]]]]]; discriminate end.

  Lemma zero_tree h od s s' ls : rep cf h s -> htree (nodes_of s) ls (v_tree s) -> buildZeroNode cf od s = (s', Ok tt) ->
    htree (nodes_of s') ls (v_tree s') /\ v_regs s' = v_regs s /\ exists l, nodes_of s' = nodes_of s ++ l.
  Proof.
    intros R HT H. unfold buildZeroNode in H. destruct (cf_compatible cf).
    - destruct od as [d|]; [|discriminate H]. cbn [need] in H. erewrite bind_ok in H by reflexivity.
      destruct (buildValuedNodeWithInfo cf d (plain_info NONNEG_CODE 0) s) as [s1 [n|e|p|]] eqn:E; try discriminate H.
      + apply ok_inv in H. destruct H as [<- _]. destruct (build_tree _ (data h) _ _ _ _ _ _ Hp ltac:(apply R) E HT) as (HT1 & N1 & G1 & _). eauto.
      + apply ok_inv in H. destruct H as [<- _].
        unfold buildValuedNodeWithInfo, bind, wrap in E. rewrite Unpack_eq in E.
        destruct (unpack_reader cf (plain_info NONNEG_CODE 0) (v_r s)) as [r' [u|e'|p|]] eqn:E1; cbn [fst snd] in E; try discriminate E.
        * exfalso. destruct (unpack_lanes _ _ _ _ _ E1) as [Hk Hl].
          destruct (add_valued_ok cf (data h) d (plain_info NONNEG_CODE 0) u (set_r r' s) Hp ltac:(apply R) Hk (Hl d)) as (s2 & n2 & E2 & _).
          rewrite E2 in E. discriminate E.
        * injection E as <- _. split; [exact HT|]. split; [reflexivity|]. exists []. now rewrite app_nil_r.
    - destruct (add_valueless_tree _ _ _ H _ HT) as (HT1 & N1 & G1). split; [exact HT1|]. split; [exact G1|]. exists []. now rewrite N1, app_nil_r.
  Qed.

  Definition tdoes (m : M vst unit) (R : lrel) : Prop := forall h s s' ls, rep cf h s -> tied h ls s -> m s = (s', Ok tt) ->
    exists h' l, R h (v_r s) h' (v_r s') l /\ rep cf h' s' /\ same_place s s' /\ tied h' (ls ++ l) s'.
  Definition link_of (n : anode) : lrel := fun h r h' r' l => links cf h r n h' r' l.

  Lemma t_leaf n : undivided n -> no_base n ->
    (forall h s s' h' ls, rep cf h s -> tied h ls s -> visit cf n s = (s', Ok tt) -> runs cf h (v_r s) n h' (v_r s') -> rep cf h' s' ->
       tied h' (ls ++ own_links h') s') ->
    tdoes (visit cf n) (link_of n).
  Proof.
    intros Hl Hn H h s s' ls R T E. destruct (visit_does cf Hp n Hn) as [V _]. destruct (V _ _ _ R E) as (h' & HR & R' & P).
    exists h', (own_links h'). split; [now apply link_leaf|]. split; [exact R'|]. split; [exact P|]. exact (H h s s' h' ls R T E HR R').
  Qed.
  Lemma fields_len d ws r xs r' : fields cf d ws r xs r' -> length xs = length ws.
  Proof. induction 1; cbn; auto. Qed.
  Lemma open_sigs h : length (significances h) = length (open_fields h).
  Proof.
    induction h as [|e h IH]; [reflexivity|]. destruct e as [op d| | |k x| | | | | | | |]; cbn [significances open_fields]; try exact IH.
    - destruct (op =? 204); [|exact IH]. destruct (id_Operand (d_id d) =? 0); [|rewrite !app_length; cbn; lia].
      destruct (rev_cases (significances h)) as [E|(l & a & E)], (rev_cases (open_fields h)) as [E'|(l' & a' & E')]; rewrite E, E' in *.
      + reflexivity.
      + rewrite app_length in IH. cbn in IH. lia.
      + rewrite app_length in IH. cbn in IH. lia.
      + rewrite !removelast_last. rewrite !app_length in IH. cbn in IH. lia.
    - destruct k; try exact IH. destruct (significances h) as [|q l] eqn:E; [exact IH|]. rewrite <- IH.
      rewrite (app_removelast_last None (l := q :: l)) at 2 by discriminate. rewrite !app_length. reflexivity.
  Qed.
  Lemma t_element np od ms b a : no_base (ANode (KElement np) od ms b a) ->
    tdoes (visit cf (ANode (KElement np) od ms b a)) (link_of (ANode (KElement np) od ms b a)).
  Proof.
    intros Hn. apply t_leaf; [exact I|exact Hn|]. intros h s s' h' ls R T H HR R'.
    change (visit cf (ANode (KElement np) od ms b a)) with (visit_element cf np od) in H. destruct np.
    - inversion HR; subst; try notop. cbn [own_links]. rewrite app_nil_r. destruct (add_valueless_tree _ _ _ H _ (proj1 T)) as (HT1 & N1 & G1).
      apply (tied_grow h _ ls _ s _ []); [exact T|exact HT1|now rewrite app_nil_r|congruence|reflexivity].
    - inversion HR as [|? ? d e fs x r1 r2 ? ? ? He HF HD| | | | |? ? ? ? ? ? ? ? HI| | | | | | | | | | |]; subst; [|try notop].
      cbn [own_links]. unfold visit_element in H. erewrite bind_ok in H by reflexivity. binv H. apply wrap_inv in E. unfold buildAssocNodes in E.
      binv E. apply ok_inv in E0. destruct E0 as [<- <-]. pose proof T as (HT & HS1 & HS2).
      assert (htree (nodes_of s0) (ls ++ map (fun j => (ncells h + j, nth j (significances h) None))%nat (seqn 0 (length a0))) (v_tree s0) /\
        nodes_of s0 = nodes_of s ++ a0 /\ length a0 = length fs /\ v_regs s0 = v_regs s /\ exists xs, rep_cells cf (data h ++ xs) (v_cells s0))
        as (HT1 & N1 & L1 & G1 & xs & R1).
      { apply fields_len in HF. rewrite HF. destruct (id_X (d_id d) =? 31).
        - apply ok_inv in E. destruct E as [<- <-]. cbn. rewrite !app_nil_r. repeat (split; [first [assumption|reflexivity]|]).
          exists []. rewrite app_nil_r. apply R.
        - rewrite <- (nodes_len cf h s Hp R).
          destruct (assoc_tree cf d Hp _ (data h) s s0 a0 ls (significances h) ltac:(apply R) HT HS1 HS2 E) as (X1 & X2 & X3 & X4 & X5).
          split; [exact X1|]. split; [exact X2|]. split; [|split; [exact X4|exact X5]]. rewrite X3, <- (rg_204 _ _ (rp_regs _ _ _ R)). now rewrite map_length. }
      binv H. apply wrap_inv in E0. unfold buildValuedNode in E0. binv E0. apply wrap_inv in E1.
      rewrite (calc_ok h d e s0) in E1; [|rewrite G1; apply R|exact He]. apply ok_inv in E1. destruct E1 as [<- <-].
      destruct (build_tree _ _ _ _ _ _ _ _ Hp R1 E0 HT1) as (HT2 & N2 & G2 & _).
      assert (Ha : nth_error (nodes_of s1) (ncells h + length fs)%nat = Some a1).
      { rewrite N2, N1, nth_error_app2 by (rewrite app_length, (nodes_len cf h s Hp R); lia).
        rewrite app_length, (nodes_len cf h s Hp R), L1, Nat.sub_diag. reflexivity. }
      destruct (links_tree _ a1 a0 (ncells h) s1 _ s' HT2 Ha) as (HT3 & O3 & N3).
      { rewrite N2, N1, <- app_assoc, skipn_app, skipn_all2 by (rewrite (nodes_len cf h s Hp R); lia).
        rewrite (nodes_len cf h s Hp R), Nat.sub_diag. cbn [app skipn]. rewrite firstn_app, firstn_all, Nat.sub_diag, firstn_O. apply app_nil_r. }
      { rewrite N2, N1, !app_length, (nodes_len cf h s Hp R). lia. }
      { exact H. }
      apply (tied_grow h _ ls _ s _ (a0 ++ [a1])); [exact T| |rewrite N3, N2, N1; symmetry; apply app_assoc| |reflexivity].
      + unfold field_links. rewrite <- L1 in HT3 |- *. rewrite app_assoc. exact HT3.
      + destruct O3 as (_ & _ & _ & O3 & _). congruence.
  Qed.

  (** Items. *)
  Lemma t_item h h' ls d info s s' n : rep cf h s -> tied h ls s -> buildValuedNodeWithInfo cf d info s = (s', Ok n) ->
    significances h' = significances h -> tied h' ls s'.
  Proof.
    intros R T E HS. destruct (build_tree _ (data h) _ _ _ _ _ _ Hp ltac:(apply R) E (proj1 T)) as (HT1 & N1 & G1 & _).
    apply (tied_grow h _ ls _ s _ [n]); auto. congruence.
  Qed.
  Lemma t_valueless h ls d s s' : tied h ls s -> add_valueless d s = (s', Ok tt) -> tied h ls s'.
  Proof.
    intros T E. destruct (add_valueless_tree _ _ _ E _ (proj1 T)) as (HT1 & N1 & G1).
    apply (tied_grow h _ ls _ s _ []); auto; [now rewrite app_nil_r|congruence].
  Qed.
  Lemma t_sig od ms b a : no_base (ANode KE031021 od ms b a) -> tdoes (visit cf (ANode KE031021 od ms b a)) (link_of (ANode KE031021 od ms b a)).
  Proof.
    intros Hn. apply t_leaf; [exact I|exact Hn|]. intros h s s' h' ls R T H HR R'.
    change (visit cf (ANode KE031021 od ms b a)) with (visit_031021 cf od) in H.
    inversion HR; subst; try notop. cbn [own_links]. rewrite app_nil_r. unfold visit_031021 in H. erewrite bind_ok in H by reflexivity.
    binv H. apply wrap_inv in E. unfold buildValuedNode in E. binv E. apply wrap_inv in E0.
    rewrite (calc_ok h d e s) in E0; [|apply R|assumption]. apply ok_inv in E0. destruct E0 as [<- <-].
    destruct (build_tree _ (data h) _ _ _ _ _ _ Hp ltac:(apply R) E (proj1 T)) as (HT1 & N1 & G1 & _).
    unfold assoc_SetNode in H. apply ok_inv in H. destruct H as [<- _]. pose proof T as (_ & HS1 & HS2).
    split; [exact HT1|]. change (nodes_of (set_regs _ s0)) with (nodes_of s0). cbn [v_regs set_regs significances]. rewrite G1, N1.
    destruct (g_assoc (v_regs s)) as [|p l] eqn:Eg.
    - cbn [map] in HS1. destruct (significances h); [|discriminate]. rewrite Eg. split; [reflexivity|constructor].
    - cbn [g_assoc set_assoc]. destruct (significances h) as [|q sg] eqn:Es; [discriminate|]. split.
      + rewrite !map_app, <- removelast_map, HS1, removelast_map, map_ptr_app by now apply removelast_Forall.
        f_equal. cbn [map snd ptr]. now rewrite <- (nodes_len cf h s Hp R), nth_error_app2, Nat.sub_diag by lia.
      + apply Forall_app. split.
        * eapply Forall_impl; [|apply removelast_Forall; exact HS2]. intros; now apply range_app.
        * constructor; [|constructor]. cbn. rewrite app_length, (nodes_len cf h s Hp R). cbn. lia.
  Qed.
  Lemma t_marker od ms b a : no_base (ANode KMarker od ms b a) -> tdoes (visit cf (ANode KMarker od ms b a)) (link_of (ANode KMarker od ms b a)).
  Proof.
    intros Hn. apply t_leaf; [exact I|exact Hn|]. intros h s s' h' ls R T H HR R'.
    change (visit cf (ANode KMarker od ms b a)) with (visit_marker cf od) in H.
    inversion HR; subst; try notop. cbn [own_links]. rewrite app_nil_r. unfold visit_marker in H. binv H.
    unfold NextTargetNode in E. destruct (m_targets (v_bm s)) as [|v vs] eqn:Et; [discriminate E|]. apply ok_inv in E. destruct E as [<- <-].
    binv H. destruct (calc_inv _ _ _ _ E) as [e' He']. rewrite (calc_ok h _ e') in E; [|apply R|exact He']. apply ok_inv in E. destruct E as [<- <-].
    erewrite bind_ok in H by reflexivity. binv H. apply ok_inv in H. destruct H as [<- _].
    match type of E with _ ?X = _ => destruct (build_tree cf (data h) _ _ X _ _ ls Hp ltac:(apply R) E (proj1 T)) as (HT1 & N1 & G1 & _) end.
    apply (tied_grow h _ ls _ s _ [a0]); [exact T|exact HT1|exact N1|now rewrite G1|reflexivity].
  Qed.
  Lemma t_op k op (f : descriptor -> regs -> regs) od ms b a : no_base (ANode k od ms b a) ->
    In (k, op) [(KNbitsOffset, 201); (KScaleOffset, 202); (KModifyPacking, 207); (KSetStringLength, 208)] ->
    (forall d g, g_assoc (f d g) = g_assoc g) ->
    (forall s, visit cf (ANode k od ms b a) s = (add_valueless od ;; d <- need od ;; upd_regs (f d))%M s) ->
    tdoes (visit cf (ANode k od ms b a)) (link_of (ANode k od ms b a)).
  Proof.
    intros Hn Hin Hf Hv. apply t_leaf; [|exact Hn|]. { destruct Hin as [Hi|[Hi|[Hi|[Hi|[]]]]]; injection Hi as <- <-; exact I. }
    intros h s s' h' ls R T H HR R'. rewrite Hv in H. binv H. destruct a0. pose proof (t_valueless _ _ _ _ _ T E) as T1.
    destruct od as [d|]; [|discriminate H]. cbn [need] in H. erewrite bind_ok in H by reflexivity. apply ok_inv in H. destruct H as [<- _].
    assert (exists op', op' <> 204 /\ h' = EvOp op' d :: h) as (op' & Ho & ->).
    { destruct Hin as [Hi|[Hi|[Hi|[Hi|[]]]]]; injection Hi as <- <-; inversion HR; subst;
        match goal with X : In _ _ |- _ => destruct X as [X|[X|[X|[X|[]]]]]; try discriminate X; injection X as <- end;
        eexists; (split; [|reflexivity]); discriminate. }
    cbn [own_links]. rewrite app_nil_r. eapply tied_same; [exact T1|reflexivity|reflexivity| |].
    - cbn [v_regs set_regs]. apply Hf.
    - cbn [significances]. now rewrite (proj2 (Z.eqb_neq _ _) Ho).
  Qed.
  Lemma t_refval od ms b a : no_base (ANode KNewRefval od ms b a) -> tdoes (visit cf (ANode KNewRefval od ms b a)) (link_of (ANode KNewRefval od ms b a)).
  Proof.
    intros Hn. apply t_leaf; [exact I|exact Hn|]. intros h s s' h' ls R T H HR R'.
    change (visit cf (ANode KNewRefval od ms b a)) with (add_valueless od ;; d <- need od ;;
        if negb (id_Operand (d_id d) =? 255)
        then mapM_ (visit_refval_member cf (plain_info CODE (id_Operand (d_id d)))) ms else ret tt)%M in H.
    inversion HR as [| | | | | | |? ? d ? ? ? Ho| | | | | | | | | |]; subst; try notop. cbn [own_links]. rewrite app_nil_r.
    binv H. destruct a0. pose proof (t_valueless _ _ _ _ _ T E) as T1. cbn [need] in H. erewrite bind_ok in H by reflexivity.
    assert (s' = s0) as ->.
    { destruct Ho as [Ho| ->]; [rewrite Ho in H; cbn in H; injection H as <-; reflexivity|].
      destruct (negb _); cbn in H; injection H as <-; reflexivity. }
    eapply tied_same; [exact T1|reflexivity|reflexivity|reflexivity|reflexivity].
  Qed.
  Lemma t_insert od ms b a : no_base (ANode KInsertString od ms b a) -> tdoes (visit cf (ANode KInsertString od ms b a)) (link_of (ANode KInsertString od ms b a)).
  Proof.
    intros Hn. apply t_leaf; [exact I|exact Hn|]. intros h s s' h' ls R T H HR R'.
    change (visit cf (ANode KInsertString od ms b a)) with (d <- need od ;;
       buildValuedNodeWithInfo cf d (plain_info STRING (id_Y (d_id d) * NBITS_PER_BYTE)) ;; ret tt)%M in H.
    inversion HR; subst; try notop. cbn [own_links]. rewrite app_nil_r. cbn [need] in H. erewrite bind_ok in H by reflexivity.
    binv H. apply ok_inv in H. destruct H as [<- _]. eapply t_item; [exact R|exact T|exact E|reflexivity].
  Qed.
  Lemma t_local od ms b a : no_base (ANode KSkipLocal od ms b a) -> tdoes (visit cf (ANode KSkipLocal od ms b a)) (link_of (ANode KSkipLocal od ms b a)).
  Proof.
    intros Hn. apply t_leaf; [exact I|exact Hn|]. intros h s s' h' ls R T H HR R'.
    change (visit cf (ANode KSkipLocal od ms b a)) with (add_valueless od ;; d <- need od ;;
             match ms with
             | [] => throw PIndex
             | m0 :: _ =>
                 md <- need (an_desc m0) ;;
                 buildValuedNodeWithInfo cf md (plain_info BINARY (id_Y (d_id d))) ;; ret tt
             end)%M in H.
    inversion HR; subst; try notop. cbn [own_links]. rewrite app_nil_r. binv H. destruct a0. pose proof (t_valueless _ _ _ _ _ T E) as T1.
    destruct (add_valueless_ok (Some d) s) as (s1 & E1 & O1). rewrite E in E1. injection E1 as <-.
    cbn [need] in H. erewrite bind_ok in H by reflexivity. match goal with X : an_desc m = _ |- _ => rewrite X in H end.
    cbn [need] in H. erewrite bind_ok in H by reflexivity. binv H. apply ok_inv in H. destruct H as [<- _].
    eapply t_item; [exact (rep_only_heap _ _ _ _ O1 R)|exact T1|exact E0|reflexivity].
  Qed.
  Lemma t_cancel_backref od ms b a : no_base (ANode KCancelBackRef od ms b a) -> tdoes (visit cf (ANode KCancelBackRef od ms b a)) (link_of (ANode KCancelBackRef od ms b a)).
  Proof.
    intros Hn. apply t_leaf; [exact I|exact Hn|]. intros h s s' h' ls R T H HR R'. inversion HR; subst; try notop.
    cbn [own_links]. rewrite app_nil_r. injection H as <-. eapply tied_same; [exact T|reflexivity..].
  Qed.
  Lemma t_cancel_bitmap od ms b a : no_base (ANode KCancelBitmap od ms b a) -> tdoes (visit cf (ANode KCancelBitmap od ms b a)) (link_of (ANode KCancelBitmap od ms b a)).
  Proof.
    intros Hn. apply t_leaf; [exact I|exact Hn|]. intros h s s' h' ls R T H HR R'. inversion HR; subst; try notop.
    cbn [own_links]. rewrite app_nil_r. injection H as <-. eapply tied_same; [exact T|reflexivity..].
  Qed.

  (** ** Nested nodes *)
  Lemma td_ext m m' R : (forall s, m s = m' s) -> tdoes m R -> tdoes m' R.
  Proof. intros H T h s s' ls Hr Ht E. rewrite <- H in E. eauto. Qed.
  Lemma td_weak m (R R' : lrel) : (forall h r h' r' l, R h r h' r' l -> R' h r h' r' l) -> tdoes m R -> tdoes m R'.
  Proof. intros H T h s s' ls Hr Ht E. destruct (T h s s' ls Hr Ht E) as (h' & l & HR & Q). exists h', l. auto. Qed.
  Lemma td_wrap tag m R : tdoes m R -> tdoes (wrap tag m) R.
  Proof. intros T h s s' ls Hr Ht E. apply wrap_inv in E. eauto. Qed.
  Lemma td_bind m1 m2 (R1 R2 : lrel) : tdoes m1 R1 -> tdoes m2 R2 -> tdoes (bind m1 (fun _ => m2))
    (fun h r h' r' l => exists h1 r1 l1 l2, R1 h r h1 r1 l1 /\ R2 h1 r1 h' r' l2 /\ l = l1 ++ l2).
  Proof.
    intros T1 T2 h s s' ls Hr Ht E. binv E. destruct a. destruct (T1 h s s0 ls Hr Ht E0) as (h1 & l1 & HR1 & Hr1 & P1 & Ht1).
    destruct (T2 h1 s0 s' _ Hr1 Ht1 E) as (h2 & l2 & HR2 & Hr2 & P2 & Ht2). exists h2, (l1 ++ l2). split; [exists h1, (v_r s0), l1, l2; auto|].
    split; [exact Hr2|]. split; [eapply same_place_trans; eauto|]. now rewrite app_assoc.
  Qed.
  (** Steps that change neither tree nor cells nor open fields. *)
  Lemma td_event m e : (forall h s, rep cf h s -> exists s', m s = (s', Ok tt) /\ v_r s' = v_r s /\ rep cf (e :: h) s' /\ same_place s s') ->
    (forall s s', m s = (s', Ok tt) -> v_tree s' = v_tree s /\ v_cells s' = v_cells s /\ v_regs s' = v_regs s) ->
    (forall h, significances (e :: h) = significances h) ->
    tdoes m (fun h r h' r' l => h' = e :: h /\ r' = r /\ l = []).
  Proof.
    intros H Hk Hs h s s' ls Hr Ht E. destruct (H h s Hr) as (s1 & E1 & Ev & Hr1 & P1). rewrite E in E1. injection E1 as <-.
    exists (e :: h), []. split; [auto|]. split; [exact Hr1|]. split; [exact P1|]. rewrite app_nil_r.
    destruct (Hk s s' E) as (K1 & K2 & K3). eapply tied_same; eauto. now rewrite K3.
  Qed.
  Lemma td_list ms : Forall (fun n => tdoes (visit cf n) (link_of n)) ms ->
    tdoes (vlist cf ms) (fun h r h' r' l => links_list cf h r ms h' r' l).
  Proof.
    unfold vlist. induction 1 as [|n l Hn Hl IH]; cbn [mapM_].
    - intros h s s' ls Hr Ht E. apply ok_inv in E. destruct E as [<- _]. exists h, []. split; [constructor|]. split; [exact Hr|].
      split; [apply same_place_refl|]. now rewrite app_nil_r.
    - eapply td_weak; [|apply td_bind; eauto]. intros h r h' r' l0 (h1 & r1 & l1 & l2 & H1 & H2 & ->). econstructor; eauto.
  Qed.
  Lemma td_iter m ms : tdoes m (fun h r h' r' l => links_list cf h r ms h' r' l) -> forall n,
    tdoes (iterN n m) (fun h r h' r' l => links_times cf n h r ms h' r' l).
  Proof.
    intros Hm. induction n as [|n IH]; cbn [iterN].
    - intros h s s' ls Hr Ht E. apply ok_inv in E. destruct E as [<- _]. exists h, []. split; [constructor|]. split; [exact Hr|].
      split; [apply same_place_refl|]. now rewrite app_nil_r.
    - eapply td_weak; [|apply td_bind; eauto]. intros h r h' r' l0 (h1 & r1 & l1 & l2 & H1 & H2 & ->). econstructor; eauto.
  Qed.
  Lemma td_enter k m R : tdoes m R -> tdoes (enter k m) R.
  Proof.
    intros T h s s' ls Hr Ht E. apply deferM_inv in E; [|apply pop_no_err]. destruct E as (s1 & E1 & E2).
    assert (Ht0 : tied h ls (pushed k s)).
    { destruct Ht as (H1 & H2 & H3). split; [exact (ht_pushed _ _ _ k H1)|]. split; assumption. }
    destruct (T h _ s1 ls (rep_pushed cf k _ _ Hr) Ht0 E1) as (h' & l & HR & Hr' & P & Ht1).
    destruct (pop_ok cf k s s1 P) as (s2 & E3 & P2 & Hv & Hrep).
    rewrite E3 in E2. apply ok_inv in E2. destruct E2 as [<- _]. exists h', l. rewrite Hv. split; [exact HR|]. split; [auto|]. split; [exact P2|].
    unfold tree_Pop in E3. destruct (t_stack (v_tree s1)) as [|p st] eqn:Es; [discriminate|]. apply ok_inv in E3. destruct E3 as [<- _].
    destruct Ht1 as (H1 & H2 & H3). split; [|split; assumption]. cbn [set_tree v_tree].
    apply (ht_pop _ _ _ (t_node (v_tree s1))). rewrite <- Es. now destruct (v_tree s1).
  Qed.
  Definition all_td ms := Forall (fun n => tdoes (visit cf n) (link_of n)) ms.
  Lemma t_sequence od ms b a : all_td ms -> tdoes (visit cf (ANode KSequence od ms b a)) (link_of (ANode KSequence od ms b a)).
  Proof.
    intros Hm. eapply td_ext with (m := enter (NValueless od) (wrap "cannot process sequence members" (vlist cf ms))); [reflexivity|].
    eapply td_weak; [|apply td_enter, td_wrap, td_list, Hm]. intros. now constructor.
  Qed.
  Lemma td_block tag z ms : all_td ms ->
    tdoes (iter_Z z (wrap tag (vblock cf ms))) (fun h r h' r' l => links_times cf (Z.to_nat z) h r ms h' r' l).
  Proof.
    intros Hm. eapply td_ext; [intros s; symmetry; apply iter_Z_nat|]. apply td_iter. apply td_wrap, td_enter, td_wrap, td_list, Hm.
  Qed.
  Lemma t_fixed od ms b a : all_td ms -> tdoes (visit cf (ANode KFixed od ms b a)) (link_of (ANode KFixed od ms b a)).
  Proof.
    intros Hm. eapply td_ext with (m := enter (NValueless od) (d <- need od ;;
      iter_Z (id_Y (d_id d)) (wrap "cannot process fixed replication node" (vblock cf ms)))%M); [reflexivity|].
    apply td_enter. destruct od as [d|]; [|intros h s s' ls R T H; discriminate H].
    eapply td_ext with (m := iter_Z (id_Y (d_id d)) (wrap "cannot process fixed replication node" (vblock cf ms))); [reflexivity|].
    eapply td_weak; [|apply td_block, Hm]. intros. now constructor.
  Qed.
  Lemma t_delayed od ms b a : all_td ms -> tdoes (visit cf (ANode KDelayed od ms b a)) (link_of (ANode KDelayed od ms b a)).
  Proof.
    intros Hm. destruct ms as [|m0 rest].
    - eapply td_ext with (m := enter (NValueless od) (throw PIndex)); [reflexivity|]. apply td_enter. intros h s s' ls R T H; discriminate H.
    - eapply td_ext with (m := enter (NValueless od) (wrap "cannot process delayed replication factor" (visit cf m0) ;;
        nrep <- get_factor cf ;; iter_Z nrep (wrap "cannot process delayed replication" (vblock cf rest)))%M).
      { intros s. unfold enter. set (X := pushed (NValueless od) s).
        change (visit cf (ANode KDelayed od (m0 :: rest) b a) s) with
         (deferM tree_Pop (wrap "cannot process delayed replication factor" (visit cf m0) ;;
                   eq <- LastCellEquality ;;
                   if negb eq
                   then fail (EMsg "delayed replication factor not equal across all (compressed) subsets")
                   else
                     len <- Len ;;
                     c <- CellAt (len - 1) ;;
                     nrep <- wrap "cannot get delayed replication value as uint"
                               (lift_res (UintValue (cf_plat cf) (c_val c))) ;;
                     iter_Z nrep (wrap "cannot process delayed replication" (vblock cf rest)))%M X).
        unfold deferM. erewrite bind_ext; [reflexivity|]. intros [] s1. unfold get_factor. rewrite bind_assoc. apply bind_ext. intros q s2.
        destruct (negb q); [reflexivity|]. rewrite bind_assoc. apply bind_ext. intros l s3. rewrite bind_assoc. reflexivity. }
      apply td_enter. inversion Hm as [|? ? Hm0 Hrest]; subst.
      eapply td_weak; [|apply td_bind with (R2 := fun h r h' r' l => exists n, factor cf h n /\ links_times cf n h r rest h' r' l); [apply td_wrap, Hm0|]].
      + intros h r h' r' l (h1 & r1 & l1 & l2 & H1 & (n & Hn & H2) & ->). econstructor; eauto.
      + intros h s s' ls R T H. binv H. apply (factor_iff cf Hp h) in E; [|exact R]. destruct E as [-> (ds & x & v & vs & E1 & E2 & E3 & E4)].
        destruct (td_block "cannot process delayed replication" a0 rest Hrest h s s' ls R T H) as (h' & l & HR & Q). exists h', l. split; [|exact Q].
        exists (Z.to_nat a0). split; [|exact HR]. exists ds, x, v, vs, a0. auto.
  Qed.
  Lemma td_valueless od e : ev_data e = [] -> is_op e = false -> plain_event e = true -> (forall h, significances (e :: h) = significances h) ->
    tdoes (add_valueless od) (fun h r h' r' l => h' = e :: h /\ r' = r /\ l = []).
  Proof.
    intros H1 H2 H3 H4 h s s' ls R T E. destruct (add_valueless_ok od s) as (s1 & E1 & O1). rewrite E in E1. injection E1 as <-.
    exists (e :: h), []. split; [split; [reflexivity|split; [apply O1|reflexivity]]|].
    split; [eapply rep_only_heap; [exact O1|]; now apply rep_event|]. split; [apply O1|]. rewrite app_nil_r.
    pose proof (t_valueless _ _ _ _ _ T E) as T1. eapply tied_same; [exact T1|reflexivity|reflexivity|reflexivity|apply H4].
  Qed.
  Lemma t_not_present od ms b a : all_td ms -> tdoes (visit cf (ANode KDataNotPresent od ms b a)) (link_of (ANode KDataNotPresent od ms b a)).
  Proof.
    intros Hm. eapply td_ext with (m := (add_valueless od ;; wrap "cannot process data not presented node" (vlist cf ms))%M); [reflexivity|].
    eapply td_weak; [|apply td_bind; [apply td_valueless with (e := EvNote od); reflexivity|apply td_wrap, td_list, Hm]].
    intros h r h' r' l (h1 & r1 & l1 & l2 & (-> & -> & ->) & H2 & ->). now constructor.
  Qed.
  Lemma t_assoc od ms b a : all_td ms -> tdoes (visit cf (ANode KAssocField od ms b a)) (link_of (ANode KAssocField od ms b a)).
  Proof.
    intros Hm. eapply td_ext with (m := (add_valueless od ;; d <- need od ;;
       (if id_Y (d_id d) =? 0 then assoc_Pop else assoc_Push (id_Y (d_id d))) ;;
       wrap "cannot process assoc field significance" (vlist cf ms))%M); [reflexivity|].
    destruct od as [d|]; [|intros h s s' ls R T H; discriminate H].
    eapply td_weak; [|apply td_bind with (R1 := fun h r h' r' l => h' = h /\ r' = r /\ l = [])
        (m2 := ((if id_Y (d_id d) =? 0 then assoc_Pop else assoc_Push (id_Y (d_id d))) ;;
          wrap "cannot process assoc field significance" (vlist cf ms))%M);
      [|apply td_bind with (R1 := fun h r h' r' l => (id_Y (d_id d) = 0 -> open_fields h <> []) /\ h' = EvOp 204 d :: h /\ r' = r /\ l = []);
        [|apply td_wrap, td_list, Hm]]].
    - intros h r h' r' l (h1 & r1 & l1 & l2 & (-> & -> & ->) & (h2 & r2 & l3 & l4 & (Ho & -> & -> & ->) & H2 & ->) & ->). now constructor.
    - intros h s s' ls R T E. destruct (add_valueless_ok (Some d) s) as (s1 & E1 & O1). rewrite E in E1. injection E1 as <-.
      exists h, []. split; [split; [reflexivity|split; [apply O1|reflexivity]]|].
      split; [eapply rep_only_heap; eauto|]. split; [apply O1|]. rewrite app_nil_r. eapply t_valueless; eauto.
    - intros h s s' ls R T H. pose proof T as (T1 & T2 & T3). destruct (Z.eqb_spec (id_Y (d_id d)) 0) as [Hy|Hy].
      + unfold assoc_Pop in H. destruct (g_assoc (v_regs s)) as [|p l] eqn:Eg; [discriminate H|]. apply ok_inv in H. destruct H as [<- _].
        exists (EvOp 204 d :: h), []. split; [split; [|repeat split]|].
        * intros _. rewrite <- (rg_204 _ _ (rp_regs _ _ _ R)), Eg. discriminate.
        * split; [apply rep_set_regs; [exact R|]; rewrite <- Eg; apply op204_close; [apply R|exact Hy]|]. split; [repeat split|].
          rewrite app_nil_r. split; [exact T1|]. change (nodes_of (set_regs _ s)) with (nodes_of s).
          unfold significances; fold significances. cbn [v_regs set_regs g_assoc set_assoc Z.eqb Pos.eqb].
          unfold id_Operand. rewrite (proj2 (Z.eqb_eq _ _) Hy). split; [now rewrite <- removelast_map, T2, removelast_map|now apply removelast_Forall].
      + apply ok_inv in H. destruct H as [<- _]. exists (EvOp 204 d :: h), []. split; [split; [intros; contradiction|repeat split]|].
        split; [apply rep_set_regs; [exact R|]; apply op204_open; [apply R|exact Hy]|]. split; [repeat split|].
        rewrite app_nil_r. split; [exact T1|]. change (nodes_of (set_regs _ s)) with (nodes_of s).
        unfold significances; fold significances. cbn [v_regs set_regs g_assoc set_assoc Z.eqb Pos.eqb].
        unfold id_Operand. rewrite (proj2 (Z.eqb_neq _ _) Hy). split; [rewrite !map_app, T2; reflexivity|].
        apply Forall_app. split; [exact T3|]. constructor; [exact I|constructor].
  Qed.
  Lemma td_zero od : tdoes (buildZeroNode cf od) (fun h r h' r' l => exists z, zero_cell cf od r z r' /\ h' = EvZero z :: h /\ l = []).
  Proof.
    intros h s s' ls R T H. destruct (zero_sound cf Hp h od s s' R H) as (z & HZ & HR & P). exists (EvZero z :: h), [].
    split; [eauto|]. split; [exact HR|]. split; [exact P|]. rewrite app_nil_r.
    destruct (zero_tree h od s s' ls R (proj1 T) H) as (HT & HG & l & HN). eapply tied_grow; eauto. now rewrite HG.
  Qed.
  Lemma end_only s s' : EndBitmap s = (s', Ok tt) -> v_tree s' = v_tree s /\ v_cells s' = v_cells s /\ v_regs s' = v_regs s.
  Proof.
    unfold EndBitmap. intros H. erewrite bind_ok in H by reflexivity. destruct (m_current (v_bm s)); [|discriminate H].
    binv H. unfold Len in E. injection E as <- _. apply ok_inv in H. destruct H as [<- _]. auto.
  Qed.
  Lemma new_only s s' : NewBitmap true s = (s', Ok tt) -> v_tree s' = v_tree s /\ v_cells s' = v_cells s /\ v_regs s' = v_regs s.
  Proof.
    unfold NewBitmap. intros H. binv H. unfold Len in E. injection E as <- _. binv H. apply ok_inv in E. destruct E as [<- <-].
    apply ok_inv in H. destruct H as [<- _]. auto.
  Qed.
  Lemma t_bitmap od ms b a : all_td ms -> no_base (ANode KBitmap od ms b a) -> tdoes (visit cf (ANode KBitmap od ms b a)) (link_of (ANode KBitmap od ms b a)).
  Proof.
    intros Hm Hn.
    assert (Hv : forall s, visit cf (ANode KBitmap od ms b a) s = (match od with Some _ => buildZeroNode cf od | None => ret tt end ;;
             d <- need od ;;
             if d_id d =? ID_237000 then RecallBitmap
             else NewBitmap true ;; deferM EndBitmap (vlist cf ms))%M s) by reflexivity.
    destruct od as [d|]; [|intros h s s' ls R T H; discriminate H].
    destruct (Z.eqb_spec (d_id d) ID_237000) as [Hd|Hd].
    - eapply td_ext with (m := (buildZeroNode cf (Some d) ;; RecallBitmap)%M).
      { intros s. rewrite Hv. apply bind_ext. intros [] s'. cbn [need]. symmetry. etransitivity; [apply bind_ok; reflexivity|]. cbv beta. now rewrite (proj2 (Z.eqb_eq _ _) Hd). }
      eapply td_weak; [|apply td_bind; [apply td_zero|apply td_event with (e := EvRecall); [intros; now apply recall_rep| |reflexivity]]].
      + intros h r h' r' l (h1 & r1 & l1 & l2 & (z & HZ & -> & ->) & (-> & -> & ->) & ->).
        change [] with (own_links (EvRecall :: EvZero z :: h)) at 1. apply link_leaf; [cbn; now rewrite Hd|]. now constructor.
      + intros s s' E. injection E as <-. auto.
    - eapply td_ext with (m := (buildZeroNode cf (Some d) ;; NewBitmap true ;; deferM EndBitmap (vlist cf ms))%M).
      { intros s. rewrite Hv. apply bind_ext. intros [] s'. cbn [need]. symmetry. etransitivity; [apply bind_ok; reflexivity|]. cbv beta. now rewrite (proj2 (Z.eqb_neq _ _) Hd). }
      eapply td_weak; [|apply td_bind; [apply td_zero|apply td_bind with (R2 := fun h r h' r' l => exists h1, links_list cf h r ms h1 r' l /\ bitmap h1 <> None /\ h' = EvDefined :: h1);
        [apply td_event with (e := EvDefine); [intros; now apply define_rep|exact new_only|reflexivity]|]]].
      + intros h r h' r' l (h1 & r1 & l1 & l2 & (z & HZ & -> & ->) & (h2 & r2 & l3 & l4 & (-> & -> & ->) & (h3 & HR & Hb & ->) & ->) & ->).
        cbn [app]. eapply link_define; eauto.
      + intros h s s' ls R T H. apply deferM_inv in H; [|apply end_no_err]. destruct H as (s1 & E1 & E2).
        destruct (td_list ms Hm h s s1 ls R T E1) as (h1 & l & HR & R1 & P1 & T1).
        destruct (end_sound cf Hp h1 s1 s' R1 E2) as (Hb & Hr & R2 & P2). exists (EvDefined :: h1), l. rewrite Hr.
        split; [eauto|]. split; [exact R2|]. split; [eapply same_place_trans; eauto|].
        destruct (end_only _ _ E2) as (K1 & K2 & K3). eapply tied_same; eauto. now rewrite K3.
  Qed.

  (** ** Quality and statistics operators *)
  Lemma init_only pl s s' ts : InitTargetNodes pl s = (s', Ok ts) -> v_tree s' = v_tree s /\ v_cells s' = v_cells s /\ v_regs s' = v_regs s.
  Proof.
    unfold InitTargetNodes. intros H. binv H. assert (s0 = s) as ->.
    { unfold Bits in E. binv E. apply ok_inv in E0. destruct E0 as [<- <-]. binv E. apply ok_inv in E0. destruct E0 as [<- <-].
      destruct (m_current (v_bm s)) as [i|]; [|discriminate E]. destruct (nth_error (m_bitmaps (v_bm s)) i) as [[i0 i1]|]; [|discriminate E].
      destruct (i1 - i0 <? 0); [discriminate E|]. unfold lift_res in E. injection E as <- _. reflexivity. }
    binv H. apply ok_inv in E0. destruct E0 as [<- <-]. binv H. apply ok_inv in E0. destruct E0 as [<- <-]. binv H.
    unfold lift_res in E0. injection E0 as <- _. destruct (negb _); [discriminate H|]. binv H. apply ok_inv in E0. destruct E0 as [<- _].
    apply ok_inv in H. destruct H as [<- _]. auto.
  Qed.
  Lemma assess_only s s' : NewAssessment s = (s', Ok tt) -> v_tree s' = v_tree s /\ v_cells s' = v_cells s /\ v_regs s' = v_regs s.
  Proof.
    unfold NewAssessment. intros H. binv H. apply ok_inv in E. destruct E as [<- <-]. destruct (_ =? _); [|apply ok_inv in H; destruct H as [<- _]; auto].
    binv H. unfold Len in E. injection E as <- _. apply ok_inv in H. destruct H as [<- _]. auto.
  Qed.
  Lemma Forall2_nth {A B} (P : A -> B -> Prop) l l' : Forall2 P l l' -> forall i a, nth_error l i = Some a ->
    exists b, nth_error l' i = Some b /\ P a b.
  Proof. induction 1; intros [|i] z Hz; cbn in *; try discriminate; [injection Hz as <-; eauto|eauto]. Qed.
  Lemma attach_tree targets anodes n2 n3 ps : forall snodes i s ls s', htree (nodes_of s) ls (v_tree s) ->
    snodes = skipn (n3 + i) (nodes_of s) -> Forall2 (fun v p => nth_error (nodes_of s) p = Some v) targets ps ->
    firstn (length anodes) (skipn n2 (nodes_of s)) = anodes -> (n2 + length anodes <= length (nodes_of s))%nat ->
    attach (Z.of_nat i) targets snodes anodes s = (s', Ok tt) ->
    htree (nodes_of s') (ls ++ flat_map (fun i => (nth i ps 0, Some (n3 + i)) :: map (fun a => (n3 + i, Some a)) (seqn n2 (length anodes)))%nat
      (seqn i (length snodes))) (v_tree s').
  Proof.
    induction snodes as [|sn rest IH]; intros i s ls s' HT Hs Ht Ha Hl H; cbn [attach length seqn flat_map] in *.
    - apply ok_inv in H. destruct H as [<- _]. now rewrite app_nil_r.
    - binv H. unfold lift_res in E. apply pair_equal_spec in E. destruct E as [<- E]. unfold go_nth in E.
      assert (Z.of_nat i <? 0 = false) as Hz by lia. rewrite Hz, Nat2Z.id in E.
      destruct (nth_error targets i) as [t|] eqn:Et; [|discriminate E]. injection E as <-.
      destruct (Forall2_nth _ _ _ Ht _ _ Et) as (p & Hps & Hpn).
      rewrite (skipn_nth (nodes_of s) (n3 + i)) in Hs. destruct (nth_error (nodes_of s) (n3 + i)) as [sn'|] eqn:Esn; [|discriminate Hs].
      injection Hs as <- Hs.
      destruct (link_tree s p t (Some (n3 + i)%nat) ls HT Hpn) as (s1 & E1 & HT1 & O1 & N1); [cbn; apply nth_error_Some; congruence|].
      cbn [ptr] in E1. rewrite Esn in E1. cbn [option_map] in E1. rewrite (bind_ok _ _ _ _ _ E1) in H. binv H. destruct a.
      destruct (links_tree (n3 + i) sn anodes n2 s1 _ s0 HT1) as (HT2 & O2 & N2); try (rewrite N1; assumption); [exact E|].
      replace (Z.of_nat i + 1) with (Z.of_nat (S i)) in H by lia.
      assert (N : nodes_of s0 = nodes_of s) by congruence.
      pose proof (IH (S i) s0 _ s' HT2) as HI. rewrite N in HI. specialize (HI ltac:(rewrite Nat.add_succ_r; exact Hs) Ht Ha Hl H).
      rewrite (nth_error_nth _ _ 0%nat Hps). rewrite <- !app_assoc in HI. cbn [app] in HI |- *. exact HI.
  Qed.
  Lemma t_assess od ms b a : Forall no_base ms -> all_td ms -> match b with Some b => tdoes (visit cf b) (link_of b) | None => True end -> all_td a ->
    tdoes (visit cf (ANode KAssessment od ms b a)) (link_of (ANode KAssessment od ms b a)).
  Proof.
    intros Hnm Hm Hb Ha. destruct b as [b|].
    2: { intros h s s' ls R T H. exfalso. change (visit cf (ANode KAssessment od ms None a) s) with
         ((NewAssessment ;; buildZeroNode cf od ;; (throw PNil : M vst unit) ;;
           a0 <- Len ;;
             wrap "cannot deserialize sandwiched nodes" (vlist cf a) ;;
             anodes <- nodes_since a0 ;;
             targets <- wrap "cannot get bitmapping target nodes" (InitTargetNodes (cf_plat cf)) ;;
             s0 <- Len ;;
             wrap "cannot deserialize bitmapping source nodes" (vlist cf ms) ;;
             snodes <- nodes_since s0 ;;
             attach 0 targets snodes anodes)%M s) in H.
        do 3 binv H. discriminate E1. }
    eapply td_ext with (m := (NewAssessment ;; buildZeroNode cf od ;; visit cf b ;;
             (a0 <- Len ;;
             wrap "cannot deserialize sandwiched nodes" (vlist cf a) ;;
             anodes <- nodes_since a0 ;;
             targets <- wrap "cannot get bitmapping target nodes" (InitTargetNodes (cf_plat cf)) ;;
             s0 <- Len ;;
             wrap "cannot deserialize bitmapping source nodes" (vlist cf ms) ;;
             snodes <- nodes_since s0 ;;
             attach 0 targets snodes anodes))%M); [reflexivity|].
    set (R4 := fun h r h' r' l => exists h3 r3 ps l2 l3, links_list cf h r a h3 r3 l2 /\ selects cf h3 ps /\
         links_list cf (EvTargets ps :: h3) r3 ms h' r' l3 /\ (ncells h' - ncells h3 <= length ps)%nat /\
         l = l2 ++ l3 ++ source_links ps (ncells h) (ncells h3) (ncells h')).
    eapply td_weak; [|apply td_bind; [apply td_event with (e := EvAssess od); [intros; now apply assess_rep|exact assess_only|reflexivity]|
       apply td_bind; [apply td_zero|apply td_bind with (R2 := R4); [exact Hb|]]]].
    - intros h r h' r' l (h1 & r1 & l1 & l2 & (-> & -> & ->) & (h2 & r2 & l3 & l4 & (z & HZ & -> & ->) &
        (h5 & r5 & l5 & l6 & HB & (h3 & r3 & ps & l7 & l8 & HA & HS & HM & Hle & ->) & ->) & ->) & ->).
      cbn [app]. eapply link_assess; eauto.
    - intros h s s' ls R T H. rewrite (bind_ok _ _ _ _ _ (len_ok cf Hp h s R)) in H. binv H. apply wrap_inv in E. destruct a0.
      destruct (td_list a Ha h s s0 ls R T E) as (h3 & l2 & HR3 & R3 & P3 & T3).
      pose proof (grows_ncells _ _ (runs_list_grows _ _ _ _ _ _ (links_list_runs _ _ _ _ _ _ _ HR3))) as G3.
      destruct (nodes_since_ok cf Hp h3 s0 (ncells h) R3 G3) as (an & Ean & Lan & Xan). rewrite (bind_ok _ _ _ _ _ Ean) in H.
      binv H. apply wrap_inv in E0. destruct (Init_sound cf Hp h3 s0 s1 a0 R3 E0) as (ps & HS & R5 & HL & HT & P5 & Hr5 & Hc5).
      destruct (init_only _ _ _ _ E0) as (K1 & K2 & K3).
      assert (T5 : tied (EvTargets ps :: h3) (ls ++ l2) s1) by (eapply tied_same; eauto; now rewrite K3).
      rewrite (bind_ok _ _ _ _ _ (len_ok cf Hp _ s1 R5)) in H. binv H. apply wrap_inv in E1. destruct a1.
      destruct (td_list ms Hm _ s1 s2 _ R5 T5 E1) as (h4 & l3 & HR4 & R6 & P6 & T6).
      pose proof (runs_list_grows _ _ _ _ _ _ (links_list_runs _ _ _ _ _ _ _ HR4)) as G4. pose proof (grows_ncells _ _ G4) as G5.
      destruct (nodes_since_ok cf Hp h4 s2 (ncells (EvTargets ps :: h3)) R6 G5) as (sn & Esn & Lsn & Xsn). rewrite (bind_ok _ _ _ _ _ Esn) in H.
      pose proof (attach_inv _ _ _ _ _ _ H ltac:(lia) ltac:(cbn; lia)) as Hle.
      destruct (attach_ok sn 0 a0 an s2 ltac:(exact Hle) ltac:(lia)) as (s3 & E3 & O3). rewrite H in E3. apply ok_inv in E3. destruct E3 as [<- _].
      assert (ncells (EvTargets ps :: h3) = ncells h3) as Hn by (unfold ncells; cbn; now rewrite app_nil_r).
      rewrite Hn in *. cbn [Z.to_nat Nat.add] in Hle.
      destruct (vlist_cells cf ms Hnm _ _ E1) as (nl & HNl).
      assert (N1 : nodes_of s1 = nodes_of s0) by (unfold nodes_of; now rewrite Hc5).
      pose proof (nodes_len cf h3 s0 Hp R3) as LN3. pose proof (nodes_len cf h4 s2 Hp R6) as LN4.
      exists h4, (l2 ++ l3 ++ source_links ps (ncells h) (ncells h3) (ncells h4)). split; [|split; [|split]].
      + exists h3, (v_r s0), ps, l2, l3. split; [exact HR3|]. split; [exact HS|]. rewrite <- Hr5. replace (v_r s') with (v_r s2) by (symmetry; apply O3).
        split; [exact HR4|]. split; [lia|reflexivity].
      + eapply rep_only_heap; eauto.
      + repeat (eapply same_place_trans; [eassumption|]). apply O3.
      + assert (NS : nodes_of s' = nodes_of s2) by (unfold nodes_of; destruct O3 as (_ & _ & -> & _); reflexivity).
        apply (tied_grow h4 _ _ _ s2 _ [] T6); [|now rewrite app_nil_r|destruct O3 as (_ & _ & _ & -> & _); reflexivity|reflexivity].
        rewrite !app_assoc, <- (app_assoc ls). unfold source_links. rewrite <- Lsn, <- Lan. change 0 with (Z.of_nat 0) in H.
        eapply attach_tree; [rewrite app_assoc; apply T6| | | | |exact H].
        * rewrite Nat.add_0_r. exact Xsn.
        * rewrite HNl, N1. clear - HT. induction HT as [|v p vs ps (c & Hc & Hv) _ IH]; constructor; auto.
          unfold nodes_of. rewrite nth_error_app1; [rewrite (map_nth_error c_node _ _ Hc); now rewrite Hv|].
          rewrite map_length. apply nth_error_Some. congruence.
        * rewrite HNl, N1, Xan. fold (nodes_of s0). rewrite skipn_app, skipn_length, firstn_app, skipn_length, Nat.sub_diag, firstn_O, app_nil_r.
          apply firstn_all2. rewrite skipn_length. lia.
        * rewrite HNl, N1, app_length, Lan. lia.
  Qed.
  Theorem visit_links : forall n, no_base n -> tdoes (visit cf n) (link_of n).
  Proof.
    induction n as [k d ms b at_ IHm IHb IHa] using anode_full_ind. intros Hn. pose proof Hn as Hn'. apply no_base_inv in Hn. destruct Hn as (Hk & Hm & Hb & Ha).
    assert (Hm' : all_td ms) by (revert IHm Hm; clear; induction 1; intros HF; inversion HF; subst; constructor; auto; apply IHIHm; auto).
    assert (Ha' : all_td at_) by (revert IHa Ha; clear; induction 1; intros HF; inversion HF; subst; constructor; auto; apply IHIHa; auto).
    assert (Hb' : match b with Some b => tdoes (visit cf b) (link_of b) | None => True end) by (destruct b; auto).
    destruct k.
    - contradiction.
    - now apply t_element.
    - now apply t_sig.
    - now apply t_sequence.
    - now apply t_fixed.
    - now apply t_delayed.
    - apply t_op with (op := 201) (f := fun d => set_nbitsOffset (if id_Operand (d_id d) =? 0 then id_Operand (d_id d) else id_Operand (d_id d) - 128)); [exact Hn'|cbn; tauto|reflexivity|reflexivity].
    - apply t_op with (op := 202) (f := fun d => set_scaleOffset (if id_Operand (d_id d) =? 0 then id_Operand (d_id d) else id_Operand (d_id d) - 128)); [exact Hn'|cbn; tauto|reflexivity|reflexivity].
    - now apply t_refval.
    - now apply t_assoc.
    - now apply t_insert.
    - now apply t_local.
    - apply t_op with (op := 207) (f := fun d => if id_Operand (d_id d) =? 0 then set_packing 0 0 0
        else set_packing (go_quot (10 * id_Operand (d_id d) + 2) 3) (id_Operand (d_id d)) (id_Operand (d_id d)));
        [exact Hn'|cbn; tauto|intros d0 g; now destruct (_ =? 0)|reflexivity].
    - apply t_op with (op := 208) (f := fun d => set_nbitsString (id_Y (d_id d) * NBITS_PER_BYTE)); [exact Hn'|cbn; tauto|reflexivity|reflexivity].
    - now apply t_not_present.
    - now apply t_assess.
    - now apply t_marker.
    - now apply t_cancel_backref.
    - now apply t_bitmap.
    - now apply t_cancel_bitmap.
  Qed.
End Links.
