(** The members of value nodes (C67): whole payloads. *)
From Verif Require Import ProofsParser3 ProofsParser4 ProofsParser5.
From Verif Require Export ProofsTree.

Lemma tied_start cf r p : tied [] [] (start cf r p).
Proof.
  assert (E : nodes_of (start cf r p) = []).
  { unfold nodes_of, start, lane0. cbn [v_cells]. destruct (columns cf); [|reflexivity]. cbn [cell_lanes]. now destruct (lanes cf). }
  split; [|split; [reflexivity|constructor]]. rewrite E. constructor; cbn [start v_tree t_heap t_node t_stack map].
  - constructor.
  - intros i n H. destruct i; discriminate.
  - constructor.
  - constructor; [|constructor]. cbn. split; [lia|auto].
Qed.
Lemma htree_members nodes ls t sb : htree nodes ls t -> sb_heap sb = t_heap t -> map c_node (sb_cells sb) = nodes ->
  members_are sb ls.
Proof.
  intros [H1 H2 H3 H4] Hh Hn. subst nodes. split; [now rewrite map_map in H1|]. intros i c E.
  assert (E' : nth_error (map c_node (sb_cells sb)) i = Some (c_node c)) by (now rewrite nth_error_map, E).
  rewrite Hh, (H2 _ _ E'). split.
  - do 2 f_equal. apply map_ext. intros [j|]; [|reflexivity]. cbn [ptr]. unfold pointer. rewrite nth_error_map.
    now destruct (nth_error (sb_cells sb) j).
  - pose proof (children_range _ _ i H3) as HR. eapply Forall_impl; [|exact HR]. intros [j|]; cbn [in_range]; [|auto]. now rewrite map_length.
Qed.
Lemma pass_links cf t ms s s' : root_members t = Some ms -> Forall no_base ms -> (0 < lanes cf)%nat ->
  pass cf t s = (s', Ok tt) ->
  exists h ls c heap, links_list cf [] (v_r s) ms h (v_r s') ls /\ rep_cells cf (data h) c /\
    v_pay s' = v_pay s ++ produced (length (v_pay s)) c heap 0 /\
    exists t0, htree (map c_node (lane0 c)) ls t0 /\ heap = t_heap t0.
Proof.
  intros Ht Hm Hp H. unfold pass in H. binv H. destruct a. rewrite (visit_root cf t ms s Ht (lanes_guard cf Hp)) in E. apply wrap_inv in E.
  assert (HA : Forall (fun n => tdoes cf (visit cf n) (link_of cf n)) ms).
  { eapply Forall_impl; [|exact Hm]. intros n Hn. now apply visit_links. }
  destruct (td_list cf ms HA _ _ _ _ (rep_start cf (v_r s) (v_pay s)) (tied_start cf (v_r s) (v_pay s)) E) as (h & ls & HR & R & (P1 & P2 & P3) & HT).
  cbn [start v_tree t_stack t_node v_pay v_r app] in P1, P2, P3, HR, HT.
  unfold Produce, tree_Root in H. binv H. rewrite P1 in E0. apply ok_inv in E0. destruct E0 as [<- <-].
  unfold modify in H. apply ok_inv in H. destruct H as [<- _]. cbn [set_pay v_r v_pay]. exists h, ls, (v_cells s0), (t_heap (v_tree s0)).
  split; [exact HR|]. split; [apply R|]. split; [now rewrite add_numbered, P2, P3|]. exists (v_tree s0). split; [apply HT|reflexivity].
Qed.
Lemma produced_links cf ds ls i c t root : rep_cells cf ds c -> htree (map c_node (lane0 c)) ls t -> columns cf = false ->
  exists sb, produced i c (t_heap t) root = [sb] /\ lane_ok 0 ds (sb_cells sb) /\ members_are sb ls.
Proof.
  intros R HT Hc. destruct (produced_plain _ _ i _ (t_heap t) root R Hc) as (l & El & Hl). eexists. split; [exact El|]. split; [exact Hl|].
  eapply htree_members; [exact HT|reflexivity|]. cbn [sb_cells]. unfold produced in El. destruct R as [K1 _ _ _ _].
  destruct c as [l0|ts]; [|rewrite Hc in K1; discriminate]. cbn [numbered] in El. injection El as <-. reflexivity.
Qed.
Lemma passes_links cf t ms n : root_members t = Some ms -> Forall no_base ms -> columns cf = false -> forall s s',
  iterN n (pass cf t) s = (s', Ok tt) ->
  exists hs new, subsets_link cf ms n (v_r s) hs (v_r s') /\ v_pay s' = v_pay s ++ new /\
    Forall2 (fun hl sb => lane_ok 0 (data (fst hl)) (sb_cells sb) /\ members_are sb (snd hl)) hs new.
Proof.
  intros Ht Hm Hc. assert (Hp : (0 < lanes cf)%nat) by (unfold lanes; rewrite Hc; lia).
  induction n as [|n IH]; intros s s' H; cbn [iterN] in H.
  - apply ok_inv in H. destruct H as [<- _]. exists [], []. split; [constructor|]. split; [now rewrite app_nil_r|constructor].
  - binv H. destruct a. destruct (pass_links _ _ _ _ _ Ht Hm Hp E) as (h & ls & c & heap & HR & R & HP & t0 & HT & ->).
    destruct (produced_links _ _ ls (length (v_pay s)) _ t0 0%nat R HT Hc) as (sb & El & Hl).
    destruct (IH _ _ H) as (hs & new & HS & HP2 & HF). exists ((h, ls) :: hs), (sb :: new). split; [econstructor; eauto|].
    split; [rewrite HP2, HP, El, <- app_assoc; reflexivity|]. constructor; auto.
Qed.
Theorem run_payload_links cf ms r s' : Forall no_base ms -> some_subset cf ->
  run_payload cf (root ms) (vst0 r) = (s', Ok tt) ->
  exists hs, executes_links cf ms r hs (v_r s') /\ shows_links cf hs (v_pay s').
Proof.
  intros Hm Hs. assert (Hp := some_subset_lanes cf Hs). assert (Ht : root_members (root ms) = Some ms) by reflexivity.
  rewrite run_payload_eq. unfold executes_links, shows_links. destruct (columns cf) eqn:Hc; intros H.
  - cbn [iterN] in H. binv H. apply ok_inv in H. destruct H as [<- _]. destruct a.
    destruct (pass_links _ _ _ _ _ Ht Hm Hp E) as (h & ls & c & heap & HR & R & HP & t0 & HT & ->). cbn [vst0 v_pay v_r app] in HP, HR.
    exists [(h, ls)]. split; [eauto|]. exists h, ls. split; [reflexivity|].
    rewrite HP. destruct (produced_columns cf _ 0%nat c (t_heap t0) 0%nat R Hc) as [H1 H2]. split; [exact H1|].
    intros k sb Hk. destruct (H2 k sb Hk) as (Ha & Hb & _ & Hd). split; [exact Ha|]. eapply htree_members; eauto.
  - destruct (passes_links cf _ ms _ Ht Hm Hc _ _ H) as (hs & new & HS & HP & HF). exists hs. split; [exact HS|]. now rewrite HP.
Qed.

(** ** Associated fields are the first members *)
Record orderly (h h' : history) (ls : list link) : Prop := mkOrd {
  or_ext : exists new, h' = new ++ h;
  or_bound : Forall (fun l => (fst l < ncells h')%nat) ls;
  or_first : forall later fs x before mid, h' = later ++ EvElement fs x :: before -> before = mid ++ h ->
    (exists more, children (ncells before + length fs) ls = map Some (seqn (ncells before) (length fs)) ++ more) /\
    forall j, (j < length fs)%nat -> exists more, children (ncells before + j) ls = nth j (significances before) None :: more }.
Lemma data_app l h : data (l ++ h) = data h ++ data l.
Proof. induction l as [|e l IH]; cbn [app data]; [now rewrite app_nil_r|]. now rewrite IH, app_assoc. Qed.
Lemma ncells_app l h : ncells (l ++ h) = (ncells h + ncells l)%nat.
Proof. unfold ncells. now rewrite data_app, app_length. Qed.
Lemma ord_nil h : orderly h h [].
Proof.
  constructor; [exists []; reflexivity|constructor|]. intros later fs x before mid E ->. exfalso.
  apply (f_equal (@length _)) in E. rewrite app_length in E. cbn [length] in E. rewrite app_length in E. lia.
Qed.
Lemma children_below p ls n : Forall (fun l => (fst l < n)%nat) ls -> (n <= p)%nat -> children p ls = [].
Proof.
  intros H Hp. unfold children. induction H as [|[a q] ls H1 _ IH]; cbn [filter map]; [reflexivity|]. cbn [fst] in *.
  destruct (Nat.eqb_spec a p); [lia|exact IH].
Qed.
Lemma app_split {A} (a b c d : list A) : a ++ b = c ++ d -> (exists x, a = c ++ x /\ d = x ++ b) \/ (exists x, c = a ++ x /\ b = x ++ d).
Proof.
  revert c. induction a as [|y a IH]; intros c E.
  - right. exists c. auto.
  - destruct c as [|z c].
    + left. exists (y :: a). cbn in E. auto.
    + cbn [app] in E. injection E as <- E. destruct (IH _ E) as [(x & -> & ->)|(x & -> & ->)]; [left|right]; exists x; auto.
Qed.
Lemma ord_trans h h1 h2 l1 l2 : orderly h h1 l1 -> orderly h1 h2 l2 -> orderly h h2 (l1 ++ l2).
Proof.
  intros [[n1 E1] B1 F1] [[n2 E2] B2 F2]. subst h1. constructor.
  - exists (n2 ++ n1). now rewrite <- app_assoc.
  - apply Forall_app. split; [|exact B2]. eapply Forall_impl; [|exact B1]. cbn. intros l Hl. subst h2. rewrite ncells_app. lia.
  - intros later fs x before mid E Eb. subst h2. destruct (app_split n2 (n1 ++ h) later (EvElement fs x :: before) E) as [(y & Ey & Ey')|(y & Ey & Ey')].
    + destruct y as [|e y].
      * cbn [app] in Ey'. destruct (F1 [] fs x before mid (eq_sym Ey') Eb) as [[m Hm] Hj]. rewrite children_app, Hm, <- app_assoc.
        split; [eauto|]. intros j Hj'. destruct (Hj j Hj') as [m' Hm']. rewrite children_app, Hm'. cbn [app]. eauto.
      * cbn [app] in Ey'. injection Ey' as <- Ey'. destruct (F2 later fs x before y E Ey') as [[m Hm] Hj].
        assert (Hn : (ncells (n1 ++ h) <= ncells before)%nat) by (rewrite Ey', (ncells_app y); lia).
        split.
        -- exists m. rewrite children_app, (children_below _ _ _ B1), Hm by lia. reflexivity.
        -- intros j Hj'. destruct (Hj j Hj') as [m' Hm']. exists m'. rewrite children_app, (children_below _ _ _ B1), Hm' by lia. reflexivity.
    + destruct (F1 y fs x before mid Ey' Eb) as [[m Hm] Hj]. split.
      * rewrite children_app, Hm, <- app_assoc. eauto.
      * intros j Hj'. destruct (Hj j Hj') as [m' Hm']. rewrite children_app, Hm'. cbn [app]. eauto.
Qed.
Definition no_element (e : event) : Prop := match e with EvElement _ _ => False | _ => True end.
Lemma ord_event e h : no_element e -> orderly h (e :: h) [].
Proof.
  intros He. constructor; [exists [e]; reflexivity|constructor|]. intros later fs x before mid E ->. exfalso. destruct later as [|y later].
  - cbn [app] in E. injection E as -> _. exact He.
  - cbn [app] in E. injection E as _ E. apply (f_equal (@length _)) in E. rewrite app_length in E. cbn [length] in E. rewrite app_length in E. lia.
Qed.
Lemma ord_links h h' ls l : orderly h h' ls -> Forall (fun l => (fst l < ncells h')%nat) l -> orderly h h' (ls ++ l).
Proof.
  intros [E B F] HB. constructor; [exact E|apply Forall_app; auto|]. intros later fs x before mid E1 E2.
  destruct (F _ _ _ _ _ E1 E2) as [[m Hm] Hj]. split.
  - rewrite children_app, Hm, <- app_assoc. eauto.
  - intros j Hj'. destruct (Hj j Hj') as [m' Hm']. rewrite children_app, Hm'. cbn [app]. eauto.
Qed.
Lemma children_none p (f : nat -> link) l : (forall a, In a l -> fst (f a) <> p) -> children p (map f l) = [].
Proof.
  intros H. unfold children. induction l as [|a l IH]; cbn [map filter]; [reflexivity|].
  destruct (Nat.eqb_spec (fst (f a)) p) as [e|_]; [exfalso; eapply H; [left; reflexivity|exact e]|]. apply IH. intros b Hb. apply H. now right.
Qed.
Lemma children_all p (g : nat -> option nat) l : children p (map (fun a => (p, g a)) l) = map g l.
Proof. unfold children. induction l as [|a l IH]; cbn [map filter fst]; [reflexivity|]. rewrite Nat.eqb_refl. cbn [map snd]. now rewrite IH. Qed.
Lemma children_one p (g : nat -> option nat) n : forall a j, (a <= j < a + n)%nat ->
  children (p + j) (map (fun i => ((p + i)%nat, g i)) (seqn a n)) = [g j].
Proof.
  induction n as [|n IH]; intros a j H; [lia|]. cbn [seqn map]. change (?x :: ?l) with ([x] ++ l). rewrite children_app.
  destruct (Nat.eq_dec a j) as [->|Hne].
  - rewrite children_none; [|intros b Hb; apply in_seq in Hb; cbn [fst]; lia]. unfold children. cbn [filter fst]. rewrite Nat.eqb_refl. reflexivity.
  - rewrite IH by lia. unfold children. cbn [filter fst]. destruct (Nat.eqb_spec (p + a) (p + j)); [lia|reflexivity].
Qed.
Lemma ord_element h fs x : orderly h (EvElement fs x :: h) (own_links (EvElement fs x :: h)).
Proof.
  constructor; cbn [own_links].
  - exists [EvElement fs x]. reflexivity.
  - unfold ncells at 1. cbn [data ev_data]. rewrite !app_length. cbn [length]. fold (ncells h). unfold field_links. apply Forall_app. split; apply Forall_forall.
    + intros l Hl. apply in_map_iff in Hl. destruct Hl as (j & <- & Hj). apply in_seq in Hj. cbn [fst]. lia.
    + intros l Hl. apply in_map_iff in Hl. destruct Hl as (j & <- & Hj). apply in_seq in Hj. cbn [fst]. lia.
  - intros later fs' x' before mid E Eb. destruct later as [|e later].
    2:{ exfalso. subst before. cbn [app] in E. injection E as _ E. apply (f_equal (@length _)) in E. rewrite app_length in E. cbn [length] in E. rewrite app_length in E. lia. }
    cbn [app] in E. injection E as <- <- <-. unfold field_links. split.
    + exists []. rewrite children_app, app_nil_r, children_all, children_none; [reflexivity|]. intros j Hj. apply in_seq in Hj. cbn [fst]. lia.
    + intros j Hj. exists []. rewrite children_app, children_one, children_none; [reflexivity| |lia]. intros q Hq. apply in_seq in Hq. cbn [fst]. lia.
Qed.
Lemma ord_leaf cf h r n h' r' : undivided n -> runs cf h r n h' r' -> orderly h h' (own_links h').
Proof.
  intros Hu H. destruct H; cbn [undivided an_kind an_desc option_map] in Hu; try contradiction; try (apply ord_element); try (apply ord_event; exact I).
  - cbn [own_links]. change ([] : list link) with ([] ++ [] : list link). eapply ord_trans; apply ord_event; exact I.
  - congruence.
Qed.
Lemma selects_below cf h ps p : selects cf h ps -> In p ps -> (p < ncells h)%nat.
Proof.
  intros (bits & _ & Hl & _ & ->) Hi. pose proof (backref_le h). revert Hi.
  assert (HZ : forall b q, In p (zero_positions q b) -> (p < q + length b)%nat).
  { induction b as [|z b IH]; intros q Hq; cbn [zero_positions] in Hq; [contradiction|]. cbn [length]. destruct (z =? 0); [destruct Hq as [<-|Hq]; [lia|]|]; specialize (IH _ Hq); lia. }
  intros Hi. apply HZ in Hi. lia.
Qed.
Lemma links_orderly cf :
  (forall h r n h' r' l, links cf h r n h' r' l -> orderly h h' l) /\
  (forall h r ns h' r' l, links_list cf h r ns h' r' l -> orderly h h' l) /\
  (forall k h r ns h' r' l, links_times cf k h r ns h' r' l -> orderly h h' l).
Proof.
  assert (SK : forall e h h' l, no_element e -> orderly (e :: h) h' l -> orderly h h' l).
  { intros e h h' l He H. change l with ([] ++ l). eapply ord_trans; [apply ord_event; exact He|exact H]. }
  apply links_all; intros; try assumption; try (apply ord_nil); try (eapply ord_trans; eassumption).
  - eapply ord_leaf; eauto.
  - eapply SK; [|eassumption]. exact I.
  - eapply SK; [|eassumption]. exact I.
  - rewrite !app_assoc. apply ord_links.
    + eapply ord_trans; [eapply ord_trans|].
      * eapply SK; [|eapply SK; [|eassumption]]; exact I.
      * eassumption.
      * eapply SK; [|eassumption]. exact I.
    + match goal with HO : orderly (EvTargets ps :: h3) h4 _ |- _ => destruct HO as [[new En] _ _] end.
      assert (Hle : (ncells h3 <= ncells h4)%nat).
      { rewrite En, ncells_app. change (ncells (EvTargets ps :: h3)) with (length (data h3 ++ [])). rewrite app_nil_r. fold (ncells h3). lia. }
      unfold source_links. apply Forall_forall. intros k Hl. apply in_flat_map in Hl. destruct Hl as (i & Hi & Hl). apply in_seq in Hi.
      destruct Hl as [<-|Hl].
      * cbn [fst]. assert ((nth i ps 0 < ncells h3)%nat); [|lia]. eapply selects_below; [eassumption|]. apply nth_In. lia.
      * apply in_map_iff in Hl. destruct Hl as (a & <- & _). cbn [fst]. lia.
  - match goal with HO : orderly _ h' ls |- _ => rename HO into HO' end. change ls with ([] ++ ls).
    rewrite <- (app_nil_r ([] ++ ls)). eapply ord_trans; [|apply ord_event; exact I]. cbn [app]. eapply SK; [|eapply SK; [|exact HO']]; exact I.
Qed.
Lemma executed_first cf r ms h r' ls : links_list cf [] r ms h r' ls -> element_first h ls.
Proof.
  intros H. apply (links_orderly cf) in H. intros later fs x before E. eapply (or_first _ _ _ H); [exact E|]. now rewrite app_nil_r.
Qed.

(** ** Templates without attributes *)
Lemma all_members (P : anode -> Prop) n : all_nodes P n -> P n /\ Forall (all_nodes P) (an_members n) /\
  match an_bitmap n with Some b => all_nodes P b | None => True end.
Proof. destruct n. rewrite all_nodes_eq. cbn. tauto. Qed.
Lemma plain_links cf :
  (forall h r n h' r' l, links cf h r n h' r' l -> attributeless n -> open_fields h = [] -> open_fields h' = [] /\ l = []) /\
  (forall h r ns h' r' l, links_list cf h r ns h' r' l -> Forall attributeless ns -> open_fields h = [] -> open_fields h' = [] /\ l = []) /\
  (forall k h r ns h' r' l, links_times cf k h r ns h' r' l -> Forall attributeless ns -> open_fields h = [] -> open_fields h' = [] /\ l = []).
Proof.
  apply links_all; intros;
    repeat match goal with HA : attributeless ?n |- _ => apply all_members in HA; cbn [an_kind an_members an_bitmap] in HA; destruct HA as ([? ?] & ? & ?) end;
    repeat match goal with HA : Forall attributeless (_ :: _) |- _ => inversion HA; clear HA; subst end;
    repeat match goal with HA : Forall _ (_ :: _) |- _ => inversion HA; clear HA; subst end;
    try congruence; auto.
  - match goal with HR : runs _ _ _ _ _ _ |- _ => destruct HR end; cbn [undivided an_kind an_desc option_map] in *; try contradiction; cbn [open_fields own_links]; auto.
    + match goal with HF : fields _ _ _ _ _ _ |- _ => apply fields_len in HF end.
      match goal with HO : open_fields _ = [] |- _ => rewrite HO in * end. split; [reflexivity|].
      destruct (id_X (d_id d) =? 31); match goal with HF : length _ = length _ |- _ => cbn [length] in HF; rewrite HF end; reflexivity.
    + destruct (op =? 204) eqn:E; [|auto]. apply Z.eqb_eq in E. subst op. exfalso.
      match goal with HI : In _ _ |- _ => destruct HI as [HI|[HI|[HI|[HI|[]]]]]; discriminate HI end.
    + congruence.
  - destruct (H H8 H2) as [O1 ->]. destruct (H0 H9 O1) as [O2 ->]. auto.
  - match goal with H1 : _ -> open_fields h = [] -> _, H2 : _ -> open_fields h1 = [] -> _ |- _ =>
      destruct (H1 ltac:(assumption) ltac:(assumption)) as [O1 ->]; destruct (H2 ltac:(assumption) O1) as [O2 ->] end. auto.
  - match goal with H1 : _ -> open_fields h = [] -> _, H2 : _ -> open_fields h1 = [] -> _ |- _ =>
      destruct (H1 ltac:(assumption) ltac:(assumption)) as [O1 ->]; destruct (H2 ltac:(assumption) O1) as [O2 ->] end. auto.
Qed.
Lemma executes_plain cf ms r hs r' : executes_links cf ms r hs r' -> Forall attributeless ms -> Forall (fun hl => snd hl = []) hs.
Proof.
  intros H Hm. unfold executes_links in H. destruct (columns cf).
  - destruct H as (h & ls & -> & HL). constructor; [|constructor]. now apply (plain_links cf) in HL.
  - induction H as [|n r h r1 ls hs r2 HL _ IH]; constructor; [|exact IH]. now apply (plain_links cf) in HL.
Qed.
Lemma executes_first cf ms r hs r' : executes_links cf ms r hs r' -> Forall (fun hl => element_first (fst hl) (snd hl)) hs.
Proof.
  intros H. unfold executes_links in H. destruct (columns cf).
  - destruct H as (h & ls & -> & HL). constructor; [|constructor]. eapply executed_first; eauto.
  - induction H as [|n r h r1 ls hs r2 HL _ IH]; constructor; [|exact IH]. eapply executed_first; eauto.
Qed.
Lemma shows_plain cf hs pay : shows_links cf hs pay -> Forall (fun hl => snd hl = []) hs -> forall sb c, In sb pay -> In c (sb_cells sb) ->
  nth_error (sb_heap sb) (vn_id (c_node c)) = Some (mkHnode (NValued (c_node c)) []).
Proof.
  intros HS HP sb c Hb Hc.
  assert (HM : exists ls, members_are sb ls /\ ls = []).
  { unfold shows_links in HS. destruct (columns cf).
    - destruct HS as (h & ls & -> & _ & HS). apply In_nth_error in Hb. destruct Hb as [k Hk]. destruct (HS k sb Hk) as [_ HM]. inversion HP; subst. eauto.
    - induction HS as [|hl sb' hs pay [_ HM] _ IH]; [contradiction|]. inversion HP; subst. destruct Hb as [->|Hb]; eauto. }
  destruct HM as (ls & [_ HM] & ->). apply In_nth_error in Hc. destruct Hc as [i Hi]. destruct (HM i c Hi) as [E _]. exact E.
Qed.
(** The histories are those of SpecRun.v. *)
Lemma executes_forget cf ms r hs r' : executes_links cf ms r hs r' -> executes cf ms r (map fst hs) r'.
Proof.
  unfold executes_links, executes. destruct (columns cf).
  - intros (h & ls & -> & HL). exists h. split; [reflexivity|]. eapply links_list_runs; eauto.
  - induction 1; cbn [map fst]; econstructor; eauto. eapply links_list_runs; eauto.
Qed.
