(** Lemmas for C76. *)
From Verif Require Import SpecDelayed ProofsRun4 ProofsRun6 ProofsRun9 ProofsRun11 ProofsRun12 ProofsTree ProofsTree2.

Lemma grown cf h r n h' r' : runs cf h r n h' r' -> exists new, h' = new ++ h /\ data h' = data h ++ data new.
Proof. intros H. apply runs_grows in H. destruct H as [l ->]. exists l. split; [reflexivity|]. apply data_app. Qed.
Lemma grown_list cf h r n h' r' : runs_list cf h r n h' r' -> exists new, h' = new ++ h /\ data h' = data h ++ data new.
Proof. intros H. apply runs_list_grows in H. destruct H as [l ->]. exists l. split; [reflexivity|]. apply data_app. Qed.
Lemma grown_times cf k ns : forall h r h' r', runs_times cf k h r ns h' r' -> exists new, h' = new ++ h /\ data h' = data h ++ data new.
Proof. intros h r h' r' H. apply runs_times_concat in H. eapply grown_list; eauto. Qed.
Lemma valued_cell cf h r n h' r' : valued n -> runs cf h r n h' r' -> exists ds x, data h' = data h ++ ds ++ [x].
Proof.
  intros Hv H. destruct n as [k od ms b a]. unfold valued in Hv. cbn [an_kind] in Hv. destruct Hv as [<-|[<-|[<-|[]]]]; inversion H; subst; try notop; cbn [data ev_data].
  - eauto.
  - exists [], x. reflexivity.
  - exists [], x. reflexivity.
Qed.
Lemma valued_list cf ns : Forall valued ns -> forall h r h' r', runs_list cf h r ns h' r' -> (ncells h + length ns <= ncells h')%nat.
Proof.
  induction 1 as [|n ns Hn _ IH]; intros h r h' r' H; inversion H as [|? ? ? ? h1 r1 ? ? H1 H2]; subst; cbn [length]; [lia|].
  apply IH in H2. destruct (valued_cell _ _ _ _ _ _ Hn H1) as (ds & x & E). unfold ncells in *. rewrite E, !app_length in H2. cbn [length] in H2. lia.
Qed.
Lemma valued_times cf ns k : Forall valued ns -> forall h r h' r', runs_times cf k h r ns h' r' -> (ncells h + k * length ns <= ncells h')%nat.
Proof.
  intros Hn. induction k as [|k IH]; intros h r h' r' H; inversion H as [|? ? ? ? h1 r1 ? ? H1 H2]; subst; [lia|].
  apply IH in H2. apply (valued_list _ _ Hn) in H1. lia.
Qed.

Lemma links_app cf a b : forall h r h' r' ls, links_list cf h r (a ++ b) h' r' ls ->
  exists h1 r1 l1 l2, links_list cf h r a h1 r1 l1 /\ links_list cf h1 r1 b h' r' l2 /\ ls = l1 ++ l2.
Proof.
  induction a as [|n a IH]; intros h r h' r' ls H; cbn [app] in H.
  - exists h, r, [], ls. split; [constructor|]. split; [exact H|reflexivity].
  - inversion H as [|? ? ? ? h1 r1 ? ? l1 l2 H1 H2]; subst. destruct (IH _ _ _ _ _ H2) as (h2 & r2 & m1 & m2 & K1 & K2 & ->).
    exists h2, r2, (l1 ++ m1), m2. split; [econstructor; eauto|]. split; [exact K2|]. now rewrite app_assoc.
Qed.
Lemma source_in ps n2 n3 n4 i : (n3 + i < n4)%nat -> In (nth i ps 0%nat, Some (n3 + i)%nat) (source_links ps n2 n3 n4).
Proof. intros H. unfold source_links. apply in_flat_map. exists i. split; [apply in_seq; lia|]. left. reflexivity. Qed.

Lemma values_shifted cf pre od od' f srcs b a bm at_ post r h r' ls : valued f -> Forall valued srcs ->
  links_list cf [] r (pre ++ ANode KAssessment od [ANode KDelayed od' (f :: srcs) b a] (Some bm) at_ :: post) h r' ls ->
  exists later before ps ds x vs rest z, h = later ++ EvTargets ps :: before /\ selects cf before ps /\
    data h = data before ++ (ds ++ [x]) ++ vs ++ rest /\ counts cf x z /\
    (Z.to_nat z * length srcs <= length vs)%nat /\ (length ds + 1 + length vs <= length ps)%nat /\
    forall i, (i < length ds + 1 + length vs)%nat -> In (nth i ps 0%nat, Some (ncells before + i)%nat) ls.
Proof.
  intros Hf Hs H. apply links_app in H. destruct H as (h0 & r0 & l0 & l1 & H0 & H & ->).
  inversion H as [|? ? ? ? h1 r1 ? ? m1 m2 H1 H2]; subst. inversion H1 as [? ? ? ? ? U| | | | | |? ? ? ? ? ? z0 rz h2 r2 k1 h3 r3 k2 ps h4 r4 k3 Z0 B1 B2 SE B3 LE|]; subst.
  { destruct U. }
  assert (R3 := links_list_runs _ _ _ _ _ _ _ B3).
  inversion R3 as [|? ? ? ? h5 r5 ? ? R4 R5]; subst. inversion R5; subst. clear R5.
  inversion R4; subst; try notop.
  match goal with A : runs cf _ _ f ?u _, B : factor cf ?u ?m, C : runs_times cf _ _ _ _ _ _ |- _ => rename A into R6, B into F, C into R7, u into h6, m into n end.
  destruct (valued_cell _ _ _ _ _ _ Hf R6) as (ds & x & E6). cbn [data ev_data] in E6. rewrite app_nil_r in E6.
  destruct F as (ds' & x' & v & vs' & z & F1 & F2 & _ & F4 & F5).
  assert (x' = x) as -> by (rewrite E6, app_assoc in F1; now apply app_inj_tail in F1).
  destruct (grown_times _ _ _ _ _ _ _ R7) as (new & E7 & D7). pose proof (valued_times _ _ _ Hs _ _ _ _ R7) as L7.
  destruct (grown_list _ _ _ _ _ _ (links_list_runs _ _ _ _ _ _ _ H2)) as (new2 & E8 & D8).
  destruct (grown _ _ _ _ _ _ R6) as (new1 & E9 & _).
  assert (N : ncells h1 = (ncells h3 + (length ds + 1 + ncells new))%nat).
  { unfold ncells in *. rewrite D7, E6, !app_length. cbn [length]. lia. }
  exists (new2 ++ new ++ new1), h3, ps, ds, x, (data new), (data new2), z.
  split; [rewrite E8, E7, E9, <- !app_assoc; reflexivity|]. split; [exact SE|].
  split; [rewrite D8, D7, E6, <- !app_assoc; reflexivity|]. split; [exists v, vs'; now split|].
  split.
  { unfold ncells in *. rewrite D7, app_length in L7. subst n. lia. }
  fold (ncells new). split; [lia|]. intros i Hi. apply in_or_app. right. apply in_or_app. left. do 3 (apply in_or_app; right). apply source_in. lia.
Qed.

(** ** Bits *)
Lemma backref_le h : (backref h <= ncells h)%nat.
Proof.
  induction h as [|e h IH]; [cbn; lia|]. unfold ncells in *. cbn [data]. rewrite app_length.
  destruct e; cbn [backref]; try lia. destruct (backref h); unfold ncells; lia.
Qed.
Definition quiet (l : history) : Prop := forall g, bitmap (l ++ g) = bitmap g /\ backref (l ++ g) = backref g.
Lemma quiet_app a b : quiet a -> quiet b -> quiet (a ++ b).
Proof. intros Ha Hb g. rewrite <- app_assoc. destruct (Ha (b ++ g)) as [-> ->]. apply Hb. Qed.
Lemma valued_quiet cf h r n h' r' : valued n -> runs cf h r n h' r' -> exists e, h' = e :: h /\ quiet [e].
Proof.
  intros Hv H. destruct n as [k od ms b a]. unfold valued in Hv. cbn [an_kind] in Hv. destruct Hv as [<-|[<-|[<-|[]]]]; inversion H; subst; try notop;
  (eexists; split; [reflexivity|]; intros g; split; reflexivity).
Qed.
Lemma valued_list_quiet cf ns : Forall valued ns -> forall h r h' r', runs_list cf h r ns h' r' -> exists l, h' = l ++ h /\ quiet l.
Proof.
  induction 1 as [|n ns Hn _ IH]; intros h r h' r' H; inversion H as [|? ? ? ? h1 r1 ? ? H1 H2]; subst.
  - exists []. split; [reflexivity|]. intros g. split; reflexivity.
  - destruct (valued_quiet _ _ _ _ _ _ Hn H1) as (e & -> & Q). destruct (IH _ _ _ _ H2) as (l & -> & Q').
    exists (l ++ [e]). split; [now rewrite <- app_assoc|now apply quiet_app].
Qed.
Lemma element_valued d : valued (element_node d).
Proof. unfold element_node, valued. destruct (d_id d =? 31021); cbn; tauto. Qed.
Lemma x31_cell cf h r d h' r' : id_X (d_id d) = 31 -> runs cf h r (element_node d) h' r' ->
  exists x, data h' = data h ++ [x] /\ dt_desc x = d.
Proof.
  intros Hx H. unfold element_node in H. destruct (d_id d =? 31021) eqn:E; inversion H; subst; try notop.
  - exists x. split; [reflexivity|]. match goal with D : decodes cf _ _ _ x _ |- _ => apply decodes_desc in D; tauto end.
  - rewrite Hx in *. match goal with D : fields cf _ _ _ _ _ |- _ => inversion D; subst end.
    exists x. split; [reflexivity|]. match goal with D : decodes cf _ _ _ x _ |- _ => apply decodes_desc in D; tauto end.
Qed.
Lemma x31_times cf d k : id_X (d_id d) = 31 -> forall h r h' r', runs_times cf k h r [element_node d] h' r' ->
  exists xs, data h' = data h ++ xs /\ length xs = k /\ Forall (fun x => dt_desc x = d) xs.
Proof.
  intros Hx. induction k as [|k IH]; intros h r h' r' H; inversion H as [|? ? ? ? h1 r1 ? ? H1 H2]; subst.
  - exists []. rewrite app_nil_r. split; [reflexivity|]. split; [reflexivity|constructor].
  - apply runs_list_one in H1. destruct (x31_cell _ _ _ _ _ _ Hx H1) as (x & E & Ex). destruct (IH _ _ _ _ H2) as (xs & E' & L & F).
    exists (x :: xs). rewrite E', E, <- app_assoc. split; [reflexivity|]. split; [cbn; now rewrite L|]. now constructor.
Qed.
Lemma x31_times_quiet cf d k : forall h r h' r', runs_times cf k h r [element_node d] h' r' -> exists l, h' = l ++ h /\ quiet l.
Proof.
  intros h r h' r' H. apply runs_times_concat in H. eapply valued_list_quiet; [|exact H].
  clear. induction k; cbn; constructor; auto. apply element_valued.
Qed.

Lemma bits_shifted cf pre od ms d od' df de b a b' a' at_ post r h r' :
  d_id d <> ID_237000 -> id_X (d_id df) = 31 -> id_X (d_id de) = 31 -> Forall valued at_ ->
  runs_list cf [] r (pre ++ ANode KAssessment od ms
    (Some (ANode KBitmap (Some d) [ANode KDelayed od' [element_node df; element_node de] b a] b' a')) at_ :: post) h r' ->
  exists cells zs x bits rest z vals later ps before,
    data h = cells ++ zs ++ x :: bits ++ rest /\ (length zs <= 2)%nat /\ (cf_compatible cf = false -> zs = []) /\
    dt_desc x = df /\ counts cf x z /\ length bits = Z.to_nat z /\ Forall (fun y => dt_desc y = de) bits /\
    Forall2 (counts cf) bits vals /\
    h = later ++ EvTargets ps :: before /\
    (Z.to_nat z + 1 <= backref before)%nat /\ (backref before <= length cells)%nat /\
    ps = zero_positions (backref before - (Z.to_nat z + 1)) (z :: vals).
Proof.
  intros Hd Hxf Hxe Ha H. apply runs_list_app in H. destruct H as (h0 & r0 & H0 & H).
  inversion H as [|? ? ? ? h1 r1 ? ? H1 H2]; subst. inversion H1; subst; try notop.
  match goal with A : runs cf _ _ (ANode KBitmap _ _ _ _) ?u _, B : runs_list cf ?u _ at_ ?w _, C : zero_cell cf od _ _ _, D : selects cf ?w ?q, E : runs_list cf (EvTargets ?q :: ?w) _ _ _ _ |- _ =>
    rename A into RB, B into RA, C into Z1, D into SE, E into RM, u into h2, w into h3, q into ps end.
  inversion RB; subst; try notop; [contradiction|].
  match goal with A : runs_list cf (EvDefine :: _) _ _ _ _, C : zero_cell cf (Some d) _ _ _ |- _ => rename A into RD, C into Z2 end.
  apply runs_list_one in RD. inversion RD; subst; try notop.
  match goal with A : runs cf _ _ (element_node df) ?u _, B : factor cf ?u ?m, C : runs_times cf _ _ _ _ _ _ |- _ => rename A into R6, B into F, C into R7, u into h6, m into n end.
  destruct (x31_cell _ _ _ _ _ _ Hxf R6) as (x & E6 & Dx). destruct (x31_times _ _ _ Hxe _ _ _ _ R7) as (bits & E7 & L7 & F7).
  destruct (valued_quiet _ _ _ _ _ _ (element_valued df) R6) as (e6 & -> & Q6). destruct (x31_times_quiet _ _ _ _ _ _ _ R7) as (l7 & -> & Q7).
  destruct (valued_list_quiet _ _ Ha _ _ _ _ RA) as (l3 & -> & Q3).
  destruct F as (ds' & x' & v & vs' & zz & F1 & F2 & _ & F4 & F5).
  assert (x' = x) as -> by (rewrite E6 in F1; now apply app_inj_tail in F1).
  destruct SE as (bv & (i0 & i1 & BM & LE & F2b & LB) & HB1 & HB2 & HB3).
  set (zs := ev_data (EvZero z) ++ ev_data (EvZero z0)).
  set (g0 := EvZero z0 :: EvZero z :: EvAssess od :: h0) in *.
  assert (D0 : data g0 = data h0 ++ zs) by (unfold g0, zs; cbn [data]; change (ev_data (EvAssess od)) with (@nil datum); rewrite app_nil_r, <- app_assoc; reflexivity).
  assert (D6 : data (EvDefine :: g0) = data g0) by (cbn [data ev_data]; apply app_nil_r).
  rewrite E6, D6, D0 in E7. set (g7 := l7 ++ e6 :: EvDefine :: g0) in *.
  assert (B7 : bitmap g7 = Some (ncells g0, 0%nat)).
  { unfold g7. destruct (Q7 (e6 :: EvDefine :: g0)) as [-> _]. destruct (Q6 (EvDefine :: g0)) as [E _]. cbn [app] in E. rewrite E. reflexivity. }
  destruct (Q3 (EvDefined :: g7)) as [Eb Er]. rewrite Eb in BM. cbn [bitmap] in BM. rewrite B7 in BM. injection BM as <- <-.
  assert (R7' : backref (EvDefined :: g7) = backref (EvAssess od :: h0)).
  { cbn [backref]. unfold g7. destruct (Q7 (e6 :: EvDefine :: g0)) as [_ ->]. destruct (Q6 (EvDefine :: g0)) as [_ E]. cbn [app] in E. rewrite E. reflexivity. }
  rewrite R7' in Er. rewrite Er in HB1, HB3.
  assert (D3 : data (l3 ++ EvDefined :: g7) = (data h0 ++ zs) ++ (x :: bits) ++ data l3).
  { rewrite data_app. cbn [data ev_data]. rewrite app_nil_r, E7, <- !app_assoc. reflexivity. }
  assert (N0 : ncells g0 = length (data h0 ++ zs)) by (unfold ncells; now rewrite D0).
  assert (N7 : ncells g7 = (length (data h0 ++ zs) + length (x :: bits))%nat).
  { unfold ncells. rewrite E7, app_length, (app_length _ [x]). cbn [length]. rewrite !app_length. cbn [length]. lia. }
  rewrite N0, N7 in F2b, LB. replace (length (data h0 ++ zs) + length (x :: bits) - length (data h0 ++ zs))%nat with (length (x :: bits)) in F2b, LB by lia.
  rewrite D3, skipn_app, skipn_all, Nat.sub_diag in F2b. cbn [app skipn] in F2b.
  change (x :: bits ++ data l3) with ((x :: bits) ++ data l3) in F2b.
  rewrite firstn_app, Nat.sub_diag, firstn_all, firstn_O, app_nil_r in F2b.
  inversion F2b as [|? bz ? vals HX HF]; subst bv. destruct HX as (v' & w' & HX1 & HX2).
  assert (bz = zz) as -> by (rewrite F2 in HX1; injection HX1 as <- <-; congruence).
  destruct (grown_list _ _ _ _ _ _ RM) as (n4 & E4 & D4). destruct (grown_list _ _ _ _ _ _ H2) as (n5 & E5 & D5).
  assert (LL : length (zz :: vals) = (Z.to_nat zz + 1)%nat) by (rewrite LB; cbn [length]; lia).
  rewrite LL in HB1, HB3.
  exists (data h0), zs, x, bits, (data l3 ++ data n4 ++ data n5), zz, vals, (n5 ++ n4), ps, (l3 ++ EvDefined :: g7).
  split. { rewrite D5, D4. cbn [data ev_data]. cbn [data] in D3. rewrite D3, app_nil_r, <- !app_assoc. reflexivity. }
  split. { unfold zs. rewrite app_length. destruct z, z0; cbn; lia. }
  split. { intros Hc. unfold zs. inversion Z1; subst; try congruence; inversion Z2; subst; try congruence; reflexivity. }
  split; [exact Dx|]. split; [exists v, vs'; now split|]. split; [congruence|]. split; [exact F7|]. split; [exact HF|].
  split; [rewrite E5, E4, <- app_assoc; reflexivity|]. rewrite Er. split; [exact HB1|]. split; [|exact HB3].
  cbn [backref]. pose proof (backref_le h0). destruct (backref h0); unfold ncells in *; lia.
Qed.

Lemma each_links cf ms r hs r' : executes_links cf ms r hs r' -> forall h ls, In (h, ls) hs -> exists r0 r1, links_list cf [] r0 ms h r1 ls.
Proof.
  unfold executes_links. destruct (columns cf).
  - intros (h & ls & -> & H) h' ls' [E|[]]. injection E as <- <-. eauto.
  - induction 1 as [|n r h r1 ls hs r2 H _ IH]; intros h' ls' Hi; [destruct Hi|]. destruct Hi as [E|Hi]; [injection E as <- <-; eauto|eauto].
Qed.
Lemma each_runs cf ms r hs r' : executes cf ms r hs r' -> forall h, In h hs -> exists r0 r1, runs_list cf [] r0 ms h r1.
Proof.
  unfold executes. destruct (columns cf).
  - intros (h & -> & H) h' [<-|[]]. eauto.
  - induction 1 as [|n r h r1 hs r2 H _ IH]; intros h' Hi; [destruct Hi|]. destruct Hi as [<-|Hi]; eauto.
Qed.
