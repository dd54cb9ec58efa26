From Coq Require Import ZifyBool ZifyNat.
From Verif Require Import ProofsBase ProofsParser3 ProofsParser4 ProofsRun4 ProofsRun6 ProofsRun12 SpecCompat.

(** ** Histories with and without the zeros *)
Definition same_cell (h hz : history) (p p' : nat) : Prop :=
  exists x, nth_error (data h) p = Some x /\ nth_error (data hz) p' = Some x.
Definition plain_ev (e : event) : Prop := match e with EvZero _ | EvTargets _ => False | _ => True end.
Inductive wz : history -> history -> Prop :=
| wz_nil : wz [] []
| wz_zero z z' h hz : wz h hz -> wz (EvZero z :: h) (EvZero z' :: hz)
| wz_targets ps ps' h hz : Forall2 (same_cell h hz) ps ps' -> wz h hz -> wz (EvTargets ps :: h) (EvTargets ps' :: hz)
| wz_same e h hz : plain_ev e -> wz h hz -> wz (e :: h) (e :: hz).

Lemma wz_length h hz : wz h hz -> length hz = length h.
Proof. induction 1; cbn; congruence. Qed.
Lemma wz_last_operand op h hz : wz h hz -> last_operand op hz = last_operand op h.
Proof. induction 1 as [| | |e h hz _ _ IH]; cbn [last_operand]; auto. destruct e; rewrite ?IH; auto. Qed.
Lemma wz_open_fields h hz : wz h hz -> open_fields hz = open_fields h.
Proof. induction 1 as [| | |e h hz _ _ IH]; cbn [open_fields]; auto. destruct e; rewrite ?IH; auto. Qed.
Lemma wz_packing h hz e : wz h hz -> packing hz e = packing h e.
Proof. intros H. unfold packing, offset. now rewrite !(wz_last_operand _ _ _ H). Qed.
Lemma wz_marker h hz t e : wz h hz -> marker_packing hz t e = marker_packing h t e.
Proof. intros H. unfold marker_packing. now rewrite (wz_packing _ _ _ H). Qed.

Lemma data_app l h : data (l ++ h) = data h ++ data l.
Proof. induction l as [|e l IH]; cbn [app data]; [now rewrite app_nil_r|]. now rewrite IH, app_assoc. Qed.
Lemma ncells_app l h : ncells (l ++ h) = (ncells h + ncells l)%nat.
Proof. unfold ncells. now rewrite data_app, app_length. Qed.
Lemma same_grows h hz p p' l lz : same_cell h hz p p' -> same_cell (l ++ h) (lz ++ hz) p p'.
Proof.
  intros (x & A & B). exists x. rewrite !data_app.
  split; (rewrite nth_error_app1; [assumption|apply nth_error_Some; congruence]).
Qed.
Lemma same_cons h hz p p' e ez : same_cell h hz p p' -> same_cell (e :: h) (ez :: hz) p p'.
Proof. exact (same_grows h hz p p' [e] [ez]). Qed.
Lemma Forall2_same h hz ps ps' e ez : Forall2 (same_cell h hz) ps ps' -> Forall2 (same_cell (e :: h) (ez :: hz)) ps ps'.
Proof. induction 1; constructor; auto using same_cons. Qed.
Lemma Forall2_tl {A B} (R : A -> B -> Prop) l m : Forall2 R l m -> Forall2 R (tl l) (tl m).
Proof. intros H. destruct H; cbn; auto. Qed.
Lemma wz_targets_left h hz : wz h hz -> Forall2 (same_cell h hz) (targets_left h) (targets_left hz).
Proof.
  induction 1 as [|z z' h hz _ IH|ps ps' h hz F _ IH|e h hz N _ IH]; cbn [targets_left]; [constructor| | |].
  - now apply Forall2_same.
  - now apply Forall2_same.
  - destruct e; cbn in N; try contradiction; try (now apply Forall2_same).
    destruct k; try (now apply Forall2_same). apply Forall2_same. now apply Forall2_tl.
Qed.

(** ** Data *)
Lemma zeros_app l l' n m m' k : zeros_added l l' n -> zeros_added m m' k -> zeros_added (l ++ m) (l' ++ m') (n + k).
Proof. induction 1; intros; cbn [app Nat.add]; [assumption|constructor; auto|constructor; auto]. Qed.
Lemma zeros_same l : zeros_added l l 0.
Proof. induction l; constructor; auto. Qed.
Fixpoint nz (h : history) : nat := match h with [] => 0 | EvZero _ :: h' => S (nz h') | _ :: h' => nz h' end.
(** Zeros are absent in the one and present in the other. *)
Definition zeros_as (on : bool) (h : history) : Prop :=
  Forall (fun e => match e with EvZero z => if on then exists x, z = Some x /\ zero_datum x else z = None | _ => True end) h.
Lemma wz_data h hz : wz h hz -> zeros_as false h -> zeros_as true hz -> zeros_added (data h) (data hz) (nz h).
Proof.
  induction 1 as [|z z' h hz _ IH|ps ps' h hz F _ IH|e h hz N _ IH]; intros A B; try (inversion A as [|? ? A1 A2]; inversion B as [|? ? B1 B2]; subst);
    cbn [data nz ev_data].
  - constructor.
  - destruct B1 as (x & -> & Z). replace (S (nz h)) with (nz h + 1)%nat by lia. apply zeros_app; [auto|]. constructor; [exact Z|constructor].
  - rewrite !app_nil_r. auto.
  - change (zeros_added (data h ++ ev_data e) (data hz ++ ev_data e) (nz (e :: h))). replace (nz (e :: h)) with (nz h + 0)%nat by (destruct e; cbn in *; lia || contradiction).
    apply zeros_app; [auto|apply zeros_same].
Qed.
Lemma wz_sym h hz : wz h hz -> wz hz h.
Proof.
  induction 1 as [|z z' h hz _ IH|ps ps' h hz F _ IH|e h hz N _ IH]; constructor; auto.
  clear - F. induction F as [|p p' ps ps' (x & A & B) _ IH]; constructor; [exists x; auto|exact IH].
Qed.
Lemma wz_nz h hz : wz h hz -> nz hz = nz h.
Proof. induction 1 as [|z z' h hz _ IH|ps ps' h hz F _ IH|e h hz N _ IH]; cbn [nz]; auto. destruct e; auto. Qed.
Lemma wz_operators h hz : wz h hz -> operators hz = operators h.
Proof. induction 1 as [|z z' h hz _ IH|ps ps' h hz F _ IH|e h hz N _ IH]; cbn [operators]; auto. destruct e; auto. Qed.

(** ** Reference point *)
Lemma wz_reference h hz : wz h hz -> match reference h with
  | Some ref => exists refz, reference hz = Some refz /\ wz ref refz
  | None => reference hz = None end.
Proof.
  induction 1 as [|z z' h hz _ IH|ps ps' h hz F _ IH|e h hz N W IH]; cbn [reference]; auto.
  destruct e; cbn in N; auto. destruct (reference h) as [ref|].
  - destruct IH as (refz & -> & X). eauto.
  - rewrite IH. eauto.
Qed.
Lemma backref_reference h ref : reference h = Some ref -> (0 < ncells ref)%nat -> backref h = ncells ref.
Proof.
  revert ref. induction h as [|e h IH]; intros ref; cbn [reference backref]; [discriminate|].
  destruct e; try apply IH; try discriminate. destruct (reference h) as [r|] eqn:E.
  - intros [= <-] P. rewrite (IH r eq_refl P). destruct (ncells r); [lia|reflexivity].
  - intros [= <-] P. assert (B : backref h = 0%nat).
    { clear - E. induction h as [|e h IH]; [reflexivity|]. cbn [reference backref] in *. destruct e; auto.
      destruct (reference h); discriminate. }
    now rewrite B.
Qed.
Lemma reference_grows h ref : reference h = Some ref -> exists l, h = l ++ ref.
Proof.
  revert ref. induction h as [|e h IH]; intros ref; cbn [reference]; [discriminate|].
  assert (G : reference h = Some ref -> exists l, e :: h = l ++ ref).
  { intros E. destruct (IH _ E) as (l & ->). exists (e :: l). reflexivity. }
  destruct e; auto; try discriminate. destruct (reference h) as [r|]; [exact G|]. intros [= <-]. now exists [EvAssess d].
Qed.
Lemma wz_recent h hz : wz h hz -> exists A Az T, data h = A ++ T /\ data hz = Az ++ T /\ length T = recent h.
Proof.
  induction 1 as [|z z' h hz _ IH|ps ps' h hz F _ (A & Az & T & E & Ez & L)|e h hz N _ (A & Az & T & E & Ez & L)].
  - now exists [], [], [].
  - eexists (data (EvZero z :: h)), _, []. rewrite !app_nil_r. repeat split.
  - exists A, Az, T. cbn [data ev_data recent]. rewrite !app_nil_r. cbn [length]. repeat split; [exact E|exact Ez|lia].
  - exists A, Az, (T ++ ev_data e). cbn [data]. rewrite E, Ez, <- !app_assoc, app_length, L.
    repeat split. destruct e; cbn in *; lia || contradiction.
Qed.
Lemma zero_positions_related h hz bits : forall p p',
  (forall j, (j < length bits)%nat -> same_cell h hz (p + j) (p' + j)) ->
  Forall2 (same_cell h hz) (zero_positions p bits) (zero_positions p' bits).
Proof.
  induction bits as [|b bits IH]; intros p p' H; cbn [zero_positions]; [constructor|].
  assert (R : Forall2 (same_cell h hz) (zero_positions (S p) bits) (zero_positions (S p') bits)).
  { apply IH. intros j Hj. specialize (H (S j) ltac:(cbn; lia)). now rewrite !Nat.add_succ_r in H. }
  destruct (b =? 0); [|exact R]. constructor; [|exact R]. specialize (H 0%nat ltac:(cbn; lia)). now rewrite !Nat.add_0_r in H.
Qed.

(** ** Bitmaps are made of cells that follow one another *)
Definition quiet_ev (e : event) : Prop :=
  match e with EvZero _ | EvTargets _ | EvAssess _ | EvDefine | EvDefined | EvRecall => False | _ => True end.
Definition sealed (h : history) : Prop := forall later h', h = later ++ EvDefined :: h' ->
  exists mid h0, h' = mid ++ EvDefine :: h0 /\ Forall quiet_ev mid.
Lemma sealed_tail l h : sealed (l ++ h) -> sealed h.
Proof. intros H later h' ->. apply (H (l ++ later) h'). now rewrite app_assoc. Qed.
Lemma sealed_cons e h : e <> EvDefined -> sealed h -> sealed (e :: h).
Proof.
  intros N H later h' E. destruct later as [|x later]; cbn in E; [congruence|]. injection E as -> E. eapply H, E.
Qed.
Lemma wz_split l h hz' : wz (l ++ h) hz' -> exists lz hz, hz' = lz ++ hz /\ wz h hz /\ length lz = length l.
Proof.
  revert hz'. induction l as [|e l IH]; intros hz' H; cbn [app] in H; [now exists [], hz'|].
  inversion H as [|z z' ? hz1 W|ps ps' ? hz1 F W|? ? hz1 N W]; subst; destruct (IH _ W) as (lz & hz & -> & X & L).
  - exists (EvZero z' :: lz), hz. cbn. auto.
  - exists (EvTargets ps' :: lz), hz. cbn. auto.
  - exists (e :: lz), hz. cbn. auto.
Qed.
Lemma wz_quiet l h hz' : Forall quiet_ev l -> wz (l ++ h) hz' -> exists hz, hz' = l ++ hz /\ wz h hz.
Proof.
  intros Q. revert hz'. induction Q as [|e l Qe _ IH]; intros hz' H; cbn [app] in H; [now exists hz'|].
  inversion H as [|z z' ? hz1 W|ps ps' ? hz1 F W|? ? hz1 N W]; subst; cbn in Qe; try contradiction.
  destruct (IH _ W) as (hz & -> & X). exists hz. auto.
Qed.
Lemma bitmap_quiet l h : Forall quiet_ev l -> bitmap (l ++ h) = bitmap h \/ bitmap (l ++ h) = None.
Proof. induction 1 as [|e l Qe _ IH]; cbn [app bitmap]; [auto|]. destruct e; cbn in Qe; auto; contradiction. Qed.
Lemma bitmap_quiet_same l h h2 : Forall quiet_ev l -> bitmap h <> None -> bitmap h2 <> None ->
  (bitmap (l ++ h) = None <-> bitmap (l ++ h2) = None).
Proof. intros Q N N2. induction Q as [|e l Qe _ IH]; cbn [app bitmap]; [tauto|]. destruct e; cbn in Qe; tauto. Qed.
Lemma wz_bitmap h hz : wz h hz -> sealed h -> (bitmap h = None <-> bitmap hz = None) /\
  forall i0 i1, bitmap h = Some (i0, i1) -> (1 <= i1 - i0)%nat ->
  exists j0 j1, bitmap hz = Some (j0, j1) /\ (j0 <= j1)%nat /\ (j1 - j0 = i1 - i0)%nat /\
    firstn (j1 - j0) (skipn j0 (data hz)) = firstn (i1 - i0) (skipn i0 (data h)).
Proof.
  assert (K : forall e ez h hz, bitmap (e :: h) = bitmap h -> bitmap (ez :: hz) = bitmap hz ->
    (forall i0 i1, bitmap h = Some (i0, i1) -> (i1 <= ncells h)%nat) ->
    (forall i0 i1, bitmap hz = Some (i0, i1) -> (i1 <= ncells hz)%nat) ->
    (bitmap h = None <-> bitmap hz = None) /\ (forall i0 i1, bitmap h = Some (i0, i1) -> (1 <= i1 - i0)%nat ->
      exists j0 j1, bitmap hz = Some (j0, j1) /\ (j0 <= j1)%nat /\ (j1 - j0 = i1 - i0)%nat /\
       firstn (j1 - j0) (skipn j0 (data hz)) = firstn (i1 - i0) (skipn i0 (data h))) ->
    (bitmap (e :: h) = None <-> bitmap (ez :: hz) = None) /\ (forall i0 i1, bitmap (e :: h) = Some (i0, i1) -> (1 <= i1 - i0)%nat ->
      exists j0 j1, bitmap (ez :: hz) = Some (j0, j1) /\ (j0 <= j1)%nat /\ (j1 - j0 = i1 - i0)%nat /\
       firstn (j1 - j0) (skipn j0 (data (ez :: hz))) = firstn (i1 - i0) (skipn i0 (data (e :: h))))).
  { intros e ez h0 hz0 -> -> B Bz (I1 & I2). split; [exact I1|]. intros i0 i1 E L.
    destruct (I2 i0 i1 E L) as (j0 & j1 & Ez & L1 & L2 & S). exists j0, j1. split; [exact Ez|]. split; [exact L1|]. split; [exact L2|].
    cbn [data]. specialize (B _ _ E). specialize (Bz _ _ Ez). unfold ncells in *.
    rewrite !skipn_app, !firstn_app, !skipn_length.
    replace (j1 - j0 - (length (data hz0) - j0))%nat with 0%nat by lia.
    replace (i1 - i0 - (length (data h0) - i0))%nat with 0%nat by lia. cbn [firstn]. rewrite !app_nil_r. exact S. }
  assert (B : forall h i0 i1, bitmap h = Some (i0, i1) -> (i1 <= ncells h)%nat).
  { clear. intros h. induction h as [|e h IH]; intros i0 i1; cbn [bitmap]; [discriminate|].
    assert (M : (ncells h <= ncells (e :: h))%nat) by (unfold ncells; cbn [data]; rewrite app_length; lia).
    destruct e; try (intros E; specialize (IH _ _ E); lia); try discriminate.
    - intros [= <- <-]. lia.
    - destruct (bitmap h) as [[a b]|]; [|discriminate]. intros [= <- <-]. exact M. }
  induction 1 as [|z z' h hz W IH|ps ps' h hz F W IH|e h hz N W IH]; intros S.
  - cbn. split; [tauto|discriminate].
  - apply (K (EvZero z) (EvZero z')); [reflexivity|reflexivity|apply B|apply B|exact (IH (sealed_tail [_] _ S))].
  - apply (K (EvTargets ps) (EvTargets ps')); [reflexivity|reflexivity|apply B|apply B|exact (IH (sealed_tail [_] _ S))].
  - specialize (IH (sealed_tail [_] _ S)).
    destruct e; cbn in N; try contradiction; try (apply K; [reflexivity|reflexivity|apply B|apply B|exact IH]).
    + cbn. split; [tauto|discriminate].
    + cbn. split; [tauto|discriminate].
    + cbn [bitmap]. split; [split; discriminate|]. intros i0 i1 [= <- <-]. lia.
    + destruct (S [] h eq_refl) as (mid & h0 & -> & Q). destruct (wz_quiet _ _ _ Q W) as (hz1 & -> & W1).
      inversion W1 as [| | |? ? hz0 _ W0]; subst.
      pose proof (bitmap_quiet mid (EvDefine :: h0) Q) as C. pose proof (bitmap_quiet mid (EvDefine :: hz0) Q) as Cz.
      pose proof (bitmap_quiet_same mid (EvDefine :: h0) (EvDefine :: hz0) Q ltac:(cbn; discriminate) ltac:(cbn; discriminate)) as I.
      change (EvDefined :: mid ++ EvDefine :: h0) with ([EvDefined] ++ mid ++ EvDefine :: h0).
      change (EvDefined :: mid ++ EvDefine :: hz0) with ([EvDefined] ++ mid ++ EvDefine :: hz0).
      cbn [app bitmap] in *.
      destruct C as [C|C]; destruct Cz as [Cz|Cz].
      * rewrite C, Cz. cbn [bitmap]. split; [split; discriminate|]. intros i0 i1 [= <- <-] L.
        exists (ncells hz0), (ncells (mid ++ EvDefine :: hz0)). split; [reflexivity|].
        assert (Ea : forall x, ncells (mid ++ EvDefine :: x) = (ncells x + ncells mid)%nat).
        { intros x. rewrite ncells_app. unfold ncells. cbn [data ev_data]. now rewrite app_nil_r. }
        rewrite !Ea in *. split; [lia|]. split; [lia|].
        assert (Es : forall x, firstn (ncells x + ncells mid - ncells x) (skipn (ncells x) (data (EvDefined :: mid ++ EvDefine :: x))) = data mid).
        { intros x. cbn [data ev_data]. rewrite data_app. cbn [data ev_data]. rewrite !app_nil_r.
          unfold ncells. rewrite skipn_app, skipn_all, Nat.sub_diag. cbn [app skipn].
          replace (length (data x) + length (data mid) - length (data x))%nat with (length (data mid)) by lia. apply firstn_all. }
        now rewrite !Es.
      * rewrite C in I. cbn [bitmap] in I. destruct I as [_ I]. specialize (I Cz). discriminate.
      * rewrite Cz in I. cbn [bitmap] in I. destruct I as [I _]. specialize (I C). discriminate.
      * rewrite C, Cz. split; [tauto|discriminate].
Qed.
