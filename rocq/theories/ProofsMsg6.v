(** Whole messages, both ways. *)
From Coq Require Import ZifyBool ZifyNat.
From Verif Require Export ProofsMsg5.
From Verif Require Import ProofsBits ProofsBitProps ProofsUnpack ProofsTable.
From Verif Require Import SpecMessage ModelFactory.
Notation field := ModelFactory.field.

(** ** Proxies *)
Definition resolved (secs : list section) (prox : list (string * field)) : Prop :=
  forall nm f, In (nm, f) prox -> exists s, In s secs /\ FieldByName s nm = Some f.
Definition all_once (slots : list slot) : bool := forallb (fun s : slot => let '(nm, _, _, _) := s in once nm slots) slots.
Fixpoint distinct (slots : list slot) : bool :=
  match slots with [] => true | (nm, _, _, _) :: r => match slot_of nm r with None => distinct r | _ => false end end.
Lemma find_app nm fs f more : find_field nm fs = Some f -> find_field nm (fs ++ more) = Some f.
Proof. induction fs as [|x fs IH]; [discriminate|]. cbn [find_field app]. destruct (String.eqb _ _); auto. Qed.
Lemma registers_in slots bits fs : fills slots bits fs -> distinct slots = true -> forall prox nm f,
  In (nm, f) (registers slots fs prox) -> In (nm, f) prox \/ (find_field nm fs = Some f /\ slot_of nm slots <> None).
Proof.
  induction 1 as [|n t w px slots seg bits fs Hl Hf IH]; intros Hd prox nm f Hi; [now left|]. cbn [distinct] in Hd. destruct (slot_of n slots) eqn:En; [discriminate|].
  cbn [registers f_name] in Hi. cbn [find_field f_name slot_of]. destruct (IH Hd _ _ _ Hi) as [Hp|[Hp Hs]].
  - destruct px; [|now left]. destruct Hp as [Hp|Hp]; [|now left]. injection Hp as <- <-. right. rewrite String.eqb_refl. split; [reflexivity|discriminate].
  - right. destruct (String.eqb n nm) eqn:E; [|auto]. apply String.eqb_eq in E. subst n. congruence.
Qed.
Lemma resolved_more slots bits fs s secs prox more : fills slots bits fs -> distinct slots = true -> resolved secs prox ->
  sec_fields s = fs ++ more -> resolved (s :: secs) (registers slots fs prox).
Proof.
  intros Hf Hd Hr Hs nm f Hi. destruct (registers_in _ _ _ Hf Hd _ _ _ Hi) as [H|[H _]].
  - destruct (Hr _ _ H) as (x & Hx & E). exists x. split; [now right|exact E].
  - exists s. split; [now left|]. unfold FieldByName. rewrite Hs. now apply find_app.
Qed.
Lemma resolved_weak secs secs' prox : (forall s, In s secs -> In s secs') -> resolved secs prox -> resolved secs' prox.
Proof. intros H Hr nm f Hi. destruct (Hr _ _ Hi) as (s & Hs & E). eauto. Qed.
Lemma resolved_cons secs prox s nm f : resolved secs prox -> FieldByName s nm = Some f -> In s secs -> resolved secs ((nm, f) :: prox).
Proof. intros Hr Hf Hi nm' f' [E|E]; [injection E as <- <-; eauto|eauto]. Qed.

Lemma proxy1 ed at_ bits s nm t w : is_section1 ed at_ bits s -> slot_of nm (layout1 ed) = Some (t, w, true) -> once nm (layout1 ed) = true ->
  exists seg, blen seg = w /\ FieldByName s nm = Some (mkField nm (meaning t seg) w false) /\
    forall prox, proxy_get nm (registers (layout1 ed) (sec_fields s) prox) = Some (mkField nm (meaning t seg) w false).
Proof.
  intros (body & pad & fs & _ & Hf & _ & ->) Hs Ho. destruct (fills_find _ _ _ _ Hf _ _ _ Hs) as (seg & Hl & Hm). exists seg. split; [exact Hl|]. split; [apply Hm|].
  intros prox. cbn [sec_fields]. rewrite (registers_more _ _ _ Hf). rewrite (registers_find _ _ _ _ Hf Ho _ _ Hs (padding pad)). apply Hm.
Qed.
Lemma proxy3 at_ bits ids s nm t w : is_section3 at_ bits ids s -> slot_of nm layout3 = Some (t, w, true) -> once nm layout3 = true ->
  exists seg, blen seg = w /\ FieldByName s nm = Some (mkField nm (meaning t seg) w false) /\
    forall prox, proxy_get nm (registers layout3 (sec_fields s) prox) = Some (mkField nm (meaning t seg) w false).
Proof.
  intros (body & segs & pad & fs & _ & Hf & _ & _ & _ & ->) Hs Ho. destruct (fills_find _ _ _ _ Hf _ _ _ Hs) as (seg & Hl & Hm). exists seg. split; [exact Hl|]. split; [apply Hm|].
  intros prox. cbn [sec_fields]. rewrite (registers_more _ _ _ Hf). rewrite (registers_find _ _ _ _ Hf Ho _ _ Hs (ids_field ids :: padding pad)). apply Hm.
Qed.
Lemma proxy3_other at_ bits ids s nm : is_section3 at_ bits ids s -> slot_of nm layout3 = None -> forall prox,
  proxy_get nm (registers layout3 (sec_fields s) prox) = proxy_get nm prox.
Proof. intros (body & segs & pad & fs & _ & Hf & _ & _ & _ & ->) Hs prox. cbn [sec_fields]. rewrite (registers_more _ _ _ Hf). now apply (registers_other _ _ _ _ Hf). Qed.
Lemma template3 at_ bits ids s : is_section3 at_ bits ids s -> FieldByName s "unexpandedTemplate" = Some (ids_field ids).
Proof.
  intros (body & segs & pad & fs & _ & Hf & _ & _ & _ & ->). unfold FieldByName. cbn [sec_fields]. unfold layout3 in Hf.
  repeat (let K := fresh in inversion Hf as [|? ? ? ? ? ? ? ? ? K]; subst; clear Hf; rename K into Hf). inversion Hf; subst. reflexivity.
Qed.

Section Message.
  Variable fc : fconfig.
  Hypothesis Hj : fc_json fc = false.

  Lemma section2_if (b : bool) at_ l bits s2 e p m ut g : p = 8 * at_ ->
    (if b then exists s, s2 = [s] /\ is_section2 at_ bits s else s2 = [] /\ bits = []) ->
    exists m', (if b then section2 fc else ret tt) (fresh (bits ++ l) e p m ut g)
      = (fresh l e (p + 8 * (if b then announced bits else 0)) m' ut g, Ok tt)
      /\ done_of m' = s2 ++ done_of m /\ msg_proxy m' = msg_proxy m.
  Proof.
    intros Hp H. destruct b.
    - destruct H as (s & -> & H2). rewrite (section2_ok fc _ _ _ _ _ _ _ _ _ Hp H2). eexists (mkMessage _ (Some s) _). split; [reflexivity|]. split; reflexivity.
    - destruct H as [-> ->]. exists m. rewrite Z.mul_0_r, Z.add_0_r. repeat split.
  Qed.
  Lemma table_group_ok master centre sub wmo local gl l e p done sec prox ut g :
    AddLocalAndWmoTableGroups (fc_fs fc) master centre sub wmo local [] = (gl, Ok tt) ->
    lua_call (InitTableGroup fc master centre sub wmo local) (st l e p done sec prox ut g) = (st l e p done sec prox ut (Some (GChain gl)), Ok tt).
  Proof. intros H. unfold lua_call, InitTableGroup. rewrite H. reflexivity. Qed.
  Lemma has_find s nm v : has s nm v -> exists f, FieldByName s nm = Some f /\ f_value f = v.
  Proof. unfold has. destruct (FieldByName s nm) as [f|]; [|discriminate]. cbn. intros H. injection H as <-. eauto. Qed.

  (** *** What is laid out as a message is decoded *)
  Lemma deserialise_ok at_ bits secs : is_message fc at_ bits secs ->
    exists ed, (ed = 3 \/ ed = 4) /\ msb (firstn 8 (skipn 56 bits)) = ed /\ 64 <= blen bits /\ signed_here bits /\
    forall l e m0 ut g, exists m ids gr at5,
      deserialise fc (section1 fc ed) (fst_ (bits ++ l) e (8 * at_) m0 ut g) = (fst_ l e (8 * (at5 + 4)) (Some m) ids gr, Ok tt) /\
      msg_sections m = secs /\ at5 = sec_start (last secs (mkSection 0 "" 0 0 [])) /\ resolved secs (msg_proxy m).
  Proof.
    intros (ed & b0 & b1 & b2 & b3 & b4 & b5 & s0 & s1 & s2 & s3 & s4 & s5 & flag & ids & n & c & gr & -> & -> & H0 & He & Hed & H1 & Hflag & H2 & H3 & Hn & Hc & Ht & H4 & H5).
    exists ed. split; [exact Hed|].
    assert (E0 : exists x y z : list bool, b0 = x ++ y ++ z /\ blen x = 32 /\ blen y = 24 /\ blen z = 8 /\ sec_fields s0 = [mkField "startSignature" (meaning DBYTES x) 32 false; mkField "totalLengthInBytes" (meaning DUINT y) 24 false; mkField "bufrEditionNumber" (meaning DUINT z) 8 false]).
    { destruct H0 as (fs & Hf & -> & _). cbn [sec_fields]. unfold layout0 in Hf.
      inversion Hf as [|? ? ? ? ? x ? ? L1 Hf1]; subst. inversion Hf1 as [|? ? ? ? ? y ? ? L2 Hf2]; subst. inversion Hf2 as [|? ? ? ? ? z ? ? L3 Hf3]; subst. inversion Hf3; subst.
      exists x, y, z. rewrite app_nil_r. auto. }
    destruct E0 as (x & y & z & -> & Lx & Ly & Lz & Efs).
    assert (Ez : msb z = ed). { destruct (has_find _ _ _ He) as (f & K & Hv). unfold FieldByName in K. rewrite Efs in K. cbn in K. injection K as <-. cbn in Hv. now injection Hv. }
    assert (LX : length x = 32%nat /\ length y = 24%nat /\ length z = 8%nat) by (unfold blen in *; lia). destruct LX as (LX & LY & LZ).
    split. { rewrite <- !app_assoc. rewrite (skipn_app 56). rewrite skipn_all2 by lia. rewrite LX. cbn [app Nat.sub]. rewrite (skipn_app 24), skipn_all2 by lia. rewrite LY. cbn [app Nat.sub skipn].
      rewrite firstn_app, (firstn_all2 z) by lia. rewrite LZ, Nat.sub_diag, firstn_O, app_nil_r. exact Ez. }
    split. { rewrite !blen_app. pose proof (blen_nonneg b1). pose proof (blen_nonneg b2). pose proof (blen_nonneg b3). pose proof (blen_nonneg b4). pose proof (blen_nonneg b5). lia. }
    split. { destruct H0 as (fs & _ & _ & Hsig). rewrite <- !app_assoc in *. rewrite firstn_app, (firstn_all2 x) in Hsig by lia. rewrite LX, Nat.sub_diag, firstn_O, app_nil_r in Hsig.
      eexists. rewrite Hsig at 1. reflexivity. }
    intros l e m0 ut g. set (b0 := x ++ y ++ z) in *. assert (L0 : blen b0 = 64) by (unfold b0; rewrite !blen_app; lia).
    rewrite <- !app_assoc. unfold deserialise. unfold bind at 1. unfold NewMessage at 1, modify at 1. cbn [fa_r fa_ut fa_group fst_ set_msg].
    change (mkFac (RBit (mkBR ?l e ?p)) (Some ?m) ut g) with (fresh l e p m ut g).
    set (at1 := at_ + 8) in *. set (at2 := at1 + announced b1) in *. set (at3 := if flag then at2 + announced b2 else at2) in *. set (at4 := at3 + announced b3) in *. set (at5 := at4 + announced b4) in *.
    match goal with |- context [set_msg ?m ?s] => change (set_msg m s) with (fresh (b0 ++ b1 ++ b2 ++ b3 ++ b4 ++ b5 ++ l) e (8 * at_) m ut g) end.
    rewrite (bind_ok _ _ _ _ _ (section0_ok fc _ _ _ _ _ _ _ _ _ eq_refl H0)). rewrite L0. replace (8 * at_ + 64) with (8 * at1) by lia.
    cbn [done_of msg_cur msg_done msg_proxy]. set (prox0 := registers layout0 (sec_fields s0) []).
    change (st ?l e ?p ?d ?s ?px ut g) with (fresh l e p (mkMessage d (Some s) px) ut g) at 1.
    rewrite (bind_ok _ _ _ _ _ (section1_ok fc _ _ _ _ _ _ _ _ _ _ eq_refl H1)). replace (8 * at1 + 8 * announced b1) with (8 * at2) by lia.
    cbn [done_of msg_cur msg_done msg_proxy]. set (prox1 := registers (layout1 ed) (sec_fields s1) prox0).
    assert (P1 : forall nm t w v, slot_of nm (layout1 ed) = Some (t, w, true) -> once nm (layout1 ed) = true -> has s1 nm v -> exists f, f_value f = v /\ FieldByName s1 nm = Some f /\ proxy_get nm prox1 = Some f).
    { intros nm t w v Hs Ho Hv. destruct (proxy1 _ _ _ _ _ _ _ H1 Hs Ho) as (seg & _ & K1 & K2). destruct (has_find _ _ _ Hv) as (f & K3 & K4). exists f.
      split; [exact K4|]. split; [exact K3|]. unfold prox1. rewrite K2. congruence. }
    destruct (P1 "isSection2Presents"%string DBOOL 1 (FBool flag)) as (f2 & Hf2 & _ & G2); [destruct Hed as [-> | ->]; reflexivity|destruct Hed as [-> | ->]; reflexivity|exact Hflag|].
    rewrite (bind_ok _ _ _ _ _ (proxy_bool_ok _ _ _ _ _ _ _ _ _ _ _ G2 Hf2)).
    change (st ?l e ?p ?d ?s ?px ut g) with (fresh l e p (mkMessage d (Some s) px) ut g) at 1.
    destruct (section2_if flag at2 (b3 ++ b4 ++ b5 ++ l) b2 s2 e _ (mkMessage [s0] (Some s1) prox1) ut g eq_refl H2) as (m2 & E2 & D2 & PX2).
    rewrite (bind_ok _ _ _ _ _ E2). replace (8 * at2 + 8 * (if flag then announced b2 else 0)) with (8 * at3) by (unfold at3; destruct flag; lia).
    rewrite (bind_ok _ _ _ _ _ (section3_ok fc _ _ _ _ _ _ _ _ _ _ eq_refl H3)). replace (8 * at3 + 8 * announced b3) with (8 * at4) by lia.
    rewrite D2, PX2. cbn [done_of msg_cur msg_done msg_proxy]. set (prox3 := (_ :: registers layout3 _ _)).
    destruct Ht as (master & centre & sub & wmo & local & gl & T1 & T2 & T3 & T4 & T5 & TG & ->).
    assert (P3 : forall nm t w v, slot_of nm (layout1 ed) = Some (t, w, true) -> once nm (layout1 ed) = true -> slot_of nm layout3 = None -> String.eqb "unexpandedTemplate" nm = false -> has s1 nm v ->
       exists f, f_value f = v /\ proxy_get nm prox3 = Some f).
    { intros nm t w v Hs Ho Hs3 Hu Hv. destruct (P1 nm t w v Hs Ho Hv) as (f & K1 & _ & K2). exists f. split; [exact K1|]. unfold prox3. cbn [proxy_get]. rewrite Hu.
      rewrite (proxy3_other _ _ _ _ _ H3 Hs3). exact K2. }
    destruct (P3 "masterTableNumber"%string DUINT 8 (FUint master)) as (fa & Va & Ga); [destruct Hed as [-> | ->]; reflexivity|destruct Hed as [-> | ->]; reflexivity|reflexivity|reflexivity|exact T1|].
    destruct (P3 "originatingCentre"%string DUINT (if ed =? 4 then 16 else 8) (FUint centre)) as (fb & Vb & Gb); [destruct Hed as [-> | ->]; reflexivity|destruct Hed as [-> | ->]; reflexivity|reflexivity|reflexivity|exact T2|].
    destruct (P3 "originatingSubCentre"%string DUINT (if ed =? 4 then 16 else 8) (FUint sub)) as (fd & Vd & Gd); [destruct Hed as [-> | ->]; reflexivity|destruct Hed as [-> | ->]; reflexivity|reflexivity|reflexivity|exact T3|].
    destruct (P3 "masterTableVersion"%string DUINT 8 (FUint wmo)) as (fe & Ve & Ge); [destruct Hed as [-> | ->]; reflexivity|destruct Hed as [-> | ->]; reflexivity|reflexivity|reflexivity|exact T4|].
    destruct (P3 "localTableVersion"%string DUINT 8 (FUint local)) as (ff & Vf & Gf); [destruct Hed as [-> | ->]; reflexivity|destruct Hed as [-> | ->]; reflexivity|reflexivity|reflexivity|exact T5|].
    rewrite (bind_ok _ _ _ _ _ (proxy_number_ok _ _ _ _ _ _ _ _ _ _ _ Ga Va)), (bind_ok _ _ _ _ _ (proxy_number_ok _ _ _ _ _ _ _ _ _ _ _ Gb Vb)),
      (bind_ok _ _ _ _ _ (proxy_number_ok _ _ _ _ _ _ _ _ _ _ _ Gd Vd)), (bind_ok _ _ _ _ _ (proxy_number_ok _ _ _ _ _ _ _ _ _ _ _ Ge Ve)),
      (bind_ok _ _ _ _ _ (proxy_number_ok _ _ _ _ _ _ _ _ _ _ _ Gf Vf)).
    rewrite (bind_ok _ _ _ _ _ (table_group_ok _ _ _ _ _ _ _ _ _ _ _ _ _ _ TG)).
    destruct (proxy3 _ _ _ _ "nSubsets"%string DUINT 16 H3 eq_refl eq_refl) as (sg1 & _ & N1 & N2).
    destruct (proxy3 _ _ _ _ "isCompressed"%string DBOOL 1 H3 eq_refl eq_refl) as (sg2 & _ & C1 & C2).
    unfold has in Hn, Hc. rewrite N1 in Hn. rewrite C1 in Hc. cbn [option_map f_value] in Hn, Hc. injection Hn as Hn. injection Hc as Hc.
    change (st ?l e ?p ?d ?s ?px ?u ?g') with (fresh l e p (mkMessage d (Some s) px) u g') at 1.
    match goal with |- context [fresh _ e _ ?mm _ _] => set (m3 := mm) end.
    destruct (section4_ok fc Hj (GChain gl) ids n c (mkField "nSubsets" (meaning DUINT sg1) 16 false) (mkField "isCompressed" (meaning DBOOL sg2) 1 false) at4 b4 s4 (b5 ++ l) e (8 * at4) m3 eq_refl) as (pf & E4 & F4);
      [unfold m3, prox3; cbn [msg_proxy proxy_get]; rewrite N2; reflexivity|cbn [f_value meaning]; now rewrite Hn|unfold m3, prox3; cbn [msg_proxy proxy_get]; rewrite C2; reflexivity|cbn [f_value meaning]; now rewrite Hc|exact H4|].
    rewrite (bind_ok _ _ _ _ _ E4). replace (8 * at4 + 8 * announced b4) with (8 * at5) by lia.
    change (st ?l e ?p ?d ?s ?px ?u ?g') with (fresh l e p (mkMessage d (Some s) px) u g') at 1.
    rewrite (section5_ok fc _ _ _ _ _ _ _ _ _ eq_refl H5). cbn [done_of msg_cur msg_done msg_proxy m3].
    replace (8 * at5 + 32) with (8 * (at5 + 4)) by lia.
    eexists _, _, _, at5. split; [reflexivity|]. unfold msg_sections. cbn [msg_cur msg_done msg_proxy]. split; [|split].
    - cbn [rev app]. rewrite rev_app_distr. cbn [rev app]. rewrite <- app_assoc. cbn [app].
      assert (rev s2 = s2) as -> by (destruct flag; [destruct H2 as (s & -> & _)|destruct H2 as [-> _]]; reflexivity). rewrite <- !app_assoc. reflexivity.
    - change (s0 :: s1 :: s2 ++ [s3; s4; s5]) with ((s0 :: s1 :: s2) ++ [s3; s4; s5]). replace ((s0 :: s1 :: s2) ++ [s3; s4; s5]) with ((s0 :: s1 :: s2 ++ [s3; s4]) ++ [s5]) by (cbn; rewrite <- app_assoc; reflexivity).
      rewrite last_last. destruct H5 as (fs & _ & ->). reflexivity.
    - assert (R0 : resolved [s0] prox0). { destruct H0 as (fs & Hf & -> & _). unfold prox0. cbn [sec_fields]. apply (resolved_more _ _ _ _ _ _ [] Hf eq_refl); [intros ? ? []|now rewrite app_nil_r]. }
      assert (R1 : resolved [s1; s0] prox1). { destruct H1 as (body & pad & fs & _ & Hf & _ & ->). unfold prox1. cbn [sec_fields]. rewrite (registers_more _ _ _ Hf).
        apply (resolved_more _ _ _ _ _ _ (padding pad) Hf); [destruct Hed as [-> | ->]; reflexivity|exact R0|reflexivity]. }
      assert (R3 : resolved [s3; s1; s0] prox3). { unfold prox3. apply (resolved_cons _ _ s3); [|eapply template3; exact H3|now left].
        destruct H3 as (body & segs & pad & fs & _ & Hf & _ & _ & _ & ->). cbn [sec_fields]. rewrite (registers_more _ _ _ Hf).
        apply (resolved_more _ _ _ _ _ _ (ids_field ids :: padding pad) Hf); [reflexivity|exact R1|reflexivity]. }
      apply (resolved_cons _ _ s4); [|exact F4|].
      + eapply resolved_weak; [|exact R3]. intros s Hs. cbn [In] in *. rewrite in_app_iff. cbn [In]. intuition.
      + cbn [In]. rewrite in_app_iff. cbn [In]. intuition.
  Qed.

  (** *** What is decoded is laid out as a message *)
  Lemma sh_proxy_bool nm s s' b : short s -> proxy_bool nm s = (s', Ok b) -> short s'.
  Proof.
    intros Hs H. unfold proxy_bool, proxy_field in H. apply bind_inv in H. destruct H as (s1 & f & E & H). apply lua_inv in E. apply bind_inv in E. destruct E as (s2 & m & E & E2).
    apply (sh_get_msg _ _ _ Hs) in E. unfold lift_res in E2. injection E2 as <- _. unfold field_bool in H. destruct (f_value f); unfold ret, fail in H; try discriminate; injection H as <- _; exact E.
  Qed.
  Lemma short_3 s s' a : short s -> section3 fc s <> (s', Ok a).
  Proof. rewrite section3_eq. apply short_len. Qed.
  Lemma signed_first b0 rest : signed_here (b0 ++ rest) -> blen b0 = 64 -> firstn 32 b0 = bytes_bits [66; 85; 70; 82].
  Proof.
    intros [r E] L. apply (f_equal (firstn 32)) in E. rewrite firstn_app in E. replace (32 - length b0)%nat with 0%nat in E by (unfold blen in L; lia). rewrite firstn_O, app_nil_r in E.
    rewrite E. reflexivity.
  Qed.
  Lemma deserialise_inv at_ ed l e m0 ut g s' : 0 <= at_ -> ed = 3 \/ ed = 4 -> signed_here l -> msb (firstn 8 (skipn 56 l)) = ed ->
    deserialise fc (section1 fc ed) (fst_ l e (8 * at_) m0 ut g) = (s', Ok tt) ->
    exists bits rest secs, l = bits ++ rest /\ is_message fc at_ bits secs.
  Proof.
    intros Hat Hed Hsig Hpk H. unfold deserialise in H. unfold bind at 1 in H. unfold NewMessage at 1, modify at 1 in H.
    match goal with H : context [set_msg ?m ?s] |- _ => change (set_msg m s) with (fresh l e (8 * at_) m ut g) in H end.
    pose proof H as H'. apply bind_inv in H'. destruct H' as (t1 & [] & E0 & _). destruct (section0_inv fc _ _ _ _ _ _ _ E0) as (b0 & l1 & fs0 & -> & Hf0). clear t1 E0.
    assert (L0 : blen b0 = 64) by (rewrite (fills_len _ _ _ Hf0); reflexivity).
    set (s0 := mkSection 0 "Indicator Section" at_ 0 fs0).
    assert (H0 : is_section0 at_ b0 s0) by (exists fs0; split; [exact Hf0|split; [reflexivity|exact (signed_first _ _ Hsig L0)]]).
    rewrite (bind_ok _ _ _ _ _ (section0_ok fc _ _ _ _ _ _ _ _ _ eq_refl H0)) in H. rewrite L0 in H. set (at1 := at_ + 8) in *. replace (8 * at_ + 64) with (8 * at1) in H by lia.
    cbn [done_of msg_cur msg_done msg_proxy] in H. set (prox0 := registers layout0 (sec_fields s0) []) in *.
    change (st ?l e ?p ?d ?s ?px ut g) with (fresh l e p (mkMessage d (Some s) px) ut g) in H at 1.
    assert (He : has s0 "bufrEditionNumber" (FUint ed)).
    { unfold has, FieldByName, s0. cbn [sec_fields]. unfold layout0 in Hf0.
      inversion Hf0 as [|? ? ? ? ? x ? ? L1 Hf1]; subst. inversion Hf1 as [|? ? ? ? ? y ? ? L2 Hf2]; subst. inversion Hf2 as [|? ? ? ? ? z ? ? L3 Hf3]; subst. inversion Hf3; subst.
      match goal with |- context [find_field ?a ?b] => change (find_field a b) with (Some (mkField "bufrEditionNumber" (FUint (msb z)) 8 false)) end. cbn [option_map f_value]. do 3 f_equal. assert (LX : length x = 32%nat /\ length y = 24%nat /\ length z = 8%nat) by (unfold blen in *; lia). destruct LX as (LX & LY & LZ).
      rewrite app_nil_r, <- !app_assoc. rewrite (skipn_app 56). rewrite skipn_all2 by lia. rewrite LX. cbn [app Nat.sub]. rewrite (skipn_app 24), skipn_all2 by lia. rewrite LY. cbn [app Nat.sub skipn].
      rewrite firstn_app, (firstn_all2 z) by lia. rewrite LZ, Nat.sub_diag, firstn_O, app_nil_r. reflexivity. }
    (* section 1 *)
    pose proof H as H'. apply bind_inv in H'. destruct H' as (t1 & [] & E1 & K). pose proof E1 as E1'. apply (section1_inv fc _ at1) in E1'; [|reflexivity].
    destruct E1' as [Hs|(b1 & l2 & s1 & -> & H1)].
    { exfalso. apply bind_inv in K. destruct K as (t2 & b & E2 & K). apply (sh_proxy_bool _ _ _ _ Hs) in E2. destruct b.
      - apply bind_inv in K. destruct K as (t3 & [] & E3 & _). rewrite section2_eq in E3. exact (short_len _ _ _ _ _ _ _ _ E2 E3).
      - unfold bind at 1, ret in K. apply bind_inv in K. destruct K as (t3 & [] & E3 & _). exact (short_3 _ _ _ E2 E3). }
    clear K E1 t1. rewrite (bind_ok _ _ _ _ _ (section1_ok fc _ _ _ _ _ _ _ _ _ _ eq_refl H1)) in H. set (at2 := at1 + announced b1) in *. replace (8 * at1 + 8 * announced b1) with (8 * at2) in H by lia.
    cbn [done_of msg_cur msg_done msg_proxy] in H. set (prox1 := registers (layout1 ed) (sec_fields s1) prox0) in *.
    destruct (proxy1 _ _ _ _ "isSection2Presents"%string DBOOL 1 H1) as (sg & _ & G1 & G2); [destruct Hed as [-> | ->]; reflexivity|destruct Hed as [-> | ->]; reflexivity|].
    set (flag := hd false sg). rewrite (bind_ok _ _ _ _ _ (proxy_bool_ok _ _ flag _ _ _ _ _ _ _ _ (G2 prox0) eq_refl)) in H.
    assert (Hflag : has s1 "isSection2Presents" (FBool flag)) by (unfold has; rewrite G1; reflexivity).
    change (st ?l e ?p ?d ?s ?px ut g) with (fresh l e p (mkMessage d (Some s) px) ut g) in H at 1.
    (* section 2 *)
    assert (D2 : exists b2 l3 s2, l2 = b2 ++ l3 /\ (if flag then exists s, s2 = [s] /\ is_section2 at2 b2 s else s2 = [] /\ b2 = [])).
    { destruct flag; [|exists [], l2, []; auto]. apply bind_inv in H. destruct H as (t1 & [] & E2 & K). apply (section2_inv fc at2) in E2; [|reflexivity].
      destruct E2 as [Hs|(b2 & l3 & s & -> & H2)]; [|exists b2, l3, [s]; eauto].
      exfalso. apply bind_inv in K. destruct K as (t3 & [] & E3 & _). exact (short_3 _ _ _ Hs E3). }
    destruct D2 as (b2 & l3 & s2 & -> & H2). destruct (section2_if flag at2 l3 b2 s2 e _ (mkMessage [s0] (Some s1) prox1) ut g eq_refl H2) as (m2 & E2 & D2 & PX2).
    set (at3 := if flag then at2 + announced b2 else at2) in *.
    rewrite (bind_ok _ _ _ _ _ E2) in H. replace (8 * at2 + 8 * (if flag then announced b2 else 0)) with (8 * at3) in H by (unfold at3; destruct flag; lia).
    (* section 3 *)
    pose proof H as H'. apply bind_inv in H'. destruct H' as (t1 & [] & E3 & _). apply (section3_inv fc at3) in E3; [|reflexivity]. destruct E3 as (b3 & l4 & ids & s3 & -> & H3). clear t1.
    set (at4 := at3 + announced b3) in *.
    rewrite (bind_ok _ _ _ _ _ (section3_ok fc _ _ _ _ _ _ _ _ _ _ eq_refl H3)) in H. replace (8 * at3 + 8 * announced b3) with (8 * at4) in H by lia.
    rewrite D2, PX2 in H. cbn [done_of msg_cur msg_done msg_proxy] in H. set (prox3 := (_ :: registers layout3 _ _)) in *.
    assert (P3 : forall nm w, slot_of nm (layout1 ed) = Some (DUINT, w, true) -> once nm (layout1 ed) = true -> slot_of nm layout3 = None -> String.eqb "unexpandedTemplate" nm = false ->
       exists f v, f_value f = FUint v /\ proxy_get nm prox3 = Some f /\ has s1 nm (FUint v)).
    { intros nm w Hs Ho Hs3 Hu. destruct (proxy1 _ _ _ _ _ _ _ H1 Hs Ho) as (sg' & _ & K1 & K2). exists (mkField nm (meaning DUINT sg') w false), (msb sg'). split; [reflexivity|]. split.
      - unfold prox3. cbn [proxy_get]. rewrite Hu. rewrite (proxy3_other _ _ _ _ _ H3 Hs3). apply K2.
      - unfold has. rewrite K1. reflexivity. }
    destruct (P3 "masterTableNumber"%string 8) as (fa & master & Va & Ga & T1); [destruct Hed as [-> | ->]; reflexivity|destruct Hed as [-> | ->]; reflexivity|reflexivity|reflexivity|].
    destruct (P3 "originatingCentre"%string (if ed =? 4 then 16 else 8)) as (fb & centre & Vb & Gb & T2); [destruct Hed as [-> | ->]; reflexivity|destruct Hed as [-> | ->]; reflexivity|reflexivity|reflexivity|].
    destruct (P3 "originatingSubCentre"%string (if ed =? 4 then 16 else 8)) as (fd & sub & Vd & Gd & T3); [destruct Hed as [-> | ->]; reflexivity|destruct Hed as [-> | ->]; reflexivity|reflexivity|reflexivity|].
    destruct (P3 "masterTableVersion"%string 8) as (fe & wmo & Ve & Ge & T4); [destruct Hed as [-> | ->]; reflexivity|destruct Hed as [-> | ->]; reflexivity|reflexivity|reflexivity|].
    destruct (P3 "localTableVersion"%string 8) as (ff & local & Vf & Gf & T5); [destruct Hed as [-> | ->]; reflexivity|destruct Hed as [-> | ->]; reflexivity|reflexivity|reflexivity|].
    rewrite (bind_ok _ _ _ _ _ (proxy_number_ok _ _ _ _ _ _ _ _ _ _ _ Ga Va)), (bind_ok _ _ _ _ _ (proxy_number_ok _ _ _ _ _ _ _ _ _ _ _ Gb Vb)),
      (bind_ok _ _ _ _ _ (proxy_number_ok _ _ _ _ _ _ _ _ _ _ _ Gd Vd)), (bind_ok _ _ _ _ _ (proxy_number_ok _ _ _ _ _ _ _ _ _ _ _ Ge Ve)),
      (bind_ok _ _ _ _ _ (proxy_number_ok _ _ _ _ _ _ _ _ _ _ _ Gf Vf)) in H.
    assert (exists gl, AddLocalAndWmoTableGroups (fc_fs fc) master centre sub wmo local [] = (gl, Ok tt)) as (gl & TG).
    { apply bind_inv in H. destruct H as (t1 & [] & E & _). apply lua_inv in E. unfold InitTableGroup in E. destruct (AddLocalAndWmoTableGroups _ _ _ _ _ _ _) as [gl [[]|er|pn|]]; try discriminate. eauto. }
    rewrite (bind_ok _ _ _ _ _ (table_group_ok _ _ _ _ _ _ _ _ _ _ _ _ _ _ TG)) in H.
    destruct (proxy3 _ _ _ _ "nSubsets"%string DUINT 16 H3 eq_refl eq_refl) as (sg1 & _ & N1 & N2).
    destruct (proxy3 _ _ _ _ "isCompressed"%string DBOOL 1 H3 eq_refl eq_refl) as (sg2 & _ & C1 & C2).
    change (st ?l e ?p ?d ?s ?px ?u ?g') with (fresh l e p (mkMessage d (Some s) px) u g') in H at 1.
    set (m3 := mkMessage (s2 ++ [s1; s0]) (Some s3) prox3) in *.
    assert (Q1 : proxy_get "nSubsets" (msg_proxy m3) = Some (mkField "nSubsets" (meaning DUINT sg1) 16 false)) by (unfold m3, prox3; cbn [msg_proxy proxy_get]; rewrite N2; reflexivity).
    assert (Q2 : proxy_get "isCompressed" (msg_proxy m3) = Some (mkField "isCompressed" (meaning DBOOL sg2) 1 false)) by (unfold m3, prox3; cbn [msg_proxy proxy_get]; rewrite C2; reflexivity).
    (* section 4 *)
    pose proof H as H'. apply bind_inv in H'. destruct H' as (t1 & [] & E4 & K).
    apply (section4_inv fc Hj _ _ (msb sg1) (hd false sg2) _ _ at4 _ _ _ _ _ eq_refl Q1 eq_refl Q2 eq_refl) in E4.
    destruct E4 as [Hs|(b4 & l5 & s4 & -> & H4)]; [exfalso; exact (short_5 _ _ _ _ Hs K)|]. clear K t1.
    set (at5 := at4 + announced b4) in *.
    destruct (section4_ok fc Hj _ _ _ _ _ _ at4 b4 s4 l5 e (8 * at4) m3 eq_refl Q1 eq_refl Q2 eq_refl H4) as (pf & E4 & _).
    rewrite (bind_ok _ _ _ _ _ E4) in H. replace (8 * at4 + 8 * announced b4) with (8 * at5) in H by lia.
    change (st ?l e ?p ?d ?s ?px ?u ?g') with (fresh l e p (mkMessage d (Some s) px) u g') in H at 1.
    apply (section5_inv fc at5) in H; [|reflexivity]. destruct H as (b5 & rest & s5 & -> & H5).
    exists (b0 ++ b1 ++ b2 ++ b3 ++ b4 ++ b5), rest, (s0 :: s1 :: s2 ++ [s3; s4; s5]). split; [now rewrite <- !app_assoc|].
    exists ed, b0, b1, b2, b3, b4, b5, s0, s1, s2, s3, s4, s5, flag, ids, (msb sg1), (hd false sg2), (GChain gl).
    split; [reflexivity|]. split; [reflexivity|]. cbv zeta. fold at1 at2 at3 at4 at5.
    split; [exact H0|]. split; [exact He|]. split; [exact Hed|]. split; [exact H1|]. split; [exact Hflag|]. split; [exact H2|]. split; [exact H3|].
    split; [unfold has; rewrite N1; reflexivity|]. split; [unfold has; rewrite C1; reflexivity|].
    split; [exists master, centre, sub, wmo, local, gl; repeat split; assumption|]. split; [exact H4|exact H5].
  Qed.

  (** *** Run *)
  Definition the_end : section := mkSection 0 "" 0 0 [].
  Lemma Run_ok skipped at_ bits secs rest e p m0 ut g : 0 <= p -> p mod 8 = 0 -> at_ = (p + blen skipped) / 8 ->
    first_signature skipped (bits ++ rest) -> blen (bits ++ rest) mod 8 = 0 -> blen skipped < 8 * Z.of_nat (fc_fuel fc) ->
    is_message fc at_ bits secs ->
    exists m ids gr, Run fc (fst_ (skipped ++ bits ++ rest) e p m0 ut g) = (fst_ rest e (8 * (sec_start (last secs the_end) + 4)) (Some m) ids gr, Ok m) /\
      msg_sections m = secs /\ resolved secs (msg_proxy m).
  Proof.
    intros Hp H8 Ha Hf Hw Hfuel Hm. destruct (deserialise_ok _ _ _ Hm) as (ed & Hed & Hpk & L64 & _ & D).
    assert (HS : blen skipped mod 8 = 0) by apply Hf. pose proof (blen_nonneg skipped) as Hs0. assert (p + blen skipped = 8 * at_) as Ep.
    { subst at_. pose proof (Z.div_mod (p + blen skipped) 8). assert ((p + blen skipped) mod 8 = 0) by (rewrite Z.add_mod, H8, HS by lia; reflexivity). lia. }
    unfold Run. rewrite (bind_ok _ _ _ _ _ (seek_ok _ _ _ e p m0 ut g Hp H8 Hw Hf Hfuel)). rewrite Ep.
    destruct (D rest e m0 ut g) as (m & ids & gr & at5 & E & Hsec & Hat & Hr). exists m, ids, gr.
    assert (B : boot fc (fst_ (bits ++ rest) e (8 * at_) m0 ut g) = (fst_ rest e (8 * (at5 + 4)) (Some m) ids gr, Ok tt)).
    { unfold boot. erewrite bind_ok; [|apply lua_ok; unfold PeekEditionNumber, fst_; apply onr_eq; apply peek_edition; [lia|lia|exact Hw|rewrite blen_app; pose proof (blen_nonneg rest); lia]].
      replace (firstn 8 (skipn 56 (bits ++ rest))) with (firstn 8 (skipn 56 bits)).
      2:{ rewrite skipn_app, firstn_app. replace (8 - length (skipn 56 bits))%nat with 0%nat by (rewrite skipn_length; unfold blen in L64; lia). now rewrite firstn_O, app_nil_r. }
      rewrite Hpk. destruct Hed as [-> | ->]; exact E. }
    rewrite (bind_ok _ _ _ _ _ B). split; [|split; [exact Hsec|exact Hr]]. unfold get_msg, fst_. cbn [fa_msg]. now rewrite Hat.
  Qed.
  Lemma Run_inv l e p m0 ut g s' m : 0 <= p -> (p + blen l) mod 8 = 0 -> Run fc (fst_ l e p m0 ut g) = (s', Ok m) ->
    p mod 8 = 0 /\ blen l mod 8 = 0 /\ exists skipped bits rest secs, l = skipped ++ bits ++ rest /\ first_signature skipped (bits ++ rest) /\ blen skipped < 8 * Z.of_nat (fc_fuel fc) /\
      is_message fc ((p + blen skipped) / 8) bits secs.
  Proof.
    intros Hp H8 H. unfold Run in H. apply bind_inv in H. destruct H as (s1 & [] & E & H).
    assert (P8 : p mod 8 = 0).
    { destruct (fc_fuel fc) as [|n]; [discriminate|]. cbn [SeekStartSignature] in E. apply bind_inv in E. destruct E as (s2 & bs & E & _).
      unfold onr, zoom, fst_, r_PeekBytes, on_reader, pbr_PeekBytes, pbr_peek in E. cbn [fa_r br_pos] in E. unfold NBITS_PER_BYTE in E. rewrite Z.rem_mod_nonneg in E by lia.
      destruct (p mod 8 =? 0) eqn:E8; [lia|discriminate]. }
    assert (L8 : blen l mod 8 = 0) by lia. split; [exact P8|]. split; [exact L8|].
    assert (FU : forall n l p, 0 <= p -> p mod 8 = 0 -> blen l mod 8 = 0 -> forall s', SeekStartSignature n (fst_ l e p m0 ut g) = (s', Ok tt) ->
       exists skipped bits, l = skipped ++ bits /\ first_signature skipped bits /\ s' = fst_ bits e (p + blen skipped) m0 ut g /\ blen skipped < 8 * Z.of_nat n).
    { clear. induction n as [|n IH]; intros l p Hp H1 H2 s' H; [discriminate|]. pose proof H as H0. rewrite seek_step in H by assumption.
      destruct (seek_inv _ _ _ _ _ _ _ _ Hp H1 H2 H0) as (skipped & bits & -> & Hf & ->). exists skipped, bits. split; [reflexivity|]. split; [exact Hf|]. split; [reflexivity|].
      destruct (blen (skipped ++ bits) <? 32) eqn:E; [discriminate|]. destruct (gs_eqb _ BUFR).
      - injection H as H. assert (blen skipped = 0) by lia. lia.
      - pose proof (skip_len (skipped ++ bits) ltac:(lia)) as L. apply IH in H; [|lia|lia|lia]. destruct H as (sk & bt & _ & _ & K & Hn). injection K as -> K. lia. }
    apply FU in E; [|exact Hp|exact P8|exact L8]. destruct E as (skipped & l1 & -> & Hf & -> & Hn).
    assert (HS : blen skipped mod 8 = 0) by apply Hf. pose proof (blen_nonneg skipped) as Hs0. set (at_ := (p + blen skipped) / 8). assert (p + blen skipped = 8 * at_) as Ep.
    { unfold at_. pose proof (Z.div_mod (p + blen skipped) 8). assert ((p + blen skipped) mod 8 = 0) by (rewrite Z.add_mod, P8, HS by lia; reflexivity). lia. }
    rewrite Ep in H. rewrite blen_app in L8. assert (L1 : blen l1 mod 8 = 0) by lia.
    apply bind_inv in H. destruct H as (s2 & [] & E & _). unfold boot in E. apply bind_inv in E. destruct E as (s3 & ed & Epk & E). apply lua_inv in Epk. unfold PeekEditionNumber in Epk.
    assert (L64 : 64 <= blen l1).
    { unfold onr, zoom, fst_ in Epk. cbn [fa_r] in Epk. destruct (r_PeekUint _ _ _ _) as [r x] eqn:Er. injection Epk as _ ->. eapply peek_edition_inv; [| | |exact Er]; lia. }
    unfold fst_ in Epk. rewrite (onr_eq _ _ _ _ _ _ _ _ _ (peek_edition (fc_plat fc) l1 e (8 * at_) ltac:(lia) ltac:(lia) L1 L64)) in Epk. apply ok_inv in Epk. destruct Epk as [<- <-].
    set (ed := msb (firstn 8 (skipn 56 l1))) in *. destruct Hf as (F1 & F2 & F3).
    assert (exists bits rest secs, l1 = bits ++ rest /\ is_message fc at_ bits secs) as (bits & rest & secs & -> & Hm).
    { destruct (Z.eqb_spec ed 4) as [E4|E4]; [|destruct (Z.eqb_spec ed 3) as [E3|E3]; [|discriminate E]].
      - apply (deserialise_inv at_ 4 l1 e m0 ut g s2); [lia|auto|exact F2|exact E4|exact E].
      - apply (deserialise_inv at_ 3 l1 e m0 ut g s2); [lia|auto|exact F2|exact E3|exact E]. }
    exists skipped, bits, rest, secs. repeat split; assumption.
  Qed.
End Message.
