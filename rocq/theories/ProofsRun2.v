(** Operators, bitmaps and targets against the reference semantics. *)
From Coq Require Import ZifyBool ZifyNat.
From Verif Require Export ProofsRun.

Lemma rep_event cf e h s : ev_data e = [] -> is_op e = false -> plain_event e = true -> rep cf h s -> rep cf (e :: h) s.
Proof.
  intros Hd Ho He [R1 R2 R3]. constructor; [cbn [data]; rewrite Hd; now rewrite app_nil_r|now apply rep_regs_event|now apply rep_bm_event].
Qed.
Lemma rep_set_regs cf op d h g s : rep cf h s -> rep_regs (EvOp op d :: h) g -> rep cf (EvOp op d :: h) (set_regs g s).
Proof.
  intros [R1 R2 R3] G. constructor; cbn [set_regs v_cells v_regs v_bm]; [cbn [data ev_data]; now rewrite app_nil_r|exact G|now apply rep_bm_event].
Qed.
Lemma op201 d h g : rep_regs h g ->
  rep_regs (EvOp 201 d :: h) (set_nbitsOffset (if id_Operand (d_id d) =? 0 then id_Operand (d_id d) else id_Operand (d_id d) - 128) g).
Proof.
  intros [H1 H2 H3 H4 H5 H6 H7 H8]. constructor; cbn; auto. unfold offset. cbn. destruct (Z.eqb_spec (id_Operand (d_id d)) 0); lia.
Qed.
Lemma op202 d h g : rep_regs h g ->
  rep_regs (EvOp 202 d :: h) (set_scaleOffset (if id_Operand (d_id d) =? 0 then id_Operand (d_id d) else id_Operand (d_id d) - 128) g).
Proof.
  intros [H1 H2 H3 H4 H5 H6 H7 H8]. constructor; cbn; auto. unfold offset. cbn. destruct (Z.eqb_spec (id_Operand (d_id d)) 0); lia.
Qed.
Lemma op203 d h g : rep_regs h g -> rep_regs (EvOp 203 d :: h) g.
Proof. intros [H1 H2 H3 H4 H5 H6 H7 H8]. constructor; cbn; auto. Qed.
Lemma op207 d h g : rep_regs h g ->
  rep_regs (EvOp 207 d :: h) ((if id_Operand (d_id d) =? 0 then set_packing 0 0 0
    else set_packing (go_quot (10 * id_Operand (d_id d) + 2) 3) (id_Operand (d_id d)) (id_Operand (d_id d))) g).
Proof.
  intros [H1 H2 H3 H4 H5 H6 H7 H8]. destruct (Z.eqb_spec (id_Operand (d_id d)) 0) as [E|E]; constructor; cbn; auto; rewrite ?E; auto.
  destruct (Z.eqb_spec (id_Operand (d_id d)) 0); [contradiction|reflexivity].
Qed.
Lemma op208 d h g : rep_regs h g -> rep_regs (EvOp 208 d :: h) (set_nbitsString (id_Y (d_id d) * NBITS_PER_BYTE) g).
Proof. intros [H1 H2 H3 H4 H5 H6 H7 H8]. constructor; try assumption. apply Z.mul_comm. Qed.
Lemma op204_open d h g : rep_regs h g -> id_Y (d_id d) <> 0 ->
  rep_regs (EvOp 204 d :: h) (set_assoc (g_assoc g ++ [(id_Y (d_id d), None)]) g).
Proof.
  intros [H1 H2 H3 H4 H5 H6 H7 H8] Hy. constructor; cbn; auto. unfold id_Operand.
  destruct (Z.eqb_spec (id_Y (d_id d)) 0); [contradiction|]. rewrite map_app, H4. reflexivity.
Qed.
Lemma map_removelast {A B} (f : A -> B) l : map f (removelast l) = removelast (map f l).
Proof. induction l as [|a [|b l] IH]; [reflexivity|reflexivity|]. cbn [removelast map] in *. now rewrite IH. Qed.
Lemma op204_close d h g : rep_regs h g -> id_Y (d_id d) = 0 ->
  rep_regs (EvOp 204 d :: h) (set_assoc (removelast (g_assoc g)) g).
Proof.
  intros [H1 H2 H3 H4 H5 H6 H7 H8] Hy. constructor; cbn; auto. unfold id_Operand. rewrite Hy. cbn. now rewrite map_removelast, H4.
Qed.

(** ** Bitmap bits *)
Lemma Forall2_len {A B} (P : A -> B -> Prop) l l' : Forall2 P l l' -> length l = length l'.
Proof. induction 1; cbn; congruence. Qed.
Definition bit_is (cf : config) (x : datum) (b : Z) : Prop := exists v vs, dt_vals x = v :: vs /\ UintValue (cf_plat cf) v = Ok b.
Section Bitmaps.
  Variable cf : config.
  Hypothesis Hp : (0 < lanes cf)%nat.

  Lemma cell0 ds c i : rep_cells cf ds c ->
    match nth_error ds i with
    | Some x => exists ce vs, cells_Cell c (Z.of_nat i) = Ok ce /\ nth_error (lane0 c) i = Some ce /\
                  dt_vals x = c_val ce :: vs /\ is_cell 0 i x ce
    | None => cells_Cell c (Z.of_nat i) = Panic PIndex
    end.
  Proof.
    intros R. rewrite (rep_cell cf ds c _ R Hp). destruct (rep_lane0 cf ds c R Hp) as [Hl H].
    unfold go_nth. assert (Z.of_nat i <? 0 = false) as -> by lia. rewrite Nat2Z.id. specialize (H i).
    destruct (nth_error ds i) as [x|] eqn:Ex.
    - destruct (nth_error (lane0 c) i) as [ce|] eqn:Ec.
      + specialize (H x ce eq_refl eq_refl). pose proof H as (_ & _ & _ & _ & _ & Hv).
        destruct (dt_vals x) as [|v vs]; [discriminate|]. injection Hv as ->. exists ce, vs. auto.
      + exfalso. apply nth_error_None in Ec. assert (nth_error ds i <> None) as Hn by congruence. apply nth_error_Some in Hn. lia.
    - apply nth_error_None in Ex. destruct (nth_error (lane0 c) i) eqn:Ec; [|reflexivity].
      assert (nth_error (lane0 c) i <> None) as Hn by congruence. apply nth_error_Some in Hn. lia.
  Qed.
  Lemma skipn_nth {A} (l : list A) i : skipn i l = match nth_error l i with Some a => a :: skipn (S i) l | None => [] end.
  Proof. revert i. induction l as [|a l IH]; intros [|i]; [reflexivity|reflexivity|reflexivity|exact (IH i)]. Qed.
  Lemma read_bits_iff ds c : rep_cells cf ds c -> forall n i bs,
    read_bits (cf_plat cf) c (Z.of_nat i) n = Ok bs <->
    Forall2 (bit_is cf) (firstn n (skipn i ds)) bs /\ length bs = n.
  Proof.
    intros R. induction n as [|n IH]; intros i bs; cbn [read_bits].
    - cbn [firstn]. split; [intros H; injection H as <-; split; [constructor|reflexivity]|].
      intros [_ H]. destruct bs; [reflexivity|discriminate].
    - pose proof (cell0 ds c i R) as Hc. rewrite (skipn_nth ds i). destruct (nth_error ds i) as [x|].
      + destruct Hc as (ce & vs & -> & _ & Hv & _). cbn [rbind firstn]. replace (Z.of_nat i + 1) with (Z.of_nat (S i)) by lia.
        destruct (UintValue (cf_plat cf) (c_val ce)) as [b|e|p|] eqn:Eu.
        * specialize (IH (S i)). destruct (read_bits (cf_plat cf) c (Z.of_nat (S i)) n) as [bs'|e|p|] eqn:Er; cbn [rbind].
          -- split.
             ++ intros H. injection H as <-. destruct (proj1 (IH bs') eq_refl) as [HF HL]. split; [|cbn; now rewrite HL].
                constructor; [exists (c_val ce), vs; auto|exact HF].
             ++ intros [HF HL]. inversion HF as [|? b' ? bs0 (v & vs' & Hv' & Hu) HF']; subst.
                assert (v = c_val ce) by congruence. subst v. rewrite Hu in Eu. injection Eu as <-. cbn in HL. injection HL as HL.
                pose proof (proj2 (IH bs0) (conj HF' HL)) as E2. injection E2 as <-. reflexivity.
          -- split; [discriminate|]. intros [HF HL]. inversion HF as [|? b' ? bs0 _ HF']; subst. cbn in HL. injection HL as HL.
             pose proof (proj2 (IH bs0) (conj HF' HL)) as E2. discriminate E2.
          -- split; [discriminate|]. intros [HF HL]. inversion HF as [|? b' ? bs0 _ HF']; subst. cbn in HL. injection HL as HL.
             pose proof (proj2 (IH bs0) (conj HF' HL)) as E2. discriminate E2.
          -- split; [discriminate|]. intros [HF HL]. inversion HF as [|? b' ? bs0 _ HF']; subst. cbn in HL. injection HL as HL.
             pose proof (proj2 (IH bs0) (conj HF' HL)) as E2. discriminate E2.
        * split; [discriminate|]. intros [HF HL]. inversion HF as [|? b' ? bs0 (v & vs' & Hv' & Hu) HF']; subst. congruence.
        * split; [discriminate|]. intros [HF HL]. inversion HF as [|? b' ? bs0 (v & vs' & Hv' & Hu) HF']; subst. congruence.
        * split; [discriminate|]. intros [HF HL]. inversion HF as [|? b' ? bs0 (v & vs' & Hv' & Hu) HF']; subst. congruence.
      + rewrite Hc. cbn [rbind firstn]. split; [discriminate|]. intros [HF HL]. inversion HF; subst. discriminate HL.
  Qed.
  Lemma Bits_iff h s s' bits : rep cf h s ->
    Bits (cf_plat cf) s = (s', Ok bits) <-> s' = s /\ bitmap_bits cf h bits.
  Proof.
    intros [R1 R2 [B1 B2 B3 B4]]. unfold Bits. erewrite bind_ok by reflexivity. erewrite bind_ok by reflexivity.
    unfold bitmap_bits. destruct (m_current (v_bm s)) as [i|].
    - destruct B3 as (i0 & i1 & -> & ->). destruct (Z.ltb_spec (Z.of_nat i1 - Z.of_nat i0) 0) as [Hlt|Hge].
      + split; [discriminate|]. intros [_ (j0 & j1 & E & Hle & _)]. injection E as <- <-. lia.
      + unfold lift_res. replace (Z.to_nat (Z.of_nat i1 - Z.of_nat i0)) with (i1 - i0)%nat by lia. split.
        * intros H. injection H as <- H. apply (read_bits_iff _ _ R1) in H. split; [reflexivity|].
          exists i0, i1. split; [reflexivity|]. split; [lia|]. exact H.
        * intros [-> (j0 & j1 & E & Hle & HF)]. injection E as <- <-. f_equal. now apply (read_bits_iff _ _ R1).
    - split; [discriminate|]. rewrite B3. intros [_ (j0 & j1 & E & _)]. discriminate E.
  Qed.

  (** ** Targets *)
  Lemma collect_eq ds c : rep_cells cf ds c -> forall i want acc, (i <= length ds)%nat ->
    let m := Nat.min i (Nat.max 1 (want - length acc)) in
    collect_nodes c i want acc = Ok (firstn m (skipn (i - m) (map c_node (lane0 c))) ++ acc).
  Proof.
    intros R. induction i as [|k IH]; intros want acc Hi; cbn [collect_nodes]; [reflexivity|].
    pose proof (cell0 ds c k R) as Hc. destruct (nth_error ds k) as [x|] eqn:Ex.
    2: { apply nth_error_None in Ex. lia. }
    destruct Hc as (ce & vs & -> & Hn & _). cbn [rbind]. cbv zeta in IH |- *.
    assert (Hnk : nth_error (map c_node (lane0 c)) k = Some (c_node ce)) by now apply map_nth_error.
    destruct (Nat.ltb_spec (length (c_node ce :: acc)) want) as [Hlt|Hge]; cbn [length] in *.
    - rewrite IH by lia. cbn [length]. set (m' := Nat.min k _).
      replace (Nat.min (S k) (Nat.max 1 (want - length acc))) with (S m') by lia.
      replace (S k - S m')%nat with (k - m')%nat by lia. f_equal.
      assert (Hm : (m' <= k)%nat) by lia. clearbody m'. clear -Hnk Hm. change (c_node ce :: acc) with ([c_node ce] ++ acc). rewrite app_assoc. f_equal.
      set (l := map c_node (lane0 c)) in *. clearbody l.
      assert (Hs : nth_error (skipn (k - m') l) m' = Some (c_node ce)).
      { rewrite <- Hnk. clear Hnk. revert m' Hm l. induction k as [|k IH2]; intros m' Hm l.
        - assert (m' = 0)%nat as -> by lia. reflexivity.
        - destruct (Nat.eq_dec m' (S k)) as [->|Hne]; [now rewrite Nat.sub_diag|]. replace (S k - m')%nat with (S (k - m')) by lia.
          destruct l as [|a l]; [cbn; now destruct m'|]. cbn. apply IH2. lia. }
      revert Hs. generalize (skipn (k - m') l). clear. induction m' as [|m IH]; intros [|a l] H; cbn in H |- *; try discriminate H.
      + now injection H as ->.
      + f_equal. now apply IH.
    - replace (Nat.min (S k) (Nat.max 1 (want - length acc))) with 1%nat by lia. replace (S k - 1)%nat with k by lia.
      f_equal. rewrite (skipn_nth (map c_node (lane0 c)) k), Hnk. reflexivity.
  Qed.
  Lemma select_positions l : forall bits p, (p + length bits <= length l)%nat ->
    Forall2 (target_at l) (select_zero bits (firstn (length bits) (skipn p (map c_node l)))) (zero_positions p bits).
  Proof.
    induction bits as [|b bits IH]; intros p Hlen; cbn [length zero_positions] in *; [constructor|].
    rewrite (skipn_nth (map c_node l) p). destruct (nth_error l p) as [c|] eqn:Ec.
    2: { apply nth_error_None in Ec. lia. }
    rewrite (map_nth_error c_node _ _ Ec). cbn [firstn select_zero]. specialize (IH (S p) ltac:(lia)).
    destruct (b =? 0); [|exact IH]. constructor; [|exact IH]. exists c. auto.
  Qed.
  Lemma Init_sound h s s' ts : rep cf h s -> InitTargetNodes (cf_plat cf) s = (s', Ok ts) ->
    exists ps, selects cf h ps /\ rep cf (EvTargets ps :: h) s' /\ length ts = length ps /\
      Forall2 (target_at (lane0 (v_cells s))) ts ps /\ same_place s s' /\ v_r s' = v_r s /\ v_cells s' = v_cells s.
  Proof.
    intros R H. unfold InitTargetNodes in H. binv H. apply (Bits_iff h) in E; [|exact R]. destruct E as [-> HB].
    erewrite bind_ok in H by reflexivity. erewrite bind_ok in H by reflexivity.
    pose proof R as [R1 R2 [B1 B2 B3 B4]]. pose proof (backref_le h) as Hb. unfold ncells in Hb.
    replace (Z.to_nat (m_backref1 (v_bm s) + 1)) with (backref h) in H by (rewrite B1; lia).
    rewrite (collect_eq (data h) _ R1 (backref h) (length a) [] Hb) in H. cbv zeta in H. cbn [length] in H. rewrite Nat.sub_0_r in H.
    set (m := Nat.min (backref h) (Nat.max 1 (length a))) in *. rewrite app_nil_r in H.
    unfold lift_res in H. erewrite bind_ok in H by reflexivity.
    destruct (rep_lane0 cf _ _ R1 Hp) as [Hl0 _].
    assert (Hlen : length (firstn m (skipn (backref h - m) (map c_node (lane0 (v_cells s))))) = m).
    { rewrite firstn_length, skipn_length, map_length. lia. }
    rewrite Hlen in H. destruct (Nat.eqb_spec (length a) m) as [Hm|Hm]; [|discriminate H]. cbn [negb] in H.
    unfold modify in H. erewrite bind_ok in H by reflexivity. apply ok_inv in H. destruct H as [<- <-].
    rewrite <- Hm in *.
    assert (HT : Forall2 (target_at (lane0 (v_cells s))) (select_zero a (firstn (length a) (skipn (backref h - length a) (map c_node (lane0 (v_cells s))))))
                  (zero_positions (backref h - length a) a)) by (apply select_positions; lia).
    exists (zero_positions (backref h - length a) a). split; [exists a; split; [exact HB|]; split; [lia|]; split; [intros ->; cbn in Hm; lia|reflexivity]|].
    split; [|split; [eapply Forall2_len; exact HT|split; [exact HT|repeat split]]].
    constructor; cbn [set_bm v_cells v_regs v_bm].
    - cbn [data ev_data]. now rewrite app_nil_r.
    - now apply rep_regs_event.
    - constructor; cbn; auto.
  Qed.
  Lemma Init_complete h s ps : rep cf h s -> selects cf h ps ->
    exists s' ts, InitTargetNodes (cf_plat cf) s = (s', Ok ts) /\ rep cf (EvTargets ps :: h) s' /\ length ts = length ps /\
      same_place s s' /\ v_r s' = v_r s /\ v_cells s' = v_cells s.
  Proof.
    intros R (bits & HB & Hle & H0 & ->).
    assert (E : exists s' ts, InitTargetNodes (cf_plat cf) s = (s', Ok ts)).
    { unfold InitTargetNodes. erewrite bind_ok by (apply (Bits_iff h); [exact R|]; split; [reflexivity|exact HB]).
      erewrite bind_ok by reflexivity. erewrite bind_ok by reflexivity.
      pose proof R as [R1 R2 [B1 B2 B3 B4]]. pose proof (backref_le h) as Hb. unfold ncells in Hb.
      replace (Z.to_nat (m_backref1 (v_bm s) + 1)) with (backref h) by (rewrite B1; lia).
      rewrite (collect_eq (data h) _ R1 (backref h) (length bits) [] Hb). cbv zeta. cbn [length]. rewrite Nat.sub_0_r.
      set (m := Nat.min (backref h) (Nat.max 1 (length bits))) in *. rewrite app_nil_r.
      destruct (rep_lane0 cf _ _ R1 Hp) as [Hl0 _].
      unfold lift_res. erewrite bind_ok by reflexivity.
      assert (Hlen : length (firstn m (skipn (backref h - m) (map c_node (lane0 (v_cells s))))) = m).
      { rewrite firstn_length, skipn_length, map_length. lia. }
      rewrite Hlen. assert (length bits = m) as Hm. { destruct bits; [cbn in *; rewrite H0 in * by reflexivity; subst m; lia|cbn [length] in *; lia]. }
      rewrite Hm, Nat.eqb_refl. cbn [negb]. do 2 eexists. reflexivity. }
    destruct E as (s' & ts & E). exists s', ts. split; [exact E|].
    destruct (Init_sound h s s' ts R E) as (ps & (bits' & HB' & Hle' & _ & ->) & HR & HL & _ & P).
    assert (bits' = bits) as ->; [|tauto].
    pose proof (proj2 (Bits_iff h s s bits R) (conj eq_refl HB)) as E1.
    pose proof (proj2 (Bits_iff h s s bits' R) (conj eq_refl HB')) as E2. congruence.
  Qed.
End Bitmaps.
