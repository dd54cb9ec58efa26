(** Fields and sections of a message. *)
From Coq Require Import ZifyBool ZifyNat.
From Verif Require Export ProofsMsg1.
From Verif Require Import ProofsBits ProofsBitProps ProofsUnpack.
From Verif Require Export SpecMessage ModelFactory.
Notation field := ModelFactory.field.

(** ** States *)
Definition st (l : list bool) (e : err) (p : Z) (done : list section) (sec : section)
    (prox : list (string * field)) (ut : option (list Z)) (g : option group) : fac :=
  mkFac (RBit (mkBR l e p)) (Some (mkMessage done (Some sec) prox)) ut g.
Definition with_fields (s : section) (fs : list field) : section :=
  mkSection (sec_number s) (sec_description s) (sec_start s) (sec_padding s) (sec_fields s ++ fs).
Fixpoint registers (slots : list slot) (fs : list field) (prox : list (string * field)) : list (string * field) :=
  match slots, fs with
  | (_, _, _, px) :: slots', f :: fs' => registers slots' fs' (if px then (f_name f, f) :: prox else prox)
  | _, _ => prox
  end.
Definition done_of (m : message) : list section :=
  match msg_cur m with Some x => x :: msg_done m | None => msg_done m end.
Definition slot_ok (s : slot) : Prop :=
  let '(_, t, w, _) := s in
  match t with
  | DUINT => 0 <= w <= 63
  | DINT => 1 <= w <= 62
  | DBOOL => w = 1
  | DBYTES => 0 <= w /\ w mod 8 = 0
  | DBINARY => 0 <= w
  | _ => False
  end.

(** ** Short readers *)
Definition short (s : fac) : Prop := exists l e p, fa_r s = RBit (mkBR l e p) /\ blen l < 8.
Definition shrinks {A} (m : M fac A) : Prop := forall s s' x, short s -> m s = (s', x) -> short s'.
Lemma sh_same {A} (m : M fac A) : (forall s, fa_r (fst (m s)) = fa_r s) -> shrinks m.
Proof. intros H s s' x (l & e & p & Hr & Hl) E. exists l, e, p. split; [|exact Hl]. specialize (H s). rewrite E in H. cbn in H. now rewrite H. Qed.
Lemma sh_bind {A B} (m : M fac A) (f : A -> M fac B) : shrinks m -> (forall a, shrinks (f a)) -> shrinks (bind m f).
Proof.
  intros Hm Hf s s' x Hs E. unfold bind in E. destruct (m s) as [s1 [a|er|pn|]] eqn:E1; [eapply Hf; [eapply Hm; eassumption|exact E]|..]; injection E as <- <-; eapply Hm; eassumption.
Qed.
Lemma sh_onr {A} (m : M reader A) : steady m -> shrinks (onr m).
Proof.
  intros H s s' x (l & e & p & Hr & Hl) E. unfold onr, zoom in E. rewrite Hr in E. destruct (m (RBit (mkBR l e p))) as [r y] eqn:E1. injection E as <- <-.
  destruct (H _ _ _ _ _ E1) as (seg & rest & dp & -> & -> & _). do 3 eexists. split; [reflexivity|]. rewrite blen_app in Hl. pose proof (blen_nonneg seg). lia.
Qed.
Lemma sh_lua {A} (m : M fac A) : shrinks m -> shrinks (lua_call m).
Proof. intros H s s' x Hs E. unfold lua_call in E. destruct (m s) as [s1 [a|er|pn|]] eqn:E1; injection E as <- <-; eapply H; eassumption. Qed.
Lemma sh_wrap {A} tag (m : M fac A) : shrinks m -> shrinks (wrap tag m).
Proof. intros H s s' x Hs E. unfold wrap in E. destruct (m s) as [s1 [a|er|pn|]] eqn:E1; injection E as <- <-; eapply H; eassumption. Qed.
Ltac same := apply sh_same; intros; reflexivity.
Lemma sh_get_msg : shrinks get_msg.
Proof. apply sh_same. intros s. unfold get_msg. now destruct (fa_msg s). Qed.
Lemma sh_upd f : shrinks (upd_section f).
Proof. apply sh_bind; [apply sh_get_msg|]. intros m. destruct (msg_cur m); same. Qed.
Lemma sh_get_section : shrinks get_section.
Proof. apply sh_bind; [apply sh_get_msg|]. intros m. destruct (msg_cur m); same. Qed.
Lemma sh_proxy f : shrinks (set_proxy f).
Proof. apply sh_bind; [apply sh_get_msg|]. intros m. same. Qed.
Lemma sh_NewSection n d : shrinks (NewSection n d).
Proof. apply sh_bind; [apply sh_get_msg|]. intros m. apply sh_bind; [same|]. intros; same. Qed.
Lemma sh_NewField fc nm t w px : t <> DFLOAT -> shrinks (NewField fc nm t w px).
Proof.
  intros Ht. apply sh_bind.
  - destruct t; try congruence; try (apply sh_bind; [apply sh_onr; first [apply steady_uint|apply steady_int|apply steady_bool|apply steady_bytes|apply steady_binary]|intros; same]); same.
  - intros v. apply sh_bind; [apply sh_upd|]. intros _. apply sh_bind; [destruct px; [apply sh_proxy|same]|]. intros; same.
Qed.
Lemma sh_Padding l : shrinks (Padding l).
Proof.
  apply sh_bind; [same|]. intros p. apply sh_bind; [apply sh_get_section|]. intros sec. cbv zeta. destruct (_ =? 0); [same|]. destruct (_ <? 0); [same|].
  apply sh_bind; [apply sh_upd|]. intros _. apply sh_bind; [apply sh_wrap, sh_onr, steady_binary|]. intros [b|]; [apply sh_upd|same].
Qed.
Lemma sh_number f : shrinks (field_number f). Proof. unfold field_number. destruct (f_value f); same. Qed.

Section Fields.
  Variable fc : fconfig.

  (** ** One field *)
  Lemma meaning_int seg w : blen seg = w -> 1 <= w <= 62 -> FInt (signed seg) = meaning DINT seg.
  Proof.
    intros Hl Hw. unfold signed. cbn [meaning]. destruct seg as [|b seg]; [cbn in Hl; lia|]. rewrite blen_cons in Hl. cbn [hd tl].
    pose proof (msb_bound seg) as Hb. assert (2 ^ blen seg <= 2 ^ 62) by (apply Z.pow_le_mono_r; lia).
    rewrite i64_small; [reflexivity|]. destruct b; lia.
  Qed.
  Lemma meaning_uint seg w : blen seg = w -> 0 <= w <= 63 -> FUint (raw seg) = meaning DUINT seg.
  Proof.
    intros Hl Hw. unfold raw. cbn [meaning]. pose proof (msb_bound seg) as Hb. assert (2 ^ blen seg <= 2 ^ 63) by (apply Z.pow_le_mono_r; lia).
    rewrite Z.mod_small by lia. reflexivity.
  Qed.
  Definition read_value (t : datatype) (w : Z) : M fac fvalue :=
    (match t with
     | DUINT => x <- onr (r_ReadUint (fc_plat fc) w) ;; ret (FUint x)
     | DINT => x <- onr (r_ReadInt (fc_plat fc) w) ;; ret (FInt x)
     | DFLOAT => x <- onr (r_ReadFloat32 (fc_fuel fc)) ;; ret (FFloat x)
     | DBOOL => x <- onr r_ReadBool ;; ret (FBool x)
     | DBYTES => x <- onr (r_ReadBytes (go_quot w NBITS_PER_BYTE)) ;; ret (FBytes x)
     | DBINARY => x <- onr (r_ReadBinary w) ;; ret (FBin x)
     | DOther => fail (EMsg "unsupported data type")
     end)%M.
  Lemma onr_eq {A} (m : M reader A) l e p m0 ut g r x : m (RBit (mkBR l e p)) = (r, x) ->
    onr m (mkFac (RBit (mkBR l e p)) m0 ut g) = (mkFac r m0 ut g, x).
  Proof. intros H. unfold onr, zoom. cbn [fa_r]. now rewrite H. Qed.
  Lemma read_value_ok nm t w px seg l e p m0 ut g : slot_ok (nm, t, w, px) -> blen seg = w ->
    read_value t w (mkFac (RBit (mkBR (seg ++ l) e p)) m0 ut g) = (mkFac (RBit (mkBR l e (p + w))) m0 ut g, Ok (meaning t seg)).
  Proof.
    intros Hs Hl. cbn [slot_ok] in Hs. destruct t; try contradiction; cbn [read_value].
    - rewrite (bind_ok _ _ _ _ _ (onr_eq _ _ _ _ _ _ _ _ _ (rd_int (fc_plat fc) w seg l e p ltac:(lia)))). unfold ret. now rewrite (meaning_int seg w).
    - rewrite (bind_ok _ _ _ _ _ (onr_eq _ _ _ _ _ _ _ _ _ (rd_uint (fc_plat fc) w seg l e p ltac:(lia)))). unfold ret. now rewrite (meaning_uint seg w).
    - rewrite Hs in *. clear Hs. destruct seg as [|b [|b' seg]]; [discriminate| |rewrite !blen_cons in Hl; pose proof (blen_nonneg seg); lia].
      cbn [meaning hd]. reflexivity.
    - assert (Hq : go_quot w NBITS_PER_BYTE = w / 8) by (unfold NBITS_PER_BYTE; apply Z.quot_div_nonneg; lia).
      rewrite Hq. assert (w = 8 * (w / 8)) as E by (pose proof (Z.div_mod w 8); lia).
      rewrite (bind_ok _ _ _ _ _ (onr_eq _ _ _ _ _ _ _ _ _ (rd_bytes (w / 8) seg l e p ltac:(lia) ltac:(lia)))). unfold ret. rewrite <- E. reflexivity.
    - rewrite (bind_ok _ _ _ _ _ (onr_eq _ _ _ _ _ _ _ _ _ (rd_binary w seg l e p ltac:(lia)))). unfold ret. cbn [meaning]. now rewrite Hl.
  Qed.
  Lemma read_value_inv nm t w px l e p m0 ut g s' v : slot_ok (nm, t, w, px) ->
    read_value t w (mkFac (RBit (mkBR l e p)) m0 ut g) = (s', Ok v) ->
    (exists seg rest, l = seg ++ rest /\ blen seg = w) \/ (t = DBINARY /\ short s').
  Proof.
    intros Hs H. pose proof (blen_nonneg l) as H0. assert (D : w <= blen l \/ blen l < w) by lia. destruct D as [D|D].
    { left. destruct (cut_bits l w) as (seg & rest & -> & Hl); [destruct t; cbn [slot_ok] in Hs; lia|exact D|]. eauto. }
    right. cbn [slot_ok] in Hs. destruct t; try contradiction; cbn [read_value] in H; apply bind_inv in H; destruct H as (s1 & a & E & H); apply ok_inv in H; destruct H as [<- _].
    - destruct (rd_int_short (fc_plat fc) w l e p) as (l' & p' & K & _); [lia|]. rewrite (onr_eq _ _ _ _ _ _ _ _ _ K) in E. discriminate.
    - destruct (rd_uint_short (fc_plat fc) w l e p D) as (l' & K & _). rewrite (onr_eq _ _ _ _ _ _ _ _ _ K) in E. discriminate.
    - assert (l = []) as -> by (apply blen_0; lia). discriminate.
    - assert (Hq : go_quot w NBITS_PER_BYTE = w / 8) by (unfold NBITS_PER_BYTE; apply Z.quot_div_nonneg; lia). rewrite Hq in E.
      destruct (rd_bytes_short (w / 8) l e p) as (l' & K & _); [lia|pose proof (Z.div_mod w 8); lia|]. rewrite (onr_eq _ _ _ _ _ _ _ _ _ K) in E. discriminate.
    - destruct (rd_binary_short w l e p D) as (l' & K & Hs'). rewrite (onr_eq _ _ _ _ _ _ _ _ _ K) in E. apply ok_inv in E. destruct E as [<- _].
      split; [reflexivity|]. exists l', e, (p + w). split; [reflexivity|]. unfold r_ReadBinary, on_reader, br_ReadBinary, bind, br_add_pos, modify in K.
      cbn [br_bits br_err br_pos] in K. destruct (br_ReadBinary_loop _ _ _) as [r1 [u|y|q|]] eqn:E1; try discriminate. injection K as ->.
      now apply binary_loop_left in E1.
  Qed.
  Lemma NewField_eq nm t w px s : NewField fc nm t w px s =
    (v <- read_value t w ;; let f := mkField nm v w false in AddField f ;; (if px then set_proxy f else ret tt) ;; ret f)%M s.
  Proof. reflexivity. Qed.
  Lemma add_field_ok f px l e p done sec prox ut g :
    (AddField f ;; (if px : bool then set_proxy f else ret tt) ;; ret f)%M (st l e p done sec prox ut g)
    = (st l e p done (with_fields sec [f]) (if px then (f_name f, f) :: prox else prox) ut g, Ok f).
  Proof. destruct px; reflexivity. Qed.
  Lemma field_ok nm t w px seg l e p done sec prox ut g : slot_ok (nm, t, w, px) -> blen seg = w ->
    let f := mkField nm (meaning t seg) w false in
    NewField fc nm t w px (st (seg ++ l) e p done sec prox ut g)
    = (st l e (p + w) done (with_fields sec [f]) (if px then (nm, f) :: prox else prox) ut g, Ok f).
  Proof.
    intros Hs Hl f. rewrite NewField_eq. unfold st at 1. rewrite (bind_ok _ _ _ _ _ (read_value_ok _ _ _ _ _ _ _ _ _ _ _ Hs Hl)).
    exact (add_field_ok f px l e (p + w) done sec prox ut g).
  Qed.
  Lemma field_inv nm t w px l e p done sec prox ut g s' f : slot_ok (nm, t, w, px) ->
    NewField fc nm t w px (st l e p done sec prox ut g) = (s', Ok f) ->
    (exists seg rest, l = seg ++ rest /\ blen seg = w) \/ (t = DBINARY /\ short s').
  Proof.
    intros Hs H. rewrite NewField_eq in H. unfold st in H. apply bind_inv in H. destruct H as (s1 & v & E & H).
    destruct (read_value_inv _ _ _ _ _ _ _ _ _ _ _ _ Hs E) as [K|[K0 K]]; [now left|right; split; [exact K0|]].
    cbv zeta in H. assert (SH : shrinks (AddField (mkField nm v w false) ;; (if px then set_proxy (mkField nm v w false) else ret tt) ;; ret (mkField nm v w false))%M).
    { apply sh_bind; [apply sh_upd|]. intros _. apply sh_bind; [destruct px; [apply sh_proxy|same]|]. intros; same. }
    eapply SH; [exact K|exact H].
  Qed.
  Lemma lua_ok {A} (m : M fac A) s s' a : m s = (s', Ok a) -> lua_call m s = (s', Ok a).
  Proof. intros H. unfold lua_call. now rewrite H. Qed.
  Lemma lua_inv {A} (m : M fac A) s s' a : lua_call m s = (s', Ok a) -> m s = (s', Ok a).
  Proof. unfold lua_call. destruct (m s) as [s1 [b|er|pn|]]; congruence. Qed.

  (** ** Several fields *)
  Fixpoint slots_then {A} (xs : list slot) (k : M fac A) : M fac A :=
    match xs with
    | [] => k
    | (nm, t, w, px) :: xs' => ((lua_call (NewField fc nm t w px) ;; ret tt) ;; slots_then xs' k)%M
    end.
  Lemma slots_ok {A} (k : M fac A) xs : forall bits fs l e p done sec prox ut g, Forall slot_ok xs -> fills xs bits fs ->
    slots_then xs k (st (bits ++ l) e p done sec prox ut g)
    = k (st l e (p + blen bits) done (with_fields sec fs) (registers xs fs prox) ut g).
  Proof.
    induction xs as [|[[[nm t] w] px] xs IH]; intros bits fs l e p done sec prox ut g Hx Hf; inversion Hf; subst; cbn [slots_then registers app].
    - rewrite blen_nil, Z.add_0_r. unfold with_fields. rewrite app_nil_r. destruct sec; reflexivity.
    - inversion Hx; subst. rewrite <- app_assoc. rewrite bind_assoc.
      rewrite (bind_ok _ _ _ _ _ (lua_ok _ _ _ _ (field_ok nm t (blen seg) px seg _ _ _ _ _ _ _ _ ltac:(eassumption) eq_refl))).
      unfold bind at 1, ret. erewrite IH by eassumption. rewrite blen_app, Z.add_assoc. unfold with_fields.
      cbn [sec_fields sec_number sec_description sec_start sec_padding f_name]. rewrite <- app_assoc. reflexivity.
  Qed.
  Lemma sh_slots {A} (k : M fac A) xs : Forall slot_ok xs -> shrinks k -> shrinks (slots_then xs k).
  Proof.
    induction 1 as [|[[[nm t] w] px] xs Hs Hx IH]; intros Hk; cbn [slots_then]; [exact Hk|]. apply sh_bind; [|intros _; now apply IH].
    apply sh_bind; [apply sh_lua, sh_NewField; intros ->; contradiction|]. intros; same.
  Qed.
  Lemma slots_inv {A} (k : M fac A) xs : forall l e p done sec prox ut g s' a, Forall slot_ok xs ->
    slots_then xs k (st l e p done sec prox ut g) = (s', Ok a) ->
    (exists bits rest fs, l = bits ++ rest /\ fills xs bits fs) \/ (exists s1, short s1 /\ k s1 = (s', Ok a)).
  Proof.
    induction xs as [|[[[nm t] w] px] xs IH]; intros l e p done sec prox ut g s' a Hx H; cbn [slots_then] in H.
    - left. exists [], l, []. split; [reflexivity|constructor].
    - inversion Hx; subst. rewrite bind_assoc in H. apply bind_inv in H. destruct H as (s1 & f & E & H). apply lua_inv in E.
      unfold bind at 1, ret in H. destruct (field_inv _ _ _ _ _ _ _ _ _ _ _ _ _ _ ltac:(eassumption) E) as [(seg & rest & -> & Hl)|[_ Hs]].
      + rewrite (field_ok nm t w px seg) in E by assumption. apply ok_inv in E. destruct E as [<- _].
        destruct (IH _ _ _ _ _ _ _ _ _ _ ltac:(eassumption) H) as [(bits & rest' & fs & -> & Hf)|K]; [left|now right].
        exists (seg ++ bits), rest', (mkField nm (meaning t seg) w false :: fs). split; [now rewrite app_assoc|]. now constructor.
      + right. clear - H Hs H3. revert s1 Hs H. induction H3 as [|[[[nm' t'] w'] px'] xs Hs' Hx IH]; intros s1 Hs H; cbn [slots_then] in H; [eauto|].
        apply bind_inv in H. destruct H as (s2 & u & E & H). eapply IH; [|exact H]. eapply (sh_bind _ (fun _ => ret tt)); [|intros; same|exact Hs|exact E].
        apply sh_lua, sh_NewField. intros ->; contradiction.
  Qed.

  (** ** Sections *)
  Definition len_slot : slot := ("lengthInBytes"%string, DUINT, 24, false).
  Definition len_field (bits : list bool) : field := mkField "lengthInBytes" (FUint (announced bits)) 24 false.
  Definition sec_len {A} (num : Z) (desc : string) (xs : list slot) (k : field -> M fac A) : M fac A :=
    (NewSection num desc ;; f <- lua_call (NewField fc "lengthInBytes" DUINT 24 false) ;; slots_then xs (k f))%M.
  Definition fresh (l : list bool) (e : err) (p : Z) (m : message) (ut : option (list Z)) (g : option group) : fac := mkFac (RBit (mkBR l e p)) (Some m) ut g.
  Lemma NewSection_eq num desc l e p m ut g : NewSection num desc (fresh l e p m ut g)
    = (st l e p (done_of m) (mkSection num desc (go_quot p NBITS_PER_BYTE) 0 []) (msg_proxy m) ut g, Ok tt).
  Proof. reflexivity. Qed.
  Lemma announced_app seg bits : blen seg = 24 -> announced (seg ++ bits) = msb seg.
  Proof.
    intros H. assert (L : length seg = 24%nat) by (unfold blen in H; lia). unfold announced.
    rewrite <- L, firstn_app, Nat.sub_diag, firstn_all, firstn_O, app_nil_r. reflexivity.
  Qed.
  Lemma len_slot_ok : slot_ok len_slot. Proof. unfold len_slot. cbn [slot_ok]. lia. Qed.
  Lemma sec_len_ok {A} num desc xs (k : field -> M fac A) bits fs l e p m ut g :
    Forall slot_ok xs -> fills (len_slot :: xs) bits fs ->
    sec_len num desc xs k (fresh (bits ++ l) e p m ut g)
    = k (len_field bits) (st l e (p + blen bits) (done_of m) (mkSection num desc (go_quot p NBITS_PER_BYTE) 0 fs)
                            (registers (len_slot :: xs) fs (msg_proxy m)) ut g).
  Proof.
    intros Hx Hf. unfold sec_len. rewrite (bind_ok _ _ _ _ _ (NewSection_eq _ _ _ _ _ _ _ _)). inversion Hf; subst.
    rewrite <- app_assoc. rewrite (bind_ok _ _ _ _ _ (lua_ok _ _ _ _ (field_ok _ _ _ _ seg _ _ _ _ _ _ _ _ len_slot_ok ltac:(assumption)))).
    erewrite slots_ok by eassumption. unfold len_field. rewrite announced_app by assumption. rewrite blen_app, Z.add_assoc. now replace (blen seg) with 24.
  Qed.
  Lemma sec_len_inv {A} num desc xs (k : field -> M fac A) l e p m ut g s' a : Forall slot_ok xs ->
    sec_len num desc xs k (fresh l e p m ut g) = (s', Ok a) ->
    (exists bits rest fs, l = bits ++ rest /\ fills (len_slot :: xs) bits fs) \/ (exists f s1, short s1 /\ k f s1 = (s', Ok a)).
  Proof.
    intros Hx H. unfold sec_len in H. rewrite (bind_ok _ _ _ _ _ (NewSection_eq _ _ _ _ _ _ _ _)) in H. apply bind_inv in H.
    destruct H as (s1 & f & E & H). apply lua_inv in E.
    assert (Hl : exists seg rest, l = seg ++ rest /\ blen seg = 24).
    { destruct (Z.lt_ge_cases (blen l) 24) as [D|D]; [|apply cut_bits; lia]. exfalso. unfold st in E. rewrite NewField_eq in E.
      apply bind_inv in E. destruct E as (s2 & v & E & _). cbn [read_value] in E. apply bind_inv in E. destruct E as (s3 & x & E & _).
      destruct (rd_uint_short (fc_plat fc) 24 l e p D) as (l' & K' & _). rewrite (onr_eq _ _ _ _ _ _ _ _ _ K') in E. discriminate. }
    destruct Hl as (seg & rest & -> & Hs). rewrite (field_ok _ _ _ _ seg _ _ _ _ _ _ _ _ len_slot_ok Hs) in E. apply ok_inv in E. destruct E as [<- <-].
    destruct (slots_inv _ _ _ _ _ _ _ _ _ _ _ _ Hx H) as [(bits & rest' & fs & -> & Hf)|(s1 & S1 & K)]; [left|right; eauto].
    exists (seg ++ bits), rest'. eexists. split; [now rewrite app_assoc|]. constructor; eassumption.
  Qed.
End Fields.
