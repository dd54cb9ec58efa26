(** Lemmas for C90: Run uses its reader through the interface only.

    Since the continuation of a program may depend on everything read, the program itself
    is constructed (in Type), rule by rule along the definition of the decoder. *)
From Verif Require Import ModelScript SpecInterp.
From Verif Require Export ProofsBufio.

Fixpoint pbind {A B} (p : prog A) (f : A -> prog B) : prog B :=
  match p with Done x => f x | Ask q k => Ask q (fun r => pbind (k r) f) end.
Lemma run_pbind {S A B} g (p : prog A) (f : A -> prog B) : forall s : S, run g (pbind p f) s = run g (f (snd (run g p s))) (fst (run g p s)).
Proof. induction p as [x|q k IH]; intros s; cbn; [reflexivity|]. destruct (g q s). apply IH. Qed.

Definition after {S A B} (m : M S A) (g : res A -> M S B) : M S B := fun s => let '(s', x) := m s in g x s'.

Section Uses.
  Context {S : Type}.
  Variable put : bitreader -> S -> S.
  Definition uses {A} (m : M S A) : Type :=
    forall s, {p : prog (S * res A) | forall b,
      m (put b s) = (put (fst (run bit_ask p b)) (fst (snd (run bit_ask p b))), snd (snd (run bit_ask p b)))}.

  Lemma uses_ext {A} (m m' : M S A) : (forall s, m s = m' s) -> uses m' -> uses m.
  Proof. intros E H s. destruct (H s) as [p Hp]. exists p. intros b. rewrite E. apply Hp. Qed.
  Lemma uses_pure {A} (m : M S A) : (forall b s, m (put b s) = (put b (fst (m s)), snd (m s))) -> uses m.
  Proof. intros H s. exists (Done (m s)). intros b. cbn. rewrite H. reflexivity. Qed.
  Lemma uses_const {A} (x : res A) : uses (fun s => (s, x)).
  Proof. apply uses_pure. reflexivity. Qed.
  Lemma uses_after {A B} (m : M S A) (g : res A -> M S B) : uses m -> (forall x, uses (g x)) -> uses (after m g).
  Proof.
    intros Hm Hg s. destruct (Hm s) as [p Hp]. exists (pbind p (fun sx => proj1_sig (Hg (snd sx) (fst sx)))).
    intros b. unfold after. rewrite Hp, run_pbind. apply (proj2_sig (Hg _ _)).
  Qed.
  Lemma uses_bind {A B} (m : M S A) (f : A -> M S B) : uses m -> (forall a, uses (f a)) -> uses (bind m f).
  Proof.
    intros Hm Hf. apply (uses_ext _ (after m (fun x => match x with Ok a => f a | Err e => fail e | Panic p => throw p | NoFuel => lift_res NoFuel end))).
    - intros s. unfold bind, after. destruct (m s) as [s' [a|e|p|]]; reflexivity.
    - apply uses_after; [exact Hm|]. intros [a|e|p|]; [apply Hf|apply uses_const..].
  Qed.
  Lemma uses_wrap {A} t (m : M S A) : uses m -> uses (wrap t m).
  Proof.
    intros Hm. apply (uses_ext _ (after m (fun x => match x with Ok a => ret a | Err e => fail (EWrap t e) | Panic p => throw p | NoFuel => lift_res NoFuel end))).
    - intros s. unfold wrap, after. destruct (m s) as [s' [a|e|p|]]; reflexivity.
    - apply uses_after; [exact Hm|]. intros [a|e|p|]; apply uses_const.
  Qed.
  Lemma uses_deferM {A} f (m : M S A) : uses f -> uses m -> uses (deferM f m).
  Proof.
    intros Hf Hm. apply (uses_ext _ (after m (fun x => after f (fun y => match y with Ok _ | Err _ => fun s => (s, x) | Panic p => throw p | NoFuel => lift_res NoFuel end)))).
    - intros s. unfold deferM, after. destruct (m s) as [s' x]. destruct (f s') as [s'' [a|e|p|]]; reflexivity.
    - apply uses_after; [exact Hm|]. intros x. apply uses_after; [exact Hf|]. intros [a|e|p|]; apply uses_const.
  Qed.
  Lemma uses_mapM_ {A B} (f : A -> M S B) l : (forall a, In a l -> uses (f a)) -> uses (mapM_ f l).
  Proof.
    induction l as [|a l IH]; intros H; cbn [mapM_]; [apply uses_const|].
    apply uses_bind; [apply H; now left|intros _]. apply IH. intros a' Ha. apply H. now right.
  Qed.
  Lemma uses_mapM {A B} (f : A -> M S B) l : (forall a, uses (f a)) -> uses (mapM f l).
  Proof.
    intros H. induction l as [|a l IH]; cbn [mapM]; [apply uses_const|].
    apply uses_bind; [apply H|intros b]. apply uses_bind; [exact IH|intros bs; apply uses_const].
  Qed.
  Lemma uses_replicateM {A} (m : M S A) n : uses m -> uses (replicateM n m).
  Proof.
    intros H. induction n as [|n IH]; cbn [replicateM]; [apply uses_const|].
    apply uses_bind; [exact H|intros b]. apply uses_bind; [exact IH|intros bs; apply uses_const].
  Qed.
  Lemma uses_iter n (m : M S unit) : uses m -> uses (iter_Z n m).
  Proof.
    intros H. destruct n as [|p|p]; cbn [iter_Z]; try apply uses_const.
    induction p as [p IH|p IH|]; cbn [iter_pos]; [apply uses_bind; [exact H|intros _]|..]; try exact H; (apply uses_bind; [exact IH|intros _; exact IH]).
  Qed.
End Uses.

(** ** The reader itself *)
Definition put_r (b : bitreader) (_ : reader) : reader := RBit b.
Lemma uses_call {A} q (f : A -> answer) (un : answer -> option A) mb mj : (forall a, un (f a) = Some a) ->
  (forall b, bit_ask q b = get f mb b) -> uses put_r (on_reader mb mj).
Proof.
  intros Hu Hq s. exists (Ask q (fun r => Done (s, match r with Ok x => match un x with Some a => Ok a | None => NoFuel end | Err e => Err e | Panic p => Panic p | NoFuel => NoFuel end))).
  intros b. cbn [run]. rewrite Hq. unfold get, bind, on_reader, put_r. destruct (mb b) as [b' [a|e|p|]]; cbn; rewrite ?Hu; reflexivity.
Qed.
Definition un_int (a : answer) := match a with AInt x => Some x | _ => None end.
Definition un_float (a : answer) := match a with AFloat x => Some x | _ => None end.
Definition un_bool (a : answer) := match a with ABool x => Some x | _ => None end.
Definition un_bytes (a : answer) := match a with ABytes x => Some x | _ => None end.
Definition un_binary (a : answer) := match a with ABinary x => Some x | _ => None end.
Lemma u_Number n : uses put_r (r_ReadNumber n). Proof. apply (uses_call (QNumber n) AFloat un_float); reflexivity. Qed.
Lemma u_Uint pl n : uses put_r (r_ReadUint pl n). Proof. apply (uses_call (QUint n) AInt un_int); reflexivity. Qed.
Lemma u_Int pl n : uses put_r (r_ReadInt pl n). Proof. apply (uses_call (QInt n) AInt un_int); reflexivity. Qed.
Lemma u_Bool : uses put_r r_ReadBool. Proof. apply (uses_call QBool ABool un_bool); reflexivity. Qed.
Lemma u_Bytes n : uses put_r (r_ReadBytes n). Proof. apply (uses_call (QBytes n) ABytes un_bytes); reflexivity. Qed.
Lemma u_Binary n : uses put_r (r_ReadBinary n). Proof. apply (uses_call (QBinary n) ABinary un_binary); reflexivity. Qed.
Lemma u_Float32 n : uses put_r (r_ReadFloat32 n). Proof. apply (uses_call QFloat32 AFloat un_float); reflexivity. Qed.
Lemma u_PeekUint pl k n : uses put_r (r_PeekUint pl k n). Proof. apply (uses_call (QPeekUint k n) AInt un_int); reflexivity. Qed.
Lemma u_PeekBytes k n : uses put_r (r_PeekBytes k n). Proof. apply (uses_call (QPeekBytes k n) ABytes un_bytes); reflexivity. Qed.

Lemma uses_zoom {S A} (put : bitreader -> S -> S) getr setr (m : M reader A) :
  (forall b s, getr (put b s) = RBit b) -> (forall b b' s, setr (RBit b') (put b s) = put b' s) -> uses put_r m -> uses put (zoom getr setr m).
Proof.
  intros H1 H2 Hm s. destruct (Hm (getr s)) as [p Hp]. exists (pbind p (fun sx => Done (s, snd sx))). intros b. unfold zoom. rewrite H1, run_pbind. cbn [run fst snd].
  change (RBit b) with (put_r b (getr s)). rewrite Hp. unfold put_r. rewrite H2. reflexivity.
Qed.

Create HintDb uses discriminated.
#[global] Hint Resolve u_Number u_Uint u_Int u_Bool u_Bytes u_Binary u_Float32 u_PeekUint u_PeekBytes : uses.
Ltac pure_step := apply uses_pure; let b := fresh "b" in let s := fresh "s" in intros b s; destruct s; reflexivity.
Ltac ustep :=
  cbv zeta;
  lazymatch goal with
  | |- uses _ (bind _ _) => apply uses_bind; [|intros ?]
  | |- uses _ (wrap _ _) => apply uses_wrap
  | |- uses _ (deferM _ _) => apply uses_deferM
  | |- uses _ (mapM_ _ _) => apply uses_mapM_; intros ? ?
  | |- uses _ (mapM _ _) => apply uses_mapM; intros ?
  | |- uses _ (replicateM _ _) => apply uses_replicateM
  | |- uses _ (iter_Z _ _) => apply uses_iter
  | |- uses _ (ret _) => apply uses_const
  | |- uses _ (fail _) => apply uses_const
  | |- uses _ (throw _) => apply uses_const
  | |- uses _ (lift_res _) => apply uses_const
  | |- uses _ (match ?x with _ => _ end) => destruct x
  | |- uses _ (modify _) => pure_step
  | |- uses _ (gets _) => pure_step
  | |- _ => solve [auto with uses]
  end.
Ltac usolve := repeat ustep.

(** ** The unpackers *)
Lemma u_uncompressed pl info : uses put_r (uncompressed_Unpack pl info). Proof. unfold uncompressed_Unpack. usolve. Qed.
Lemma u_json pl info : uses put_r (json_Unpack pl info). Proof. unfold json_Unpack. usolve. Qed.
Lemma u_compressed pl fuel n info : uses put_r (compressed_Unpack pl fuel n info).
Proof. unfold compressed_Unpack, c_unpackString, c_unpackCode, c_unpackOthers, make_values, readNbitsDiff. usolve. Qed.
#[global] Hint Resolve u_uncompressed u_json u_compressed : uses.

(** ** The payload visitor *)
Definition put_v (b : bitreader) (s : vst) : vst := set_r (RBit b) s.
Ltac pure_v := apply uses_pure; let b := fresh "b" in let s := fresh "s" in intros b s; destruct s as [? ? ? ? ? ?]; cbn;
  repeat match goal with |- context [match ?x with _ => _ end] => destruct x; cbn end; reflexivity.
Notation usesv := (uses put_v).
Lemma u_AddMember i m : usesv (AddMember i m). Proof. unfold AddMember. usolve. Qed.
Lemma u_alloc k : usesv (alloc k). Proof. unfold alloc. pure_v. Qed.
Lemma u_Len : usesv Len. Proof. unfold Len. pure_v. Qed.
Lemma u_CellAt i : usesv (CellAt i). Proof. unfold CellAt. pure_v. Qed.
Lemma u_LastEq : usesv LastCellEquality. Proof. unfold LastCellEquality. pure_v. Qed.
Lemma u_Pop : usesv tree_Pop. Proof. unfold tree_Pop. pure_v. Qed.
Lemma u_Root : usesv tree_Root. Proof. unfold tree_Root. pure_v. Qed.
Lemma u_Next : usesv NextTargetNode. Proof. unfold NextTargetNode. pure_v. Qed.
Lemma u_aPop : usesv assoc_Pop.
Proof. apply uses_pure. intros b s. unfold assoc_Pop. change (v_regs (put_v b s)) with (v_regs s). destruct (g_assoc (v_regs s)); reflexivity. Qed.
Lemma u_reset cf : usesv (reset cf). Proof. unfold reset. pure_v. Qed.
#[global] Hint Resolve u_AddMember u_alloc u_Len u_CellAt u_LastEq u_Pop u_Root u_Next u_aPop u_reset : uses.
Lemma u_Add i : usesv (tree_Add i). Proof. unfold tree_Add. usolve. Qed.
Lemma u_Push i : usesv (tree_Push i). Proof. unfold tree_Push. usolve. Qed.
#[global] Hint Resolve u_Add u_Push : uses.
Lemma u_valueless d : usesv (add_valueless d). Proof. unfold add_valueless. usolve. Qed.
Lemma u_valued d i u : usesv (add_valued d i u). Proof. unfold add_valued. usolve. Qed.
Lemma u_upd f : usesv (upd_regs f). Proof. unfold upd_regs. usolve. Qed.
Lemma u_NewA : usesv NewAssessment. Proof. unfold NewAssessment. usolve. Qed.
Lemma u_NewB r : usesv (NewBitmap r). Proof. unfold NewBitmap. usolve. Qed.
Lemma u_EndB : usesv EndBitmap. Proof. unfold EndBitmap. usolve. Qed.
Lemma u_Recall : usesv RecallBitmap. Proof. unfold RecallBitmap. usolve. Qed.
Lemma u_CancelB : usesv CancelBitmap. Proof. unfold CancelBitmap. usolve. Qed.
#[global] Hint Resolve u_valueless u_valued u_upd u_NewA u_NewB u_EndB u_Recall u_CancelB : uses.
Lemma u_CancelR : usesv CancelBackref. Proof. unfold CancelBackref. usolve. Qed.
Lemma u_Bits pl : usesv (Bits pl). Proof. unfold Bits. usolve. Qed.
#[global] Hint Resolve u_CancelR u_Bits : uses.
Lemma u_Init pl : usesv (InitTargetNodes pl). Proof. unfold InitTargetNodes. usolve. Qed.
Lemma u_need d : usesv (need d). Proof. unfold need. usolve. Qed.
Lemma u_Unpack cf i : usesv (Unpack cf i).
Proof. unfold Unpack. apply uses_zoom; [reflexivity|reflexivity|]. usolve. Qed.
#[global] Hint Resolve u_Init u_need u_Unpack : uses.
Lemma u_calc d : usesv (calcPackingInfo d). Proof. unfold calcPackingInfo. usolve. Qed.
Lemma u_build cf d i : usesv (buildValuedNodeWithInfo cf d i). Proof. unfold buildValuedNodeWithInfo. usolve. Qed.
#[global] Hint Resolve u_calc u_build : uses.
Lemma u_buildv cf d : usesv (buildValuedNode cf d). Proof. unfold buildValuedNode. usolve. Qed.
Lemma u_zero cf d : usesv (buildZeroNode cf d).
Proof.
  unfold buildZeroNode. destruct (cf_compatible cf); [|exact (u_valueless d)].
  set (m := (dd <- need d ;; buildValuedNodeWithInfo cf dd (plain_info NONNEG_CODE 0))%M).
  apply (uses_ext _ _ (after m (fun x => match x with Ok _ | Err _ => ret tt | Panic p => throw p | NoFuel => lift_res NoFuel end))).
  - intros s. unfold after. destruct (m s) as [s' [a|e|p|]]; reflexivity.
  - apply uses_after; [subst m; usolve|]. intros [a|e|p|]; apply uses_const.
Qed.
Lemma u_assoc cf d : usesv (buildAssocNodes cf d). Proof. unfold buildAssocNodes. usolve. Qed.
#[global] Hint Resolve u_buildv u_zero u_assoc : uses.
Lemma u_aPush n : usesv (assoc_Push n). Proof. unfold assoc_Push. usolve. Qed.
Lemma u_aSet n : usesv (assoc_SetNode n). Proof. unfold assoc_SetNode. usolve. Qed.
#[global] Hint Resolve u_aPush u_aSet : uses.
Lemma u_element cf np d : usesv (visit_element cf np d). Proof. unfold visit_element. usolve. Qed.
Lemma u_031021 cf d : usesv (visit_031021 cf d). Proof. unfold visit_031021. usolve. Qed.
Lemma u_refval cf i m : usesv (visit_refval_member cf i m). Proof. unfold visit_refval_member. usolve. Qed.
Lemma u_marker cf d : usesv (visit_marker cf d). Proof. unfold visit_marker. usolve. Qed.
Lemma u_since a : usesv (nodes_since a). Proof. unfold nodes_since. usolve. Qed.
Lemma u_attach t a : forall sn i, usesv (attach i t sn a).
Proof. induction sn as [|x sn IH]; intros i; cbn [attach]; usolve. Qed.
#[global] Hint Resolve u_element u_031021 u_refval u_marker u_since u_attach : uses.

Fixpoint asize (n : anode) : nat :=
  match n with
  | ANode _ _ ms b ats =>
      S (list_sum (map asize ms) + match b with Some x => asize x | None => 0 end + list_sum (map asize ats))
  end.
Lemma asize_in a l : In a l -> (asize a <= list_sum (map asize l))%nat.
Proof. induction l as [|x l IH]; intros H; [destruct H|]. destruct H as [->|H]; cbn; [lia|]. specialize (IH H). unfold list_sum in IH. lia. Qed.
Lemma u_visit cf : forall k n, (asize n < k)%nat -> usesv (visit cf n).
Proof.
  induction k as [|k IH]; intros n Hk; [lia|]. destruct n as [kd od ms b ats]. cbn [asize] in Hk.
  assert (Hm : forall a, In a ms -> usesv (visit cf a)) by (intros a Ha; apply IH; pose proof (asize_in a ms Ha); lia).
  assert (Ha : forall a, In a ats -> usesv (visit cf a)) by (intros a Hi; apply IH; pose proof (asize_in a ats Hi); lia).
  assert (Hb : forall a, b = Some a -> usesv (visit cf a)) by (intros a ->; apply IH; lia).
  destruct kd; cbn [visit]; cbv zeta; usolve; auto using in_eq, in_cons.
Qed.
#[global] Hint Extern 2 (uses put_v (visit _ ?n)) => apply (u_visit _ (S (asize n)) n); lia : uses.
Lemma u_Produce : usesv Produce. Proof. unfold Produce. usolve. Qed.
#[global] Hint Resolve u_Produce : uses.
Lemma u_payload cf t : usesv (run_payload cf t). Proof. unfold run_payload. usolve. Qed.

(** ** The factory and the scripts *)
Definition put_f (b : bitreader) (s : fac) : fac := set_fr (RBit b) s.
Notation usesf := (uses put_f).
Lemma u_onr {A} (m : M reader A) : uses put_r m -> usesf (onr m).
Proof. intros H. apply uses_zoom; [reflexivity|reflexivity|exact H]. Qed.
Lemma u_pos : usesf (gets (fun s => r_Pos (fa_r s))).
Proof.
  intros s. exists (Ask QPos (fun r => Done (s, match r with Ok (AInt x) => Ok x | _ => NoFuel end))). intros b. reflexivity.
Qed.
Lemma u_get_msg : usesf get_msg.
Proof. apply uses_pure. intros b s. unfold get_msg. change (fa_msg (put_f b s)) with (fa_msg s). destruct (fa_msg s); reflexivity. Qed.
#[global] Hint Resolve u_onr u_pos u_get_msg : uses.
#[global] Hint Extern 1 (uses put_f (gets _)) => apply u_pos : uses.
Ltac fstep :=
  lazymatch goal with
  | |- uses _ (gets (fun s => r_Pos (fa_r s))) => apply u_pos
  | |- uses _ (onr _) => apply u_onr; auto with uses
  | |- _ => ustep
  end.
Ltac fsolve := repeat (cbv zeta; fstep).
Lemma u_lua {A} (m : M fac A) : usesf m -> usesf (lua_call m).
Proof.
  intros Hm. apply (uses_ext _ _ (after m (fun x => match x with Ok a => ret a | Err e => fail (EMsg "lua runtime error") | Panic p => throw p | NoFuel => lift_res NoFuel end))).
  - intros s. unfold lua_call, after. destruct (m s) as [s' [a|e|p|]]; reflexivity.
  - apply uses_after; [exact Hm|]. intros [a|e|p|]; apply uses_const.
Qed.
Lemma u_section : usesf get_section. Proof. unfold get_section. fsolve. Qed.
Lemma u_upd_section f : usesf (upd_section f). Proof. unfold upd_section. fsolve. Qed.
#[global] Hint Resolve u_section u_upd_section : uses.
Lemma u_AddField f : usesf (AddField f). Proof. unfold AddField. fsolve. Qed.
Lemma u_set_proxy f : usesf (set_proxy f). Proof. unfold set_proxy. fsolve. Qed.
Lemma u_NewMessage : usesf NewMessage. Proof. unfold NewMessage. fsolve. Qed.
Lemma u_NewSection n d : usesf (NewSection n d). Proof. unfold NewSection. fsolve. Qed.
#[global] Hint Resolve u_AddField u_set_proxy u_NewMessage u_NewSection : uses.
Lemma u_InitTable fc m c s w l : usesf (InitTableGroup fc m c s w l).
Proof. apply uses_pure. intros b st. unfold InitTableGroup. destruct (AddLocalAndWmoTableGroups _ _ _ _ _ _ _) as [g [a|e|p|]]; reflexivity. Qed.
Lemma u_NewField fc name dt n p : usesf (NewField fc name dt n p). Proof. unfold NewField. fsolve. Qed.
Lemma u_read_id fc a b c : usesf (read_id fc a b c). Proof. unfold read_id. fsolve. Qed.
#[global] Hint Resolve u_InitTable u_NewField u_read_id : uses.
Lemma u_TemplateField fc n a b c l : usesf (NewTemplateField fc n a b c l). Proof. unfold NewTemplateField. fsolve. Qed.
Lemma u_Padding l : usesf (Padding l). Proof. unfold Padding. fsolve. Qed.
(** run_payload on the factory's reader: the values, the position and the outcome *)
Definition payload_part cf tree : M fac (list subset * Z * res unit) := fun s =>
  let '(vs, x) := run_payload cf tree (vst0 (fa_r s)) in (set_fr (v_r vs) s, Ok (v_pay vs, r_Pos (v_r vs), x)).
Lemma u_part cf tree : usesf (payload_part cf tree).
Proof.
  intros s. destruct (u_payload cf tree (vst0 (fa_r s))) as [p Hp].
  exists (pbind p (fun sx => Ask QPos (fun r => Done (s, match r with Ok (AInt z) => Ok (v_pay (fst sx), z, snd sx) | _ => NoFuel end)))).
  intros b. unfold payload_part. change (vst0 (fa_r (put_f b s))) with (put_v b (vst0 (fa_r s))). rewrite Hp, run_pbind. reflexivity.
Qed.
Lemma u_PayloadField fc name n c : usesf (NewPayloadField fc name n c).
Proof.
  unfold NewPayloadField. apply uses_bind; [apply u_pos|intros spos]. apply uses_bind; [pure_step|intros g]. apply uses_bind; [pure_step|intros ut].
  destruct g as [g|]; [|apply uses_const]. destruct ut as [ids|]; [|apply uses_const].
  apply uses_bind; [apply uses_wrap, uses_const|intros tree].
  set (cf := mkConfig _ _ _ _ _ _).
  apply (uses_ext _ _ (bind (payload_part cf tree) (fun '(pay, pos, x) =>
    (lift_res x ;; let f := mkField name (FPayload c pay) (pos - spos) false in AddField f ;; set_proxy f ;; ret f)%M))).
  - intros s. unfold payload_part, gets, bind, modify, lift_res. destruct (run_payload cf tree (vst0 (fa_r s))) as [vs x]. reflexivity.
  - apply uses_bind; [apply u_part|intros [[pay pos] x]]. fsolve.
Qed.
Lemma u_Seek k : usesf (SeekStartSignature k).
Proof.
  induction k as [|k IH]; cbn [SeekStartSignature]; [apply uses_const|]. apply uses_bind; [apply u_onr; auto with uses|intros bs].
  destruct (length bs <? 4)%nat; [apply uses_const|]. destruct (gs_eqb bs BUFR); [apply uses_const|].
  apply (uses_ext _ _ (after (onr (r_ReadBytes 1)) (fun x => match x with Ok _ | Err _ => SeekStartSignature k | Panic p => throw p | NoFuel => lift_res NoFuel end))).
  - intros s. unfold after. destruct (onr (r_ReadBytes 1) s) as [s' [a|e|p|]]; reflexivity.
  - apply uses_after; [apply u_onr; auto with uses|]. intros [a|e|p|]; try exact IH; apply uses_const.
Qed.
Lemma u_number f : usesf (field_number f). Proof. unfold field_number. fsolve. Qed.
Lemma u_bool f : usesf (field_bool f). Proof. unfold field_bool. fsolve. Qed.
Lemma u_proxy n : usesf (proxy_field n). Proof. unfold proxy_field. apply u_lua. fsolve. Qed.
#[global] Hint Resolve u_TemplateField u_Padding u_PayloadField u_Seek u_number u_bool u_proxy u_lua : uses.
Lemma u_pnumber n : usesf (proxy_number n). Proof. unfold proxy_number. fsolve. Qed.
Lemma u_pbool n : usesf (proxy_bool n). Proof. unfold proxy_bool. fsolve. Qed.
Lemma u_newField fc n t k p : usesf (newField fc n t k p). Proof. unfold newField. apply u_lua, u_NewField. Qed.
#[global] Hint Resolve u_pnumber u_pbool u_newField : uses.
Lemma u_newField_ fc n t k p : usesf (newField_ fc n t k p). Proof. unfold newField_. fsolve. Qed.
#[global] Hint Resolve u_newField_ : uses.
Lemma u_peek_ed fc : usesf (PeekEditionNumber fc). Proof. unfold PeekEditionNumber. fsolve. Qed.
#[global] Hint Resolve u_peek_ed : uses.
Lemma u_Run fc : usesf (Run fc).
Proof. unfold Run, boot, deserialise, section0, section1_4, section1_3, section2, section3, section4, section5. fsolve. Qed.

Lemma u_repeated {A} (m : M fac A) n : usesf m -> usesf (fun s => let '(s', xs) := repeated m n s in (s', Ok xs)).
Proof.
  intros H. induction n as [|n IH]; [apply uses_const|].
  apply (uses_ext _ _ (after m (fun x => after (fun s => let '(s', xs) := repeated m n s in (s', Ok xs))
    (fun r => match r with Ok xs => ret (x :: xs) | Err e => fail e | Panic p => throw p | NoFuel => lift_res NoFuel end)))).
  - intros s. unfold after. cbn [repeated]. destruct (m s) as [s1 x]. destruct (repeated m n s1) as [s2 xs]. reflexivity.
  - apply uses_after; [exact H|intros x]. apply uses_after; [exact IH|]. intros [xs|e|p|]; apply uses_const.
Qed.
Lemma run_bits pl {A} (p : prog A) : forall b, run (ask pl) p (RBit b) = (RBit (fst (run bit_ask p b)), snd (run bit_ask p b)).
Proof. induction p as [x|q k IH]; intros b; cbn [run]; [reflexivity|]. rewrite ask_bit. destruct (bit_ask q b) as [b' x]. apply IH. Qed.
Lemma Run_program pl fc n : exists p : prog (list (res message)), forall b,
  run (ask pl) p (RBit b) = (fa_r (fst (repeated (Run fc) n (NewDefaultFactory (RBit b)))), snd (repeated (Run fc) n (NewDefaultFactory (RBit b)))).
Proof.
  destruct (u_repeated (Run fc) n (u_Run fc) (NewDefaultFactory (RBit (mkBR [] EEof 0)))) as [p Hp].
  exists (pbind p (fun sx => Done (match snd sx with Ok xs => xs | _ => [] end))). intros b. rewrite run_bits, run_pbind. cbn [run fst snd].
  specialize (Hp b). change (put_f b (NewDefaultFactory (RBit (mkBR [] EEof 0)))) with (NewDefaultFactory (RBit b)) in Hp.
  destruct (repeated (Run fc) n (NewDefaultFactory (RBit b))) as [s' xs]. injection Hp as -> <-. reflexivity.
Qed.
