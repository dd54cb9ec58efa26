(** How decoding a message can end: tables, payload, whole messages. *)
From Coq Require Import ZifyBool ZifyNat.
From Verif Require Export ProofsRobust2.
From Verif Require Import ProofsBase ProofsMsg1 ProofsMsg2 ProofsMsg3 ProofsMsg5 ProofsSafe ProofsSafe2 ProofsParser ProofsParser5 ProofsShipped3 ProofsRobust ProofsCrash PropsSafe.
From Verif Require Import SpecMessage.
Notation field := ModelFactory.field.

(** ** Tables *)
Definition ready (s : fac) : Prop := exists p prox n c ids l, (counted prox n c /\ acyclic (GChain l) /\ loaded_tables (GChain l)) /\ out_ p prox (Some ids) (Some (GChain l)) s.
Lemma t_proxy {A} (P : fac -> Prop) nm (h : field -> M fac A) : (forall s, P s -> exists m, fa_msg s = Some m) -> (forall f, triple P (h f) (fun _ => P)) ->
  triple P (bind (proxy_field nm) h) (fun _ => P).
Proof.
  intros HP Hh. eapply t_bind; [|exact Hh]. apply t_lua. intros s Hs Hr. destruct (HP s Hs) as [m Hm]. unfold bind, get_msg, lift_res, ProxyField. rewrite Hm.
  destruct (proxy_get _ _); [now apply good_ok|now apply good_err].
Qed.
Lemma t_proxy_number (P : fac -> Prop) nm : (forall s, P s -> exists m, fa_msg s = Some m) -> triple P (proxy_number nm) (fun _ => P).
Proof. intros HP. apply t_proxy; [exact HP|]. intros f. unfold field_number. destruct (f_value f); first [apply t_fail|apply t_ret; auto]. Qed.
Lemma t_proxy_bool (P : fac -> Prop) nm : (forall s, P s -> exists m, fa_msg s = Some m) -> triple P (proxy_bool nm) (fun _ => P).
Proof. intros HP. apply t_proxy; [exact HP|]. intros f. unfold field_bool. destruct (f_value f); first [apply t_fail|apply t_ret; auto]. Qed.
Lemma described_msg g s : described g s -> exists m, fa_msg s = Some m.
Proof. intros (p & prox & n & c & ids & _ & l & e & m & -> & _). cbn. eauto. Qed.
Lemma aligned_msg ut g s : aligned ut g s -> exists m, fa_msg s = Some m.
Proof. intros (p & prox & l & e & m & -> & _). cbn. eauto. Qed.
Lemma t_init fc g a b c d e : usable (fc_fs fc) -> triple (described g) (lua_call (InitTableGroup fc a b c d e)) (fun _ => ready).
Proof.
  intros HU. apply t_lua. intros s (p & prox & n & cc & ids & HC & l & er & m & -> & Hm) Hr. unfold InitTableGroup. specialize (HU a b c d e).
  destruct (AddLocalAndWmoTableGroups _ _ _ _ _ _ _) as [gs [u|x|q|]]; try contradiction; [|now apply good_err].
  apply good_ok; [eexists; reflexivity|]. exists p, prox, n, cc, ids, gs. split; [auto|]. exists l, er, m. auto.
Qed.

(** ** Enough fuel *)
Definition ends {A} (P : fac -> Prop) (m : nat -> M fac A) (Q : A -> fac -> Prop) : Prop :=
  forall s, P s -> reading s -> exists k, forall k', (k <= k')%nat -> good Q (m k' s).
Lemma e_bind1 {A B} P (m : nat -> M fac A) m0 (f : nat -> A -> M fac B) R Q : (forall k, m k = m0) -> triple P m0 R -> (forall a, ends (R a) (fun k => f k a) Q) ->
  ends P (fun k => bind (m k) (f k)) Q.
Proof.
  intros HE HT Hf s Hs Hr. specialize (HT s Hs Hr). assert (E : forall k, bind (m k) (f k) s = bind m0 (f k) s) by (intros k; now rewrite HE). unfold bind in E.
  destruct (m0 s) as [s' [a|e|p|]]; destruct HT as [H1 H2]; cbn [fst snd] in *.
  { destruct (Hf a s' (H2 a eq_refl) (proj1 H1)) as (k & K). exists k. intros k' Hk. unfold bind. rewrite E. now apply K. }
  all: exists O; intros k' _; unfold bind; rewrite E; (split; [exact H1|discriminate]).
Qed.
Lemma e_bind2 {A B} P (m : nat -> M fac A) (f : nat -> A -> M fac B) R Q : ends P m R -> (forall k a, triple (R a) (f k a) Q) -> ends P (fun k => bind (m k) (f k)) Q.
Proof.
  intros HM Hf s Hs Hr. destruct (HM s Hs Hr) as (k & K). exists k. intros k' Hk. specialize (K k' Hk). unfold bind.
  destruct (m k' s) as [s' [a|e|p|]]; destruct K as [H1 H2]; cbn [fst snd] in *; [apply Hf; [now apply H2|apply H1]|..]; (split; [exact H1|discriminate]).
Qed.
Lemma e_post {A} P (m : nat -> M fac A) (Q Q' : A -> fac -> Prop) : ends P m Q -> (forall a s, Q a s -> Q' a s) -> ends P m Q'.
Proof. intros H HQ s Hs Hr. destruct (H s Hs Hr) as (k & K). exists k. intros k' Hk. destruct (K k' Hk). split; auto. Qed.
Lemma e_ex {A B} (P : B -> fac -> Prop) (m : nat -> M fac A) Q : (forall x, ends (P x) m Q) -> ends (fun s => exists x, P x s) m Q.
Proof. intros H s [x Hx] Hr. now apply (H x). Qed.
Lemma e_and {A} (F : Prop) (P : fac -> Prop) (m : nat -> M fac A) Q : (F -> ends P m Q) -> ends (fun s => F /\ P s) m Q.
Proof. intros H s [Hf Hx] Hr. now apply H. Qed.

(** ** The payload *)
Lemma accounted_harmful {A} (s : fac) (x : res A) b : in_breakdown x b -> reading s -> harmful_template s b -> accounted (s, x).
Proof. intros Hx Hr Hh. split; [exact Hr|]. destruct b as [q|]; cbn in Hx; subst x; cbn; auto. Qed.
Lemma lua_ends {A} P (m : nat -> M fac A) Q : ends P m Q -> ends P (fun k => lua_call (m k)) Q.
Proof. intros H s Hs Hr. destruct (H s Hs Hr) as (k & K). exists k. intros k' Hk. apply lua_good. auto. Qed.
Lemma parsed_root g k ids t : snd (Parse g k ids parser0) = Ok t -> exists ms, t = root ms /\ parsed g ids ms.
Proof.
  intros H. rewrite Parse_pt in H. destruct (pt g k ids parser0) as [f [ms|e|q|]] eqn:E; cbn in H; try discriminate. injection H as <-.
  exists ms. split; [reflexivity|]. exists k. rewrite Parse_pt, E. reflexivity.
Qed.
Lemma parsed_unique g ids a b : parsed g ids a -> parsed g ids b -> a = b.
Proof.
  intros (j & Ha) (k & Hb). rewrite Parse_pt in Ha, Hb. cbn [snd] in Ha, Hb.
  destruct (snd (pt g j ids parser0)) as [x|e|q|] eqn:Ej; try discriminate Ha. destruct (snd (pt g k ids parser0)) as [y|e|q|] eqn:Ek; try discriminate Hb.
  injection Ha as ->. injection Hb as ->. pose proof (pt_more g ids parser0 k j) as H1. pose proof (pt_more g ids parser0 j k) as H2. rewrite Nat.add_comm in H2.
  rewrite Ej in H1. rewrite Ek in H2. rewrite H1 in H2 by discriminate. specialize (H2 ltac:(discriminate)). apply (f_equal snd) in H2. rewrite Ej, Ek in H2. congruence.
Qed.
Lemma e_payload fc p sec prox ids g n c : sec_number sec = 4 -> counted prox n c -> acyclic g -> loaded_tables g -> fc_json fc = false ->
  ends (in_ p sec prox (Some ids) (Some g)) (fun k => NewPayloadField (with_fuel k fc) "payload" n c)
    (fun _ s => exists p' f prox', in_ p' (with_fields sec [f]) prox' (Some ids) (Some g) s).
Proof.
  intros H4 HC HA HL HJ s (l & e & done & ->) Hr. destruct (Parse_returns g HA ids parser0) as (k & [f0 v] & Hv & K). exists k. intros k' Hk.
  pose proof HC as [Hn0 _].
  assert (HX : forall l' e' p' b, ~ harmless g ids n c b -> harmful_template (st l' e' p' done sec prox (Some ids) (Some g)) b).
  { intros l' e' p' b HN. destruct HC as (_ & fn & fb & H1 & H2 & H3 & H5). exists sec, g, ids, n, c. split; [eexists; split; reflexivity|]. split; [exact H4|]. split; [reflexivity|]. split; [reflexivity|].
    split; [|split; [|exact HN]]; (eexists; eexists; split; [reflexivity|]; split; [unfold ProxyField; cbn [msg_proxy]; first [rewrite H1|rewrite H3]; reflexivity|assumption]). }
  unfold NewPayloadField, bind at 1 2 3, gets. unfold st at 1 2 3 4. cbn [fa_group fa_ut fa_r r_Pos br_pos].
  unfold bind at 1. unfold wrap, lift_res at 1. cbn [with_fuel fc_fuel]. rewrite (K k' Hk). cbn [snd].
  destruct v as [tree|er|q|]; [|now apply good_err| |now elim Hv].
  2: { split; [|discriminate]. apply (accounted_harmful _ _ (Crash q)); [reflexivity|exact Hr|]. apply HX. intros [HQ _].
       assert (EP : snd (Parse g k' ids parser0) = Panic q) by now rewrite (K k' Hk). pose proof (Parse_index g k' ids parser0 q EP) as ->.
       exact (Parse_calm g k' ids parser0 PIndex (HQ eq_refl) EP). }
  unfold bind at 1. unfold st at 1 2. cbn [fa_r]. cbn [with_fuel fc_json fc_compatible fc_plat fc_fuel]. rewrite HJ.
  set (cf := mkConfig _ _ _ _ _ _). destruct (run_payload cf tree (vst0 (RBit (mkBR l e p)))) as [vs x] eqn:ER.
  assert (VS : vsteady (run_payload cf tree)) by (apply vs_run_payload; reflexivity).
  destruct (VS (vst0 (RBit (mkBR l e p))) l e p vs x eq_refl ER) as (pay & rest & moved & -> & Hrd & _).
  unfold bind, modify, lift_res. rewrite Hrd. change (set_fr (RBit (mkBR rest e (p + moved))) (st (pay ++ rest) e p done sec prox (Some ids) (Some g))) with (st rest e (p + moved) done sec prox (Some ids) (Some g)).
  destruct x as [u|er|q|].
  - cbn. apply good_ok; [eexists; reflexivity|]. do 6 eexists. reflexivity.
  - apply good_err. eexists; reflexivity.
  - split; [|discriminate]. apply (accounted_harmful _ _ (Crash q)); [reflexivity|eexists; reflexivity|]. apply HX. intros [_ HP].
    destruct (parsed_root g k' ids tree) as (ms & -> & Hms); [rewrite (K k' Hk); reflexivity|].
    apply (breakdown_reason cf g ids ms (vst0 (RBit (mkBR (pay ++ rest) e p))) (Crash q) eq_refl (fun _ => Hn0) HL Hms); [cbn; eauto|exact (HP ms Hms)|]. rewrite ER. reflexivity.
  - split; [|discriminate]. apply (accounted_harmful _ _ Endless); [reflexivity|eexists; reflexivity|]. apply HX. intros [_ HP].
    destruct (parsed_root g k' ids tree) as (ms & -> & Hms); [rewrite (K k' Hk); reflexivity|].
    apply (breakdown_reason cf g ids ms (vst0 (RBit (mkBR (pay ++ rest) e p))) Endless eq_refl (fun _ => Hn0) HL Hms); [cbn; eauto|exact (HP ms Hms)|]. rewrite ER. reflexivity.
Qed.

(** ** The message *)
Lemma t_registered {A} p sec prox ut g nm f (h : field -> M fac A) Q : proxy_get nm prox = Some f ->
  triple (in_ p sec prox ut g) (h f) Q -> triple (in_ p sec prox ut g) (bind (proxy_field nm) h) Q.
Proof.
  intros HF Hh s Hs Hr. specialize (Hh s Hs Hr). destruct Hs as (l & e & done & ->). unfold proxy_field, lua_call, bind, get_msg, lift_res, ProxyField, st in *. cbn [fa_msg msg_proxy] in *. rewrite HF. exact Hh.
Qed.
Lemma e_of {A} P (m : nat -> M fac A) Q : (forall k, triple P (m k) Q) -> ends P m Q.
Proof. intros H s Hs Hr. exists O. intros k _. now apply H. Qed.
Lemma proxies_nc {A} p sec prox ut g n c (m : nat -> Z -> bool -> M fac A) Q : counted prox n c -> ends (in_ p sec prox ut g) (fun k => m k n c) Q ->
  ends (in_ p sec prox ut g) (fun k => n <- proxy_number "nSubsets" ;; c <- proxy_bool "isCompressed" ;; m k n c)%M Q.
Proof.
  intros (_ & fn & fb & H1 & H2 & H3 & H4) K s Hs Hr. destruct (K s Hs Hr) as (k & K'). exists k. intros k' Hk. specialize (K' k' Hk). destruct Hs as (l & e & done & ->).
  unfold proxy_number, proxy_bool, proxy_field, lua_call, bind, get_msg, lift_res, ProxyField, st in *. cbn [fa_msg msg_proxy] in *. rewrite H1. unfold field_number. rewrite H2. cbn [ret fa_msg msg_proxy]. rewrite H3. unfold field_bool. rewrite H4. exact K'.
Qed.
Lemma e_section4 fc : fc_json fc = false -> ends ready (fun k => section4 (with_fuel k fc)) (fun _ s => exists p prox ut g, out_ p prox ut g s).
Proof.
  intros HJ. unfold ready. do 6 (apply e_ex; intros ?). apply e_and. intros (HC & HA & HL). unfold section4.
  eapply e_bind1; [reflexivity|apply t_NewSection|]. intros ?.
  eapply e_bind1 with (m0 := newField fc "lengthInBytes" "UINT" 24 false); [reflexivity|apply t_field; cbn; lia|]. intros len. apply e_and. intros TL.
  eapply e_bind1 with (m0 := newField_ fc "reservedBits" "BIN" 8 false); [reflexivity|apply t_field_; cbn; lia|]. intros ?. apply e_ex. intros f. apply e_and. intros _.
  cbv iota. apply proxies_nc with (n := x1) (c := x2); [exact HC|].
  eapply e_bind2.
  - apply lua_ends. apply e_payload; [reflexivity|exact HC|exact HA|exact HL|exact HJ].
  - intros k f'. do 3 (apply t_ex; intros ?). eapply t_number; [exact TL|]. intros u _. eapply t_post; [apply t_padding; cbn; tauto|]. intros ? s H. do 4 eexists. exact H.
Qed.
Lemma t_section5 fc : triple (fun s => exists p prox ut g, out_ p prox ut g s) (section5 fc) (fun _ s => exists m, fa_msg s = Some m).
Proof.
  do 4 (apply t_ex; intros ?). unfold section5. eapply t_bind; [apply t_NewSection|]. intros ?. eapply t_post; [apply t_field_; cbn; split; [lia|reflexivity]|].
  intros ? s (f & _ & l & e & d & ->). cbn. eauto.
Qed.
Lemma e_deserialise fc (section1 : fconfig -> M fac unit) : usable (fc_fs fc) -> fc_json fc = false ->
  (forall k, section1 (with_fuel k fc) = section1 fc) -> (forall ut g, triple (anywhere ut g) (section1 fc) (fun _ => aligned ut g)) ->
  ends (fun _ => True) (fun k => deserialise (with_fuel k fc) (section1 (with_fuel k fc))) (fun _ s => exists m, fa_msg s = Some m).
Proof.
  intros HU HJ H1 T1. intros s _ Hr. cut (ends (fun s' => fa_ut s' = fa_ut s /\ fa_group s' = fa_group s) (fun k => deserialise (with_fuel k fc) (section1 (with_fuel k fc))) (fun _ s => exists m, fa_msg s = Some m)).
  { intros H. apply H; auto. }
  generalize (fa_ut s) (fa_group s). intros ut g. clear s Hr. unfold deserialise.
  eapply e_bind1; [reflexivity|apply t_NewMessage|]. intros ?.
  eapply e_bind1 with (m0 := section0 fc); [reflexivity|apply t_section0|]. intros ?.
  eapply e_bind1 with (m0 := section1 fc); [exact H1|apply T1|]. intros ?.
  eapply e_bind1; [reflexivity|apply t_proxy_bool, aligned_msg|]. intros s2.
  eapply e_bind1 with (m0 := if s2 then section2 fc else ret tt) (R := fun _ => aligned ut g); [destruct s2; reflexivity|destruct s2; [apply t_section2|apply t_ret; auto]|]. intros ?.
  eapply e_bind1 with (m0 := section3 fc); [reflexivity|apply t_section3|]. intros ?.
  do 5 (eapply e_bind1; [reflexivity|apply t_proxy_number, described_msg|]; intros ?).
  eapply e_bind1; [|apply (t_init fc); exact HU|]; [reflexivity|]. intros ?.
  eapply e_bind2; [apply e_section4, HJ|]. intros k ?. apply t_section5.
Qed.
Lemma peek_any {A} (m : M reader A) s : (exists b x, fa_r s = RBit b /\ m (RBit b) = (RBit b, x) /\ match x with Ok _ | Err _ => True | _ => False end) ->
  good (fun _ s' => s' = s) (onr m s).
Proof.
  intros (b & x & H1 & H2 & H3). unfold onr, zoom. rewrite H1, H2. assert (E : set_fr (RBit b) s = s) by (destruct s; cbn in *; now rewrite H1). rewrite E.
  destruct x; try contradiction; [apply good_ok|apply good_err]; try reflexivity; eexists; exact H1.
Qed.
Lemma peek_ok skip n b : 0 <= skip -> 0 <= n -> match pbr_peek skip n b with Ok _ | Err _ => True | _ => False end.
Proof.
  intros H1 H2. unfold pbr_peek. destruct (negb _); [exact I|]. replace (skip <? 0) with false by lia. destruct (skip + n <? 0); [exact I|]. destruct (bufio_size <? skip + n); [exact I|].
  destruct (_ <? 8 * (skip + n)); [exact I|]. replace (n <? 0) with false by lia. exact I.
Qed.
Lemma t_edition fc : triple (fun _ => True) (lua_call (PeekEditionNumber fc)) (fun _ _ => True).
Proof.
  apply t_lua. intros s _ [b Hb]. eapply (proj1 (conj (fun H => H) I)). pose proof (peek_any (r_PeekUint (fc_plat fc) 7 8) s) as H. unfold PeekEditionNumber.
  assert (K : good (fun _ s' => s' = s) (onr (r_PeekUint (fc_plat fc) 7 8) s)).
  { apply H. exists b. eexists. split; [exact Hb|]. split; [reflexivity|]. unfold pbr_PeekUint. change (go_quot 8 8 + (if 0 <? go_rem 8 8 then 1 else 0)) with 1.
    pose proof (peek_ok 7 1 b ltac:(lia) ltac:(lia)) as P. destruct (pbr_peek 7 1 b) as [bits|e|q|]; try contradiction; [|exact I].
    pose proof (mv_uint 8 (mkBR bits EEof 0)) as M. destruct (br_ReadUint 8 _) as [b' [x|e|q|]]; try contradiction; exact I. }
  destruct K as [K1 _]. split; [exact K1|auto].
Qed.
Lemma e_boot fc : usable (fc_fs fc) -> fc_json fc = false -> ends (fun _ => True) (fun k => boot (with_fuel k fc)) (fun _ s => exists m, fa_msg s = Some m).
Proof.
  intros HU HJ. unfold boot. eapply e_bind1; [|apply (t_edition fc)|]; [reflexivity|]. intros ed.
  destruct (ed =? 4); [|destruct (ed =? 3)].
  - apply (e_deserialise fc section1_4 HU HJ); [reflexivity|]. intros. apply t_section1_4.
  - apply (e_deserialise fc section1_3 HU HJ); [reflexivity|]. intros. apply t_section1_3.
  - apply e_of. intros. apply t_fail.
Qed.
(** The search for the signature consumes a byte or stops. *)
Lemma seek_settles n : forall l e p m ut g, (length l <= n)%nat -> exists s x, (forall k, (S n <= k)%nat -> SeekStartSignature k (mkFac (RBit (mkBR l e p)) m ut g) = (s, x)) /\
  good (fun _ _ => True) (s, x).
Proof.
  induction n as [n IH] using lt_wf_ind. intros l e p m ut g Hl.
  assert (ST : forall k, SeekStartSignature (S k) (mkFac (RBit (mkBR l e p)) m ut g) =
    match pbr_PeekBytes 0 4 (mkBR l e p) with
    | Ok bs => if (length bs <? 4)%nat then (mkFac (RBit (mkBR l e p)) m ut g, Err EEof) else if gs_eqb bs BUFR then (mkFac (RBit (mkBR l e p)) m ut g, Ok tt)
       else match onr (r_ReadBytes 1) (mkFac (RBit (mkBR l e p)) m ut g) with
            | (s', Ok _) | (s', Err _) => SeekStartSignature k s' | (s', Panic q) => (s', Panic q) | (s', NoFuel) => (s', NoFuel) end
    | Err er => (mkFac (RBit (mkBR l e p)) m ut g, Err er) | Panic q => (mkFac (RBit (mkBR l e p)) m ut g, Panic q) | NoFuel => (mkFac (RBit (mkBR l e p)) m ut g, NoFuel) end).
  { intros k. cbn [SeekStartSignature]. unfold bind at 1. unfold onr at 1, zoom at 1. cbn [fa_r r_PeekBytes on_reader]. cbn [set_fr fa_msg fa_ut fa_group].
    destruct (pbr_PeekBytes 0 4 _) as [bs|er|q|]; try reflexivity. destruct (_ <? 4)%nat; [reflexivity|]. destruct (gs_eqb _ _); reflexivity. }
  assert (R : reading (mkFac (RBit (mkBR l e p)) m ut g)) by (eexists; reflexivity).
  destruct (pbr_PeekBytes 0 4 (mkBR l e p)) as [bs|er|q|] eqn:EP.
  - destruct (length bs <? 4)%nat; [exists (mkFac (RBit (mkBR l e p)) m ut g), (Err EEof); split; [intros [|k] Hk; [lia|apply ST]|now apply good_err]|].
    destruct (gs_eqb bs BUFR); [eexists _, (Ok tt); split; [intros [|k] Hk; [lia|apply ST]|now apply good_ok]|].
    assert (L : (8 <= length l)%nat).
    { unfold pbr_PeekBytes in EP. destruct (pbr_peek 0 4 _) as [w| | |] eqn:EW; try discriminate. unfold pbr_peek in EW. cbv zeta in EW. destruct (negb _); [discriminate|]. change (0 + 4 <? 0) with false in EW. change (0 <? 0) with false in EW. change (bufio_size <? 0 + 4) with false in EW. cbv iota in EW.
      match type of EW with (if ?c then _ else _) = _ => destruct c eqn:EC; [discriminate|] end.
      rewrite firstn_length in EC. unfold br_buffered in EC. cbn [br_bits] in EC. rewrite skipn_length in EC. lia. }
    assert (EB : exists x, onr (r_ReadBytes 1) (mkFac (RBit (mkBR l e p)) m ut g) = (mkFac (RBit (mkBR (skipn 8 l) e (p + 8))) m ut g, Ok x)).
    { do 8 (destruct l as [|? l]; [cbn in L; lia|]). eexists. reflexivity. }
    destruct EB as [x EB]. destruct (IH (n - 8)%nat ltac:(lia) (skipn 8 l) e (p + 8) m ut g) as (s' & x' & HK & HG); [rewrite skipn_length; lia|].
    exists s', x'. split; [|exact HG]. intros [|k] Hk; [lia|]. rewrite ST, EB. apply HK. lia.
  - eexists _, _. split; [intros [|k] Hk; [lia|apply ST]|now apply good_err].
  - exfalso. unfold pbr_PeekBytes in EP. pose proof (peek_ok 0 4 (mkBR l e p) ltac:(lia) ltac:(lia)) as P. destruct (pbr_peek 0 4 _) as [w|er|q'|]; try contradiction; try discriminate.
    pose proof (mv_bytes 4 ltac:(lia) (mkBR w EEof 0)) as M. destruct (br_ReadBytes 4 _) as [b' [x|er|q'|]]; try contradiction; discriminate.
  - exfalso. unfold pbr_PeekBytes in EP. pose proof (peek_ok 0 4 (mkBR l e p) ltac:(lia) ltac:(lia)) as P. destruct (pbr_peek 0 4 _) as [w|er|q'|]; try contradiction; try discriminate.
    pose proof (mv_bytes 4 ltac:(lia) (mkBR w EEof 0)) as M. destruct (br_ReadBytes 4 _) as [b' [x|er|q'|]]; try contradiction; discriminate.
Qed.
Lemma Run_outcome fc s r : usable (fc_fs fc) -> fc_json fc = false -> reads s r -> exists k, forall k', (k <= k')%nat -> accounted (Run (with_fuel k' fc) s).
Proof.
  intros HU HJ Hr. destruct s as [rd m ut g]. cbn in Hr. unfold reads in Hr. cbn in Hr. subst rd. destruct r as [l e p].
  destruct (seek_settles (length l) l e p m ut g (le_n _)) as (s' & x & HS & HG).
  destruct x as [u|er|q|].
  - destruct (e_boot fc HU HJ s' I (proj1 (proj1 HG))) as (k & HB). exists (Nat.max (S (length l)) k). intros k' Hk. unfold Run, bind. cbn [with_fuel fc_fuel]. rewrite HS by lia.
    specialize (HB k' ltac:(lia)). change (mkFconfig _ _ _ _ k') with (with_fuel k' fc). destruct (boot (with_fuel k' fc) s') as [s2 [u2|er|q|]]; destruct HB as [H1 H2]; [|exact H1..].
    destruct (H2 u2 eq_refl) as [m2 Hm]. cbn [fst] in Hm. unfold get_msg. rewrite Hm. split; [apply H1|exact I].
  - exists (S (length l)). intros k' Hk. unfold Run, bind. cbn [with_fuel fc_fuel]. rewrite HS by lia. apply HG.
  - exists (S (length l)). intros k' Hk. unfold Run, bind. cbn [with_fuel fc_fuel]. rewrite HS by lia. apply HG.
  - exists (S (length l)). intros k' Hk. unfold Run, bind. cbn [with_fuel fc_fuel]. rewrite HS by lia. apply HG.
Qed.
