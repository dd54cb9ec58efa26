(** C78: the JSON form of whole messages. *)
From Coq Require Import ZifyBool ZifyNat.
From Verif Require Import SpecMarshal ProofsBase64 ProofsTable ProofsTable2 ProofsMsg1 Demo PropsMessage.
From Verif Require Import SpecMessage.

(** ** C78 *)
(** The JSON form of a message is the array of its sections, each the array of the forms of
    its fields, in order ... *)
Theorem C78_document : forall m tss, Forall2 (fun s ts => Forall2 field_form (map f_value (sec_fields s)) ts) (msg_sections m) tss ->
  marshal_message m = Ok (json_slice (map json_slice tss)).
Proof.
  intros m tss H. unfold marshal_message.
  apply (slice_form _ (fun s t => exists ts, t = json_slice ts /\ Forall2 field_form (map f_value (sec_fields s)) ts)); [|induction H; cbn [map]; constructor; eauto].
  intros s t (ts & -> & Hs). apply (slice_form _ (fun f t => field_form (f_value f) t)); [intros f t; apply marshal_field_form|].
  revert ts Hs. induction (sec_fields s); intros ts Hs; inversion Hs; subst; constructor; eauto.
Qed.
Print Assumptions C78_document.
Example C78_document_case : exists s, map f_value (sec_fields s) = [FUint 22; FBytes BUFR; FBool true; FTemplate [301001]; FBin (Some (mkBin [5] 3))] /\
  Forall2 field_form (map f_value (sec_fields s))
    [[TNum (f64_of_Z 22)]; [TStr (gs "QlVGUg==")]; [TBool true]; [TDelim 91; TNum (f64_of_Z 301001); TDelim 93]; [TStr (gs "101")]].
Proof.
  exists (mkSection 3 "" 0 0 (map (fun v => mkField "" v 0 false) [FUint 22; FBytes BUFR; FBool true; FTemplate [301001]; FBin (Some (mkBin [5] 3))])).
  split; [reflexivity|]. constructor; [apply FoUint|]. constructor; [refine (FoBytes BUFR _); repeat constructor; unfold is_byte; lia|].
  constructor; [apply FoBool|]. constructor; [apply (FoTemplate [301001])|]. constructor; [|constructor].
  constructor. eapply (ShBits 3 [true; false; true; true] EEof 0); [cbn; lia|vm_compute; reflexivity].
Qed.
Example C78_case : exists m ts, snd (Run ex_fc (on_bytes msg4)) = Ok m /\ marshal_message m = Ok ts /\
  firstn 8 ts = [TDelim 91; TDelim 91; TStr (gs "QlVGUg=="); TNum (f64_of_Z (Z.of_nat (length msg4))); TNum (f64_of_Z 4); TDelim 93; TDelim 91; TNum (f64_of_Z 22)].
Proof. eexists _, _. split; [vm_compute; reflexivity|]. split; vm_compute; reflexivity. Qed.
(** ... and it is read back by no means: the decoder rejects the JSON form of every message
    it has decoded, since the start signature is base64 there. *)
Lemma json_rejected fc x y ts e : (2 <= fc_fuel fc)%nat -> (4 <= length x)%nat -> x <> BUFR ->
  exists s er, Run fc (NewDefaultFactory (RJson (new_jsonreader (TDelim 91 :: TDelim 91 :: TStr x :: TNum y :: ts) e))) = (s, Err er).
Proof.
  intros Hf Hl Hx. destruct (fc_fuel fc) as [|[|k]] eqn:EF; try lia.
  assert (E : gs_eqb x BUFR = false). { destruct (gs_eqb x BUFR) eqn:E; [|reflexivity]. apply gs_eqb_eq in E. contradiction. }
  unfold Run. unfold bind at 1. rewrite EF. cbn [SeekStartSignature]. unfold bind at 1.
  set (st0 := NewDefaultFactory _). set (st1 := NewDefaultFactory (RJson (mkJR (TNum y :: ts) e 0 [TStr x]))).
  set (st2 := NewDefaultFactory (RJson (mkJR (TNum y :: ts) e 8 []))). set (st3 := NewDefaultFactory (RJson (mkJR ts e 8 [TNum y]))).
  assert (E0 : onr (r_PeekBytes 0 4) st0 = (st1, Ok x)) by reflexivity. rewrite E0.
  replace (length x <? 4)%nat with false by lia. rewrite E.
  assert (E1 : onr (r_ReadBytes 1) st1 = (st2, Ok x)) by reflexivity. rewrite E1. unfold bind at 1.
  assert (E2 : exists er, onr (r_PeekBytes 0 4) st2 = (st3, Err er)) by (eexists; reflexivity). destruct E2 as (er & E2). rewrite E2. eauto.
Qed.
Lemma slice_first {A} (f : A -> res (list token)) x l ts : marshal_slice f (x :: l) = Ok ts -> exists a b, f x = Ok a /\ ts = TDelim 91 :: a ++ b.
Proof.
  unfold marshal_slice, brackets. cbn [marshal_all]. destruct (f x) as [a| | |]; try discriminate. destruct (marshal_all f l) as [b| | |]; try discriminate.
  intros E. injection E as <-. exists a, (b ++ [TDelim 93]). split; [reflexivity|]. now rewrite app_assoc.
Qed.
Lemma slice_second {A} (f : A -> res (list token)) x y l ts : marshal_slice f (x :: y :: l) = Ok ts -> exists a b c, f x = Ok a /\ f y = Ok b /\ ts = TDelim 91 :: a ++ b ++ c.
Proof.
  intros H. unfold marshal_slice, brackets in H. cbn [marshal_all] in H. destruct (f x) as [a| | |]; try discriminate. destruct (f y) as [b| | |]; try discriminate. destruct (marshal_all f l) as [c| | |]; try discriminate.
  injection H as <-. exists a, b, (c ++ [TDelim 93]). repeat split; try reflexivity. now rewrite !app_assoc.
Qed.
Theorem C78_never : forall fc s r s' m ts fc' e, fc_json fc = false -> reads s r -> in_step r -> Run fc s = (s', Ok m) ->
  marshal_message m = Ok ts -> (2 <= fc_fuel fc')%nat ->
  exists s'' er, Run fc' (NewDefaultFactory (RJson (new_jsonreader ts e))) = (s'', Err er).
Proof.
  intros fc s r s' m ts fc' e Hj Hr Hs H HM Hf. destruct (C53_sound fc s r s' m Hj Hr Hs H) as (sk & bits & rest & _ & _ & M & _).
  destruct M as (ed & b0 & b1 & b2 & b3 & b4 & b5 & s0 & s1 & s2 & s3 & s4 & s5 & flag & ids & n & c & g & _ & E & M). cbv zeta in M.
  destruct M as ((fs & F & -> & FB) & _). unfold layout0 in F.
  inversion F as [|? ? ? ? ? g1 r1 fs1 L1 F1]; subst. inversion F1 as [|? ? ? ? ? g2 r2 fs2 L2 F2]; subst.
  assert (EG : g1 = bytes_bits [66; 85; 70; 82]).
  { rewrite <- FB. unfold blen in L1. replace 32%nat with (length g1 + 0)%nat by lia. rewrite firstn_app_2. cbn [firstn]. now rewrite app_nil_r. }
  subst g1. unfold marshal_message in HM. rewrite E in HM. apply slice_first in HM. destruct HM as (tx & tl & HS & ->).
  unfold marshal_section in HS. cbn [sec_fields] in HS. apply slice_second in HS. destruct HS as (ta & tb & tc & HA & HB & ->).
  injection HA as <-. injection HB as <-. cbn [app].
  change (base64 (map msb (chunks8 (bytes_bits [66; 85; 70; 82])))) with (gs "QlVGUg==").
  apply json_rejected; [exact Hf|cbn; lia|discriminate].
Qed.
Print Assumptions C78_never.
(** So the claim is false of any message; here is one. *)
Theorem C78_refuted : exists s m ts, Run ex_fc (on_bytes msg4) = (s, Ok m) /\ marshal_message m = Ok ts /\
  forall fc' e, (2 <= fc_fuel fc')%nat -> exists s' er, Run fc' (NewDefaultFactory (RJson (new_jsonreader ts e))) = (s', Err er).
Proof.
  destruct (Run ex_fc (on_bytes msg4)) as [s x] eqn:E.
  assert (K : match x with Ok m => match marshal_message m with Ok _ => true | _ => false end | _ => false end = true) by (apply (f_equal snd) in E; cbn [snd] in E; subst x; vm_compute; reflexivity).
  destruct x as [m| | |]; try discriminate K. destruct (marshal_message m) as [ts| | |] eqn:EM; try discriminate K.
  exists s, m, ts. split; [reflexivity|]. split; [exact EM|]. intros fc' e Hf.
  eapply (C78_never ex_fc (on_bytes msg4)); [reflexivity|reflexivity| |exact E|exact EM|exact Hf].
  split; [cbn; lia|vm_compute; reflexivity].
Qed.
Print Assumptions C78_refuted.
