(** Property theorem C87: the messages a caller holds. *)
From Verif Require Import PropsMessage.
From Verif Require Export ProofsObjects2.

(** Run on objects is Run: same outcome, the reader left at the same place, and the message
    returned is a new object that shows what Run gives, with the empty string as its path. *)
Theorem C87_same : forall fc s h, same_input s h ->
  same_input (fst (Run fc s)) (fst (o_Run fc h)) /\
  match snd (Run fc s) with
  | Ok m => snd (o_Run fc h) = Ok (length (ob_msgs h)) /\
      seen (fst (o_Run fc h)) (length (ob_msgs h)) = Some (""%string, map Some (msg_sections m), msg_proxy m)
  | Err e => snd (o_Run fc h) = Err e
  | Panic p => snd (o_Run fc h) = Panic p
  | NoFuel => snd (o_Run fc h) = NoFuel
  end.
Proof.
  intros fc s h H. pose proof (Run_rel fc s h H) as R. destruct (Run fc s) as [s' x], (o_Run fc h) as [h' y].
  cbn [fst snd]. destruct R as (R1 & _ & R2). auto.
Qed.
Print Assumptions C87_same.

(** A message once returned stays as it is, however many more messages are decoded and
    whatever comes of them. *)
Theorem C87_frozen : forall fc n h i, sound h -> (i < length (ob_msgs h))%nat ->
  seen (fst (o_Runs fc n h)) i = seen h i.
Proof. exact Runs_seen. Qed.
Print Assumptions C87_frozen.
(** So all the messages of a stream can be kept: after any number of calls each message
    shows what the call that returned it has decoded. *)
Theorem C87_kept : forall fc n k s h, same_input s h ->
  match Run fc s with
  | (_, Ok m) => seen (fst (o_Runs fc n (fst (o_Run fc h)))) (length (ob_msgs h)) =
                   Some (""%string, map Some (msg_sections m), msg_proxy m) /\
                 snd (o_Run fc (fst (o_Runs fc k (fst (o_Run fc h))))) <> Ok (length (ob_msgs h))
  | _ => True
  end.
Proof.
  intros fc n k s h H. pose proof (Run_rel fc s h H) as R. destruct (Run fc s) as [s' x], (o_Run fc h) as [h' y].
  destruct R as (H' & (am & as_ & E1 & E2) & R). destruct x as [m| | |]; try exact I. destruct R as (-> & R). cbn [fst].
  assert (L : (length (ob_msgs h) < length (ob_msgs h'))%nat).
  { apply nth_error_Some. unfold seen in R. destruct (nth_error (ob_msgs h') (length (ob_msgs h))); congruence. }
  split.
  - rewrite <- R. destruct (Runs_append fc n h') as (bm & bs & F1 & F2). unfold seen. rewrite F1, nth_error_app1 by exact L.
    unfold seen in R. destruct (nth_error (ob_msgs h') (length (ob_msgs h))) as [y|]; [|discriminate].
    do 2 f_equal. f_equal. injection R as _ R _. rewrite F2. clear - R. revert R.
    generalize (msg_sections m). induction (hm_secs y) as [|a l IH]; intros [|b l'] R; try discriminate; [reflexivity|].
    cbn [map] in *. injection R as R1 R2. f_equal; [|eapply IH; exact R2].
    rewrite nth_error_app1; [reflexivity|]. apply nth_error_Some. congruence.
  - destruct (Runs_append fc k h') as (bm & bs & F1 & _). set (h2 := fst (o_Runs fc k h')) in *.
    pose proof (Run_rel fc (mkFac (ob_r h2) None (ob_ut h2) (ob_group h2)) h2 (conj eq_refl (conj eq_refl eq_refl))) as R2.
    destruct (Run fc _) as [s3 x3], (o_Run fc h2) as [h3 y3]. destruct R2 as (_ & _ & R2). cbn [snd].
    destruct x3; try (rewrite R2; discriminate). destruct R2 as (-> & _). rewrite F1, app_length.
    intros X. injection X as X. apply (Nat.lt_irrefl (length (ob_msgs h))). rewrite <- X at 2. eapply Nat.lt_le_trans; [exact L|]. apply Nat.le_add_r.
Qed.
Print Assumptions C87_kept.

(** Whatever a definition script does, in whatever order and whether or not its calls succeed:
    nothing a message contains is ever taken away, renamed or reordered ... *)
Theorem C87_append_only : forall fc cs h, more h (fst (apis fc cs h)).
Proof. exact apis_more. Qed.
Print Assumptions C87_append_only.
(** ... all pointers stay valid, beginning with a new factory ... *)
Theorem C87_sound : forall fc cs h r, sound (o_New r) /\ (sound h -> sound (fst (apis fc cs h))).
Proof.
  intros fc cs h r. split; [|apply apis_sound]. repeat split; cbn; [constructor|discriminate|discriminate].
Qed.
Print Assumptions C87_sound.
(** ... and only these messages change: the current one, the one that owns the current
    section, and those whose setProxyField the script calls. *)
Theorem C87_others : forall fc cs h i, sound h -> (i < length (ob_msgs h))%nat ->
  ~ touched cs i -> ob_msg h <> Some i ->
  (forall m s, nth_error (ob_msgs h) i = Some m -> In s (hm_secs m) -> ob_sec h <> Some s) ->
  seen (fst (apis fc cs h)) i = seen h i.
Proof. exact apis_others. Qed.
Print Assumptions C87_others.
(** Hence a script that begins with a new message and a section of it does not touch the
    messages of earlier runs. *)
Theorem C87_new_message : forall fc path n d cs h i, sound h -> (i < length (ob_msgs h))%nat -> ~ touched cs i ->
  seen (fst (apis fc (CNewMessage path :: CNewSection n d :: cs) h)) i = seen h i.
Proof. exact apis_fresh. Qed.
Print Assumptions C87_new_message.
(** But newMessage alone does not protect them: the current section remains that of the
    earlier message, and a field read next is added there, not to the new message. *)
Theorem C87_stale_section : forall fc path name dt nbits h s x f a,
  ob_sec h = Some s -> nth_error (ob_secs h) s = Some x ->
  snd (apis fc [CNewMessage path; CNewField name dt nbits false] h) = [a; Ok (AField (Some f))] ->
  nth_error (ob_secs (fst (apis fc [CNewMessage path; CNewField name dt nbits false] h))) s =
    Some (mkSection (sec_number x) (sec_description x) (sec_start x) (sec_padding x) (sec_fields x ++ [f])) /\
  seen (fst (apis fc [CNewMessage path; CNewField name dt nbits false] h)) (length (ob_msgs h)) = Some (path, [], []).
Proof. exact stale. Qed.
Print Assumptions C87_stale_section.
(** So "a script never changes an earlier message" does not hold of every script. *)
Definition two_messages : obj := o_New (RBit (new_bitreader (msg4 ++ msg4) EEof)).
Definition after_one : obj := fst (o_Run ex_fc two_messages).
Theorem C87_every_script_refuted : exists fc h cs i, sound h /\ (i < length (ob_msgs h))%nat /\
  hd_error cs = Some (CNewMessage "") /\ ~ touched cs i /\ seen (fst (apis fc cs h)) i <> seen h i.
Proof.
  exists ex_fc, after_one, [CNewMessage ""; CNewField "x" DUINT 8 false], 0%nat. split; [|split; [|split; [|split]]].
  - vm_compute. repeat split; intros; try (match goal with H : Some _ = Some _ |- _ => injection H as <- end); repeat constructor.
  - vm_compute. repeat constructor.
  - reflexivity.
  - intros (f & [H|[H|[]]]); discriminate H.
  - vm_compute. discriminate.
Qed.
Print Assumptions C87_every_script_refuted.

(** Two messages, both kept. *)
Example C87_example : sound two_messages /\ snd (o_Runs ex_fc 3 two_messages) = [Ok 0%nat; Ok 1%nat; Err (EWrap "cannot peek bytes" EEof)] /\
  seen (fst (o_Runs ex_fc 3 two_messages)) 0 = seen after_one 0 /\
  option_map (fun x => length (snd (fst x))) (seen after_one 0) = Some 5%nat /\
  same_input (NewDefaultFactory (RBit (new_bitreader (msg4 ++ msg4) EEof))) two_messages.
Proof.
  split; [repeat split; cbn; [constructor|discriminate|discriminate]|].
  vm_compute. repeat split; reflexivity.
Qed.
