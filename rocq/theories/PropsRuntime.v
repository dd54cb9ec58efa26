(** Property theorem C85: calling a runtime again and again. *)
From Verif Require Import PropsMessage.
From Verif Require Export ModelRuntime.
From Coq Require Import Lia.

(** What a call returns and does to the reader depends on the decoder alone, whatever earlier
    calls have left on the script's stack; in particular the message returned is the one
    this call has decoded. *)
Theorem C85_result : forall fc s k,
  snd (rt_Run fc (s, k)) = snd (Run fc s) /\ fst (fst (rt_Run fc (s, k))) = fst (Run fc s).
Proof.
  intros fc s k. unfold rt_Run, Run, rt_call, bind. destruct (SeekStartSignature (fc_fuel fc) s) as [s1 [u|e|p|]]; try (split; reflexivity).
  destruct (boot fc s1) as [s2 [u2|e|p|]]; try (split; reflexivity). destruct (get_msg s2) as [s3 [m|e|p|]]; split; reflexivity.
Qed.
Print Assumptions C85_result.

(** The stack is as before after a success and when there is no further signature; a decoding
    that fails leaves its error there. *)
Theorem C85_stack : forall fc s k,
  match snd (rt_Run fc (s, k)) with
  | Ok _ => snd (fst (rt_Run fc (s, k))) = k
  | Err e => snd (fst (rt_Run fc (s, k))) = match snd (SeekStartSignature (fc_fuel fc) s) with Err _ => k | _ => SlError e :: k end
  | _ => True
  end.
Proof.
  intros fc s k. unfold rt_Run, rt_call, bind. destruct (SeekStartSignature (fc_fuel fc) s) as [s1 [u|e|p|]]; cbn [snd fst]; try reflexivity; try exact I.
  destruct (boot fc s1) as [s2 [u2|e|p|]]; cbn [snd fst]; try reflexivity; try exact I.
  destruct (get_msg s2) as [s3 [m|e|p|]]; cbn [snd fst]; try reflexivity; try exact I.
Qed.
Print Assumptions C85_stack.
(** So any number of successful calls can be made. *)
Theorem C85_successes : forall fc n rt, Forall (fun x => exists m, x = Ok m) (snd (rt_Runs fc n rt)) ->
  snd (fst (rt_Runs fc n rt)) = snd rt.
Proof.
  intros fc n. induction n as [|n IH]; intros [s k] H; cbn [rt_Runs] in *; [reflexivity|].
  pose proof (C85_stack fc s k) as K. destruct (rt_Run fc (s, k)) as [rt1 x]. specialize (IH rt1). destruct (rt_Runs fc n rt1) as [rt2 l]. cbn [snd fst] in *.
  apply Forall_cons_iff in H. destruct H as [[m ->] H1]. rewrite IH by exact H1. exact K.
Qed.
Print Assumptions C85_successes.

(** But not any number of failing ones: a message of an unsupported edition is found and
    refused over and over, and each time the stack grows, beyond any limit. *)
Definition edition9 : list Z := firstn 7 msg4 ++ [9] ++ skipn 8 msg4.
Theorem C85_bounded_refuted : forall limit : nat, exists n,
  (limit < length (snd (fst (rt_Runs ex_fc n (NewRuntime (RBit (new_bitreader edition9 EEof)))))))%nat /\
  Forall (fun x => exists e, x = Err e) (snd (rt_Runs ex_fc n (NewRuntime (RBit (new_bitreader edition9 EEof))))).
Proof.
  assert (S : forall k, rt_Run ex_fc (NewDefaultFactory (RBit (new_bitreader edition9 EEof)), k) =
                        ((NewDefaultFactory (RBit (new_bitreader edition9 EEof)), SlError (EMsg "lua runtime error") :: k), Err (EMsg "lua runtime error"))).
  { intros k. vm_compute. reflexivity. }
  assert (K : forall n k, (n <= length (snd (fst (rt_Runs ex_fc n (NewDefaultFactory (RBit (new_bitreader edition9 EEof)), k)))))%nat /\
    Forall (fun x => exists e, x = Err e) (snd (rt_Runs ex_fc n (NewDefaultFactory (RBit (new_bitreader edition9 EEof)), k)))).
  { assert (G : forall n k, (n + length k = length (snd (fst (rt_Runs ex_fc n (NewDefaultFactory (RBit (new_bitreader edition9 EEof)), k)))))%nat /\
      Forall (fun x => exists e, x = Err e) (snd (rt_Runs ex_fc n (NewDefaultFactory (RBit (new_bitreader edition9 EEof)), k)))).
    { induction n as [|n IH]; intros k; cbn [rt_Runs]; [split; [reflexivity|constructor]|]. rewrite S.
      specialize (IH (SlError (EMsg "lua runtime error") :: k)). destruct (rt_Runs ex_fc n _) as [rt2 l]. cbn [fst snd] in *.
      destruct IH as (IH1 & IH2). split; [rewrite <- IH1; cbn [length]; lia|constructor; eauto]. }
    intros n k. destruct (G n k) as (G1 & G2). split; [exact (eq_ind _ (fun z => (n <= z)%nat) (Nat.le_add_r n (length k)) _ G1)|exact G2]. }
  intros limit. exists (Datatypes.S limit). destruct (K (Datatypes.S limit) st_Initialize) as (K1 & K2). split; [exact K1|exact K2].
Qed.
Print Assumptions C85_bounded_refuted.
(** Case: two messages and then the end of the stream; four values are on the stack from the
    start, and no more at the end. *)
Example C85_case : let '(rt, l) := rt_Runs ex_fc 3 (NewRuntime (RBit (new_bitreader (msg4 ++ [7] ++ msg4) EEof))) in
  length (snd rt) = 4%nat /\ map (fun x => match x with Ok _ => true | _ => false end) l = [true; true; false] /\
  map (fun x => match x with Err _ => true | _ => false end) l = [false; false; true].
Proof. vm_compute. auto. Qed.
