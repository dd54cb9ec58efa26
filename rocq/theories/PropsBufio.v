(** Property theorem C90: how the input arrives does not matter. *)
From Verif Require Import PropsMessage PropsReader.
From Verif Require Export SpecInterp ProofsBufio2.

(** Every program that uses a reader through its interface gives on bytes that arrive in
    pieces of whatever sizes what it gives on the stream of their bits, and leaves the reader
    at the same position. *)
Theorem C90_same : forall pl A (p : prog A) src, delivers src ->
  let on_bytes := run ask_low p (NewPeekable src) in
  let on_bits := run (ask pl) p (RBit (new_bitreader (so_bytes src) (so_err src))) in
  snd on_bytes = snd on_bits /\ lo_pos (fst on_bytes) = r_Pos (fst on_bits).
Proof.
  intros pl A p src D. destruct (run_same pl p _ _ (R_start src D)) as (H1 & r' & H2 & H3).
  cbv zeta. split; [exact H1|]. rewrite H2. symmetry. apply H3.
Qed.
Print Assumptions C90_same.

(** So two sources with the same bytes and the same error at the end cannot be told apart. *)
Theorem C90_pieces : forall A (p : prog A) src src', delivers src -> delivers src' ->
  so_bytes src = so_bytes src' -> so_err src = so_err src' ->
  snd (run ask_low p (NewPeekable src)) = snd (run ask_low p (NewPeekable src')).
Proof.
  intros A p src src' D D' E1 E2. destruct (C90_same pl0 A p src D) as (-> & _). destruct (C90_same pl0 A p src' D') as (-> & _). rewrite E1, E2. reflexivity.
Qed.
Print Assumptions C90_pieces.

(** The decoder is such a program: any number of calls of Run. *)
Theorem C90_Run : forall fc n, exists p : prog (list (res message)),
  (forall b, let decoded := repeated (Run fc) n (NewDefaultFactory (RBit b)) in
     run (ask (fc_plat fc)) p (RBit b) = (fa_r (fst decoded), snd decoded)) /\
  (forall src, delivers src ->
     let decoded := repeated (Run fc) n (NewDefaultFactory (RBit (new_bitreader (so_bytes src) (so_err src)))) in
     let on_bytes := run ask_low p (NewPeekable src) in
     snd on_bytes = snd decoded /\ lo_pos (fst on_bytes) = r_Pos (fa_r (fst decoded))).
Proof.
  intros fc n. destruct (Run_program (fc_plat fc) fc n) as [p Hp]. exists p. split; [exact Hp|].
  intros src D. cbv zeta. destruct (C90_same (fc_plat fc) _ p src D) as (H1 & H2). rewrite Hp in H1, H2. cbn [fst snd] in H1, H2. auto.
Qed.
Print Assumptions C90_Run.

(** Eight bytes, handed over one by one, all at once, or in pieces of other sizes, with the
    end reported with the last byte or after it: a program that looks ahead, reads past a byte
    boundary, reads on as far as the first number says, and runs into the end. *)
Definition looks_ahead : prog (list (res answer)) :=
  Ask (QPeekUint 3 16) (fun a => Ask (QUint 4) (fun b => Ask (QBytes 2) (fun c => Ask (QPeekBytes 0 1) (fun d =>
  Ask (QUint (match b with Ok (AInt x) => 4 + 8 * x | _ => 0 end)) (fun e => Ask (QPeekBytes 0 5) (fun f => Ask (QBytes 2) (fun g =>
  Ask QBool (fun h => Ask QPos (fun i => Done [a; b; c; d; e; f; g; h; i]))))))))).
Definition eight (sched : list nat) (joint : bool) : source := mkSrc [0x12; 0x34; 0x56; 0x78; 0x9a; 0xbc; 0xde; 0xff] EEof sched joint.
Example C90_example :
  snd (run ask_low looks_ahead (NewPeekable (eight [1; 1; 1; 1; 1; 1; 1; 1]%nat true))) =
    [Ok (AInt 0x789a); Ok (AInt 1); Ok (ABytes [0x23; 0x45]); Err (EWrap "cannot peek bytes" (EMsg "can only peek at complete byte boundary"));
     Ok (AInt 0x678); Err (EWrap "cannot peek bytes" EEof); Ok (ABytes [0x9a; 0xbc]); Ok (ABool true); Ok (AInt 49)] /\
  (forall sched joint, Forall (fun k => 1 <= k)%nat sched ->
     snd (run ask_low looks_ahead (NewPeekable (eight sched joint))) = snd (run ask_low looks_ahead (NewPeekable (eight [] false)))) /\
  (* a Read that gives neither a byte nor an error is taken for a zero, only looking ahead repeats it *)
  snd (run ask_low (Ask (QUint 8) Done) (NewPeekable (eight [0; 2]%nat false))) = Ok (AInt 0) /\
  snd (run ask_low (Ask (QPeekUint 0 8) Done) (NewPeekable (eight [0; 0; 2]%nat false))) = Ok (AInt 0x12).
Proof.
  split; [vm_compute; reflexivity|split; [|split; vm_compute; reflexivity]].
  intros sched joint H. apply C90_pieces; [exact H|constructor|reflexivity|reflexivity].
Qed.
