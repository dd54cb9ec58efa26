(** C81: an output that fails is reported.  C82: writing single precision numbers. *)
From Coq Require Import Reals Lra.
From Flocq Require Import Core.
From Verif Require Import SpecReal ProofsSink ProofsSink2.
From Verif Require Export SpecSink.
Local Open Scope Z_scope.

(** C81: the writes succeed exactly if the io.Writer has room for every complete byte; else
    its error comes back.  Either way it has received the bytes there was room for. *)
Theorem C81_reported : forall items room e, Forall consistent items -> 0 <= room ->
  exists bss, Forall2 emits items bss /\
  let n := blen (concat bss) / 8 in
  exists s, mapM_ sk_write items (new_sink room e) = (s, if n <=? room then Ok tt else Err e) /\
    bytes_bits (received s) = firstn (Z.to_nat (8 * Z.min n room)) (concat bss).
Proof. exact room_or_error. Qed.
Print Assumptions C81_reported.

(** C81: it is the write that completes the first byte without room that fails. *)
Theorem C81_first_failure : forall before i room e, Forall consistent before -> consistent i -> 0 <= room ->
  exists bss bs, Forall2 emits before bss /\ emits i bs /\
  (blen (concat bss) / 8 <= room ->
   exists s, mapM_ sk_write before (new_sink room e) = (s, Ok tt) /\
   exists s', sk_write i s = (s', if blen (concat bss ++ bs) / 8 <=? room then Ok tt else Err e)).
Proof. exact first_error. Qed.
Print Assumptions C81_first_failure.

(** C81: a Binary announced with another size is an error and writes nothing. *)
Theorem C81_wrong_size : forall v n s, n <> b_nbits v -> exists x, sk_write (IBinary v n) s = (s, Err x).
Proof. exact wrong_size. Qed.
Print Assumptions C81_wrong_size.

Definition disk_full : err := EMsg "no space left on device".
Example C81_example :
  let items := [IUint 300 8; IInt (-1) 4; IBytes [7] 2; IBool true] in
  Forall consistent items /\
  (let '(s, r) := mapM_ sk_write items (new_sink 2 disk_full) in r = Err disk_full /\ received s = [44; 144]) /\
  (let '(s, r) := mapM_ sk_write items (new_sink 3 disk_full) in r = Ok tt /\ received s = [44; 144; 112]).
Proof. cbv zeta. split; [repeat constructor|]. split; vm_compute; auto. Qed.

(** C82: WriteFloat32 writes 32 bits that spell the nearest number of single precision (ties
    to even), infinity if that is too large; the sign is kept. *)
Theorem C82_nearest : forall x s, (blen (sk_bits s) + 32) / 8 <= sk_room s ->
  exists bits y, blen bits = 32 /\ sk_WriteFloat32 x s = (mkSink (sk_bits s ++ bits) (sk_room s) (sk_err s), Ok tt) /\ is_single bits y /\
  match x with
  | S754_nan | S754_infinity _ => y = x
  | S754_zero sg | S754_finite sg _ _ =>
      if Rlt_bool (Rabs (rne32 (R64 x))) (bpow radix2 128)
      then finite64 y /\ signed y sg /\ R64 y = rne32 (R64 x)
      else y = S754_infinity sg
  end.
Proof. exact float_written. Qed.
Print Assumptions C82_nearest.

(** C82: the bits of a number of single precision are written exactly, and ReadFloat32 of
    the bit reader gives the number back. *)
Theorem C82_round_trip : forall pl k bits x room er rest e p, blen bits = 32 -> is_single bits x -> x <> S754_nan -> 4 <= room ->
  exists s, sk_WriteFloat32 x (new_sink room er) = (s, Ok tt) /\ received s = map msb (chunks8 bits) /\
  exists y, do_rcall pl k KFloat32 (RBit (mkBR (bytes_bits (received s) ++ rest) e p)) = (RBit (mkBR rest e (p + 32)), Ok (ANumber y)) /\ same_number x y.
Proof. exact float_back. Qed.
Print Assumptions C82_round_trip.

(** -13/8; 1/10 rounds to 0x3DCCCCCD; 10^39 is too large. *)
Example C82_example :
  received (fst (sk_WriteFloat32 (S754_finite true 7318349394477056 (-52)) (new_sink 4 EEof))) = [0xBF; 0xD0; 0; 0] /\
  received (fst (sk_WriteFloat32 (f64_div (f64_of_Z 1) (f64_of_Z 10)) (new_sink 4 EEof))) = [0x3D; 0xCC; 0xCC; 0xCD] /\
  received (fst (sk_WriteFloat32 (f64_of_Z (10 ^ 39)) (new_sink 4 EEof))) = [0x7F; 0x80; 0; 0].
Proof. vm_compute. auto. Qed.
Example C82_single : is_single (low_bits 32 0xBFD00000) (S754_finite true 7318349394477056 (-52)).
Proof.
  unfold is_single. cbv zeta. change (msb (firstn 8 (tl (low_bits 32 0xBFD00000)))) with 127. cbn [Z.eqb].
  split; [reflexivity|]. split; [reflexivity|]. change (msb (skipn 9 (low_bits 32 0xBFD00000))) with 5242880.
  change (hd false (low_bits 32 0xBFD00000)) with true. unfold R64. cbn [BinarySingleNaN.SF2R]. unfold F2R. cbn [Fnum Fexp cond_Zopp].
  change (bpow radix2 (-52)) with (/ 4503599627370496)%R. change (bpow radix2 (127 - 150)) with (/ 8388608)%R.
  change (2 ^ 23 + 5242880) with 13631488. change (Z.neg 7318349394477056) with (-7318349394477056). rewrite ?opp_IZR. lra.
Qed.
