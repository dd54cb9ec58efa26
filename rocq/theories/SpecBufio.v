(** Vocabulary for C90: programs that use a reader. *)
From Verif Require Export ModelBufio.

(** The calls of the interface tdcfio.PeekableReader (tdcfio/reader.go:20-47). *)
Inductive request : Type :=
| QPos | QNumber (n : Z) | QUint (n : Z) | QInt (n : Z) | QBool | QBytes (n : Z) | QBinary (n : Z) | QFloat32
| QPeekUint (skip n : Z) | QPeekBytes (skip n : Z).
Inductive answer : Type :=
| AInt (x : Z) | AFloat (x : f64) | ABool (b : bool) | ABytes (bs : list Z) | ABinary (b : option binary).

Definition get {S A} (f : A -> answer) (m : M S A) : M S answer := (x <- m ;; ret (f x))%M.
(** On the stream of bits ... *)
Definition ask (pl : platform) (q : request) : M reader answer :=
  match q with
  | QPos => get AInt (gets r_Pos)
  | QNumber n => get AFloat (r_ReadNumber n) | QUint n => get AInt (r_ReadUint pl n) | QInt n => get AInt (r_ReadInt pl n)
  | QBool => get ABool r_ReadBool | QBytes n => get ABytes (r_ReadBytes n) | QBinary n => get ABinary (r_ReadBinary n)
  | QFloat32 => get AFloat (r_ReadFloat32 0)
  | QPeekUint skip n => get AInt (r_PeekUint pl skip n) | QPeekBytes skip n => get ABytes (r_PeekBytes skip n)
  end.
(** ... and on the bytes as they arrive. *)
Definition ask_low (q : request) : M low answer :=
  match q with
  | QPos => get AInt (gets lo_pos)
  | QNumber n => get AFloat (lo_ReadNumber n) | QUint n => get AInt (lo_ReadUint n) | QInt n => get AInt (lo_ReadInt n)
  | QBool => get ABool lo_ReadBool | QBytes n => get ABytes (lo_ReadBytes n) | QBinary n => get ABinary (lo_ReadBinary n)
  | QFloat32 => get AFloat lo_ReadFloat32
  | QPeekUint skip n => get AInt (lo_PeekUint skip n) | QPeekBytes skip n => get ABytes (lo_PeekBytes skip n)
  end.

(** A program that uses a reader through the interface only; what it asks next may depend on
    all answers and failures so far. *)
Inductive prog (A : Type) : Type := Done (x : A) | Ask (q : request) (k : res answer -> prog A).
Arguments Done {A}. Arguments Ask {A}.
Fixpoint run {S A} (f : request -> M S answer) (p : prog A) (s : S) : S * A :=
  match p with Done x => (s, x) | Ask q k => let '(s', r) := f q s in run f (k r) s' end.

(** Every call of Read that does not fail gives at least one byte. *)
Definition delivers (src : source) : Prop := Forall (fun k => 1 <= k)%nat (so_sched src).
