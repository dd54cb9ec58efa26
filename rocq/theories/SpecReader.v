(** The interface of the two readers (C79). *)
From Coq Require Import Reals.
From Flocq Require Import Core.
From Verif Require Import SpecReal.
From Verif Require Export ModelReader SpecBits SpecJson.

(** The calls of tdcfio.PeekableReader that read, and their answers. *)
Inductive rcall : Type :=
| KNumber (n : Z) | KUint (n : Z) | KInt (n : Z) | KBool | KBytes (n : Z) | KBinary (n : Z) | KFloat32.
Inductive answer : Type :=
| ANumber (x : f64) | AUint (u : Z) | AInt (i : Z) | ABool (b : bool) | ABytes (s : list Z) | ABinary (b : option binary).
(** Perform a call on the model; [k] bounds the loop of the JSON reader's ReadFloat32 (C14). *)
Definition do_rcall (pl : platform) (k : nat) (c : rcall) : M reader answer :=
  match c with
  | KNumber n => (x <- r_ReadNumber n ;; ret (ANumber x))%M
  | KUint n => (x <- r_ReadUint pl n ;; ret (AUint x))%M
  | KInt n => (x <- r_ReadInt pl n ;; ret (AInt x))%M
  | KBool => (x <- r_ReadBool ;; ret (ABool x))%M
  | KBytes n => (x <- r_ReadBytes n ;; ret (ABytes x))%M
  | KBinary n => (x <- r_ReadBinary n ;; ret (ABinary x))%M
  | KFloat32 => (x <- r_ReadFloat32 k ;; ret (ANumber x))%M
  end.
(** The bits a call asks for. *)
Definition asked (c : rcall) : Z :=
  match c with KNumber n | KUint n | KInt n | KBinary n => n | KBool => 1 | KBytes n => 8 * n | KFloat32 => 32 end.
Definition sensible (c : rcall) : Prop := match c with KInt n => 1 <= n | _ => 0 <= asked c end.

Definition signed (x : f64) (s : bool) : Prop :=
  match x with S754_zero b | S754_infinity b | S754_finite b _ _ => b = s | S754_nan => False end.
(** IEEE 754 single precision: one sign bit, eight bits of exponent, 23 of fraction. *)
Definition is_single (bits : list bool) (x : f64) : Prop :=
  let s := hd false bits in
  let e := msb (firstn 8 (tl bits)) in
  let m := msb (skipn 9 bits) in
  if e =? 255 then x = (if m =? 0 then S754_infinity s else S754_nan)
  else finite64 x /\ signed x s /\
       R64 x = ((if s then -1 else 1) * (if e =? 0 then IZR m * bpow radix2 (-149) else IZR (2 ^ 23 + m) * bpow radix2 (e - 150)))%R.
(** What the bits of a call mean. *)
Definition spelled (c : rcall) (bits : list bool) (a : answer) : Prop :=
  match c with
  | KNumber _ => a = ANumber (f64_of_Z (msb bits mod 2 ^ 64))
  | KUint _ => a = AUint (msb bits mod 2 ^ 64)
  | KInt _ => a = AInt (i64 ((if hd false bits then -1 else 1) * msb (tl bits)))
  | KBool => a = ABool (hd false bits)
  | KBytes _ => a = ABytes (map msb (chunks8 bits))
  | KBinary n => a = ABinary (Some (mkBin (map msb (chunks8 bits)) n))
  | KFloat32 => exists x, a = ANumber x /\ is_single bits x
  end.
(** What is made of a scalar of a JSON document, if it is of the right type. *)
Definition converted (pl : platform) (c : rcall) (t : token) : option answer :=
  match c, t with
  | KNumber _, TNum x => Some (ANumber x)
  | KUint _, TNum x => Some (AUint (f64_to_uint pl x))
  | KInt _, TNum x => Some (AInt (f64_to_int pl x))
  | KBool, TBool b => Some (ABool b)
  | KBytes _, TStr s => Some (ABytes s)
  | KBinary _, TStr s => match NewBinaryFromString s with Ok b => Some (ABinary (Some b)) | _ => None end
  | _, _ => None
  end.
