(** Writing to an output that may fail (C81), and writing single precision numbers (C82). *)
From Coq Require Import Reals.
From Flocq Require Import Core.
From Verif Require Import SpecReal.
From Verif Require Export ModelSink SpecBits SpecReader.

(** Perform a write on the model. *)
Definition sk_write (i : item) : M sink unit :=
  match i with
  | IUint v n => sk_WriteUint v n
  | IInt v n => sk_WriteInt v n
  | IBool v => sk_WriteBool v
  | IBytes v n => sk_WriteBytes v n
  | IBinary v n => sk_WriteBinary v n
  end.
(** A Binary is written with the size it has. *)
Definition consistent (i : item) : Prop :=
  match i with IBinary v n => n = b_nbits v | _ => True end.

(** Round to nearest, ties to even, in single precision. *)
Definition rne32 (x : R) : R := round radix2 (FLT_exp (-149) 24) ZnearestE x.
(** The same number with the same sign, not NaN. *)
Definition same_number (x y : f64) : Prop :=
  match x with
  | S754_nan => False
  | S754_infinity _ => y = x
  | S754_zero s | S754_finite s _ _ => finite64 y /\ signed y s /\ R64 y = R64 x
  end.
