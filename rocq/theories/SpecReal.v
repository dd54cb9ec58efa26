(** The real numbers binary64 floats stand for (C32), in Flocq's vocabulary. *)
From Coq Require Import Reals.
From Flocq Require Import Core BinarySingleNaN.
From Verif Require Import ModelFloat.
Local Open Scope R_scope.

(** The real number a float stands for. *)
Definition R64 (x : f64) : R := SF2R radix2 x.
Definition finite64 (x : f64) : Prop := is_finite_SF x = true.
(** Round to nearest, ties to even, in binary64. *)
Definition rne (x : R) : R := round radix2 (FLT_exp (-1074) 53) ZnearestE x.
(** The exact quantity meant: (n + r) / 10^scale. *)
Definition exact_value (n r scale : Z) : R := IZR (n + r) * powerRZ 10 (- scale).
