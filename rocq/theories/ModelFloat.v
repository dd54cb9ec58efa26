(** IEEE-754 binary64 as used by the decoder.  Go's float64 is represented by the
    standard library's [spec_float] with precision 53 and emax 1024; its operations are
    the reference definitions of the Coq standard library (round to nearest even). *)
From Coq Require Export SpecFloat.
From Verif Require Export Base.

Notation f64 := spec_float.
Definition prec : Z := 53.
Definition emax : Z := 1024.

(** Conversion [float64(x)] of an integer: nearest, ties to even. *)
Definition f64_of_Z (z : Z) : f64 := binary_normalize prec emax z 0 false.
Definition f64_add : f64 -> f64 -> f64 := SFadd prec emax.
Definition f64_mul : f64 -> f64 -> f64 := SFmul prec emax.
Definition f64_div : f64 -> f64 -> f64 := SFdiv prec emax.
(** Go [==] on float64 *)
Definition f64_eqb : f64 -> f64 -> bool := SFeqb.
(** [x != 0] for a float64 (true for NaN). *)
Definition f64_nonzero (x : f64) : bool := match x with S754_zero _ => false | _ => true end.

(** Float literal [10^n], [n >= 0], as the Go compiler rounds it. *)
Definition lit_pos (n : Z) : f64 := f64_of_Z (10 ^ n).
(** Float literal [10^-n], [n >= 0]: the exact quotient 1/10^n rounded once. *)
Definition lit_neg (n : Z) : f64 :=
  match 10 ^ n with
  | Zpos p => f64_div (S754_finite false 1 0) (S754_finite false p 0)
  | _ => S754_nan
  end.

(** Go standard library math.Pow10 (tables pow10tab, pow10postab32, pow10negtab32). *)
Definition pow10 (n : Z) : f64 :=
  if (0 <=? n) && (n <=? 308) then f64_mul (lit_pos (n / 32 * 32)) (lit_pos (n mod 32))
  else if (-323 <=? n) && (n <=? 0)
  then f64_div (lit_neg ((- n) / 32 * 32)) (lit_pos ((- n) mod 32))
  else if 0 <? n then S754_infinity false
  else S754_zero false.

(** Truncation toward zero of a finite float to an integer. *)
Definition f64_trunc (x : f64) : option Z :=
  match x with
  | S754_zero _ => Some 0
  | S754_finite s m e =>
      let a := if 0 <=? e then Zpos m * 2 ^ e else Zpos m / 2 ^ (- e) in
      Some (if s then - a else a)
  | _ => None
  end.

(** Go standard library math.Round (half away from zero), as an integer, for finite
    arguments.  The result of math.Round is an integral float64; it is only ever used
    converted to an integer, so the integer itself is modelled. *)
Definition f64_round (x : f64) : option Z :=
  match x with
  | S754_zero _ => Some 0
  | S754_finite s m e =>
      let a := if 0 <=? e then Zpos m * 2 ^ e
               else (2 * Zpos m + 2 ^ (- e)) / (2 * 2 ^ (- e)) in
      Some (if s then - a else a)
  | _ => None
  end.

(** Conversions float64 to int/uint outside of the target's range are
    implementation-defined in Go; the model takes them from an arbitrary [platform]. *)
Record platform : Type := mkPlatform {
  plat_f2u : f64 -> Z;     (* uint(x), x out of range *)
  plat_f2i : f64 -> Z      (* int(x), x out of range *)
}.

Definition to_uint (pl : platform) (x : f64) (t : option Z) : Z :=
  match t with
  | Some z => if (0 <=? z) && (z <? 2 ^ 64) then z else plat_f2u pl x mod 2 ^ 64
  | None => plat_f2u pl x mod 2 ^ 64
  end.
Definition to_int (pl : platform) (x : f64) (t : option Z) : Z :=
  match t with
  | Some z => if (- 2 ^ 63 <=? z) && (z <? 2 ^ 63) then z else i64 (plat_f2i pl x)
  | None => i64 (plat_f2i pl x)
  end.
(** [uint(v)], [int(v)] *)
Definition f64_to_uint (pl : platform) (x : f64) : Z := to_uint pl x (f64_trunc x).
Definition f64_to_int (pl : platform) (x : f64) : Z := to_int pl x (f64_trunc x).

(** float64(math.Float32frombits(n)): every float32 is exactly a float64. *)
Definition f64_of_float32_bits (n : Z) : f64 :=
  let s := Z.testbit n 31 in
  let e := (n / 2 ^ 23) mod 2 ^ 8 in
  let m := n mod 2 ^ 23 in
  if e =? 255 then (if m =? 0 then S754_infinity s else S754_nan)
  else if e =? 0 then
    (if m =? 0 then S754_zero s else
     binary_normalize prec emax (if s then - m else m) (-149) s)
  else binary_normalize prec emax (if s then - (m + 2 ^ 23) else m + 2 ^ 23) (e - 150) s.
