(** Vocabulary for the typed views of a decoded cell: which values are numbers, the exact
    number a binary64 stands for, and rounding half away from zero, in rationals. *)
From Coq Require Export QArith Qabs.
From Verif Require Export ModelUnpack.
Open Scope Z_scope.

(** The exact number a finite binary64 [(-1)^s * m * 2^e] stands for. *)
Definition rational (x : f64) : option Q :=
  match x with
  | S754_zero _ => Some 0%Q
  | S754_finite s m e =>
      let n := if s then Zneg m else Zpos m in
      Some (match e with
            | Zneg k => n # (2 ^ k)
            | _ => inject_Z (n * 2 ^ e)
            end)
  | _ => None
  end.

(** [r] is the integer nearest to [q]; of two equally near ones, the one further from zero. *)
Definition half_away (q : Q) (r : Z) : Prop :=
  (Qabs (q - inject_Z r) <= 1 # 2)%Q /\
  ((Qabs (q - inject_Z r) == 1 # 2)%Q -> (Qabs q < Qabs (inject_Z r))%Q).

(** The values of the three numeric types, and those of text. *)
Definition numeric (v : value) : Prop :=
  match v with VFloat _ | VInt _ | VUint _ => True | _ => False end.
Definition text (v : value) : Prop := match v with VBytes _ => True | _ => False end.

(** What the Go types [int] and [uint] can hold. *)
Definition int_range (z : Z) : Prop := - 2 ^ 63 <= z < 2 ^ 63.
Definition uint_range (z : Z) : Prop := 0 <= z < 2 ^ 64.
(** The values Go can hold: [int] and [uint] cells are in range. *)
Definition go_value (v : value) : Prop :=
  match v with VInt i => int_range i | VUint u => uint_range u | _ => True end.
