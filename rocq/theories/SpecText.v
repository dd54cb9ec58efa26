(** Printed values (C84). *)
From Verif Require Export ModelText SpecNames SpecBits.

(** The values of one kind, as decoded: a bit string has the bits it was read from. *)
Inductive same_kind (show : f64 -> gostring) : value -> value -> Prop :=
| same_nil : same_kind show VNil VNil
| same_uint u u' : same_kind show (VUint u) (VUint u')
| same_int i i' : same_kind show (VInt i) (VInt i')
| same_float x x' : (show x = show x' -> x = x') -> same_kind show (VFloat x) (VFloat x')
| same_bytes b b' : same_kind show (VBytes b) (VBytes b')
| same_bits s s' : same_kind show (VBin (Some (mkBin (map msb (chunks8 s)) (blen s)))) (VBin (Some (mkBin (map msb (chunks8 s')) (blen s')))).
(** The number of characters of a text: bytes from 128 to 191 continue a character. *)
Inductive characters : gostring -> nat -> Prop :=
| no_character : characters [] 0
| one_character c s n : ~ (128 <= c < 192) -> characters s n -> characters (c :: s) (S n)
| same_character c s n : 128 <= c < 192 -> characters s n -> characters (c :: s) n.
