(** Everything compressed data can consist of, legal or not (C69). *)
From Verif Require Export SpecPlan SpecUnpack.

(** Signed numbers (the new reference values of 203YYY): one number for all subsets, or an
    increment for each, every one of them missing. *)
Definition signed_column (w n : Z) (c : column) : Prop :=
  blen (co_min c) = w /\ blen (co_width c) = 6 /\
  (if inc_width c =? 0 then co_incs c = []
   else blen (co_incs c) = n /\ Forall (fun i => blen i = inc_width c) (co_incs c) /\
        Forall (fun i => missing i = true) (co_incs c)).
(** The columns a decoder of [n] subsets takes for a field: numbers, strings, nothing for a
    number without bits; of local fields (206YYY) those that are missing in every subset. *)
Definition readable (n : Z) (info : pinfo) (c : column) : Prop :=
  match pi_unit info with
  | NUMERIC => column_of (pi_nbits info) n c
  | NONNEG_CODE | FLAG => if pi_nbits info =? 0 then c = mkColumn [] [] [] else column_of (pi_nbits info) n c
  | STRING => string_column (8 * (pi_nbits info / 8)) n c
  | CODE => signed_column (Z.max 1 (pi_nbits info)) n c
  | BINARY => column_of (pi_nbits info) n c /\ inc_width c <> 0 /\ Forall (fun i => missing i = true) (co_incs c)
  end.
(** The values it stands for. *)
Definition meant (n : Z) (info : pinfo) (c : column) : list value :=
  match pi_unit info with
  | STRING => string_values n c
  | NONNEG_CODE | FLAG => if pi_nbits info =? 0 then repeat (VUint 0) (Z.to_nat n) else column_values info n c
  | CODE => repeat (if inc_width c =? 0 then VInt (signed (co_min c)) else VNil) (Z.to_nat n)
  | BINARY => repeat VNil (Z.to_nat n)
  | NUMERIC => column_values info n c
  end.
(** Packings with a width that is not negative (201YYY can make it so). *)
Definition ordinary (info : pinfo) : Prop := 0 <= pi_nbits info.
(** The columns [its] are the data of the template nodes [ms]. *)
Definition filled (cf : config) (ms : list anode) (its : list (placed column)) : Prop :=
  (exists h, lays_list cf [] ms h /\
     data h = map (fun it => planned (fst (fst it)) (snd (fst it)) (meant (cf_nsubsets cf) (snd (fst it)) (snd it))) its) /\
  Forall (fun it => ordinary (snd (fst it)) /\ readable (cf_nsubsets cf) (snd (fst it)) (snd it)) its.
(** The value of subset [k] in each column. *)
Definition row (n : Z) (its : list (placed column)) (k : nat) : list (descriptor * pinfo * value) :=
  map (fun it => (fst it, nth k (meant n (snd (fst it)) (snd it)) VNil)) its.
