(** Raw data for a template, how they are written with the bit writer, and the values they
    stand for (C34, C59).  Nothing here mentions a reader or a decoder. *)
From Verif Require Export SpecRun.

(** ** Single values *)

(** What one field can hold. *)
Inductive rawval : Type :=
| RNumber (v : Z) | RMissing | RString (bs : list Z) | RSigned (v : Z) | RBits (b : binary).
(** The write that puts it into a field with the packing [info]. *)
Definition as_item (info : pinfo) (x : rawval) : item :=
  match x with
  | RNumber v => IUint v (pi_nbits info)
  | RMissing => IUint (2 ^ pi_nbits info - 1) (pi_nbits info)
  | RString bs => IBytes bs (pi_nbits info / 8)
  | RSigned v => IInt v (pi_nbits info)
  | RBits b => IBinary b (pi_nbits info)
  end.
Definition is_number (u : unit_t) : Prop := u = NUMERIC \/ u = NONNEG_CODE \/ u = FLAG.
(** It fits: the unit is right, the bits suffice, and a number is not the missing pattern. *)
Definition raw_fits (info : pinfo) (x : rawval) : Prop :=
  fits (as_item info x) /\
  match x with
  | RNumber v => is_number (pi_unit info) /\ (2 <= pi_nbits info -> v <> 2 ^ pi_nbits info - 1)
  | RMissing => is_number (pi_unit info) /\ 2 <= pi_nbits info
  | RString _ => pi_unit info = STRING
  | RSigned _ => pi_unit info = CODE
  | RBits _ => pi_unit info = BINARY
  end.
(** The value it stands for. *)
Definition raw_value (info : pinfo) (x : rawval) : value :=
  match x with
  | RNumber v => value_of_number info v
  | RMissing => VNil
  | RString bs => VBytes bs
  | RSigned v => VInt v
  | RBits b => VBin (Some b)
  end.
(** The value says "repeat [n] times". *)
Definition repeats (pl : platform) (v : value) (n : nat) : Prop :=
  equal_values v v /\ exists z, UintValue pl v = Ok z /\ n = Z.to_nat z.

(** ** Columns: one value per subset, with a common minimum and increment width *)
Record ccolumn : Type := mkCcol { cc_vals : list rawval; cc_min : rawval; cc_diff : Z }.
(** An increment. *)
Definition as_increment (mn : rawval) (d : Z) (x : rawval) : item :=
  match x, mn with
  | RNumber v, RNumber m => IUint (v - m) d
  | RString bs, _ => IBytes bs d
  | _, _ => IUint (2 ^ d - 1) d
  end.
Definition column_items (info : pinfo) (c : ccolumn) : list item :=
  as_item info (cc_min c) :: IUint (cc_diff c) 6 ::
  (if cc_diff c =? 0 then [] else map (as_increment (cc_min c) (cc_diff c)) (cc_vals c)).
(** A legal packing of [n] values: without increments all of them are the minimum; otherwise
    the minimum is a number not above any of them and the differences fit (without being the
    missing pattern), or strings behind a common string of zero bytes. *)
Definition column_fits (n : Z) (info : pinfo) (c : ccolumn) : Prop :=
  blen (cc_vals c) = n /\ 0 <= cc_diff c < 64 /\ 1 <= pi_nbits info /\
  raw_fits info (cc_min c) /\ Forall (raw_fits info) (cc_vals c) /\
  (is_number (pi_unit info) \/ pi_unit info = STRING) /\
  if cc_diff c =? 0 then Forall (fun x => x = cc_min c) (cc_vals c)
  else match cc_min c with
       | RNumber m => Forall (fun x => match x with
                                       | RNumber v => m <= v /\ v - m < 2 ^ cc_diff c /\
                                                      (2 <= cc_diff c -> v - m <> 2 ^ cc_diff c - 1)
                                       | _ => 2 <= cc_diff c end) (cc_vals c)
       | RString bs => Forall (fun b => b = 0) bs /\ cc_diff c = pi_nbits info / 8
       | _ => False
       end.

(** ** Trees of data *)
Inductive dtree (A : Type) : Type :=
| Op                                            (* an operator: no data *)
| Leaf (xs : list A)                            (* an element with its associated fields *)
| Group (ts : list (dtree A))                   (* a sequence *)
| Times (tss : list (list (dtree A)))           (* a fixed replication *)
| Counted (f : dtree A) (tss : list (list (dtree A))).   (* factor and repetitions *)
Arguments Op {A}. Arguments Leaf {A}. Arguments Group {A}. Arguments Times {A}. Arguments Counted {A}.

Section Carries.
  Context {A : Type}.
  Variable ok : pinfo -> A -> Prop.
  Variable count : pinfo -> A -> nat -> Prop.
  (** One datum with the descriptor and packing it belongs to. *)
  Notation placed := (descriptor * pinfo * A)%type.

  (** [carries ids n t ids' its]: the tree [t] has the form of the node [n] and its data fit,
      when the elements and operators [ids] come before; [ids'] come before what follows.
      [its] are the data in order. *)
  Inductive carries : list Z -> anode -> dtree A -> list Z -> list placed -> Prop :=
  | carry_element ids k d e xs ms b a : In k [KElement false; KE031021] -> d_entry d = EB e ->
      Forall2 (fun c x => ok (snd c) x) (element_cells ids d e) xs ->
      carries ids (ANode k (Some d) ms b a) (Leaf xs) (ids ++ [d_id d]) (combine (element_cells ids d e) xs)
  | carry_string ids d x ms b a : ok (bare STRING (8 * id_Y (d_id d))) x ->
      carries ids (ANode KInsertString (Some d) ms b a) (Leaf [x]) (ids ++ [d_id d])
        [(d, bare STRING (8 * id_Y (d_id d)), x)]
  | carry_local ids d m md x ms b a : an_desc m = Some md -> ok (bare BINARY (id_Y (d_id d))) x ->
      carries ids (ANode KSkipLocal (Some d) (m :: ms) b a) (Leaf [x]) ids
        [(md, bare BINARY (id_Y (d_id d)), x)]
  | carry_op ids k d ms b a : In k [KNbitsOffset; KScaleOffset; KModifyPacking; KSetStringLength] ->
      carries ids (ANode k (Some d) ms b a) Op (ids ++ [d_id d]) []
  | carry_assoc ids d ms b a ts ids' its : (id_Y (d_id d) = 0 -> widths ids <> []) ->
      carries_list (ids ++ [d_id d]) ms ts ids' its ->
      carries ids (ANode KAssocField (Some d) ms b a) (Group ts) ids' its
  | carry_sequence ids od ms b a ts ids' its : carries_list ids ms ts ids' its ->
      carries ids (ANode KSequence od ms b a) (Group ts) ids' its
  | carry_fixed ids d ms b a tss ids' its : length tss = Z.to_nat (id_Y (d_id d)) ->
      carries_times ids ms tss ids' its ->
      carries ids (ANode KFixed (Some d) ms b a) (Times tss) ids' its
  | carry_delayed ids od m ms b a f tss ids1 its1 its0 d info x ids' its :
      carries ids m f ids1 its1 -> its1 = its0 ++ [(d, info, x)] -> count info x (length tss) ->
      carries_times ids1 ms tss ids' its ->
      carries ids (ANode KDelayed od (m :: ms) b a) (Counted f tss) ids' (its1 ++ its)
  with carries_list : list Z -> list anode -> list (dtree A) -> list Z -> list placed -> Prop :=
  | carry_nil ids : carries_list ids [] [] ids []
  | carry_cons ids n ns t ts ids1 its1 ids2 its2 : carries ids n t ids1 its1 ->
      carries_list ids1 ns ts ids2 its2 -> carries_list ids (n :: ns) (t :: ts) ids2 (its1 ++ its2)
  with carries_times : list Z -> list anode -> list (list (dtree A)) -> list Z -> list placed -> Prop :=
  | carry_0 ids ns : carries_times ids ns [] ids []
  | carry_S ids ns ts tss ids1 its1 ids2 its2 : carries_list ids ns ts ids1 its1 ->
      carries_times ids1 ns tss ids2 its2 -> carries_times ids ns (ts :: tss) ids2 (its1 ++ its2).
End Carries.
Notation placed A := (descriptor * pinfo * A)%type.

(** One subset's data for the template nodes [ms]. *)
Definition subset_data (pl : platform) (ms : list anode) (its : list (placed rawval)) : Prop :=
  exists ts ids, carries_list raw_fits (fun info x => repeats pl (raw_value info x)) [] ms ts ids its.
(** The same for [n] subsets at once: the subsets agree on every replication factor. *)
Definition compressed_data (pl : platform) (n : Z) (ms : list anode) (its : list (placed ccolumn)) : Prop :=
  exists ts ids, carries_list (column_fits n)
    (fun info c k => exists x, Forall (fun y => y = x) (cc_vals c) /\ repeats pl (raw_value info x) k) [] ms ts ids its.
(** Writing them. *)
Definition written (its : list (placed rawval)) : list item :=
  map (fun it => as_item (snd (fst it)) (snd it)) its.
Definition written_columns (its : list (placed ccolumn)) : list item :=
  flat_map (fun it => column_items (snd (fst it)) (snd it)) its.
(** What should come out: descriptor, packing and value of every datum. *)
Definition values_of (its : list (placed rawval)) : list (descriptor * pinfo * value) :=
  map (fun it => (fst it, raw_value (snd (fst it)) (snd it))) its.
(** The data of subset [k]. *)
Definition lane (k : nat) (its : list (placed ccolumn)) : list (placed rawval) :=
  map (fun it => (fst it, nth k (cc_vals (snd it)) RMissing)) its.
(** What a user sees of a payload. *)
Definition payload_values (pay : list subset) : list (list (descriptor * pinfo * value)) :=
  map (fun sb => map (fun c => (cell_what c, c_val c)) (sb_cells sb)) pay.
(** Compressed data whose subsets agree on the bits of every bitmap used. *)
Definition same_bits (h : history) : Prop :=
  forall later ps before i0 i1, h = later ++ EvTargets ps :: before -> bitmap before = Some (i0, i1) ->
    Forall (fun x => exists v, Forall (eq v) (dt_vals x)) (firstn (i1 - i0) (skipn i0 (data before))).
