(** Laying out data for any template (C69): which data, with which descriptors and packings,
    a template asks for.  Like SpecRun.v, but without any reader: nothing is decoded here. *)
From Verif Require Export SpecPack.

(** One datum: descriptor, packing, one value per subset. *)
Definition planned (d : descriptor) (info : pinfo) (vs : list value) : datum := mkDatum d info VNil 0 vs.
Definition holds (d : descriptor) (info : pinfo) (x : datum) : Prop := exists vs, x = planned d info vs.

Section Lays.
  Variable cf : config.
  (** The cell of an assessment or bitmap operator, in compatible mode. *)
  Definition planned_zero (od : option descriptor) (z : option datum) : Prop :=
    if cf_compatible cf
    then exists d x, od = Some d /\ z = Some x /\ holds d (bare NONNEG_CODE 0) x
    else z = None.
  (** [lays h n h']: when the events [h] come before, the node [n] can have the data that [h']
      adds. *)
  Inductive lays : history -> anode -> history -> Prop :=
  | lay_absent h od ms b a :
      lays h (ANode (KElement true) od ms b a) (EvNote od :: h)
  | lay_element h d e fs x ms b a :
      d_entry d = EB e ->
      Forall2 (fun w f => holds (associated d) (bare NONNEG_CODE w) f)
        (if id_X (d_id d) =? 31 then [] else open_fields h) fs ->
      holds d (packing h e) x ->
      lays h (ANode (KElement false) (Some d) ms b a) (EvElement fs x :: h)
  | lay_031021 h d e x ms b a :
      d_entry d = EB e -> holds d (packing h e) x ->
      lays h (ANode KE031021 (Some d) ms b a) (EvItem KE031021 x :: h)
  | lay_sequence h od ms b a h' :
      lays_list h ms h' -> lays h (ANode KSequence od ms b a) h'
  | lay_fixed h d ms b a h' :
      lays_times (Z.to_nat (id_Y (d_id d))) h ms h' -> lays h (ANode KFixed (Some d) ms b a) h'
  | lay_delayed h od m ms b a h1 n h' :
      lays h m h1 -> factor cf h1 n -> lays_times n h1 ms h' ->
      lays h (ANode KDelayed od (m :: ms) b a) h'
  | lay_plain_op h k op d ms b a :
      In (k, op) [(KNbitsOffset, 201); (KScaleOffset, 202); (KModifyPacking, 207); (KSetStringLength, 208)] ->
      lays h (ANode k (Some d) ms b a) (EvOp op d :: h)
  | lay_refval h d ms b a :
      id_Operand (d_id d) = 255 \/ ms = [] ->
      lays h (ANode KNewRefval (Some d) ms b a) (EvOp 203 d :: h)
  | lay_assoc h d ms b a h' :
      (id_Y (d_id d) = 0 -> open_fields h <> []) ->
      lays_list (EvOp 204 d :: h) ms h' -> lays h (ANode KAssocField (Some d) ms b a) h'
  | lay_insert h d x ms b a :
      holds d (bare STRING (8 * id_Y (d_id d))) x ->
      lays h (ANode KInsertString (Some d) ms b a) (EvItem KInsertString x :: h)
  | lay_local h d m md x ms b a :
      an_desc m = Some md -> holds md (bare BINARY (id_Y (d_id d))) x ->
      lays h (ANode KSkipLocal (Some d) (m :: ms) b a) (EvItem KSkipLocal x :: h)
  | lay_not_present h od ms b a h' :
      lays_list (EvNote od :: h) ms h' -> lays h (ANode KDataNotPresent od ms b a) h'
  | lay_assess h od ms bm at_ z h2 h3 ps h4 :
      planned_zero od z ->
      lays (EvZero z :: EvAssess od :: h) bm h2 -> lays_list h2 at_ h3 ->
      selects cf h3 ps ->
      lays_list (EvTargets ps :: h3) ms h4 ->
      (ncells h4 - ncells h3 <= length ps)%nat ->
      lays h (ANode KAssessment od ms (Some bm) at_) h4
  | lay_marker h d p ps t e x ms b a :
      targets_left h = p :: ps -> nth_error (data h) p = Some t ->
      d_entry (dt_desc t) = EB e -> holds d (marker_packing h (dt_desc t) e) x ->
      lays h (ANode KMarker (Some d) ms b a) (EvItem KMarker x :: h)
  | lay_cancel_backref h od ms b a :
      lays h (ANode KCancelBackRef od ms b a) (EvCancelBackref :: h)
  | lay_cancel_bitmap h od ms b a :
      lays h (ANode KCancelBitmap od ms b a) (EvCancelBitmap :: h)
  | lay_recall h d ms b a z :
      d_id d = ID_237000 -> planned_zero (Some d) z ->
      lays h (ANode KBitmap (Some d) ms b a) (EvRecall :: EvZero z :: h)
  | lay_define h d ms b a z h' :
      d_id d <> ID_237000 -> planned_zero (Some d) z ->
      lays_list (EvDefine :: EvZero z :: h) ms h' -> bitmap h' <> None ->
      lays h (ANode KBitmap (Some d) ms b a) (EvDefined :: h')
  with lays_list : history -> list anode -> history -> Prop :=
  | lay_nil h : lays_list h [] h
  | lay_cons h n ns h1 h2 : lays h n h1 -> lays_list h1 ns h2 -> lays_list h (n :: ns) h2
  with lays_times : nat -> history -> list anode -> history -> Prop :=
  | lay_0 h ns : lays_times 0 h ns h
  | lay_S k h ns h1 h2 : lays_list h ns h1 -> lays_times k h1 ns h2 -> lays_times (S k) h ns h2.

  (** The data of one subset, in order, for the template nodes [ms]. *)
  Definition laid (ms : list anode) (its : list (placed rawval)) : Prop :=
    (exists h, lays_list [] ms h /\
       data h = map (fun it => planned (fst (fst it)) (snd (fst it)) [raw_value (snd (fst it)) (snd it)]) its) /\
    Forall (fun it => raw_fits (snd (fst it)) (snd it)) its.
  (** The same for [n] subsets at once. *)
  Definition laid_columns (n : Z) (ms : list anode) (its : list (placed ccolumn)) : Prop :=
    (exists h, lays_list [] ms h /\
       data h = map (fun it => planned (fst (fst it)) (snd (fst it)) (map (raw_value (snd (fst it))) (cc_vals (snd it)))) its) /\
    Forall (fun it => column_fits n (snd (fst it)) (snd it)) its.
  (** The same, where the subsets agree on the bits of the bitmaps. *)
  Definition laid_alike (n : Z) (ms : list anode) (its : list (placed ccolumn)) : Prop :=
    (exists h, lays_list [] ms h /\ same_bits h /\
       data h = map (fun it => planned (fst (fst it)) (snd (fst it)) (map (raw_value (snd (fst it))) (cc_vals (snd it)))) its) /\
    Forall (fun it => column_fits n (snd (fst it)) (snd it)) its.
End Lays.

(** Packings whose fields the bit writer can write: numbers of up to 64 bits. *)
Definition usable (info : pinfo) : Prop :=
  match pi_unit info with
  | STRING | BINARY => 0 <= pi_nbits info
  | CODE => 1 <= pi_nbits info <= 64
  | _ => 0 <= pi_nbits info <= 64
  end.
