(** What the data section of a decoded message must have contained (C68, converse).  The
    data are described by the layouts of SpecPlan.v and SpecColumns.v, which mention neither
    a reader nor the decoder. *)
From Verif Require Export SpecMessage SpecPlan SpecColumns SpecBits.

(** [bits] are data for the template [ids] under the tables [g]: [n] subsets laid out one
    after the other, or columns for [n] subsets; their values are those of [subs].  (Plain
    data are the bits the bit writer produces from them, if no field is a signed code.) *)
Definition holds_data (fc : fconfig) (g : group) (ids : list Z) (n : Z) (c : bool) (bits : list bool) (subs : list subset) : Prop :=
  let cf := mkConfig c false (fc_compatible fc) n (fc_plat fc) (fc_fuel fc) in
  exists ms, parsed g ids ms /\
    if c
    then exists its, filled cf ms its /\ bits = flat_map (fun it => column_bits (snd it)) its /\
           payload_values subs = map (row n its) (seq 0 (Z.to_nat n))
    else exists itss, n = blen itss /\ Forall (laid cf ms) itss /\ payload_values subs = map values_of itss /\
           ((forall sb x, In sb subs -> In x (sb_cells sb) -> pi_unit (vn_info (c_node x)) <> CODE) ->
              forall w, mapM_ write_item (written (concat itss)) new_bitwriter = (w, Ok tt) -> bits = w).
(** The values and packings for which that is claimed: no local field cut off by the end of
    the stream (C41), no negative width, and at most 64 bits for a plain number. *)
Definition plausible (c : bool) (subs : list subset) : Prop :=
  forall sb x, In sb subs -> In x (sb_cells sb) ->
    if c then ordinary (vn_info (c_node x)) else c_val x <> VBin None /\ usable (vn_info (c_node x)).
