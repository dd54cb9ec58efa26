(** Bitmaps, and the values they announce, given with delayed replication (C76). *)
From Verif Require Export SpecTree.

(** Elements and markers: nodes that decode at least one value. *)
Definition valued (n : anode) : Prop := In (an_kind n) [KElement false; KE031021; KMarker].
(** The number of the datum [x], as decoded for the first subset. *)
Definition counts (cf : config) (x : datum) (z : Z) : Prop :=
  exists v vs, dt_vals x = v :: vs /\ UintValue (cf_plat cf) v = Ok z.
