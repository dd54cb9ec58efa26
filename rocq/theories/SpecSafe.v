(** Templates that cannot crash the decoder (C65). *)
From Verif Require Export SpecRun.

(** Tables as loaded: no negative widths and only the units that Table B files name. *)
Definition loaded_tables (g : group) : Prop :=
  forall id d e, Lookup g id = Ok d -> d_entry d = EB e ->
    0 <= be_nbits e /\ In (be_unit e) [NUMERIC; STRING; NONNEG_CODE; FLAG].

(** Elements, replications, sequences and the operators 201, 202, 204-208. *)
Definition plain_id (id : Z) : bool :=
  existsb (Z.eqb (id / 100000)) [0; 1; 3] || existsb (Z.eqb (id / 1000)) [201; 202; 204; 205; 206; 207; 208].
(** No 204000 in this list of nodes without a 204YYY before it in the same list; [open] of
    them are open already. *)
Fixpoint closes_opened (open : nat) (l : list anode) : Prop :=
  match l with
  | [] => True
  | n :: l' =>
      match an_desc n with
      | Some d =>
          if d_id d / 1000 =? 204
          then if d_id d mod 1000 =? 0 then (0 < open)%nat /\ closes_opened (pred open) l'
               else closes_opened (S open) l'
          else closes_opened open l'
      | None => closes_opened open l'
      end
  end.
(** A delayed replication (1XX000) starts with an element, its factor; when the data are
    compressed it is not a character element. *)
Definition factor_first (compressed : bool) (n : anode) : Prop :=
  forall d, an_desc n = Some d -> d_id d / 100000 = 1 -> d_id d mod 1000 = 0 ->
    exists m fd e, hd_error (an_members n) = Some m /\ an_desc m = Some fd /\ d_id fd / 100000 = 0 /\
      d_entry fd = EB e /\ (compressed = true -> be_unit e <> STRING).
(** All of it; compressed data in addition without 206YYY. *)
Definition plain_node (compressed : bool) (n : anode) : Prop :=
  (exists d, an_desc n = Some d /\ plain_id (d_id d) = true /\ (compressed = true -> d_id d / 1000 <> 206)) /\
  closes_opened 0 (an_members n) /\ factor_first compressed n.
Definition plain_template (compressed : bool) (ms : list anode) : Prop :=
  closes_opened 0 ms /\ Forall (all_nodes (plain_node compressed)) ms.
(** No local descriptors. *)
Definition without_206 (ms : list anode) : Prop :=
  Forall (all_nodes (fun n => forall d, an_desc n = Some d -> d_id d / 1000 <> 206)) ms.

(** ** What a crash needs *)

(** No node anywhere in the template carries such an identifier. *)
Definition avoids (P : Z -> bool) (ms : list anode) : Prop :=
  Forall (all_nodes (fun n => forall d, an_desc n = Some d -> P (d_id d) = false)) ms.
Definition is_operator (x id : Z) : bool := id / 1000 =? x.
(** 203YYY, YYY not 255; 2YY000 that refer to a bitmap; their markers; 236000. *)
Definition new_refval_id (id : Z) : bool := (id / 1000 =? 203) && negb (id =? 203255).
Definition assessment_id (id : Z) : bool := existsb (Z.eqb id) [222000; 223000; 224000; 225000; 232000].
Definition marker_id (id : Z) : bool := existsb (Z.eqb id) [223255; 224255; 225255; 232255].
Definition bitmap_id (id : Z) : bool := id =? 236000.
(** Every 204000 closes something. *)
Definition balanced (ms : list anode) : Prop :=
  closes_opened 0 ms /\ Forall (all_nodes (fun n => closes_opened 0 (an_members n))) ms.
Definition good_factors (compressed : bool) (ms : list anode) : Prop :=
  Forall (all_nodes (factor_first compressed)) ms.
(** The ways decoding can break down, and what a template must be like for each not to happen:
    [n] subsets, compressed if [c]. *)
Inductive breakdown : Type := Crash (p : panic) | Endless.
Definition in_breakdown {A} (x : res A) (b : breakdown) : Prop :=
  match b with Crash p => x = Panic p | Endless => x = NoFuel end.
Definition excluded (n : Z) (c : bool) (ms : list anode) (b : breakdown) : Prop :=
  match b with
  | Endless => c = true -> avoids (is_operator 206) ms
  | Crash PIndex => balanced ms /\ good_factors false ms /\ avoids marker_id ms /\ avoids assessment_id ms /\
      (c = true -> 0 < n)
  | Crash PNilMap => avoids new_refval_id ms
  | Crash PCompare => c = true -> good_factors true ms
  | Crash PType => avoids marker_id ms /\ (c = true -> avoids new_refval_id ms)
  | Crash PNil => avoids assessment_id ms /\ avoids bitmap_id ms
  | Crash PMake => avoids assessment_id ms
  | Crash PDiv => True
  end.
