(** Attributes in the hierarchical view (C67): which values are members of which. *)
From Verif Require Export SpecRun.

(** "Cell [q] becomes a member of cell [p]"; no cell stands for a nil member. *)
Notation link := (nat * option nat)%type.
(** The members of cell [p], in the order in which they were added. *)
Definition children (p : nat) (ls : list link) : list (option nat) :=
  map snd (filter (fun l => Nat.eqb (fst l) p) ls).

(** For each open 204 operator, outermost first, the cell of the 031021 that last gave its
    significance. *)
Fixpoint significances (h : history) : list (option nat) :=
  match h with
  | [] => []
  | EvOp o d :: h' =>
      if o =? 204
      then if id_Operand (d_id d) =? 0 then removelast (significances h') else significances h' ++ [None]
      else significances h'
  | EvItem KE031021 _ :: h' =>
      match significances h' with [] => [] | l => removelast l ++ [Some (ncells h')] end
  | _ :: h' => significances h'
  end.
(** An element at [p + n] whose [n] associated fields are the cells from [p] on: each field has
    its significance as a member and is itself a member of the element. *)
Definition field_links (sigs : list (option nat)) (p n : nat) : list link :=
  map (fun j => (p + j, nth j sigs None))%nat (seq 0 n) ++ map (fun q => (p + n, Some q))%nat (seq p n).
Definition own_links (h' : history) : list link :=
  match h' with
  | EvElement fs _ :: h => field_links (significances h) (ncells h) (length fs)
  | _ => []
  end.
(** Quality and statistics operators: the cells from [n3] to [n4] are the sources, the i-th is
    a member of the i-th selected target and has the cells from [n2] to [n3] (the attributes
    between the bitmap and the sources) as members. *)
Definition source_links (ps : list nat) (n2 n3 n4 : nat) : list link :=
  flat_map (fun i => (nth i ps 0, Some (n3 + i)) :: map (fun a => (n3 + i, Some a)) (seq n2 (n3 - n2)))%nat
    (seq 0 (n4 - n3)).

(** Nodes that are not made of others. *)
Definition undivided (n : anode) : Prop :=
  match an_kind n with
  | KSequence | KFixed | KDelayed | KAssocField | KDataNotPresent | KAssessment => False
  | KBitmap => option_map d_id (an_desc n) = Some ID_237000
  | _ => True
  end.

Section Links.
  Variable cf : config.
  (** [runs] of SpecRun.v with the links made on the way. *)
  Inductive links : history -> reader -> anode -> history -> reader -> list link -> Prop :=
  | link_leaf h r n h' r' : undivided n -> runs cf h r n h' r' -> links h r n h' r' (own_links h')
  | link_sequence h r od ms b a h' r' ls :
      links_list h r ms h' r' ls -> links h r (ANode KSequence od ms b a) h' r' ls
  | link_fixed h r d ms b a h' r' ls :
      links_times (Z.to_nat (id_Y (d_id d))) h r ms h' r' ls ->
      links h r (ANode KFixed (Some d) ms b a) h' r' ls
  | link_delayed h r od m ms b a h1 r1 ls n h' r' ls' :
      links h r m h1 r1 ls -> factor cf h1 n -> links_times n h1 r1 ms h' r' ls' ->
      links h r (ANode KDelayed od (m :: ms) b a) h' r' (ls ++ ls')
  | link_assoc h r d ms b a h' r' ls :
      (id_Y (d_id d) = 0 -> open_fields h <> []) ->
      links_list (EvOp 204 d :: h) r ms h' r' ls ->
      links h r (ANode KAssocField (Some d) ms b a) h' r' ls
  | link_not_present h r od ms b a h' r' ls :
      links_list (EvNote od :: h) r ms h' r' ls ->
      links h r (ANode KDataNotPresent od ms b a) h' r' ls
  | link_assess h r od ms bm at_ z r1 h2 r2 l1 h3 r3 l2 ps h4 r4 l3 :
      zero_cell cf od r z r1 ->
      links (EvZero z :: EvAssess od :: h) r1 bm h2 r2 l1 ->
      links_list h2 r2 at_ h3 r3 l2 ->
      selects cf h3 ps ->
      links_list (EvTargets ps :: h3) r3 ms h4 r4 l3 ->
      (ncells h4 - ncells h3 <= length ps)%nat ->
      links h r (ANode KAssessment od ms (Some bm) at_) h4 r4
        (l1 ++ l2 ++ l3 ++ source_links ps (ncells h2) (ncells h3) (ncells h4))
  | link_define h r d ms b a z r1 h' r' ls :
      d_id d <> ID_237000 -> zero_cell cf (Some d) r z r1 ->
      links_list (EvDefine :: EvZero z :: h) r1 ms h' r' ls -> bitmap h' <> None ->
      links h r (ANode KBitmap (Some d) ms b a) (EvDefined :: h') r' ls
  with links_list : history -> reader -> list anode -> history -> reader -> list link -> Prop :=
  | link_nil h r : links_list h r [] h r []
  | link_cons h r n ns h1 r1 h2 r2 ls ls' :
      links h r n h1 r1 ls -> links_list h1 r1 ns h2 r2 ls' -> links_list h r (n :: ns) h2 r2 (ls ++ ls')
  with links_times : nat -> history -> reader -> list anode -> history -> reader -> list link -> Prop :=
  | link_0 h r ns : links_times 0 h r ns h r []
  | link_S k h r ns h1 r1 h2 r2 ls ls' :
      links_list h r ns h1 r1 ls -> links_times k h1 r1 ns h2 r2 ls' -> links_times (S k) h r ns h2 r2 (ls ++ ls').
End Links.

(** The node of cell [j] of a list of cells, as a pointer. *)
Definition pointer (l : list cell) (j : nat) : option nat := option_map (fun c => vn_id (c_node c)) (nth_error l j).
(** In the subset [sb] cell nodes are distinct objects, and the members of each are exactly the
    nodes of the cells linked to it. *)
Definition members_are (sb : subset) (ls : list link) : Prop :=
  NoDup (map (fun c => vn_id (c_node c)) (sb_cells sb)) /\
  forall i c, nth_error (sb_cells sb) i = Some c ->
    nth_error (sb_heap sb) (vn_id (c_node c)) =
      Some (mkHnode (NValued (c_node c))
              (map (fun q => match q with Some j => pointer (sb_cells sb) j | None => None end) (children i ls))) /\
    Forall (fun q => match q with Some j => (j < length (sb_cells sb))%nat | None => True end) (children i ls).
(** Nodes without 204 operators and quality or statistics operators. *)
Definition attributeless (n : anode) : Prop :=
  all_nodes (fun m => an_kind m <> KAssocField /\ an_kind m <> KAssessment) n.
(** In the order of decoding: an element's associated fields are its first members, and each
    field's first member is its significance. *)
Definition element_first (h : history) (ls : list link) : Prop :=
  forall later fs x before, h = later ++ EvElement fs x :: before ->
  (exists more, children (ncells before + length fs) ls = map Some (seq (ncells before) (length fs)) ++ more) /\
  forall j, (j < length fs)%nat ->
    exists more, children (ncells before + j) ls = nth j (significances before) None :: more.
(** Executions of a template with the links of each subset (one execution for all subsets of
    compressed data). *)
Inductive subsets_link (cf : config) (ms : list anode) : nat -> reader -> list (history * list link) -> reader -> Prop :=
| link_none r : subsets_link cf ms 0 r [] r
| link_one n r h r1 ls hs r2 :
    links_list cf [] r ms h r1 ls -> subsets_link cf ms n r1 hs r2 -> subsets_link cf ms (S n) r ((h, ls) :: hs) r2.
Definition executes_links (cf : config) (ms : list anode) (r : reader) (hs : list (history * list link)) (r' : reader) : Prop :=
  if columns cf then exists h ls, hs = [(h, ls)] /\ links_list cf [] r ms h r' ls
  else subsets_link cf ms (Z.to_nat (cf_nsubsets cf)) r hs r'.
Definition shows_links (cf : config) (hs : list (history * list link)) (pay : list subset) : Prop :=
  if columns cf
  then exists h ls, hs = [(h, ls)] /\ length pay = Z.to_nat (cf_nsubsets cf) /\
    forall k sb, nth_error pay k = Some sb -> lane_ok k (data h) (sb_cells sb) /\ members_are sb ls
  else Forall2 (fun hl sb => lane_ok 0 (data (fst hl)) (sb_cells sb) /\ members_are sb (snd hl)) hs pay.
