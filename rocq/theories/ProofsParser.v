(** The parser without its identifier cursor, and its refinement by the model. *)
From Coq Require Import ZifyBool ZifyNat.
From Verif Require Export SpecParser ProofsTemplate.

Definition flags : Type := (bool * bool)%type.   (* notPresent, skipLocal *)

Section One.
  Variable g : group.
  Variable proc : list Z -> M flags (list anode).
  Definition pop (ids : list Z) (node : anode) : M flags anode :=
    (ms <- proc ids ;; ret (with_members node ms)).
  Definition lookup (id : Z) : M flags descriptor := lift_res (Lookup g id).
  Definition takeN_list (n : Z) (ids : list Z) : list Z * list Z :=
    (firstn (Z.to_nat n) ids ++ repeat 0 (Z.to_nat n - length (firstn (Z.to_nat n) ids)),
     skipn (Z.to_nat n) ids).
  Definition sub (split : list Z * list Z) (node : anode) : M flags (anode * list Z) :=
    (n <- pop (fst split) node ;; ret (n, snd split)).
  Definition subN (n : Z) (ids : list Z) (node : anode) : M flags (anode * list Z) :=
    if n <? 0 then throw PMake else sub (takeN_list n ids) node.

  Definition bitmap_one (ids : list Z) : M flags (anode * list Z) :=
    match ids with
    | [] => throw PIndex
    | id :: r =>
        (d <- lookup id ;;
         if d_id d =? ID_237000 then ret (leaf KBitmap d, r)
         else if (id_F (d_id d) =? 1) || (d_id d =? ID_031031) then
           sub (takeWhile_list (fun id => id =? ID_031031) false ids) (ANode KBitmap None [] None [])
         else if d_id d =? ID_236000 then
           sub (takeWhile_list (fun id => id =? ID_031031) false r) (ANode KBitmap (Some d) [] None [])
         else fail (EMsg "invalid bitmap definition"))
    end.
  Definition assess_one (d : descriptor) (attrP memP : Z -> bool) (ids : list Z)
    : M flags (anode * list Z) :=
    (x <- bitmap_one ids ;; let '(bm, r1) := x in
     let '(aids, r2) := takeTill_list attrP r1 in
     attrs <- proc aids ;;
     sub (takeWhile_list memP false r2) (ANode KAssessment (Some d) [] (Some bm) attrs)).
  Definition marked_one (id0 id255 : Z) (d : descriptor) (r : list Z) : M flags (anode * list Z) :=
    if d_id d =? id0 then
      assess_one d (fun id => (id_F id =? 1) || (id =? id255)) (fun id => id =? id255) r
    else if d_id d =? id255 then ret (leaf KMarker d, r)
    else fail (EMsg "invalid operand").
  Definition operator_one (id : Z) (r : list Z) : M flags (anode * list Z) :=
    (d <- lookup id ;;
     let op := id_Operator (d_id d) in
     if op =? 201 then ret (leaf KNbitsOffset d, r)
     else if op =? 202 then ret (leaf KScaleOffset d, r)
     else if op =? 203 then
       if id_Operand (d_id d) =? 255 then ret (leaf KNewRefval d, r)
       else sub (takeTill_list (fun id => id =? ID_203255) r) (leaf KNewRefval d)
     else if op =? 204 then
       if negb (id_Y (d_id d) =? 0) then subN 1 r (leaf KAssocField d) else ret (leaf KAssocField d, r)
     else if op =? 205 then ret (leaf KInsertString d, r)
     else if op =? 206 then
       (modify (fun f => (fst f, true)) ;;
        defer (fun f => (fst f, false)) (subN 1 r (leaf KSkipLocal d)))
     else if op =? 207 then ret (leaf KModifyPacking d, r)
     else if op =? 208 then ret (leaf KSetStringLength d, r)
     else if op =? 221 then
       (modify (fun f => (true, snd f)) ;;
        defer (fun f => (false, snd f)) (subN (id_Y (d_id d)) r (leaf KDataNotPresent d)))
     else if op =? 222 then
       if negb (d_id d =? ID_222000) then fail (EMsg "invalid operand")
       else assess_one d (fun id => (id_F id =? 1) || qa_member id) qa_member r
     else if op =? 223 then marked_one ID_223000 ID_223255 d r
     else if op =? 224 then marked_one ID_224000 ID_224255 d r
     else if op =? 225 then marked_one ID_225000 ID_225255 d r
     else if op =? 232 then marked_one ID_232000 ID_232255 d r
     else if op =? 235 then ret (leaf KCancelBackRef d, r)
     else if op =? 236 then bitmap_one (id :: r)
     else if op =? 237 then
       if id_Operand (d_id d) =? 255 then ret (leaf KCancelBitmap d, r)
       else bitmap_one (id :: r)
     else if (op =? 241) || (op =? 242) || (op =? 243) then fail (EMsg "operator not implemented")
     else fail (EMsg "unrecognised operator")).
  Definition one (ids : list Z) : M flags (anode * list Z) :=
    match ids with
    | [] => throw PIndex
    | id :: r =>
        if id_F id =? F_SEQUENCE then
          (d <- lookup id ;;
           match d_entry d with
           | ED ms => n <- pop ms (leaf KSequence d) ;; ret (n, r)
           | _ => throw PType
           end)
        else if (id_F id =? F_REPLICATION) && (id_Y id =? 0) then
          (d <- lookup id ;; subN (id_X (d_id d) + 1) r (leaf KDelayed d))
        else if id_F id =? F_REPLICATION then
          (d <- lookup id ;; subN (id_X (d_id d)) r (leaf KFixed d))
        else if id_F id =? F_OPERATOR then operator_one id r
        else if id_F id =? F_ELEMENT then
          (skip <- gets snd ;;
           d <- (if skip : bool then ret (NewLocalDescriptor id) else lookup id) ;;
           ret (element_node d, r))
        else fail (EMsg "unknown ID")
    end.
End One.

(** The parser on identifier lists. *)
Fixpoint pt (g : group) (fuel : nat) (ids : list Z) : M flags (list anode) :=
  match fuel with
  | O => lift_res NoFuel
  | S k => match ids with
           | [] => ret []
           | _ => (x <- one g (pt g k) ids ;; let '(n, rest) := x in
                   ns <- pt g k rest ;;
                   ret (n :: ns))
           end
  end.

Definition fl (s : pst) : flags := (p_notPresent s, p_skipLocal s).
Definition sim {A} (x : pst * res A) (y : flags * res (A * list Z)) : Prop :=
  fl (fst x) = fst y /\
  match snd x, snd y with
  | Ok a, Ok (b, rest) => a = b /\ k_rest (p_keeper (fst x)) = rest
  | Err e, Err e' => e = e'
  | Panic p, Panic p' => p = p'
  | NoFuel, NoFuel => True
  | _, _ => False
  end.
(** The cursor-based and the list-based nested parsers agree. *)
Definition agrees (process : M pst (list anode)) (proc : list Z -> M flags (list anode)) : Prop :=
  forall np sk don ids,
    match process (mkPst np sk (mkKeeper don ids)), proc ids (np, sk) with
    | (s, r), (f, r') => fl s = f /\ r = r'
    end.

Section Sim.
  Variable g : group.
  Variable process : M pst (list anode).
  Variable proc : list Z -> M flags (list anode).
  Hypothesis Hp : agrees process proc.

  Lemma with_ids_eq ids np sk k :
    with_ids ids process (mkPst np sk k)
    = (mkPst (fst (fst (proc ids (np, sk)))) (snd (fst (proc ids (np, sk)))) k, snd (proc ids (np, sk))).
  Proof.
    unfold with_ids, set_keeper, newIdsKeeper. cbn [p_notPresent p_skipLocal p_keeper].
    pose proof (Hp np sk [] ids) as H. destruct (process _) as [s r], (proc ids (np, sk)) as [f r'].
    destruct H as [<- <-]. reflexivity.
  Qed.
  Lemma populate_eq ids node np sk k :
    populateMembers process ids node (mkPst np sk k)
    = (mkPst (fst (fst (pop proc ids node (np, sk)))) (snd (fst (pop proc ids node (np, sk)))) k,
       snd (pop proc ids node (np, sk))).
  Proof.
    unfold populateMembers, pop, bind. rewrite with_ids_eq.
    destruct (proc ids (np, sk)) as [[a b] [ms|e|p|]]; reflexivity.
  Qed.
  Lemma sub_sim split node np sk don :
    sim (populateMembers process (fst split) node (mkPst np sk (mkKeeper don (snd split))))
        (sub proc split node (np, sk)).
  Proof.
    rewrite populate_eq. unfold sub, bind. destruct (pop proc (fst split) node (np, sk)) as [[a b] [n|e|p|]];
      repeat split.
  Qed.
  Lemma bind_sub_sim (m : M pst (list Z)) s split node np sk don :
    m s = (mkPst np sk (mkKeeper don (snd split)), Ok (fst split)) ->
    sim ((ids <- m ;; populateMembers process ids node) s) (sub proc split node (np, sk)).
  Proof. intros H. unfold bind. rewrite H. apply sub_sim. Qed.

  Lemma takeN_eq n np sk don ids : n <? 0 = false ->
    takeN n (mkPst np sk (mkKeeper don ids))
    = (mkPst np sk (mkKeeper (rev (firstn (Z.to_nat n) ids) ++ don) (snd (takeN_list n ids))),
       Ok (fst (takeN_list n ids))).
  Proof. intros Hn. unfold takeN. rewrite Hn. reflexivity. Qed.
  Lemma subN_sim n ids node np sk don :
    sim ((ids <- takeN n ;; populateMembers process ids node) (mkPst np sk (mkKeeper don ids)))
        (subN proc n ids node (np, sk)).
  Proof.
    unfold subN. destruct (n <? 0) eqn:Hn.
    - unfold bind, takeN. rewrite Hn. repeat split.
    - eapply bind_sub_sim. now apply takeN_eq.
  Qed.
  Lemma take_by_eq f np sk don ids :
    take_by f (mkPst np sk (mkKeeper don ids))
    = (mkPst np sk (mkKeeper (rev (fst (f ids)) ++ don) (snd (f ids))), Ok (fst (f ids))).
  Proof. unfold take_by. cbn [p_keeper k_rest k_done]. now destruct (f ids). Qed.
  Lemma take_by_sim f ids node np sk don :
    sim ((ids <- take_by f ;; populateMembers process ids node) (mkPst np sk (mkKeeper don ids)))
        (sub proc (f ids) node (np, sk)).
  Proof. eapply bind_sub_sim. apply take_by_eq. Qed.

  Lemma lookup_take_eq {A B} (f : descriptor -> M pst A) (f' : descriptor -> M flags (B)) id r np sk don :
    forall (R : pst * res A -> flags * res B -> Prop),
    (forall d, Lookup g id = Ok d -> R (f d (mkPst np sk (mkKeeper (id :: don) r))) (f' d (np, sk))) ->
    (forall e, R (mkPst np sk (mkKeeper (id :: don) r), Err e) ((np, sk), Err e)) ->
    R ((d <- lookup_take g ;; f d) (mkPst np sk (mkKeeper don (id :: r))))
      ((d <- lookup g id ;; f' d) (np, sk)).
  Proof.
    intros R Hf He. unfold lookup_take, lookup, bind, take, lift_res.
    cbn [p_keeper k_rest k_done set_keeper p_notPresent p_skipLocal].
    destruct (Lookup g id) as [d|e|p|] eqn:HL; [apply Hf; reflexivity|apply He|..];
      destruct (Lookup_total g id) as [[d Hd]|[[e Hd] _]]; congruence.
  Qed.
  Lemma sim_err {A} np sk k e : sim (A := A) (mkPst np sk k, Err e) ((np, sk), Err e).
  Proof. repeat split. Qed.
  Lemma sim_ret {A} np sk don r (a : A) : sim (ret a (mkPst np sk (mkKeeper don r))) (ret (a, r) (np, sk)).
  Proof. repeat split. Qed.

  Lemma bitmap_sim ids np sk don :
    sim (parseBitmapNode g process (mkPst np sk (mkKeeper don ids))) (bitmap_one g proc ids (np, sk)).
  Proof.
    destruct ids as [|id r]; [repeat split|].
    unfold parseBitmapNode, bitmap_one. apply lookup_take_eq; [|intros; apply sim_err].
    intros d HL. destruct (d_id d =? ID_237000); [apply sim_ret|].
    destruct ((id_F (d_id d) =? 1) || (d_id d =? ID_031031)).
    { unfold bind at 1. unfold back. cbn [p_keeper k_rest k_done set_keeper p_notPresent p_skipLocal].
      apply take_by_sim. }
    destruct (d_id d =? ID_236000); [apply take_by_sim|]. apply sim_err.
  Qed.
  Lemma assess_sim d attrP memP ids np sk don :
    sim (assembleAssessmentNode g process d attrP memP (mkPst np sk (mkKeeper don ids)))
        (assess_one g proc d attrP memP ids (np, sk)).
  Proof.
    unfold assembleAssessmentNode, assess_one.
    pose proof (bitmap_sim ids np sk don) as H. unfold bind at 1. unfold bind at 4.
    destruct (parseBitmapNode g process _) as [[np1 sk1 [don1 r1]] [bm|e|p|]],
             (bitmap_one g proc ids (np, sk)) as [f [[bm' r1']|e'|p'|]];
      destruct H as [Hf H]; unfold fl in Hf; cbn [fst snd fl p_notPresent p_skipLocal p_keeper k_rest] in *; subst;
      try contradiction; [|subst; repeat split..].
    destruct H as [-> Hr]. cbn [k_rest] in Hr. subst r1'.
    unfold bind at 1. unfold takeTill. rewrite take_by_eq.
    destruct (takeTill_list attrP r1) as [aids r2] eqn:Et. cbn [fst snd].
    unfold bind at 1. rewrite with_ids_eq. unfold bind at 2.
    destruct (proc aids (np1, sk1)) as [[np2 sk2] [attrs|e|p|]]; [|repeat split..].
    cbn [fst snd]. exact (take_by_sim (takeWhile_list memP false) r2 (ANode KAssessment (Some d) [] (Some bm') attrs) np2 sk2 _).
  Qed.
  Lemma marked_sim id0 id255 d r np sk don :
    sim (assembleOpMarked g process id0 id255 d (mkPst np sk (mkKeeper don r)))
        (marked_one g proc id0 id255 d r (np, sk)).
  Proof.
    unfold assembleOpMarked, marked_one. destruct (d_id d =? id0); [apply assess_sim|].
    destruct (d_id d =? id255); [apply sim_ret|apply sim_err].
  Qed.
  Lemma defer_sim {A} (h : pst -> pst) (h' : flags -> flags) (x : M pst A) (y : M flags (A * list Z)) s f :
    (forall s, fl (h s) = h' (fl s) /\ p_keeper (h s) = p_keeper s) ->
    sim (x s) (y f) -> sim (defer h x s) (defer h' y f).
  Proof.
    intros Hh H. unfold defer. destruct (x s) as [s' r], (y f) as [f' r']. destruct H as [H1 H2].
    cbn [fst snd] in *. destruct (Hh s') as [Hf Hk]. split; cbn [fst snd]; [congruence|].
    destruct r, r'; try assumption. now rewrite Hk.
  Qed.
  Lemma operator_sim id r np sk don :
    sim (parseOperatorNode g process (mkPst np sk (mkKeeper don (id :: r))))
        (operator_one g proc id r (np, sk)).
  Proof.
    unfold parseOperatorNode, operator_one. apply lookup_take_eq; [|intros; apply sim_err].
    intros d HL. cbv zeta.
    repeat match goal with
    | |- sim ((if ?c then ret _ else _) _) _ => destruct c; [apply sim_ret|]
    end.
    destruct (_ =? 203).
    { unfold assembleOpNewRefvalNode. destruct (id_Operand (d_id d) =? 255); [apply sim_ret|]. apply take_by_sim. }
    destruct (_ =? 204).
    { unfold assembleOpAssocFieldNode. destruct (negb _); [apply subN_sim|apply sim_ret]. }
    destruct (_ =? 205); [apply sim_ret|].
    destruct (_ =? 206).
    { unfold assembleOpSkipLocalNode. unfold bind at 1. unfold bind at 2. unfold modify.
      apply defer_sim; [intros []; split; reflexivity|].
      cbn [p_keeper k_rest k_done set_keeper p_notPresent p_skipLocal fst snd]. apply subN_sim. }
    destruct (_ =? 207); [apply sim_ret|].
    destruct (_ =? 208); [apply sim_ret|].
    destruct (_ =? 221).
    { unfold assembleOpDataNotPresentNode. unfold bind at 1. unfold bind at 2. unfold modify.
      apply defer_sim; [intros []; split; reflexivity|].
      cbn [p_keeper k_rest k_done set_keeper p_notPresent p_skipLocal fst snd]. apply subN_sim. }
    destruct (_ =? 222).
    { unfold assembleOpQaInfoNode. destruct (negb _); [apply sim_err|apply assess_sim]. }
    destruct (_ =? 223); [apply marked_sim|].
    destruct (_ =? 224); [apply marked_sim|].
    destruct (_ =? 225); [apply marked_sim|].
    destruct (_ =? 232); [apply marked_sim|].
    destruct (_ =? 235); [apply sim_ret|].
    destruct (_ =? 236).
    { unfold bind, back. cbn [p_keeper k_rest k_done set_keeper p_notPresent p_skipLocal]. apply bitmap_sim. }
    destruct (_ =? 237).
    { destruct (id_Operand (d_id d) =? 255); [apply sim_ret|].
      unfold bind, back. cbn [p_keeper k_rest k_done set_keeper p_notPresent p_skipLocal]. apply bitmap_sim. }
    destruct (_ || _ || _); apply sim_err.
  Qed.
  Lemma notPresent_false np d : notPresent np d = false.
  Proof. unfold notPresent. destruct np; [cbn [negb]; lia|reflexivity]. Qed.
  Lemma one_sim id r np sk don :
    sim (parse_one g process (mkPst np sk (mkKeeper don (id :: r))))
        (one g proc (id :: r) (np, sk)).
  Proof.
    unfold parse_one. unfold bind at 1. unfold peek, take, back, bind at 1. cbn [p_keeper k_rest k_done set_keeper p_notPresent p_skipLocal].
    unfold bind at 1. cbn [p_keeper k_rest k_done set_keeper p_notPresent p_skipLocal]. unfold ret at 1.
    unfold set_keeper. cbn [p_keeper k_rest k_done p_notPresent p_skipLocal]. unfold one. destruct (id_F id =? F_SEQUENCE).
    { unfold parseSequenceNode. apply lookup_take_eq; [|intros; apply sim_err].
      intros d HL. destruct (d_entry d); [repeat split..|].
      apply (sub_sim (members, r) (leaf KSequence d) np sk (id :: don)). }
    destruct ((id_F id =? F_REPLICATION) && (id_Y id =? 0)).
    { unfold parseDelayedReplicationNode. apply lookup_take_eq; [|intros; apply sim_err]. intros d HL. apply subN_sim. }
    destruct (id_F id =? F_REPLICATION).
    { unfold parseFixedReplicationNode. apply lookup_take_eq; [|intros; apply sim_err]. intros d HL. apply subN_sim. }
    destruct (id_F id =? F_OPERATOR); [apply operator_sim|].
    destruct (id_F id =? F_ELEMENT); [|apply sim_err].
    unfold parseElementNode. unfold bind at 1. unfold bind at 4. unfold gets.
    cbn [p_keeper k_rest k_done set_keeper p_notPresent p_skipLocal snd].
    assert (Hn : forall d, sim ((np <- (fun s => (s, Ok (p_notPresent s))) ;;
        ret (if d_id d =? ID_031021 then leaf KE031021 d
          else leaf (KElement (notPresent np d)) d)) (mkPst np sk (mkKeeper (id :: don) r)))
        (ret (element_node d, r) (np, sk))).
    { intros d. unfold bind. rewrite notPresent_false. apply sim_ret. }
    destruct sk.
    - exact (Hn (NewLocalDescriptor id)).
    - apply lookup_take_eq; [|intros; apply sim_err]. intros d HL. apply Hn.
  Qed.
End Sim.

Lemma pt_agrees g k : agrees (processThrough g k) (pt g k).
Proof.
  induction k as [|k IH]; intros np sk don ids; [split; reflexivity|].
  cbn [processThrough pt]. destruct ids as [|id r]; [split; reflexivity|].
  cbn [eof k_rest p_keeper].
  pose proof (one_sim g _ _ IH id r np sk don) as H.
  unfold eof. cbn [p_keeper k_rest].
  unfold bind at 1. unfold bind at 2.
  destruct (parse_one g (processThrough g k) _) as [[np1 sk1 [don1 r1]] [n|e|p|]],
           (one g (pt g k) (id :: r) (np, sk)) as [f [[n' r1']|e'|p'|]];
    destruct H as [Hf H]; unfold fl in Hf; cbn [fst snd fl p_notPresent p_skipLocal p_keeper k_rest] in *; subst;
    try contradiction; [|subst; repeat split..].
  destruct H as [-> <-]. cbn [k_rest].
  pose proof (IH np1 sk1 don1 r1) as H. unfold bind.
  destruct (processThrough g k _) as [s r'], (pt g k r1 (np1, sk1)) as [f r2]. destruct H as [<- ->].
  destruct r2; split; reflexivity.
Qed.
Lemma Parse_pt g k ids f : Parse g k ids f
  = (fst (pt g k ids f),
     match snd (pt g k ids f) with
     | Ok ms => Ok (ANode KBase (Some RootDescriptor) ms None [])
     | Err e => Err e | Panic p => Panic p | NoFuel => NoFuel end).
Proof.
  destruct f as [np sk]. unfold Parse, newIdsKeeper. cbn [fst snd].
  pose proof (pt_agrees g k np sk [] ids) as H.
  destruct (processThrough g k _) as [s r], (pt g k ids (np, sk)) as [f r']. destruct H as [<- ->]. reflexivity.
Qed.
