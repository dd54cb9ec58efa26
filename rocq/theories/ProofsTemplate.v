(** Proofs on template expansion, walking and dumping (C21, C22). *)
From Coq Require Import ZifyBool ZifyNat.
From Verif Require Export SpecTemplate ProofsBase ProofsTable2.

(** Induction over nodes with their member lists. *)
Section TnodeInd.
  Variable P : tnode -> Prop.
  Hypothesis H : forall d f ms, Forall P ms -> P (TNode d f ms).
  Fixpoint tnode_ind' (n : tnode) : P n :=
    match n with
    | TNode d f ms =>
        H d f ms ((fix go (l : list tnode) : Forall P l :=
                     match l with
                     | [] => Forall_nil P
                     | x :: l' => Forall_cons x (tnode_ind' x) (go l')
                     end) ms)
    end.
End TnodeInd.

Lemma fold_and {A} (P : A -> Prop) l : fold_right (fun m Q => P m /\ Q) True l <-> Forall P l.
Proof.
  induction l as [|a l IH]; cbn [fold_right]; [split; auto|]. rewrite IH. split.
  - intros [? ?]. now constructor.
  - inversion 1; auto.
Qed.

Lemma Lookup_id g id d : Lookup g id = Ok d -> d_id d = id.
Proof. intros H. apply Lookup_kind in H. apply H. Qed.

Lemma expansion_flatten g ids nodes : expansion_of g ids nodes -> flat_map flatten nodes = ids.
Proof.
  induction 1 as [|id d rest more HL H1 H3 _ IH|id d ms members rest more HL H3 He _ _ _ IH
    |id d block members rest more HL H1 HY Hlen _ IHb _ IH
    |id d fid fd block members rest more HL H1 HY HLf Hlen _ IHb _ IH]; cbn [flat_map flatten]; [reflexivity|..];
    rewrite (Lookup_id _ _ _ HL).
  - cbn [flat_map app]. rewrite app_nil_r || idtac. destruct (id_F id =? 3); cbn [app]; now rewrite IH.
  - assert (id_F id =? 3 = true) as -> by lia. cbn [app]. now rewrite IH.
  - assert (id_F id =? 3 = false) as -> by lia. cbn [app]. now rewrite IHb, IH.
  - assert (id_F id =? 3 = false) as -> by lia. rewrite (Lookup_id _ _ _ HLf). cbn [app]. now rewrite IHb, IH.
Qed.

Lemma expand_cons k g id rest spare :
  expand (S k) g (id :: rest) spare =
          rbind (Lookup g id) (fun d =>
          if id_F (d_id d) =? F_SEQUENCE then
            match d_entry d with
            | ED ms => rbind (expand k g ms []) (fun members =>
                       rbind (expand k g rest spare) (fun more =>
                       Ok (TNode d None members :: more)))
            | _ => Panic PType
            end
          else if id_F (d_id d) =? F_REPLICATION then
            let body (factor : option descriptor) (rest : list Z) :=
              let n := Z.to_nat (id_X (d_id d)) in
              if (length rest + length spare <? n)%nat then Panic PIndex
              else
                rbind (expand k g (firstn n (rest ++ spare)) (skipn n (rest ++ spare)))
                  (fun members =>
                rbind (expand k g (skipn n rest) (skipn (n - length rest) spare))
                  (fun more => Ok (TNode d factor members :: more))) in
            if id_Y (d_id d) =? 0 then
              match rest with
              | [] => Panic PIndex
              | fid :: rest' => rbind (Lookup g fid) (fun fd => body (Some fd) rest')
              end
            else body None rest
          else rbind (expand k g rest spare) (fun more => Ok (TNode d None [] :: more))).
Proof. reflexivity. Qed.

Lemma rbind_ok {A B} (r : res A) (f : A -> res B) b : rbind r f = Ok b -> exists a, r = Ok a /\ f a = Ok b.
Proof. destruct r; cbn [rbind]; try discriminate. eauto. Qed.

Lemma split_block n (rest spare : list Z) : (n <= length rest + length spare)%nat ->
  exists block r1 s1 over, firstn n (rest ++ spare) = block /\ length block = n /\
    skipn n rest = r1 /\ skipn (n - length rest) spare = s1 /\ spare = over ++ s1 /\
    block ++ r1 = rest ++ over.
Proof.
  intros Hn. exists (firstn n (rest ++ spare)), (skipn n rest), (skipn (n - length rest) spare),
    (firstn (n - length rest) spare).
  repeat split.
  - rewrite firstn_length, app_length. lia.
  - symmetry. apply firstn_skipn.
  - rewrite firstn_app. destruct (Nat.le_gt_cases n (length rest)) as [Hle|Hgt].
    + replace (n - length rest)%nat with 0%nat by lia. cbn [firstn]. rewrite !app_nil_r. apply firstn_skipn.
    + rewrite firstn_all2, skipn_all2 by lia. now rewrite app_nil_r.
Qed.

Lemma expand_sound k : forall g ids spare nodes, expand k g ids spare = Ok nodes ->
  Forall covers_exactly nodes ->
  exists over tail, spare = over ++ tail /\ expansion_of g (ids ++ over) nodes.
Proof.
  induction k as [|k IH]; intros g ids spare nodes H Hc; [discriminate|].
  destruct ids as [|id rest].
  { cbn [expand] in H. injection H as <-. exists [], spare. split; [reflexivity|constructor]. }
  rewrite expand_cons in H. apply rbind_ok in H. destruct H as (d & HL & H).
  pose proof (Lookup_id _ _ _ HL) as Hid. rewrite Hid in H. unfold F_SEQUENCE, F_REPLICATION in H.
  assert (Hbody : forall factor rest,
    (let n := Z.to_nat (id_X id) in
              if (length rest + length spare <? n)%nat then Panic PIndex
              else
                rbind (expand k g (firstn n (rest ++ spare)) (skipn n (rest ++ spare)))
                  (fun members =>
                rbind (expand k g (skipn n rest) (skipn (n - length rest) spare))
                  (fun more => Ok (TNode d factor members :: more)))) = Ok nodes ->
    id_F id = 1 ->
    exists members more block rest' over tail, nodes = TNode d factor members :: more /\
      spare = over ++ tail /\ rest ++ over = block ++ rest' /\ Z.of_nat (length block) = id_X id /\
      expansion_of g block members /\ expansion_of g rest' more).
  { clear H rest. intros factor rest H HF. cbv zeta in H.
    destruct (Nat.ltb_spec (length rest + length spare) (Z.to_nat (id_X id))) as [|Hle]; [discriminate|].
    destruct (split_block (Z.to_nat (id_X id)) rest spare Hle) as (block & r1 & s1 & over & Hb & Hlen & Hr1 & Hs1 & Hsp & Hcat).
    rewrite Hb, Hr1, Hs1 in H.
    apply rbind_ok in H. destruct H as (members & Hm & H). apply rbind_ok in H. destruct H as (more & Hmo & H).
    injection H as <-. inversion Hc as [|? ? Hc1 Hc2]; subst x l.
    cbn [covers_exactly] in Hc1. rewrite Hid, fold_and in Hc1. destruct Hc1 as [HX Hc1].
    specialize (HX HF).
    destruct (IH _ _ _ _ Hm Hc1) as (over1 & tail1 & Hs1' & Hem).
    assert (over1 = []) as ->.
    { rewrite (expansion_flatten _ _ _ Hem), app_length in HX. destruct over1; [reflexivity|cbn in HX; lia]. }
    rewrite app_nil_r in Hem. rewrite (expansion_flatten _ _ _ Hem) in HX.
    destruct (IH _ _ _ _ Hmo Hc2) as (over2 & tail2 & Hs2 & Hemo).
    exists members, more, block, (r1 ++ over2), (over ++ over2), tail2.
    split; [reflexivity|]. split; [rewrite <- app_assoc, <- Hs2; exact Hsp|].
    split; [rewrite !app_assoc, Hcat; reflexivity|]. auto. }
  destruct (Z.eqb_spec (id_F id) 3) as [H3|H3].
  { destruct (d_entry d) as [| | |ms] eqn:He; try discriminate.
    apply rbind_ok in H. destruct H as (members & Hm & H). apply rbind_ok in H. destruct H as (more & Hmo & H).
    injection H as <-. inversion Hc as [|? ? Hc1 Hc2]; subst x l.
    cbn [covers_exactly] in Hc1. rewrite fold_and in Hc1. destruct Hc1 as [_ Hc1].
    destruct (IH _ _ _ _ Hm Hc1) as (over1 & tail1 & Hs1 & Hem).
    symmetry in Hs1. apply app_eq_nil in Hs1. destruct Hs1 as [-> _]. rewrite app_nil_r in Hem.
    destruct (IH _ _ _ _ Hmo Hc2) as (over2 & tail2 & Hs2 & Hemo).
    exists over2, tail2. split; [exact Hs2|]. cbn [app]. eapply ExSequence; eauto. }
  destruct (Z.eqb_spec (id_F id) 1) as [H1|H1].
  { destruct (Z.eqb_spec (id_Y id) 0) as [HY|HY].
    - destruct rest as [|fid rest]; [discriminate|].
      apply rbind_ok in H. destruct H as (fd & HLf & H).
      destruct (Hbody (Some fd) rest H H1) as (members & more & block & rest' & over & tail & -> & Hs & Hcat & HX & Hm & Hmo).
      exists over, tail. split; [exact Hs|]. cbn [app]. rewrite Hcat. eapply ExDelayed; eauto.
    - destruct (Hbody None rest H H1) as (members & more & block & rest' & over & tail & -> & Hs & Hcat & HX & Hm & Hmo).
      exists over, tail. split; [exact Hs|]. cbn [app]. rewrite Hcat. eapply ExFixed; eauto. }
  apply rbind_ok in H. destruct H as (more & Hmo & H). injection H as <-.
  inversion Hc as [|? ? Hc1 Hc2]; subst x l.
  destruct (IH _ _ _ _ Hmo Hc2) as (over2 & tail2 & Hs2 & Hemo).
  exists over2, tail2. split; [exact Hs2|]. cbn [app]. eapply ExPlain; eauto.
Qed.

Lemma expand_complete g ids nodes : expansion_of g ids nodes ->
  Forall covers_exactly nodes /\
  exists k, forall k' spare, (k <= k')%nat -> expand k' g ids spare = Ok nodes.
Proof.
  induction 1 as [|id d rest more HL H1 H3 _ [IHc IH]|id d ms members rest more HL H3 He _ [IHmc IHm] _ [IHc IH]
    |id d block members rest more HL H1 HY Hlen Hb [IHbc IHb] _ [IHc IH]
    |id d fid fd block members rest more HL H1 HY HLf Hlen Hb [IHbc IHb] _ [IHc IH]].
  - split; [constructor|]. exists 1%nat. intros [|k'] spare Hk; [lia|reflexivity].
  - split.
    + constructor; [|exact IHc]. cbn [covers_exactly fold_right]. rewrite (Lookup_id _ _ _ HL). split; [lia|exact I].
    + destruct IH as [k IH]. exists (S k). intros [|k'] spare Hk; [lia|].
      rewrite expand_cons, HL. cbn [rbind]. rewrite (Lookup_id _ _ _ HL).
      unfold F_SEQUENCE, F_REPLICATION.
      assert (id_F id =? 3 = false) as -> by lia. assert (id_F id =? 1 = false) as -> by lia.
      rewrite IH by lia. reflexivity.
  - split.
    + constructor; [|exact IHc]. cbn [covers_exactly]. rewrite (Lookup_id _ _ _ HL), fold_and. split; [lia|exact IHmc].
    + destruct IH as [k IH], IHm as [km IHm]. exists (S (Nat.max k km)). intros [|k'] spare Hk; [lia|].
      rewrite expand_cons, HL. cbn [rbind]. rewrite (Lookup_id _ _ _ HL).
      unfold F_SEQUENCE. assert (id_F id =? 3 = true) as -> by lia. rewrite He.
      rewrite IHm by lia. cbn [rbind]. rewrite IH by lia. reflexivity.
  - split.
    + constructor; [|exact IHc]. cbn [covers_exactly]. rewrite (Lookup_id _ _ _ HL), fold_and.
      split; [|exact IHbc]. intros _. now rewrite (expansion_flatten _ _ _ Hb).
    + destruct IH as [k IH], IHb as [km IHb]. exists (S (Nat.max k km)). intros [|k'] spare Hk; [lia|].
      rewrite expand_cons, HL. cbn [rbind]. rewrite (Lookup_id _ _ _ HL).
      unfold F_SEQUENCE, F_REPLICATION.
      assert (id_F id =? 3 = false) as -> by lia. assert (id_F id =? 1 = true) as -> by lia.
      assert (id_Y id =? 0 = false) as -> by lia. cbv zeta.
      rewrite <- Hlen, Nat2Z.id.
      rewrite app_length. assert ((length block + length rest + length spare <? length block)%nat = false) as -> by lia.
      rewrite <- app_assoc, firstn_app, firstn_all, Nat.sub_diag, app_nil_r. cbn [firstn].
      rewrite app_nil_r || idtac.
      rewrite !skipn_app, skipn_all, Nat.sub_diag. cbn [skipn app].
      replace (length block - (length block + length rest))%nat with 0%nat by lia. cbn [skipn].
      rewrite IHb by lia. cbn [rbind]. rewrite IH by lia. reflexivity.
  - split.
    + constructor; [|exact IHc]. cbn [covers_exactly]. rewrite (Lookup_id _ _ _ HL), fold_and.
      split; [|exact IHbc]. intros _. now rewrite (expansion_flatten _ _ _ Hb).
    + destruct IH as [k IH], IHb as [km IHb]. exists (S (Nat.max k km)). intros [|k'] spare Hk; [lia|].
      rewrite expand_cons, HL. cbn [rbind]. rewrite (Lookup_id _ _ _ HL).
      unfold F_SEQUENCE, F_REPLICATION.
      assert (id_F id =? 3 = false) as -> by lia. assert (id_F id =? 1 = true) as -> by lia.
      assert (id_Y id =? 0 = true) as -> by lia. rewrite HLf. cbn [rbind]. cbv zeta.
      rewrite <- Hlen, Nat2Z.id.
      rewrite app_length. assert ((length block + length rest + length spare <? length block)%nat = false) as -> by lia.
      rewrite <- app_assoc, firstn_app, firstn_all, Nat.sub_diag, app_nil_r. cbn [firstn].
      rewrite !skipn_app, skipn_all, Nat.sub_diag. cbn [skipn app].
      replace (length block - (length block + length rest))%nat with 0%nat by lia. cbn [skipn].
      rewrite IHb by lia. cbn [rbind]. rewrite IH by lia. reflexivity.
Qed.

Lemma Expand_iff g ids nodes :
  expansion_of g ids nodes <-> (exists fuel, Expand fuel g ids = Ok nodes) /\ Forall covers_exactly nodes.
Proof.
  split.
  - intros H. apply expand_complete in H. destruct H as [Hc [k H]]. split; [|exact Hc].
    exists k. apply H. lia.
  - intros [[fuel H] Hc]. unfold Expand in H. destruct (expand_sound _ _ _ _ _ H Hc) as (over & tail & Hs & He).
    symmetry in Hs. apply app_eq_nil in Hs. destruct Hs as [-> _]. now rewrite app_nil_r in He.
Qed.
Lemma Expand_flatten g fuel ids nodes : Expand fuel g ids = Ok nodes -> Forall covers_exactly nodes ->
  flat_map flatten nodes = ids.
Proof. intros H Hc. eapply expansion_flatten. apply Expand_iff. eauto. Qed.

(** More fuel never changes an answer. *)
Lemma rbind_mono {A B} (r r' : res A) (f f' : A -> res B) :
  (r <> NoFuel -> r' = r) -> (forall a, r = Ok a -> f a <> NoFuel -> f' a = f a) ->
  rbind r f <> NoFuel -> rbind r' f' = rbind r f.
Proof. intros Hr Hf H. destruct r; cbn [rbind] in *; try (rewrite Hr by congruence; cbn [rbind]; auto). Qed.
Lemma expand_mono k : forall k' g ids spare, (k <= k')%nat -> expand k g ids spare <> NoFuel ->
  expand k' g ids spare = expand k g ids spare.
Proof.
  induction k as [|k IH]; intros k' g ids spare Hk H; [cbn in H; congruence|].
  destruct k' as [|k']; [lia|]. destruct ids as [|id rest]; [reflexivity|].
  rewrite expand_cons in H. rewrite !expand_cons.
  apply rbind_mono; [auto| |exact H]. clear H. intros d HL H.
  destruct (id_F (d_id d) =? F_SEQUENCE).
  { destruct (d_entry d); auto. apply rbind_mono; [intros; apply IH; [lia|assumption]| |exact H].
    intros a Ha Hn. apply rbind_mono; [intros; apply IH; [lia|assumption]|auto|exact Hn]. }
  destruct (id_F (d_id d) =? F_REPLICATION).
  { cbv zeta in *.
    assert (Hbody : forall f r,
      (if (length r + length spare <? Z.to_nat (id_X (d_id d)))%nat then Panic PIndex
              else
                rbind (expand k g (firstn (Z.to_nat (id_X (d_id d))) (r ++ spare)) (skipn (Z.to_nat (id_X (d_id d))) (r ++ spare)))
                  (fun members =>
                rbind (expand k g (skipn (Z.to_nat (id_X (d_id d))) r) (skipn (Z.to_nat (id_X (d_id d)) - length r) spare))
                  (fun more => Ok (TNode d f members :: more)))) <> NoFuel ->
      (if (length r + length spare <? Z.to_nat (id_X (d_id d)))%nat then Panic PIndex
              else
                rbind (expand k' g (firstn (Z.to_nat (id_X (d_id d))) (r ++ spare)) (skipn (Z.to_nat (id_X (d_id d))) (r ++ spare)))
                  (fun members =>
                rbind (expand k' g (skipn (Z.to_nat (id_X (d_id d))) r) (skipn (Z.to_nat (id_X (d_id d)) - length r) spare))
                  (fun more => Ok (TNode d f members :: more)))) =
      (if (length r + length spare <? Z.to_nat (id_X (d_id d)))%nat then Panic PIndex
              else
                rbind (expand k g (firstn (Z.to_nat (id_X (d_id d))) (r ++ spare)) (skipn (Z.to_nat (id_X (d_id d))) (r ++ spare)))
                  (fun members =>
                rbind (expand k g (skipn (Z.to_nat (id_X (d_id d))) r) (skipn (Z.to_nat (id_X (d_id d)) - length r) spare))
                  (fun more => Ok (TNode d f members :: more))))).
    { intros f r. destruct (_ <? _)%nat; [reflexivity|]. intros Hn.
      apply rbind_mono; [intros; apply IH; [lia|assumption]| |exact Hn].
      intros a Ha Hn'. apply rbind_mono; [intros; apply IH; [lia|assumption]|auto|exact Hn']. }
    destruct (id_Y (d_id d) =? 0); [|now apply Hbody].
    destruct rest as [|fid rest]; [reflexivity|].
    apply rbind_mono; [auto| |exact H]. intros fd Hfd Hn. now apply Hbody. }
  apply rbind_mono; [intros; apply IH; [lia|assumption]|auto|exact H].
Qed.

(** ** Walking *)
Scheme walks_m := Minimality for walks Sort Prop
  with walks_list_m := Minimality for walks_list Sort Prop
  with walks_blocks_m := Minimality for walks_blocks Sort Prop.
Combined Scheme walks_mut from walks_m, walks_list_m, walks_blocks_m.

Definition chan (ch : bool) (l : list Z) : option (list Z) := if ch then Some l else None.
Definition block_body (ms : list tnode) : M walkst unit :=
  (emit WE_BEGIN_BLOCK None ;; mapM_ node_Walk ms ;; emit WE_END_BLOCK None)%M.

Lemma node_Walk_eq d factor members : node_Walk (TNode d factor members) =
      let f := id_F (d_id d) in
      if f =? F_ELEMENT then emit WE_ELEMENT_DESCRIPTOR (Some d)
      else if f =? F_REPLICATION then
        (emit WE_REPLICATION_DESCRIPTOR (Some d) ;;
         ins <- gets has_ins ;;
         nrepeats <-
           match factor with
           | Some fd => emit WE_FACTOR (Some fd) ;; (if ins : bool then recv_ins else ret 1)
           | None => ret (if ins : bool then id_Y (d_id d) else 1)
           end ;;
         emit WE_BEGIN_REPLICATION None ;;
         iter_Z nrepeats (block_body members) ;;
         emit WE_END_REPLICATION None)%M
      else if f =? F_OPERATOR then emit WE_OPERATOR_DESCRIPTOR (Some d)
      else if f =? F_SEQUENCE then
        (emit WE_SEQUENCE_DESCRIPTOR (Some d) ;;
         emit WE_BEGIN_SEQUENCE None ;; mapM_ node_Walk members ;;
         emit WE_END_SEQUENCE None)%M
      else ret tt.
Proof. reflexivity. Qed.

Lemma emit_eq c d ins out : emit c d (mkWalk ins out) = (mkWalk ins (out ++ [(c, d)]), Ok tt).
Proof. reflexivity. Qed.
Lemma has_chan ch l out : has_ins (mkWalk (chan ch l) out) = ch.
Proof. destruct ch; reflexivity. Qed.

Lemma walks_run ch :
  (forall counts n evs, walks ch counts n evs -> forall rest out,
     node_Walk n (mkWalk (chan ch (counts ++ rest)) out) = (mkWalk (chan ch rest) (out ++ evs), Ok tt)) /\
  (forall counts ns evs, walks_list ch counts ns evs -> forall rest out,
     mapM_ node_Walk ns (mkWalk (chan ch (counts ++ rest)) out) = (mkWalk (chan ch rest) (out ++ evs), Ok tt)) /\
  (forall k counts ms evs, walks_blocks ch k counts ms evs -> forall rest out,
     iterN k (block_body ms) (mkWalk (chan ch (counts ++ rest)) out)
     = (mkWalk (chan ch rest) (out ++ evs), Ok tt)).
Proof.
  apply walks_mut.
  - intros d f ms HF rest out. rewrite node_Walk_eq. cbv zeta. rewrite HF. reflexivity.
  - intros d f ms HF rest out. rewrite node_Walk_eq. cbv zeta. rewrite HF. reflexivity.
  - intros d f ms counts evs HF _ IH rest out. rewrite node_Walk_eq. cbv zeta. rewrite HF.
    cbn [F_ELEMENT F_REPLICATION F_OPERATOR F_SEQUENCE Z.eqb Pos.eqb].
    unfold bind. rewrite !emit_eq, IH, emit_eq. now rewrite <- !app_assoc.
  - intros d ms counts evs HF _ IH rest out. rewrite node_Walk_eq. cbv zeta. rewrite HF.
    cbn [F_ELEMENT F_REPLICATION F_OPERATOR F_SEQUENCE Z.eqb Pos.eqb].
    unfold bind at 1. rewrite emit_eq. unfold bind at 1, gets. rewrite has_chan.
    unfold bind at 1, ret. unfold bind at 1. rewrite emit_eq. unfold bind. rewrite iter_Z_nat.
    replace (Z.to_nat (if ch then id_Y (d_id d) else 1)) with (if ch then Z.to_nat (id_Y (d_id d)) else 1%nat)
      by (destruct ch; reflexivity).
    rewrite IH, emit_eq. now rewrite <- !app_assoc.
  - intros d fd ms n counts evs HF _ IH rest out. rewrite node_Walk_eq. cbv zeta. rewrite HF.
    cbn [F_ELEMENT F_REPLICATION F_OPERATOR F_SEQUENCE Z.eqb Pos.eqb].
    unfold bind at 1. rewrite emit_eq. unfold bind at 1, gets. rewrite has_chan.
    unfold bind at 1. unfold bind at 1. rewrite emit_eq. destruct ch.
    + cbn [chan app]. unfold recv_ins. cbn [w_ins w_out].
      unfold bind at 1. rewrite emit_eq. unfold bind. rewrite iter_Z_nat.
      change (Some (counts ++ rest)) with (chan true (counts ++ rest)). rewrite IH, emit_eq.
      now rewrite <- !app_assoc.
    + unfold ret. unfold bind at 1. rewrite emit_eq. unfold bind. rewrite iter_Z_nat.
      change (Z.to_nat 1) with 1%nat. cbn [app]. rewrite IH, emit_eq. now rewrite <- !app_assoc.
  - intros rest out. cbn [mapM_ app]. unfold ret. now rewrite app_nil_r.
  - intros n ns c cs e es _ IH1 _ IH2 rest out. cbn [mapM_]. unfold bind.
    rewrite <- app_assoc, IH1, IH2. now rewrite <- app_assoc.
  - intros ms rest out. cbn [iterN app]. unfold ret. now rewrite app_nil_r.
  - intros k ms c cs e es _ IH1 _ IH2 rest out. cbn [iterN]. unfold bind at 1. unfold block_body at 1.
    unfold bind. rewrite emit_eq, <- app_assoc, IH1, emit_eq, IH2. f_equal. f_equal.
    rewrite <- !app_assoc. reflexivity.
Qed.

(** Every walk follows the grammar, or waits forever for a count. *)
Definition outcome (ch : bool) (ins : option (list Z)) (out : list event) (x : walkst * res unit)
    (G : list Z -> list event -> Prop) : Prop :=
  snd x = NoFuel /\ ch = true \/
  exists counts rest evs, G counts evs /\ ins = chan ch (counts ++ rest) /\
    x = (mkWalk (chan ch rest) (out ++ evs), Ok tt).

Lemma list_outcome ch ns :
  Forall (fun n => known_kinds n -> forall l out, outcome ch (chan ch l) out
            (node_Walk n (mkWalk (chan ch l) out)) (fun c e => walks ch c n e)) ns ->
  Forall known_kinds ns ->
  forall l out, outcome ch (chan ch l) out (mapM_ node_Walk ns (mkWalk (chan ch l) out))
            (fun c e => walks_list ch c ns e).
Proof.
  intros HF HK. induction ns as [|n ns IH]; intros l out.
  { right. exists [], l, []. cbn [app]. split; [constructor|]. split; [reflexivity|].
    cbn [mapM_]. unfold ret. now rewrite app_nil_r. }
  inversion HF as [|? ? HF1 HF2]; subst. inversion HK as [|? ? HK1 HK2]; subst. specialize (IH HF2 HK2).
  cbn [mapM_]. destruct (HF1 HK1 l out) as [[Hn Hch]|(c & r & e & Hw & Hl & Hx)].
  { left. split; [|exact Hch]. unfold bind. destruct (node_Walk n _) as [s' [a|x|p|]]; cbn [snd] in *; congruence. }
  unfold bind. rewrite Hx. destruct (IH r (out ++ e)) as [[Hn Hch]|(c2 & r2 & e2 & Hw2 & Hl2 & Hx2)].
  { left. auto. }
  right. exists (c ++ c2), r2, (e ++ e2). split; [now constructor|].
  split; [|rewrite Hx2, <- app_assoc; reflexivity].
  destruct ch; cbn [chan] in *; [|reflexivity]. injection Hl as ->. injection Hl2 as ->. now rewrite app_assoc.
Qed.
Lemma blocks_outcome ch ms :
  (forall l out, outcome ch (chan ch l) out (mapM_ node_Walk ms (mkWalk (chan ch l) out))
            (fun c e => walks_list ch c ms e)) ->
  forall k l out, outcome ch (chan ch l) out (iterN k (block_body ms) (mkWalk (chan ch l) out))
            (fun c e => walks_blocks ch k c ms e).
Proof.
  intros Hms. induction k as [|k IH]; intros l out.
  { right. exists [], l, []. cbn [app]. split; [constructor|]. split; [reflexivity|].
    cbn [iterN]. unfold ret. now rewrite app_nil_r. }
  cbn [iterN]. unfold bind at 1. unfold block_body at 1. unfold bind. rewrite emit_eq.
  destruct (Hms l (out ++ [(WE_BEGIN_BLOCK, None)])) as [[Hn Hch]|(c & r & e & Hw & Hl & Hx)].
  { left. split; [|exact Hch]. destruct (mapM_ node_Walk ms _) as [s' [a|x|p|]]; cbn [snd] in *; congruence. }
  rewrite Hx, emit_eq.
  destruct (IH r (((out ++ [(WE_BEGIN_BLOCK, None)]) ++ e) ++ [(WE_END_BLOCK, None)]))
    as [[Hn Hch]|(c2 & r2 & e2 & Hw2 & Hl2 & Hx2)].
  { left. auto. }
  right. exists (c ++ c2), r2, ([(WE_BEGIN_BLOCK, None)] ++ e ++ [(WE_END_BLOCK, None)] ++ e2).
  split; [now constructor|]. split; [|rewrite Hx2, <- !app_assoc; reflexivity].
  destruct ch; cbn [chan] in *; [|reflexivity]. injection Hl as ->. injection Hl2 as ->. now rewrite app_assoc.
Qed.

Lemma node_outcome ch n : known_kinds n -> forall l out,
  outcome ch (chan ch l) out (node_Walk n (mkWalk (chan ch l) out)) (fun c e => walks ch c n e).
Proof.
  induction n as [d f ms IH] using tnode_ind'. intros HK l out.
  cbn [known_kinds] in HK. rewrite fold_and in HK. destruct HK as [HF HK].
  pose proof (list_outcome ch ms IH HK) as Hl. pose proof (blocks_outcome ch ms Hl) as Hb.
  rewrite node_Walk_eq. cbv zeta. unfold F_ELEMENT, F_REPLICATION, F_OPERATOR, F_SEQUENCE.
  destruct (Z.eqb_spec (id_F (d_id d)) 0) as [H0|H0].
  { right. exists [], l, [(WE_ELEMENT_DESCRIPTOR, Some d)]. split; [now constructor|]. auto. }
  destruct (Z.eqb_spec (id_F (d_id d)) 1) as [H1|H1].
  { unfold bind at 1. rewrite emit_eq. unfold bind at 1, gets. rewrite has_chan.
    destruct f as [fd|].
    - unfold bind at 1. unfold bind at 1. rewrite emit_eq. destruct ch.
      + destruct l as [|n l].
        { left. split; reflexivity. }
        unfold recv_ins. cbn [chan w_ins w_out]. unfold bind at 1. rewrite emit_eq. unfold bind.
        rewrite iter_Z_nat. change (Some l) with (chan true l).
        destruct (Hb (Z.to_nat n) l (((out ++ [(WE_REPLICATION_DESCRIPTOR, Some d)]) ++ [(WE_FACTOR, Some fd)])
                    ++ [(WE_BEGIN_REPLICATION, None)])) as [[Hn Hch]|(c & r & e & Hw & Hl' & Hx)].
        { left. split; [|exact Hch]. destruct (iterN _ _ _) as [s' [a|x|p|]]; cbn [snd] in *; congruence. }
        rewrite Hx, emit_eq. right. exists ([n] ++ c), r. eexists. split; [apply (WkDelayed true d fd ms n c e H1 Hw)|].
        cbn [chan] in *. injection Hl' as ->. split; [reflexivity|]. now rewrite <- !app_assoc.
      + unfold ret. unfold bind at 1. rewrite emit_eq. unfold bind. rewrite iter_Z_nat. change (Z.to_nat 1) with 1%nat.
        destruct (Hb 1%nat l (((out ++ [(WE_REPLICATION_DESCRIPTOR, Some d)]) ++ [(WE_FACTOR, Some fd)])
                    ++ [(WE_BEGIN_REPLICATION, None)])) as [[Hn Hch]|(c & r & e & Hw & Hl' & Hx)]; [discriminate|].
        rewrite Hx, emit_eq. right. exists c, r. eexists. split; [apply (WkDelayed false d fd ms 0 c e H1 Hw)|].
        split; [reflexivity|]. now rewrite <- !app_assoc.
    - unfold bind at 1, ret. unfold bind at 1. rewrite emit_eq. unfold bind. rewrite iter_Z_nat.
      replace (Z.to_nat (if ch then id_Y (d_id d) else 1)) with (if ch then Z.to_nat (id_Y (d_id d)) else 1%nat)
        by (destruct ch; reflexivity).
      match goal with |- context [iterN ?k _ (mkWalk _ ?o)] =>
        destruct (Hb k l o) as [[Hn Hch]|(c & r & e & Hw & Hl' & Hx)] end.
      { left. split; [|exact Hch]. destruct (iterN _ _ _) as [s' [a|x|p|]]; cbn [snd] in *; congruence. }
      rewrite Hx, emit_eq. right. exists c, r. eexists. split; [apply (WkFixed ch d ms c e H1 Hw)|].
      split; [exact Hl'|]. now rewrite <- !app_assoc. }
  destruct (Z.eqb_spec (id_F (d_id d)) 2) as [H2|H2].
  { right. exists [], l, [(WE_OPERATOR_DESCRIPTOR, Some d)]. split; [now constructor|]. auto. }
  destruct (Z.eqb_spec (id_F (d_id d)) 3) as [H3|H3]; [|lia].
  unfold bind. rewrite !emit_eq.
  match goal with |- context [mapM_ node_Walk ms (mkWalk _ ?o)] =>
    destruct (Hl l o) as [[Hn Hch]|(c & r & e & Hw & Hl' & Hx)] end.
  { left. split; [|exact Hch]. destruct (mapM_ node_Walk ms _) as [s' [a|x|p|]]; cbn [snd] in *; congruence. }
  rewrite Hx, emit_eq. right. exists c, r. eexists. split; [apply (WkSequence ch d f ms c e H3 Hw)|].
  split; [exact Hl'|]. now rewrite <- !app_assoc.
Qed.

Lemma Walk_outcome members ins : Forall known_kinds members ->
  match Walk members ins with
  | (s, Ok _) => exists counts rest evs,
      walks_list (match ins with Some _ => true | None => false end) counts members evs /\
      ins = (match ins with Some _ => Some (counts ++ rest) | None => None end) /\
      w_ins s = (match ins with Some _ => Some rest | None => None end) /\
      w_out s = (WE_BEGIN_TEMPLATE, None) :: evs ++ [(WE_END_TEMPLATE, None)]
  | (_, NoFuel) => ins <> None
  | _ => False
  end.
Proof.
  intros HK. unfold Walk. set (ch := match ins with Some _ => true | None => false end).
  assert (Hi : exists l, ins = chan ch l) by (unfold ch; destruct ins as [l|]; [exists l|exists []]; reflexivity).
  destruct Hi as [l Hi]. unfold bind. rewrite emit_eq.
  assert (HF : Forall (fun n => known_kinds n -> forall l out, outcome ch (chan ch l) out
            (node_Walk n (mkWalk (chan ch l) out)) (fun c e => walks ch c n e)) members).
  { apply Forall_forall. intros n _ Hn. apply node_outcome; exact Hn. }
  rewrite Hi. cbn [app].
  destruct (list_outcome ch members HF HK l [(WE_BEGIN_TEMPLATE, None)]) as [[Hn Hch]|(c & r & e & Hw & Hl' & Hx)].
  - destruct (mapM_ node_Walk members _) as [s' [a|x|p|]]; cbn [snd] in Hn; try discriminate.
    rewrite Hch. discriminate.
  - rewrite Hx, emit_eq. exists c, r, e. cbn [w_ins w_out app].
    split; [exact Hw|]. rewrite Hl'. clear Hl' Hx Hi. clearbody ch. destruct ch; cbn [chan]; auto.
Qed.
Lemma Walk_complete members counts rest evs (ch : bool) :
  walks_list ch counts members evs ->
  Walk members (if ch then Some (counts ++ rest) else None)
  = (mkWalk (if ch then Some rest else None) ((WE_BEGIN_TEMPLATE, None) :: evs ++ [(WE_END_TEMPLATE, None)]), Ok tt).
Proof.
  intros H. unfold Walk, bind. rewrite emit_eq. cbn [app].
  change (if ch then Some (counts ++ rest) else None) with (chan ch (counts ++ rest)).
  rewrite (proj1 (proj2 (walks_run ch)) counts members evs H rest [(WE_BEGIN_TEMPLATE, None)]).
  rewrite emit_eq. reflexivity.
Qed.

(** Nesting. *)
Lemma nest_skip ch :
  (forall counts n evs, walks ch counts n evs -> forall rest st, nest (evs ++ rest) st = nest rest st) /\
  (forall counts ns evs, walks_list ch counts ns evs -> forall rest st, nest (evs ++ rest) st = nest rest st) /\
  (forall k counts ms evs, walks_blocks ch k counts ms evs -> forall rest st, nest (evs ++ rest) st = nest rest st).
Proof.
  apply walks_mut; intros; cbn [app nest opens closes]; try reflexivity; rewrite <- ?app_assoc; cbn [app].
  - rewrite H1. reflexivity.
  - rewrite H1. reflexivity.
  - rewrite H1. reflexivity.
  - rewrite H0, H2. reflexivity.
  - rewrite H0. cbn [nest opens closes bracket_eqb]. rewrite H2. reflexivity.
Qed.
Lemma walk_well_nested ch counts ns evs : walks_list ch counts ns evs -> well_nested evs.
Proof.
  intros H. unfold well_nested. pose proof (proj1 (proj2 (nest_skip ch)) _ _ _ H [] []) as E.
  now rewrite app_nil_r in E.
Qed.

(** Dumping. *)
Lemma dump_skip :
  (forall counts n evs, walks false counts n evs -> forall i rest,
     dump_events (evs ++ rest) i = rbind (dump_events rest i) (fun ls => Ok (lines_of i n ++ ls))) /\
  (forall counts ns evs, walks_list false counts ns evs -> forall i rest,
     dump_events (evs ++ rest) i = rbind (dump_events rest i) (fun ls => Ok (flat_map (lines_of i) ns ++ ls))) /\
  (forall k counts ms evs, walks_blocks false k counts ms evs -> forall i rest,
     dump_events (evs ++ rest) i
     = rbind (dump_events rest i) (fun ls => Ok (concat (repeat (flat_map (lines_of (S i)) ms) k) ++ ls))).
Proof.
  apply walks_mut.
  - intros d f ms HF i rest. cbn [app dump_events lines_of]. now rewrite HF.
  - intros d f ms HF i rest. cbn [app dump_events lines_of]. now rewrite HF.
  - intros d f ms c e HF _ IH i rest. cbn [app dump_events lines_of]. rewrite HF. cbn [Z.eqb Pos.eqb orb].
    rewrite <- app_assoc, IH. cbn [app dump_events]. destruct (dump_events rest i); reflexivity.
  - intros d ms c e HF _ IH i rest. cbn [app dump_events lines_of]. rewrite HF. cbn [Z.eqb Pos.eqb orb].
    rewrite <- app_assoc, IH. cbn [app dump_events repeat concat]. rewrite app_nil_r.
    destruct (dump_events rest i); reflexivity.
  - intros d fd ms n c e HF _ IH i rest. cbn [app dump_events lines_of]. rewrite HF. cbn [Z.eqb Pos.eqb orb].
    rewrite <- app_assoc, IH. cbn [app dump_events repeat concat]. rewrite app_nil_r.
    destruct (dump_events rest i); reflexivity.
  - intros i rest. cbn [app flat_map]. destruct (dump_events rest i); reflexivity.
  - intros n ns c cs e es _ IH1 _ IH2 i rest. rewrite <- app_assoc, IH1, IH2. cbn [flat_map].
    destruct (dump_events rest i); cbn [rbind]; try reflexivity. now rewrite <- app_assoc.
  - intros ms i rest. cbn [app repeat concat]. destruct (dump_events rest i); reflexivity.
  - intros k ms c cs e es _ IH1 _ IH2 i rest. cbn [app dump_events]. rewrite <- !app_assoc, IH1.
    cbn [app dump_events]. rewrite IH2. cbn [repeat concat].
    destruct (dump_events rest i); cbn [rbind]; try reflexivity. now rewrite <- app_assoc.
Qed.
Lemma node_Dump_lines n : known_kinds n -> node_Dump n = Ok (lines_of 0 n).
Proof.
  intros HK. unfold node_Dump.
  destruct (node_outcome false n HK [] []) as [[_ H]|(c & r & e & Hw & Hl & Hx)]; [discriminate|].
  cbn [chan] in Hx. rewrite Hx. cbn [fst w_out app].
  pose proof (proj1 dump_skip _ _ _ Hw 0%nat []) as H. rewrite app_nil_r in H. rewrite H.
  cbn [dump_events rbind]. now rewrite app_nil_r.
Qed.
Lemma Dump_lines ns : Forall known_kinds ns -> Dump ns = Ok (flat_map (lines_of 0) ns).
Proof.
  induction 1 as [|n ns Hn _ IH]; cbn [Dump flat_map]; [reflexivity|].
  rewrite node_Dump_lines by exact Hn. cbn [rbind]. rewrite IH. reflexivity.
Qed.

(** Expansion produces known kinds only. *)
Lemma Lookup_F g id d : Lookup g id = Ok d -> 0 <= id_F (d_id d) <= 3.
Proof.
  intros H. apply Lookup_ok in H. destruct H as (b & s & a & _ & Hk & _). pose proof (knows_id _ _ _ Hk) as (-> & _ & H). exact H.
Qed.
Lemma expand_known k : forall g ids spare nodes, expand k g ids spare = Ok nodes -> Forall known_kinds nodes.
Proof.
  induction k as [|k IH]; intros g ids spare nodes H; [discriminate|].
  destruct ids as [|id rest]; [cbn in H; injection H as <-; constructor|].
  rewrite expand_cons in H. apply rbind_ok in H. destruct H as (d & HL & H).
  pose proof (Lookup_F _ _ _ HL) as HF.
  assert (Hn : forall f ms more, Forall known_kinds ms -> Forall known_kinds more ->
            Forall known_kinds (TNode d f ms :: more)).
  { intros f ms more H1 H2. constructor; [|exact H2]. cbn [known_kinds]. rewrite fold_and. auto. }
  destruct (id_F (d_id d) =? F_SEQUENCE).
  { destruct (d_entry d); try discriminate.
    apply rbind_ok in H. destruct H as (m & Hm & H). apply rbind_ok in H. destruct H as (mo & Hmo & H).
    injection H as <-. eauto. }
  destruct (id_F (d_id d) =? F_REPLICATION).
  { cbv zeta in H. destruct (id_Y (d_id d) =? 0).
    - destruct rest as [|fid rest]; [discriminate|]. apply rbind_ok in H. destruct H as (fd & HLf & H).
      destruct (_ <? _)%nat; [discriminate|].
      apply rbind_ok in H. destruct H as (m & Hm & H). apply rbind_ok in H. destruct H as (mo & Hmo & H).
      injection H as <-. eauto.
    - destruct (_ <? _)%nat; [discriminate|].
      apply rbind_ok in H. destruct H as (m & Hm & H). apply rbind_ok in H. destruct H as (mo & Hmo & H).
      injection H as <-. eauto. }
  apply rbind_ok in H. destruct H as (mo & Hmo & H). injection H as <-. apply Hn; [constructor|eauto].
Qed.

(** Expansion returns when Table D is acyclic. *)
Definition settles {A} (r : nat -> res A) : Prop :=
  exists k v, v <> NoFuel /\ forall k', (k <= k')%nat -> r k' = v.
Lemma settles_const {A} (v : res A) : v <> NoFuel -> settles (fun _ => v).
Proof. intros H. exists 0%nat, v. auto. Qed.
Lemma settles_S {A} (r : nat -> res A) : settles (fun k => r (S k)) -> settles r.
Proof. intros (k & v & Hv & H). exists (S k), v. split; [exact Hv|]. intros [|k'] Hk; [lia|]. apply H. lia. Qed.
Lemma settles_rbind {A B} (r : nat -> res A) (f : nat -> A -> res B) :
  settles r -> (forall a, settles (fun k => f k a)) -> settles (fun k => rbind (r k) (f k)).
Proof.
  intros (k & v & Hv & Hr) Hf. destruct v as [a|e|p|]; [|..|congruence].
  - destruct (Hf a) as (k2 & v & Hv2 & H2). exists (Nat.max k k2), v. split; [exact Hv2|].
    intros k' Hk. rewrite Hr by lia. cbn [rbind]. apply H2. lia.
  - exists k, (Err e). split; [congruence|]. intros k' Hk. now rewrite Hr.
  - exists k, (Panic p). split; [congruence|]. intros k' Hk. now rewrite Hr.
Qed.
Lemma settles_ext {A} (r r' : nat -> res A) : (forall k, r k = r' k) -> settles r -> settles r'.
Proof. intros E (k & v & Hv & H). exists k, v. split; [exact Hv|]. intros k' Hk. rewrite <- E. auto. Qed.

Lemma Lookup_returns g id : Lookup g id <> NoFuel.
Proof. destruct (Lookup_total g id) as [[d ->]|[[e ->] _]]; congruence. Qed.
Lemma Forall_firstn' {A} (P : A -> Prop) n l : Forall P l -> Forall P (firstn n l).
Proof. intros H. rewrite <- (firstn_skipn n l), Forall_app in H. tauto. Qed.
Lemma Forall_skipn' {A} (P : A -> Prop) n l : Forall P l -> Forall P (skipn n l).
Proof. intros H. rewrite <- (firstn_skipn n l), Forall_app in H. tauto. Qed.

Lemma expand_returns g : acyclic g -> forall ids spare, settles (fun k => expand k g ids spare).
Proof.
  intros [rank Hr].
  assert (HR : forall R N ids spare, (length ids + length spare < N)%nat ->
    Forall (fun m => id_F m = 3 -> (rank m < R)%nat) (ids ++ spare) ->
    settles (fun k => expand k g ids spare)).
  { induction R as [R IHR] using (well_founded_induction lt_wf).
    induction N as [|N IHN]; intros ids spare HN HF; [lia|].
    apply settles_S.
    destruct ids as [|id rest]; [exact (settles_const (Ok []) ltac:(congruence))|].
    cbn [app length] in HN, HF. inversion HF as [|? ? HF1 HF2]; subst.
    eapply settles_ext; [intros k; symmetry; apply expand_cons|]. cbv beta.
    destruct (Lookup g id) as [d|e|p|] eqn:HL; [|cbn [rbind]; apply settles_const; congruence..|].
    2: { now apply Lookup_returns in HL. }
    cbn [rbind]. pose proof (Lookup_id _ _ _ HL) as Hid. rewrite Hid.
    destruct (id_F id =? F_SEQUENCE) eqn:E3; unfold F_SEQUENCE, F_REPLICATION in *.
    { destruct (d_entry d) as [| | |ms] eqn:He; try (apply settles_const; congruence).
      apply settles_rbind.
      - apply (IHR (rank id)) with (N := S (length ms)); [apply HF1; lia|cbn [length]; lia|].
        rewrite app_nil_r. apply (Hr _ _ _ HL He).
      - intros a. apply settles_rbind; [|intros b; apply settles_const; congruence].
        apply IHN; [lia|exact HF2]. }
    destruct (id_F id =? 1) eqn:E1.
    { cbv zeta.
      assert (Hbody : forall f r, (length r <= length rest)%nat ->
        Forall (fun m => id_F m = 3 -> (rank m < R)%nat) (r ++ spare) ->
        settles (fun k =>
          if (length r + length spare <? Z.to_nat (id_X id))%nat then Panic PIndex
              else
                rbind (expand k g (firstn (Z.to_nat (id_X id)) (r ++ spare)) (skipn (Z.to_nat (id_X id)) (r ++ spare)))
                  (fun members =>
                rbind (expand k g (skipn (Z.to_nat (id_X id)) r) (skipn (Z.to_nat (id_X id) - length r) spare))
                  (fun more => Ok (TNode d f members :: more))))).
      { intros f r Hlen Hfr. destruct (_ <? _)%nat; [apply settles_const; congruence|].
        apply settles_rbind.
        - apply IHN; [|rewrite firstn_skipn; exact Hfr].
          rewrite <- app_length, firstn_skipn, app_length. lia.
        - intros a. apply settles_rbind; [|intros b; apply settles_const; congruence].
          apply IHN; [rewrite !skipn_length; lia|].
          apply Forall_app in Hfr. apply Forall_app. split; apply Forall_skipn'; tauto. }
      destruct (id_Y id =? 0).
      - destruct rest as [|fid rest]; [apply settles_const; congruence|].
        apply settles_rbind; [apply settles_const, Lookup_returns|].
        intros fd. apply Hbody; [cbn [length]; lia|]. now inversion HF2.
      - apply Hbody; [lia|exact HF2]. }
    apply settles_rbind; [|intros b; apply settles_const; congruence].
    apply IHN; [lia|exact HF2]. }
  intros ids spare.
  apply (HR (S (fold_right Nat.max 0%nat (map rank (ids ++ spare)))) (S (length ids + length spare))); [lia|].
  apply Forall_forall. intros m Hm _.
  assert (H : forall l, In m l -> (rank m <= fold_right Nat.max 0 (map rank l))%nat).
  { clear. induction l as [|a l IH]; [intros []|]. intros [->|H]; cbn [map fold_right]; [lia|]. specialize (IH H). lia. }
  specialize (H _ Hm). lia.
Qed.
(** ... and never returns on a sequence that begins with itself. *)
Lemma expand_cycle k : forall g id d post rest spare, Lookup g id = Ok d -> d_entry d = ED (id :: post) ->
  expand k g (id :: rest) spare = NoFuel.
Proof.
  induction k as [|k IH]; intros g id d post rest spare HL He; [reflexivity|].
  rewrite expand_cons, HL. cbn [rbind]. pose proof (Lookup_kind _ _ _ HL) as (Hid & _ & Hk). rewrite He in Hk.
  rewrite Hid. destruct Hk as [H3 _]. rewrite H3. cbn [F_SEQUENCE Z.eqb Pos.eqb]. rewrite He.
  now rewrite (IH g id d post post [] HL He).
Qed.
