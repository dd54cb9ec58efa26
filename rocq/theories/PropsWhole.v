(** Property theorem C68: whole messages written and decoded.  Vocabulary: SpecWhole.v. *)
From Coq Require Import ZifyBool ZifyNat.
From Verif Require Import ProofsWhole ProofsBase ProofsBits ProofsBitProps ProofsUnpack ProofsPlan2 PropsMessage Demo PropsParser PropsRun PropsJson PropsPack.
From Verif Require Export SpecWhole.

(** C68.  The contents of a message - header, optional section, template (of any kind), and data
    laid out for the template, plain or compressed - can be written with the bit writer; the bytes are as
    many as the total length says ... *)
Theorem C68_writes : forall fc m, meant fc m ->
  exists w, mapM_ write_item (message_items m) new_bitwriter = (w, Ok tt) /\
    bytes_of m = bw_output w /\ blen (bytes_of m) = size m.
Proof.
  intros fc m (W & _). exists (flat_map item_bits (message_items m)). split; [now apply written_all|].
  split; [unfold bytes_of; now rewrite (written_all m W)|now apply bytes_of_size].
Qed.
Print Assumptions C68_writes.
(** ... and decoding them, behind any bytes without signature and whatever follows, succeeds:
    the sections, their starts, the names and values of all fields, the template and every
    datum are those of the contents, and the reader is right behind the message. *)
Theorem C68_round_trip : forall fc m junk more e, fc_json fc = false -> meant fc m ->
  no_signature (bytes_bits junk) ->
  blen (junk ++ bytes_of m ++ more) < Z.of_nat (fc_fuel fc) ->
  exists s msg,
    Run fc (NewDefaultFactory (RBit (new_bitreader (junk ++ bytes_of m ++ more) e))) = (s, Ok msg) /\
    conveys (blen junk) m msg /\
    SpecMessage.reads s (mkBR (bytes_bits more) e (8 * (blen junk + size m))).
Proof.
  intros fc m junk more e Hj (W & ms & U & D) HN HF.
  destruct (message_written fc m ms W U D) as (subs & PV & M). destruct (M (blen junk)) as (secs & IM & T & B).
  set (r := new_bitreader (junk ++ bytes_of m ++ more) e).
  assert (Er : br_bits r = bytes_bits junk ++ flat_map item_bits (message_items m) ++ bytes_bits more).
  { unfold r, new_bitreader. cbn [br_bits]. now rewrite bytes_bits_app, bytes_of_bits. }
  destruct (C53_complete fc (NewDefaultFactory (RBit r)) r (bytes_bits junk) (flat_map item_bits (message_items m)) (bytes_bits more) secs Hj eq_refl)
    as (s & msg & R & E & Rd).
  - unfold r. cbn. lia.
  - reflexivity.
  - unfold r, new_bitreader. cbn [br_bits]. apply blen_byte_mod.
  - unfold r, new_bitreader. cbn [br_bits]. rewrite blen_bytes_bits. lia.
  - exact Er.
  - apply no_overlap; [apply blen_byte_mod|exact HN|now apply message_signed].
  - unfold r, new_bitreader. cbn [br_pos]. rewrite blen_bytes_bits. replace ((0 + 8 * blen junk) / 8) with (blen junk) by lia. exact IM.
  - exists s, msg. split; [exact R|]. split; [exists subs; split; [exact PV|now rewrite E]|]. rewrite <- B. exact Rd.
Qed.
Print Assumptions C68_round_trip.
(** A stream of such messages with other bytes between them: decoding again and again gives
    all of them, in order, and then an error. *)
Theorem C68_stream : forall fc l rest e, fc_json fc = false ->
  Forall (fun x => no_signature (bytes_bits (fst x)) /\ meant fc (snd x)) l ->
  no_signature (bytes_bits rest) ->
  blen (stream_of l ++ rest) < Z.of_nat (fc_fuel fc) ->
  exists msgs s er,
    Runs fc (S (length l)) (NewDefaultFactory (RBit (new_bitreader (stream_of l ++ rest) e))) = (msgs, s, Err er) /\
    conveyed 0 l msgs.
Proof.
  intros fc l rest e Hj HL HN HF. destruct (stream_messages fc rest l 0 HL) as (mss & HM & HC).
  set (r := new_bitreader (stream_of l ++ rest) e).
  destruct (C60_all_messages fc (NewDefaultFactory (RBit r)) r 0 mss (bytes_bits rest) Hj eq_refl) as (msgs & s & er & R & E).
  - lia.
  - reflexivity.
  - unfold r, new_bitreader. cbn [br_bits]. apply blen_byte_mod.
  - unfold r, new_bitreader. cbn [br_bits]. rewrite blen_bytes_bits. lia.
  - exact HM.
  - exact HN.
  - assert (LM : length mss = length l).
    { rewrite <- E, map_length. specialize (HC msgs E). clear - HC. revert HC. generalize 0. revert msgs. induction l as [|[? ?] l IH]; intros msgs z H; inversion H; subst; cbn; [reflexivity|]. f_equal. eapply IH; eassumption. }
    exists msgs, s, er. rewrite <- LM. split; [exact R|now apply HC].
Qed.
Print Assumptions C68_stream.

(** Two messages: edition 4 with an optional section and two subsets of different length;
    edition 3, compressed. *)
Definition whole_ids : list Z := [301001; 101000; 31001; 4001].
Definition whole_tree (k : Z) (reps : list Z) : list (dtree rawval) :=
  [Group [Leaf [RNumber k]; Leaf [RMissing]]; Counted (Leaf [RNumber (blen reps)]) (map (fun v => [Leaf [RNumber v]]) reps)].
Definition whole_nodes : list anode :=
  match snd (Parse (GChain (fst (AddLocalAndWmoTableGroups ex_fs 0 7 8 18 0 []))) 1000 whole_ids parser0) with
  | Ok (ANode _ _ ms _ _) => ms | _ => [] end.
Definition whole4 (its1 its2 : list (placed rawval)) : content :=
  mkContent 4 0 7 8 1 2 3 4 18 0 2016 2 18 23 59 0 [9; 9] (Some [1; 2; 3]) true whole_ids false (Subsets [its1; its2]) [false; true; true; false; false; true].
Definition whole_columns : list (dtree ccolumn) :=
  [Group [Leaf [mkCcol [RNumber 10; RNumber 11; RNumber 13] (RNumber 10) 3]; Leaf [mkCcol [RMissing; RMissing; RMissing] RMissing 0]];
   Counted (Leaf [mkCcol [RNumber 1; RNumber 1; RNumber 1] (RNumber 1) 0]) [[Leaf [mkCcol [RNumber 7; RMissing; RNumber 9] (RNumber 3) 4]]]].
Definition whole3 (its : list (placed ccolumn)) : content :=
  mkContent 3 0 7 8 1 2 0 4 18 0 16 2 18 23 59 0 [] None false whole_ids true (Columns 3 its) (repeat false 6).
Lemma whole_understood : exists l, AddLocalAndWmoTableGroups ex_fs 0 7 8 18 0 [] = (l, Ok tt) /\
  snd (Parse (GChain l) 1000 whole_ids parser0) = Ok (root whole_nodes).
Proof.
  exists (fst (AddLocalAndWmoTableGroups ex_fs 0 7 8 18 0 [])). split; [|vm_compute; reflexivity].
  rewrite (surjective_pairing (AddLocalAndWmoTableGroups _ _ _ _ _ _ _)) at 1. f_equal.
Qed.
Lemma whole_right : Forall (all_nodes right_kind) whole_nodes.
Proof. destruct whole_understood as (l & _ & H). apply (parsed_right (GChain l) whole_ids). now exists 1000%nat. Qed.
Ltac fits_items := repeat first [apply Forall_nil | apply Forall_cons; [cbn; first [exact I | split; [reflexivity|repeat constructor; unfold is_byte; lia] | split; [reflexivity|repeat split; try (repeat constructor; unfold is_byte; lia); cbn; lia] | lia]|]].
Example C68_example : exists its1 its2 its3,
  let m4 := whole4 its1 its2 in let m3 := whole3 its3 in
  meant ex_fc m4 /\ meant ex_fc m3 /\ no_signature (bytes_bits [66; 85]) /\
  map (fun x => map snd x) (body_values (ct_body m4)) =
    [[VFloat (f64_of_Z 5); VNil; VFloat (f64_of_Z 2); VFloat (f64_of_Z 100); VFloat (f64_of_Z 200)];
     [VFloat (f64_of_Z 6); VNil; VFloat (f64_of_Z 0)]] /\
  bytes_of m4 = [66; 85; 70; 82; 0; 0; 72; 4; 0; 0; 24; 0; 0; 7; 0; 8; 1; 128; 2; 3; 4; 18;
   0; 7; 224; 2; 18; 23; 59; 0; 9; 9; 0; 0; 7; 0; 1; 2; 3; 0; 0; 15; 0; 0; 2;
   128; 193; 1; 65; 0; 31; 1; 4; 1; 0; 0; 14; 0; 11; 255; 129; 3; 32; 100; 6;
   255; 192; 25; 55; 55; 55; 55] /\ size m3 = 61.
Proof.
  eexists. eexists. eexists. cbv zeta. split; [|split].
  - split.
    2:{ exists whole_nodes. split; [exact whole_understood|]. constructor; [|constructor; [|constructor]].
        + apply subset_data_laid; [exact whole_right|]. exists (whole_tree 5 [100; 200]). eexists. remember whole_nodes as ms eqn:E. vm_compute in E. subst ms. unfold whole_tree. cbn [map].
          repeat carry_step; try (fit; fail). cbv beta. refine (C59_factors _ _ 2 _ _); [lia|right; right; repeat split].
        + apply subset_data_laid; [exact whole_right|]. exists (whole_tree 6 []). eexists. remember whole_nodes as ms eqn:E. vm_compute in E. subst ms. unfold whole_tree. cbn [map].
          repeat carry_step; try (fit; fail). cbv beta. refine (C59_factors _ _ 0 _ _); [lia|right; right; repeat split]. }
    split; [right; reflexivity|]. split; [|vm_compute; reflexivity].
    match goal with |- Forall fits ?l => let l' := eval vm_compute in l in change l with l' end. fits_items.
  - split.
    2:{ exists whole_nodes. split; [exact whole_understood|]. split; [lia|].
        apply compressed_data_laid; [lia|exact whole_right|]. exists whole_columns. eexists. remember whole_nodes as ms eqn:E. vm_compute in E. subst ms. unfold whole_columns.
        repeat carry_step; try (column_fit; fail). exists (RNumber 1). split; [fits_all; reflexivity|].
        refine (C59_factors _ _ 1 _ _); [lia|right; right; repeat split]. }
    split; [left; reflexivity|]. split; [|vm_compute; reflexivity].
    match goal with |- Forall fits ?l => let l' := eval vm_compute in l in change l with l' end. fits_items.
  - split; [|split; [vm_compute; reflexivity|]].
    + intros a b E _ [r E']. apply (f_equal blen) in E, E'. rewrite blen_app, blen_bytes_bits in *. change (blen [66; 85]) with 2 in E. change (blen [66; 85; 70; 82]) with 4 in E'. pose proof (blen_nonneg a). pose proof (blen_nonneg r). lia.
    + split; vm_compute; reflexivity.
Qed.
