(** Property theorem C68, converse: what decodes was such a message.  Vocabulary: SpecOnly.v. *)
From Verif Require Import ProofsMsg6 ProofsRobust3 PropsMessage PropsPlan PropsColumns ProofsMsg4 ProofsBits Demo.
From Verif Require Export SpecOnly.
From Coq Require Import Lia.

(** The data section, on its own. *)
Theorem C68_payload : forall fc g ids n c bits moved subs, 0 <= n -> (c = true -> 0 < n) ->
  is_payload fc g ids n c bits moved subs -> plausible c subs -> holds_data fc g ids n c bits subs.
Proof.
  intros fc g ids n c bits moved subs Hn Hc (tree & HT & HR) HP. destruct (parsed_root _ _ _ _ HT) as (ms & -> & Hms).
  destruct (HR [] EEof 0) as (vs & HV & Hr & <-). rewrite app_nil_r in HV. exists ms. split; [exact Hms|].
  set (cf := mkConfig c false (fc_compatible fc) n (fc_plat fc) (fc_fuel fc)) in *.
  assert (B : binary_reader (RBit (mkBR bits EEof 0)) bits) by (repeat eexists).
  destruct c.
  - destruct (C69_only_columns g ids ms cf _ bits vs Hms eq_refl eq_refl (Hc eq_refl) B HV HP) as (its & rest & F & E & (e & p & R) & V).
    rewrite Hr in R. injection R as <- <- <-. rewrite app_nil_r in E. eauto.
  - destruct (C69_only g ids ms cf _ bits vs Hms eq_refl eq_refl Hn B HV HP) as (itss & rest & N & F & V & (e & p & R) & W).
    rewrite Hr in R. injection R as <- <- <-. exists itss. repeat (split; [assumption|]). intros HC w Hw. rewrite (W HC w Hw). apply app_nil_r.
Qed.
Print Assumptions C68_payload.

Lemma payload4 fc g ids n c at_ b s : is_section4 fc g ids n c at_ b s ->
  exists body pay pad subs moved, b = body ++ pay ++ pad /\ blen body = 32 /\ is_payload fc g ids n c pay moved subs /\ has s "payload" (FPayload c subs).
Proof.
  intros (body & pay & moved & pad & fs & subs & -> & Hf & HP & _ & ->). exists body, pay, pad, subs, moved. split; [reflexivity|].
  split; [|split; [exact HP|]].
  - apply fills_len in Hf. rewrite Hf. reflexivity.
  - unfold has, FieldByName. cbn [sec_fields]. unfold layout4 in Hf.
    inversion Hf as [|? ? ? ? ? ? ? ? _ Hf1]; subst. inversion Hf1 as [|? ? ? ? ? ? ? ? _ Hf2]; subst. inversion Hf2; subst. reflexivity.
Qed.

(** C68, converse.  Whatever bytes decode to a message: the template's descriptors, the number
    of subsets and the compression flag are in section 3, the tables are those section 1
    names, and the bits between the head of section 4 and its padding are data for that
    template, whose values are those of the payload.  The end section follows, and the
    reader stands behind it. *)
Theorem C68_only : forall fc s r s' m, fc_json fc = false -> SpecMessage.reads s r -> in_step r -> Run fc s = (s', Ok m) ->
  exists s0 s1 opt s3 s4 s5 g ids n c subs before head pay pad stop rest,
    msg_sections m = s0 :: s1 :: opt ++ [s3; s4; s5] /\ tables_of fc s1 g /\
    has s3 "unexpandedTemplate" (FTemplate ids) /\ has s3 "nSubsets" (FUint n) /\ has s3 "isCompressed" (FBool c) /\
    has s4 "payload" (FPayload c subs) /\
    br_bits r = before ++ head ++ pay ++ pad ++ stop ++ rest /\ blen head = 32 /\ blen stop = 32 /\
    (exists p, SpecMessage.reads s' (mkBR rest (br_err r) p)) /\
    (0 <= n /\ ((c = true -> 0 < n) -> plausible c subs -> holds_data fc g ids n c pay subs)).
Proof.
  intros fc s r s' m Hj Hr Hi H. destruct (C53_sound fc s r s' m Hj Hr Hi H) as (sk & bits & rest & E & _ & M & R).
  destruct M as (ed & b0 & b1 & b2 & b3 & b4 & b5 & s0 & s1 & s2 & s3 & s4 & s5 & flag & ids & n & c & g & -> & Es & M). cbv zeta in M.
  destruct M as (_ & _ & _ & _ & _ & _ & M3 & Hn & Hc & Ht & M4 & M5).
  destruct (payload4 _ _ _ _ _ _ _ _ M4) as (body & pay & pad & subs & moved & -> & Hb & HP & H4).
  exists s0, s1, s2, s3, s4, s5, g, ids, n, c, subs, (sk ++ b0 ++ b1 ++ b2 ++ b3), body, pay, pad, b5, rest.
  split; [exact Es|]. split; [exact Ht|]. split; [unfold has; rewrite (template3 _ _ _ _ M3); reflexivity|].
  split; [exact Hn|]. split; [exact Hc|]. split; [exact H4|]. split; [rewrite E, <- !app_assoc; reflexivity|]. split; [exact Hb|].
  split; [|split; [eauto|]].
  - destruct M5 as (fs & Hf & _). apply fills_len in Hf. rewrite Hf. reflexivity.
  - assert (N : 0 <= n).
    { destruct (proxy3 _ _ _ _ "nSubsets"%string DUINT 16 M3 eq_refl eq_refl) as (sg & Hl & F & _). unfold has in Hn. rewrite F in Hn. cbn in Hn.
      injection Hn as <-. apply msb_bound. }
    split; [exact N|]. intros C P. eapply C68_payload; eassumption.
Qed.
Print Assumptions C68_only.
(** Case: the message of C51 decodes, and its payload - two subsets with values - is of the kind described. *)
Example C68_only_case : match Run ex_fc (on_bytes (9 :: msg4)) with
  | (s', Ok m) => match nth_error (msg_sections m) 3 with
      | Some s4 => match FieldByName s4 "payload" with
          | Some f => match f_value f with FPayload c subs => plausible c subs /\ c = false /\ length subs = 2%nat | _ => False end
          | None => False end
      | None => False end
  | _ => False end.
Proof.
  destruct (Run ex_fc (on_bytes (9 :: msg4))) as [s' x] eqn:E. vm_compute in E. injection E as _ <-. cbn [msg_sections rev app msg_cur msg_done nth_error].
  destruct (FieldByName _ _) as [f|] eqn:F; [|discriminate F]. vm_compute in F. injection F as <-. cbn [f_value]. split; [|split; reflexivity].
  intros sb x Hsb Hx. cbn [In] in Hsb.
  repeat (destruct Hsb as [<-|Hsb]; [cbn [sb_cells In] in Hx; repeat (destruct Hx as [<-|Hx]; [vm_compute; repeat split; try discriminate; auto|]); destruct Hx|]). destruct Hsb.
Qed.
