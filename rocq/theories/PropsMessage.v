(** Properties of whole messages: C50-C57, C60. *)
From Coq Require Import ZifyBool ZifyNat.
From Verif Require Import SpecMessage ProofsMsg9 ProofsBase ProofsBits ProofsBitProps ProofsUnpack ProofsJson PropsJson.
Notation field := ModelFactory.field.

(** ** Examples used throughout: a real message (94 bytes, edition 4, compressed, 2 subsets) *)
Definition msg4 : list Z :=
  [0x42;0x55;0x46;0x52;0x00;0x00;0x5e;0x04;0x00;0x00;0x16;0x00;0x00;0x01;0x00;0x00;0x00;0x00;0x02;0x04;
   0x00;0x12;0x00;0x07;0xe0;0x02;0x12;0x17;0x00;0x00;0x00;0x00;0x19;0x00;0x00;0x02;0x80;0xc1;0x01;0x45;
   0x02;0x42;0x00;0x1f;0x01;0x08;0x02;0x14;0x0b;0x08;0x02;0xc1;0x0b;0x14;0x0b;0x00;0x00;0x23;0x00;0xbc;
   0xe6;0x81;0x02;0x41;0xa2;0xa0;0x62;0xb0;0xf0;0x4d;0x2c;0xfc;0x04;0x90;0xdf;0xde;0x00;0xcc;0xb2;0xa4;
   0x87;0x58;0x08;0x65;0x10;0xd5;0x7e;0x11;0x04;0x80;0x37;0x37;0x37;0x37].
Definition ex_entry (u : unit_t) (s r n : Z) := mkBentry [] [] u s r n [] NUMERIC 0 0.
Definition ex_b (id : Z) : option bentry :=
  assoc_get [(1001, ex_entry NUMERIC 0 0 7); (1002, ex_entry NUMERIC 0 0 10); (31001, ex_entry NUMERIC 0 0 8);
   (8002, ex_entry NONNEG_CODE 0 0 6); (20011, ex_entry NONNEG_CODE 0 0 4); (4001, ex_entry NUMERIC 0 0 12);
   (4002, ex_entry NUMERIC 0 0 4); (4003, ex_entry NUMERIC 0 0 6)] id.
Definition ex_d (id : Z) := assoc_get [(301001,[1001;1002]);(301011,[4001;4002;4003])] id.
Definition ex_fs := mkTableFs (fun _ _ _ _ => Ok ex_b) (fun _ _ _ _ => Ok ex_d).
Definition ex_fc := mkFconfig false false pl0 ex_fs 1000.
(** A factory reading the given bytes. *)
Definition on_bytes (bs : list Z) : fac := NewDefaultFactory (RBit (mkBR (bytes_bits bs) EEof 0)).
Definition last4 (bs : list Z) : list Z := rev (firstn 4 (rev bs)).
Definition ok {A} (x : fac * res A) : bool := match snd x with Ok _ => true | _ => false end.
Definition left (s : fac) : Z := match fa_r s with RBit r => Z.of_nat (length (br_bits r)) | _ => -1 end.
Definition at_ (s : fac) : Z := r_Pos (fa_r s).

(** ** C50 The first start signature is found *)

(** Every stream of whole bytes has a first signature or none, not both, ... *)
Theorem C50_signature_cases : forall bits : list bool, blen bits mod 8 = 0 ->
  (no_signature bits /\ forall skipped found, bits = skipped ++ found -> ~ first_signature skipped found) \/
  (~ no_signature bits /\ exists skipped found, bits = skipped ++ found /\ first_signature skipped found /\
     forall skipped' found', bits = skipped' ++ found' -> first_signature skipped' found' ->
       skipped' = skipped /\ found' = found).
Proof.
  intros bits H. destruct (signature_cases (Z.to_nat (blen bits / 8)) bits) as [N|(sk & b & -> & F)].
  { unfold blen in *. lia. }
  - left. split; [exact N|]. intros sk b -> F. now apply (first_not_none sk b).
  - right. split; [now apply first_not_none|]. exists sk, b. split; [reflexivity|]. split; [exact F|]. intros sk' b' E F'.
    apply first_unique; [exact F'|exact F|now symmetry].
Qed.
Print Assumptions C50_signature_cases.
(** ... and seeking stops right in front of the first, having read the bytes before it and
    nothing else, or reports an error. *)
Theorem C50_seek : forall fuel s r, reads s r -> 0 <= br_pos r -> br_pos r mod 8 = 0 ->
  blen (br_bits r) mod 8 = 0 -> blen (br_bits r) < 8 * Z.of_nat fuel ->
  (forall skipped found, br_bits r = skipped ++ found -> first_signature skipped found ->
     exists s', SeekStartSignature fuel s = (s', Ok tt) /\
       reads s' (mkBR found (br_err r) (br_pos r + blen skipped)) /\ fa_msg s' = fa_msg s) /\
  (no_signature (br_bits r) -> exists s' e, SeekStartSignature fuel s = (s', Err e)).
Proof.
  intros fuel s [l e p] Hr Hp P8 L8 Hf. cbn [br_bits br_err br_pos] in *. rewrite (fst_eta _ _ _ _ Hr). split.
  - intros sk b -> F. eexists. split; [apply seek_ok; try assumption|].
    + destruct F as (F8 & _). rewrite blen_app in L8. lia.
    + rewrite blen_app in Hf. pose proof (blen_nonneg b). lia.
    + split; reflexivity.
  - intros N. now apply seek_none.
Qed.
Print Assumptions C50_seek.
(** A message is decoded from there and nowhere else: its indicator section starts at the
    byte of the first signature. *)
Theorem C50_run : forall fc s r s' m, fc_json fc = false -> reads s r -> in_step r ->
  Run fc s = (s', Ok m) ->
  exists skipped found s0 more, br_bits r = skipped ++ found /\ first_signature skipped found /\
    msg_sections m = s0 :: more /\ 8 * sec_start s0 = br_pos r + blen skipped.
Proof.
  intros fc s [l e p] s' m Hj Hr [Hp H8] H. cbn [br_bits br_err br_pos] in *.
  destruct (run_sound fc Hj _ _ _ _ _ _ Hr Hp H8 H) as (P8 & L8 & sk & b & rest & -> & F & _ & M & _).
  destruct M as (ed & b0 & b1 & b2 & b3 & b4 & b5 & s0 & s1 & s2 & s3 & s4 & s5 & flag & ids & n & c & g & _ & E & M). cbv zeta in M. destruct M as ((fs & _ & -> & _) & _).
  rewrite E. eexists sk, (b ++ rest), _, _. split; [reflexivity|]. split; [exact F|]. split; [reflexivity|]. cbn [sec_start]. destruct F as (F8 & _). lia.
Qed.
Print Assumptions C50_run.
Theorem C50_run_none : forall fc s r, fc_json fc = false -> reads s r -> in_step r ->
  br_pos r mod 8 = 0 -> no_signature (br_bits r) -> blen (br_bits r) < 8 * Z.of_nat (fc_fuel fc) ->
  exists s' e, Run fc s = (s', Err e).
Proof.
  intros fc s [l e p] Hj Hr [Hp H8] P8 N Hf. cbn [br_bits br_err br_pos] in *. eapply (run_none fc); try eassumption. lia.
Qed.
Print Assumptions C50_run_none.
(** Case: two bytes of garbage, one of them a 'B'. *)
Example C50_case : first_signature (bytes_bits [1; 66]) (bytes_bits [66; 85; 70; 82; 0]) /\
  no_signature (bytes_bits [66; 85; 70; 83; 82]) /\
  in_step (mkBR (bytes_bits [1; 66; 66; 85; 70; 82; 0]) EEof 16).
Proof.
  split; [|split].
  - split; [reflexivity|]. split; [exists (bytes_bits [0]); reflexivity|]. intros a b E Ha Hb [r K].
    destruct a as [|? a]; [cbn in E; subst b; discriminate K|].
    do 7 (destruct a as [|? a]; [discriminate Ha|]). cbn in E. injection E as -> -> -> -> -> -> -> -> E. destruct a as [|? a]; [cbn in E; subst b; discriminate K|].
    do 7 (destruct a as [|? a]; [discriminate Ha|]). cbn in E. injection E as -> -> -> -> -> -> -> -> E. symmetry in E. apply app_eq_nil in E. tauto.
  - intros a b E Ha [r K]. subst b. assert (L := f_equal (@length bool) E). rewrite !app_length in L. cbn in L.
    destruct a as [|? a]; [discriminate E|]. do 7 (destruct a as [|? a]; [discriminate Ha|]). cbn in E. injection E as _ _ _ _ _ _ _ _ E.
    destruct a as [|? a]; [discriminate E|]. cbn in L. lia.
  - split; [cbn; lia|reflexivity].
Qed.
Example C50_case_run : at_ (fst (SeekStartSignature 100 (on_bytes ([1; 66] ++ msg4 ++ [5])))) = 16 /\
  ok (Run ex_fc (on_bytes ([1; 66] ++ msg4 ++ [5]))) = true /\
  ok (Run ex_fc (on_bytes [1; 66; 85; 70; 83; 5; 6])) = false.
Proof. vm_compute. auto. Qed.

(** ** C51 Sections end where their length says *)

(** The bits of every section of a decoded message are as many as its length field says.
    Missing: a section 2 announcing less than 4 bytes and payloads with negative widths,
    both of which are accepted (refuted below). *)
Theorem C51_section_lengths_partial : forall fc s r s' m, fc_json fc = false -> reads s r -> in_step r ->
  Run fc s = (s', Ok m) ->
  exists skipped segs rest, br_bits r = skipped ++ concat segs ++ rest /\
    (exists p, reads s' (mkBR rest (br_err r) p)) /\
    Forall2 (fun sec seg =>
      (1 <= sec_number sec <= 4 -> exists n, has sec "lengthInBytes" (FUint n)) /\
      (forall n, 1 <= sec_number sec <= 4 -> has sec "lengthInBytes" (FUint n) ->
         (sec_number sec = 2 -> 4 <= n) -> regular sec -> blen seg = 8 * n) /\
      (sec_number sec = 0 -> blen seg = 64) /\ (sec_number sec = 5 -> blen seg = 32))
      (msg_sections m) segs.
Proof.
  intros fc s [l e p] s' m Hj Hr [Hp H8] H. cbn [br_bits br_err br_pos] in *.
  destruct (run_sound fc Hj _ _ _ _ _ _ Hr Hp H8 H) as (P8 & L8 & sk & b & rest & -> & F & _ & M & R & _).
  destruct M as (ed & b0 & b1 & b2 & b3 & b4 & b5 & s0 & s1 & s2 & s3 & s4 & s5 & flag & ids & n & c & g & -> & E & M). cbv zeta in M.
  destruct M as (M0 & _ & _ & M1 & _ & M2 & M3 & _ & _ & _ & M4 & M5). rewrite E.
  assert (N0 : sec_number s0 = 0) by (destruct M0 as (? & _ & -> & _); reflexivity).
  assert (N1 : sec_number s1 = 1) by (destruct M1 as (? & ? & ? & _ & _ & _ & ->); reflexivity).
  assert (N3 : sec_number s3 = 3) by (destruct M3 as (? & ? & ? & ? & _ & _ & _ & _ & _ & ->); reflexivity).
  assert (N4 : sec_number s4 = 4) by (destruct M4 as (? & ? & ? & ? & ? & ? & _ & _ & _ & _ & ->); reflexivity).
  assert (N5 : sec_number s5 = 5) by (destruct M5 as (? & _ & ->); reflexivity).
  apply size0 in M0. apply size1 in M1. apply size3 in M3. apply size4 in M4. apply size5 in M5.
  assert (D2 : exists segs2, concat segs2 = b2 /\ Forall2 (fun sec seg =>
      (1 <= sec_number sec <= 4 -> exists n, has sec "lengthInBytes" (FUint n)) /\
      (forall n, 1 <= sec_number sec <= 4 -> has sec "lengthInBytes" (FUint n) ->
         (sec_number sec = 2 -> 4 <= n) -> regular sec -> blen seg = 8 * n) /\
      (sec_number sec = 0 -> blen seg = 64) /\ (sec_number sec = 5 -> blen seg = 32)) s2 segs2).
  { destruct flag; [|destruct M2 as [-> ->]; exists []; auto]. destruct M2 as (x & -> & M2). exists [b2]. split; [cbn; apply app_nil_r|].
    assert (N2 : sec_number x = 2) by (destruct M2 as (? & ? & ? & _ & _ & _ & ->); reflexivity). apply size2 in M2. destruct M2 as [M2 L2].
    constructor; [|constructor]. rewrite N2. split; [eauto|]. split; [|split; intros; discriminate].
    intros k _ Hk H4 _. specialize (H4 eq_refl). rewrite (len_unique _ _ _ Hk L2) in *. lia. }
  destruct D2 as (segs2 & <- & D2). exists sk, ([b0; b1] ++ segs2 ++ [b3; b4; b5]), rest.
  split; [rewrite !concat_app; cbn [concat]; rewrite !app_nil_r, <- !app_assoc; reflexivity|]. split; [eauto|].
  change (s0 :: s1 :: s2 ++ [s3; s4; s5]) with ([s0; s1] ++ s2 ++ [s3; s4; s5]).
  destruct M1 as [M1 L1]. destruct M3 as [M3 L3]. destruct M4 as [L4 M4].
  apply Forall2_app; [|apply Forall2_app; [exact D2|]].
  - constructor; [|constructor; [|constructor]].
    + rewrite N0. split; [lia|]. split; [intros; lia|]. split; [auto|intros; discriminate].
    + rewrite N1. split; [eauto|]. split; [|split; intros; discriminate]. intros k _ Hk _ _. rewrite (len_unique _ _ _ Hk L1). exact M1.
  - constructor; [|constructor; [|constructor; [|constructor]]].
    + rewrite N3. split; [eauto|]. split; [|split; intros; discriminate]. intros k _ Hk _ _. rewrite (len_unique _ _ _ Hk L3). exact M3.
    + rewrite N4. split; [eauto|]. split; [|split; intros; discriminate]. intros k _ Hk _ HR. rewrite (len_unique _ _ _ Hk L4). now apply M4.
    + rewrite N5. split; [lia|]. split; [intros; lia|]. split; [intros; discriminate|auto].
Qed.
Print Assumptions C51_section_lengths_partial.
(** The positions reported for the sections always follow the announced lengths. *)
Theorem C51_section_starts : forall fc s r s' m i a b, fc_json fc = false -> reads s r -> in_step r ->
  Run fc s = (s', Ok m) ->
  nth_error (msg_sections m) i = Some a -> nth_error (msg_sections m) (S i) = Some b ->
  (i = 0%nat /\ sec_start b = sec_start a + 8) \/
  (exists n, has a "lengthInBytes" (FUint n) /\ sec_start b = sec_start a + n).
Proof.
  intros fc s [l e p] s' m i a b Hj Hr [Hp H8] H Ha Hb. cbn [br_bits br_err br_pos] in *.
  destruct (run_sound fc Hj _ _ _ _ _ _ Hr Hp H8 H) as (P8 & L8 & sk & bb & rest & -> & F & _ & M & R & _).
  destruct M as (ed & b0 & b1 & b2 & b3 & b4 & b5 & s0 & s1 & s2 & s3 & s4 & s5 & flag & ids & n & c & g & -> & E & M). cbv zeta in M.
  destruct M as (M0 & _ & _ & M1 & _ & M2 & M3 & _ & _ & _ & M4 & M5). rewrite E in Ha, Hb.
  assert (E0 := M0). destruct E0 as (? & _ & E0 & _). assert (E1 := M1). destruct E1 as (? & ? & ? & _ & _ & _ & E1).
  assert (E3 := M3). destruct E3 as (? & ? & ? & ? & _ & _ & _ & _ & _ & E3).
  assert (E4 := M4). destruct E4 as (? & ? & ? & ? & ? & ? & _ & _ & _ & _ & E4). assert (E5 := M5). destruct E5 as (? & _ & E5).
  apply (f_equal sec_start) in E0, E1, E3, E4, E5. cbn [sec_start] in *.
  apply size1 in M1. apply size3 in M3. apply size4 in M4.
  destruct flag.
  - destruct M2 as (sec2 & -> & M2). assert (E2 := M2). destruct E2 as (? & ? & ? & _ & _ & _ & E2). apply (f_equal sec_start) in E2. cbn [sec_start] in E2. apply size2 in M2.
    destruct i as [|[|[|[|[|i]]]]]; cbn in Ha, Hb; try (destruct i; discriminate); injection Ha as <-; injection Hb as <-.
    + left. lia. + right. exists (announced b1). split; [apply M1|lia]. + right. exists (announced b2). split; [apply M2|lia].
    + right. exists (announced b3). split; [apply M3|lia]. + right. exists (announced b4). split; [apply M4|lia].
  - destruct M2 as [-> ->].
    destruct i as [|[|[|[|i]]]]; cbn in Ha, Hb; try (destruct i; discriminate); injection Ha as <-; injection Hb as <-.
    + left. lia. + right. exists (announced b1). split; [apply M1|lia].
    + right. exists (announced b3). split; [apply M3|lia]. + right. exists (announced b4). split; [apply M4|lia].
Qed.
Print Assumptions C51_section_starts.
(** Padding: exactly the announced number of bits, counted by the reader's position; too
    many bits read before is an error. *)
Theorem C51_padding : forall n s r sec, reads s r -> current s sec ->
  let used := br_pos r - 8 * sec_start sec in
  (used <= 8 * n -> 8 * n - used <= blen (br_bits r) ->
     exists s' pad rest, Padding n s = (s', Ok tt) /\ br_bits r = pad ++ rest /\ blen pad = 8 * n - used /\
       reads s' (mkBR rest (br_err r) (8 * (sec_start sec + n)))) /\
  (8 * n < used -> exists s' e, Padding n s = (s', Err e)) /\
  (forall s', Padding n s = (s', Ok tt) -> used <= 8 * n /\ 8 * n - used <= blen (br_bits r)).
Proof.
  intros n s [l e p] sec Hr (m & Hm & Hc). cbn [br_bits br_err br_pos]. cbv zeta.
  assert (Es : s = st l e p (msg_done m) sec (msg_proxy m) (fa_ut s) (fa_group s)).
  { destruct s. cbn in *. subst. unfold reads in Hr. cbn in Hr. subst. unfold st. destruct m. cbn in *. now subst. }
  rewrite Es. split; [|split].
  - intros H1 H2. destruct (cut_bits l (8 * n - (p - 8 * sec_start sec)) ltac:(lia) H2) as (pad & rest & -> & Hb).
    eexists _, pad, rest. split; [apply Padding_ok; lia|]. split; [reflexivity|]. split; [exact Hb|]. unfold reads, st. cbn [fa_r]. do 2 f_equal. lia.
  - intros H. unfold Padding. cbv [bind gets get_section get_msg ret st fa_r fa_msg msg_cur r_Pos br_pos]. unfold NBITS_PER_BYTE.
    destruct (_ =? 0) eqn:E1; [lia|]. destruct (_ <? 0) eqn:E2; [unfold fail; eauto|lia].
  - intros s' H. apply Padding_inv in H. destruct H as (pad & rest & -> & Hb). rewrite blen_app. pose proof (blen_nonneg pad). pose proof (blen_nonneg rest). lia.
Qed.
Print Assumptions C51_padding.

(** A message with a section 2 of zero announced bytes: accepted, 4 bytes taken. *)
Definition with_section2 (len : Z) : list Z :=
  firstn 17 msg4 ++ [0x80] ++ firstn 12 (skipn 18 msg4) ++ [0; 0; len; 0] ++ skipn 30 msg4.
(** 201105 makes 001001 (7 bits) 16 bits narrower than nothing. *)
Definition narrowed : list Z :=
  firstn 30 msg4 ++ [0; 0; 13; 0; 0; 1; 0x80; 0x81; 105; 1; 1; 0x81; 0] ++ [0; 0; 4; 0] ++ [9; 9] ++ [0x37; 0x37; 0x37; 0x37].
Definition length_of (s : section) : Z :=
  match FieldByName s "lengthInBytes" with Some f => match f_value f with FUint n => n | _ => 0 end | None => 0 end.
Definition lengths (m : message) : Z := fold_right Z.add 0 (map length_of (msg_sections m)).
(** The bytes of a message are those of sections 0 and 5 and the lengths announced. *)
Theorem C51_section_lengths_refuted :
  (exists bs s' m, Run ex_fc (on_bytes bs) = (s', Ok m) /\
     map sec_number (msg_sections m) = [0; 1; 2; 3; 4; 5] /\
     left (on_bytes bs) - left s' <> 8 * (8 + lengths m + 4)) /\
  (exists bs s' m, Run ex_fc (on_bytes bs) = (s', Ok m) /\
     map sec_number (msg_sections m) = [0; 1; 3; 4; 5] /\
     left (on_bytes bs) - left s' <> 8 * (8 + lengths m + 4)).
Proof.
  split.
  - exists (with_section2 0). destruct (Run ex_fc (on_bytes (with_section2 0))) as [s' x] eqn:E. vm_compute in E.
    injection E as <- <-. eexists _, _. split; [reflexivity|]. split; [reflexivity|]. vm_compute. discriminate.
  - exists narrowed. destruct (Run ex_fc (on_bytes narrowed)) as [s' x] eqn:E. vm_compute in E.
    injection E as <- <-. eexists _, _. split; [reflexivity|]. split; [reflexivity|]. vm_compute. discriminate.
Qed.
Print Assumptions C51_section_lengths_refuted.
(** Case: the real message is regular and ends where it says. *)
Example C51_case : match Run ex_fc (on_bytes (msg4 ++ [5])) with
  | (s', Ok m) => map sec_start (msg_sections m) = [0; 8; 30; 55; 90] /\ map length_of (msg_sections m) = [0; 22; 25; 35; 0] /\
      left s' = 8 /\ at_ s' = 752
  | _ => False end.
Proof. vm_compute. auto. Qed.
Example C51_case_regular : match Run ex_fc (on_bytes msg4) with (_, Ok m) => Forall regular (msg_sections m) | _ => False end.
Proof.
  destruct (Run ex_fc (on_bytes msg4)) as [s' x] eqn:E. vm_compute in E. injection E as _ <-. cbn [msg_sections rev app msg_cur msg_done].
  repeat first [apply Forall_nil | apply Forall_cons]; unfold regular; cbn [sec_fields]; repeat first [apply Forall_nil | apply Forall_cons].
  all: intros c subs E; cbn [f_value] in E; try discriminate E.
  injection E as <- <-. split; [discriminate|]. intros sb x Hsb Hx. cbn [In] in Hsb.
  repeat (destruct Hsb as [<-|Hsb]; [cbn [sb_cells In] in Hx; repeat (destruct Hx as [<-|Hx]; [vm_compute; try discriminate; auto|]); destruct Hx|]). destruct Hsb.
Qed.

(** ** C52 The template field holds the section's descriptors *)

(** [room]: the bits left in the section.  All of its whole descriptors, in order; the width
    reported is what they take.  [0 <= room] holds whenever the section's fields did not
    already overrun it; otherwise the template is empty (less than a descriptor too far) or
    the decoder panics. *)
Theorem C52_template : forall fc name n s r sec, reads s r -> current s sec ->
  let room := 8 * n - (br_pos r - 8 * sec_start sec) in
  (0 <= room -> 16 * (room / 16) <= blen (br_bits r) ->
     exists s' ids segs rest, br_bits r = concat segs ++ rest /\ Forall2 is_descriptor ids segs /\
       blen ids = room / 16 /\
       let f := mkField name (FTemplate ids) (16 * blen ids) false in
       NewTemplateField fc name 2 6 8 n s = (s', Ok f) /\
       reads s' (mkBR rest (br_err r) (br_pos r + f_nbits f)) /\ fa_ut s' = Some ids /\
       (exists sec', current s' sec' /\ sec_fields sec' = sec_fields sec ++ [f]) /\
       (exists m', fa_msg s' = Some m' /\ ProxyField m' name = Ok f)) /\
  (0 <= room -> blen (br_bits r) < 16 * (room / 16) ->
     exists s' e, NewTemplateField fc name 2 6 8 n s = (s', Err e)) /\
  (-16 < room < 0 -> exists s', NewTemplateField fc name 2 6 8 n s = (s', Ok (mkField name (FTemplate []) 0 false)) /\ reads s' r) /\
  (room <= -16 -> exists s', NewTemplateField fc name 2 6 8 n s = (s', Panic PMake)).
Proof.
  intros fc name n s [l e p] sec Hr (m & Hm & Hc). cbn [br_bits br_err br_pos]. cbv zeta. set (room := 8 * n - (p - 8 * sec_start sec)).
  assert (Es : s = st l e p (msg_done m) sec (msg_proxy m) (fa_ut s) (fa_group s)).
  { destruct s. cbn in *. subst. unfold reads in Hr. cbn in Hr. subst. unfold st. destruct m. cbn in *. now subst. }
  rewrite Es. rewrite !template_step. fold room. cbv zeta. split; [|split; [|split]].
  - intros H0 H1. rewrite Z.quot_div_nonneg by lia. pose proof (Z.div_pos room 16 H0 ltac:(lia)). destruct (_ <? 0) eqn:E0; [lia|].
    destruct (cut_descriptors (Z.to_nat (room / 16)) l ltac:(lia)) as (ids & segs & rest & -> & Hf & Hn).
    rewrite <- Hn. unfold st at 1. rewrite (read_ids_ok fc ids segs Hf). eexists _, ids, segs, rest. split; [reflexivity|]. split; [exact Hf|]. split; [unfold blen; lia|].
    split; [cbv [modify AddField upd_section set_proxy SetProxyField bind get_msg ret fa_r fa_msg fa_ut fa_group msg_cur msg_done msg_proxy set_msg f_name];
            unfold blen; rewrite (Z.mul_comm _ 16); reflexivity|].
    split; [reflexivity|]. split; [reflexivity|]. split.
    + eexists. split; [eexists; split; reflexivity|]. reflexivity.
    + eexists. split; [reflexivity|]. unfold ProxyField. cbn [msg_proxy proxy_get f_name]. now rewrite String.eqb_refl.
  - intros H0 H1. rewrite Z.quot_div_nonneg by lia. pose proof (Z.div_pos room 16 H0 ltac:(lia)). destruct (_ <? 0) eqn:E0; [lia|].
    destruct (read_ids_short fc (Z.to_nat (room / 16)) l e p (Some (mkMessage (msg_done m) (Some sec) (msg_proxy m))) (fa_ut s) (fa_group s) ltac:(lia)) as (s' & x & E).
    unfold st. rewrite E. eauto.
  - intros H. assert (Z.quot room 16 = 0) as ->. { replace room with (- (- room)) by lia. rewrite Z.quot_opp_l by lia. rewrite Z.quot_div_nonneg by lia. rewrite Z.div_small; lia. }
    eexists. split; [reflexivity|reflexivity].
  - intros H. assert (Z.quot room 16 < 0). { replace room with (- (- room)) by lia. rewrite Z.quot_opp_l by lia. rewrite Z.quot_div_nonneg by lia. pose proof (Z.div_le_lower_bound (- room) 16 1). lia. }
    destruct (_ <? 0) eqn:E0; [eauto|lia].
Qed.
Print Assumptions C52_template.
(** Case: a section of 5 bytes started at byte 2, two descriptors and a spare byte. *)
Definition ex_sec : section := mkSection 3 "Data Description Section" 2 0 [].
Definition ex_at (bs : list Z) : fac := mkFac (RBit (mkBR (bytes_bits bs) EEof 16)) (Some (mkMessage [] (Some ex_sec) [])) None None.
Example C52_case : match NewTemplateField ex_fc "t" 2 6 8 5 (ex_at [0xC1; 0x01; 0x45; 0x02; 7; 8]) with
  | (s', Ok f) => f_value f = FTemplate [301001; 105002] /\ f_nbits f = 32 /\ at_ s' = 48 /\ left s' = 16
  | _ => False end.
Proof. vm_compute. auto. Qed.

(** ** C53 Message layout *)

(** What [Run] returns for binary input are the sections of the message at the first
    signature, and all that: [is_message] (SpecMessage.v) lays out sections 0,1,(2),3,4,5 in
    the bits, section 2 as the flag says, section 1 as the edition says. *)
Theorem C53_sound : forall fc s r s' m, fc_json fc = false -> reads s r -> in_step r ->
  Run fc s = (s', Ok m) ->
  exists skipped bits rest, br_bits r = skipped ++ bits ++ rest /\
    first_signature skipped (bits ++ rest) /\
    is_message fc ((br_pos r + blen skipped) / 8) bits (msg_sections m) /\
    reads s' (mkBR rest (br_err r) (8 * behind (msg_sections m))).
Proof.
  intros fc s [l e p] s' m Hj Hr [Hp H8] H. cbn [br_bits br_err br_pos] in *.
  destruct (run_sound fc Hj _ _ _ _ _ _ Hr Hp H8 H) as (P8 & L8 & sk & b & rest & -> & F & _ & M & R & _). eauto 10.
Qed.
Print Assumptions C53_sound.
Theorem C53_complete : forall fc s r skipped bits rest secs, fc_json fc = false -> reads s r ->
  0 <= br_pos r -> br_pos r mod 8 = 0 -> blen (br_bits r) mod 8 = 0 ->
  blen (br_bits r) < 8 * Z.of_nat (fc_fuel fc) ->
  br_bits r = skipped ++ bits ++ rest -> first_signature skipped (bits ++ rest) ->
  is_message fc ((br_pos r + blen skipped) / 8) bits secs ->
  exists s' m, Run fc s = (s', Ok m) /\ msg_sections m = secs /\
    reads s' (mkBR rest (br_err r) (8 * behind secs)).
Proof.
  intros fc s [l e p] sk b rest secs Hj Hr Hp P8 L8 Hf E F M. cbn [br_bits br_err br_pos] in *. subst l.
  destruct (run_complete fc Hj s sk b rest e p secs Hr Hp P8 F) as (s' & m & H1 & H2 & H3 & _).
  - destruct F as (F8 & _). rewrite blen_app in L8. lia.
  - rewrite blen_app in Hf. pose proof (blen_nonneg (b ++ rest)). lia.
  - exact M.
  - eauto.
Qed.
Print Assumptions C53_complete.
(** In particular, in terms of the sections alone: *)
Theorem C53_layout : forall fc s r s' m, fc_json fc = false -> reads s r -> in_step r ->
  Run fc s = (s', Ok m) ->
  exists s0 s1 more edition flag, msg_sections m = s0 :: s1 :: more /\
    has s0 "bufrEditionNumber" (FUint edition) /\ (edition = 3 \/ edition = 4) /\
    has s1 "isSection2Presents" (FBool flag) /\
    map sec_number (msg_sections m) = (if flag : bool then [0; 1; 2; 3; 4; 5] else [0; 1; 3; 4; 5]) /\
    map sec_description (msg_sections m) =
      ["Indicator Section"; "Identification Section"]%string ++
      (if flag then ["Optional Section"]%string else []) ++
      ["Data Description Section"; "Data Section"; "End Section"]%string /\
    exists pad, map (fun f => (f_name f, f_nbits f)) (sec_fields s1) =
      map (fun x : slot => let '(nm, _, w, _) := x in (nm, w)) (layout1 edition) ++ pad.
Proof.
  intros fc s [l e p] s' m Hj Hr [Hp H8] H. cbn [br_bits br_err br_pos] in *.
  destruct (run_sound fc Hj _ _ _ _ _ _ Hr Hp H8 H) as (P8 & L8 & sk & bb & rest & -> & F & _ & M & R & _).
  destruct M as (ed & b0 & b1 & b2 & b3 & b4 & b5 & s0 & s1 & s2 & s3 & s4 & s5 & flag & ids & n & c & g & -> & E & M). cbv zeta in M.
  destruct M as (M0 & He & Hed & M1 & Hfl & M2 & M3 & _ & _ & _ & M4 & M5). exists s0, s1, (s2 ++ [s3; s4; s5]), ed, flag.
  split; [exact E|]. split; [exact He|]. split; [exact Hed|]. split; [exact Hfl|]. rewrite E.
  destruct M0 as (? & _ & -> & _). destruct M1 as (body & pad & fs & _ & F1 & _ & ->). destruct M3 as (? & ? & ? & ? & _ & _ & _ & _ & _ & ->).
  destruct M4 as (? & ? & ? & ? & ? & ? & _ & _ & _ & _ & ->). destruct M5 as (? & _ & ->). split; [|split].
  - destruct flag; [destruct M2 as (y & -> & (? & ? & ? & _ & _ & _ & ->))|destruct M2 as [-> ->]]; reflexivity.
  - destruct flag; [destruct M2 as (y & -> & (? & ? & ? & _ & _ & _ & ->))|destruct M2 as [-> ->]]; reflexivity.
  - cbn [sec_fields]. rewrite map_app. eexists. f_equal. clear - F1. induction F1 as [|nm t w px slots seg bits fs Hs F1 IH]; [reflexivity|]. cbn [map f_name f_nbits]. now rewrite IH.
Qed.
Print Assumptions C53_layout.
(** Any other edition number is rejected. *)
Theorem C53_editions : forall fc s r skipped found, fc_json fc = false -> reads s r ->
  0 <= br_pos r -> br_pos r mod 8 = 0 -> blen (br_bits r) mod 8 = 0 ->
  blen (br_bits r) < 8 * Z.of_nat (fc_fuel fc) ->
  br_bits r = skipped ++ found -> first_signature skipped found -> 64 <= blen found ->
  msb (firstn 8 (skipn 56 found)) <> 3 -> msb (firstn 8 (skipn 56 found)) <> 4 ->
  exists s' e, Run fc s = (s', Err e).
Proof.
  intros fc s [l e p] sk b Hj Hr Hp P8 L8 Hf E F L64 N3 N4. cbn [br_bits br_err br_pos] in *. subst l.
  assert (F8 : blen sk mod 8 = 0) by apply F. rewrite blen_app in *. pose proof (blen_nonneg b). pose proof (blen_nonneg sk).
  rewrite (fst_eta _ _ _ _ Hr). unfold Run. rewrite (bind_ok _ _ _ _ _ (seek_ok (fc_fuel fc) sk b e p _ _ _ Hp P8 ltac:(lia) F ltac:(lia))).
  unfold bind at 1. unfold boot. erewrite bind_ok; [|apply lua_ok; unfold PeekEditionNumber, fst_; apply onr_eq; apply (peek_edition (fc_plat fc) b e (p + blen sk)); lia].
  destruct (Z.eqb_spec (msb (firstn 8 (skipn 56 b))) 4); [contradiction|]. destruct (Z.eqb_spec (msb (firstn 8 (skipn 56 b))) 3); [contradiction|]. unfold fail. eauto.
Qed.
Print Assumptions C53_editions.
Example C53_case : ok (Run ex_fc (on_bytes msg4)) = true /\ ok (Run ex_fc (on_bytes (with_section2 6))) = false /\
  ok (Run ex_fc (on_bytes (firstn 30 (with_section2 6) ++ [0; 0; 6; 0; 1; 2] ++ skipn 30 msg4))) = true /\
  ok (Run ex_fc (on_bytes (firstn 7 msg4 ++ [2] ++ skipn 8 msg4))) = false.
Proof. vm_compute. auto. Qed.

(** ** C54 The stop signature is checked *)

(** It is not: whatever the last four bytes are, the message decodes, with the same other
    sections. *)
Theorem C54_stop_signature_unchecked : forall fc start bits stop stop' secs, blen stop = 32 -> blen stop' = 32 ->
  is_message fc start (bits ++ stop) secs ->
  exists pre s5 s5', secs = pre ++ [s5] /\ is_message fc start (bits ++ stop') (pre ++ [s5']) /\
    has s5' "stopSignature" (FBytes (map msb (chunks8 stop'))).
Proof.
  intros fc start bits stop stop' secs Hs Hs' M.
  destruct M as (ed & b0 & b1 & b2 & b3 & b4 & b5 & s0 & s1 & s2 & s3 & s4 & s5 & flag & ids & n & c & g & Eb & -> & M). cbv zeta in M.
  assert (L5 : blen b5 = 32) by (eapply size5; apply M).
  assert (E5 : bits = b0 ++ b1 ++ b2 ++ b3 ++ b4 /\ stop = b5).
  { rewrite !app_assoc in Eb. rewrite <- !app_assoc in Eb. assert (K : rev (bits ++ stop) = rev ((b0 ++ b1 ++ b2 ++ b3 ++ b4) ++ b5)) by (f_equal; rewrite Eb; now rewrite <- !app_assoc).
    rewrite !rev_app_distr in K. apply app_inv_len in K; [|rewrite !rev_length; unfold blen in *; lia]. destruct K as [K1 K2].
    apply (f_equal (@rev bool)) in K1, K2. rewrite !rev_involutive in K1. rewrite ?rev_app_distr, ?rev_involutive in K2. rewrite <- ?app_assoc in K2. auto. }
  destruct E5 as [-> ->]. exists (s0 :: s1 :: s2 ++ [s3; s4]), s5.
  exists (mkSection 5 "End Section" (sec_start s5) 0 [mkField "stopSignature" (FBytes (map msb (chunks8 stop'))) 32 false]).
  split; [cbn; rewrite <- app_assoc; reflexivity|]. split; [|reflexivity].
  eexists ed, b0, b1, b2, b3, b4, stop', s0, s1, s2, s3, s4, _, flag, ids, n, c, g. split; [now rewrite <- !app_assoc|].
  split; [cbn; rewrite <- app_assoc; reflexivity|]. cbv zeta.
  destruct M as (M0 & M1 & M2 & M3 & M4 & M5 & M6 & M7 & M8 & M9 & M10 & M11). repeat (split; [assumption|]).
  destruct M11 as (fs & _ & E11). rewrite E11. cbn [sec_start]. eexists. split; [|reflexivity].
  rewrite <- (app_nil_r stop') at 1. change (FBytes (map msb (chunks8 stop'))) with (meaning DBYTES stop'). constructor; [exact Hs'|constructor].
Qed.
Print Assumptions C54_stop_signature_unchecked.
Theorem C54_stop_signature_refuted : exists bs s' m, last4 bs <> [0x37; 0x37; 0x37; 0x37] /\
  Run ex_fc (on_bytes bs) = (s', Ok m) /\ left s' = 0.
Proof.
  exists (firstn 90 msg4 ++ [1; 2; 3; 4]). destruct (Run ex_fc (on_bytes (firstn 90 msg4 ++ [1; 2; 3; 4]))) as [s' x] eqn:E. vm_compute in E.
  injection E as <- <-. eexists _, _. split; [discriminate|]. split; reflexivity.
Qed.
Print Assumptions C54_stop_signature_refuted.

(** ** C55 CheckEOF detects the end of the stream *)

(** It never does, for either kind of reader: the error it compares with io.EOF is wrapped. *)
Theorem C55_never_true : forall fc s, snd (CheckEOF fc s) <> Ok true.
Proof.
  intros fc [r m ut g]. unfold CheckEOF, onr, zoom, r_PeekUint, on_reader. cbn [fa_r]. destruct r as [b|j].
  - unfold pbr_PeekUint. destruct (pbr_peek _ _ b) as [x|x|x|]; try (cbn; discriminate). match goal with |- context [snd (br_ReadUint ?n ?r)] => destruct (snd (br_ReadUint n r)) end; cbn; discriminate.
  - unfold pjr_PeekUint, bind. destruct (pjr_peek_spec 0 j ltac:(lia)) as (j' & o & -> & _ & _ & H). cbv zeta in H. destruct (nth_error _ _) as [t|]; subst o; cbn; [|discriminate].
    destruct t; cbn; discriminate.
Qed.
Print Assumptions C55_never_true.
Theorem C55_CheckEOF_refuted : exists fc s r, reads s r /\ br_bits r = [] /\ snd (CheckEOF fc s) <> Ok true.
Proof. exists ex_fc, (on_bytes []), (mkBR [] EEof 0). split; [reflexivity|]. split; [reflexivity|]. apply C55_never_true. Qed.
Print Assumptions C55_CheckEOF_refuted.
(** What holds (missing: the answer true): at a byte boundary the answer is false when a byte
    is left, and an error otherwise; nothing is consumed. *)
Theorem C55_CheckEOF_partial : forall fc s r, reads s r -> 0 <= br_pos r -> br_pos r mod 8 = 0 -> blen (br_bits r) mod 8 = 0 ->
  fst (CheckEOF fc s) = s /\
  (br_bits r <> [] -> snd (CheckEOF fc s) = Ok false) /\
  (br_bits r = [] -> exists e, snd (CheckEOF fc s) = Err e).
Proof.
  intros fc s [l e p] Hr Hp P8 L8. cbn [br_bits br_err br_pos] in *. rewrite (fst_eta _ _ _ _ Hr). unfold CheckEOF, fst_, onr, zoom, r_PeekUint, on_reader. cbn [fa_r].
  unfold pbr_PeekUint. change (go_quot 8 8 + (if 0 <? go_rem 8 8 then 1 else 0)) with 1. rewrite pbr_peek_spec by (cbn [br_pos br_bits]; lia). cbn [br_bits br_err].
  change (8 * (0 + 1)) with 8. destruct (blen l <? 8) eqn:E.
  - assert (l = []) as -> by (apply blen_0; pose proof (blen_nonneg l); lia). split; [reflexivity|]. split; [congruence|]. intros _. eexists. reflexivity.
  - change (Z.to_nat (8 * 1)) with 8%nat. change (Z.to_nat (8 * 0)) with 0%nat. change (skipn 0 l) with l.
    set (b := firstn 8 l). assert (Hb : blen b = 8) by (unfold b, blen; rewrite firstn_length; unfold blen in E; lia). clearbody b.
    rewrite <- (app_nil_r b). rewrite br_ReadUint_ok by lia. split; [reflexivity|]. split; [reflexivity|]. intros ->. cbn in E. discriminate.
Qed.
Print Assumptions C55_CheckEOF_partial.

(** ** C56 The edition number is peeked for JSON input too *)

(** Binary input: the edition number field of the section 0 at the read head, nothing
    consumed. *)
Theorem C56_binary_partial : forall fc s r start b0 s0 rest edition, reads s r ->
  0 <= br_pos r -> br_pos r mod 8 = 0 -> blen (br_bits r) mod 8 = 0 ->
  br_bits r = b0 ++ rest -> is_section0 start b0 s0 -> has s0 "bufrEditionNumber" (FUint edition) ->
  PeekEditionNumber fc s = (s, Ok edition).
Proof.
  intros fc s [l e p] start b0 s0 rest ed Hr Hp P8 L8 E M He. cbn [br_bits br_err br_pos] in *. subst l.
  assert (L : blen b0 = 64) by (eapply size0; exact M). rewrite (fst_eta _ _ _ _ Hr). unfold PeekEditionNumber, fst_. pose proof (blen_nonneg rest).
  rewrite (onr_eq _ _ _ _ _ _ _ _ _ (peek_edition (fc_plat fc) (b0 ++ rest) e p Hp P8 L8 ltac:(rewrite blen_app; lia))). do 3 f_equal.
  destruct M as (fs & F & -> & _). unfold layout0 in F.
  inversion F as [|? ? ? ? ? g1 r1 fs1 L1 F1]; subst. inversion F1 as [|? ? ? ? ? g2 r2 fs2 L2 F2]; subst. inversion F2 as [|? ? ? ? ? g3 r3 fs3 L3 F3]; subst. inversion F3; subst.
  unfold has, FieldByName in He. cbn in He. injection He as <-. f_equal. rewrite app_nil_r, <- !app_assoc.
  unfold blen in L1, L2, L3. rewrite skipn_app. replace (56 - length g1)%nat with 24%nat by lia. rewrite skipn_all2 by lia. cbn [app]. rewrite skipn_app. replace (24 - length g2)%nat with 0%nat by lia. rewrite skipn_all2 by lia. cbn [app skipn].
  replace 8%nat with (length g3 + 0)%nat by lia. rewrite firstn_app_2. cbn [firstn]. now rewrite app_nil_r.
Qed.
Print Assumptions C56_binary_partial.
Example C56_case : exists s0, is_section0 0 (bytes_bits (firstn 8 msg4)) s0 /\ has s0 "bufrEditionNumber" (FUint 4) /\
  PeekEditionNumber ex_fc (on_bytes msg4) = (on_bytes msg4, Ok 4).
Proof.
  eexists. split; [|split; [|vm_compute; reflexivity]].
  - eexists. split; [|split; [reflexivity|reflexivity]]. unfold layout0.
    change (bytes_bits (firstn 8 msg4)) with (bytes_bits (firstn 4 msg4) ++ bytes_bits [0; 0; 0x5e] ++ bytes_bits [4] ++ []).
    constructor; [reflexivity|]. constructor; [reflexivity|]. constructor; [reflexivity|constructor].
  - reflexivity.
Qed.
(** JSON input: the eighth scalar of the document, whatever it is; the edition number is
    the third. *)
Theorem C56_json : forall fc toks e,
  let s := NewDefaultFactory (RJson (new_jsonreader toks e)) in
  match nth_error (scalars toks) 7 with
  | Some (TNum x) => snd (PeekEditionNumber fc s) = Ok (f64_to_uint (fc_plat fc) x)
  | _ => exists x, snd (PeekEditionNumber fc s) = Err x
  end.
Proof.
  intros fc toks e s. unfold PeekEditionNumber, s, onr, zoom, NewDefaultFactory, r_PeekUint, on_reader, pjr_PeekUint, bind. cbn [fa_r].
  destruct (pjr_peek_spec 7 (new_jsonreader toks e) ltac:(lia)) as (j' & o & -> & _ & _ & H). cbv zeta in H. change (Nat.max (Z.to_nat 7) (length (j_cache (new_jsonreader toks e)) - 1)) with 7%nat in H.
  change (pending (new_jsonreader toks e)) with (scalars toks) in H.
  destruct (nth_error (scalars toks) 7) as [t|]; subst o; [|eexists; reflexivity]. destruct t; cbn; eauto.
Qed.
Print Assumptions C56_json.
(** So the property is false of JSON: e.g. a document of an edition 4 message (signature,
    total length, edition, section 1: length, master table, centre, sub-centre, update
    sequence number 1, ...). *)
Theorem C56_json_refuted : exists fc toks edition, nth_error (scalars toks) 2 = Some (TNum (f64_of_Z edition)) /\
  edition = 4 /\ snd (PeekEditionNumber fc (NewDefaultFactory (RJson (new_jsonreader toks EEof)))) <> Ok edition /\
  exists s' e, Run fc (NewDefaultFactory (RJson (new_jsonreader toks EEof))) = (s', Err e).
Proof.
  exists (mkFconfig true false pl0 ex_fs 100),
    (TDelim 91 :: TDelim 91 :: TStr [66; 85; 70; 82] :: map (fun n => TNum (f64_of_Z n)) [94; 4; 22; 0; 1; 0; 1; 0]), 4.
  split; [reflexivity|]. split; [reflexivity|]. split; [vm_compute; discriminate|]. eexists _, _. vm_compute. reflexivity.
Qed.
Print Assumptions C56_json_refuted.

(** ** C57 Fields and proxy fields are found by name *)

Lemma find_first name fs f : find_field name fs = Some f <-> first_called name fs f.
Proof.
  split.
  - induction fs as [|g fs IH]; cbn; [discriminate|]. destruct (String.eqb_spec (f_name g) name) as [E|E].
    + intros [= ->]. exists [], fs. repeat split; [exact E|constructor].
    + intros H. destruct (IH H) as (pre & post & -> & Hn & Hp). exists (g :: pre), post. repeat split; [exact Hn|now constructor].
  - intros (pre & post & -> & Hn & Hp). induction Hp as [|g pre Hg _ IH]; cbn.
    + rewrite Hn, String.eqb_refl. reflexivity.
    + destruct (String.eqb_spec (f_name g) name); [contradiction|exact IH].
Qed.
Lemma find_none name fs : find_field name fs = None <-> Forall (fun g => f_name g <> name) fs.
Proof.
  induction fs as [|g fs IH]; cbn; [split; [constructor|reflexivity]|]. destruct (String.eqb_spec (f_name g) name) as [E|E].
  - split; [discriminate|]. inversion 1; contradiction.
  - rewrite IH. split; [now constructor|now inversion 1].
Qed.
(** Adding the fields [fs] one after the other to the current section. *)
Theorem C57_FieldByName : forall fs s sec, current s sec ->
  exists s' sec', mapM_ AddField fs s = (s', Ok tt) /\ current s' sec' /\
    sec_fields sec' = sec_fields sec ++ fs /\
    forall name, (forall f, FieldByName sec' name = Some f <-> first_called name (sec_fields sec ++ fs) f) /\
      (FieldByName sec' name = None <-> Forall (fun g => f_name g <> name) (sec_fields sec ++ fs)).
Proof.
  intros fs s sec Hc.
  assert (K : exists s' sec', mapM_ AddField fs s = (s', Ok tt) /\ current s' sec' /\ sec_fields sec' = sec_fields sec ++ fs).
  { revert s sec Hc. induction fs as [|f fs IH]; intros s sec Hc; [exists s, sec; repeat split; [exact Hc|now rewrite app_nil_r]|].
    cbn [mapM_]. destruct Hc as (m & Hm & Hc). erewrite bind_ok.
    2:{ unfold AddField, upd_section, bind, get_msg. rewrite Hm, Hc. reflexivity. }
    match goal with |- context [mapM_ AddField fs ?x] => set (s1 := x) end.
    edestruct (IH s1) as (s' & sec' & E & C & F); [eexists; split; reflexivity|]. exists s', sec'. split; [exact E|]. split; [exact C|].
    rewrite F. cbn [sec_fields]. now rewrite <- app_assoc. }
  destruct K as (s' & sec' & E & C & F). exists s', sec'. split; [exact E|]. split; [exact C|]. split; [exact F|].
  intros name. unfold FieldByName. rewrite F. split; [intros f; apply find_first|apply find_none].
Qed.
Print Assumptions C57_FieldByName.
(** Registering proxies one after the other with a message that has none. *)
Theorem C57_ProxyField : forall fs m name, msg_proxy m = [] ->
  let m' := fold_left (fun m f => SetProxyField f m) fs m in
  (forall f, ProxyField m' name = Ok f <-> last_called name fs f) /\
  ((exists e, ProxyField m' name = Err e) <-> Forall (fun g => f_name g <> name) fs) /\
  msg_sections m' = msg_sections m.
Proof.
  intros fs m name Hm. cbv zeta.
  assert (P : msg_proxy (fold_left (fun m f => SetProxyField f m) fs m) = map (fun f => (f_name f, f)) (rev fs)).
  { replace (map (fun f => (f_name f, f)) (rev fs)) with (map (fun f => (f_name f, f)) (rev fs) ++ msg_proxy m) by (rewrite Hm; apply app_nil_r).
    clear Hm. revert m. induction fs as [|f fs IH]; intros m; [reflexivity|]. cbn [fold_left rev]. rewrite IH. unfold SetProxyField. cbn [msg_proxy]. rewrite map_app, <- app_assoc. reflexivity. }
  assert (G : forall l, proxy_get name (map (fun f => (f_name f, f)) l) = find_field name l).
  { induction l as [|f l IH]; [reflexivity|]. cbn. now rewrite IH. }
  unfold ProxyField. rewrite P, G. split; [|split].
  - intros f. transitivity (find_field name (rev fs) = Some f); [destruct (find_field _ _); split; congruence|]. rewrite find_first. split.
    + intros (pre & post & E & Hn & Hp). exists (rev post), (rev pre). apply (f_equal (@rev field)) in E. rewrite rev_involutive in E. rewrite E, rev_app_distr. cbn. rewrite <- app_assoc.
      repeat split; [exact Hn|now apply Forall_rev].
    + intros (pre & post & -> & Hn & Hp). exists (rev post), (rev pre). rewrite rev_app_distr. cbn. rewrite <- app_assoc. repeat split; [exact Hn|now apply Forall_rev].
  - transitivity (find_field name (rev fs) = None); [destruct (find_field _ _); split; eauto; [intros [x K]; discriminate|discriminate]|]. rewrite find_none. split; intros H; [rewrite <- (rev_involutive fs)|]; now apply Forall_rev.
  - clear. revert m. induction fs as [|f fs IH]; intros m; [reflexivity|]. cbn [fold_left]. rewrite IH. reflexivity.
Qed.
Print Assumptions C57_ProxyField.
(** The factory registers a field it makes exactly when asked to. *)
Theorem C57_NewField_registers : forall fc nm t w proxy s s' f, NewField fc nm t w proxy s = (s', Ok f) ->
  f_name f = nm /\ f_nbits f = w /\
  exists m m' sec, fa_msg s = Some m /\ fa_msg s' = Some m' /\ msg_cur m = Some sec /\
    msg_cur m' = Some (mkSection (sec_number sec) (sec_description sec) (sec_start sec) (sec_padding sec) (sec_fields sec ++ [f])) /\
    msg_done m' = msg_done m /\
    msg_proxy m' = (if proxy then [(nm, f)] else []) ++ msg_proxy m.
Proof.
  intros fc nm t w proxy s s' f H. unfold NewField in H. apply bind_inv in H. destruct H as (s1 & v & E & H).
  assert (Em : fa_msg s1 = fa_msg s).
  { destruct t; try discriminate E; apply bind_inv in E; destruct E as (s2 & x & E & K); injection K as <- _; unfold onr, zoom in E;
      match type of E with (let '(_, _) := ?m in _) = _ => destruct m as [r1 y] end; injection E as <- _; reflexivity. }
  cbv zeta in H. apply bind_inv in H. destruct H as (s2 & [] & E2 & H). apply bind_inv in H. destruct H as (s3 & [] & E3 & H). injection H as <- <-.
  cbn [f_name f_nbits]. split; [reflexivity|]. split; [reflexivity|]. unfold AddField, upd_section, bind, get_msg in E2. rewrite Em in E2.
  destruct (fa_msg s) as [m|]; [|discriminate]. destruct (msg_cur m) as [sec|] eqn:Ec; [|discriminate]. injection E2 as <-.
  destruct proxy; [unfold set_proxy, bind, get_msg, modify in E3; cbn in E3|]; injection E3 as <-; eexists m, _, sec; repeat split; exact Ec.
Qed.
Print Assumptions C57_NewField_registers.
(** Proxies of a decoded message are fields of its sections, found under the same name. *)
Theorem C57_decoded : forall fc s r s' m name f, fc_json fc = false -> reads s r -> in_step r ->
  Run fc s = (s', Ok m) -> ProxyField m name = Ok f ->
  exists sec, In sec (msg_sections m) /\ FieldByName sec name = Some f.
Proof.
  intros fc s [l e p] s' m name f Hj Hr [Hp H8] H HP. cbn [br_bits br_err br_pos] in *.
  destruct (run_sound fc Hj _ _ _ _ _ _ Hr Hp H8 H) as (_ & _ & sk & b & rest & -> & _ & _ & _ & _ & R). apply R. unfold ProxyField in HP.
  destruct (proxy_get name (msg_proxy m)) as [f'|] eqn:E; [|discriminate]. injection HP as ->. clear - E. induction (msg_proxy m) as [|[n g] l IH]; [discriminate|]. cbn in E.
  destruct (String.eqb_spec n name) as [->|N]; [injection E as ->; now left|right; auto].
Qed.
Print Assumptions C57_decoded.
Example C57_case : match Run ex_fc (on_bytes msg4) with
  | (_, Ok m) => match ProxyField m "nSubsets", ProxyField m "startSignature" with Ok f, Err _ => f_value f = FUint 2 | _, _ => False end
  | _ => False end /\
  (let a := mkField "a" (FUint 1) 8 false in let b := mkField "a" (FUint 2) 8 false in
   find_field "a" [a; b] = Some a /\ ProxyField (SetProxyField b (SetProxyField a (mkMessage [] None []))) "a" = Ok b).
Proof. vm_compute. auto. Qed.

(** ** C60 Several messages in one stream *)

(** Running again and again decodes all messages of the stream, then fails.  ([messages],
    SpecMessage.v: each message behind whole bytes without signature.) *)
Theorem C60_all_messages : forall fc s r start mss rest, fc_json fc = false -> reads s r ->
  0 <= start -> br_pos r = 8 * start -> blen (br_bits r) mod 8 = 0 ->
  blen (br_bits r) < 8 * Z.of_nat (fc_fuel fc) ->
  messages fc start (br_bits r) mss rest -> no_signature rest ->
  exists ms s' e, Runs fc (S (length mss)) s = (ms, s', Err e) /\ map msg_sections ms = mss.
Proof.
  intros fc s [l e p] start mss rest Hj Hr H0 Hp L8 Hf M N. cbn [br_bits br_err br_pos] in *. subst p. eapply (runs_complete_ fc Hj); eassumption.
Qed.
Print Assumptions C60_all_messages.
(** Conversely, what repeated runs return is what the stream holds, in order.  (Messages with
    negative widths in their payload are excluded: they end off byte boundaries.) *)
Theorem C60_only_messages : forall fc n s r start ms s' x, fc_json fc = false -> reads s r ->
  0 <= start -> br_pos r = 8 * start -> blen (br_bits r) mod 8 = 0 ->
  Runs fc n s = (ms, s', x) -> Forall (fun m => Forall regular (msg_sections m)) ms ->
  exists rest, messages fc start (br_bits r) (map msg_sections ms) rest.
Proof.
  intros fc n s [l e p] start ms s' x Hj Hr H0 Hp L8 H R. cbn [br_bits br_err br_pos] in *. subst p. eapply (runs_sound_ fc Hj); eassumption.
Qed.
Print Assumptions C60_only_messages.
(** Where a message stands does not matter: only the start positions reported change. *)
Theorem C60_position : forall fc k start bits secs, is_message fc start bits secs ->
  is_message fc (start + k) bits (map (moved_by k) secs).
Proof. exact message_moved. Qed.
Print Assumptions C60_position.
(** Case: three messages with garbage between them. *)
Example C60_case : match Runs ex_fc 9 (on_bytes ([1; 2] ++ msg4 ++ msg4 ++ [7; 66; 85] ++ msg4 ++ [3])) with
  | (ms, s', Err _) => map (fun m => map sec_start (msg_sections m)) ms =
      [[2; 10; 32; 57; 92]; [96; 104; 126; 151; 186]; [193; 201; 223; 248; 283]]
  | _ => False end.
Proof. vm_compute. auto. Qed.
