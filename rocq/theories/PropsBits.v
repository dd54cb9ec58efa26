(** Property theorems C01-C10: bit reader, bit writer, Binary.
    Vocabulary: SpecBits.v ([msb], [chunks8], [call], [spec_value], [item], [emits], ...). *)
From Verif Require Import SpecBits ModelBinary ModelReader ProofsBits ProofsBitProps ProofsBinary.

(** C01.  Successful reads take consecutive slices of the stream and each value is the
    reading of its own slice. *)
Theorem C01_reads_are_consecutive_slices : forall calls r r' vs,
  Forall valid_call calls ->
  mapM do_call calls r = (r', Ok vs) -> Forall delivered vs ->
  exists slices,
    br_bits r = concat slices ++ br_bits r' /\
    Forall2 (fun c s => blen s = width c) calls slices /\
    vs = map (fun cs => spec_value (fst cs) (snd cs)) (combine calls slices).
Proof.
  intros calls r r' vs Hv Hr Hd.
  destruct (slices_of_calls calls r r' vs Hv Hr Hd) as (s & H1 & H2 & H3 & _).
  exact (ex_intro _ s (conj H1 (conj H2 H3))).
Qed.
Print Assumptions C01_reads_are_consecutive_slices.
Example C01_example :
  Forall valid_call [CUint 3; CInt 7; CBool; CBytes 1; CBinary 5] /\
  mapM do_call [CUint 3; CInt 7; CBool; CBytes 1; CBinary 5] (new_bitreader [183; 42; 200; 15] EEof)
  = (mkBR [false; false; false; false; true; true; true; true] EEof 24,
     Ok [RUint 5; RInt (-28); RBool true; RBytes [86]; RBinary (Some (mkBin [8] 5))]).
Proof. split; [repeat constructor; cbn; lia|reflexivity]. Qed.

(** C02.  Pos is exact after successful reads ... *)
Theorem C02_pos_exact : forall calls r r' vs,
  Forall valid_call calls ->
  mapM do_call calls r = (r', Ok vs) -> Forall delivered vs ->
  br_Pos r' = br_Pos r + sum_widths calls /\
  blen (br_bits r) = sum_widths calls + blen (br_bits r').
Proof. exact pos_of_calls. Qed.
Print Assumptions C02_pos_exact.
(** ... and never smaller than the true position, whatever failed in between; one call
    moves it by its full width, unless it is a ReadInt that finds the stream exhausted. *)
Theorem C02_pos_never_behind : forall calls r,
  Forall valid_call calls ->
  exists taken, br_bits r = taken ++ br_bits (run_all calls r) /\
  blen taken <= br_Pos (run_all calls r) - br_Pos r <= sum_widths calls.
Proof. exact (fun calls r => pos_run_all calls r). Qed.
Print Assumptions C02_pos_never_behind.
Theorem C02_pos_one_call : forall c r, valid_call c ->
  let '(r', o) := do_call c r in
  exists taken, br_bits r = taken ++ br_bits r' /\
  blen taken <= br_Pos r' - br_Pos r <= width c /\
  (forall v, o = Ok v -> delivered v -> blen taken = width c) /\
  ((forall v, o = Ok v -> ~ delivered v) -> blen taken < width c /\
     (br_Pos r' - br_Pos r = width c \/
      br_bits r = [] /\ br_Pos r' - br_Pos r = 1 /\ exists n, c = CInt n)).
Proof. exact pos_one_call. Qed.
Print Assumptions C02_pos_one_call.
Example C02_example :
  br_Pos (run_all [CUint 12; CInt 4; CBool] (new_bitreader [1] EEof)) = 14 /\
  br_bits (run_all [CUint 12; CInt 4; CBool] (new_bitreader [1] EEof)) = [].
Proof. split; reflexivity. Qed.

(** C03.  Values written are read back; whatever was written behind them stays unread. *)
Theorem C03_write_read_round_trip : forall items more w e,
  Forall fits items -> Forall fits more ->
  mapM_ write_item (items ++ more) new_bitwriter = (w, Ok tt) ->
  blen w mod 8 = 0 ->
  exists rest,
    mapM do_call (map call_of items) (new_bitreader (bw_output w) e)
      = (mkBR rest e (sum_widths (map call_of items)), Ok (map value_of items)) /\
    blen rest = sum_widths (map call_of more).
Proof. exact round_trip. Qed.
Print Assumptions C03_write_read_round_trip.
(** Writing never fails on values that fit, so the third hypothesis only names the result. *)
Theorem C03_writing_succeeds : forall items, Forall fits items ->
  snd (mapM_ write_item items new_bitwriter) = Ok tt.
Proof. exact (fun items H => f_equal snd (write_items_bits items new_bitwriter H)). Qed.
Print Assumptions C03_writing_succeeds.
Example C03_example :
  let items := [IUint 5 3; IInt (-28) 7; IBool true; IBytes [86; 0] 2; IBinary (mkBin [170; 3] 11) 11] in
  let more := [IUint 1 2] in
  Forall fits items /\ Forall fits more /\
  exists w, mapM_ write_item (items ++ more) new_bitwriter = (w, Ok tt) /\ blen w mod 8 = 0.
Proof.
  cbv zeta. split; [|split].
  - repeat constructor; cbn; lia.
  - repeat constructor; cbn; lia.
  - eexists. split; [reflexivity|reflexivity].
Qed.

(** C04.  Exactly the complete bytes of the concatenated fields reach the io.Writer. *)
Theorem C04_writer_output : forall items,
  exists bss, Forall2 emits items bss /\
    let out := bw_output (write_all items new_bitwriter) in
    blen out = blen (concat bss) / 8 /\
    bytes_bits out = firstn (8 * (length (concat bss) / 8)) (concat bss) /\
    Forall is_byte out.
Proof. exact writer_output. Qed.
Print Assumptions C04_writer_output.
Example C04_example :
  bw_output (write_all [IUint 300 8; IInt (-1) 4; IBytes [7] 2; IBool true] new_bitwriter)
  = [44; 144; 112].
Proof. reflexivity. Qed.

(** C05.  Sign and magnitude. *)
Theorem C05_signed_round_trip : forall v n e rest, 1 <= n <= 64 ->
  exists x r', br_ReadInt n (mkBR (bw_WriteInt v n [] ++ rest) e 0) = (r', Ok x) /\
  br_bits r' = rest /\
  (Z.abs v < 2 ^ (n - 1) -> x = v) /\ (2 ^ (n - 1) <= Z.abs v -> x <> v) /\
  (2 ^ (n - 1) <= v < 2 ^ n -> x = 2 ^ (n - 1) - v).
Proof. exact write_read_int. Qed.
Print Assumptions C05_signed_round_trip.
Theorem C05_sign_magnitude : forall n sign magnitude rest e p, n <= 64 ->
  blen (sign :: magnitude) = n ->
  br_ReadInt n (mkBR (sign :: magnitude ++ rest) e p)
  = (mkBR rest e (p + n), Ok (if sign then - msb magnitude else msb magnitude)).
Proof.
  intros n sign magnitude rest e p Hn Hl.
  pose proof (blen_nonneg magnitude). rewrite blen_cons in Hl.
  rewrite br_ReadInt_ok by (rewrite ?blen_cons; lia).
  pose proof (msb_bound magnitude) as Hb.
  assert (2 ^ blen magnitude <= 2 ^ 63) by (apply Z.pow_le_mono_r; lia).
  rewrite i64_small by (destruct sign; lia). destruct sign; repeat f_equal; lia.
Qed.
Print Assumptions C05_sign_magnitude.
Example C05_example :
  br_ReadInt 6 (mkBR (bw_WriteInt (-17) 6 [] ++ [true]) EEof 0) = (mkBR [true] EEof 6, Ok (-17)) /\
  br_ReadInt 6 (mkBR (bw_WriteInt 40 6 [] ++ [true]) EEof 0) = (mkBR [true] EEof 6, Ok (-8)).
Proof. split; reflexivity. Qed.

(** C06.  Peeking agrees with reading and leaves the reader alone. *)
Theorem C06_peek_agrees_with_reading : forall bytes e calls r vs skip n,
  Forall valid_call calls ->
  mapM do_call calls (new_bitreader bytes e) = (r, Ok vs) -> Forall delivered vs ->
  br_Pos r mod 8 = 0 -> 0 <= skip -> 0 <= n ->
  (skip + (n + 7) / 8 <= 4096 ->
   match snd ((br_ReadBytes skip ;; br_ReadUint n)%M r) with
   | Ok v => pbr_PeekUint skip n r = Ok v
   | _ => exists e, pbr_PeekUint skip n r = Err e
   end) /\
  (skip + n <= 4096 ->
   match snd ((br_ReadBytes skip ;; br_ReadBytes n)%M r) with
   | Ok v => pbr_PeekBytes skip n r = Ok v
   | _ => exists e, pbr_PeekBytes skip n r = Err e
   end).
Proof.
  intros bytes e calls r vs skip n Hv Hrun Hd Hal Hs Hn.
  destruct (reached_parity _ _ _ _ _ Hv Hrun Hd) as (Hp & Hlen & _).
  assert (Hl : blen (br_bits r) mod 8 = 0).
  { unfold br_Pos in Hal. replace (blen (br_bits r)) with (- br_pos r + blen bytes * 8) by lia.
    rewrite Z.mod_add by lia. rewrite Z.mod_opp_l_z; lia. }
  exact (conj (peek_uint_agrees r skip n Hp Hs Hn Hal Hl) (peek_bytes_agrees r skip n Hp Hs Hn Hal Hl)).
Qed.
Print Assumptions C06_peek_agrees_with_reading.
Theorem C06_peek_off_boundary_is_an_error : forall r skip n, br_Pos r mod 8 <> 0 ->
  (exists e, pbr_PeekUint skip n r = Err e) /\ (exists e, pbr_PeekBytes skip n r = Err e).
Proof. exact peek_off_boundary. Qed.
Print Assumptions C06_peek_off_boundary_is_an_error.
Theorem C06_peek_too_far_is_an_error : forall r skip n, 0 <= skip -> 0 <= n ->
  (4096 < skip + (n + 7) / 8 -> exists e, pbr_PeekUint skip n r = Err e) /\
  (4096 < skip + n -> exists e, pbr_PeekBytes skip n r = Err e).
Proof. exact peek_too_far. Qed.
Print Assumptions C06_peek_too_far_is_an_error.
Theorem C06_peek_leaves_the_reader_unchanged : forall pl skip n b,
  fst (r_PeekUint pl skip n (RBit b)) = RBit b /\ fst (r_PeekBytes skip n (RBit b)) = RBit b.
Proof. exact (fun _ _ _ _ => conj eq_refl eq_refl). Qed.
Print Assumptions C06_peek_leaves_the_reader_unchanged.
Example C06_example :
  exists r, mapM do_call [CUint 3; CInt 5] (new_bitreader [183; 42; 200; 15] EEof) = (r, Ok [RUint 5; RInt (-7)])
  /\ br_Pos r mod 8 = 0 /\ pbr_PeekUint 1 12 r = Ok 3200 /\ pbr_PeekBytes 0 4 r = Err (EWrap "cannot peek bytes" EEof).
Proof. eexists. repeat split. Qed.

(** C07.  Value reads succeed exactly when enough bits are left. *)
Theorem C07_truncation_reported : forall c r, valid_call c -> (forall n, c <> CBinary n) ->
  (is_ok (snd (do_call c r)) = true <-> width c <= blen (br_bits r)) /\
  (is_ok (snd (do_call c r)) = false -> snd (do_call c r) = Err (br_err r)).
Proof. exact value_read_succeeds_iff. Qed.
Print Assumptions C07_truncation_reported.
Example C07_example :
  snd (do_call (CUint 17) (new_bitreader [1; 2] EEof)) = Err EEof /\
  snd (do_call (CUint 16) (new_bitreader [1; 2] EEof)) = Ok (RUint 258).
Proof. split; reflexivity. Qed.

(** C08 is false: ReadBinary answers a short stream with a nil value and a nil error. *)
Theorem C08_read_binary_truncation_refuted :
  exists r n, 0 <= n /\ blen (br_bits r) < n /\ snd (br_ReadBinary n r) = Ok None.
Proof. exists (new_bitreader [255] EEof), 9. split; [lia|]. split; reflexivity. Qed.
Print Assumptions C08_read_binary_truncation_refuted.
(** What holds: a nil value is returned exactly when the stream is too short. *)
Theorem C08_read_binary_nil_iff_short : forall n r, 0 <= n ->
  (blen (br_bits r) < n <-> snd (br_ReadBinary n r) = Ok None).
Proof. exact read_binary_short_iff. Qed.
Print Assumptions C08_read_binary_nil_iff_short.

(** C09.  Bit strings and Binary values. *)
Theorem C09_bit_strings : forall s, Forall is_bit_char s ->
  exists bin, NewBinaryFromString s = Ok bin /\
    Binary_String bin = s /\ Binary_Nbits bin = blen s /\
    (forall i, 0 <= i < blen s -> Binary_Bit bin i = Ok (nth (Z.to_nat i) s 0 =? 49)) /\
    (forall i, blen s <= i -> Binary_Bit bin i = Ok false) /\
    Binary_UnmarshalJSON (Binary_MarshalJSON bin) = Ok bin.
Proof.
  intros s Hs. destruct (bit_string s Hs) as [bs ->]. exists (bin_of bs).
  assert (Hl : blen (map bit_char bs) = blen bs) by (unfold blen; now rewrite map_length).
  rewrite Hl. split; [apply NewBinaryFromString_bits|]. split; [apply Binary_String_bits|].
  split; [reflexivity|]. split; [|split].
  - intros i Hi. rewrite Binary_Bit_bits by lia. f_equal.
    rewrite (nth_indep _ 0 (bit_char false)) by (rewrite map_length; unfold blen in Hi; lia).
    rewrite map_nth. now destruct (nth (Z.to_nat i) bs false).
  - intros i Hi. pose proof (blen_nonneg bs). rewrite Binary_Bit_bits by lia.
    rewrite nth_overflow by (unfold blen in Hi; lia). reflexivity.
  - unfold Binary_UnmarshalJSON, Binary_MarshalJSON. rewrite Binary_String_bits.
    apply NewBinaryFromString_bits.
Qed.
Print Assumptions C09_bit_strings.
Theorem C09_other_strings_rejected : forall s, ~ Forall is_bit_char s ->
  exists e, NewBinaryFromString s = Err e.
Proof. exact NewBinaryFromString_bad. Qed.
Print Assumptions C09_other_strings_rejected.
Theorem C09_read_binary_text : forall bs rest e p,
  exists bin, br_ReadBinary (blen bs) (mkBR (bs ++ rest) e p)
    = (mkBR rest e (p + blen bs), Ok (Some bin)) /\
  Binary_String bin = map bit_char bs /\ Binary_Nbits bin = blen bs /\
  (forall i, 0 <= i -> Binary_Bit bin i = Ok (nth (Z.to_nat i) bs false)).
Proof.
  intros bs rest e p. exists (bin_of bs).
  exact (conj (br_ReadBinary_ok e p (blen bs) bs rest eq_refl)
        (conj (Binary_String_bits bs) (conj eq_refl (Binary_Bit_bits bs)))).
Qed.
Print Assumptions C09_read_binary_text.
Example C09_example :
  NewBinaryFromString [49; 48; 49; 49; 48; 49; 48; 48; 49; 49; 48] = Ok (mkBin [180; 6] 11) /\
  Binary_String (mkBin [180; 6] 11) = [49; 48; 49; 49; 48; 49; 48; 48; 49; 49; 48] /\
  Binary_Bit (mkBin [180; 6] 11) 9 = Ok true /\ Binary_Bit (mkBin [180; 6] 11) 11 = Ok false.
Proof. repeat split. Qed.

(** C10 is false: the loop's exit test compares an unsigned number with zero, so the call
    never returns, for any argument. *)
Theorem C10_binary_from_uint_refuted : forall v n fuel, NewBinaryFromUint fuel v n = NoFuel.
Proof. exact (fun v n fuel => NewBinaryFromUint_hangs fuel v n). Qed.
Print Assumptions C10_binary_from_uint_refuted.
