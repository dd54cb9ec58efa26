(** Lemmas for C90. *)
From Verif Require Import ProofsBits.
From Verif Require Export SpecBufio.

Lemma size_Z : Z.of_nat buf_size = bufio_size.
Proof. unfold buf_size, bufio_size. rewrite Z2Nat.id; lia. Qed.
Lemma size_pos : (1 <= buf_size)%nat.
Proof. pose proof size_Z. unfold bufio_size in *. lia. Qed.
Global Opaque buf_size.

Lemma firstn_bytes l : forall k, firstn (8 * k) (bytes_bits l) = bytes_bits (firstn k l).
Proof.
  induction l as [|b l IH]; intros [|k]; try reflexivity; try (cbn; now rewrite firstn_nil).
  cbn [firstn]. rewrite !bytes_bits_cons, <- IH. replace (8 * S k)%nat with (length (byte_bits b) + 8 * k)%nat by (cbn; lia).
  apply firstn_app_2.
Qed.
Lemma skipn_bytes l : forall k, skipn (8 * k) (bytes_bits l) = bytes_bits (skipn k l).
Proof.
  induction l as [|b l IH]; intros [|k]; try reflexivity; try (cbn; now rewrite skipn_nil).
  cbn [skipn]. rewrite bytes_bits_cons, <- IH. replace (8 * S k)%nat with (length (byte_bits b) + 8 * k)%nat by (cbn; lia).
  rewrite skipn_app, skipn_all2 by lia. cbn [app]. f_equal. lia.
Qed.

Lemma src_read_ok room src src' bs e : delivers src -> (1 <= room)%nat -> src_read room src = (src', (bs, e)) ->
  so_bytes src = bs ++ so_bytes src' /\ so_err src' = so_err src /\ delivers src' /\ (length bs <= room)%nat /\
  (forall x, e = Some x -> x = so_err src /\ so_bytes src' = []) /\ (e = None -> bs <> []).
Proof.
  unfold src_read, delivers. intros D Hr H. destruct (so_bytes src) as [|b l] eqn:E.
  - injection H as <- <- <-. rewrite E. split; [reflexivity|split; [reflexivity|split; [exact D|split; [cbn; lia|split; [|discriminate]]]]]. intros x Hx. split; [congruence|reflexivity].
  - set (n := match so_sched src with k :: _ => Nat.min k room | [] => room end) in *.
    assert (Hn : (1 <= n <= room)%nat).
    { subst n. destruct (so_sched src) as [|k ks]; [lia|]. inversion D; subst. lia. }
    injection H as <- <- <-. cbn [so_bytes so_err so_sched].
    rewrite firstn_skipn. split; [reflexivity|split; [reflexivity|split; [|split; [|split]]]].
    + destruct (so_sched src); [constructor|]. inversion D; assumption.
    + rewrite firstn_length. lia.
    + intros x Hx. destruct (skipn n (b :: l)); [|discriminate]. destruct (so_joint src); [|discriminate]. split; [congruence|reflexivity].
    + intros _. destruct n; [lia|]. discriminate.
Qed.

(** ** What is there and what is still to come *)
Definition rest (s : low) : list Z := lo_buf s ++ so_bytes (lo_src s).
Record inv (s : low) : Prop := mkInv {
  i_cur : (length (lo_cur s) < 8)%nat; i_buf : (length (lo_buf s) <= buf_size)%nat;
  i_err : forall e, lo_perr s = Some e -> e = so_err (lo_src s) /\ so_bytes (lo_src s) = [];
  i_src : delivers (lo_src s) }.
Definition same_end (s s' : low) : Prop := so_err (lo_src s') = so_err (lo_src s) /\ lo_pos s' = lo_pos s.

Lemma read1_ok s s' x : inv s -> bufio_Read1 s = (s', x) -> inv s' /\ same_end s s' /\ lo_cur s' = lo_cur s /\
  match x with Ok (Some b) => rest s = b :: rest s' | Err e => e = so_err (lo_src s) /\ rest s = [] /\ rest s' = [] | _ => False end.
Proof.
  unfold bufio_Read1, rest, same_end. intros [I1 I2 I3 I4] H. destruct (lo_buf s) as [|b r] eqn:Eb.
  - destruct (lo_perr s) as [e|] eqn:Ee.
    + injection H as <- <-. destruct (I3 e eq_refl) as (-> & E). rewrite E. split; [constructor; cbn; auto; discriminate|]. cbn. rewrite E. auto.
    + destruct (src_read buf_size (lo_src s)) as [src [bs e]] eqn:Es.
      destruct (src_read_ok _ _ _ _ _ I4 size_pos Es) as (S1 & S2 & S3 & S4 & S5 & S6).
      destruct bs as [|b r]; [destruct e as [e|]; [|exfalso; now apply S6]|]; injection H as <- <-; cbn [lo_cur lo_buf lo_perr lo_src lo_pos].
      * destruct (S5 e eq_refl) as (-> & E). cbn in S1. rewrite S1, E. split; [constructor; cbn; auto; try lia; discriminate|]. cbn. auto.
      * cbn [length] in S4. rewrite S1. split; [|cbn; auto]. constructor; cbn; auto; try lia. intros x Hx. destruct (S5 x Hx) as (-> & E). auto.
  - injection H as <- <-. cbn [length] in *. split; [|cbn; auto]. constructor; cbn; auto; lia.
Qed.

(** What the two readers have in common. *)
Definition R (s : low) (r : bitreader) : Prop :=
  inv s /\ br_bits r = lo_cur s ++ bytes_bits (rest s) /\ br_err r = so_err (lo_src s) /\ br_pos r = lo_pos s.
Definition sim {A} (m : M low A) (m' : M bitreader A) : Prop :=
  forall s r, R s r -> R (fst (m s)) (fst (m' r)) /\ snd (m s) = snd (m' r).

Lemma sim_ret {A} (a : A) : sim (ret a) (ret a).
Proof. intros s r H. split; [exact H|reflexivity]. Qed.
Lemma sim_throw {A} p : sim (throw (A := A) p) (throw p).
Proof. intros s r H. split; [exact H|reflexivity]. Qed.
Lemma sim_bind {A B} (m : M low A) m' (f : A -> M low B) f' : sim m m' -> (forall a, sim (f a) (f' a)) -> sim (bind m f) (bind m' f').
Proof.
  intros H Hf s r HR. destruct (H s r HR) as (H1 & H2). unfold bind. destruct (m s) as [s1 x], (m' r) as [r1 x']. cbn in H1, H2. subst x'.
  destruct x; try (split; [exact H1|reflexivity]). apply Hf, H1.
Qed.
Lemma sim_pos d : sim (lo_add_pos d) (br_add_pos d).
Proof. intros s r ([I1 I2 I3 I4] & H1 & H2 & H3). cbn. split; [|reflexivity]. split; [constructor; auto|]. cbn. rewrite H3. auto. Qed.

Lemma sim_bit : sim bs_ReadBit (br_lib lib_read_bit).
Proof.
  intros s r (I & H1 & H2 & H3). unfold bs_ReadBit, br_lib, lib_read_bit. rewrite H1. destruct (lo_cur s) as [|b l] eqn:Ec.
  - destruct (bufio_Read1 s) as [s' x] eqn:E. destruct (read1_ok s s' x I E) as (I' & (S1 & S2) & S3 & S4).
    destruct x as [[b|]|e|p|]; try contradiction.
    + rewrite S4, bytes_bits_cons. cbn [byte_bits app fst snd hd tl]. split; [|reflexivity].
      destruct I' as [J1 J2 J3 J4]. split; [constructor; cbn; auto; lia|]. cbn. rewrite S1, S2. auto.
    + destruct S4 as (-> & S4 & S5). rewrite S4. cbn. split; [|now rewrite H2]. unfold R. rewrite S3, Ec, S5. cbn. rewrite S1, S2. auto.
  - cbn [app]. split; [|reflexivity]. destruct I as [I1 I2 I3 I4]. rewrite Ec in I1. cbn in I1. split; [constructor; cbn; auto; lia|]. cbn. auto.
Qed.
Lemma read_byte_app e x y : (8 <= length x)%nat -> lib_read_byte e (x ++ y) = (fst (lib_read_byte EEof x) ++ y, snd (lib_read_byte EEof x)) /\
  (length (fst (lib_read_byte EEof x)) + 8 = length x)%nat.
Proof.
  intros H. do 8 (destruct x as [|? x]; [cbn in H; lia|]). cbn. split; [reflexivity|lia].
Qed.
Lemma sim_byte : sim bs_ReadByte (br_lib lib_read_byte).
Proof.
  intros s r (I & H1 & H2 & H3). unfold bs_ReadByte, br_lib. rewrite H1.
  destruct (bufio_Read1 s) as [s' x] eqn:E. destruct (read1_ok s s' x I E) as (I' & (S1 & S2) & S3 & S4).
  destruct x as [[b|]|e|p|]; try contradiction.
  - rewrite S4, bytes_bits_cons, app_assoc. destruct (read_byte_app (br_err r) (lo_cur s ++ byte_bits b) (bytes_bits (rest s'))) as (-> & L).
    { rewrite app_length. cbn. lia. }
    destruct (lib_read_byte EEof (lo_cur s ++ byte_bits b)) as [l v]. cbn [fst snd] in *. rewrite app_length in L. cbn [byte_bits length] in L.
    split; [|reflexivity]. destruct I as [I1 _ _ _]. destruct I' as [J1 J2 J3 J4]. split; [constructor; cbn; auto; lia|]. cbn. rewrite S1, S2. auto.
  - destruct S4 as (-> & S4 & S5). rewrite S4. cbn [bytes_bits flat_map]. rewrite app_nil_r, lib_read_byte_short by apply I. cbn [fst snd]. split; [|now rewrite H2].
    unfold R. rewrite S3, S5. cbn. rewrite app_nil_r, S1, S2. auto.
Qed.

Lemma br_lib_bind {A B} (f : err -> M (list bool) A) (g : err -> A -> M (list bool) B) r :
  br_lib (fun e => bind (f e) (g e)) r = bind (br_lib f) (fun a => br_lib (fun e => g e a)) r.
Proof. unfold br_lib, bind. destruct (f (br_err r) (br_bits r)) as [bs [a|e|p|]]; cbn; auto. Qed.
Lemma sim_bytes k : forall u, sim (bs_bytes k u) (br_lib (fun e => lib_read_bits_bytes e k u)).
Proof.
  induction k as [|k IH]; intros u s r H.
  - destruct r; cbn. split; [exact H|reflexivity].
  - cbn [bs_bytes lib_read_bits_bytes]. rewrite (br_lib_bind lib_read_byte (fun e b => lib_read_bits_bytes e k (u64 (u * 256 + b)))).
    apply (sim_bind bs_ReadByte _ _ (fun b => br_lib (fun e => lib_read_bits_bytes e k (u64 (u * 256 + b))))); [apply sim_byte|intros b; apply IH|exact H].
Qed.
Lemma sim_bits k : forall u, sim (bs_bits k u) (br_lib (fun e => lib_read_bits_bits e k u)).
Proof.
  induction k as [|k IH]; intros u s r H.
  - destruct r; cbn. split; [exact H|reflexivity].
  - cbn [bs_bits lib_read_bits_bits]. rewrite (br_lib_bind lib_read_bit (fun e b => lib_read_bits_bits e k (u64 (u * 2 + b2z b)))).
    apply (sim_bind bs_ReadBit _ _ (fun b => br_lib (fun e => lib_read_bits_bits e k (u64 (u * 2 + b2z b))))); [apply sim_bit|intros b; apply IH|exact H].
Qed.
Lemma sim_ReadBits n : sim (bs_ReadBits n) (br_lib (fun e => lib_read_bits e n)).
Proof.
  intros s r H. unfold bs_ReadBits, lib_read_bits. destruct (n <=? 0); [destruct r; cbn; split; [exact H|reflexivity]|].
  rewrite (br_lib_bind (fun e => lib_read_bits_bytes e (Z.to_nat (n / 8)) 0) (fun e u => lib_read_bits_bits e (Z.to_nat (n mod 8)) u)).
  apply (sim_bind (bs_bytes (Z.to_nat (n / 8)) 0) _ _ (fun u => br_lib (fun e => lib_read_bits_bits e (Z.to_nat (n mod 8)) u))); [apply sim_bytes|intros u; apply sim_bits|exact H].
Qed.
Lemma sim_ReadUint n : sim (lo_ReadUint n) (br_ReadUint n).
Proof. apply sim_bind; [apply sim_pos|intros _; apply sim_ReadBits]. Qed.
Lemma sim_ReadBool : sim lo_ReadBool br_ReadBool.
Proof. apply sim_bind; [apply sim_pos|intros _; apply sim_bit]. Qed.
Lemma sim_ReadInt n : sim (lo_ReadInt n) (br_ReadInt n).
Proof.
  apply sim_bind; [apply sim_ReadBool|intros neg]. apply sim_bind; [apply sim_pos|intros _].
  apply sim_bind; [apply sim_ReadBits|intros v; apply sim_ret].
Qed.
Lemma sim_replicate {A} n (m : M low A) m' : sim m m' -> sim (replicateM n m) (replicateM n m').
Proof.
  intros H. induction n as [|n IH]; cbn [replicateM]; [apply sim_ret|].
  apply sim_bind; [exact H|intros a]. apply sim_bind; [exact IH|intros l; apply sim_ret].
Qed.
Lemma sim_ReadBytes n : sim (lo_ReadBytes n) (br_ReadBytes n).
Proof.
  apply sim_bind; [apply sim_pos|intros _]. destruct (n <? 0); [apply sim_throw|]. apply sim_replicate, sim_byte.
Qed.
Lemma sim_ReadBinary n : sim (lo_ReadBinary n) (br_ReadBinary n).
Proof.
  assert (L : forall k n, sim (lo_ReadBinary_loop k n) (br_ReadBinary_loop k n)).
  { induction k as [|k IH]; intros m; cbn [lo_ReadBinary_loop br_ReadBinary_loop]; [apply sim_ret|].
    apply sim_bind; [apply sim_ReadBits|intros v]. apply sim_bind; [apply IH|intros l; apply sim_ret]. }
  intros s r H. unfold lo_ReadBinary, br_ReadBinary.
  destruct (sim_bind _ _ _ _ (sim_pos n) (fun _ => L (Z.to_nat ((n + 7) / 8)) n) s r H) as (H1 & H2).
  match goal with |- context [match ?x with _ => _ end] => destruct x as [s' x1] end.
  match goal with |- context [match ?x with _ => _ end] => destruct x as [r' x2] end.
  cbn in H1, H2. subst x2. destruct x1; cbn; auto.
Qed.

(** ** Peeking *)
Definition keeps (s s' : low) : Prop := inv s' /\ same_end s s' /\ lo_cur s' = lo_cur s /\ rest s' = rest s.
Lemma fill_ok n s : inv s -> lo_perr s = None -> (length (lo_buf s) < buf_size)%nat ->
  keeps s (bufio_fill (S n) s) /\ (lo_perr (bufio_fill (S n) s) = None -> (length (lo_buf s) < length (lo_buf (bufio_fill (S n) s)))%nat).
Proof.
  intros [I1 I2 I3 I4] Hp Hl. cbn [bufio_fill]. destruct (src_read (buf_size - length (lo_buf s)) (lo_src s)) as [src [bs e]] eqn:Es.
  destruct (src_read_ok (buf_size - length (lo_buf s)) _ _ _ _ I4 ltac:(lia) Es) as (S1 & S2 & S3 & S4 & S5 & S6).
  replace (match e with Some _ => _ | None => _ end) with (mkLow (lo_cur s) (lo_buf s ++ bs) e src (lo_pos s)).
  2:{ destruct e; [reflexivity|]. destruct bs; [|reflexivity]. exfalso. now apply S6. }
  split.
  - split; [constructor; cbn; auto|].
    + rewrite app_length. lia.
    + intros x Hx. rewrite S2. exact (S5 x Hx).
    + unfold same_end, rest. cbn. rewrite S1, S2, app_assoc. auto.
  - cbn. intros ->. rewrite app_length. destruct bs; [exfalso; now apply S6|]. cbn. lia.
Qed.
Lemma keeps_refl s : inv s -> keeps s s.
Proof. intros I. unfold keeps, same_end. auto. Qed.
Lemma keeps_trans s s1 s2 : keeps s s1 -> keeps s1 s2 -> keeps s s2.
Proof. unfold keeps, same_end. intros (A1 & (A2 & A3) & A4 & A5) (B1 & (B2 & B3) & B4 & B5). split; [exact B1|]. repeat split; congruence. Qed.
Lemma fill_to_ok n : forall k s, inv s -> (buf_size - length (lo_buf s) < k)%nat -> keeps s (bufio_fill_to k n s) /\
  (lo_perr (bufio_fill_to k n s) = None -> n <= Z.of_nat (length (lo_buf (bufio_fill_to k n s))) \/ bufio_size <= Z.of_nat (length (lo_buf (bufio_fill_to k n s)))).
Proof.
  induction k as [|k IH]; intros s I Hk; [lia|]. cbn [bufio_fill_to]. destruct (lo_perr s) as [e|] eqn:Ep.
  - split; [apply keeps_refl, I|]. rewrite Ep. discriminate.
  - destruct ((Z.of_nat (length (lo_buf s)) <? n) && (Z.of_nat (length (lo_buf s)) <? bufio_size)) eqn:E.
    + apply andb_prop in E. destruct E as [E1 E2]. apply Z.ltb_lt in E1, E2. rewrite <- size_Z in E2.
      destruct (fill_ok 99 s I Ep ltac:(lia)) as (K & G).
      set (s1 := bufio_fill 100 s) in *. destruct (lo_perr s1) as [e|] eqn:Ep1.
      * assert (bufio_fill_to k n s1 = s1) as -> by (destruct k; cbn [bufio_fill_to]; [reflexivity|now rewrite Ep1]).
        split; [exact K|]. rewrite Ep1. discriminate.
      * specialize (G eq_refl). destruct (IH s1) as (K2 & G2); [apply K|lia|]. split; [eapply keeps_trans; eassumption|exact G2].
    + split; [apply keeps_refl, I|]. intros _. apply andb_false_iff in E. destruct E as [E|E]; apply Z.ltb_ge in E; auto.
Qed.
Lemma Peek_ok n s : inv s -> keeps s (fst (bufio_Peek n s)) /\
  snd (bufio_Peek n s) =
    (if n <? 0 then Err (EMsg "bufio: negative count")
     else if bufio_size <? n then Err (EMsg "bufio: buffer full")
     else if Z.of_nat (length (rest s)) <? n then Err (so_err (lo_src s)) else Ok (firstn (Z.to_nat n) (rest s))).
Proof.
  intros I. unfold bufio_Peek. destruct (n <? 0) eqn:En; [split; [apply keeps_refl, I|reflexivity]|].
  destruct (fill_to_ok n (S buf_size) s I ltac:(lia)) as (K & G). set (s' := bufio_fill_to (S buf_size) n s) in *. clearbody s'.
  destruct (bufio_size <? n) eqn:Eb; [split; [exact K|reflexivity]|]. apply Z.ltb_ge in En, Eb.
  destruct K as (I' & (S1 & S2) & S3 & S4). destruct (Z.of_nat (length (lo_buf s')) <? n) eqn:El.
  - apply Z.ltb_lt in El. destruct (lo_perr s') as [e|] eqn:Ep; [|destruct (G eq_refl); lia].
    destruct I' as [J1 J2 J3 J4]. destruct (J3 e Ep) as (-> & Ee). rewrite <- S4. cbn [fst snd].
    assert (Er : rest s' = lo_buf s') by (unfold rest; now rewrite Ee, app_nil_r). rewrite Er, (proj2 (Z.ltb_lt _ _) El), S1. split; [|reflexivity].
    split; [constructor; cbn; auto; discriminate|]. unfold same_end, rest. cbn. auto.
  - apply Z.ltb_ge in El. cbn [fst snd]. split; [split; [exact I'|]; unfold same_end; auto|].
    assert (L : (length (lo_buf s') <= length (rest s))%nat) by (rewrite <- S4; unfold rest; rewrite app_length; lia).
    rewrite (proj2 (Z.ltb_ge _ _)) by lia. rewrite <- S4. unfold rest. rewrite firstn_app.
    replace (Z.to_nat n - length (lo_buf s'))%nat with 0%nat by lia. cbn [firstn]. now rewrite app_nil_r.
Qed.
Lemma buffered s r : R s r -> br_buffered r = bytes_bits (rest s).
Proof.
  intros (I & H1 & _ & _). unfold br_buffered. rewrite H1, app_length, length_bytes_bits.
  assert (((length (lo_cur s) + 8 * length (rest s)) mod 8 = length (lo_cur s))%nat) as ->.
  { rewrite Nat.mul_comm, Nat.mod_add by lia. apply Nat.mod_small, I. }
  rewrite skipn_app, skipn_all, Nat.sub_diag. reflexivity.
Qed.
Lemma R_keeps s s' r : R s r -> keeps s s' -> R s' r.
Proof. intros (I & H1 & H2 & H3) (K1 & (K2 & K3) & K4 & K5). unfold R. rewrite K2, K3, K4, K5. auto. Qed.
Lemma peek_ok skip n s r : R s r -> keeps s (fst (lo_peek skip n s)) /\
  match snd (lo_peek skip n s) with Ok b => pbr_peek skip n r = Ok (bytes_bits b) | Err e => pbr_peek skip n r = Err e
  | Panic p => pbr_peek skip n r = Panic p | NoFuel => False end.
Proof.
  intros HR. pose proof HR as (I & H1 & H2 & H3). unfold lo_peek, pbr_peek. rewrite H3. destruct (negb _); [split; [apply keeps_refl, I|reflexivity]|].
  destruct (Peek_ok (skip + n) s I) as (K & E). destruct (bufio_Peek (skip + n) s) as [s' x]. cbn [fst snd] in K, E. subst x.
  rewrite (buffered s r HR). 
  destruct (skip <? 0) eqn:Es.
  { destruct (skip + n <? 0); [split; [exact K|reflexivity]|]. destruct (bufio_size <? skip + n); [split; [exact K|reflexivity]|].
    destruct (Z.of_nat (length (rest s)) <? skip + n); split; try exact K; reflexivity. }
  destruct (skip + n <? 0) eqn:En; [split; [exact K|reflexivity]|]. destruct (bufio_size <? skip + n); [split; [exact K|reflexivity]|].
  apply Z.ltb_ge in Es, En. rewrite Z2Nat.inj_mul by lia. change (Z.to_nat 8) with 8%nat. rewrite firstn_bytes, length_bytes_bits, firstn_length.
  destruct (Z.of_nat (length (rest s)) <? skip + n) eqn:El.
  - apply Z.ltb_lt in El. rewrite (proj2 (Z.ltb_lt _ _)) by lia. split; [exact K|]. cbn. now rewrite H2.
  - apply Z.ltb_ge in El. rewrite (proj2 (Z.ltb_ge (Z.of_nat (8 * _)) _)) by lia. rewrite firstn_length. cbn [orb].
    destruct (n <? 0) eqn:Eneg.
    + apply Z.ltb_lt in Eneg. rewrite (proj2 (Z.ltb_lt _ _)) by lia. split; [exact K|reflexivity].
    + apply Z.ltb_ge in Eneg. rewrite (proj2 (Z.ltb_ge _ _)) by lia. split; [exact K|]. cbn [snd].
      rewrite Z2Nat.inj_mul by lia. change (Z.to_nat 8) with 8%nat. now rewrite skipn_bytes.
Qed.
Lemma sim_PeekUint skip n : sim (lo_PeekUint skip n) (fun r => (r, pbr_PeekUint skip n r)).
Proof.
  intros s r HR. unfold lo_PeekUint, pbr_PeekUint. destruct (peek_ok skip (go_quot n 8 + (if 0 <? go_rem n 8 then 1 else 0)) s r HR) as (K & E).
  destruct (lo_peek _ _ s) as [s' x]. cbn [fst snd] in *. pose proof (R_keeps _ _ _ HR K) as HR'.
  destruct x; rewrite ?E; try contradiction; split; try exact HR'; reflexivity.
Qed.
Lemma sim_PeekBytes skip n : sim (lo_PeekBytes skip n) (fun r => (r, pbr_PeekBytes skip n r)).
Proof.
  intros s r HR. unfold lo_PeekBytes, pbr_PeekBytes. destruct (peek_ok skip n s r HR) as (K & E).
  destruct (lo_peek _ _ s) as [s' x]. cbn [fst snd] in *. pose proof (R_keeps _ _ _ HR K) as HR'.
  destruct x; rewrite ?E; try contradiction; split; try exact HR'; reflexivity.
Qed.

(** ** Every call, every program *)
Definition bit_ask (q : request) : M bitreader answer :=
  match q with
  | QPos => get AInt (gets br_pos)
  | QNumber n => get AFloat (x <- br_ReadUint n ;; ret (f64_of_Z x))%M | QUint n => get AInt (br_ReadUint n) | QInt n => get AInt (br_ReadInt n)
  | QBool => get ABool br_ReadBool | QBytes n => get ABytes (br_ReadBytes n) | QBinary n => get ABinary (br_ReadBinary n)
  | QFloat32 => get AFloat (v <- br_ReadUint 32 ;; ret (f64_of_float32_bits (v mod 2 ^ 32)))%M
  | QPeekUint skip n => get AInt (fun b => (b, pbr_PeekUint skip n b)) | QPeekBytes skip n => get ABytes (fun b => (b, pbr_PeekBytes skip n b))
  end.
Lemma on_bit_get {A} (f : A -> answer) mb mj r : get f (on_reader mb mj) (RBit r) = let '(r', x) := get f mb r in (RBit r', x).
Proof. unfold get, bind, on_reader. destruct (mb r) as [r' [a|e|p|]]; reflexivity. Qed.
Lemma ask_bit pl q r : ask pl q (RBit r) = let '(r', x) := bit_ask q r in (RBit r', x).
Proof. destruct q; cbn [ask bit_ask]; [reflexivity|..]; apply on_bit_get. Qed.
Lemma sim_ask q : sim (ask_low q) (bit_ask q).
Proof.
  destruct q; cbn [ask_low bit_ask]; (apply sim_bind; [|intros a; apply sim_ret]).
  - intros s r H. cbn. split; [exact H|]. now rewrite (proj2 (proj2 (proj2 H))).
  - apply sim_bind; [apply sim_ReadUint|intros a; apply sim_ret].
  - apply sim_ReadUint. - apply sim_ReadInt. - apply sim_ReadBool. - apply sim_ReadBytes. - apply sim_ReadBinary.
  - apply sim_bind; [apply sim_ReadUint|intros a; apply sim_ret].
  - apply sim_PeekUint. - apply sim_PeekBytes.
Qed.
Lemma run_same pl {A} (p : prog A) : forall s r, R s r -> snd (run ask_low p s) = snd (run (ask pl) p (RBit r)) /\
  exists r', fst (run (ask pl) p (RBit r)) = RBit r' /\ R (fst (run ask_low p s)) r'.
Proof.
  induction p as [x|q k IH]; intros s r H; cbn [run]; [split; [reflexivity|]; exists r; auto|].
  rewrite ask_bit. destruct (sim_ask q s r H) as (H1 & H2). destruct (ask_low q s) as [s1 x], (bit_ask q r) as [r1 x']. cbn in H1, H2. subst x'.
  apply IH, H1.
Qed.
Lemma R_start src : delivers src -> R (NewPeekable src) (new_bitreader (so_bytes src) (so_err src)).
Proof. intros D. split; [constructor; cbn; auto; try lia; discriminate|]. cbn. auto. Qed.
