(** Whole payloads: writing and decoding; compressed and uncompressed (C34, C59). *)
From Verif Require Import ProofsRun12 ProofsRun6 ProofsRun9 ProofsRun7 ProofsParser3 ProofsParser4 ProofsUnpack ProofsBitProps ProofsBits.
From Verif Require Export ProofsPack2.
From Coq Require Import Lia ZifyBool ZifyNat.

Lemma parsed_right g ids ms : parsed g ids ms -> Forall (all_nodes right_kind) ms.
Proof. intros H. apply parsed_iff in H. eapply right_kinds; eauto. Qed.

(** ** Cells and data *)
Lemma lane_values k ds l (vs : list value) : lane_ok k ds l -> Forall2 (fun d v => nth_error (dt_vals d) k = Some v) ds vs ->
  map (fun c => (cell_what c, c_val c)) l = combine (map what ds) vs.
Proof.
  intros [HL HI] H.
  assert (G : forall o l vs, length l = length ds -> (forall i d c, nth_error ds i = Some d -> nth_error l i = Some c -> is_cell k (o + i) d c) ->
    Forall2 (fun d v => nth_error (dt_vals d) k = Some v) ds vs -> map (fun c => (cell_what c, c_val c)) l = combine (map what ds) vs).
  { clear. induction ds as [|d ds IH]; intros o [|c l] vs HL HI H; try discriminate HL; inversion H; subst; [reflexivity|]. cbn [map combine]. f_equal.
    - destruct (HI 0%nat d c eq_refl eq_refl) as (K1 & K2 & _ & _ & _ & K6). unfold cell_what, what. congruence.
    - apply (IH (S o)); [now injection HL| |assumption]. intros i d' c' K1 K2. replace (S o + i)%nat with (o + S i)%nat by lia. now apply HI. }
  apply (G 0%nat); auto.
Qed.
Lemma is_datum_values {A} (vals : pinfo -> A -> list value) (f : placed A -> value) k its xs : Forall2 (is_datum vals) its xs ->
  Forall (fun it => nth_error (vals (snd (fst it)) (snd it)) k = Some (f it)) its ->
  Forall2 (fun d v => nth_error (dt_vals d) k = Some v) xs (map f its) /\ map what xs = map fst its.
Proof.
  induction 1 as [|it x its xs [H1 H2] _ IH]; intros HF; cbn [map]; [split; constructor|]. inversion HF; subst. destruct (IH ltac:(assumption)) as [I1 I2].
  split; [constructor; [rewrite H2; assumption|exact I1]|]. now rewrite H1, I2.
Qed.
Lemma combine_map2 {A B C} (f : A -> B) (g : A -> C) l : combine (map f l) (map g l) = map (fun x => (f x, g x)) l.
Proof. induction l; cbn; congruence. Qed.

(** ** Uncompressed *)
Definition raw_count (pl : platform) (info : pinfo) (x : rawval) : nat -> Prop := repeats pl (raw_value info x).
Definition raw_bits_of (info : pinfo) (x : rawval) : list bool := item_bits (as_item info x).
Definition raw_vals (info : pinfo) (x : rawval) : list value := [raw_value info x].
Lemma Hok_raw cf : cf_json cf = false -> cf_compressed cf = false -> forall info x d, raw_fits info x ->
  exists y, dt_desc y = d /\ dt_info y = info /\ dt_vals y = raw_vals info x /\ bits_of cf y (raw_bits_of info x).
Proof. intros Hj Hc info x d H. exists (mkDatum d info VNil 0 [raw_value info x]). repeat split. now apply raw_decodes. Qed.
Lemma Hcount_raw cf : forall info x n, raw_fits info x -> raw_count (cf_plat cf) info x n -> exists v vs z, raw_vals info x = v :: vs /\
  Forall (equal_values v) vs /\ UintValue (cf_plat cf) v = Ok z /\ n = Z.to_nat z.
Proof. intros info x n _ [H1 (z & H2 & H3)]. exists (raw_value info x), [], z. repeat split; auto. Qed.

Lemma subsets_decode cf ms itss : cf_json cf = false -> cf_compressed cf = false -> Forall (all_nodes right_kind) ms ->
  Forall (subset_data (cf_plat cf) ms) itss -> forall rest e p,
  exists hs p', subsets_run cf ms (length itss) (RBit (mkBR (bits_all raw_bits_of (concat itss) ++ rest) e p)) hs (RBit (mkBR rest e p')) /\
    Forall2 (fun its h => Forall2 (is_datum raw_vals) its (data h)) itss hs.
Proof.
  intros Hj Hc HN. induction 1 as [|its itss (ts & ids & H) _ IH]; intros rest e p.
  - exists [], p. split; constructor.
  - cbn [concat]. rewrite bits_all_app, <- app_assoc.
    destruct (carries_list_runs cf raw_fits _ raw_bits_of raw_vals (Hok_raw cf Hj Hc) (Hcount_raw cf) _ _ _ _ _ H HN [] (bits_all raw_bits_of (concat itss) ++ rest) e p) as (h & p1 & R1 & _ & _ & xs & D & F); [constructor|reflexivity|].
    destruct (IH rest e p1) as (hs & p2 & R2 & F2). exists (h :: hs), p2. split; [cbn [length]; econstructor; eassumption|].
    constructor; [|exact F2]. now rewrite D.
Qed.
Lemma carries_list_fits {A} (ok : pinfo -> A -> Prop) count ids ns ts ids' its : carries_list ok count ids ns ts ids' its -> Forall (fun it => ok (snd (fst it)) (snd it)) its.
Proof. induction 1; [constructor|]. apply Forall_app. split; [eapply carries_fits; eassumption|assumption]. Qed.
Lemma written_fits its : Forall (fun it => raw_fits (snd (fst it)) (snd it)) its -> Forall SpecBits.fits (written its).
Proof. intros H. unfold written. apply Forall_map. eapply Forall_impl; [|exact H]. intros it [Hf _]. exact Hf. Qed.
Lemma written_bits its : flat_map item_bits (written its) = bits_all raw_bits_of its.
Proof. unfold written, bits_all. rewrite !flat_map_concat_map, map_map. reflexivity. Qed.
Lemma subset_fits pl ms its : subset_data pl ms its -> Forall SpecBits.fits (written its).
Proof. intros (ts & ids & H). apply written_fits. eapply carries_list_fits; eassumption. Qed.
Lemma all_fit pl ms itss : Forall (subset_data pl ms) itss -> Forall SpecBits.fits (written (concat itss)).
Proof.
  induction 1; [constructor|]. unfold written in *. cbn [concat]. rewrite map_app. apply Forall_app. split; [eapply subset_fits; eassumption|assumption].
Qed.
Theorem uncompressed_round_trip g ids ms cf itss rest e p : parsed g ids ms -> cf_json cf = false -> cf_compressed cf = false ->
  cf_nsubsets cf = blen itss -> Forall (subset_data (cf_plat cf) ms) itss ->
  exists s p', run_payload cf (root ms) (vst0 (RBit (mkBR (flat_map item_bits (written (concat itss)) ++ rest) e p))) = (s, Ok tt) /\
    v_r s = RBit (mkBR rest e p') /\ payload_values (v_pay s) = map values_of itss.
Proof.
  intros HP Hj Hc Hn H. destruct (subsets_decode cf ms itss Hj Hc (parsed_right _ _ _ HP) H rest e p) as (hs & p' & R & F).
  rewrite written_bits. assert (HC : columns cf = false) by (unfold columns; now rewrite Hc).
  destruct (run_payload_complete cf ms (RBit (mkBR (bits_all raw_bits_of (concat itss) ++ rest) e p)) hs (RBit (mkBR rest e p'))) as (s & E & Er & S).
  { eapply parsed_no_base; eassumption. } { intros HC'. congruence. }
  { unfold executes. rewrite HC, Hn. unfold blen. rewrite Nat2Z.id. exact R. }
  exists s, p'. split; [exact E|]. split; [exact Er|]. unfold shows in S. rewrite HC in S. unfold payload_values. clear -F S.
  revert hs F S. generalize (v_pay s). induction itss as [|its itss IH]; intros pay hs F S; inversion F; subst; inversion S; subst; [reflexivity|].
  cbn [map]. f_equal; [|eapply IH; eassumption]. unfold values_of.
  match goal with K : Forall2 (is_datum raw_vals) its (data ?h) |- _ =>
    destruct (is_datum_values raw_vals (fun it => raw_value (snd (fst it)) (snd it)) 0 its (data h) K) as [V1 V2] end.
  { apply Forall_forall. reflexivity. }
  match goal with K : lane_ok _ _ _ |- _ => rewrite (lane_values _ _ _ _ K V1) end. rewrite V2. apply combine_map2.
Qed.
Lemma output_bits (w pad : list bool) more : (blen w + blen pad) mod 8 = 0 -> bytes_bits (bw_output (w ++ pad) ++ more) = w ++ pad ++ bytes_bits more.
Proof.
  intros H. rewrite bytes_bits_app, bw_output_bits, firstn_all2, app_assoc; [reflexivity|]. rewrite <- blen_app in H.
  unfold blen in H. pose proof (Nat.div_mod (length (w ++ pad)) 8). lia.
Qed.

(** ** Compressed *)
Definition col_count (pl : platform) (info : pinfo) (c : ccolumn) (k : nat) : Prop :=
  exists x, Forall (fun y => y = x) (cc_vals c) /\ repeats pl (raw_value info x) k.
Definition col_bits (info : pinfo) (c : ccolumn) : list bool := flat_map item_bits (column_items info c).
Definition col_vals (info : pinfo) (c : ccolumn) : list value := map (raw_value info) (cc_vals c).
Lemma Hok_col cf : cf_json cf = false -> cf_compressed cf = true -> 0 <= cf_nsubsets cf -> forall info c d, column_fits (cf_nsubsets cf) info c ->
  exists y, dt_desc y = d /\ dt_info y = info /\ dt_vals y = col_vals info c /\ bits_of cf y (col_bits info c).
Proof. intros Hj Hc Hn info c d H. destruct (column_decodes cf d info c Hj Hc Hn H) as (mn & df & HB). eexists. split; [|split; [|split; [|exact HB]]]; reflexivity. Qed.
Lemma written_columns_bits its : flat_map item_bits (written_columns its) = bits_all col_bits its.
Proof. unfold written_columns, bits_all, col_bits. induction its as [|it its IH]; [reflexivity|]. cbn [flat_map]. now rewrite flat_map_app, IH. Qed.
(** Trees of columns as trees of values, subset by subset. *)
Fixpoint map_tree {A B} (f : A -> B) (t : dtree A) : dtree B :=
  match t with
  | Op => Op
  | Leaf xs => Leaf (map f xs)
  | Group ts => Group (map (map_tree f) ts)
  | Times tss => Times (map (map (map_tree f)) tss)
  | Counted t tss => Counted (map_tree f t) (map (map (map_tree f)) tss)
  end.
Definition on_datum {A B} (f : A -> B) (it : placed A) : placed B := (fst it, f (snd it)).
Lemma carries_map {A B} (f : A -> B) (ok : pinfo -> A -> Prop) (count : pinfo -> A -> nat -> Prop) (ok' : pinfo -> B -> Prop) (count' : pinfo -> B -> nat -> Prop) :
  (forall info x, ok info x -> ok' info (f x)) -> (forall info x n, ok info x -> count info x n -> count' info (f x) n) ->
  forall ids n t ids' its, carries ok count ids n t ids' its ->
  carries ok' count' ids n (map_tree f t) ids' (map (on_datum f) its).
Proof.
  intros H1 H2 ids n t ids' its H. induction H using carries_mut with
    (P0 := fun ids ns ts ids' its _ => carries_list ok' count' ids ns (map (map_tree f) ts) ids' (map (on_datum f) its))
    (P1 := fun ids ns tss ids' its _ => carries_times ok' count' ids ns (map (map (map_tree f)) tss) ids' (map (on_datum f) its));
  cbn [map_tree map on_datum fst snd]; rewrite ?map_app; try (constructor; auto; fail).
  - assert (E : map (on_datum f) (combine (element_cells ids d e) xs) = combine (element_cells ids d e) (map f xs)).
    { clear. generalize (element_cells ids d e). induction xs as [|x xs IH]; intros [|c cs]; try reflexivity. cbn. f_equal. apply IH. }
    rewrite E. apply carry_element; try assumption. clear -H1 f0. induction f0; constructor; auto.
  - apply carry_fixed; [now rewrite map_length|exact IHcarries].
  - eapply carry_delayed; [exact IHcarries| | |exact IHcarries0].
    + rewrite e, map_app. reflexivity.
    + rewrite map_length. cbn [snd]. apply H2; [|exact c]. pose proof (carries_fits _ _ _ _ _ _ _ H) as F. rewrite e in F. apply Forall_app in F. destruct F as [_ F]. now inversion F.
  - econstructor; eauto.
  - econstructor; eauto.
Qed.
Lemma carries_list_map {A B} (f : A -> B) (ok : pinfo -> A -> Prop) (count : pinfo -> A -> nat -> Prop) (ok' : pinfo -> B -> Prop) (count' : pinfo -> B -> nat -> Prop) :
  (forall info x, ok info x -> ok' info (f x)) -> (forall info x n, ok info x -> count info x n -> count' info (f x) n) ->
  forall ids ns ts ids' its, carries_list ok count ids ns ts ids' its ->
  carries_list ok' count' ids ns (map (map_tree f) ts) ids' (map (on_datum f) its).
Proof.
  intros H1 H2. induction 1; cbn [map]; rewrite ?map_app; [constructor|]. econstructor; [|eassumption]. eapply carries_map; eassumption.
Qed.
Lemma lane_data pl n ms its k : (k < Z.to_nat n)%nat -> compressed_data pl n ms its -> subset_data pl ms (lane k its).
Proof.
  intros Hk (ts & ids & H). exists (map (map_tree (fun c => nth k (cc_vals c) RMissing)) ts), ids.
  eapply carries_list_map with (f := fun c => nth k (cc_vals c) RMissing) in H; [exact H| |].
  - intros info c (Hn & _ & _ & _ & Hv & _). rewrite Forall_forall in Hv. apply Hv. apply nth_In. unfold blen in Hn. lia.
  - intros info c m (Hn & _) (x & Hx & Hr). rewrite Forall_forall in Hx. rewrite (Hx (nth k (cc_vals c) RMissing)); [exact Hr|]. apply nth_In. unfold blen in Hn. lia.
Qed.
Lemma Forall2_cols its xs n k : (k < Z.to_nat n)%nat -> Forall (fun it => column_fits n (snd (fst it)) (snd it)) its -> Forall2 (is_datum col_vals) its xs ->
  Forall2 (fun d v => nth_error (dt_vals d) k = Some v) xs (map (fun it => raw_value (snd (fst it)) (snd it)) (lane k its)) /\ map what xs = map fst (lane k its).
Proof.
  intros Hk HF H. unfold lane. rewrite !map_map. cbn [fst snd].
  destruct (is_datum_values col_vals (fun it => raw_value (snd (fst it)) (nth k (cc_vals (snd it)) RMissing)) k its xs H) as [V1 V2].
  - eapply Forall_impl; [|exact HF]. intros it (Hn & _). unfold col_vals. rewrite nth_error_map.
    rewrite (nth_error_nth' _ RMissing) by (unfold blen in Hn; lia). reflexivity.
  - split; [exact V1|]. rewrite V2. now apply map_ext.
Qed.
Lemma Forall2_nth {A B} (R : A -> B -> Prop) l l' : length l = length l' -> (forall k a b, nth_error l k = Some a -> nth_error l' k = Some b -> R a b) -> Forall2 R l l'.
Proof.
  revert l'. induction l as [|a l IH]; intros [|b l'] H K; try discriminate; constructor; [apply (K 0%nat); reflexivity|]. apply IH; [now injection H|]. intros k. apply (K (S k)).
Qed.
Theorem compressed_round_trip g ids ms cf its rest e p : parsed g ids ms -> cf_json cf = false -> cf_compressed cf = true ->
  0 < cf_nsubsets cf -> compressed_data (cf_plat cf) (cf_nsubsets cf) ms its ->
  exists s p', run_payload cf (root ms) (vst0 (RBit (mkBR (flat_map item_bits (written_columns its) ++ rest) e p))) = (s, Ok tt) /\
    v_r s = RBit (mkBR rest e p') /\
    payload_values (v_pay s) = map (fun k => values_of (lane k its)) (seq 0 (Z.to_nat (cf_nsubsets cf))).
Proof.
  intros HP Hj Hc Hn (ts & ids' & H). assert (HC : columns cf = true) by (unfold columns; now rewrite Hc, Hj).
  rewrite written_columns_bits.
  destruct (carries_list_runs cf (column_fits (cf_nsubsets cf)) (col_count (cf_plat cf)) col_bits col_vals) with (ids := @nil Z) (ns := ms) (ts := ts) (ids' := ids') (its := its) (h := @nil SpecRun.event) (rest := rest) (e := e) (p := p)
    as (h & p' & R & _ & _ & xs & D & F); try assumption; try reflexivity; try (constructor; fail).
  { apply Hok_col; auto; lia. }
  { intros info c n (HL & _) (x & Hx & Hr1 & z & Hr2 & Hr3).
    destruct (cc_vals c) as [|y ys] eqn:Ev; [cbn in HL; lia|].
    exists (raw_value info x), (map (raw_value info) ys), z. unfold col_vals. rewrite Ev. cbn [map]. inversion Hx; subst. split; [reflexivity|].
    split; [|auto]. apply Forall_map. eapply Forall_impl; [|eassumption]. intros a ->. exact Hr1. }
  { eapply parsed_right; eassumption. }
  destruct (run_payload_complete cf ms (RBit (mkBR (bits_all col_bits its ++ rest) e p)) [h] (RBit (mkBR rest e p'))) as (s & E & Er & S).
  { eapply parsed_no_base; eassumption. } { intros _. exact Hn. }
  { unfold executes. rewrite HC. exists h. auto. }
  exists s, p'. split; [exact E|]. split; [exact Er|]. unfold shows in S. rewrite HC in S. destruct S as (h' & Eh & SL & SK). injection Eh as <-.
  cbn [data app] in D. rewrite D in SK. unfold payload_values.
  apply (nth_ext _ _ [] []); [now rewrite !map_length, seq_length|]. intros k Hk. rewrite map_length in Hk.
  destruct (nth_error (v_pay s) k) as [sb|] eqn:Ek; [|apply nth_error_None in Ek; lia].
  rewrite (nth_error_nth (map _ (v_pay s)) k [] (map_nth_error _ _ _ Ek)).
  assert (Eq : nth_error (seq 0 (Z.to_nat (cf_nsubsets cf))) k = Some k) by (rewrite (nth_error_nth' _ 0%nat), seq_nth by (rewrite ?seq_length; lia); f_equal; lia).
  rewrite (nth_error_nth (map _ (seq _ _)) k [] (map_nth_error _ _ _ Eq)).
  destruct (Forall2_cols its xs (cf_nsubsets cf) k ltac:(lia) (carries_list_fits _ _ _ _ _ _ _ H) F) as [V1 V2].
  rewrite (lane_values _ _ _ _ (SK k sb Ek) V1), V2. apply combine_map2.
Qed.
Lemma column_items_fit n info c : column_fits n info c -> Forall SpecBits.fits (column_items info c).
Proof.
  intros (Hn & Hd & Hw & [Hm Hm'] & Hv & Hu & Hl). unfold column_items. constructor; [exact Hm|]. constructor; [cbn; lia|].
  destruct (Z.eqb_spec (cc_diff c) 0) as [E|E]; [constructor|]. apply Forall_map. rewrite Forall_forall in *. intros x Hx.
  assert (Hp : 0 < 2 ^ cc_diff c) by (apply Z.pow_pos_nonneg; lia). specialize (Hv x Hx). destruct Hv as [Hv Hv'].
  destruct (cc_min c) as [m| |bs|m|b]; try contradiction.
  - rewrite Forall_forall in Hl. specialize (Hl x Hx).
    destruct x as [v| |bs|v|b]; cbn [as_increment SpecBits.fits]; try lia.
    exfalso. destruct Hm' as [Hm' _]. unfold is_number in Hm'. destruct Hm' as [K|[K|K]]; congruence.
  - destruct x as [v| |bs'|v|b]; cbn [as_increment SpecBits.fits]; try lia. destruct Hl as [_ ->]. exact Hv.
Qed.
Lemma columns_fit pl n ms its : compressed_data pl n ms its -> Forall SpecBits.fits (written_columns its).
Proof.
  intros (ts & ids & H). apply carries_list_fits in H. unfold written_columns. induction H; cbn [flat_map]; [constructor|]. apply Forall_app. split; [eapply column_items_fit; eassumption|assumption].
Qed.
