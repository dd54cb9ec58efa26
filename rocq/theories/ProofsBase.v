(** Laws of the outcome monad and of bounded iteration. *)
From Verif Require Export Base.

Lemma bind_assoc {S A B D} (m : M S A) (f : A -> M S B) (h : B -> M S D) s :
  bind (bind m f) h s = bind m (fun a => bind (f a) h) s.
Proof. unfold bind. destruct (m s) as [s' [a|e|p|]]; reflexivity. Qed.
Lemma bind_ok {S A B} (m : M S A) (f : A -> M S B) s s' a : m s = (s', Ok a) -> bind m f s = f a s'.
Proof. intros H. unfold bind. now rewrite H. Qed.
Lemma bind_inv {S A B} (m : M S A) (f : A -> M S B) s s' b : bind m f s = (s', Ok b) ->
  exists s1 a, m s = (s1, Ok a) /\ f a s1 = (s', Ok b).
Proof. unfold bind. destruct (m s) as [s1 [a|e|p|]] eqn:E; try discriminate. eauto. Qed.
Lemma bind_ret_r {S A} (m : M S A) s : bind m ret s = m s.
Proof. unfold bind, ret. now destruct (m s) as [s' [a|e|p|]]. Qed.
Lemma bind_ext {S A B} (m : M S A) (f h : A -> M S B) s : (forall a s', f a s' = h a s') -> bind m f s = bind m h s.
Proof. intros H. unfold bind. destruct (m s) as [s' [a|e|p|]]; auto. Qed.
Lemma bind_ext2 {S A B} (m m' : M S A) (f h : A -> M S B) s :
  m s = m' s -> (forall a s', f a s' = h a s') -> bind m f s = bind m' h s.
Proof. intros E H. unfold bind. rewrite E. destruct (m' s) as [s' [a|e|p|]]; auto. Qed.

(** n-fold repetition, n unary (for proofs only). *)
Fixpoint iterN {S} (n : nat) (f : M S unit) : M S unit :=
  match n with
  | O => ret tt
  | Datatypes.S k => (f ;; iterN k f)%M
  end.
Lemma iterN_add {S} (f : M S unit) a b s :
  iterN (a + b) f s = (iterN a f ;; iterN b f)%M s.
Proof.
  revert s. induction a as [|a IH]; intros s; cbn [iterN plus]; [reflexivity|].
  rewrite bind_assoc. apply bind_ext. intros [] s'. apply IH.
Qed.
Lemma iter_pos_nat {S} (f : M S unit) p : forall s, Base.iter_pos p f s = iterN (Pos.to_nat p) f s.
Proof.
  induction p as [p IH|p IH|]; intros s; cbn [Base.iter_pos].
  - replace (Pos.to_nat p~1) with (Datatypes.S (Pos.to_nat p + Pos.to_nat p)) by lia. cbn [iterN].
    apply bind_ext. intros [] s'. rewrite iterN_add. apply bind_ext2; [apply IH|]. intros [] s2. apply IH.
  - replace (Pos.to_nat p~0) with (Pos.to_nat p + Pos.to_nat p)%nat by lia.
    rewrite iterN_add. apply bind_ext2; [apply IH|]. intros [] s2. apply IH.
  - change (Pos.to_nat 1) with 1%nat. cbn [iterN]. unfold bind.
    destruct (f s) as [s' [[]|e|q|]]; reflexivity.
Qed.
Lemma iter_Z_nat {S} (f : M S unit) z s : iter_Z z f s = iterN (Z.to_nat z) f s.
Proof. destruct z as [|p|p]; cbn [iter_Z]; [reflexivity|apply iter_pos_nat|reflexivity]. Qed.
Lemma mapM__app {S A B} (f : A -> M S B) l1 l2 s :
  mapM_ f (l1 ++ l2) s = (mapM_ f l1 ;; mapM_ f l2)%M s.
Proof.
  revert s. induction l1 as [|a l IH]; intros s; cbn [app mapM_]; [reflexivity|].
  rewrite bind_assoc. apply bind_ext. intros b s'. apply IH.
Qed.
Lemma mapM__ext {S A B} (f h : A -> M S B) l s : (forall a s, In a l -> f a s = h a s) -> mapM_ f l s = mapM_ h l s.
Proof.
  revert s. induction l as [|a l IH]; intros s H; cbn [mapM_]; [reflexivity|].
  apply bind_ext2; [apply H; now left|]. intros b s'. apply IH. intros; apply H; now right.
Qed.
