(** Property theorem C89: several runtimes in one process. *)
From Verif Require Import PropsMessage.
From Verif Require Export ProofsProcess.

Section C89.
  Variable loadB : gostring -> res tblB.
  Variable loadD : gostring -> res tblD.
  Variable jobs : list job.
  Let inv_at := inv (A := fac * list (res message)) loadB loadD (map (alone loadB loadD) (map as_process jobs)).

  Lemma reached is w : wsteps loadB loadD (wstart (map as_process jobs)) is w ->
    inv_at w /\ (length is + total (weight loadB loadD) (w_threads w) <= 8 * list_sum (map (asks loadB loadD) (map as_process jobs)))%nat.
  Proof.
    intros H. destruct (inv_start loadB loadD (map as_process jobs)) as (I & L). destruct (inv_steps _ _ _ _ _ _ H I) as (I' & L'). split; [exact I'|]. lia.
  Qed.
  Lemma alone_job j : alone loadB loadD (as_process j) = by_itself loadB loadD j.
  Proof. apply (runs_after loadB loadD (j_base j) (j_fc j) (j_calls j)). Qed.
  Lemma asks_job j : (asks loadB loadD (as_process j) <= 6 * j_calls j)%nat.
  Proof.
    pose proof (proj2 (runs_after loadB loadD (j_base j) (j_fc j) (j_calls j) (NewDefaultFactory (j_reader j)) PRet)) as H.
    cbn [asks] in H. unfold as_process. lia.
  Qed.
  Lemma asks_jobs : (list_sum (map (asks loadB loadD) (map as_process jobs)) <= 6 * list_sum (map j_calls jobs))%nat.
  Proof. induction jobs as [|j l IH]; cbn; [lia|]. pose proof (asks_job j). unfold list_sum in *. lia. Qed.

  Lemma same_here : forall is w i j x, wsteps loadB loadD (wstart (map as_process jobs)) is w ->
    nth_error jobs i = Some j -> nth_error (w_threads w) i = Some (TDone x) -> x = by_itself loadB loadD j.
  Proof.
    intros is w i j x H Ej Ex. destruct (reached is w H) as ([I _ _ _ _] & _).
    destruct (Forall2_nth _ _ _ _ _ I Ex) as (y & Ey & Hy). cbn in Hy. subst y.
    rewrite map_map, nth_error_map, Ej in Ey. cbn in Ey. injection Ey as <-. apply alone_job.
  Qed.
  Lemma can_go_on is w : wsteps loadB loadD (wstart (map as_process jobs)) is w ->
    forallb finished (w_threads w) = true \/ exists i w', wstep loadB loadD i w = Some w'.
  Proof. intros H. apply (progress loadB loadD (map (alone loadB loadD) (map as_process jobs))), (reached is w H). Qed.
  Lemma steps_bound is w : wsteps loadB loadD (wstart (map as_process jobs)) is w -> (length is <= 48 * list_sum (map j_calls jobs))%nat.
  Proof. intros H. destruct (reached is w H) as (_ & L). pose proof asks_jobs. lia. Qed.
End C89.

(** Whatever the interleaving, a runtime that has finished its calls has got from each of
    them what it would have got alone and without a cache. *)
Theorem C89_same : forall loadB loadD jobs is w i j x, wsteps loadB loadD (wstart (map as_process jobs)) is w ->
  nth_error jobs i = Some j -> nth_error (w_threads w) i = Some (TDone x) -> x = by_itself loadB loadD j.
Proof. exact same_here. Qed.
Print Assumptions C89_same.

(** No runtime is lost, and none can be kept waiting for ever: as long as one has not finished
    some runtime can move, ... *)
Theorem C89_never_stuck : forall loadB loadD jobs is w, wsteps loadB loadD (wstart (map as_process jobs)) is w ->
  length (w_threads w) = length jobs /\
  (forallb finished (w_threads w) = true \/ exists i w', wstep loadB loadD i w = Some w').
Proof.
  intros loadB loadD jobs is w H. split; [|eapply can_go_on; exact H].
  destruct (reached loadB loadD jobs is w H) as ([I _ _ _ _] & _). assert (F : forall X Y (P : X -> Y -> Prop) l l', Forall2 P l l' -> length l' = length l) by (induction 1; cbn; congruence).
  apply F in I. rewrite !map_length in I. exact I.
Qed.
Print Assumptions C89_never_stuck.
(** ... and all statements in the cache together are at most 48 for each call of Run. *)
Theorem C89_bounded : forall loadB loadD jobs is w, wsteps loadB loadD (wstart (map as_process jobs)) is w ->
  (length is <= 48 * list_sum (map j_calls jobs))%nat.
Proof. exact steps_bound. Qed.
Print Assumptions C89_bounded.

Lemma wsteps_app {A} loadB loadD (w : world A) is w1 : wsteps loadB loadD w is w1 -> forall is' w2, wsteps loadB loadD w1 is' w2 -> wsteps loadB loadD w (is ++ is') w2.
Proof. intros H. induction H as [w|w i w1 is w2 H1 H2 IH]; intros is' w3 H'; [exact H'|]. cbn. econstructor; [exact H1|]. apply IH, H'. Qed.
(** So however it has gone so far, all runtimes can still finish, with their own results. *)
Theorem C89_completes : forall loadB loadD jobs is w, wsteps loadB loadD (wstart (map as_process jobs)) is w ->
  exists is' w', wsteps loadB loadD w is' w' /\ w_threads w' = map TDone (map (by_itself loadB loadD) jobs).
Proof.
  intros loadB loadD jobs is w H. remember (48 * list_sum (map j_calls jobs) - length is)%nat as n eqn:Hn.
  revert is w H Hn. induction n as [n IH] using lt_wf_ind. intros is w H Hn.
  destruct (can_go_on loadB loadD jobs is w H) as [F|(i & w1 & H1)].
  - exists [], w. split; [constructor|]. destruct (reached loadB loadD jobs is w H) as ([I _ _ _ _] & _).
    clear - F I. rewrite !map_map in *. revert I F. generalize (w_threads w). induction jobs as [|j l IHl]; intros ts I F; inversion I as [|x t xs ts' H1 H2]; subst; [reflexivity|].
    cbn in F. apply andb_prop in F. destruct F as [F1 F2]. cbn. rewrite (IHl ts' H2 F2). destruct t; try discriminate F1. cbn in H1. rewrite H1, alone_job. reflexivity.
  - assert (H2 : wsteps loadB loadD (wstart (map as_process jobs)) (is ++ [i]) w1) by (eapply wsteps_app; [exact H|]; econstructor; [exact H1|constructor]).
    pose proof (C89_bounded _ _ _ _ _ H2) as B. rewrite app_length in B. cbn in B.
    destruct (IH (48 * list_sum (map j_calls jobs) - length (is ++ [i]))%nat) with (is := is ++ [i]) (w := w1) as (is' & w' & S & E); auto.
    + rewrite app_length. cbn. lia.
    + exists (i :: is'), w'. split; [econstructor; eassumption|exact E].
Qed.
Print Assumptions C89_completes.

(** While one runtime is about to write to a map of the cache, no other is about to read or
    write it. *)
Theorem C89_no_race : forall loadB loadD jobs is w i j t u, wsteps loadB loadD (wstart (map as_process jobs)) is w ->
  nth_error (w_threads w) i = Some t -> nth_error (w_threads w) j = Some u -> i <> j ->
  (accesses_B true t = true -> accesses_B false u = false) /\ (accesses_D true t = true -> accesses_D false u = false).
Proof. intros loadB loadD jobs is w i j t u H. eapply exclusive, (reached loadB loadD jobs is w H). Qed.
Print Assumptions C89_no_race.

(** Three runtimes, the first two with the same directory; the tables of the other directory
    are missing.  They take turns.  Afterwards each Table has been read once, the first
    runtime has both its messages and the end of the input, the second one its message, the
    third has failed; along the way one waits for the other. *)
Definition ex_loadB (p : gostring) : res tblB := if gs_eqb p (keyB (gs "t") 0 0 0 18) then Ok ex_b else Err (ENotExist).
Definition ex_loadD (p : gostring) : res tblD := if gs_eqb p (keyD (gs "t") 0 0 0 18) then Ok ex_d else Err (ENotExist).
Definition job_of (base : string) (n : nat) (bs : list Z) := mkJob ex_fc (gs base) (RBit (mkBR (bytes_bits bs) EEof 0)) n.
Fixpoint play {A} (w : world A) (sched : list nat) : world A * list nat :=
  match sched with
  | [] => (w, [])
  | i :: is => match wstep ex_loadB ex_loadD i w with
               | Some w' => let '(w2, done) := play w' is in (w2, i :: done)
               | None => play w is
               end
  end.
Lemma play_steps {A} sched : forall (w : world A), wsteps ex_loadB ex_loadD w (snd (play w sched)) (fst (play w sched)).
Proof.
  induction sched as [|i is IH]; intros w; cbn; [constructor|]. destruct (wstep ex_loadB ex_loadD i w) as [w'|] eqn:E; [|apply IH].
  specialize (IH w'). destruct (play w' is) as [w2 done]. econstructor; [exact E|exact IH].
Qed.
Definition ex_jobs := [job_of "t" 3 (msg4 ++ msg4); job_of "t" 1 msg4; job_of "u" 1 msg4].
Definition ex_end := play (wstart (map as_process ex_jobs)) (concat (repeat [0;1;2]%nat 40)).
Definition ex_mid := play (wstart (map as_process ex_jobs)) [0; 0; 1; 0; 0; 1; 1; 0; 0; 0]%nat.
Definition outcomes {A} (t : thread (A * list (res message))) : option (list bool) :=
  match t with TDone x => Some (map (fun r => match r with Ok _ => true | _ => false end) (snd x)) | _ => None end.
Example C89_example :
  map outcomes (w_threads (fst ex_end)) = [Some [true; true; false]; Some [true]; Some [false]] /\
  map fst (sh_map (w_B (fst ex_end))) = [keyB (gs "t") 0 0 0 18] /\ sh_next (w_B (fst ex_end)) = 1%nat /\ sh_next (w_D (fst ex_end)) = 1%nat /\
  map (accesses_B true) (w_threads (fst ex_mid)) = [true; false; false] /\
  map (fun i => match wstep ex_loadB ex_loadD i (fst ex_mid) with Some _ => true | None => false end) [0; 1; 2]%nat = [true; false; false].
Proof. vm_compute. repeat split. Qed.
