(** Small specification vocabulary for the concurrent table cache (C17). *)
From Verif Require Export ModelManager.

Section Spec.
  Context {C : Type}.

  (** What a call holds, by the statement it is about to execute. *)
  Definition holds_write (c : pc C) : bool :=
    match c with PCheck _ | PLoad _ | PStore _ _ | PUnlock _ _ => true | _ => false end.
  Definition holds_read (c : pc C) : bool :=
    match c with PRead _ | PRUnlock _ _ => true | _ => false end.
  (** The next statement reads, or writes, the shared map. *)
  Definition reads_map (c : pc C) : bool :=
    match c with PRead _ | PCheck _ => true | _ => false end.
  Definition writes_map (c : pc C) : bool :=
    match c with PStore _ _ => true | _ => false end.

  Definition call_at (s : mstate C) (i : nat) (c : pc C) : Prop := nth_error (m_calls s) i = Some c.
  (** Call [i], a request for path [p], has returned [r]. *)
  Definition returned (s : mstate C) (i : nat) (p : gostring) (r : res (tobj C)) : Prop :=
    call_at s i (PDone p r).

  Definition count {A} (f : A -> bool) (l : list A) : nat := length (filter f l).
  (** Load attempts for [p] so far that built a table / that failed. *)
  Definition good_loads (s : mstate C) (p : gostring) : nat :=
    count (fun l => gs_eqb (fst l) p && is_ok (snd l)) (m_loads s).
  Definition bad_loads (s : mstate C) (p : gostring) : nat :=
    count (fun l => gs_eqb (fst l) p && negb (is_ok (snd l))) (m_loads s).
  (** Requests for [p] that failed (returned, or about to release the lock and return). *)
  Definition failed_call (p : gostring) (c : pc C) : bool :=
    match c with
    | PUnlock q r | PDone q r => gs_eqb q p && negb (is_ok r)
    | _ => false
    end.
  Definition failed_calls (s : mstate C) (p : gostring) : nat := count (failed_call p) (m_calls s).

  Definition all_returned (s : mstate C) : Prop :=
    forall i c, call_at s i c -> exists p r, c = PDone p r.
End Spec.
