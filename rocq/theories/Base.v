(** Base vocabulary shared by all model files: Go-style outcomes, the state monad the
    models are written in, and Go integer arithmetic.

    Go integers are represented by [Z].  [int]/[uint] are 64 bits wide on every platform
    the project targets; wrap-around is written explicitly ([u64], [i64]) at the places
    where the code can reach it, and documented there. *)
From Coq Require Export String Ascii ZArith Lia Bool List.
Export ListNotations.
Open Scope Z_scope.

(** Go [error] values.  [EEof] is the sentinel [io.EOF]; [EWrap] is
    [fmt.Errorf("...: %w", err)] (so [err == io.EOF] is false on it, although [errors.Is]
    would be true); [EMsg] is any other freshly built error.  The string is only a tag. *)
Inductive err : Type :=
| EEof
| ENotExist                       (* *PathError for which os.IsNotExist is true *)
| EMsg (tag : string)
| EWrap (tag : string) (e : err).

(** Causes of a Go run-time panic. *)
Inductive panic : Type :=
| PIndex        (* index or slice bounds out of range *)
| PNil          (* nil pointer dereference / method call on a nil interface *)
| PNilMap       (* assignment to entry in nil map *)
| PType         (* failed type assertion *)
| PMake         (* makeslice: len out of range *)
| PCompare      (* comparing uncomparable dynamic type *)
| PDiv.         (* integer divide by zero *)

(** Result of a Go call: a value with a nil error, an error, a run-time panic, or
    (only for functions given explicit fuel) the fuel did not suffice. *)
Inductive res (A : Type) : Type :=
| Ok (a : A)
| Err (e : err)
| Panic (p : panic)
| NoFuel.
Arguments Ok {A} a.
Arguments Err {A} e.
Arguments Panic {A} p.
Arguments NoFuel {A}.

Definition is_ok {A} (r : res A) : bool := match r with Ok _ => true | _ => false end.

(** A non-Ok result retyped. *)
Definition castres {A B} (r : res A) (d : res B) : res B :=
  match r with Ok _ => d | Err e => Err e | Panic p => Panic p | NoFuel => NoFuel end.

(** State monad with Go outcomes.  The final state is kept for every outcome, because
    what a failing call leaves behind is observable (positions, caches). *)
Definition M (S A : Type) : Type := S -> S * res A.

Definition ret {S A} (a : A) : M S A := fun s => (s, Ok a).
Definition fail {S A} (e : err) : M S A := fun s => (s, Err e).
Definition throw {S A} (p : panic) : M S A := fun s => (s, Panic p).
Definition bind {S A B} (m : M S A) (f : A -> M S B) : M S B := fun s =>
  match m s with
  | (s', Ok a) => f a s'
  | (s', Err e) => (s', Err e)
  | (s', Panic p) => (s', Panic p)
  | (s', NoFuel) => (s', NoFuel)
  end.
Definition gets {S A} (f : S -> A) : M S A := fun s => (s, Ok (f s)).
Definition modify {S} (f : S -> S) : M S unit := fun s => (f s, Ok tt).
Definition lift_res {S A} (r : res A) : M S A := fun s => (s, r).
(** [fmt.Errorf("tag: %w", err)] around an error result. *)
Definition wrap {S A} (tag : string) (m : M S A) : M S A := fun s =>
  match m s with
  | (s', Err e) => (s', Err (EWrap tag e))
  | r => r
  end.
(** Go [defer f()] where [f] updates the state and cannot panic: runs for every outcome. *)
Definition defer {S A} (f : S -> S) (m : M S A) : M S A := fun s =>
  let '(s', r) := m s in (f s', r).

Declare Scope m_scope.
Delimit Scope m_scope with M.
Notation "x <- m ;; f" := (bind m (fun x => f))
  (at level 61, m at next level, right associativity) : m_scope.
Notation "m ;; f" := (bind m (fun _ => f)) (at level 61, right associativity) : m_scope.
Open Scope m_scope.

(** Run a sub-program on a component of the state. *)
Definition zoom {S T A} (get : S -> T) (put : T -> S -> S) (m : M T A) : M S A := fun s =>
  let '(t, r) := m (get s) in (put t s, r).

(** 64-bit wrap-around. *)
Definition u64 (z : Z) : Z := z mod 2 ^ 64.
Definition i64 (z : Z) : Z :=
  let w := z mod 2 ^ 64 in if w <? 2 ^ 63 then w else w - 2 ^ 64.

(** Go [/] and [%] on [int] truncate toward zero. *)
Notation go_quot := Z.quot.
Notation go_rem := Z.rem.

Definition NBITS_PER_BYTE : Z := 8. (* tdcfio/reader.go:4 *)

(** Go slice indexing [l[i]] for an [int] index: panics out of range. *)
Definition go_nth {A} (l : list A) (i : Z) : res A :=
  if i <? 0 then Panic PIndex
  else match nth_error l (Z.to_nat i) with Some a => Ok a | None => Panic PIndex end.

(** Repeat a stateful step [n] times, stopping at the first non-Ok outcome; binary
    recursion so that data-dependent counts never become unary numbers. *)
Fixpoint iter_pos {S} (n : positive) (f : M S unit) : M S unit :=
  match n with
  | xH => f
  | xO p => (iter_pos p f ;; iter_pos p f)%M
  | xI p => (f ;; iter_pos p f ;; iter_pos p f)%M
  end.
Definition iter_Z {S} (n : Z) (f : M S unit) : M S unit :=
  match n with Zpos p => iter_pos p f | _ => ret tt end.

(** Visit a list in order, stopping at the first non-Ok outcome.  (Sections keep the
    function outside of the [fix], so that nested recursion through them is accepted.) *)
Section MapM.
  Context {S A B : Type}.
  Variable f : A -> M S B.
  Fixpoint mapM (l : list A) : M S (list B) :=
    match l with
    | [] => ret []
    | a :: l' => (b <- f a ;; bs <- mapM l' ;; ret (b :: bs))%M
    end.
  Fixpoint mapM_ (l : list A) : M S unit :=
    match l with
    | [] => ret tt
    | a :: l' => (f a ;; mapM_ l')%M
    end.
End MapM.
Fixpoint replicateM {S A} (n : nat) (m : M S A) : M S (list A) :=
  match n with
  | O => ret []
  | Datatypes.S k => (a <- m ;; l <- replicateM k m ;; ret (a :: l))%M
  end.

(** Go [defer f()] where [f] itself may panic: it runs for every outcome of [m]; its own
    panic replaces the outcome. *)
Definition deferM {S A} (f : M S unit) (m : M S A) : M S A := fun s =>
  let '(s', r) := m s in
  match f s' with
  | (s'', Ok _) => (s'', r)
  | (s'', Err _) => (s'', r)
  | (s'', Panic p) => (s'', Panic p)
  | (s'', NoFuel) => (s'', NoFuel)
  end.
