(** Model of the process-wide table cache: table/manager.go.

    The cache for Table B and the cache for Table D are two copies of the same code with
    their own lock and map (table/manager.go:31-57 and 61-86), so one machine, generic in
    the type [C] of table contents, models both. *)
From Verif Require Export ModelTable.

(** ** Cache keys *)

(** Split a path at every '/'; never empty. *)
Fixpoint split_slash (s : gostring) : list gostring :=
  match s with
  | [] => [[]]
  | c :: s' =>
      if c =? 47 then [] :: split_slash s'
      else match split_slash s' with
           | h :: t => (c :: h) :: t
           | [] => [[c]]
           end
  end.

(** strings.Join(elems, "/") *)
Fixpoint join_slash (l : list gostring) : gostring :=
  match l with
  | [] => []
  | [a] => a
  | a :: l' => a ++ 47 :: join_slash l'
  end.

(** path/filepath.Clean (Go standard library, Unix): the component loop.  [acc] is the
    output so far, last component first. *)
Fixpoint clean_loop (rooted : bool) (comps acc : list gostring) : list gostring :=
  match comps with
  | [] => rev acc
  | c :: cs =>
      if gs_eqb c [] || gs_eqb c [46] then clean_loop rooted cs acc
      else if gs_eqb c [46; 46] then
        match acc with
        | p :: acc' => if gs_eqb p [46; 46] then clean_loop rooted cs (c :: acc)
                       else clean_loop rooted cs acc'
        | [] => if rooted then clean_loop rooted cs [] else clean_loop rooted cs [c]
        end
      else clean_loop rooted cs (c :: acc)
  end.
Definition is_rooted (s : gostring) : bool :=
  match s with c :: _ => c =? 47 | [] => false end.
Definition Clean (s : gostring) : gostring :=
  let out := join_slash (clean_loop (is_rooted s) (split_slash s) []) in
  if is_rooted s then 47 :: out
  else match out with [] => [46] | _ => out end.

(** path/filepath.Join (Go standard library, Unix): leading empty elements are dropped. *)
Fixpoint Join (elems : list gostring) : gostring :=
  match elems with
  | [] => []
  | [] :: es => Join es
  | es => Clean (join_slash es)
  end.

(** table/manager.go:89-100 composeTablePath *)
Definition composeTablePath (base : gostring) (master centre subcentre version : Z)
  (tableName : gostring) : gostring :=
  Join [base; itoa master; itoa centre; itoa subcentre; itoa version; tableName].

(** table/manager.go:34-36 and 63-65: the two cache keys. *)
Definition keyB (base : gostring) (m c s v : Z) := composeTablePath base m c s v (gs "TableB.json").
Definition keyD (base : gostring) (m c s v : Z) := composeTablePath base m c s v (gs "TableD.json").

(** ** The machine *)

Section Manager.
  Context {C : Type}.    (* what LoadTableB / LoadTableD build from a file *)

  (** A table object: its identity (the pointer) and its contents. *)
  Record tobj : Type := mkT { to_id : nat; to_content : C }.

  (** Where a call of getTable(path) stands; each constructor names the statement it is
      about to execute (table/manager.go:38-56 for B; 67-85 for D). *)
  Inductive pc : Type :=
  | PRLock (p : gostring)                          (* 38: RLock *)
  | PRead (p : gostring)                           (* 39: first map read *)
  | PRUnlock (p : gostring) (hit : option tobj)    (* 40: RUnlock *)
  | PLock (p : gostring)                           (* 45: Lock *)
  | PCheck (p : gostring)                          (* 47: second map read *)
  | PLoad (p : gostring)                           (* 51: LoadTable *)
  | PStore (p : gostring) (t : tobj)               (* 55: map write *)
  | PUnlock (p : gostring) (r : res tobj)          (* 46: deferred Unlock *)
  | PDone (p : gostring) (r : res tobj).           (* 42/49/53/56: returned *)

  Definition pc_path (c : pc) : gostring :=
    match c with
    | PRLock p | PRead p | PRUnlock p _ | PLock p | PCheck p | PLoad p | PStore p _
    | PUnlock p _ | PDone p _ => p
    end.

  (** table/manager.go:11-19 (one of the two halves).  [m_readers]/[m_writer]: state of the
      sync.RWMutex; [m_map]: the cache; [m_calls]: all calls; [m_next]: next fresh pointer;
      [m_loads]: ghost log of all load attempts and what they gave, latest first. *)
  Record mstate : Type := mkM {
    m_readers : nat; m_writer : bool; m_map : list (gostring * tobj);
    m_calls : list pc; m_next : nat; m_loads : list (gostring * res tobj) }.

  Fixpoint map_get (m : list (gostring * tobj)) (p : gostring) : option tobj :=
    match m with
    | [] => None
    | (q, t) :: m' => if gs_eqb q p then Some t else map_get m' p
    end.

  Fixpoint set_nth {A} (l : list A) (i : nat) (a : A) : list A :=
    match l, i with
    | [], _ => []
    | _ :: l', O => a :: l'
    | x :: l', S i' => x :: set_nth l' i' a
    end.
  Definition set_call (s : mstate) (i : nat) (c : pc) : list pc := set_nth (m_calls s) i c.

  (** One statement of call [i].  The scheduler may pick any call whose statement is
      enabled.  sync.RWMutex: RLock waits while a writer holds the lock, Lock waits while
      anybody does.  (Go's writer preference, which only removes schedules, is not
      modelled.)  A load may give any contents or any error, each time anew: nothing is
      assumed about the file system.  A panicking load is modelled as an error result;
      the deferred Unlock runs in both cases. *)
  Inductive step (s : mstate) : nat -> mstate -> Prop :=
  | StRLock i p :
      nth_error (m_calls s) i = Some (PRLock p) -> m_writer s = false ->
      step s i (mkM (S (m_readers s)) false (m_map s) (set_call s i (PRead p)) (m_next s) (m_loads s))
  | StRead i p :
      nth_error (m_calls s) i = Some (PRead p) ->
      step s i (mkM (m_readers s) (m_writer s) (m_map s)
                  (set_call s i (PRUnlock p (map_get (m_map s) p))) (m_next s) (m_loads s))
  | StRUnlock i p hit :
      nth_error (m_calls s) i = Some (PRUnlock p hit) ->
      step s i (mkM (pred (m_readers s)) (m_writer s) (m_map s)
                  (set_call s i (match hit with Some t => PDone p (Ok t) | None => PLock p end))
                  (m_next s) (m_loads s))
  | StLock i p :
      nth_error (m_calls s) i = Some (PLock p) -> m_writer s = false -> m_readers s = 0%nat ->
      step s i (mkM 0 true (m_map s) (set_call s i (PCheck p)) (m_next s) (m_loads s))
  | StCheck i p :
      nth_error (m_calls s) i = Some (PCheck p) ->
      step s i (mkM (m_readers s) (m_writer s) (m_map s)
                  (set_call s i (match map_get (m_map s) p with
                                 | Some t => PUnlock p (Ok t)
                                 | None => PLoad p
                                 end)) (m_next s) (m_loads s))
  | StLoadOk i p c :
      nth_error (m_calls s) i = Some (PLoad p) ->
      step s i (mkM (m_readers s) (m_writer s) (m_map s)
                  (set_call s i (PStore p (mkT (m_next s) c)))
                  (S (m_next s)) ((p, Ok (mkT (m_next s) c)) :: m_loads s))
  | StLoadErr i p e :
      nth_error (m_calls s) i = Some (PLoad p) ->
      step s i (mkM (m_readers s) (m_writer s) (m_map s)
                  (set_call s i (PUnlock p (Err e)))
                  (m_next s) ((p, Err e) :: m_loads s))
  | StStore i p t :
      nth_error (m_calls s) i = Some (PStore p t) ->
      step s i (mkM (m_readers s) (m_writer s) ((p, t) :: m_map s)
                  (set_call s i (PUnlock p (Ok t))) (m_next s) (m_loads s))
  | StUnlock i p r :
      nth_error (m_calls s) i = Some (PUnlock p r) ->
      step s i (mkM (m_readers s) false (m_map s) (set_call s i (PDone p r)) (m_next s) (m_loads s)).

  (** table/manager.go:22-25: the initial, empty cache, with any calls about to start. *)
  Definition mstart (paths : list gostring) : mstate :=
    mkM 0 false [] (map PRLock paths) 0 [].

  (** Executions: any finite interleaving; the list records who moved. *)
  Inductive steps : mstate -> list nat -> mstate -> Prop :=
  | StepsNil s : steps s [] s
  | StepsCons s i s' is s'' : step s i s' -> steps s' is s'' -> steps s (i :: is) s''.
End Manager.
Arguments tobj : clear implicits.
Arguments pc : clear implicits.
Arguments mstate : clear implicits.
