(** Several runtimes in one process.

    All a Runtime uses is its own, except the cache of tables (table/manager.go:22-25, the
    only package variable that is written after start-up).  Here the calls of Run are cut at
    the requests to this cache: a runtime is a process that asks for tables, and the requests
    of all runtimes are interleaved statement by statement.  The files do not change while
    the process runs: [loadB], [loadD] say what LoadTableB and LoadTableD give for a path. *)
From Verif Require Export ModelManager ModelScript.

Definition tblB : Type := Z -> option bentry.
Definition tblD : Type := Z -> option (list Z).

Inductive proc (A : Type) : Type :=
| PRet (x : A)
| PAskB (path : gostring) (k : res tblB -> proc A)
| PAskD (path : gostring) (k : res tblD -> proc A).
Arguments PRet {A}. Arguments PAskB {A}. Arguments PAskD {A}.

(** ** Run, asking for its tables *)
Section Proc.
  Variable base : gostring.     (* Config.TablesPath *)
  Variable fc : fconfig.        (* [fc_fs fc] is not used *)
  Context {A : Type}.

  (** table/group.go:26-42 NewSingleTableGroup with table/manager.go:31-37, 61-66 *)
  Definition p_Single (m c s v : Z) (k : res single -> proc A) : proc A :=
    PAskB (keyB base m c s v) (fun rb =>
      match rb with
      | Ok b => PAskD (keyD base m c s v) (fun rd =>
          match rd with
          | Ok d => k (Ok (mkSingle b d))
          | Err e => k (Err e) | Panic p => k (Panic p) | NoFuel => k NoFuel
          end)
      | Err e => k (Err e) | Panic p => k (Panic p) | NoFuel => k NoFuel
      end).
  (** table/group.go:82-94 AddSingleTableGroup *)
  Definition p_Add (m c s v : Z) (l : list single) (k : list single * res unit -> proc A) : proc A :=
    p_Single m c s v (fun r =>
      match r with
      | Ok g => k (l ++ [g], Ok tt)
      | Err e => k (l, Err e) | Panic p => k (l, Panic p) | NoFuel => k (l, NoFuel)
      end).
  (** table/group.go:99-115 AddLocalAndWmoTableGroups *)
  Definition p_LocalAndWmo (m c s wv lv : Z) (l : list single) (k : list single * res unit -> proc A) : proc A :=
    if negb (lv =? 0) then
      p_Add m c s lv l (fun '(l', r) =>
        match r with
        | Ok _ => p_Add m 0 0 wv l' k
        | Err e =>
            if is_not_exist e
            then p_Add m c 0 lv l' (fun '(l2, r2) =>
                   match r2 with
                   | Ok _ => p_Add m 0 0 wv l2 k
                   | Err e2 => k (l2, Err e2) | Panic p => k (l2, Panic p) | NoFuel => k (l2, NoFuel)
                   end)
            else k (l', Err e)
        | Panic p => k (l', Panic p) | NoFuel => k (l', NoFuel)
        end)
    else p_Add m 0 0 wv l k.
  (** deserialize/factory.go:103-111 InitTableGroup *)
  Definition p_InitTableGroup (m c s wv lv : Z) (st : fac) (k : fac * res unit -> proc A) : proc A :=
    p_LocalAndWmo m c s wv lv [] (fun '(l, r) =>
      match r with
      | Ok _ => k (mkFac (fa_r st) (fa_msg st) (fa_ut st) (Some (GChain l)), Ok tt)
      | Err e => k (st, Err e) | Panic p => k (st, Panic p) | NoFuel => k (st, NoFuel)
      end).

  (** The scripts up to initTableGroup, whose arguments are the result, and after it
      (api/scriptrt.go:69-84, _definitions/boot.lua, bufr4.lua, bufr3.lua) *)
  Definition before_tables (section1 : M fac unit) : M fac (Z * Z * Z * Z * Z) :=
    (NewMessage ;;
     section0 fc ;;
     section1 ;;
     s2 <- proxy_bool "isSection2Presents" ;;
     (if s2 : bool then section2 fc else ret tt) ;;
     section3 fc ;;
     master <- proxy_number "masterTableNumber" ;;
     centre <- proxy_number "originatingCentre" ;;
     sub <- proxy_number "originatingSubCentre" ;;
     wmo <- proxy_number "masterTableVersion" ;;
     local <- proxy_number "localTableVersion" ;;
     ret (master, centre, sub, wmo, local))%M.
  Definition first_part : M fac (Z * Z * Z * Z * Z) :=
    (SeekStartSignature (fc_fuel fc) ;;
     ed <- lua_call (PeekEditionNumber fc) ;;
     if ed =? 4 then before_tables (section1_4 fc)
     else if ed =? 3 then before_tables (section1_3 fc)
     else fail (EMsg "lua runtime error"))%M.
  Definition second_part : M fac message :=
    (section4 fc ;;
     section5 fc ;;
     get_msg)%M.
  Definition p_Run (st : fac) (k : fac * res message -> proc A) : proc A :=
    match first_part st with
    | (s1, Ok (m, c, s, wv, lv)) =>
        p_InitTableGroup m c s wv lv s1 (fun r => k ((lua_call (fun _ => r) ;; second_part)%M s1))
    | (s1, Err e) => k (s1, Err e)
    | (s1, Panic p) => k (s1, Panic p)
    | (s1, NoFuel) => k (s1, NoFuel)
    end.
  (** Any number of calls. *)
  Fixpoint p_Runs (n : nat) (st : fac) (k : fac * list (res message) -> proc A) : proc A :=
    match n with
    | O => k (st, [])
    | S n' => p_Run st (fun '(s1, x) => p_Runs n' s1 (fun '(s2, xs) => k (s2, x :: xs)))
    end.
End Proc.

(** ** The cache: table/manager.go:31-86, the statements of ModelManager.v *)
Record shared (C : Type) : Type := mkSh {
  sh_readers : nat; sh_writer : bool; sh_map : list (gostring * tobj C); sh_next : nat }.
Arguments mkSh {C}. Arguments sh_readers {C}. Arguments sh_writer {C}. Arguments sh_map {C}. Arguments sh_next {C}.

Definition with_tobj {C D} (f : C -> D) (r : res C) : res D :=
  match r with Ok x => Ok (f x) | Err e => Err e | Panic p => Panic p | NoFuel => NoFuel end.

(** The next statement of a request; [None]: it waits for the lock, or has returned.  A load
    that panics releases the lock, too (defer). *)
Definition cstep {C} (load : gostring -> res C) (h : shared C) (c : pc C) : option (shared C * pc C) :=
  match c with
  | PRLock p => if sh_writer h then None else Some (mkSh (S (sh_readers h)) false (sh_map h) (sh_next h), PRead p)
  | PRead p => Some (h, PRUnlock p (map_get (sh_map h) p))
  | PRUnlock p hit =>
      Some (mkSh (pred (sh_readers h)) (sh_writer h) (sh_map h) (sh_next h),
            match hit with Some t => PDone p (Ok t) | None => PLock p end)
  | PLock p =>
      if sh_writer h || negb (sh_readers h =? 0)%nat then None
      else Some (mkSh 0 true (sh_map h) (sh_next h), PCheck p)
  | PCheck p => Some (h, match map_get (sh_map h) p with Some t => PUnlock p (Ok t) | None => PLoad p end)
  | PLoad p =>
      match load p with
      | Ok c => Some (mkSh (sh_readers h) (sh_writer h) (sh_map h) (S (sh_next h)), PStore p (mkT (sh_next h) c))
      | Err e => Some (h, PUnlock p (Err e))
      | Panic e => Some (h, PUnlock p (Panic e))
      | NoFuel => Some (h, PUnlock p NoFuel)
      end
  | PStore p t => Some (mkSh (sh_readers h) (sh_writer h) ((p, t) :: sh_map h) (sh_next h), PUnlock p (Ok t))
  | PUnlock p r => Some (mkSh (sh_readers h) false (sh_map h) (sh_next h), PDone p r)
  | PDone _ _ => None
  end.

(** ** All runtimes together *)
Inductive thread (A : Type) : Type :=
| TB (c : pc tblB) (k : res tblB -> proc A)
| TD (c : pc tblD) (k : res tblD -> proc A)
| TDone (x : A).
Arguments TB {A}. Arguments TD {A}. Arguments TDone {A}.
Definition enter {A} (p : proc A) : thread A :=
  match p with PRet x => TDone x | PAskB path k => TB (PRLock path) k | PAskD path k => TD (PRLock path) k end.
Record world (A : Type) : Type := mkW { w_B : shared tblB; w_D : shared tblD; w_threads : list (thread A) }.
Arguments mkW {A}. Arguments w_B {A}. Arguments w_D {A}. Arguments w_threads {A}.

Definition resumeB {A} (c : pc tblB) (k : res tblB -> proc A) : thread A :=
  match c with PDone _ r => enter (k (with_tobj to_content r)) | _ => TB c k end.
Definition resumeD {A} (c : pc tblD) (k : res tblD -> proc A) : thread A :=
  match c with PDone _ r => enter (k (with_tobj to_content r)) | _ => TD c k end.

Section World.
  Variable loadB : gostring -> res tblB.
  Variable loadD : gostring -> res tblD.
  Context {A : Type}.
  (** One statement of runtime [i]. *)
  Definition wstep (i : nat) (w : world A) : option (world A) :=
    match nth_error (w_threads w) i with
    | Some (TB c k) =>
        match cstep loadB (w_B w) c with
        | Some (h, c') => Some (mkW h (w_D w) (set_nth (w_threads w) i (resumeB c' k)))
        | None => None
        end
    | Some (TD c k) =>
        match cstep loadD (w_D w) c with
        | Some (h, c') => Some (mkW (w_B w) h (set_nth (w_threads w) i (resumeD c' k)))
        | None => None
        end
    | _ => None
    end.
  (** The cache is empty when the process starts. *)
  Definition wstart (ps : list (proc A)) : world A := mkW (mkSh 0 false [] 0) (mkSh 0 false [] 0) (map enter ps).
  (** Any interleaving; the list says who moved. *)
  Inductive wsteps : world A -> list nat -> world A -> Prop :=
  | WNil w : wsteps w [] w
  | WCons w i w' is w'' : wstep i w = Some w' -> wsteps w' is w'' -> wsteps w (i :: is) w''.
End World.
