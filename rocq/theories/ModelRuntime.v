(** The script runtime around the decoder: the Lua stack of api/scriptrt.go.

    go-lua is described by the documented effect of each call on the stack (Lua reference
    manual, section 4): Push*, Global, Field, NewMetaTable, MetaTableNamed, Load and Require
    push one value; Pop(n) removes n; SetGlobal and SetField remove the value they store;
    Remove(-2) removes the value below the top; SetFunctions with no upvalues leaves the
    stack alone; OpenLibraries leaves nothing; ProtectedCall(0, 1, 0) replaces the function on
    top by its result, or by the error message if the call fails. *)
From Verif Require Export ModelScript.

(** Values on the stack, the top first. *)
Inductive slot : Type := SlMessage (m : message) | SlError (e : err) | SlOther.
Definition lstack : Type := list slot.
Definition st_push (x : slot) (k : lstack) : lstack := x :: k.
Definition st_pop (n : nat) (k : lstack) : lstack := skipn n k.
Definition st_set (k : lstack) : lstack := st_pop 1 k.                 (* SetField, SetGlobal *)
Definition st_remove_below (k : lstack) : lstack := firstn 1 k ++ skipn 2 k.  (* Remove(-2) *)

(** api/scriptrt.go:51-54 NewGlobalSimpleValue *)
Definition st_global (k : lstack) : lstack := st_set (st_push SlOther k).
(** api/scriptrt.go:87-97 initConstants: seven constants *)
Definition st_initConstants (k : lstack) : lstack := Nat.iter 7 st_global k.
(** api/scriptrt.go:100-108 initPkgPath *)
Definition st_initPkgPath (k : lstack) : lstack :=
  let k := st_push SlOther k in      (* package *)
  let k := st_push SlOther k in      (* package.path *)
  let k := st_pop 1 k in
  let k := st_push SlOther k in      (* the new path *)
  let k := st_set k in
  st_pop 1 k.
(** api/scriptrt.go:57-66, 111-119 Load, initScripts, if boot.lua can be loaded *)
Definition st_initScripts (k : lstack) : lstack :=
  let k := st_push SlOther k in      (* the metatable of the runtime *)
  let k := st_push SlOther k in      (* the chunk *)
  let k := st_set k in
  st_pop 1 k.
(** api/scriptrt.go:128-131 initLibs: Require leaves the library on the stack. *)
Definition st_initLibs (k : lstack) : lstack := st_push SlOther k.
(** api/objmessage.go:42-56, objsection.go:26-37, objfield.go:39-51: one metatable each *)
Definition st_register (k : lstack) : lstack :=
  let k := st_push SlOther k in      (* NewMetaTable *)
  let k := st_push SlOther k in      (* PushValue(-1) *)
  st_set k.                          (* __index *)
(** api/scriptrt.go:121-125 initTypes *)
Definition st_initTypes (k : lstack) : lstack := Nat.iter 3 st_register k.
(** api/scriptrt.go:31-41 Initialize *)
Definition st_Initialize : lstack :=
  st_initTypes (st_initLibs (st_initScripts (st_initPkgPath (st_initConstants [])))).

(** The runtime: factory and stack.  runtime.go:31-49 NewRuntime *)
Definition runtime : Type := (fac * lstack)%type.
Definition NewRuntime (r : reader) : runtime := (NewDefaultFactory r, st_Initialize).

(** api/scriptrt.go:79, ProtectedCall(0, 1, 0) of the loaded script, which returns the message
    (boot.lua). *)
Definition rt_call (fc : fconfig) (rt : runtime) : runtime * res unit :=
  let '(s, k) := rt in
  match (boot fc ;; get_msg)%M s with
  | (s', Ok m) => ((s', st_push (SlMessage m) (st_pop 1 k)), Ok tt)
  | (s', Err e) => ((s', st_push (SlError e) (st_pop 1 k)), Err e)
  | (s', Panic p) => ((s', k), Panic p)
  | (s', NoFuel) => ((s', k), NoFuel)
  end.
(** api/scriptrt.go:69-84 RunDeserializer, runtime.go:51-53 Run.  [ToUserData(-1).( *bufr.Message)]
    panics unless the top of the stack is a message. *)
Definition rt_Run (fc : fconfig) (rt : runtime) : runtime * res message :=
  let '(s, k) := rt in
  match SeekStartSignature (fc_fuel fc) s with
  | (s1, Ok _) =>
      let k := st_push SlOther k in          (* MetaTableNamed *)
      let k := st_push SlOther k in          (* Field(-1, DESERIALIZER) *)
      let k := st_remove_below k in
      match rt_call fc (s1, k) with
      | ((s2, k), Ok _) =>
          match k with
          | SlMessage m :: _ => ((s2, st_pop 1 k), Ok m)
          | _ => ((s2, k), Panic PNil)
          end
      | (rt', Err e) => (rt', Err e)
      | (rt', Panic p) => (rt', Panic p)
      | (rt', NoFuel) => (rt', NoFuel)
      end
  | (s1, Err e) => ((s1, k), Err e)
  | (s1, Panic p) => ((s1, k), Panic p)
  | (s1, NoFuel) => ((s1, k), NoFuel)
  end.
(** [n] calls of Run, whatever they return. *)
Fixpoint rt_Runs (fc : fconfig) (n : nat) (rt : runtime) : runtime * list (res message) :=
  match n with
  | O => (rt, [])
  | S k => let '(rt1, x) := rt_Run fc rt in let '(rt2, l) := rt_Runs fc k rt1 in (rt2, x :: l)
  end.
