(** Specification vocabulary for the JSON readers. *)
From Verif Require Export ModelJson.

(** The scalar tokens of a document, in order, nesting ignored. *)
Definition is_scalar (t : token) : bool := match t with TDelim _ => false | _ => true end.
Definition scalars (ts : list token) : list token := filter is_scalar ts.

(** Calls with their width argument (which only moves Pos). *)
Inductive jcall : Type :=
| JNumber (n : Z) | JUint (n : Z) | JInt (n : Z) | JBool | JBytes (n : Z) | JBinary (n : Z).
Inductive jvalue : Type :=
| JVNum (x : f64) | JVUint (v : Z) | JVInt (v : Z) | JVBool (b : bool) | JVBytes (s : list Z)
| JVBinary (b : binary).

Definition jwidth (c : jcall) : Z :=
  match c with
  | JNumber n | JUint n | JInt n | JBinary n => n | JBool => 1 | JBytes n => 8 * n
  end.

(** What a call makes of a token; [None]: the token has the wrong type for it. *)
Definition jspec (pl : platform) (c : jcall) (t : token) : option jvalue :=
  match c, t with
  | JNumber _, TNum x => Some (JVNum x)
  | JUint _, TNum x => Some (JVUint (f64_to_uint pl x))
  | JInt _, TNum x => Some (JVInt (f64_to_int pl x))
  | JBool, TBool b => Some (JVBool b)
  | JBytes _, TStr s => Some (JVBytes s)
  | JBinary _, TStr s => match NewBinaryFromString s with Ok b => Some (JVBinary b) | _ => None end
  | _, _ => None
  end.

(** The calls on the model; [rd] is the common shape of FlatJsonReader's ([jr_read]) or
    PeekableFlatJsonReader's ([pjr_read]) methods. *)
Section Call.
  Variable pl : platform.
  Variable rd : forall A, (token -> res A) -> Z -> M jsonreader A.
  Definition do_jcall (c : jcall) : M jsonreader jvalue :=
    match c with
    | JNumber n => (v <- rd _ tok_float64 n ;; ret (JVNum v))%M
    | JUint n => (v <- rd _ (tok_uint pl) n ;; ret (JVUint v))%M
    | JInt n => (v <- rd _ (tok_int pl) n ;; ret (JVInt v))%M
    | JBool => (v <- rd _ tok_bool 1 ;; ret (JVBool v))%M
    | JBytes n => (v <- rd _ tok_bytes (n * NBITS_PER_BYTE) ;; ret (JVBytes v))%M
    | JBinary n => (v <- rd _ tok_binary n ;;
                    match v with Some b => ret (JVBinary b) | None => throw PNil end)%M
    end.
End Call.
Definition flat_call pl := do_jcall pl (@jr_read).
Definition peekable_call pl := do_jcall pl (@pjr_read).

(** All calls, going on after errors; the outcomes in order. *)
Fixpoint run_calls {S A C} (f : C -> M S A) (cs : list C) (s : S) : S * list (res A) :=
  match cs with
  | [] => (s, [])
  | c :: cs' => let '(s1, o) := f c s in
                let '(s2, os) := run_calls f cs' s1 in (s2, o :: os)
  end.

(** Reads and peeks mixed. *)
Inductive jop : Type := ORead (c : jcall) | OPeekUint (skip n : Z) | OPeekBytes (skip n : Z).
Definition is_read (o : jop) : option jcall := match o with ORead c => Some c | _ => None end.
Fixpoint reads_of (ops : list jop) : list jcall :=
  match ops with [] => [] | ORead c :: r => c :: reads_of r | _ :: r => reads_of r end.
(** Run everything, keeping only the outcomes of the reads. *)
Fixpoint run_ops pl (ops : list jop) (r : jsonreader) : list (res jvalue) :=
  match ops with
  | [] => []
  | ORead c :: os => let '(r', o) := peekable_call pl c r in o :: run_ops pl os r'
  | OPeekUint s n :: os => run_ops pl os (fst (pjr_PeekUint pl s n r))
  | OPeekBytes s n :: os => run_ops pl os (fst (pjr_PeekBytes s n r))
  end.
