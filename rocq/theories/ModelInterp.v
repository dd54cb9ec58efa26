(** Running the definition scripts: an interpreter for the part of Lua read by ModelLuaText.v,
    on the objects of ModelObjects.v.

    Values are those of Lua 5.2 as far as the scripts use them.  Since nothing is ever
    assigned, a variable stands for its value, a table for its content and a function captures
    the values of the variables around it.  A function that returns nothing is taken to
    return nil.  Strings are not converted to numbers.  Of the standard library there are
    error, assert and require.

    Continuation passing style: [k] is what happens with the value of an expression. *)
From Verif Require Export ModelObjects ModelLua ModelLuaText.

Inductive builtin : Type :=
| BGetMessage | BNewMessage | BNewSection | BNewField | BNewTemplateField | BNewPayloadField | BPadding
| BPeekEditionNumber | BInitTableGroup                     (* api/libdeserializer.go:145-156 *)
| BSetProxyField | BGetProxyField                          (* api/objmessage.go:50-54 *)
| BGetField | BGetNumberOfFields                           (* api/objsection.go:33-36 *)
| BValue | BIsMissing                                      (* api/objfield.go:46-50 *)
| BError | BAssert | BRequire.
Inductive val : Type :=
| UNil | UBool (b : bool) | UNum (x : f64) | UStr (s : string)
| UTable (items : list val) (fields : list (string * val))
| UFun (self : option string) (params : list string) (body : list lstat) (env : list (string * val))
| UBuiltin (b : builtin)
| UMsg (p : option nat) | USec (p : nat) | UField (f : option field) | UBinary.

(** The interpreter's state: the objects behind the factory, and package.loaded. *)
Record lst : Type := mkLst { l_obj : obj; l_loaded : list (string * val) }.
Definition l_set_obj (h : obj) (s : lst) : lst := mkLst h (l_loaded s).
Definition lop {A} (m : M obj A) : M lst A := zoom l_obj l_set_obj m.
Definition K : Type := val -> M lst val.

Definition lua_error {A} : M lst A := fail (EMsg "lua runtime error").
(** A call of a Go function that may return an error: state.PushString, state.Error. *)
Definition lcall {A} (m : M obj A) : M lst A := lop (g_call obj m).
Fixpoint assoc (x : string) (l : list (string * val)) : option val :=
  match l with
  | [] => None
  | (y, v) :: l' => if String.eqb y x then Some v else assoc x l'
  end.
Definition value_of (o : option val) : val := match o with Some v => v | None => UNil end.
(** How ToInteger, ToUnsigned and ToBoolean see a value (ModelLua.v). *)
Definition lv (v : val) : lval :=
  match v with UNil => LNil | UNum x => LNum x | UBool b => LBool b | _ => LUser end.
Definition truthy (v : val) : bool := match v with UNil | UBool false => false | _ => true end.
Definition arg (n : nat) (args : list val) : val := nth n args UNil.
(** api/helpers.go:36-64 *)
Definition push_field_value (f : field) : option val :=
  match push_value (f_value f) with
  | Some LNil => Some UNil
  | Some (LNum x) => Some (UNum x)
  | Some (LBool b) => Some (UBool b)
  | Some LUser => Some UBinary
  | None => None
  end.
Definition factory : val :=
  UTable [] [("getMessage", UBuiltin BGetMessage); ("newMessage", UBuiltin BNewMessage); ("newSection", UBuiltin BNewSection);
             ("newField", UBuiltin BNewField); ("newTemplateField", UBuiltin BNewTemplateField);
             ("newPayloadField", UBuiltin BNewPayloadField); ("padding", UBuiltin BPadding);
             ("peekEditionNumber", UBuiltin BPeekEditionNumber); ("initTableGroup", UBuiltin BInitTableGroup)]%string.
(** The global variables: api/scriptrt.go:87-97, 127-131; ldo.c, loadlib.c *)
Definition global (x : string) : val :=
  match lua_datatype x with
  | Some d => UNum (f64_of_Z (datatype_number d))
  | None =>
      if String.eqb x "BITS_PER_BYTE" then UNum (f64_of_Z NBITS_PER_BYTE)
      else if String.eqb x "factory" then factory
      else if String.eqb x "error" then UBuiltin BError
      else if String.eqb x "assert" then UBuiltin BAssert
      else if String.eqb x "require" then UBuiltin BRequire
      else UNil
  end.
(** v.name; for user data, what its metatable has under __index *)
Definition index (v : val) (name : string) : M lst val :=
  match v with
  | UTable _ fields => ret (value_of (assoc name fields))
  | UMsg _ => ret (if String.eqb name "getProxyField" then UBuiltin BGetProxyField
                   else if String.eqb name "setProxyField" then UBuiltin BSetProxyField else UNil)
  | USec _ => ret (if String.eqb name "getField" then UBuiltin BGetField
                   else if String.eqb name "getNumberOfFields" then UBuiltin BGetNumberOfFields else UNil)
  | UField _ => ret (if String.eqb name "value" then UBuiltin BValue
                     else if String.eqb name "isMissing" then UBuiltin BIsMissing else UNil)
  | _ => lua_error
  end.
(** [raw n t]: t[n] of a table, RawGetInt (libdeserializer.go:53); anything else panics. *)
Definition with_table (v : val) (k : list val -> list (string * val) -> M lst val) : M lst val :=
  match v with UTable items fields => k items fields | _ => throw PType end.

Section Interp.
  Variable fc : fconfig.
  Let pl := fc_plat fc.
  (** the files below definitionsPath *)
  Variable files : string -> option string.
  (** how Lua writes a number (LUAI_NUMFFORMAT) *)
  Variable number_text : f64 -> string.

  (** State.ToString *)
  Definition to_text (v : val) : string :=
    match v with UStr s => s | UNum x => number_text x | _ => EmptyString end.
  Definition to_int (v : val) : Z := to_integer pl (lv v).

  (** ** The functions written in Go *)
  Definition call_builtin (b : builtin) (args : list val) (k : K) : M lst val :=
    match b with
    | BGetMessage => (p <- lop o_Message ;; k (UMsg p))%M
    | BNewMessage => (i <- lop (o_NewMessage (to_text (arg 0 args))) ;; k (UMsg (Some i)))%M
    | BNewSection => (i <- lop (o_NewSection (to_int (arg 0 args)) (to_text (arg 1 args))) ;; k (USec i))%M
    | BInitTableGroup =>
        (_ <- lcall (o_InitTableGroup fc (to_int (arg 0 args)) (to_int (arg 1 args)) (to_int (arg 2 args))
                       (to_int (arg 3 args)) (to_int (arg 4 args))) ;; k UNil)%M
    | BNewField =>
        with_table (arg 0 args) (fun items fields =>
          f <- lcall (o_NewField fc (to_text (arg 0 items)) (datatype_of_number (to_int (arg 1 items)))
                        (to_int (arg 2 items)) (truthy (value_of (assoc "proxy" fields)))) ;; k (UField (Some f)))%M
    | BNewTemplateField =>
        with_table (arg 0 args) (fun items _ =>
          f <- lcall (o_NewTemplateField fc (to_text (arg 0 items)) (to_int (arg 1 items)) (to_int (arg 2 items))
                        (to_int (arg 3 items)) (to_unsigned pl (lv (arg 4 items)))) ;; k (UField (Some f)))%M
    | BNewPayloadField =>
        with_table (arg 0 args) (fun items _ =>
          f <- lcall (o_NewPayloadField fc (to_text (arg 0 items)) (to_int (arg 1 items)) (truthy (arg 2 items))) ;;
          k (UField (Some f)))%M
    | BPadding => (_ <- lcall (o_Padding (to_unsigned pl (lv (arg 0 args)))) ;; k UNil)%M
    | BPeekEditionNumber => (n <- lcall (o_PeekEditionNumber fc) ;; k (UNum (f64_of_Z n)))%M
    | BSetProxyField =>
        match arg 0 args, arg 1 args with
        | UMsg m, UField f => (_ <- lop (x <- field_deref f ;; o_SetProxyField m x) ;; k UNil)%M
        | _, _ => throw PType
        end
    | BGetProxyField =>
        match arg 0 args with
        | UMsg m => (f <- lcall (o_ProxyField m (to_text (arg 1 args))) ;; k (UField (Some f)))%M
        | _ => throw PType
        end
    | BGetField =>
        match arg 0 args with
        | USec s => (x <- lop (deref ob_secs (Some s)) ;; k (UField (find_field (to_text (arg 1 args)) (sec_fields (snd x)))))%M
        | _ => throw PType
        end
    | BGetNumberOfFields =>
        match arg 0 args with
        | USec s => (x <- lop (deref ob_secs (Some s)) ;; k (UNum (f64_of_Z (Z.of_nat (length (sec_fields (snd x)))))))%M
        | _ => throw PType
        end
    | BValue =>
        match arg 0 args with
        | UField f => (x <- lop (field_deref f) ;; v <- (match push_field_value x with Some v => ret v | None => lua_error end) ;; k v)%M
        | _ => throw PType
        end
    | BIsMissing =>
        match arg 0 args with
        | UField f => (x <- lop (field_deref f) ;; k (UBool (field_IsMissing x)))%M
        | _ => throw PType
        end
    | BError => lua_error
    | BAssert => if truthy (arg 0 args) then k (arg 0 args) else lua_error
    | BRequire => lua_error      (* see [require] *)
    end.

  (** ** Operators *)
  Definition operate (op : binop) (a b : val) : M lst val :=
    match op, a, b with
    | OAdd, UNum x, UNum y => ret (UNum (f64_add x y))
    | OSub, UNum x, UNum y => ret (UNum (lua_sub x y))
    | OMul, UNum x, UNum y => ret (UNum (f64_mul x y))
    | OConcat, (UStr _ | UNum _), (UStr _ | UNum _) => ret (UStr (to_text a ++ to_text b))
    | OEq, UNil, UNil => ret (UBool true)
    | OEq, UBool x, UBool y => ret (UBool (Bool.eqb x y))
    | OEq, UNum x, UNum y => ret (UBool (f64_eqb x y))
    | OEq, UStr x, UStr y => ret (UBool (String.eqb x y))
    | OEq, (UNil | UBool _ | UNum _ | UStr _), _ | OEq, _, (UNil | UBool _ | UNum _ | UStr _) => ret (UBool false)
    | _, _, _ => lua_error       (* identity of objects is not modelled *)
    end%string.

  (** ** Expressions and statements; [call] runs a function *)
  Section Eval.
    Variable call : val -> list val -> K -> M lst val.
    Fixpoint eval (n : nat) (env : list (string * val)) (e : lexpr) (k : K) : M lst val :=
      match n with
      | O => lift_res NoFuel
      | S n' =>
          match e with
          | ENil => k UNil
          | EBool b => k (UBool b)
          | ENum z => k (UNum (f64_of_Z z))
          | EStr s => k (UStr s)
          | EName x => k (match assoc x env with Some v => v | None => global x end)
          | EIndex a x => eval n' env a (fun v => (w <- index v x ;; k w)%M)
          | ECall f args => eval n' env f (fun v => evals n' env args (fun vs => call v vs k))
          | EMethod a x args =>
              eval n' env a (fun v => (w <- index v x ;; evals n' env args (fun vs => call w (v :: vs) k))%M)
          | ETable items => eval_items n' env items (fun vs fs => k (UTable vs fs))
          | EFun ps body => k (UFun None ps body env)
          | EBin op a b => eval n' env a (fun v => eval n' env b (fun w => (x <- operate op v w ;; k x)%M))
          end
      end
    with evals (n : nat) (env : list (string * val)) (es : list lexpr) (k : list val -> M lst val) : M lst val :=
      match n with
      | O => lift_res NoFuel
      | S n' =>
          match es with
          | [] => k []
          | e :: es' => eval n' env e (fun v => evals n' env es' (fun vs => k (v :: vs)))
          end
      end
    (* of two fields with the same name the later one counts *)
    with eval_items (n : nat) (env : list (string * val)) (is : list (option string * lexpr))
           (k : list val -> list (string * val) -> M lst val) : M lst val :=
      match n with
      | O => lift_res NoFuel
      | S n' =>
          match is with
          | [] => k [] []
          | (None, e) :: is' => eval n' env e (fun v => eval_items n' env is' (fun vs fs => k (v :: vs) fs))
          | (Some x, e) :: is' => eval n' env e (fun v => eval_items n' env is' (fun vs fs => k vs (fs ++ [(x, v)])))
          end
      end.
    (** [kret]: what happens with the value returned; [kend]: what happens after the block *)
    Fixpoint exec (n : nat) (env : list (string * val)) (b : list lstat) (kret : K) (kend : M lst val) : M lst val :=
      match n with
      | O => lift_res NoFuel
      | S n' =>
          match b with
          | [] => kend
          | SLocal x e :: b' => eval n' env e (fun v => exec n' ((x, v) :: env) b' kret kend)
          | SLocalFun x ps body :: b' => exec n' ((x, UFun (Some x) ps body env) :: env) b' kret kend
          | SCall e :: b' => eval n' env e (fun _ => exec n' env b' kret kend)
          | SIf c yes no :: b' =>
              eval n' env c (fun v => if truthy v then exec n' env yes kret (exec n' env b' kret kend)
                                      else exec n' env no kret (exec n' env b' kret kend))
          | SReturn None :: _ => kret UNil
          | SReturn (Some e) :: _ => eval n' env e kret
          end
      end.
  End Eval.

  Fixpoint bind_args (ps : list string) (args : list val) (env : list (string * val)) : list (string * val) :=
    match ps with
    | [] => env
    | p :: ps' => bind_args ps' (tl args) ((p, hd UNil args) :: env)
    end.
  (** loadlib.c: dots become separators, "?.lua" (scriptrt.go:100-108) gives the file. *)
  Fixpoint dots (s : string) : string :=
    match s with
    | EmptyString => EmptyString
    | String a s' => String (if byte a =? 46 then ascii_of_nat 47 else a) (dots s')
    end.
  Definition module_file (name : string) : string := (dots name ++ ".lua")%string.
  (** loadlib.c ll_require: a module is run once; package.path behind definitionsPath is
      not searched. *)
  Definition require (run : val -> list val -> K -> M lst val) (args : list val) (k : K) : M lst val := fun s =>
    let name := to_text (arg 0 args) in
    match assoc name (l_loaded s) with
    | Some v => k v s
    | None =>
        match files (module_file name) with
        | None => lua_error s
        | Some text =>
            match parse_lua text with
            | None => lua_error s
            | Some chunk =>
                run (UFun None [] chunk []) [UStr name] (fun v s' =>
                  let v' := match v with UNil => UBool true | _ => v end in
                  k v' (mkLst (l_obj s') ((name, v') :: l_loaded s'))) s
            end
        end
    end.
  (** [n] bounds the depth of calls and of the nesting of expressions. *)
  Fixpoint run (n : nat) (f : val) (args : list val) (k : K) : M lst val :=
    match n with
    | O => lift_res NoFuel
    | S n' =>
        match f with
        | UFun self ps body env =>
            exec (run n') n' (bind_args ps args (match self with Some x => (x, f) :: env | None => env end)) body k (k UNil)
        | UBuiltin BRequire => require (run n') args k
        | UBuiltin b => call_builtin b args k
        | _ => lua_error
        end
    end.

  (** ** api/scriptrt.go *)

  (** scriptrt.go:33-42, 111-120 Initialize: boot.lua is read and compiled; nothing is run. *)
  Definition script_Initialize : res (list lstat) :=
    match files "boot.lua"%string with
    | None => Err (EMsg "cannot open boot.lua")
    | Some text => match parse_lua text with Some chunk => Ok chunk | None => Err (EMsg "syntax error") end
    end.
  (** scriptrt.go:69-84 RunDeserializer with the compiled boot.lua; [None]: a nil *Message,
      which a script gets from getMessage before there is one. *)
  Definition script_Run (n : nat) (boot : list lstat) : M lst (option nat) :=
    (lop (o_SeekStartSignature (fc_fuel fc)) ;;
     v <- run n (UFun None [] boot []) [] ret ;;
     match v with
     | UMsg p => ret p
     | _ => throw PType
     end)%M.
  (** Any number of calls. *)
  Fixpoint script_Runs (n : nat) (boot : list lstat) (calls : nat) (s : lst) : lst * list (res (option nat)) :=
    match calls with
    | O => (s, [])
    | S c => let '(s1, x) := script_Run n boot s in let '(s2, xs) := script_Runs n boot c s1 in (s2, x :: xs)
    end.
End Interp.
