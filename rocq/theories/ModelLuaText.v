(** The text of the definition scripts: the part of Lua they are written in.

    Shopify/go-lua implements Lua 5.2; this is the lexer and the grammar of the Lua 5.2
    reference manual (sections 3.1 and 9), as llex.c and lparser.c implement them, cut down
    to what the scripts in _definitions use: local variables and functions, calls (also
    [f 'text'] and [f {...}]), methods, fields named by a constant, table constructors,
    function expressions, the operators [==], [..], [+], [-], [*], if, return.  There is no
    assignment, no loop, no global function, no escape in strings, no long bracket.  A text
    with anything else is not read ([None]). *)
From Coq Require Export String Ascii ZArith List Bool.
Export ListNotations.
Local Open Scope string_scope.
Local Open Scope list_scope.
Local Open Scope Z_scope.

(** ** Lexer: llex.c *)
Inductive tok : Type := TkName (s : string) | TkNum (n : Z) | TkStr (s : string) | TkSym (s : string).

Definition byte (a : ascii) : Z := Z.of_nat (nat_of_ascii a).
Definition between (lo hi : Z) (a : ascii) : bool := (lo <=? byte a) && (byte a <=? hi).
Definition is_digit (a : ascii) : bool := between 48 57 a.
Definition is_alpha (a : ascii) : bool := between 65 90 a || between 97 122 a || (byte a =? 95).
Definition is_alnum (a : ascii) : bool := is_alpha a || is_digit a.
Definition is_space (a : ascii) : bool := (byte a =? 32) || between 9 13 a.
Definition keywords : list string :=
  ["and"; "break"; "do"; "else"; "elseif"; "end"; "false"; "for"; "function"; "goto"; "if"; "in"; "local"; "nil"; "not";
   "or"; "repeat"; "return"; "then"; "true"; "until"; "while"].
Definition word (s : string) : tok := if existsb (String.eqb s) keywords then TkSym s else TkName s.

(** The longest prefix of characters that satisfy [p]. *)
Fixpoint span (p : ascii -> bool) (t : string) : string * string :=
  match t with
  | String a t' => if p a then let '(x, y) := span p t' in (String a x, y) else (EmptyString, t)
  | EmptyString => (EmptyString, EmptyString)
  end.
Fixpoint digits_value (acc : Z) (s : string) : Z :=
  match s with
  | String a s' => digits_value (acc * 10 + (byte a - 48)) s'
  | EmptyString => acc
  end.
Definition skip1 (t : string) : string := match t with String _ t' => t' | EmptyString => EmptyString end.
Definition symbols : list string := [".."; "=="; "("; ")"; "{"; "}"; "."; ":"; ","; ";"; "="; "+"; "-"; "*"].
Fixpoint symbol_at (l : list string) (t : string) : option (string * string) :=
  match l with
  | [] => None
  | s :: l' => if String.prefix s t then Some (s, String.substring (String.length s) (String.length t - String.length s) t)
               else symbol_at l' t
  end.
Definition newline : ascii := ascii_of_nat 10.
Definition backslash : ascii := ascii_of_nat 92.
(** Every step takes at least one character: [n] is the number of characters. *)
Fixpoint lex (n : nat) (t : string) : option (list tok) :=
  match n with
  | O => match t with EmptyString => Some [] | _ => None end
  | S n' =>
      match t with
      | EmptyString => Some []
      | String a t' =>
          if is_space a then lex n' t'
          else if String.prefix "--" t then
            if String.prefix "--[" t then None
            else lex n' (snd (span (fun c => negb (Ascii.eqb c newline)) t))
          else if is_alpha a then
            let '(w, r) := span is_alnum t in option_map (cons (word w)) (lex n' r)
          else if is_digit a then
            let '(w, r) := span is_digit t in
            match r with
            | String b _ => if is_alpha b || (byte b =? 46) then None
                            else option_map (cons (TkNum (digits_value 0 w))) (lex n' r)
            | EmptyString => option_map (cons (TkNum (digits_value 0 w))) (lex n' r)
            end
          else if (byte a =? 34) || (byte a =? 39) then
            let '(w, r) := span (fun c => negb (Ascii.eqb c a) && negb (Ascii.eqb c newline) && negb (Ascii.eqb c backslash)) t' in
            match r with
            | String b r' => if Ascii.eqb b a then option_map (cons (TkStr w)) (lex n' r') else None
            | EmptyString => None
            end
          else match symbol_at symbols t with
               | Some (s, r) => option_map (cons (TkSym s)) (lex n' r)
               | None => None
               end
      end
  end.

(** ** Grammar: lparser.c *)
Inductive binop : Type := OEq | OConcat | OAdd | OSub | OMul.
Inductive lexpr : Type :=
| ENil | EBool (b : bool) | ENum (n : Z) | EStr (s : string) | EName (x : string)
| EIndex (e : lexpr) (name : string)
| ECall (f : lexpr) (args : list lexpr)
| EMethod (e : lexpr) (name : string) (args : list lexpr)
| ETable (items : list (option string * lexpr))
| EFun (params : list string) (body : list lstat)
| EBin (op : binop) (a b : lexpr)
with lstat : Type :=
| SLocal (x : string) (e : lexpr)
| SLocalFun (x : string) (params : list string) (body : list lstat)
| SCall (e : lexpr)
| SIf (c : lexpr) (yes no : list lstat)
| SReturn (e : option lexpr).

Definition P (A : Type) : Type := list tok -> option (A * list tok).
Definition pret {A} (a : A) : P A := fun ts => Some (a, ts).
Definition pbind {A B} (p : P A) (k : A -> P B) : P B := fun ts =>
  match p ts with Some (a, ts') => k a ts' | None => None end.
Notation "x <~ p ; q" := (pbind p (fun x => q)) (at level 90, p at level 89, right associativity).
(** [next s]: does the text go on with the symbol [s]? *)
Definition next (s : string) (ts : list tok) : bool :=
  match ts with TkSym x :: _ => String.eqb x s | _ => false end.
Definition sym (s : string) : P unit := fun ts => if next s ts then Some (tt, tl ts) else None.
Definition name : P string := fun ts => match ts with TkName x :: r => Some (x, r) | _ => None end.
Definition opt (s : string) : P bool := fun ts => if next s ts then Some (true, tl ts) else Some (false, ts).

(** lparser.c:1032-1053: binding strength of the operators, left and right *)
Definition binary (ts : list tok) : option (Z * Z * binop) :=
  if next "+" ts then Some (6, 6, OAdd) else if next "-" ts then Some (6, 6, OSub)
  else if next "*" ts then Some (7, 7, OMul) else if next ".." ts then Some (5, 4, OConcat)
  else if next "==" ts then Some (3, 3, OEq) else None.
Definition block_ends (ts : list tok) : bool :=
  match ts with [] => true | _ => next "end" ts || next "else" ts || next "elseif" ts end.

(* behind the opening parenthesis *)
Fixpoint p_params (n : nat) : P (list string) := fun ts =>
  match n with
  | O => None
  | S n' =>
      if next ")" ts then Some ([], tl ts)
      else (x <~ name; more <~ opt ",";
            if more : bool then (fun ts' => if next ")" ts' then None else (xs <~ p_params n'; pret (x :: xs)) ts')
            else _ <~ sym ")"; pret [x]) ts
  end.
Fixpoint p_subexpr (n : nat) (limit : Z) : P lexpr := fun ts =>
  match n with O => None | S n' => (a <~ p_simple n'; p_binary n' limit a) ts end
with p_binary (n : nat) (limit : Z) (a : lexpr) : P lexpr := fun ts =>
  match n with
  | O => None
  | S n' =>
      match binary ts with
      | Some (l, r, op) =>
          if limit <? l then (b <~ p_subexpr n' r; p_binary n' limit (EBin op a b)) (tl ts) else Some (a, ts)
      | None => Some (a, ts)
      end
  end
with p_simple (n : nat) : P lexpr := fun ts =>
  match n with
  | O => None
  | S n' =>
      match ts with
      | TkNum z :: r => Some (ENum z, r)
      | TkStr s :: r => Some (EStr s, r)
      | _ =>
          if next "nil" ts then Some (ENil, tl ts) else if next "true" ts then Some (EBool true, tl ts)
          else if next "false" ts then Some (EBool false, tl ts)
          else if next "{" ts then (items <~ p_items n'; pret (ETable items)) (tl ts)
          else if next "function" ts then (x <~ p_function n'; pret (EFun (fst x) (snd x))) (tl ts)
          else p_suffixed n' ts
      end
  end
with p_suffixed (n : nat) : P lexpr := fun ts =>
  match n with
  | O => None
  | S n' =>
      match ts with
      | TkName x :: r => p_suffixes n' (EName x) r
      | _ => (_ <~ sym "("; e <~ p_subexpr n' 0; _ <~ sym ")"; p_suffixes n' e) ts
      end
  end
with p_suffixes (n : nat) (e : lexpr) : P lexpr := fun ts =>
  match n with
  | O => None
  | S n' =>
      match ts with
      | TkStr s :: r => p_suffixes n' (ECall e [EStr s]) r
      | _ =>
          if next "." ts then (x <~ name; p_suffixes n' (EIndex e x)) (tl ts)
          else if next ":" ts then (x <~ name; args <~ p_args n'; p_suffixes n' (EMethod e x args)) (tl ts)
          else if next "(" ts || next "{" ts then (args <~ p_args n'; p_suffixes n' (ECall e args)) ts
          else Some (e, ts)
      end
  end
with p_args (n : nat) : P (list lexpr) := fun ts =>
  match n with
  | O => None
  | S n' =>
      match ts with
      | TkStr s :: r => Some ([EStr s], r)
      | _ =>
          if next "{" ts then (items <~ p_items n'; pret [ETable items]) (tl ts)
          else if next "(" ts then
            if next ")" (tl ts) then Some ([], tl (tl ts)) else (es <~ p_exprs n'; _ <~ sym ")"; pret es) (tl ts)
          else None
      end
  end
with p_exprs (n : nat) : P (list lexpr) := fun ts =>
  match n with
  | O => None
  | S n' =>
      (e <~ p_subexpr n' 0; more <~ opt ","; if more : bool then es <~ p_exprs n'; pret (e :: es) else pret [e]) ts
  end
(* behind the opening brace *)
with p_items (n : nat) : P (list (option string * lexpr)) := fun ts =>
  match n with
  | O => None
  | S n' =>
      if next "}" ts then Some ([], tl ts)
      else
        (item <~ (fun ts' =>
           match ts' with
           | TkName x :: r => if next "=" r then (e <~ p_subexpr n' 0; pret (Some x, e)) (tl r)
                              else (e <~ p_subexpr n' 0; pret (None, e)) ts'
           | _ => (e <~ p_subexpr n' 0; pret (None, e)) ts'
           end);
         c <~ opt ","; s <~ opt ";";
         if c && s then fun _ => None
         else if c || s then is <~ p_items n'; pret (item :: is)
         else _ <~ sym "}"; pret [item]) ts
  end
(* behind "function" and a name *)
with p_function (n : nat) : P (list string * list lstat) := fun ts =>
  match n with
  | O => None
  | S n' => (_ <~ sym "("; ps <~ p_params n'; body <~ p_block n'; _ <~ sym "end"; pret (ps, body)) ts
  end
with p_block (n : nat) : P (list lstat) := fun ts =>
  match n with
  | O => None
  | S n' =>
      if block_ends ts then Some ([], ts)
      else if next ";" ts then p_block n' (tl ts)
      else if next "return" ts then
        let ts' := tl ts in
        if block_ends ts' || next ";" ts' then
          (_ <~ opt ";"; fun ts'' => if block_ends ts'' then Some ([SReturn None], ts'') else None) ts'
        else
          (e <~ p_subexpr n' 0; _ <~ opt ";"; fun ts'' => if block_ends ts'' then Some ([SReturn (Some e)], ts'') else None) ts'
      else (s <~ p_stat n'; ss <~ p_block n'; pret (s :: ss)) ts
  end
with p_stat (n : nat) : P lstat := fun ts =>
  match n with
  | O => None
  | S n' =>
      if next "local" ts then
        if next "function" (tl ts) then (x <~ name; f <~ p_function n'; pret (SLocalFun x (fst f) (snd f))) (tl (tl ts))
        else (x <~ name; _ <~ sym "="; e <~ p_subexpr n' 0; pret (SLocal x e)) (tl ts)
      else if next "if" ts then p_if n' (tl ts)
      else
        (e <~ p_suffixed n';
         match e with ECall _ _ | EMethod _ _ _ => pret (SCall e) | _ => fun _ => None end) ts
  end
(* behind "if" or "elseif" *)
with p_if (n : nat) : P lstat := fun ts =>
  match n with
  | O => None
  | S n' =>
      (c <~ p_subexpr n' 0; _ <~ sym "then"; yes <~ p_block n';
       fun ts' =>
         if next "elseif" ts' then (s <~ p_if n'; pret (SIf c yes [s])) (tl ts')
         else if next "else" ts' then (no <~ p_block n'; _ <~ sym "end"; pret (SIf c yes no)) (tl ts')
         else (_ <~ sym "end"; pret (SIf c yes [])) ts') ts
  end.

(** A whole file.  The depth of the recursion is at most a few calls per token. *)
Definition parse_lua (text : string) : option (list lstat) :=
  match lex (String.length text) text with
  | Some ts => match p_block (20 + 12 * length ts) ts with Some (b, []) => Some b | _ => None end
  | None => None
  end.
