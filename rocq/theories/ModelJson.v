(** Model of tdcfio/flatjsonreader.go.  encoding/json's Decoder.Token is represented by the
    list of tokens it will return, followed by the error it reports then (io.EOF for a
    complete document, a syntax error otherwise). *)
From Verif Require Export ModelBinary ModelFloat.

(** json.Token: Delim, float64, string (object keys included), bool, nil. *)
Inductive token : Type :=
| TDelim (c : Z)
| TNum (x : f64)
| TStr (s : gostring)
| TBool (b : bool)
| TNull.

(** tdcfio/flatjsonreader.go:11-14 and 165-168; [j_cache] is PeekableFlatJsonReader.tokens *)
Record jsonreader : Type := mkJR {
  j_toks : list token; j_err : err; j_pos : Z; j_cache : list token }.

(** tdcfio/flatjsonreader.go:20-23, 173-175 *)
Definition new_jsonreader (ts : list token) (e : err) : jsonreader := mkJR ts e 0 [].

(** tdcfio/flatjsonreader.go:93-105 token: skip delimiters. *)
Fixpoint next_token (ts : list token) : option (token * list token) :=
  match ts with
  | [] => None
  | TDelim _ :: r => next_token r
  | t :: r => Some (t, r)
  end.
Definition jr_token : M jsonreader token := fun r =>
  match next_token (j_toks r) with
  | Some (t, ts) => (mkJR ts (j_err r) (j_pos r) (j_cache r), Ok t)
  | None => (mkJR [] (j_err r) (j_pos r) (j_cache r), Err (EWrap "cannot get token" (j_err r)))
  end.
Definition jr_add_pos (d : Z) : M jsonreader unit :=
  modify (fun r => mkJR (j_toks r) (j_err r) (j_pos r + d) (j_cache r)).

(** tdcfio/flatjsonreader.go:156-162, 108-122, 124-130, 148-154, 132-146: conversions *)
Definition tok_float64 (t : token) : res f64 :=
  match t with TNum x => Ok x | _ => Err (EMsg "value is not float64 type") end.
Definition tok_uint (pl : platform) (t : token) : res Z :=
  match tok_float64 t with Ok x => Ok (f64_to_uint pl x) | r => castres r NoFuel end.
Definition tok_int (pl : platform) (t : token) : res Z :=
  match tok_float64 t with Ok x => Ok (f64_to_int pl x) | r => castres r NoFuel end.
Definition tok_bool (t : token) : res bool :=
  match t with TBool b => Ok b | _ => Err (EMsg "value is not bool type") end.
Definition tok_bytes (t : token) : res (list Z) :=
  match t with TStr s => Ok s | _ => Err (EMsg "value is not string type") end.
Definition tok_binary (t : token) : res (option binary) :=
  match t with
  | TStr s => match NewBinaryFromString s with
              | Ok b => Ok (Some b)
              | r => castres r NoFuel
              end
  | _ => Err (EMsg "value is not string type")
  end.

(** Common shape of tdcfio/flatjsonreader.go:29-90: get a token, advance, convert. *)
Definition jr_read {A} (conv : token -> res A) (d : Z) : M jsonreader A :=
  (t <- jr_token ;; jr_add_pos d ;; lift_res (conv t))%M.

(** tdcfio/flatjsonreader.go:263-269 shift; [None] models the nil returned for an empty
    cache.  A cached JSON null is itself a nil interface. *)
Definition pjr_shift : M jsonreader (option token) := fun r =>
  match j_cache r with
  | [] => (r, Ok None)
  | t :: c => (mkJR (j_toks r) (j_err r) (j_pos r) c,
               Ok (match t with TNull => None | _ => Some t end))
  end.

(** Common shape of tdcfio/flatjsonreader.go:177-223. *)
Definition pjr_read {A} (conv : token -> res A) (d : Z) : M jsonreader A :=
  (o <- pjr_shift ;;
   match o with
   | Some t => jr_add_pos d ;; lift_res (conv t)
   | None => jr_read conv d
   end)%M.

(** tdcfio/flatjsonreader.go:225-231 ReadFloat32: line 230 calls itself, not the embedded
    reader's method. *)
Fixpoint pjr_ReadFloat32 (fuel : nat) : M jsonreader f64 :=
  match fuel with
  | O => lift_res NoFuel
  | S k =>
      (o <- pjr_shift ;;
       match o with
       | Some t => jr_add_pos 32 ;; lift_res (tok_float64 t)
       | None => pjr_ReadFloat32 k
       end)%M
  end.

(** tdcfio/flatjsonreader.go:249-260 peek: fetch as many tokens as are lacking, then return
    the last one of the cache (index -1 panics on an empty cache). *)
Fixpoint pjr_fetch (n : nat) : M jsonreader unit :=
  match n with
  | O => ret tt
  | S k =>
      (t <- wrap "cannot peek token" jr_token ;;
       modify (fun r => mkJR (j_toks r) (j_err r) (j_pos r) (j_cache r ++ [t])) ;;
       pjr_fetch k)%M
  end.
Definition pjr_peek (skip : Z) : M jsonreader token :=
  (c <- gets j_cache ;;
   pjr_fetch (Z.to_nat (skip - Z.of_nat (length c) + 1)) ;;
   c' <- gets j_cache ;;
   lift_res (go_nth c' (Z.of_nat (length c') - 1)))%M.
(** tdcfio/flatjsonreader.go:233-247 PeekUint, PeekBytes *)
Definition pjr_PeekUint (pl : platform) (skip n : Z) : M jsonreader Z :=
  (t <- pjr_peek skip ;; lift_res (tok_uint pl t))%M.
Definition pjr_PeekBytes (skip n : Z) : M jsonreader (list Z) :=
  (t <- pjr_peek skip ;; lift_res (tok_bytes t))%M.
