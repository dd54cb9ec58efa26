(** Vocabulary for C88. *)
From Verif Require Export SpecObjects ModelInterp GenScripts.

(** The shipped scripts, as read. *)
Definition chunk_of (path : string) : list lstat :=
  match shipped_scripts path with Some text => match parse_lua text with Some b => b | None => [] end | None => [] end.
(** What the shipped modules return: a table with one function. *)
Definition body_of (path : string) : list lstat :=
  match chunk_of path with SLocalFun _ _ body :: _ => body | _ => [] end.
Definition module_value (path : string) : val :=
  UTable [] [("deserialise"%string, UFun (Some "deserialise"%string) [] (body_of path) [])].
Definition module_names : list string :=
  ["bufr4.bufr4"; "bufr3.bufr3"; "bufr4.section1"; "bufr3.section1"; "common.section0"; "common.section2";
   "common.section3"; "common.section4"; "common.section5"]%string.
(** package.loaded holds nothing but these. *)
Definition loaded_ok (ld : list (string * val)) : Prop :=
  forall name v, assoc name ld = Some v -> In name module_names /\ v = module_value (module_file name).
(** A definitions directory with the shipped modules in it, and perhaps others. *)
Definition has_shipped (files : string -> option string) : Prop :=
  forall path, shipped_scripts path <> None -> files path = shipped_scripts path.
(** A message shown by [h] at the address returned, or the same failure. *)
Definition shows (h : obj) (x : res message) (y : res (option nat)) : Prop :=
  match x with
  | Ok m => exists i, y = Ok (Some i) /\ seen h i = Some (""%string, map Some (msg_sections m), msg_proxy m)
  | Err e => y = Err e
  | Panic p => y = Panic p
  | NoFuel => y = NoFuel
  end.
(** Any number of calls of a decoder, whatever comes of them. *)
Fixpoint repeated {St A} (m : M St A) (calls : nat) (s : St) : St * list (res A) :=
  match calls with
  | O => (s, [])
  | S c => let '(s1, x) := m s in let '(s2, xs) := repeated m c s1 in (s2, x :: xs)
  end.
(** A new runtime: no module loaded, nothing decoded. *)
Definition new_runtime (r : reader) : lst := mkLst (o_New r) [].
