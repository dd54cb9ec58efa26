(** Model of deserialize/ast: the node types (ast.go), the dump visitor (dump.go) and the
    lint visitor (lint.go). *)
From Verif Require Export ModelTable.

(** deserialize/ast/ast.go:18-227, one constructor per node type. *)
Inductive akind : Type :=
| KBase                             (* BaseNode: the root *)
| KElement (notPresent : bool)      (* ElementNode *)
| KE031021
| KSequence
| KFixed
| KDelayed
| KNbitsOffset                      (* 201 *)
| KScaleOffset                      (* 202 *)
| KNewRefval                        (* 203 *)
| KAssocField                       (* 204 *)
| KInsertString                     (* 205 *)
| KSkipLocal                        (* 206 *)
| KModifyPacking                    (* 207 *)
| KSetStringLength                  (* 208 *)
| KDataNotPresent                   (* 221 *)
| KAssessment                       (* 222 223 224 225 232 *)
| KMarker                           (* 2xx255 *)
| KCancelBackRef                    (* 235 *)
| KBitmap                           (* 236000, 237000 or ad hoc *)
| KCancelBitmap.                    (* 237255 *)

(** A node: type, Descriptor() ([None] = nil interface), Members(), and for
    OpAssessmentNode its Bitmap and Attrs. *)
Inductive anode : Type :=
| ANode (k : akind) (d : option descriptor) (members : list anode)
        (bitmap : option anode) (attrs : list anode).

Definition an_kind (n : anode) := match n with ANode k _ _ _ _ => k end.
Definition an_desc (n : anode) := match n with ANode _ d _ _ _ => d end.
Definition an_members (n : anode) := match n with ANode _ _ m _ _ => m end.
Definition an_bitmap (n : anode) := match n with ANode _ _ _ b _ => b end.
Definition an_attrs (n : anode) := match n with ANode _ _ _ _ a => a end.

(** &X{BaseNode: NewBaseNode(d)} *)
Definition leaf (k : akind) (d : descriptor) : anode := ANode k (Some d) [] None [].
(** node.SetMembers(ms), ast.go:37-39 *)
Definition with_members (n : anode) (ms : list anode) : anode :=
  match n with ANode k d _ b a => ANode k d ms b a end.

(** ** dump.go.

    The io.Writer is arbitrary: [w i] is the error of its [i]-th Write, [None] if it takes
    everything.  What is written, piece by piece: the prefix, in units of four spaces, and
    the rest of a line.  A line carries the descriptor (its text is not modelled) and the
    type printed with %T; a factor line has four dots and no type. *)
Inductive adpiece : Type := WPrefix (n : nat) | WLine (d : option descriptor) (k : option akind).
Record dumpst : Type := mkDump { dp_prefix : nat; dp_writes : nat; dp_out : list adpiece }.
Section Dump.
Variable w : nat -> option err.
Definition dv_write (p : adpiece) : M dumpst unit := fun s =>
  match w (dp_writes s) with
  | Some e => (mkDump (dp_prefix s) (S (dp_writes s)) (dp_out s), Err e)
  | None => (mkDump (dp_prefix s) (S (dp_writes s)) (dp_out s ++ [p]), Ok tt)
  end.
(** dump.go:128-135 printf: fmt.Fprint and fmt.Fprintf call Write once each *)
Definition dv_printf (d : option descriptor) (k : option akind) : M dumpst unit :=
  (p <- gets dp_prefix ;; dv_write (WPrefix p) ;; dv_write (WLine d k))%M.
(** dump.go:137-143 indent, dedent: slicing an empty prefix panics *)
Definition dv_indent : M dumpst unit := modify (fun s => mkDump (S (dp_prefix s)) (dp_writes s) (dp_out s)).
Definition dv_dedent : M dumpst unit := fun s =>
  match dp_prefix s with
  | O => (s, Panic PIndex)
  | S p => (mkDump p (dp_writes s) (dp_out s), Ok tt)
  end.
(** dump.go:17-126 the visitor: VisitNode for most types, special cases for delayed
    replication (dump.go:36-44; no members: index panic) and assessment (90-103; a nil
    Bitmap panics). *)
Fixpoint dump_visit (n : anode) : M dumpst unit :=
  let visit_members ms := (dv_indent ;; deferM dv_dedent (mapM_ dump_visit ms))%M in
  match n with
  | ANode k d members bitmap attrs =>
      match k with
      | KDelayed =>
          (dv_printf d (Some k) ;;
           match members with
           | [] => throw PIndex
           | m0 :: rest => dv_printf (an_desc m0) None ;; visit_members rest
           end)%M
      | KAssessment =>
          (dv_printf d (Some k) ;;
           dv_indent ;;
           match bitmap with None => throw PNil | Some b => dump_visit b end ;;
           dv_dedent ;;
           visit_members attrs ;;
           visit_members members)%M
      | _ => (dv_printf d (Some k) ;; visit_members members)%M
      end
  end.

End Dump.

(** ** lint.go: only the node itself is inspected (no visit method descends).
    [panic("implement me")] is an explicit panic, represented by [PNil]'s sibling below. *)
Inductive lintres : Type := LintOk | LintErr (msg : string) | LintPanic.
(** lint.go:14-128 *)
Definition lint_visit (n : anode) : lintres :=
  match n with
  | ANode k d members _ _ =>
      match k, d with
      | KElement _, Some d =>
          if negb (id_F (d_id d) =? 0) then LintErr "not an element descriptor" else LintOk
      | KFixed, Some d =>
          if negb (id_Y (d_id d) =? Z.of_nat (length members))
          then LintErr "incorrect number of replicated members" else LintOk
      | KNewRefval, Some d =>
          if negb (id_Y (d_id d) =? 255) then
            (fix go ms := match ms with
              | [] => LintOk
              | m :: ms' => match an_desc m with
                            | None => LintPanic
                            | Some md => if negb (id_F (d_id md) =? 0)
                                         then LintErr "non-element descriptor" else go ms'
                            end
              end) members
          else LintOk
      | KAssocField, Some d =>
          if id_Y (d_id d) =? 0 then LintOk
          else match members with
               | [m] => match an_desc m with
                        | None => LintPanic
                        | Some md => if d_id md =? ID_031021 then LintOk
                                     else LintErr "invalid associated field significance"
                        end
               | _ => LintErr "incorrect number of associated field significance"
               end
      | _, _ => LintPanic
      end
  end.
