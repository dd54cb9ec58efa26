(** The printed line of a cell: bufr/cell.go:24-33. *)
From Verif Require Export ModelNames ModelPayload.

(** utf8.RuneCountInString (Go standard library), as fmt counts the width of a text: the
    bytes that do not continue a character.  The names in the texts come from encoding/json,
    whose strings are valid UTF-8. *)
Definition rune_count (s : gostring) : nat := length (filter (fun c => negb ((128 <=? c) && (c <? 192))) s).
(** fmt's %-<w>v: blanks behind the text up to [w] characters. *)
Definition pad_right (w : nat) (s : gostring) : gostring := s ++ repeat 32 (w - rune_count s).

Section Text.
  (** strconv.FormatFloat(x, 'g', -1, 64) with fmt's %v conventions. *)
  Variable show : f64 -> gostring.

  (** bufr/cell.go:26-30, fmt's %v of a cell's value.  No value is a Go string: character data
    are []byte, printed as a list of numbers.  fmt prints a nil pointer whose String method
    panics as "<nil>". *)
  Definition value_String (v : value) : gostring :=
    match v with
    | VNil => gs "<nil>"
    | VUint u => itoa u
    | VInt i => itoa i
    | VFloat x => show x
    | VBytes b => gs "[" ++ spaced (map itoa b) ++ gs "]"
    | VBin (Some b) => Binary_String b
    | VBin None => gs "<nil>"
    end.
  (** bufr/cell.go:24-33 Cell.String: "%-81v %v" *)
  Definition cell_String (dname : Z -> gostring) (c : cell) : res gostring :=
    rbind (node_String dname (c_node c)) (fun t => Ok (pad_right 81 t ++ gs " " ++ value_String (c_val c))).
End Text.
