(** Model of the String methods: table/operator_string.go, eventcode_string.go,
    unit_string.go, deserialize/datatype_string.go, table/descriptor.go, table/template.go,
    bufr/node.go. *)
From Verif Require Export ModelPayload.

(** The slice expression s[a:b] on a string. *)
Definition str_slice (s : gostring) (a b : Z) : res gostring :=
  if (0 <=? a) && (a <=? b) && (b <=? Z.of_nat (length s))
  then Ok (firstn (Z.to_nat (b - a)) (skipn (Z.to_nat a) s)) else Panic PIndex.
(** The pattern of the generated code: name[index[i]:index[i+1]]. *)
Definition index_name (name : gostring) (index : list Z) (i : Z) : res gostring :=
  rbind (go_nth index i) (fun a => rbind (go_nth index (i + 1)) (fun b => str_slice name a b)).
(** fmt.Sprintf("T(%d)", i) *)
Definition numbered (t : string) (i : Z) : gostring := gs t ++ gs "(" ++ itoa i ++ gs ")".

(** table/operator_string.go:7-21 *)
Definition Operator_name_0 := gs "OP_NBITS_OFFSETOP_SCALE_OFFSETOP_NEW_REFVALOP_ASSOCIATE_FIELDOP_INSERT_STRINGOP_SKIP_LOCALOP_MODIFY_PACKINGOP_SET_STRING_LENGTH".
Definition Operator_name_1 := gs "OP_DATA_NOT_PRESENTOP_QUALITY_INFOOP_SUBSTITUTIONOP_FIRST_ORDER_STATSOP_DIFFERENCE_STATS".
Definition Operator_name_2 := gs "OP_REPLACEMENT".
Definition Operator_name_3 := gs "OP_CANCEL_BACK_REFERENCEOP_DEFINE_BITMAPOP_RECALL_BITMAP".
Definition Operator_name_4 := gs "OP_DEFINE_EVENTOP_DEFINE_CONDITIONING_EVENTOP_CATEGORICAL_VALUES".
Definition Operator_index_0 := [0; 15; 30; 43; 61; 77; 90; 107; 127].
Definition Operator_index_1 := [0; 19; 34; 49; 69; 88].
Definition Operator_index_3 := [0; 24; 40; 56].
Definition Operator_index_4 := [0; 15; 43; 64].
(** table/operator_string.go:23-42 Operator.String *)
Definition Operator_String (i : Z) : res gostring :=
  if (201 <=? i) && (i <=? 208) then index_name Operator_name_0 Operator_index_0 (i - 201)
  else if (221 <=? i) && (i <=? 225) then index_name Operator_name_1 Operator_index_1 (i - 221)
  else if i =? 232 then Ok Operator_name_2
  else if (235 <=? i) && (i <=? 237) then index_name Operator_name_3 Operator_index_3 (i - 235)
  else if (241 <=? i) && (i <=? 243) then index_name Operator_name_4 Operator_index_4 (i - 241)
  else Ok (numbered "Operator" i).
(** table/eventcode_string.go:7-16 EventCode.String *)
Definition EventCode_name := gs "WE_ELEMENT_DESCRIPTORWE_REPLICATION_DESCRIPTORWE_OPERATOR_DESCRIPTORWE_SEQUENCE_DESCRIPTORWE_FACTORWE_BEGIN_SEQUENCEWE_END_SEQUENCEWE_BEGIN_REPLICATIONWE_END_REPLICATIONWE_BEGIN_BLOCKWE_END_BLOCKWE_BEGIN_TEMPLATEWE_END_TEMPLATE".
Definition EventCode_index := [0; 21; 46; 68; 90; 99; 116; 131; 151; 169; 183; 195; 212; 227].
Definition EventCode_String (i : Z) : res gostring :=
  if (i <? 0) || (13 <=? i) then Ok (numbered "EventCode" i) else index_name EventCode_name EventCode_index i.
(** table/unit_string.go:7-16 Unit.String *)
Definition Unit_name := gs "NUMERICSTRINGCODEFLAGCOMMON_CODEBIN".
Definition Unit_index := [0; 7; 13; 17; 21; 32; 35].
Definition Unit_String (i : Z) : res gostring :=
  if (i <? 0) || (6 <=? i) then Ok (numbered "Unit" i) else index_name Unit_name Unit_index i.
(** deserialize/datatype_string.go:7-16 DataType.String *)
Definition DataType_name := gs "INTUINTFLOATBOOLBYTESBIN".
Definition DataType_index := [0; 3; 7; 12; 16; 21; 24].
Definition DataType_String (i : Z) : res gostring :=
  if (i <? 0) || (6 <=? i) then Ok (numbered "DataType" i) else index_name DataType_name DataType_index i.
(** table/table.go:16-23: the numbers of the units. *)
Definition unit_number (u : unit_t) : Z :=
  match u with NUMERIC => 0 | STRING => 1 | NONNEG_CODE => 2 | CODE => 3 | FLAG => 4 | BINARY => 5 end.

(** Entry.Name(): table/table.go:48-96; replication and operator entries carry the text of
    their identifier (table/group.go:49-54), the root "Root" (table/descriptor.go:154).  The names of sequences are in no other
    part of the model: [dname] gives them. *)
Definition entry_name (dname : Z -> gostring) (d : descriptor) : gostring :=
  match d_entry d with
  | EB e => be_name e
  | ED _ => dname (d_id d)
  | _ => if d_id d =? 0 then gs "Root" else id_String (d_id d)
  end.
(** table/descriptor.go:106-111, 169-171 BaseDescriptor.String, DecorateDescriptor.String
    (every descriptor of the program has an entry). *)
Definition descriptor_String (dname : Z -> gostring) (d : descriptor) : res gostring :=
  if d_assoc d
  then rbind (str_slice (id_String (d_id d)) 1 (Z.of_nat (length (id_String (d_id d)))))
         (fun s => Ok (gs "A" ++ s ++ gs " " ++ gs "ASSOCIATED FIELD"))
  else Ok (id_String (d_id d) ++ gs " " ++ entry_name dname d).
(** bufr/node.go:80-82 ValuedNode.String: "[%d] %v (%d)" *)
Definition node_String (dname : Z -> gostring) (n : vnode) : res gostring :=
  rbind (descriptor_String dname (vn_desc n)) (fun s =>
  Ok (gs "[" ++ itoa (vn_index n) ++ gs "] " ++ s ++ gs " (" ++ itoa (pi_nbits (vn_info n)) ++ gs ")")).
(** table/template.go:55-57 UnexpandedTemplate.String: fmt "%v" of a slice of IDs. *)
Fixpoint spaced (l : list gostring) : gostring :=
  match l with [] => [] | [s] => s | s :: l' => s ++ gs " " ++ spaced l' end.
Definition template_String (ids : list Z) : gostring := gs "[" ++ spaced (map id_String ids) ++ gs "]".
