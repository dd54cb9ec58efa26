(** The names of the constants, as declared (table/descriptor.go:18-39, table/template.go:18-32,
    table/table.go:16-23, deserialize/factory.go:18-25). *)
From Verif Require Export ModelNames.

Definition operator_names : list (Z * string) :=
  [(201, "OP_NBITS_OFFSET"); (202, "OP_SCALE_OFFSET"); (203, "OP_NEW_REFVAL"); (204, "OP_ASSOCIATE_FIELD");
   (205, "OP_INSERT_STRING"); (206, "OP_SKIP_LOCAL"); (207, "OP_MODIFY_PACKING"); (208, "OP_SET_STRING_LENGTH");
   (221, "OP_DATA_NOT_PRESENT"); (222, "OP_QUALITY_INFO"); (223, "OP_SUBSTITUTION"); (224, "OP_FIRST_ORDER_STATS");
   (225, "OP_DIFFERENCE_STATS"); (232, "OP_REPLACEMENT"); (235, "OP_CANCEL_BACK_REFERENCE");
   (236, "OP_DEFINE_BITMAP"); (237, "OP_RECALL_BITMAP"); (241, "OP_DEFINE_EVENT");
   (242, "OP_DEFINE_CONDITIONING_EVENT"); (243, "OP_CATEGORICAL_VALUES")]%string.
Definition event_names : list (Z * string) :=
  [(0, "WE_ELEMENT_DESCRIPTOR"); (1, "WE_REPLICATION_DESCRIPTOR"); (2, "WE_OPERATOR_DESCRIPTOR");
   (3, "WE_SEQUENCE_DESCRIPTOR"); (4, "WE_FACTOR"); (5, "WE_BEGIN_SEQUENCE"); (6, "WE_END_SEQUENCE");
   (7, "WE_BEGIN_REPLICATION"); (8, "WE_END_REPLICATION"); (9, "WE_BEGIN_BLOCK"); (10, "WE_END_BLOCK");
   (11, "WE_BEGIN_TEMPLATE"); (12, "WE_END_TEMPLATE")]%string.
Definition unit_names : list (Z * string) :=
  [(0, "NUMERIC"); (1, "STRING"); (2, "NONNEG_CODE"); (3, "CODE"); (4, "FLAG"); (5, "BINARY")]%string.
Definition type_names : list (Z * string) :=
  [(0, "INT"); (1, "UINT"); (2, "FLOAT"); (3, "BOOL"); (4, "BYTES"); (5, "BINARY")]%string.

(** What a value of an enumerated type prints: the name of the constant it equals, and else
    the type with the number. *)
Definition prints (type : string) (names : list (Z * string)) (i : Z) (t : gostring) : Prop :=
  (exists n, In (i, n) names /\ t = gs n) \/
  (~ In i (map fst names) /\ t = gs type ++ gs "(" ++ itoa i ++ gs ")").

(** Identifiers of six digits; those of the elements, to which the decorated descriptors
    belong, begin with 0. *)
Definition printable (d : descriptor) : Prop := 0 <= d_id d < (if d_assoc d then 100000 else 1000000).
