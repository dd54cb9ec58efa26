(** Small specification vocabulary for descriptors, tables and groups. *)
From Verif Require Export ModelManager SpecBits.

(** A descriptor as printed in the BUFR manual: F XX YYY. *)
Definition fxy (F X Y : Z) : Z := F * 100000 + X * 1000 + Y.
Definition valid_fxy (F X Y : Z) : Prop := 0 <= F <= 3 /\ 0 <= X <= 63 /\ 0 <= Y <= 255.
(** Its six digits, as bytes of ASCII text. *)
Definition fxy_text (F X Y : Z) : gostring :=
  [48 + F; 48 + X / 10; 48 + X mod 10; 48 + Y / 100; 48 + Y / 10 mod 10; 48 + Y mod 10].

(** Group [g] knows descriptor [d] under identifier [id]: elements (first digit 0) are
    those in its Table B, sequences (3) those in its Table D, replications (1) and
    operators (2) are known to every group. *)
Definition knows (g : single) (id : Z) (d : descriptor) : Prop :=
  Z.quot id 100000 = 0 /\ (exists e, s_b g id = Some e /\ d = mkDesc id (EB e) false) \/
  Z.quot id 100000 = 1 /\ d = mkDesc id ER false \/
  Z.quot id 100000 = 2 /\ d = mkDesc id EC false \/
  Z.quot id 100000 = 3 /\ (exists ms, s_d g id = Some ms /\ d = mkDesc id (ED ms) false).
Definition knows_not (g : single) (id : Z) : Prop := forall d, ~ knows g id d.
(** The groups a TableGroup consults, in order. *)
Definition members_of (g : group) : list single :=
  match g with GSingle s => [s] | GChain l => l end.

(** The file system holds a complete table group for these numbers, and it is [g]. *)
Definition present (fs : tablefs) (master centre sub version : Z) (g : single) : Prop :=
  fs_B fs master centre sub version = Ok (s_b g) /\ fs_D fs master centre sub version = Ok (s_d g).
(** Its Table B does not exist, or its Table B can be loaded but Table D does not exist. *)
Definition absent (fs : tablefs) (master centre sub version : Z) : Prop :=
  fs_B fs master centre sub version = Err ENotExist \/
  (exists b, fs_B fs master centre sub version = Ok b) /\
  fs_D fs master centre sub version = Err ENotExist.

(** A Table B record as published: name, unit, scale, reference, width and the CREX
    columns, numbers being JSON numbers of integers. *)
Definition record_of (name unit : gostring) (scale refval nbits : Z)
    (cunit : gostring) (cscale cn : Z) : list any :=
  [AStr name; AStr unit; ANum (f64_of_Z scale); ANum (f64_of_Z refval); ANum (f64_of_Z nbits);
   AStr cunit; ANum (f64_of_Z cscale); ANum (f64_of_Z cn)].
Definition json_int (z : Z) : Prop := Z.abs z < 2 ^ 53.
(** Field [i] of a record must be text (0, 1, 5) or a number (2, 3, 4, 6, 7). *)
Definition right_type (i : nat) (a : any) : Prop :=
  match a with
  | AStr _ => i = 0%nat \/ i = 1%nat \/ i = 5%nat
  | ANum _ => i = 2%nat \/ i = 3%nat \/ i = 4%nat \/ i = 6%nat \/ i = 7%nat
  | _ => False
  end.
