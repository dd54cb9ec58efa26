(** The interface tdcfio.PeekableReader (tdcfio/reader.go:20-47) and its two
    implementations, PeekableBitReader and PeekableFlatJsonReader. *)
From Verif Require Export ModelJson.

Inductive reader : Type := RBit (r : bitreader) | RJson (r : jsonreader).

Definition on_reader {A} (mb : M bitreader A) (mj : M jsonreader A) : M reader A := fun r =>
  match r with
  | RBit b => let '(b', x) := mb b in (RBit b', x)
  | RJson j => let '(j', x) := mj j in (RJson j', x)
  end.

(** Pos: bitreader.go:28-30, flatjsonreader.go:25-27 *)
Definition r_Pos (r : reader) : Z := match r with RBit b => br_pos b | RJson j => j_pos j end.
(** ReadNumber: bitreader.go:32-38, flatjsonreader.go:177-183 *)
Definition r_ReadNumber (n : Z) : M reader f64 :=
  on_reader (x <- br_ReadUint n ;; ret (f64_of_Z x))%M (pjr_read tok_float64 n).
(** ReadUint: bitreader.go:40-44, flatjsonreader.go:185-191 *)
Definition r_ReadUint (pl : platform) (n : Z) : M reader Z :=
  on_reader (br_ReadUint n) (pjr_read (tok_uint pl) n).
(** ReadInt: bitreader.go:46-59, flatjsonreader.go:193-199 *)
Definition r_ReadInt (pl : platform) (n : Z) : M reader Z :=
  on_reader (br_ReadInt n) (pjr_read (tok_int pl) n).
(** ReadBool: bitreader.go:61-65, flatjsonreader.go:201-207 *)
Definition r_ReadBool : M reader bool := on_reader br_ReadBool (pjr_read tok_bool 1).
(** ReadBytes: bitreader.go:67-78, flatjsonreader.go:209-215 *)
Definition r_ReadBytes (n : Z) : M reader (list Z) :=
  on_reader (br_ReadBytes n) (pjr_read tok_bytes (n * NBITS_PER_BYTE)).
(** ReadBinary: bitreader.go:80-104, flatjsonreader.go:217-223 *)
Definition r_ReadBinary (n : Z) : M reader (option binary) :=
  on_reader (br_ReadBinary n) (pjr_read tok_binary n).
(** ReadFloat32: bitreader.go:106-114, flatjsonreader.go:225-231 *)
Definition r_ReadFloat32 (fuel : nat) : M reader f64 :=
  on_reader (v <- br_ReadUint 32 ;; ret (f64_of_float32_bits (v mod 2 ^ 32)))%M
            (pjr_ReadFloat32 fuel).
(** PeekUint, PeekBytes: bitreader.go:139-165, flatjsonreader.go:233-247 *)
Definition r_PeekUint (pl : platform) (skip n : Z) : M reader Z :=
  on_reader (fun b => (b, pbr_PeekUint skip n b)) (pjr_PeekUint pl skip n).
Definition r_PeekBytes (skip n : Z) : M reader (list Z) :=
  on_reader (fun b => (b, pbr_PeekBytes skip n b)) (pjr_PeekBytes skip n).
