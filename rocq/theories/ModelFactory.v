(** Model of deserialize/factory.go, bufr/message.go, bufr/section.go, bufr/field.go. *)
From Verif Require Export ModelPayload.

(** bufr/field.go:41-62 Field values *)
Inductive fvalue : Type :=
| FUint (u : Z) | FInt (i : Z) | FFloat (x : f64) | FBool (b : bool)
| FBytes (b : list Z) | FBin (b : option binary)
| FTemplate (ids : list Z) | FPayload (compressed : bool) (subsets : list subset).
(** bufr/field.go:41-62 Field; Lookup and Virtual are never used by the decoder *)
Record field : Type := mkField { f_name : string; f_value : fvalue; f_nbits : Z; f_hidden : bool }.

(** bufr/field.go:68-70 Field.IsMissing *)
Definition field_IsMissing (f : field) : bool :=
  match f_value f with FUint u => IsMissing (VUint u) (f_nbits f) | _ => false end.

(** bufr/section.go:10-25 Section *)
Record section : Type := mkSection {
  sec_number : Z; sec_description : string; sec_start : Z; sec_padding : Z;
  sec_fields : list field }.
(** bufr/section.go:58-65 FieldByName *)
Fixpoint find_field (name : string) (fs : list field) : option field :=
  match fs with
  | [] => None
  | f :: r => if String.eqb (f_name f) name then Some f else find_field name r
  end.
Definition FieldByName (s : section) (name : string) : option field := find_field name (sec_fields s).

(** bufr/message.go:10-22 Message.  [msg_done] are all sections but the current one,
    latest first; [msg_cur] is the section added last (DefaultFactory.section).  Metadata
    is not modelled. *)
Record message : Type := mkMessage {
  msg_done : list section; msg_cur : option section; msg_proxy : list (string * field) }.
(** bufr/message.go:40-42 Sections *)
Definition msg_sections (m : message) : list section :=
  rev (match msg_cur m with Some s => s :: msg_done m | None => msg_done m end).
(** bufr/message.go:50-52 SetProxyField *)
Definition SetProxyField (f : field) (m : message) : message :=
  mkMessage (msg_done m) (msg_cur m) ((f_name f, f) :: msg_proxy m).
(** bufr/message.go:54-60 ProxyField *)
Fixpoint proxy_get (name : string) (l : list (string * field)) : option field :=
  match l with
  | [] => None
  | (n, f) :: r => if String.eqb n name then Some f else proxy_get name r
  end.
Definition ProxyField (m : message) (name : string) : res field :=
  match proxy_get name (msg_proxy m) with
  | Some f => Ok f
  | None => Err (EMsg "no proxy field named")
  end.

(** deserialize/config.go:8-13 Config, with the platform, the readable tables and fuel for
    the loops that have no bound of their own. *)
Record fconfig : Type := mkFconfig {
  fc_json : bool; fc_compatible : bool; fc_plat : platform; fc_fs : tablefs; fc_fuel : nat }.

(** deserialize/factory.go:69-82 DefaultFactory *)
Record fac : Type := mkFac {
  fa_r : reader; fa_msg : option message; fa_ut : option (list Z); fa_group : option group }.

(** deserialize/factory.go:84-86 *)
Definition NewDefaultFactory (r : reader) : fac := mkFac r None None None.

Definition set_fr (r : reader) (s : fac) : fac := mkFac r (fa_msg s) (fa_ut s) (fa_group s).
Definition set_msg (m : message) (s : fac) : fac := mkFac (fa_r s) (Some m) (fa_ut s) (fa_group s).
Definition onr {A} (m : M reader A) : M fac A := zoom fa_r set_fr m.

(** fac.message dereferenced *)
Definition get_msg : M fac message := fun s =>
  match fa_msg s with Some m => (s, Ok m) | None => (s, Panic PNil) end.
Definition get_section : M fac section :=
  (m <- get_msg ;; match msg_cur m with Some x => ret x | None => throw PNil end)%M.
(** update of the current section *)
Definition upd_section (f : section -> section) : M fac unit :=
  (m <- get_msg ;;
   match msg_cur m with
   | Some x => modify (set_msg (mkMessage (msg_done m) (Some (f x)) (msg_proxy m)))
   | None => throw PNil
   end)%M.
(** bufr/section.go:52-54 AddField *)
Definition AddField (f : field) : M fac unit :=
  upd_section (fun x => mkSection (sec_number x) (sec_description x) (sec_start x)
                          (sec_padding x) (sec_fields x ++ [f])).
Definition set_proxy (f : field) : M fac unit :=
  (m <- get_msg ;; modify (set_msg (SetProxyField f m)))%M.

(** deserialize/factory.go:92-95 NewMessage *)
Definition NewMessage : M fac unit := modify (set_msg (mkMessage [] None [])).
(** deserialize/factory.go:97-101 NewSection *)
Definition NewSection (number : Z) (description : string) : M fac unit :=
  (m <- get_msg ;;
   pos <- gets (fun s => r_Pos (fa_r s)) ;;
   modify (set_msg (mkMessage
     (match msg_cur m with Some x => x :: msg_done m | None => msg_done m end)
     (Some (mkSection number description (go_quot pos NBITS_PER_BYTE) 0 []))
     (msg_proxy m))))%M.

(** deserialize/factory.go:16-25 DataType; [DOther] is any other number *)
Inductive datatype : Type := DINT | DUINT | DFLOAT | DBOOL | DBYTES | DBINARY | DOther.

Section Factory.
  Variable fc : fconfig.
  Let pl := fc_plat fc.

  (** deserialize/factory.go:103-111 InitTableGroup *)
  Definition InitTableGroup (master centre sub wmo local : Z) : M fac unit := fun s =>
    match AddLocalAndWmoTableGroups (fc_fs fc) master centre sub wmo local [] with
    | (l, Ok _) => (mkFac (fa_r s) (fa_msg s) (fa_ut s) (Some (GChain l)), Ok tt)
    | (_, Err e) => (s, Err e)
    | (_, Panic p) => (s, Panic p)
    | (_, NoFuel) => (s, NoFuel)
    end.

  (** deserialize/factory.go:113-147 NewField *)
  Definition NewField (name : string) (dt : datatype) (nbits : Z) (proxy : bool) : M fac field :=
    (v <- match dt with
          | DUINT => x <- onr (r_ReadUint pl nbits) ;; ret (FUint x)
          | DINT => x <- onr (r_ReadInt pl nbits) ;; ret (FInt x)
          | DFLOAT => x <- onr (r_ReadFloat32 (fc_fuel fc)) ;; ret (FFloat x)
          | DBOOL => x <- onr r_ReadBool ;; ret (FBool x)
          | DBYTES => x <- onr (r_ReadBytes (go_quot nbits NBITS_PER_BYTE)) ;; ret (FBytes x)
          | DBINARY => x <- onr (r_ReadBinary nbits) ;; ret (FBin x)
          | DOther => fail (EMsg "unsupported data type")
          end ;;
     let f := mkField name v nbits false in
     AddField f ;;
     (if proxy then set_proxy f else ret tt) ;;
     ret f)%M.

  (** deserialize/factory.go:157-171: one template identifier.  uint arithmetic, then a
      conversion to ID (int). *)
  Definition read_id (fbits xbits ybits : Z) : M fac Z :=
    (f <- onr (r_ReadUint pl fbits) ;;
     x <- onr (r_ReadUint pl xbits) ;;
     y <- onr (r_ReadUint pl ybits) ;;
     ret (i64 (f * 100000 + x * 1000 + y)))%M.
  (** deserialize/factory.go:149-178 NewTemplateField.  [make] panics for a negative
      length, the division for idBits = 0. *)
  Definition NewTemplateField (name : string) (fbits xbits ybits : Z) (sectionLength : Z) : M fac field :=
    (pos <- gets (fun s => r_Pos (fa_r s)) ;;
     sec <- get_section ;;
     let remaining := sectionLength * NBITS_PER_BYTE - (pos - sec_start sec * NBITS_PER_BYTE) in
     let idBits := fbits + xbits + ybits in
     if idBits =? 0 then throw PDiv
     else if go_quot remaining idBits <? 0 then throw PMake
     else
       ids <- replicateM (Z.to_nat (go_quot remaining idBits)) (read_id fbits xbits ybits) ;;
       modify (fun s => mkFac (fa_r s) (fa_msg s) (Some ids) (fa_group s)) ;;
       let f := mkField name (FTemplate ids) (Z.of_nat (length ids) * idBits) false in
       AddField f ;; set_proxy f ;; ret f)%M.

  (** deserialize/factory.go:180-214 NewPayloadField (Verbose off).  A nil table group is
      dereferenced by the first Lookup; modelled as a panic whenever it is nil. *)
  Definition NewPayloadField (name : string) (nsubsets : Z) (compressed : bool) : M fac field :=
    (spos <- gets (fun s => r_Pos (fa_r s)) ;;
     g <- gets fa_group ;;
     ut <- gets fa_ut ;;
     match g, ut with
     | Some g, Some ids =>
         tree <- wrap "cannot parse template" (lift_res (snd (Parse g (fc_fuel fc) ids parser0))) ;;
         r <- gets fa_r ;;
         let cf := mkConfig compressed (fc_json fc) (fc_compatible fc) nsubsets pl (fc_fuel fc) in
         let '(vs, x) := run_payload cf tree (vst0 r) in
         modify (set_fr (v_r vs)) ;;
         lift_res x ;;
         let f := mkField name (FPayload compressed (v_pay vs)) (r_Pos (v_r vs) - spos) false in
         AddField f ;; set_proxy f ;; ret f
     | _, _ => throw PNil
     end)%M.

  (** deserialize/factory.go:216-237 Padding.  [binary.Nbits()] dereferences the nil
      pointer ReadBinary answers at the end of the stream. *)
  Definition Padding (sectionLength : Z) : M fac unit :=
    (pos <- gets (fun s => r_Pos (fa_r s)) ;;
     sec <- get_section ;;
     let padding := sectionLength * NBITS_PER_BYTE - (pos - sec_start sec * NBITS_PER_BYTE) in
     if padding =? 0 then ret tt
     else if padding <? 0 then fail (EMsg "read beyond section boundary")
     else
       upd_section (fun x => mkSection (sec_number x) (sec_description x) (sec_start x)
                               padding (sec_fields x)) ;;
       b <- wrap "cannot read padding" (onr (r_ReadBinary padding)) ;;
       match b with
       | None => throw PNil
       | Some bin => AddField (mkField "padding" (FBin (Some bin)) (Binary_Nbits bin) true)
       end)%M.

  (** deserialize/factory.go:239-245 CheckEOF.  [==] on error values: only the sentinel
      itself equals io.EOF. *)
  Definition CheckEOF : M fac bool := fun s =>
    match onr (r_PeekUint pl 0 8) s with
    | (s', Ok _) => (s', Ok false)
    | (s', Err EEof) => (s', Ok true)
    | (s', Err e) => (s', Err e)
    | (s', Panic p) => (s', Panic p)
    | (s', NoFuel) => (s', NoFuel)
    end.

  (** deserialize/factory.go:248-254 PeekEditionNumber *)
  Definition PeekEditionNumber : M fac Z := onr (r_PeekUint pl 7 8).

  (** deserialize/factory.go:256-269 SeekStartSignature; the loop is given fuel.  The error
      of the one-byte read is ignored. *)
  Definition BUFR : list Z := [66; 85; 70; 82].
  Fixpoint SeekStartSignature (fuel : nat) : M fac unit :=
    match fuel with
    | O => lift_res NoFuel
    | S k =>
        (bs <- onr (r_PeekBytes 0 4) ;;
         if (length bs <? 4)%nat then fail EEof
         else if gs_eqb bs BUFR then ret tt
         else fun s =>
           match onr (r_ReadBytes 1) s with
           | (s', Ok _) => SeekStartSignature k s'
           | (s', Err _) => SeekStartSignature k s'
           | (s', Panic p) => (s', Panic p)
           | (s', NoFuel) => (s', NoFuel)
           end)%M
    end.
End Factory.
