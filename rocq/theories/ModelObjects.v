(** Messages and sections as the objects they are.

    ModelFactory.v keeps the message that is being built as one value.  In the program a
    message is a pointer that scripts and callers keep, sections are pointers inside it, and
    the factory remembers the current section apart from the current message
    (deserialize/factory.go:69-82).  Here both live in a store; fields, which nobody changes
    once they exist, stay values (a nil *Field is [None]). *)
From Verif Require Export ModelScript.

(** bufr/message.go:10-22 Message; [hm_path] is its only metadata (67-77), [hm_secs] are
    pointers. *)
Record hmsg : Type := mkHmsg { hm_path : string; hm_secs : list nat; hm_proxy : list (string * field) }.
(** deserialize/factory.go:69-82 DefaultFactory with the store of all messages and sections
    ever made; a pointer is an index. *)
Record obj : Type := mkObj {
  ob_r : reader; ob_msgs : list hmsg; ob_secs : list section;
  ob_msg : option nat; ob_sec : option nat; ob_ut : option (list Z); ob_group : option group }.

Fixpoint update {A} (i : nat) (f : A -> A) (l : list A) : list A :=
  match l, i with
  | [], _ => []
  | x :: l', O => f x :: l'
  | x :: l', S i' => x :: update i' f l'
  end.
Definition o_set_r (r : reader) (h : obj) : obj :=
  mkObj r (ob_msgs h) (ob_secs h) (ob_msg h) (ob_sec h) (ob_ut h) (ob_group h).
Definition o_upd_msg (i : nat) (f : hmsg -> hmsg) (h : obj) : obj :=
  mkObj (ob_r h) (update i f (ob_msgs h)) (ob_secs h) (ob_msg h) (ob_sec h) (ob_ut h) (ob_group h).
Definition o_upd_sec (i : nat) (f : section -> section) (h : obj) : obj :=
  mkObj (ob_r h) (ob_msgs h) (update i f (ob_secs h)) (ob_msg h) (ob_sec h) (ob_ut h) (ob_group h).
Definition o_onr {A} (m : M reader A) : M obj A := zoom ob_r o_set_r m.

(** A pointer that is dereferenced. *)
Definition deref {A} (store : obj -> list A) (p : option nat) : M obj (nat * A) := fun h =>
  match p with
  | Some i => match nth_error (store h) i with Some x => (h, Ok (i, x)) | None => (h, Panic PNil) end
  | None => (h, Panic PNil)
  end.

(** bufr/message.go:50-52 SetProxyField *)
Definition o_SetProxyField (m : option nat) (f : field) : M obj unit :=
  (x <- deref ob_msgs m ;;
   modify (o_upd_msg (fst x) (fun y => mkHmsg (hm_path y) (hm_secs y) ((f_name f, f) :: hm_proxy y))))%M.
(** bufr/message.go:54-60 ProxyField *)
Definition o_ProxyField (m : option nat) (name : string) : M obj field :=
  (x <- deref ob_msgs m ;;
   match proxy_get name (hm_proxy (snd x)) with
   | Some f => ret f
   | None => fail (EMsg "no proxy field named")
   end)%M.
(** bufr/section.go:52-54 AddField *)
Definition o_AddField (s : option nat) (f : field) : M obj unit :=
  (x <- deref ob_secs s ;;
   modify (o_upd_sec (fst x) (fun y => mkSection (sec_number y) (sec_description y) (sec_start y)
                                         (sec_padding y) (sec_fields y ++ [f]))))%M.

(** deserialize/factory.go:88-90 Message *)
Definition o_Message : M obj (option nat) := gets ob_msg.
(** deserialize/factory.go:92-95 NewMessage, bufr/message.go:67-77: the current section stays
    what it was. *)
Definition o_NewMessage (path : string) : M obj nat := fun h =>
  (mkObj (ob_r h) (ob_msgs h ++ [mkHmsg path [] []]) (ob_secs h) (Some (length (ob_msgs h))) (ob_sec h)
     (ob_ut h) (ob_group h), Ok (length (ob_msgs h))).
(** deserialize/factory.go:97-101 NewSection, bufr/message.go:44-48 *)
Definition o_NewSection (number : Z) (description : string) : M obj nat :=
  (p <- gets ob_msg ;;
   x <- deref ob_msgs p ;;
   fun h =>
     let s := length (ob_secs h) in
     (mkObj (ob_r h)
        (update (fst x) (fun y => mkHmsg (hm_path y) (hm_secs y ++ [s]) (hm_proxy y)) (ob_msgs h))
        (ob_secs h ++ [mkSection number description (go_quot (r_Pos (ob_r h)) NBITS_PER_BYTE) 0 []])
        (ob_msg h) (Some s) (ob_ut h) (ob_group h), Ok s))%M.
Definition o_add (f : field) : M obj unit := (s <- gets ob_sec ;; o_AddField s f)%M.
Definition o_proxy (f : field) : M obj unit := (m <- gets ob_msg ;; o_SetProxyField m f)%M.

Section Objects.
  Variable fc : fconfig.
  Let pl := fc_plat fc.

  (** deserialize/factory.go:103-111 InitTableGroup *)
  Definition o_InitTableGroup (master centre sub wmo local : Z) : M obj unit := fun h =>
    match AddLocalAndWmoTableGroups (fc_fs fc) master centre sub wmo local [] with
    | (l, Ok _) => (mkObj (ob_r h) (ob_msgs h) (ob_secs h) (ob_msg h) (ob_sec h) (ob_ut h) (Some (GChain l)), Ok tt)
    | (_, Err e) => (h, Err e)
    | (_, Panic p) => (h, Panic p)
    | (_, NoFuel) => (h, NoFuel)
    end.
  (** deserialize/factory.go:113-147 NewField *)
  Definition o_NewField (name : string) (dt : datatype) (nbits : Z) (proxy : bool) : M obj field :=
    (v <- match dt with
          | DUINT => x <- o_onr (r_ReadUint pl nbits) ;; ret (FUint x)
          | DINT => x <- o_onr (r_ReadInt pl nbits) ;; ret (FInt x)
          | DFLOAT => x <- o_onr (r_ReadFloat32 (fc_fuel fc)) ;; ret (FFloat x)
          | DBOOL => x <- o_onr r_ReadBool ;; ret (FBool x)
          | DBYTES => x <- o_onr (r_ReadBytes (go_quot nbits NBITS_PER_BYTE)) ;; ret (FBytes x)
          | DBINARY => x <- o_onr (r_ReadBinary nbits) ;; ret (FBin x)
          | DOther => fail (EMsg "unsupported data type")
          end ;;
     let f := mkField name v nbits false in
     o_add f ;;
     (if proxy then o_proxy f else ret tt) ;;
     ret f)%M.
  (** deserialize/factory.go:149-178 NewTemplateField *)
  Definition o_read_id (fbits xbits ybits : Z) : M obj Z :=
    (f <- o_onr (r_ReadUint pl fbits) ;;
     x <- o_onr (r_ReadUint pl xbits) ;;
     y <- o_onr (r_ReadUint pl ybits) ;;
     ret (i64 (f * 100000 + x * 1000 + y)))%M.
  Definition o_NewTemplateField (name : string) (fbits xbits ybits : Z) (sectionLength : Z) : M obj field :=
    (pos <- gets (fun h => r_Pos (ob_r h)) ;;
     p <- gets ob_sec ;;
     sec <- deref ob_secs p ;;
     let remaining := sectionLength * NBITS_PER_BYTE - (pos - sec_start (snd sec) * NBITS_PER_BYTE) in
     let idBits := fbits + xbits + ybits in
     if idBits =? 0 then throw PDiv
     else if go_quot remaining idBits <? 0 then throw PMake
     else
       ids <- replicateM (Z.to_nat (go_quot remaining idBits)) (o_read_id fbits xbits ybits) ;;
       modify (fun h => mkObj (ob_r h) (ob_msgs h) (ob_secs h) (ob_msg h) (ob_sec h) (Some ids) (ob_group h)) ;;
       let f := mkField name (FTemplate ids) (Z.of_nat (length ids) * idBits) false in
       o_add f ;; o_proxy f ;; ret f)%M.
  (** deserialize/factory.go:180-214 NewPayloadField *)
  Definition o_NewPayloadField (name : string) (nsubsets : Z) (compressed : bool) : M obj field :=
    (spos <- gets (fun h => r_Pos (ob_r h)) ;;
     g <- gets ob_group ;;
     ut <- gets ob_ut ;;
     match g, ut with
     | Some g, Some ids =>
         tree <- wrap "cannot parse template" (lift_res (snd (Parse g (fc_fuel fc) ids parser0))) ;;
         r <- gets ob_r ;;
         let cf := mkConfig compressed (fc_json fc) (fc_compatible fc) nsubsets pl (fc_fuel fc) in
         let '(vs, x) := run_payload cf tree (vst0 r) in
         modify (o_set_r (v_r vs)) ;;
         lift_res x ;;
         let f := mkField name (FPayload compressed (v_pay vs)) (r_Pos (v_r vs) - spos) false in
         o_add f ;; o_proxy f ;; ret f
     | _, _ => throw PNil
     end)%M.
  (** deserialize/factory.go:216-237 Padding *)
  Definition o_Padding (sectionLength : Z) : M obj unit :=
    (pos <- gets (fun h => r_Pos (ob_r h)) ;;
     p <- gets ob_sec ;;
     sec <- deref ob_secs p ;;
     let padding := sectionLength * NBITS_PER_BYTE - (pos - sec_start (snd sec) * NBITS_PER_BYTE) in
     if padding =? 0 then ret tt
     else if padding <? 0 then fail (EMsg "read beyond section boundary")
     else
       modify (o_upd_sec (fst sec) (fun x => mkSection (sec_number x) (sec_description x) (sec_start x)
                                               padding (sec_fields x))) ;;
       b <- wrap "cannot read padding" (o_onr (r_ReadBinary padding)) ;;
       match b with
       | None => throw PNil
       | Some bin => o_add (mkField "padding" (FBin (Some bin)) (Binary_Nbits bin) true)
       end)%M.
  (** deserialize/factory.go:248-254 PeekEditionNumber *)
  Definition o_PeekEditionNumber : M obj Z := o_onr (r_PeekUint pl 7 8).
  (** deserialize/factory.go:256-269 SeekStartSignature *)
  Fixpoint o_SeekStartSignature (fuel : nat) : M obj unit :=
    match fuel with
    | O => lift_res NoFuel
    | S k =>
        (bs <- o_onr (r_PeekBytes 0 4) ;;
         if (length bs <? 4)%nat then fail EEof
         else if gs_eqb bs BUFR then ret tt
         else fun h =>
           match o_onr (r_ReadBytes 1) h with
           | (h', Ok _) => o_SeekStartSignature k h'
           | (h', Err _) => o_SeekStartSignature k h'
           | (h', Panic p) => (h', Panic p)
           | (h', NoFuel) => (h', NoFuel)
           end)%M
    end.

  (** ** The calls a definition script can make *)

  (** api/libdeserializer.go:145-158, api/objmessage.go:50-54, api/objsection.go:33-36,
      api/objfield.go:46-50, and SeekStartSignature of scriptrt.go:70.  [c_m], [c_s], [c_f]:
      the objects the script passes, nil or not.  __tostring reads only and is left out. *)
  Inductive call : Type :=
  | CGetMessage | CNewMessage (path : string) | CNewSection (number : Z) (description : string)
  | CInitTables (master centre sub wmo local : Z)
  | CNewField (name : string) (dt : datatype) (nbits : Z) (proxy : bool)
  | CNewTemplateField (name : string) (fbits xbits ybits len : Z)
  | CNewPayloadField (name : string) (nsubsets : Z) (compressed : bool)
  | CPadding (len : Z) | CPeekEditionNumber | CSeek
  | CSetProxyField (c_m : option nat) (c_f : option field) | CGetProxyField (c_m : option nat) (name : string)
  | CGetField (c_s : option nat) (name : string) | CGetNumberOfFields (c_s : option nat)
  | CValue (c_f : option field) | CIsMissing (c_f : option field).
  (** What a call gives to the script. *)
  Inductive answer : Type :=
  | ANothing | AMessage (m : option nat) | ASection (s : nat) | AField (f : option field)
  | AValue (v : fvalue) | ANumber (n : Z) | ABool (b : bool).

  Definition returning {A} (f : A -> answer) (m : M obj A) : M obj answer := (x <- m ;; ret (f x))%M.
  Definition field_deref (f : option field) : M obj field :=
    match f with Some x => ret x | None => throw PNil end.
  Definition api (c : call) : M obj answer :=
    match c with
    | CGetMessage => returning AMessage o_Message
    | CNewMessage path => returning (fun i => AMessage (Some i)) (o_NewMessage path)
    | CNewSection n d => returning ASection (o_NewSection n d)
    | CInitTables a b c d e => returning (fun _ => ANothing) (o_InitTableGroup a b c d e)
    | CNewField name dt nbits proxy => returning (fun f => AField (Some f)) (o_NewField name dt nbits proxy)
    | CNewTemplateField name f x y len => returning (fun f => AField (Some f)) (o_NewTemplateField name f x y len)
    | CNewPayloadField name n c => returning (fun f => AField (Some f)) (o_NewPayloadField name n c)
    | CPadding len => returning (fun _ => ANothing) (o_Padding len)
    | CPeekEditionNumber => returning ANumber o_PeekEditionNumber
    | CSeek => returning (fun _ => ANothing) (o_SeekStartSignature (fc_fuel fc))
    | CSetProxyField m f => returning (fun _ => ANothing) (x <- field_deref f ;; o_SetProxyField m x)
    | CGetProxyField m name => returning (fun f => AField (Some f)) (o_ProxyField m name)
    | CGetField s name =>
        returning AField (x <- deref ob_secs s ;; ret (find_field name (sec_fields (snd x))))
    | CGetNumberOfFields s =>
        returning ANumber (x <- deref ob_secs s ;; ret (Z.of_nat (length (sec_fields (snd x)))))
    | CValue f =>
        (x <- field_deref f ;;
         match f_value x with
         | FBytes _ | FTemplate _ | FPayload _ _ => fail (EMsg "simple value push not implemented")
         | v => ret (AValue v)
         end)
    | CIsMissing f => returning ABool (x <- field_deref f ;; ret (field_IsMissing x))
    end%M.
  (** Any number of calls, whatever they return: a script may catch errors. *)
  Fixpoint apis (cs : list call) (h : obj) : obj * list (res answer) :=
    match cs with
    | [] => (h, [])
    | c :: cs' => let '(h1, x) := api c h in let '(h2, xs) := apis cs' h1 in (h2, x :: xs)
    end.
End Objects.

(** ** The shipped scripts, over whatever the calls do

    The text of ModelScript.v once more, with the operations as parameters, to be run on
    objects.  ([generic_boot] below: with the operations of ModelScript.v it is [boot].) *)
Section Generic.
  Variable S : Type.
  Variable gNewMessage : M S unit.
  Variable gNewSection : Z -> string -> M S unit.
  Variable gNewField : string -> datatype -> Z -> bool -> M S field.
  Variable gTemplate : string -> Z -> Z -> Z -> Z -> M S field.
  Variable gPayload : string -> Z -> bool -> M S field.
  Variable gPadding : Z -> M S unit.
  Variable gInit : Z -> Z -> Z -> Z -> Z -> M S unit.
  Variable gPeek : M S Z.
  Variable gProxy : string -> M S field.

  Definition g_call {A} (m : M S A) : M S A := fun s =>
    match m s with
    | (s', Err _) => (s', Err (EMsg "lua runtime error"))
    | r => r
    end.
  Definition g_number (f : field) : M S Z :=
    match f_value f with
    | FUint u => ret u
    | FInt i => ret i
    | _ => fail (EMsg "lua runtime error")
    end.
  Definition g_bool (f : field) : M S bool :=
    match f_value f with
    | FBool b => ret b
    | FUint _ | FInt _ | FFloat _ | FBin _ => ret true
    | _ => fail (EMsg "lua runtime error")
    end.
  Definition g_proxy_number (name : string) : M S Z := (f <- g_call (gProxy name) ;; g_number f)%M.
  Definition g_proxy_bool (name : string) : M S bool := (f <- g_call (gProxy name) ;; g_bool f)%M.
  Definition g_field (name ty : string) (nbits : Z) (proxy : bool) : M S field :=
    g_call (gNewField name (lua_to_datatype (lua_datatype ty)) nbits proxy).
  Definition g_field_ (name ty : string) (nbits : Z) (proxy : bool) : M S unit :=
    (g_field name ty nbits proxy ;; ret tt)%M.
  Definition g_fields (l : list (string * string * Z * bool)) (k : M S unit) : M S unit :=
    fold_right (fun '(name, ty, nbits, proxy) rest => (g_field_ name ty nbits proxy ;; rest)%M) k l.

  (** _definitions/common/section0.lua *)
  Definition g_section0 : M S unit :=
    (gNewSection 0 "Indicator Section" ;;
     g_field_ "startSignature" "BYTES" 32 false ;;
     g_field_ "totalLengthInBytes" "UINT" 24 true ;;
     g_field_ "bufrEditionNumber" "UINT" 8 true)%M.
  (** _definitions/bufr4/section1.lua *)
  Definition g_section1_4 : M S unit :=
    (gNewSection 1 "Identification Section" ;;
     len <- g_field "lengthInBytes" "UINT" 24 false ;;
     g_fields [("masterTableNumber", "UINT", 8, true); ("originatingCentre", "UINT", 16, true);
               ("originatingSubCentre", "UINT", 16, true); ("updateSequenceNumber", "UINT", 8, true);
               ("isSection2Presents", "BOOL", 1, true); ("flagBits", "BINARY", 7, false);
               ("dataCategory", "UINT", 8, true); ("dataI18nSubCategory", "UINT", 8, true);
               ("dataLocalSubCategory", "UINT", 8, true); ("masterTableVersion", "UINT", 8, true);
               ("localTableVersion", "UINT", 8, true); ("year", "UINT", 16, true);
               ("month", "UINT", 8, true); ("day", "UINT", 8, true); ("hour", "UINT", 8, true);
               ("minute", "UINT", 8, true); ("second", "UINT", 8, true)]
       (l <- g_number len ;; g_call (gPadding l)))%M%string.
  (** _definitions/bufr3/section1.lua *)
  Definition g_section1_3 : M S unit :=
    (gNewSection 1 "Identification Section" ;;
     len <- g_field "lengthInBytes" "UINT" 24 false ;;
     g_fields [("masterTableNumber", "UINT", 8, true); ("originatingSubCentre", "UINT", 8, true);
               ("originatingCentre", "UINT", 8, true); ("updateSequenceNumber", "UINT", 8, true);
               ("isSection2Presents", "BOOL", 1, true); ("flagBits", "BIN", 7, false);
               ("dataCategory", "UINT", 8, true); ("dataLocalSubCategory", "UINT", 8, true);
               ("masterTableVersion", "UINT", 8, true); ("localTableVersion", "UINT", 8, true);
               ("year", "UINT", 8, true); ("month", "UINT", 8, true); ("day", "UINT", 8, true);
               ("hour", "UINT", 8, true); ("minute", "UINT", 8, true); ("second", "UINT", 8, true)]
       (l <- g_number len ;; g_call (gPadding l)))%M%string.
  (** _definitions/common/section2.lua *)
  Definition g_section2 : M S unit :=
    (gNewSection 2 "Optional Section" ;;
     len <- g_field "lengthInBytes" "UINT" 24 false ;;
     g_field_ "reservedBits" "BINARY" 8 false ;;
     l <- g_number len ;;
     g_field_ "localBits" "BINARY" ((l - 4) * NBITS_PER_BYTE) false)%M.
  (** _definitions/common/section3.lua *)
  Definition g_section3 : M S unit :=
    (gNewSection 3 "Data Description Section" ;;
     len <- g_field "lengthInBytes" "UINT" 24 false ;;
     g_field_ "reservedBits" "BIN" 8 false ;;
     g_field_ "nSubsets" "UINT" 16 true ;;
     g_field_ "isObservation" "BOOL" 1 true ;;
     g_field_ "isCompressed" "BOOL" 1 true ;;
     g_field_ "flagBits" "BIN" 6 false ;;
     l <- g_number len ;;
     g_call (gTemplate "unexpandedTemplate" 2 6 8 l) ;;
     g_call (gPadding l))%M.
  (** _definitions/common/section4.lua *)
  Definition g_section4 : M S unit :=
    (gNewSection 4 "Data Section" ;;
     len <- g_field "lengthInBytes" "UINT" 24 false ;;
     g_field_ "reservedBits" "BIN" 8 false ;;
     n <- g_proxy_number "nSubsets" ;;
     c <- g_proxy_bool "isCompressed" ;;
     g_call (gPayload "payload" n c) ;;
     l <- g_number len ;; g_call (gPadding l))%M.
  (** _definitions/common/section5.lua *)
  Definition g_section5 : M S unit :=
    (gNewSection 5 "End Section" ;;
     g_field_ "stopSignature" "BYTES" 32 false)%M.
  (** _definitions/bufr4/bufr4.lua, _definitions/bufr3/bufr3.lua: the script's variable
      [message] is the current message, for it calls newMessage once. *)
  Definition g_deserialise (section1 : M S unit) : M S unit :=
    (gNewMessage ;;
     g_section0 ;;
     section1 ;;
     s2 <- g_proxy_bool "isSection2Presents" ;;
     (if s2 : bool then g_section2 else ret tt) ;;
     g_section3 ;;
     master <- g_proxy_number "masterTableNumber" ;;
     centre <- g_proxy_number "originatingCentre" ;;
     sub <- g_proxy_number "originatingSubCentre" ;;
     wmo <- g_proxy_number "masterTableVersion" ;;
     local <- g_proxy_number "localTableVersion" ;;
     g_call (gInit master centre sub wmo local) ;;
     g_section4 ;;
     g_section5)%M.
  (** _definitions/boot.lua *)
  Definition g_boot : M S unit :=
    (ed <- g_call gPeek ;;
     if ed =? 4 then g_deserialise g_section1_4
     else if ed =? 3 then g_deserialise g_section1_3
     else fail (EMsg "lua runtime error"))%M.
End Generic.

Definition f_boot (fc : fconfig) : M fac unit :=
  g_boot fac NewMessage NewSection (NewField fc) (NewTemplateField fc) (NewPayloadField fc) Padding (InitTableGroup fc)
    (PeekEditionNumber fc) (fun name => (m <- get_msg ;; lift_res (ProxyField m name))%M).
Lemma generic_boot fc : f_boot fc = boot fc.
Proof. reflexivity. Qed.

(** The scripts on objects; NewMessage is called without a path (bufr4.lua:9, bufr3.lua:9),
    which ToString (libdeserializer.go:20) turns into the empty string. *)
Definition o_boot (fc : fconfig) : M obj unit :=
  g_boot obj (o_NewMessage "" ;; ret tt)%M (fun n d => (o_NewSection n d ;; ret tt)%M) (o_NewField fc) (o_NewTemplateField fc)
    (o_NewPayloadField fc) o_Padding (o_InitTableGroup fc) (o_PeekEditionNumber fc)
    (fun name => (m <- gets ob_msg ;; o_ProxyField m name)%M).
(** api/scriptrt.go:69-84 RunDeserializer, runtime.go:51-53 Run: a pointer is returned. *)
Definition o_Run (fc : fconfig) : M obj nat :=
  (o_SeekStartSignature (fc_fuel fc) ;; o_boot fc ;; p <- gets ob_msg ;; m <- deref ob_msgs p ;; ret (fst m))%M.
(** [n] calls of Run, whatever they return. *)
Fixpoint o_Runs (fc : fconfig) (n : nat) (h : obj) : obj * list (res nat) :=
  match n with
  | O => (h, [])
  | S k => let '(h1, x) := o_Run fc h in let '(h2, l) := o_Runs fc k h1 in (h2, x :: l)
  end.
(** deserialize/factory.go:84-86 *)
Definition o_New (r : reader) : obj := mkObj r [] [] None None None None.
