(** Vocabulary for C87: what one sees of a message one holds. *)
From Verif Require Export ModelObjects.

(** Path, sections and proxy fields of the message at address [i]. *)
Definition seen (h : obj) (i : nat) : option (string * list (option section) * list (string * field)) :=
  match nth_error (ob_msgs h) i with
  | Some m => Some (hm_path m, map (fun s => nth_error (ob_secs h) s) (hm_secs m), hm_proxy m)
  | None => None
  end.
(** All pointers point to something. *)
Definition sound (h : obj) : Prop :=
  Forall (fun m => Forall (fun s => (s < length (ob_secs h))%nat) (hm_secs m)) (ob_msgs h) /\
  (forall i, ob_msg h = Some i -> (i < length (ob_msgs h))%nat) /\
  (forall i, ob_sec h = Some i -> (i < length (ob_secs h))%nat).
(** Nothing is taken back: sections only get more fields, messages more sections and proxy
    fields (the latest first). *)
Definition more_section (a b : section) : Prop :=
  sec_number b = sec_number a /\ sec_description b = sec_description a /\ sec_start b = sec_start a /\
  exists fs, sec_fields b = sec_fields a ++ fs.
Definition more_message (a b : hmsg) : Prop :=
  hm_path b = hm_path a /\ (exists ss, hm_secs b = hm_secs a ++ ss) /\ (exists ps, hm_proxy b = ps ++ hm_proxy a).
Definition more (h h' : obj) : Prop :=
  (forall i m, nth_error (ob_msgs h) i = Some m -> exists m', nth_error (ob_msgs h') i = Some m' /\ more_message m m') /\
  (forall i s, nth_error (ob_secs h) i = Some s -> exists s', nth_error (ob_secs h') i = Some s' /\ more_section s s').
(** The two models of the decoder in the same situation, between two messages. *)
Definition same_input (s : fac) (h : obj) : Prop :=
  fa_r s = ob_r h /\ fa_ut s = ob_ut h /\ fa_group s = ob_group h.
(** The messages a script has set proxy fields of by itself (message:setProxyField). *)
Definition touched (cs : list call) (i : nat) : Prop := exists f, In (CSetProxyField (Some i) f) cs.
