(** Property theorem C88: the definition scripts, from their text. *)
From Verif Require Import PropsMessage PropsLua.
From Verif Require Export ProofsInterp2.

(** Initialize succeeds with the shipped scripts, whatever other files there are, and every
    module they require can be read: a local function deserialise in a table. *)
Theorem C88_compiles : forall files, has_shipped files ->
  script_Initialize files = Ok (chunk_of "boot.lua") /\ chunk_of "boot.lua" <> [] /\
  Forall (fun name => exists text body, files (module_file name) = Some text /\ parse_lua text =
    Some [SLocalFun "deserialise" [] body; SReturn (Some (ETable [(Some "deserialise", EName "deserialise")]))]%string) module_names.
Proof.
  intros files Hf. split; [|split; [vm_compute; discriminate|]].
  - unfold script_Initialize. rewrite (Hf "boot.lua"%string) by (vm_compute; discriminate). vm_compute. reflexivity.
  - pose proof modules as Hm. rewrite Forall_forall in *. intros name Hin. destruct (Hm name Hin) as (text & E1 & E2).
    exists text, (body_of (module_file name)). split; [|exact E2]. rewrite Hf, E1; [reflexivity|]. rewrite E1. discriminate.
Qed.
Print Assumptions C88_compiles.

(** One call of RunDeserializer on the text of the shipped scripts, whatever has been decoded
    before: the outcome is that of the decoder of ModelLua.v, the message returned is a new
    object which shows what was decoded, and everything older stays in place. *)
Theorem C88_same : forall fc files nt n boot s t, has_shipped files -> script_Initialize files = Ok boot -> (66 <= n)%nat ->
  same_input s (l_obj t) -> loaded_ok (l_loaded t) ->
  let '(s', x) := l_Run fc s in
  let '(t', y) := script_Run fc files nt n boot t in
  same_input s' (l_obj t') /\ loaded_ok (l_loaded t') /\ shows (l_obj t') x y /\
  (forall i, y = Ok (Some i) -> i = length (ob_msgs (l_obj t))) /\
  (exists am as_, ob_msgs (l_obj t') = ob_msgs (l_obj t) ++ am /\ ob_secs (l_obj t') = ob_secs (l_obj t) ++ as_).
Proof.
  intros fc files nt n boot s t Hf Hb Hn H L. rewrite (shipped_boot files boot Hf Hb). clear boot Hb.
  pose proof (script_Run_rel fc files nt n s t (shipped_modules files Hf) Hn H L) as R.
  destruct (l_Run fc s) as [s' x], (script_Run fc files nt n b_boot t) as [t' y]. destruct R as (R1 & R2 & R3 & R4).
  split; [exact R1|]. split; [exact R2|]. destruct x as [m|e|e|]; cbn [shows]; [destruct R4 as (-> & R4)|..]; split; eauto; (split; [|exact R3]); intros i X; congruence.
Qed.
Print Assumptions C88_same.
(** On binary input the decoder of ModelLua.v is that of ModelScript.v, which most theorems
    speak of: its messages are the messages of the scripts. *)
Theorem C88_Run : forall fc files nt n boot s t b, has_shipped files -> script_Initialize files = Ok boot -> (66 <= n)%nat ->
  same_input s (l_obj t) -> loaded_ok (l_loaded t) -> fa_r s = RBit b ->
  shows (l_obj (fst (script_Run fc files nt n boot t))) (snd (Run fc s)) (snd (script_Run fc files nt n boot t)) /\
  ob_r (l_obj (fst (script_Run fc files nt n boot t))) = fa_r (fst (Run fc s)).
Proof.
  intros fc files nt n boot s t b Hf Hb Hn H L E. pose proof (C88_same fc files nt n boot s t Hf Hb Hn H L) as R.
  rewrite (C83_same fc s b E) in R. destruct (Run fc s) as [s' x], (script_Run fc files nt n boot t) as [t' y]. cbn [fst snd].
  destruct R as ((R1 & _) & _ & R2 & _). auto.
Qed.
Print Assumptions C88_Run.
(** A whole stream from a new runtime, modules being loaded on the way: after any number of
    calls every message returned shows what the call that returned it has decoded. *)
Theorem C88_stream : forall fc files nt n boot c r, has_shipped files -> script_Initialize files = Ok boot -> (66 <= n)%nat ->
  let t := script_Runs fc files nt n boot c (new_runtime r) in
  Forall2 (shows (l_obj (fst t))) (snd (repeated (l_Run fc) c (NewDefaultFactory r))) (snd t).
Proof.
  intros fc files nt n boot c r Hf Hb Hn. rewrite (shipped_boot files boot Hf Hb). clear boot Hb.
  assert (H : same_input (NewDefaultFactory r) (l_obj (new_runtime r))) by (repeat split).
  assert (L : loaded_ok (l_loaded (new_runtime r))) by (intros ? ?; discriminate).
  assert (S : sound (l_obj (new_runtime r))) by (repeat split; cbn; [constructor|discriminate|discriminate]).
  pose proof (stream fc files nt n c Hf Hn _ _ H L S) as R.
  destruct (repeated (l_Run fc) c (NewDefaultFactory r)) as [s' xs], (script_Runs fc files nt n b_boot c (new_runtime r)) as [t' ys].
  cbn [fst snd]. apply R.
Qed.
Print Assumptions C88_stream.

(** Any scripts, the boot script included: what they do to messages and sections is a
    sequence of calls of the functions they are given ... *)
Theorem C88_any_calls : forall fc files nt n boot c s, exists cs,
  l_obj (fst (script_Runs fc files nt n boot c s)) = fst (apis fc cs (l_obj s)).
Proof. exact does_script_Runs. Qed.
Print Assumptions C88_any_calls.
(** ... so they take nothing away and leave all pointers valid. *)
Theorem C88_any_append_only : forall fc files nt n boot c s,
  more (l_obj s) (l_obj (fst (script_Runs fc files nt n boot c s))) /\
  (sound (l_obj s) -> sound (l_obj (fst (script_Runs fc files nt n boot c s)))).
Proof.
  intros fc files nt n boot c s. destruct (does_script_Runs fc files nt n boot c s) as (cs & ->).
  split; [apply apis_more|apply apis_sound].
Qed.
Print Assumptions C88_any_append_only.
(** The bound of the model on nesting does not show: once a run has an outcome, it has the same
    with any larger bound. *)
Theorem C88_bound : forall fc files nt n n' boot s, (n <= n')%nat -> snd (script_Run fc files nt n boot s) <> NoFuel ->
  script_Run fc files nt n' boot s = script_Run fc files nt n boot s.
Proof. exact script_Run_mono. Qed.
Print Assumptions C88_bound.

(** Two messages, decoded by interpreting the text of the scripts; the modules of edition 3
    are not loaded.  And a script that is not shipped: it numbers a section by arithmetic. *)
Definition two_runs := script_Runs ex_fc shipped_scripts (fun _ => "?"%string) 70 b_boot 3
  (new_runtime (RBit (new_bitreader (msg4 ++ msg4) EEof))).
Definition custom (path : string) : option string :=
  if String.eqb path "boot.lua" then Some "local m = factory.newMessage() -- mine
local s = factory.newSection(2 * 3 + 1, 'x')
factory.newField{'a', BYTES, 32}
if s:getField('a'):isMissing() then error('missing') else return m end"%string else shipped_scripts path.
Example C88_example :
  snd two_runs = [Ok (Some 0%nat); Ok (Some 1%nat); Err (EWrap "cannot peek bytes" EEof)] /\
  map fst (l_loaded (fst two_runs)) = ["common.section5"; "common.section4"; "common.section3"; "common.section2"; "bufr4.section1"; "common.section0"; "bufr4.bufr4"]%string /\
  option_map (fun x => length (snd (fst x))) (seen (l_obj (fst two_runs)) 1) = Some 5%nat /\
  match script_Initialize custom with
  | Ok boot =>
      match script_Run ex_fc custom (fun _ => "?"%string) 70 boot (new_runtime (RBit (new_bitreader msg4 EEof))) with
      | (t, Ok (Some i)) => option_map (fun x => map (option_map (fun y => (sec_number y, length (sec_fields y)))) (snd (fst x))) (seen (l_obj t) i) = Some [Some (7, 1%nat)]
      | _ => False
      end
  | _ => False
  end /\
  has_shipped shipped_scripts.
Proof. split; [|split; [|split; [|split]]]; [vm_compute; reflexivity..|intros ? _; reflexivity]. Qed.
