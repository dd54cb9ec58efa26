(** C83: numbers on their way through the definition scripts. *)
From Verif Require Import ModelLua ProofsLua PropsMessage.

(** Decoding binary input, the scripts see and hand back exactly the numbers the fields
    hold: with every number turned into a Lua number and back the decoder does what it does
    without, in every outcome and from every state. *)
Theorem C83_same fc s b : fa_r s = RBit b -> l_Run fc s = Run fc s.
Proof. intros H. apply (ag_Run fc s). now exists b. Qed.
Print Assumptions C83_same.

(** What a script gets from field:value(): the number, boolean or bit string a field holds;
    an error exactly for octets, templates and payloads. *)
Theorem C83_value f s :
  lua_value f s = match f_value f with
                  | FUint u | FInt u => (s, Ok (LNum (f64_of_Z u)))
                  | FFloat x => (s, Ok (LNum x))
                  | FBool b => (s, Ok (LBool b))
                  | FBin _ => (s, Ok LUser)
                  | _ => (s, Err (EMsg "lua runtime error"))
                  end.
Proof. unfold lua_value, push_value, ret, fail, push_number. destruct (f_value f); reflexivity. Qed.
Print Assumptions C83_value.

(** A number of less than 54 bits handed to a script comes back the same where a width or a
    count is expected, and where a section length is expected if it has at most 32 bits and
    no sign. *)
Theorem C83_number pl n : Z.abs n < 2 ^ 53 ->
  to_integer pl (LNum (f64_of_Z n)) = n /\ (to_unsigned pl (LNum (f64_of_Z n)) = n <-> 0 <= n < 2 ^ 32).
Proof.
  intros H. split; [now apply integer_back|]. pose proof (unsigned_back pl n H) as E. unfold push_number in E. rewrite E.
  pose proof (Z.mod_pos_bound n (2 ^ 32) ltac:(lia)). split; [lia|]. intros K. now apply Z.mod_small.
Qed.
Print Assumptions C83_number.

(** Where a number is expected, whatever is none counts as 0, though it equals no number;
    where a boolean is expected, everything but nil and false counts as true. *)
Theorem C83_other pl v :
  ((forall x, v <> LNum x) -> to_integer pl v = 0 /\ to_unsigned pl v = 0 /\ forall n, lua_is v n = false) /\
  (to_boolean v = false <-> v = LNil \/ v = LBool false).
Proof.
  split.
  - intros H. destruct v as [|x|b|]; try (repeat split; reflexivity). now destruct (H x).
  - destruct v as [|x|[]|]; cbn; split; try discriminate; try (intros [H|H]; discriminate H); auto.
Qed.
Print Assumptions C83_other.

(** The limits are real: the field value 2^53 + 1 is another number for a script, a length
    of 2^32 + 22 is 22, and with JSON input, where lengths may be of any size, the section
    of that length is then read as one of length 22. *)
Definition js_tokens (len : Z) : list token :=
  TNum (f64_of_Z len) :: map (fun n => TNum (f64_of_Z n)) [0; 98; 0; 0] ++
  [TBool false; TStr (repeat 48 7)] ++ map (fun n => TNum (f64_of_Z n)) [0; 0; 0; 14; 0; 2012; 10; 31; 0; 0; 0].
Definition js_at (len : Z) : fac :=
  mkFac (RJson (new_jsonreader (js_tokens len) EEof)) (Some (mkMessage [] None [])) None None.
Theorem C83_limits :
  (exists u, 0 <= u < 2 ^ 64 /\ forall pl, to_integer pl (LNum (f64_of_Z u)) <> u) /\
  (exists u, 0 <= u < 2 ^ 53 /\ forall pl, to_unsigned pl (LNum (f64_of_Z u)) <> u) /\
  (exists len, ok (l_section1_4 ex_fc (js_at len)) = true /\ ok (section1_4 ex_fc (js_at len)) = false).
Proof.
  split; [|split].
  - exists (2 ^ 53 + 1). split; [lia|]. intros pl. vm_compute. discriminate.
  - exists (2 ^ 32 + 22). split; [lia|]. intros pl. vm_compute. discriminate.
  - exists (2 ^ 32 + 22). vm_compute. auto.
Qed.
Print Assumptions C83_limits.
(** Cases: a message of edition 4 decoded through Lua numbers; one with an optional section,
    whose width the script computes; one of an unknown edition. *)
Example C83_case : ok (l_Run ex_fc (on_bytes ([1; 66] ++ msg4 ++ [5]))) = true /\
  ok (l_Run ex_fc (on_bytes (firstn 30 (with_section2 6) ++ [0; 0; 6; 0; 1; 2] ++ skipn 30 msg4))) = true /\
  ok (l_Run ex_fc (on_bytes (firstn 7 msg4 ++ [2] ++ skipn 8 msg4))) = false /\
  (exists b, fa_r (on_bytes msg4) = RBit b) /\ ok (l_section1_4 ex_fc (js_at 22)) = true.
Proof. vm_compute. repeat split; eauto. Qed.
