(** Vocabulary for C89: several runtimes in one process. *)
From Verif Require Export SpecManager SpecInterp ModelProcess.

(** A runtime: its configuration, its tables directory, its reader, and how often Run is called. *)
Record job : Type := mkJob { j_fc : fconfig; j_base : gostring; j_reader : reader; j_calls : nat }.

Section Spec.
  Variable loadB : gostring -> res tblB.
  Variable loadD : gostring -> res tblD.
  (** The tables of a directory, read from the files each time. *)
  Definition files_of (base : gostring) : tablefs :=
    mkTableFs (fun m c s v => loadB (keyB base m c s v)) (fun m c s v => loadD (keyD base m c s v)).
  Definition own_config (j : job) : fconfig :=
    mkFconfig (fc_json (j_fc j)) (fc_compatible (j_fc j)) (fc_plat (j_fc j)) (files_of (j_base j)) (fc_fuel (j_fc j)).
  (** What the runtime gives when it is alone and there is no cache. *)
  Definition by_itself (j : job) : fac * list (res message) :=
    repeated (Run (own_config j)) (j_calls j) (NewDefaultFactory (j_reader j)).
  (** The same runtime, asking the cache. *)
  Definition as_process (j : job) : proc (fac * list (res message)) :=
    p_Runs (j_base j) (j_fc j) (j_calls j) (NewDefaultFactory (j_reader j)) PRet.
End Spec.

Definition finished {A} (t : thread A) : bool := match t with TDone _ => true | _ => false end.
(** The runtime is about to read, or write, the cached Table B (D). *)
Definition accesses_B {A} (write : bool) (t : thread A) : bool :=
  match t with TB c _ => if write then writes_map c else reads_map c || writes_map c | _ => false end.
Definition accesses_D {A} (write : bool) (t : thread A) : bool :=
  match t with TD c _ => if write then writes_map c else reads_map c || writes_map c | _ => false end.
