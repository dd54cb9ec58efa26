# Formal model of gobufrkit in Rocq — design and trusted base

The model lives in `rocq/theories`. It is written by reading `/repo` (Go and Lua sources) as
text; nothing from `/repo` is compiled or run here.

## 1. How the code is represented

* **Outcomes.** A Go call returns a `res`: `Ok v` (nil error), `Err e` (error value, with
  `io.EOF`, not-exist errors and `%w` wrapping kept apart), `Panic p` (run-time panic and its
  cause), `NoFuel` (only for functions that take explicit fuel: "no answer yet").
* **State.** Stateful objects (readers, parser, visitor, factory) are records; methods are
  `M S A := S -> S * res A`. The state is kept for every outcome, since what a failed call
  leaves behind is observable.
* **Integers.** `Z`. Go's truncating `/` and `%` are `Z.quot`/`Z.rem`. 64-bit wrap-around is
  written out (`u64`, `i64`) where the code can reach it.
* **Floats.** IEEE binary64 as `Coq.Floats.SpecFloat.spec_float` (prec 53, emax 1024):
  computable, axiom free. `math.Pow10` is modelled by its table algorithm with correctly
  rounded literals. Out-of-range float to integer conversions are platform-defined in Go and
  are a parameter (`platform`) of the model.
* **Slices/maps/pointers.** Lists; maps are association lists or functions; the BUFR node graph
  (shared, mutable nodes) is a heap `list` indexed by position.
* **Data-dependent loops.** Replication counts iterate by binary recursion on `positive`
  (`iter_Z`), never unary numbers.
* **Recursion without a structural argument** (sequence expansion through Table D) uses fuel;
  theorems state independence of fuel or exclude `NoFuel` explicitly.
* **Concurrency.** The table cache is a small-step state machine; a theorem ranges over all
  interleavings (`rtc`-style reachability defined in the file).

## 2. Files

| File | Content |
|---|---|
| `Base.v` | outcomes, monad, Go arithmetic |
| `ModelBits.v` | bit reader/writer, peeking (`tdcfio/bitreader.go`, `bitwriter.go`) |
| `ModelSink.v` | the bit writer on an io.Writer with limited room; `WriteFloat32` |
| `ModelBinary.v` | `tdcfio/binary.go` |
| `ModelJson.v` | `tdcfio/flatjsonreader.go` |
| `ModelReader.v` | the `tdcfio.Reader` interface: dispatch bit/JSON |
| `ModelTable.v` | `table/descriptor.go`, `table.go`, `group.go` |
| `ModelTemplate.v` | `table/template.go` |
| `ModelManager.v` | `table/manager.go` |
| `ModelAst.v` / `ModelParser.v` | `deserialize/ast/*` (nodes, dump, lint), `deserialize/parser/*` |
| `ModelFloat.v` | float64 operations used by the decoder |
| `ModelUnpack.v` | `deserialize/unpack/*`, `bufr/field.go`, `bufr/cell.go` |
| `ModelPayload.v` | `deserialize/payload/*`, `bufr/node.go`, `bufr/payload.go` |
| `ModelFactory.v` | `deserialize/factory.go`, `bufr/message.go`, `section.go` |
| `ModelMarshal.v` | the `MarshalJSON` methods (`bufr/cell.go`, `payload.go`, `field.go`, `section.go`, `message.go`, `table/template.go`) |
| `ModelScript.v` | `_definitions/**/*.lua`, `api/*`, `runtime.go` |
| `ModelLua.v` | the scripts and the binding layer once more, with Lua values (float64 numbers) crossing between them |
| `SpecBits.v` | bit strings, calls, written items (C01-C10) |
| `SpecParser.v` | grammar of templates: `parses`, `parsed`, `right_kind`, `documented` (C24-C30) |
| `SpecUnpack.v` | what an element's bits mean; columns of compressed data (C31-C36) |
| `SpecRun.v` | executing a template as a relation on histories (C37-C49) |
| `SpecMessage.v` | sections and messages as byte layouts (C50-C57, C60) |
| `SpecCell.v` | rational numbers behind floats, rounding (C61) |
| `SpecAst.v` | dump lines, lint (C63, C64) |
| `SpecCompat.v` | what compatible mode adds (C62) |
| `SpecSafe.v` | plain templates; for each way of breaking down, what a template needs for it (C65) |
| `SpecPack.v` | raw data, their packing, trees of data for a template (C34, C59) |
| `SpecMarshal.v` | the JSON form of values and payloads, base64; the values that are read back as the same (C58) |
| `SpecTree.v` | executions with the links they make between values (C67) |
| `ModelNames.v` | String methods: operators, event codes, units, data types, descriptors, nodes, templates |
| `ModelText.v`, `SpecText.v` | Cell.String, the printed line of a value (C84) |
| `ModelWalkers.v`, `SpecWalkers.v` | the goroutines and channels of a template walk; what its caller sees (C86) |
| `ModelObjects.v`, `SpecObjects.v` | messages and sections as objects in a store, the calls a definition script can make on them, Run on them; what one sees of a message one holds (C87) |
| `GenScripts.v` | the text of the shipped scripts, generated by `tools/gen_scripts.py` from `_definitions` |
| `ModelLuaText.v`, `ModelInterp.v`, `SpecInterp.v` | reading and running the part of Lua the scripts are written in, on the objects of `ModelObjects.v` (C88) |
| `ModelProcess.v`, `SpecProcess.v` | several runtimes in one process, sharing the table cache (C89) |
| `ModelBufio.v`, `SpecBufio.v` | the bit reader on bytes that arrive in pieces, through `bufio.Reader`; programs over the operations of a reader (C90) |
| `SpecHierarchy.v` | walks from member to member in the node tree of a subset (C92) |
| `ModelRuntime.v` | the runtime object and the values its calls put on the Lua stack (C85) |
| `SpecNames.v` | the declared names; what an enumerated value prints (C70, C71) |
| `ModelShipped.v` | the rows of the shipped tables, generated by `tools/gen_tables.py` from `_definitions/tables` |
| `SpecShipped.v` | files and groups with these rows, templates composed of them, what their units mean (C72-C75) |
| `SpecDelayed.v` | replication factors inside bitmap operators (C76) |
| `SpecRobust.v` | the ways decoding a byte string can end; harmless templates; usable tables (C77) |
| `SpecReader.v` | the calls of the reader interface and what bits or JSON scalars mean for them (C79) |
| `SpecSink.v` | writes on a limited output, rounding to single precision (C81, C82) |
| `SpecPlan.v` | layouts: the data a template of any kind asks for (C69) |
| `SpecColumns.v` | compressed columns of any kind and the values they mean (C69) |
| `SpecWhole.v` | the contents of a whole message, how it is written, what decoding should show (C68) |
| `SpecOnly.v` | what the data section of a decoded message must have contained (C68, converse) |
| other `Spec*.v` | vocabulary of the remaining property files |
| `Demo.v` | a small table group for the examples |
| `Proofs*.v` | lemmas |
| `Props*.v` | the property theorems with `Print Assumptions` and examples |

The central link is `ProofsRun6.v`: `run_payload_sound` and `run_payload_complete` say that the
visitor of `ModelPayload.v` (registers, builders, trees) decodes a payload exactly when the
relation `executes` of `SpecRun.v` relates the template, the bits and the histories shown by the
subsets. Most payload theorems are proved on histories and carried over.

## 3. Properties: what is modelled and how it is proved

"refuted" means: the statement is false of the faithful model; a theorem `..._refuted` exhibits
a witness and, where sensible, a further theorem proves the strongest true variant. The state of
each claim is in `MANIFEST.json`.

| Id | Approach |
|---|---|
| C01 | List-of-bits reader; induction over the call list: state after k calls = skipn of the sum of widths; value = `msb` of slice. |
| C02 | Same induction on `pos`; inequality for failures. |
| C03 | Writer appends `enc v`; reader lemma `read (enc v ++ rest)`; induction over list. |
| C04 | `pack_bytes` length and content lemma. |
| C05 | Case analysis over sign, arithmetic on 2^(n-1). |
| C06 | `peek` is a function of the state returning no state; equality with read on shifted state. |
| C07 | iff lemma per read. |
| C08 | refuted: empty stream, `Ok None`. Characterisation: returns `Ok None` exactly when short. |
| C09 | String as list of bytes; induction by blocks of eight. |
| C10 | refuted: loop modelled with fuel; for every fuel the result is `NoFuel`. |
| C11 | Token list model; induction over call list. |
| C12 | refuted for `null` tokens; proved for streams without nulls. |
| C13 | refuted; exact result for every state. |
| C14 | refuted: for every fuel `NoFuel` on an empty cache. |
| C15 | arithmetic + digit printing. |
| C16 | induction over the chain. |
| C17 | invariant of the interleaving state machine. |
| C18 | Unix `filepath.Join`/`Clean` modelled on byte strings; injectivity of decimal printing. |
| C19 | case analysis over existence; the last sentence is refuted (error returned). |
| C20, C66 | record model; `unitOf` string model; recognition refuted for the "Code table" spelling of shipped v35+ tables; Table D records (C66). |
| C21 | induction on fuel/list. |
| C22 | Walk as function over event lists with supply state (that the goroutines produce just this order is C86). |
| C23 | rank function on Table D; fuel monotonicity; cyclic table gives `NoFuel` for every fuel. |
| C24, C25, C28, C29 | parser = inductive grammar (`parsed_iff`), then induction on derivations. |
| C26 | state-restoration invariant. |
| C27 | refuted: `notPresent` is constantly false. |
| C30 | refuted: 206YYY at the end; proved: error/panic for the others. |
| C31 | arithmetic on all-ones patterns. |
| C32 | SpecFloat operations related to real arithmetic through Flocq. |
| C33, C35, C36 | stream lemmas (iff) for the unpackers. C36 refuted. |
| C34, C59 | relation `carries` between template nodes, trees of raw data and data in order; induction on it builds the run (`carries_runs`), generic in the kind of leaf (value or column); then `run_payload_complete`. Templates of any kind (`C34_any_template`): the values of one subset, picked out of a layout of columns, are a layout again (`lays_pick`). |
| C37 | refuted: nil map assignment. |
| C38-C45 | invariants over runs by mutual induction. |
| C46-C48 | bitmap lemmas on histories; C47, C48 refuted. |
| C49 | refuted; proved for flat templates. |
| C50-C57 | factory/script model; C54, C55, C56 refuted. |
| C58 | refuted; the exact condition (for compressed data: where the subsets agree on the bitmaps used) by simulating a run on bits with a run on JSON tokens (`runs_follow`), and by counting the tokens a JSON run takes (`runs_eats`). |
| C60 | composition of C50, C51, C53. |
| C61 | rational value of spec_float; rounding half away from zero. |
| C62 | simulation between the runs with and without compatible mode. |
| C63, C64 | structural induction over the AST; the writer is an arbitrary function. |
| C65 | invariant `fine` of the visitor state by induction over nodes; a run depends only on the bits it consumes (`executes_movable`). Templates of any kind: the same induction with the set of allowed panics as a parameter (`may` in `ProofsCrash.v`), used once for each kind of panic. |
| C67 | the visitor's heap of nodes is kept equal to the links made so far (`htree`, `tied`), by induction over nodes (`visit_links`). |
| C68 | the written bits satisfy `is_message` (fields by `fills_items`, data by the C69 round trips), then C53/C60; the signature cannot overlap itself (`no_overlap`). |
| C69 | relation `lays` like `runs` but without readers; induction on it builds the run on the written bits (`lays_runs`), and every run is a layout (`runs_lays`); each field's bits are those of one raw value (`raw_from`). Compressed: `column_form` and `column_back` relate a decoded datum and its column in both directions, whatever the column holds. |
| C70, C71 | finite case analysis of the generated index tables; first/last delimiter lemmas on byte strings. C70 refuted for units and data types (stale generated files). |
| C72 | loading by the general load lemmas; uniqueness of identifiers and ranks of sequences (no cycles) by computation over the rows. |
| C73 | the parser's answer does not depend on fuel once it has one (`pt_more`); sequences by induction on rank, members checked for all versions at once by bit masks, the few irregular and broken ones by running the parser on search trees with the same known identifiers (`covers`); composed templates by induction. Refuted for WMO versions 6-18 and local versions 1, 101: dangling references. |
| C74 | magnitudes of all rows by computation, then C32; products with powers of ten are exact (`mul_exact`). |
| C75 | computation over the rows. Refuted from version 16 on (spelling of the units changed). |
| C76 | inversion of the execution relations of C46 and C67 at the operator. Refuted; `C76_values` and `C76_bits` describe what happens instead. |
| C77 | Hoare triples over the factory state (`triple`), position and registered fields tracked through the sections; enough fuel exists by `Parse_returns` and because the search consumes bytes; payload by C65_reasons, kind of panic by kind of panic; the parser can only index out of range (`Parse_index`). Any chain of shipped tables is acyclic: two rank functions, one for each direction of the only mutual reference (306020/306024). Run-time panics are kept apart from Lua errors (`lua_call`): whether go-lua's protected call turns a Go panic into an error is not modelled. |
| C78 | The document by two inductions over the marshalled slices. That it cannot be read back: C53 says a decoded message begins with the field `BUFR`, base64 writes it `QlVGUg==`, so the signature search passes over it and stops with an error at the number that follows. |
| C79 | C01-C08 and C11 carried to the reader interface; the real value of a single-precision pattern through Flocq (`single_ok`). |
| C80 | the read lemma for unsigned numbers and the all-ones patterns of C31. |
| C81 | `pushes`: a write takes its bits one byte at a time or stops at the first byte without room; composition, then the bits of C04. |
| C82 | `binary_round_correct` of Flocq for binary32; a valid single is determined by its real value and sign. |
| C83 | the two models of the scripts run side by side (`agrees`), with the invariant that the reader is binary and every number a script asks for has at most 24 bits; subtraction and multiplication of whole floats are exact (Flocq). |
| C85 | case distinction on the outcome of one call, induction on the number of calls. |
| C86 | the code of all goroutines together is one continuation, what they hold the events in transit: every step keeps the set of possible futures; a factor is always followed by a question; a rewriting order on continuations and a weight of states for termination. |
| C87 | the shipped scripts are written once more over abstract operations and shown to be `boot` (`generic_boot`); a simulation between the factory with one current message and the store, whose old part is a constant prefix, carries Run over; for arbitrary calls a reflexive and transitive relation (only the current message and section change, and only grow) that every operation satisfies. |
| C88 | each script is read by `vm_compute`; a simulation between `ModelLua.v` and the interpreter in continuation passing style, one step per call of a Go function, one lemma per script, `require` by the invariant that only shipped modules are loaded; for arbitrary scripts every run is a sequence of calls (`does`), and larger bounds agree (`upto`). |
| C89 | Run is cut at its requests for tables; answered from the files it is Run (`runs_after`). Invariant over all interleavings: the cache holds what the files hold, each runtime will end as it would alone, locks match their holders; a weight per runtime that each statement lowers. |
| C90 | the bits still to come (of the current byte, the buffer and the source) are the state of `ModelBits.v`: a simulation per operation, over all programs; that Run is such a program is shown for every function down to the reader (`uses`). |
| C91 | that every program over the reader's operations (C90) leaves a suffix; a lower bound of what each operation takes, added up along the scripts (`eat`); the rest from C53. |
| C92 | an invariant of the node tree under every visit, as triples (`T`): members of blocks and valueless nodes are newer, members of valued nodes are valued and older; so a rank falls along members. The circle by computation. |
| C84 | splitting the line at its punctuation, from the front: position, six characters of the identifier, the name the tables give, width. |

## 4. Trusted base

* Coq 8.16.1 kernel (and its `vm_compute` conversion), and whatever `Print Assumptions` prints
  under each theorem (section 5).
* The reading of `/repo` into the model: every definition cites the lines it models.
* `tools/gen_scripts.py`, which copies the text of the scripts into `GenScripts.v` (C88).
* `tools/gen_tables.py`, which copies the rows of the JSON tables into `ModelShipped.v` (C72-C75); that
  `encoding/json` reads these files as the records `b_record`, `d_record` describe.
* Dependencies that are not in `/repo` and are modelled from their documented contract:
  go-bitstream and `bufio.Reader` (`ModelBits.v`, `ModelBufio.v`), `io.Reader` (C90: gives at least one byte or an error), `encoding/json` tokens (and, in `ModelMarshal.v`, that
  numbers are written so as to be read as the nearest double, bytes as base64, nil as null), go-lua calling
  convention and conversions (`PushInteger`, `PushUnsigned`, `ToInteger`, `ToUnsigned`, `ToBoolean`, number arithmetic;
  `ModelLua.v`), `strconv`, `fmt`, `math`, `path/filepath`, `sync.RWMutex`.

### Testing the model against recorded output

`tools/differential.py` extracts the model to OCaml outside the repository and decodes the messages of
`/repo/_testdata`. The theorems do not depend on it; it is a check of the reading of `/repo`.

* For 11 of the 15 messages with recorded output (`/repo/_regression`) the payload is the recorded one,
  value by value.
  What is compared: the decoded values of the payload of the first message of each file. Headers and further
  messages are not compared. A byte that the recorded file replaced by U+FFFD is taken as equal.
* The comparison says nothing about the JSON form (C58). The recorded files write strings as plain text
  (`"BUFR"`), whereas `json.Marshal` of the `[]byte` values of this commit gives base64. They were made by a
  command (`gobufrkit d -jx`, see `regression.sh`) whose source is not in `/repo`. That strings are base64 rests
  on reading the source (`ReadBytes` returns `[]byte`, `MarshalJSON` passes it on) and on the documentation of
  `encoding/json`.
* `contrived`: the recorded output has an empty second subset, which the model decodes.
* `g2nd_208`, `mpco_217`, `rado_250` fail in the model, as C76 says they must.
* Of the 141 messages in `benchmark_data` the model decodes all but those that run into C48 (bitmap without
  236000, nil dereference; 26 messages) or C76 (25 messages); one, `ias1_240`, was too slow.

### How to read `seeded/LOG.jsonl`

Each line is one edit of the model in a scratch copy, after which the property files of the named claims were
rebuilt. `failed` lists the theorems whose proof script, or that of a lemma they use, no longer goes through. This
is weaker than saying that the theorem is false of the edited model: a script can also break where another proof
would succeed (one such line is marked by its note). It does show that the theorem is not proved by a script that ignores the edited definition. Only the
files of the named claims were rebuilt, so other theorems may fail too. Edits that survived are listed with
`tightened` and a note. The lines for C91 name the lemmas at which the build stopped instead of theorems, see their notes. Names of theorems that were renamed later are given in their present form.

## 5. Assumptions per theorem

Every theorem named in `MANIFEST.json` is "Closed under the global context", with these
exceptions, which speak about real numbers and use the axioms of the standard library's reals
(through Flocq, which adds none of its own):

* `C32_exact`, `C32_nearest`, `C32_nearest_negative_scale`, `C32_accuracy`, `C32_injective`, `C32_accuracy_wide`, `C32_injective_wide`,
  `C74_numbers`, `C74_distinct`, `C74_operators`, `C79_bits`, `C82_nearest`, `C82_round_trip`, `C83_same`,
  `C88_Run`:
  `ClassicalDedekindReals.sig_not_dec`, `ClassicalDedekindReals.sig_forall_dec`,
  `FunctionalExtensionality.functional_extensionality_dep`, `Classical_Prop.classic`.

## 6. Not modelled

* What a bit writer does after a write of it has failed (C81 says what happens up to the first failure); the payload
  bits of NaN in `WriteFloat32`; memory exhaustion; 64-bit wrap of
  `int` in position arithmetic (streams shorter than 2^60 bits).
* Log and debug output (`fmt.Println` in `VisitOpMarkerNode`, `log.Println`).
* `%v` of floating-point numbers (a parameter of `ModelText.v`); names of Table D entries (a parameter of the printing functions).
* `code_and_flag.json` of the shipped tables (never loaded by the code).
* Of Lua: everything the shipped scripts do not use (assignment, loops, metatables, coroutines, varargs, most of the
  standard library, conversion of strings to numbers, escapes in strings, comparison of objects). `ModelInterp.v` says
  what it takes from the Lua 5.2 manual; go-lua itself is not modelled. Most theorems speak of the scripts as
  translated by hand (`ModelScript.v`, `ModelLua.v`); that these are what the text does is C88.
* Concurrency other than the table cache, the goroutines of `template.Walk` and several runtimes that share the cache (C89):
  one runtime, or one message, used by several goroutines at once. That nothing but the cache is written after start-up
  and shared by runtimes was checked by reading the package variables. That a waiting writer holds up new readers of a
  `sync.RWMutex` is not modelled (nobody takes a read lock twice, so it only delays).
