# Formal model of rtcg in Rocq/Coq 8.16

rtcg turns forbidden traces into tests, tests into state machines and state machines into C++
test drivers.  The model covers the three tools (`rtcg-read-traces`, `rtcg-make-stms`,
`rtcg-gen`), the file formats between them, and the run-time behaviour of what they generate.

## Layout (rocq/theories)

| file | models |
|---|---|
| `GoStr.v` | the Go string/byte functions used: TrimSpace, Split/Cut, ToLower/ToUpper, ParseInt/FormatInt, ReplaceAll, filepath.Clean/Join |
| `TestLang.v` | `internal/testlang/**`: kinds, channels, values, types, unification, events, nodes, Walk |
| `Validate.v` | `internal/validate/**`, `internal/structure/map.go` |
| `Trace.v` | `internal/trace/**` except reading; `internal/factorise` |
| `Csv.v` | `encoding/csv` as configured by `newReader`, and `trace/read.go` |
| `Stm.v` | `internal/stm/**` (builder, verdicts, transition sets), `gen/gencommon/context.go` |
| `Json.v` | `internal/serial`, the encoder/decoder of encoding/json byte for byte, and the JSON forms of test suites and machine suites |
| `Cpp.v` | the generated C++ as data (what the templates interpolate) plus an interpreter: templates, prelude, `gen/cpp/func.go`, `strmanip`; the animate loop and the ROS callbacks |
| `Gen.v` | configuration processing, directory sets, file system effects of generation, catkin, makefile, CLI |
| `Tools.v` | the tools as functions from input text to output text |
| `Text.v`, `Xml.v` | the text of the smaller generated files (Makefile, CMakeLists.txt, package.xml, convert.h) |
| `XmlRead.v` | reading the configuration: encoding/xml's tokenizer (strict mode) and the filling in of the structs of `gen/config` |
| `Process.v` | the tools as processes: rtcg-gen's flags (package `flag`), opening files, exit codes, standard output; `rtcg.sh` |
| `MainText.v` | the text of main.cpp for both targets (all templates under `gen/cpp/embed/templates`) |
| `Spec*.v` | independent specifications: predicates and small reference functions that the theorem statements use; they do not call the model's algorithms |
| `*Proofs.v` | lemmas |
| `Prop*.v` | the property theorems, each with a witness (a concrete, non-trivial instance of its hypotheses) and `Print Assumptions` |

Conventions.  Go strings are `list ascii` (bytes).  Go maps are std++ `gmap`s; a `for range` over a
map takes the visiting order as an explicit argument and the theorems quantify over all
orders.  Errors are values (`Err`), panics are a separate result (`Panic`), loops that Go writes
with an explicit stack use fuel with an out-of-fuel result which the theorems exclude.
Every definition cites the file and lines it models and says where it simplifies.

A theorem whose name ends in `_refuted` shows that a plausible stronger reading of a property is
false of the code; it is a finding, not part of the claim's positive half.

## Trusted base

* Coq 8.16.1's kernel (including its VM, used by `vm_compute` in witnesses).
* Axioms: none.  `Print Assumptions` says "Closed under the global context" for every theorem
  listed in MANIFEST.json.  (Loading std++ also loads ssreflect's `ssrunder`, whose module type
  parameters appear when the whole library context is listed; no theorem depends on them.)
* The faithfulness of the model to /repo, i.e. the cited correspondence between definitions and
  code, and of the parts of Go's standard library that are modelled (strings, strconv, encoding/csv,
  encoding/json, encoding/xml, path/filepath, os.MkdirAll/Create/RemoveAll, text/template's sorted map ranges).
* The C++ semantics used by the interpreter: `switch` over enumerators, string and integer literals,
  32-bit wrap-around on narrowing, `std::string::compare`; for C75-C77 the reader and the run of C++ text in
  `SpecCxx.v`, `SpecRun.v` and `SpecStatic.v` (the part of the language that the templates use; the prelude's functions and ROS's
  queue are built in; C86 shows the former to be what rtcg.cpp says).

## Modelled, not modelled

Modelled: everything in the table above.

Simplified (each is repeated at the definition):

* Unicode: `ToUpper`, `ToLower`, `UpcaseFirst`, `IsUpper`, `IsLower` act on ASCII letters only (plus the
  two non-ASCII letters that Go lower-cases to ASCII); `TrimSpace` knows all of Unicode's white space.
* encoding/json: nil and empty slices and maps are not distinguished (struct keys repeated in one object are
  modelled, see C91; the plain decoders `dec_...`, used in proofs only, give `JUnmodelled` for them); Marshal and Indent are composed; readers and writers do not fail.
* Machine suites read by rtcg-gen that contain `null` for a machine, state, type or verdict are modelled in
  `Nulls.v` (C90); the theorems on `run_gen` with `gen_input` are about files without them, which the files of
  rtcg-make-stms are (`C90_tools`), and `C90_agrees` says that there the two models are the same.
* File system: no symbolic links, permissions, limits on names or space; `MkdirAll` creates nothing if it fails. (C94 and C96 add runs that are killed and calls that fail.)
* The XML decoder for the configuration file is a parameter of `run_gen` (theorems quantify over it); C81 and C82 use
  `XmlRead.read_config`, which models encoding/xml up to the tables of non-ASCII name characters (a parameter) and which error is given.
* main.cpp is modelled twice: as the data its templates interpolate with an interpreter (`Cpp.v`: no log lines,
  no prompts), and as text (`MainText.v`) that `SpecCxx.v` reads and `SpecRun.v` runs, log lines included; C76 connects
  the two.  End of input and words that are no numbers are modelled (C88; a number channel whose value is cut off by the end of input is undefined behaviour, a `Fault`). The
  bodies of user-supplied conversion functions (a parameter of the run) are not modelled; those written out in convert.h are (C85). Linking is modelled by names and parameter types (C89).
* What the tools print on the standard error (error and usage messages).

## Findings (all proved, see the `_refuted` theorems)

* C88: when its input ends, a test of the animate variant that is not over never ends: it says "Sorry, try again." for ever.  What is typed
  for a number but is none counts as the observation of 0 (and can make the test fail); after it nothing is read any more.
* C05: an event with an empty channel name is accepted but not re-read after writing.
* C09: indented comments and lines of blanks are not skipped.
* C17/C19/C36/C68: a `null` test makes validation panic (the only way rtcg-make-stms can crash).
* C24: explicitly given node identifiers may collide.
* C36: prefixes above 4996 events cannot be written (nesting limit); invalid UTF-8 is replaced.
* C37: the text of machine suites depends on map order.
* C43/C63: a late callback can revive a finished test; an early ROS acknowledgement skips an input and may
  fail the system under test although nothing was sent.
* C46: channel or test names that differ only in case or clash with members do not compile.
* C47: values outside 32 bits are truncated when sent.
* C49: generation fails when no channel has an override (directory of convert.h), unless a test is called `convert`.
* C50: test names with `..` escape the output directory.  C51: two configurations of one variant overwrite each other.
* C56: `-clean` deletes the current directory when it is named other than `.`; it also deletes a configuration
  file inside the output directory before it is read.
* C66: equal input and output directory empties convert.cpp.
* C70: a state all of whose input channels have alternatives sends nothing.
* C71/C72 (texts): see those properties.
* C81: spaces around `<directory>` are kept; names match in any name space; the last of repeated elements or
  attributes wins; duplicate attributes are accepted; whatever follows the root element is ignored.
* C83: rtcg-read-traces and rtcg-make-stms do not find `t.csv/` or `x/../t.csv` (no x), rtcg-gen does; `./-` is a
  file for the first two and the standard input for rtcg-gen.
* C85: over ROS, values of enumerations are cut at a NUL, and channels of numbers without a type do not compile.
* C84: rtcg.sh, used as its usage line says (with a directory first), always fails; a first argument such as
  `-clean` is passed to rtcg-gen as a flag, and the old output is deleted.

## Per property: what is modelled, how it is proved

- **C01**: value codec on bytes; decimal formatting/parsing inverse by induction on digits.
- **C02**: iff-characterisation of ParseInt against a numeral specification; trimming as the unique maximal cut.
- **C03**: codec of events as name.kind.value; cut at separators, by induction on bytes.
- **C04**: iff against a shape predicate; totality of the parser.
- **C05**: round trip restricted to non-empty names; refutation for the rest.
- **C06**: UnmarshalText as a function of the previous value.
- **C07**: structural equality vs. the code's comparisons; prefix by list induction.
- **C08**: render/read round trip by induction on lines and fields.
- **C09**: insertion of comment/blank lines anywhere, induction on lines.
- **C10**: reader as a fold that either returns all rows or an error.
- **C11**: row-to-trace function characterised by lengths.
- **C12**: name assignment as an injective map covering all traces.
- **C13**: names against the documented policy (explicit, default, numbered).
- **C14**: fuel bound by pigeonhole (candidate names are injective in the attempt).
- **C15**: induction on the prefix; validity predicate independent of the validator.
- **C16**: induction on the prefix.
- **C17**: iff against a shape predicate of linear trees.
- **C18**: pointwise lift of C16 over maps, any iteration order.
- **C19**: iff between the validator and a recursive well-formedness predicate.
- **C20**: stack invariant: Walk = pre-order list; first fault = first in that list.
- **C21**: permutation induction over visiting orders.
- **C22**: loop invariant of the builder (stack entries valid and unseen).
- **C23**: states in bijection with non-failing nodes.
- **C24**: counter invariant for generated identifiers.
- **C25**: reachability by induction over the tree; each non-initial state has exactly one incoming transition.
- **C26**: transitions characterised by successors.
- **C27**: verdict map characterised by failing/passing successors.
- **C28**: set of test names = union over the tree.
- **C29**: inferred type = join of the value types.
- **C30**: fold of a commutative, associative, idempotent join over any order.
- **C31**: semilattice laws and least upper bound.
- **C32**: builder state reset; same machine from any builder state.
- **C33**: induction over additions to transition sets.
- **C34**: aggregation per channel and per state, both directions.
- **C35**: filter of the aggregates by direction.
- **C36**: byte-level printer/parser inverse by induction on JSON values and nesting.
- **C37**: as C36 for machine suites, with exact conditions for writing to succeed.
- **C38**: case analysis, any letter case.
- **C39**: decode/encode for sets and verdicts.
- **C40**: simulation between program state and position in the trace, all scripts.
- **C41**: same simulation, verdict component.
- **C42**: same simulation, deviating step.
- **C43**: invariant: a non-running status is preserved by every step.
- **C44**: case analysis of timer callbacks in every reachable state.
- **C45**: exit code function; BUG unreachable in sessions.
- **C46**: names used are a subset of names declared, no duplicates.
- **C47**: sent inputs = inputs of the followed prefix.
- **C48**: simulation between program state and tree node for arbitrary valid trees.
- **C49**: file system after generation = exact set of files and directories.
- **C50**: every written path has the output directory as prefix.
- **C51**: content of each file after all writes; written at most once.
- **C52**: package fields per test.
- **C53**: field-wise.
- **C54**: specification of simultaneous replacement.
- **C55**: order-free fold; override map last-wins.
- **C56**: effects of RemoveAll on the modelled file system.
- **C57**: exhaustive over argument lists.
- **C58**: types and literals against C++ literal reader.
- **C59**: recursive specification of case conversion.
- **C60**: permutation reasoning.
- **C61**: composition of C69, C68, C37, C40 over text files.
- **C62**: induction on trees.
- **C63**: simulation for callback sequences; refutations for unguarded acknowledgement.
- **C64**: start state.
- **C65**: all orders give the same file system.
- **C66**: frame property of copy.
- **C67**: resolve (clean p) = resolve p.
- **C68**: composition over text; iff for acceptance.
- **C69**: composition over text; iff for acceptance.
- **C70**: exact entry action from the tree, under any branching.
- **C71**: the Makefile text, read by an independent makefile reader (SpecText.v); schedules of make as a relation.
- **C72**: the CMakeLists.txt text, read by an independent CMake reader; injectivity of name expansion.
- **C73**: the package.xml text (encoding/xml's escaping, byte for byte), read by an independent XML reader (SpecXml.v).
- **C74**: the convert.h text of both targets (Text.v), read by a small reader of headers (SpecHeader.v: comments, includes, macros, functions of one parameter).
- **C75**: main.cpp as read by SpecCxx.v and convert.h as read by SpecHeader.v, both from their texts; SpecStatic.v checks declarations before use, arities, duplicate names per scope, macros, methods declared and defined, switch labels, returns and literals (types of expressions: C92).  Proof: the items of the file are checked one by one against what precedes them (StaticProofs.v, StaticMain.v); the hypotheses on names are shown necessary by refuted examples (a/a_, dump, XVal, timeout, fooBar/foo_bar...).
- **C76**: the main.cpp text of both targets (MainText.v, from the templates line by line); SpecCxx.v reads the subset of C++ it is written in, SpecRun.v runs it (statements, calls, switch, streams; ROS: a queue of events delivered to the registered callbacks).  Proof: the text reads as the expected syntax (MainLex*.v), and running it simulates the model of C48/C63 (Run*.v).
- **C77**: C76 composed with C40.
- **C78**: `run_gen` against a relation of endings (SpecGenRun.v) in which what a path means is said by where it resolves to from every directory, deletion by the prefixes of paths, and acceptance by the templates by `printable`; case analysis over the run with the path lemmas of C67.
- **C79**: `range_map` and its uses give strictly ascending lists; the files are read back by the readers of C36, C71 and C74.
- **C80**: SpecJsonText.v is the grammar of RFC 8259 with the value of each text, as inductive relations (UTF-8 by its bit layout).  Proof: each function of the decoder is sound and complete for its nonterminal; mutual induction on derivations one way, induction on depth and fuel the other.
- **C81**: SpecConfigText.v is a grammar of XML documents (names, references, text, CDATA, attributes, comments, processing instructions, directives, elements) as inductive relations, and `says_config`, what a root element describes, field by field.  Proof: as for C80, each function of the tokenizer is sound and complete for its nonterminal (Xml*Proofs.v); the struct-filling folds are characterised by the children and attributes with a name (FillProofs.v).
- **C82**: C69, C68, C81, C78, C51 and C77 composed (SpecChain.v, PropChain.v).
- **C83**: the command lines that mean some flags as an inductive relation (SpecProcess.v), shown to be what the flag parser accepts (induction on the number of arguments); files by name through the directories before each slash; exit codes by case analysis over the runs (C78 for rtcg-gen).
- **C84**: rtcg.sh as the composition of the three processes; C82 and C83 composed.
- **C85**: SpecConvert.v runs the functions that SpecHeader.v reads in convert.h: types through macros, values wrapped when passed, std::string and std_msgs::String, `c_str()` ending at the first NUL.  C74 says which functions and macros there are; the bodies are evaluated; C82 composed.
- **C86**: the two prelude files as text (Prelude.v), read by the reader of C75 with a few more words (SpecPrelude.v) and run by the semantics of C76; the functions built into SpecRun.v are shown to be what the text does, by evaluation for each enumerator and a case analysis for other values.
- **C87**: the files of examples/bmon as texts (PropBmon.v). Evaluating the model on them gives the recorded tests.json and stms.json, byte for byte: this is the one place where the model meets outputs of the real tools. The hypotheses of C82 are decided by boolean checkers for the example, which gives C87_exit_codes for all orders. Its conversions are evaluated in the IEEE arithmetic of the standard library (Floats.SpecFloat, no axioms; round to nearest, no excess precision) for the 101 values the example claims: 53 and 59 are lost.
- **C88**: `SpecRun.read_number`/`read_input` model `std::cin >> x` (sign, digits, what remains, failure, overflow, end of input); `typed_as` says how any input is cut into words and values; `RunStm.animate_main` is proved over `typed_as`. End of input on a running test: `run_spins`, by induction on the rounds (for every number of rounds the loop is still going and has said sorry that often). C76/C77 are the special case of well-typed sessions.
- **C89**: `SpecLink.v` collects the functions with external linkage (full name, parameter types with names looked up in the namespaces) from the texts of main.cpp, rtcg.h and rtcg.cpp as read back by the readers of C74, C75 and C86, and the conversion functions defined by convert.h; the functions of the user's convert.cpp are an arbitrary list of names. The theorem is an equivalence: the link works iff convert.cpp has exactly the right functions.
- **C90**: `Nulls.v` follows the nil pointers that encoding/json leaves for `null` through the generator: a list of operations with crashes (`gop`), TransitionSets dereferencing before main.cpp is created, templates failing after convert.h or main.cpp is created. `SpecNulls.v` says where null can stand and how a run ends (`null_run`, as C78's `gen_run`). Proved by a simulation between the operation lists with and without nulls: where null stands decides between success, exit code 1 and exit code 2 (`C90_exit_code`), success only without nulls, a crash confines and deletes as any run, no generated program shows a null; what rtcg-make-stms prints never has one (for any machines, also with invalid UTF-8), and without nulls the run is that of C78. `proc_gen` (C83) uses this model, so its exit codes cover crashes.
- **C91**: the decoders of `Json.v` (`m_...`) decode into what is there already, with the cells that a shortened slice leaves behind. `SpecMerge.v` describes, without any state, what a list of values given for the same place says (`text_says`, `list_says`, `pointer_says`, `map_says`, `node_says`, ...) and which documents fit. Proved: reading succeeds exactly on the documents that fit, with what they say (fold lemmas by induction from the right; decoding two objects into one struct is decoding their members together; induction on nesting), and the meaning is unique. `MergeProofs.v`: without repeated keys the plain decoders agree.
- **C92**: `SpecTypes.v` gives the types that a compiler gives to the expressions and statements of main.cpp (as read by SpecCxx.v), with convert.h (as read by SpecHeader.v) for the macros and functions of the channels and with what main.cpp uses of rtcg.h, the C++ library and ROS; what override types can do is a parameter (`user_types`), as only the user knows. It is stricter than C++ (conditions are bool, no pointers are printed) and does not look into the bodies of convert.h (C74, C85) or at includes (C75). Proof: typing lemmas for the forms that occur (`StaticTypes.v`), each method of the class (`TypesMachine.v`), Verdict and main (`TypesMain.v`), the file (`TypesFile.v`), and the types of a channel from the macros of convert.h (`PropMainTypes.v`), which need channel names that do not only differ in the case of their first letter, and overrides that fit. Refuted without the latter. `PropMainExact.v` shows the converse: over ROS main.cpp has types if and only if the overrides of the channels that the tests use are message types, and in the animate variant the overrides of outputs have to be types of values (that those of inputs have to be printable is needed only where an input is sent).
- **C93**: the tools as in C82, the files they leave as in C49/C51, read as in C75 (main.cpp), C74 (convert.h) and C86 (prelude); `SpecCompile.v` says in terms of the traces and the configuration what names and texts have to satisfy, `cxx_accepts` and `makes_program` what a compiler and a linker check. Proof: the channels with a type are those of the traces, so the hypotheses of C75, C89 and C92 follow for the expanded tree of each trace.
- **C94**: `Crash.v` adds to the operations of `Gen.v` the states of the disk while one of them runs (a path made from the top; a file made or emptied, holding anything until it is written; part of the output directory removed) and `interrupted`, a run of rtcg-gen cut off in any of these or over, and `attempts`, any number of them. Reordering of writes by the operating system at a power cut is not modelled. Proof: every state passed through has the directories of the start and some of those to be made, and differs in files to be written only; generating overwrites all of these, so it ends in the same state from there (C49's result lemma), for whatever orders of the maps; the file under the last operation is the only one that can be neither old nor new, since no file is written twice and the conversion code read is never written.
- **C95**: the readers of C80 and C81 and the processes of C83 on the beginnings of texts (`SpecTruncate.v`). Proof: a beginning that is read starts with a text of the grammar (soundness); objects and elements end where they end whatever follows (completeness with any rest), so in the whole text the reader would stop at the same place, which is not before the end of the object that is there. For XML the end of the root is followed with a copy of `xml_root` that returns the rest (`root_end`, proof only). Read errors of the operating system in the middle of a file are in C96.
- **C96**: `Faults.v` models rtcg-gen with calls that fail: every operation of `Gen.v` becomes the calls it consists of (opening, making, writing and closing, joined as by `errors.Join`), each of which may fail and leave what it was writing in any state; opening, reading, closing and removing of a run likewise; printing of the other two tools stops after any number of bytes. Proof: per operation, success is success of `exec` and no failing call; lists by induction; a state left by a failing call is one of those of C94 (`during`), so C94 gives recovery; the pipe by C95. Reading that breaks off is modelled as the decoders seeing the bytes before it, which is what they look at until they have a value; that the readers of rtcg-gen do not look further is proved (`stops_early`). Trusted: that the operating system reports errors at all (C95 is about those it does not report), and that a failing write or close changes only the file it is for.
- **C97**: `Conc.v` cuts a run of rtcg-gen into steps (reading the suite, cleaning, reading the configuration, each operation of the generator) that two processes take in turns given by a schedule. Proof: `C97_steps` shows that the steps are `run_gen`; an invariant relates the shared disk to the two disks the processes would have on their own (`side_by_side`: each output directory as in its own run, files elsewhere unchanged, directories of either); each step keeps it since what is written is below one output directory and what is read is not below the other. For a process beside one that fails or is killed (`C97_undisturbed`) a weaker relation to its own disk alone is kept (`calm`). An operation is one step: as the files written are disjoint, finer steps would not make a difference, but this is not proved.
