{"id": "C01", "title": "Value text round-trip", "statement": "Writing a value as text and reading the text back gives the same value exactly when the value is an int64, or an enumeration constant that has no surrounding white space and does not itself spell an int64; a valueless event writes no value text and cannot be marshalled as a value.", "quantifier": "every int64 and every byte string used as an enumeration constant", "why_tests_cant": "The int64 and byte-string domains are unbounded for testing; unit tests try 42 and \"Ok\".", "anchors": ["internal/testlang/value/value.go:Value.MarshalText,Value.UnmarshalText", "internal/testlang/value/int.go", "internal/testlang/value/enum.go"]}
{"id": "C02", "title": "Exact recognition of integer values", "statement": "Reading value text never fails; after trimming white space the result is an integer exactly when the text is an optional sign followed by at least one decimal digit whose numeric value lies in [-2^63, 2^63-1], and then it is that number; every other text becomes the enumeration constant with that trimmed text.", "quantifier": "every byte string", "why_tests_cant": "The boundary (sign handling, overflow by one, leading zeros, spaces) is a property of all strings.", "anchors": ["internal/testlang/value/value.go:Value.UnmarshalText", "internal/testlang/value/int.go:IntValue.UnmarshalText"]}
{"id": "C03", "title": "Event text round-trip", "statement": "Writing an event with a valid kind as text and parsing it into a fresh event gives back the same event if and only if its channel name is non-empty, has no dot and no surrounding white space, and its value (if any) round-trips as a value.", "quantifier": "every event (all names, kinds, values)", "why_tests_cant": "An if-and-only-if over all byte strings; tests sample three events.", "anchors": ["internal/testlang/event.go:Event.MarshalText,Event.UnmarshalText", "internal/testlang/channel/channel.go:MarshalText,UnmarshalTextWithRemainder"]}
{"id": "C04", "title": "Which texts are events", "statement": "Event text is accepted exactly when it contains a dot and the text between the first dot and the second dot (or the end), trimmed and lower-cased, is in, out or call; the channel name is then the trimmed text before the first dot and the value comes from everything after the second dot (absent if there is no second dot).", "quantifier": "every byte string", "why_tests_cant": "Total characterisation of a parser; tests use a dozen strings.", "anchors": ["internal/testlang/event.go:Event.UnmarshalText", "internal/testlang/channel/channel.go:UnmarshalTextWithRemainder", "internal/testlang/channel/kind_enum.go:ParseKind"]}
{"id": "C05", "title": "Parsed events are stable under re-serialisation", "statement": "Any event obtained by parsing text whose channel name is non-empty is written and re-parsed to the same event, so tests survive the hop between rtcg-read-traces and rtcg-make-stms.  (It is false for an empty channel name: such a trace is accepted by the first tool and rejected by the second.)", "quantifier": "every byte string accepted as an event", "why_tests_cant": "Needs an argument about trimming and splitting over every string.", "anchors": ["internal/testlang/event.go", "internal/testlang/channel/channel.go"]}
{"id": "C06", "title": "Parsing into a used event", "statement": "Parsing text into an event that already holds data overwrites channel and value when the text carries a value; when the text carries no value the previous value is kept, so the result is independent of the previous contents exactly for texts with a value field or previously valueless events.", "quantifier": "every event text and every previous event", "why_tests_cant": "Depends on previous state of the receiver, which tests always leave fresh.", "anchors": ["internal/testlang/event.go:Event.UnmarshalText"]}
{"id": "C07", "title": "Equality and prefix tests mean equality and prefix", "statement": "Event equality holds exactly for equal events; trace equality exactly for equal traces; the prefix test exactly when the second trace is the first followed by some further events.", "quantifier": "all pairs of events and traces", "why_tests_cant": "Relational property over all pairs.", "anchors": ["internal/testlang/event.go:Event.Equals", "internal/testlang/value/value.go:Value.Equals", "internal/trace/trace.go:Trace.Equals,Trace.IsPrefixOf"]}
{"id": "C08", "title": "Reading back written traces", "statement": "A trace file that lists, one per line, an optional name and the comma-separated event texts of well-formed traces reads back as exactly those traces, in order.", "quantifier": "every finite list of well-formed traces of any length", "why_tests_cant": "Unbounded inputs; the test reads one three-line file.", "anchors": ["internal/trace/read.go:Read,parseRow,tryParseName", "encoding/csv semantics as configured by newReader"]}
{"id": "C09", "title": "Comments and blank lines are invisible", "statement": "Inserting or removing empty lines, or lines whose very first byte is #, between the lines of an unquoted trace file does not change what is read; a line containing only spaces is not blank and makes reading fail.", "quantifier": "every list of unquoted lines and every insertion point", "why_tests_cant": "Quantifies over all files and insertion points.", "anchors": ["internal/trace/read.go:newReader"]}
{"id": "C10", "title": "Reading is all-or-nothing", "statement": "Reading succeeds exactly when every record of the file parses as a trace, and then yields one trace per record in file order; a single bad record makes the whole read fail with that record's error and no traces.", "quantifier": "every list of records", "why_tests_cant": "Position of the bad record is unbounded.", "anchors": ["internal/trace/read.go:Read"]}
{"id": "C11", "title": "Shape of a row", "statement": "A row of n >= 1 cells becomes a trace with n-1 prefix events (in order) and the last cell as forbidden event; the name is the trimmed text before the first colon of the first cell, or empty if there is none; a row with no cells is rejected.", "quantifier": "every list of cells", "why_tests_cant": "Quantifies over all rows.", "anchors": ["internal/trace/read.go:parseRow,tryParseName,selectEvent"]}
{"id": "C12", "title": "Naming loses nothing", "statement": "Naming a list of traces gives a suite with exactly as many tests as traces, in which every trace occurs, unchanged, under exactly one name per occurrence in the list; no trace overwrites another.", "quantifier": "every list of traces, including clashing and adversarial names", "why_tests_cant": "Clashes such as foo, foo, foo0 grow without bound.", "anchors": ["internal/trace/trace.go:Name,insertName,synthesiseName"]}
{"id": "C13", "title": "Names follow the policy", "statement": "Each trace gets the first name free at its turn among: its own name, then its own name followed by 0, 1, 2, ...; traces with no name or named test get test0, test1, ....  Hence a name not clashing with earlier ones is kept, and names are never empty.", "quantifier": "every list of traces", "why_tests_cant": "First-free choice over an unbounded family of names.", "anchors": ["internal/trace/trace.go:insertName,synthesiseName"]}
{"id": "C14", "title": "Naming terminates", "statement": "The search for a free name always ends after at most one more attempt than there are names already taken.", "quantifier": "every set of taken names and every base name", "why_tests_cant": "Termination of an unbounded for loop.", "anchors": ["internal/trace/trace.go:insertName"]}
{"id": "C15", "title": "Expanded traces are valid tests", "statement": "Expanding any forbidden trace under any name gives a test tree that full validation accepts, whose nodes are all tagged with exactly that name.", "quantifier": "every trace (any prefix length) and name", "why_tests_cant": "Unbounded prefix.", "anchors": ["internal/trace/expand.go:Forbidden.Expand", "internal/validate/validate.go:Full"]}
{"id": "C16", "title": "Collapse inverts Expand", "statement": "Collapsing an expanded trace succeeds and returns the same prefix and forbidden event, with the name cleared.  (Full equality is false for named traces.)", "quantifier": "every trace and name", "why_tests_cant": "Round-trip over unbounded traces; a fuzz test only samples.", "anchors": ["internal/trace/collapse.go:Collapse", "internal/trace/expand.go"]}
{"id": "C17", "title": "What Collapse accepts", "statement": "Collapse succeeds exactly on trees that form a single chain root, n1, ..., nk, fail of individually valid nodes, returning the inconclusive events in order as prefix and the last passing event as forbidden event (an empty event if there is none); it fails on any branching or ill-formed chain.  It is not injective: a chain with two passing nodes loses the first.", "quantifier": "every test tree", "why_tests_cant": "All trees.", "anchors": ["internal/trace/collapse.go:Collapse,collapseNode"]}
{"id": "C18", "title": "Suite-level round-trip", "statement": "Expanding a named suite and collapsing the result gives, whatever the iteration order of the maps, the same test names each with its trace with the name cleared.", "quantifier": "every suite and every map iteration order", "why_tests_cant": "Go randomises map iteration; tests see a few orders.", "anchors": ["internal/trace/expand.go:ExpandAll", "internal/trace/collapse.go:CollapseAll", "internal/structure/map.go"]}
{"id": "C19", "title": "Full validation checks every node", "statement": "Full validation accepts a tree if and only if the root has no event, no outcome and at least one test, and every other node at any depth has at least one test and is either a fail node with neither event nor successors, an inconclusive node with an event and at least one successor, or a passing node with an event and exactly one successor.", "quantifier": "every test tree", "why_tests_cant": "All trees of all shapes and depths.", "anchors": ["internal/validate/validate.go:Full", "internal/validate/node.go"]}
{"id": "C20", "title": "Validation visits in pre-order and reports the first fault", "statement": "Walking a tree visits every node exactly once in pre-order (parents first, earlier siblings' whole subtrees before later siblings), stopping at the first error; so validation reports the fault of the first bad node in pre-order.", "quantifier": "every tree and every visitor", "why_tests_cant": "Unbounded trees; depends on the stack discipline.", "anchors": ["internal/testlang/walk.go:Walk", "internal/structure/stack.go"]}
{"id": "C21", "title": "Suite validation does not depend on map order", "statement": "Validating a suite succeeds iff every test in it validates, for every map iteration order, and then returns the same names and trees.", "quantifier": "every suite and iteration order", "why_tests_cant": "Random iteration order.", "anchors": ["internal/validate/suite.go:FullSuite", "internal/structure/map.go:TryOverMapValues"]}
{"id": "C22", "title": "Building a validated test cannot crash", "statement": "Building a state machine from a validated test terminates and never dereferences a missing event or a missing identifier; the only error it can return is a conflict between channel types.", "quantifier": "every validated tree", "why_tests_cant": "Crash freedom for all trees.", "anchors": ["internal/stm/builder.go:Build", "internal/stm/state.go:addTransitionToNode"]}
{"id": "C23", "title": "One state per non-failing node", "statement": "The machine built from a validated test has exactly one state for each non-failing node of the tree, the first one being called initial and standing for the root; failing nodes give no state.", "quantifier": "every validated tree", "why_tests_cant": "All trees.", "anchors": ["internal/stm/builder.go:Build,processNode"]}
{"id": "C24", "title": "State identifiers are unique", "statement": "If no node of the tree carries an identifier beforehand, all states of the built machine have distinct identifiers.  (With pre-assigned identifiers such as step0 this is false.)", "quantifier": "every validated tree without identifiers", "why_tests_cant": "Counter discipline over all trees.", "anchors": ["internal/stm/builder.go:ensureNodeID"]}
{"id": "C25", "title": "The machine is closed and connected", "statement": "Every transition leads to a state of the machine, and every state other than the initial one is the target of exactly one transition; every state is reachable from the initial one.", "quantifier": "every validated tree without identifiers", "why_tests_cant": "Global graph property over all trees.", "anchors": ["internal/stm/builder.go", "internal/stm/state.go"]}
{"id": "C26", "title": "Transitions are exactly the successors", "statement": "The transitions of a state are, channel by channel and in order, exactly the events of the non-failing successors of its node, each leading to the state of that successor.", "quantifier": "every validated tree and every node", "why_tests_cant": "All trees.", "anchors": ["internal/stm/state.go:AddOutgoingNode", "internal/stm/transition/set.go:AddToSets"]}
{"id": "C27", "title": "Verdicts come from successors", "statement": "A state reports for each test named by some successor node the outcome of the last such successor, and nothing else.", "quantifier": "every validated tree and node", "why_tests_cant": "All trees, overlapping test lists.", "anchors": ["internal/stm/state.go:addVerdictsFromNode", "internal/stm/verdict/verdict.go:Add"]}
{"id": "C28", "title": "Recorded test names", "statement": "The set of tests recorded in a machine is exactly the set of tests named by non-root nodes of the tree, and every test mentioned in a verdict is in it.", "quantifier": "every validated tree", "why_tests_cant": "All trees.", "anchors": ["internal/stm/builder.go:buildState"]}
{"id": "C29", "title": "Channel type inference is exact", "statement": "Building succeeds exactly when, for every channel name, all events of the tree on it carry values of the same kind (none, number, constant); the inferred type is then that kind, and for numbers it is int if some value is negative and nat otherwise.", "quantifier": "every validated tree", "why_tests_cant": "All trees and values.", "anchors": ["internal/stm/builder.go:inferEventType", "internal/testlang/rstype/unify.go", "internal/testlang/value/int.go:Type"]}
{"id": "C30", "title": "Suite types do not depend on iteration order", "statement": "Unifying the channel types of all machines of a suite gives the same success or failure and the same types whatever order maps are iterated in: it succeeds exactly when no channel has two kinds across the suite, and yields for each channel the least type covering all machines.", "quantifier": "every suite and all iteration orders of both maps", "why_tests_cant": "Random map order, unbounded suites.", "anchors": ["internal/stm/builder.go:unifyTypes", "internal/testlang/rstype/unify.go:Unify"]}
{"id": "C31", "title": "Unification is a join", "statement": "Unifying types is commutative, associative and idempotent up to error, has the missing type as unit, succeeds exactly for equal kinds, and returns the least upper bound for the order nat < int < real.", "quantifier": "all types", "why_tests_cant": "Algebraic laws.", "anchors": ["internal/testlang/rstype/unify.go", "internal/testlang/rstype/arithmos.go:MaxDomain"]}
{"id": "C32", "title": "Rebuilding gives the same machine", "statement": "Building a test assigns identifiers inside the test tree; building the same (now annotated) test again, with a fresh or a used builder, gives the same machine and changes no identifier.", "quantifier": "every validated tree, every earlier use of the builder", "why_tests_cant": "Hidden mutation and reuse of a stateful builder.", "anchors": ["internal/stm/builder.go:Build,ensureNodeID,BuildMany"]}
{"id": "C33", "title": "One transition set per channel", "statement": "Within a state no two transition sets are for the same channel, no set is empty, and adding a transition keeps the order and contents of all others.", "quantifier": "all sequences of additions", "why_tests_cant": "Unbounded sequences of additions.", "anchors": ["internal/stm/transition/set.go:AddToSets"]}
{"id": "C34", "title": "Aggregation loses no transition", "statement": "Grouping all transitions of a machine by channel yields distinct channels; for each channel and state the grouped transitions are exactly those the state has on that channel, in order, and nothing else appears.", "quantifier": "every machine with unique state identifiers", "why_tests_cant": "All machines.", "anchors": ["internal/stm/stm.go:TransitionSets", "internal/stm/transition/set.go:AddToAggregateSets"]}
{"id": "C35", "title": "Inputs and outputs are split correctly", "statement": "The generator context lists input channels and non-input channels disjointly and completely, in order; its merged input table gives for each state all input transitions of that state; the two flags say exactly whether any, resp. the first, state has an input.", "quantifier": "every machine", "why_tests_cant": "All machines.", "anchors": ["internal/gen/gencommon/context.go:makeTransitions,populateFilters,addInput,firstStateHasIn"]}
{"id": "C36", "title": "Test suites survive the JSON hop", "statement": "Writing a test suite made from read-and-named traces with non-empty channel names and reading it back gives the same suite.", "quantifier": "every list of such traces", "why_tests_cant": "All suites.", "anchors": ["internal/testlang/testlang.go:Suite.Write,ReadSuite", "internal/testlang/node.go", "internal/serial/serial.go"]}
{"id": "C37", "title": "State machine suites survive the JSON hop, or are refused", "statement": "Writing a state machine suite succeeds exactly when every transition carries a value; when it succeeds (channel names well-formed, values normal) reading it back gives the same suite.  Hence a test with any valueless event can be read, validated and built but never emitted.", "quantifier": "every machine suite", "why_tests_cant": "All suites.", "anchors": ["internal/stm/suite.go:Write,ReadSuite", "internal/testlang/value/value.go:MarshalText", "internal/stm/transition/transition.go"]}
{"id": "C38", "title": "Enumeration names round-trip", "statement": "For kinds, outcomes, type names and C++ variants: writing a valid member and reading it back, in any ASCII letter case, gives the same member; different members have different names; unknown names and out-of-range members are rejected.", "quantifier": "all members and all strings", "why_tests_cant": "All strings and letter cases.", "anchors": ["internal/testlang/channel/kind_enum.go", "internal/testlang/outcome_enum.go", "internal/testlang/rstype/rstype.go", "internal/gen/config/cpp/variant_enum.go"]}
{"id": "C39", "title": "Sets and verdicts keep their contents in JSON", "statement": "A set of tests written in any order and read back is the same set, and a verdict map written and read back is the same map.", "quantifier": "every set, verdict and iteration order", "why_tests_cant": "Random iteration order.", "anchors": ["internal/structure/set.go", "internal/stm/verdict/verdict.go"]}
{"id": "C40", "title": "The generated test fails exactly on the forbidden trace", "statement": "Driving the test program generated for a forbidden trace with any sequence of acknowledgements, outputs, timer events that the main loop lets through, the program ends with a failing status if and only if, before any timeout, the observed events are exactly the prefix followed by the forbidden event.", "quantifier": "every trace whose events all carry values with distinct callback names, every event sequence", "why_tests_cant": "All schedules of events.", "anchors": ["internal/gen/cpp/embed/templates/base/stm.cpp.tmpl", "internal/gen/cpp/embed/templates/base/out_callback.cpp.tmpl", "internal/gen/cpp/embed/templates/base/in_callback.cpp.tmpl", "internal/gen/cpp/embed/templates/base/state_entry.cpp.tmpl"]}
{"id": "C41", "title": "The verdict tracks the trace", "statement": "While the generated test runs, its recorded outcome is inconclusive until the whole prefix has been observed, pass from then on, and fail exactly once the forbidden event has been observed.", "quantifier": "every such trace and event sequence", "why_tests_cant": "All schedules.", "anchors": ["internal/gen/cpp/embed/templates/base/state_entry.cpp.tmpl", "internal/gen/cpp/embed/templates/base/verdict.cpp.tmpl"]}
{"id": "C42", "title": "Deviation ends the test off-script", "statement": "The first output that does not match the current step ends the test as off-script without changing the recorded outcome.", "quantifier": "every such trace and every deviating output", "why_tests_cant": "All schedules.", "anchors": ["internal/gen/cpp/embed/templates/base/out_callback.cpp.tmpl"]}
{"id": "C43", "title": "A finished test stays finished", "statement": "Under the animate main loop, once the test has ended its status and outcome never change again.  (At the level of raw callbacks this is false: an output arriving after the end can restart the test.)", "quantifier": "every machine, every event sequence", "why_tests_cant": "All schedules, including late callbacks.", "anchors": ["internal/gen/cpp/embed/templates/animate/main_body.cpp.tmpl", "internal/gen/cpp/embed/templates/base/stm.cpp.tmpl"]}
{"id": "C44", "title": "Timers act only when they should", "statement": "A timeout ends a running test as timed out and does nothing to a finished one; the initial-delay callback enters the first state only while the test is waiting to start and otherwise does nothing; ending twice keeps the first status; ending with a running status ends as an internal error.", "quantifier": "every machine, state and callback sequence", "why_tests_cant": "All states.", "anchors": ["internal/gen/cpp/embed/templates/base/stm.cpp.tmpl:timeoutCallback,initialDelayCallback,end"]}
{"id": "C45", "title": "Exit codes", "statement": "The exit code of a test is 1 exactly for a failure, 2 exactly for an internal error and 0 for every other status; the waiting statuses are exactly the running ones.", "quantifier": "all statuses", "why_tests_cant": "Finite but must be complete; not covered by any test in the repository.", "anchors": ["internal/gen/cpp/embed/prelude/rtcg.cpp"]}
{"id": "C46", "title": "Generated code refers only to things it declares", "statement": "In the program generated from a built machine every state constant, entry function and verdict setter that is used is declared exactly once, no two callbacks share a name, no switch has two identical cases, and every literal fits the type of its channel.  (False if an output and a call share a channel name, if preset identifiers differ only in letter case, or if an event has no value.)", "quantifier": "every machine built from a validated, identifier-free tree with valid states, typed channels and representable values whose non-input channels have distinct names", "why_tests_cant": "All machines.", "anchors": ["internal/gen/cpp/func.go", "internal/gen/cpp/embed/templates/base/*.tmpl"]}
{"id": "C47", "title": "The right inputs are sent", "statement": "On entering a state for an input step the generated program sends exactly that input with exactly that value (for values that fit the C++ type), and sends nothing in any other state.  (False for values outside 32 bits.)", "quantifier": "every trace and schedule", "why_tests_cant": "All values and schedules.", "anchors": ["internal/gen/cpp/embed/templates/base/state_entry.cpp.tmpl", "internal/gen/cpp/func.go:Value,StdType", "internal/stm/state.go:In"]}
{"id": "C48", "title": "Branching tests follow the tree", "statement": "For any machine built from a validated, identifier-free tree whose states are valid (at most one input, no input/output mixture, successors distinguishable by event), the generated program after any accepted event sequence is in the state of the tree node reached by that sequence, and has failed exactly if that node has a failing successor naming a test that no later successor of the node names with another outcome (so for a test named by only one successor: exactly if some successor of it fails).  (Having any failing successor is not enough.)", "quantifier": "every such tree and event sequence", "why_tests_cant": "All trees and schedules.", "anchors": ["internal/gen/cpp/embed/templates/base/*.tmpl", "internal/stm/builder.go"]}
{"id": "C49", "title": "Generation into a fresh directory", "statement": "Generating C++ into an empty output directory writes exactly the expected files, each with the expected content, if every configured variant overrides the type of some channel of the suite (or a test is called convert), its conversion source exists and every machine has a template rendering; otherwise generation fails - in particular, without an override, on convert.h, whose directory is then never created.", "quantifier": "every configuration and suite with plain test names", "why_tests_cant": "Depends on configuration/suite combination and directory state.", "anchors": ["internal/gen/cpp/cpp.go:Dirs,Generate", "internal/gen/cpp/template.go", "internal/gen/gen.go"]}
{"id": "C50", "title": "Output stays under the output directory", "statement": "With test names that are plain path components, every directory created and every file written lies under the output directory.  (False for names such as ../x.)", "quantifier": "every suite, configuration and output directory", "why_tests_cant": "All names.", "anchors": ["internal/gen/gencommon/dirset.go", "internal/gen/cpp/cpp.go", "internal/gen/catkin/catkin.go", "internal/gen/makefile/makefile.go"]}
{"id": "C51", "title": "Tests do not overwrite each other", "statement": "With plain test names and each variant configured once, no two writes of a run go to the same file, and after a successful run, whatever the directory held before, every test has its own files and the shared files their own content.  (A variant configured twice overwrites itself.)", "quantifier": "every suite", "why_tests_cant": "All pairs of names.", "anchors": ["internal/gen/cpp/cpp.go", "internal/gen/catkin/catkin.go"]}
{"id": "C52", "title": "Package metadata is expanded per test", "statement": "Every test's package file is the configured package with the placeholder replaced by that test's own name, whatever the order in which tests are generated; the template itself is never changed.", "quantifier": "every suite and iteration order", "why_tests_cant": "Aliasing bugs only show with several tests in some order.", "anchors": ["internal/gen/catkin/catkin.go:generateTest", "internal/gen/config/catkin/package.go:Expand"]}
{"id": "C53", "title": "Autofill only fills gaps", "statement": "Autofilling sets the format to 2, leaves every non-empty text field and the dependency lists unchanged, gives every empty text field its documented default, and doing it twice equals doing it once.", "quantifier": "every package description", "why_tests_cant": "All field combinations.", "anchors": ["internal/gen/config/catkin/package.go:Autofill"]}
{"id": "C54", "title": "Placeholder expansion is complete", "statement": "Expanding replaces the non-overlapping left-to-right occurrences of the placeholder and nothing else; if the name is not made of placeholder pieces no placeholder remains; the version and dependencies are untouched.", "quantifier": "all templates and names", "why_tests_cant": "All strings.", "anchors": ["internal/gen/config/catkin/package.go:Expand,expandOne"]}
{"id": "C55", "title": "Channel type overrides", "statement": "Processing a configuration keeps exactly the channels of the suite, each with its inferred type and the last override given for its name (none if not given); the conversion flag is set exactly if some channel of the suite is overridden.", "quantifier": "every configuration and type map, every iteration order", "why_tests_cant": "Random iteration order.", "anchors": ["internal/gen/config/cpp/context.go:Process", "internal/gen/config/cpp/cpp.go:ChannelMap"]}
{"id": "C56", "title": "Cleaning refuses the current directory", "statement": "With -clean, an output path that denotes the current directory wherever that is (empty, ., ./., a/..) is refused before anything is deleted; without -clean nothing is deleted; with it nothing outside the output path is.  (Paths above the current directory, such as .., and the current directory by its own name are not refused.)", "quantifier": "every path string", "why_tests_cant": "All spellings.", "anchors": ["cmd/rtcg-gen/main.go:maybeClean,run"]}
{"id": "C57", "title": "Command-line arguments", "statement": "Each tool accepts exactly the documented numbers of arguments, using standard input when the last is missing, and rejects every other count; the optional-argument parse never reads past the arguments.", "quantifier": "every argument list", "why_tests_cant": "All argument lists.", "anchors": ["internal/cli/cli.go:ParseFileArgument", "cmd/*/main.go"]}
{"id": "C58", "title": "C++ types and literals", "statement": "The C++ type chosen for a channel is std::string exactly for constants, unsigned int exactly for naturals, int exactly for integers and double exactly for reals; a number's literal denotes that number and a constant's literal denotes that constant if it contains no quote, backslash or line break.", "quantifier": "all types and values", "why_tests_cant": "All values.", "anchors": ["internal/gen/cpp/func.go:StdType,Value"]}
{"id": "C59", "title": "Identifier case conversion", "statement": "Lower-underscoring never yields an upper-case ASCII letter, is idempotent on ASCII text and keeps the letters of its input in order; up-casing the first letter changes at most the first letter and is idempotent.", "quantifier": "every ASCII string", "why_tests_cant": "All strings.", "anchors": ["internal/strmanip/strmanip.go"]}
{"id": "C60", "title": "Failures after a trace", "statement": "The failures found after a trace are exactly the (test, forbidden event) pairs of tests whose prefix equals the trace, once each; the spine nodes built from them contain one separate node per input failure and one shared node holding all other failures.", "quantifier": "every suite, trace and iteration order", "why_tests_cant": "All suites and orders.", "anchors": ["internal/factorise/factorise.go"]}
{"id": "C61", "title": "From trace file to running test", "statement": "For every file of well-formed, fully valued traces, running the whole pipeline (read, name, expand, write, read, validate, build, write, read, generate) succeeds up to type conflicts, and each generated program fails exactly when its own forbidden trace is observed.", "quantifier": "every list of such traces and every event sequence", "why_tests_cant": "Composition of all stages over unbounded inputs.", "anchors": ["rtcg.sh", "cmd/*/main.go"]}
{"id": "C62", "title": "Tagging a whole tree", "statement": "Marking a whole tree replaces the test names of every node, at any depth, and changes nothing else.", "quantifier": "every tree and list of test names", "why_tests_cant": "All trees.", "anchors": ["internal/testlang/walk.go:MarkAll"]}
{"id": "C63", "title": "The ROS variant follows the tree", "statement": "Generated for ROS, a test behaves as the interactive one: after any sequence of timer, acknowledgement and output messages in which acknowledgements only come when one is awaited, its position, outcomes, inputs sent and status are those of the interactive test given the same events, so that a trace test fails exactly when its trace has been observed.  An unexpected acknowledgement later is reported as an internal error, never as a failure; one that arrives during the initial delay can make the test fail although nothing was sent or received.", "quantifier": "every supported tree or trace and every message sequence", "why_tests_cant": "All schedules of three kinds of asynchronous callbacks.", "anchors": ["internal/gen/cpp/embed/templates/ros/main.cpp.tmpl", "internal/gen/cpp/embed/templates/base/stm.cpp.tmpl"]}
{"id": "C64", "title": "Construction sends nothing", "statement": "Constructing the generated test object, which happens before the publishers are created in the ROS variant, never sends an input; the test waits for the initial delay exactly if its first state has an input.", "quantifier": "every machine, type map and list of tests for which generation succeeds", "why_tests_cant": "All machines, including ones not built by this tool.", "anchors": ["internal/gen/cpp/embed/templates/base/stm.cpp.tmpl", "internal/gen/cpp/embed/templates/ros/main.cpp.tmpl"]}
{"id": "C65", "title": "Generation is deterministic", "statement": "Whether generation succeeds, and the files and directories there are after a successful run, do not depend on the orders in which maps of tests and types are iterated.", "quantifier": "every configuration, suite with plain names, file system and pair of iteration orders", "why_tests_cant": "All iteration orders; Go randomises them.", "anchors": ["internal/gen/gen.go", "internal/gen/cpp/cpp.go", "internal/gen/catkin/catkin.go"]}
{"id": "C66", "title": "Generation leaves the conversion sources alone", "statement": "If the configuration directory and the output directory differ, no run, successful or not, changes the user's conversion code.  (If they are the same directory, a successful run leaves it empty.)", "quantifier": "every configuration, suite, file system and iteration order", "why_tests_cant": "All directory layouts; needs the order of opening, truncating and reading.", "anchors": ["internal/gen/cpp/copy.go:copyLocalFile,writeFile"]}
{"id": "C67", "title": "Path spelling does not matter", "statement": "Two spellings of a path are treated alike by rtcg-gen exactly when they denote the same place from every current directory: cleaning a path does not change what it denotes and gives equal results for equal denotations.", "quantifier": "all pairs of path strings and all current directories", "why_tests_cant": "All strings.", "anchors": ["cmd/rtcg-gen/main.go:parseArgs,run", "path/filepath.Clean as used there"]}
{"id": "C68", "title": "rtcg-make-stms accepts and prints", "statement": "Given a readable suite, rtcg-make-stms succeeds exactly if no test is null, every test is a valid tree, each channel carries values of one class throughout the suite and every event carries a value, whatever the orders in which maps are iterated; what it prints, rtcg-gen reads as the machines of those tests with the least channel types covering all of them.", "quantifier": "every input text and iteration order", "why_tests_cant": "All suites and orders; composes decoder, validator, builder, unification and encoder.", "anchors": ["cmd/rtcg-make-stms/main.go", "internal/validate/validate.go", "internal/stm/builder.go", "internal/stm/suite.go"]}
{"id": "C69", "title": "rtcg-read-traces accepts and prints", "statement": "rtcg-read-traces succeeds exactly on the files whose traces can be read and whose prefixes have at most 4996 events, whatever the iteration order; if the names in them are valid UTF-8 and channel names are not empty, what it prints is read back by rtcg-make-stms as exactly the trees of the traces under their names.", "quantifier": "every input text and iteration order", "why_tests_cant": "All files and orders; composes parser, naming, expansion and encoder.", "anchors": ["cmd/rtcg-read-traces/main.go", "internal/trace/expand.go:Forbidden.Expand", "internal/trace/trace.go", "internal/testlang/testlang.go"]}
{"id": "C70", "title": "What a state does on entry", "statement": "In a machine built from any valid tree, with any branching: a state reports failure exactly if its outcome includes failing; it counts as an input state exactly if one of its non-dead continuations is an input; the input it sends is the one continuation of the first input channel that has exactly one continuation, and it sends nothing if no input channel has exactly one.", "quantifier": "every valid tree and every state of its machine", "why_tests_cant": "All trees and all branching patterns.", "anchors": ["internal/stm/state.go", "internal/stm/builder.go"]}
{"id": "C71", "title": "The generated Makefile builds every test", "statement": "Read as make reads it, the Makefile has one rule per test whose command compiles that test's main.cpp, rtcg.cpp and (if some channel has an override) convert.cpp into bin/<test>; the default goal builds all of them and nothing else, in whatever order rules are run; after a successful generation every named source exists, rtcg.h is found, and convert.h is found exactly if some channel has an override.  A one-at-a-time make creates bin first; with parallel jobs nothing makes a program wait for bin.", "quantifier": "every set of test names, configuration, suite, file system, and every order in which make may run the rules", "why_tests_cant": "All sets of names and all schedules of a parallel make.", "anchors": ["internal/gen/makefile/embed/templates/Makefile.tmpl", "internal/gen/makefile/makefile.go"]}
{"id": "C72", "title": "The generated CMakeLists.txt names what exists", "statement": "Read as CMake reads it, the file of a test names its package, looks for and passes on roscpp, std_msgs and the configured dependencies in order, and builds its program from main.cpp, convert.cpp and rtcg.cpp; after generation these exist, except that convert.cpp does only with an override.  Packages of different tests have different names exactly if the configured name is missing or has the placeholder; the library targets of any two tests have the same names.", "quantifier": "every package, configuration, suite and file system", "why_tests_cant": "All names and dependency lists.", "anchors": ["internal/gen/catkin/embed/templates/CMakeLists.txt.tmpl", "internal/gen/catkin/catkin.go"]}
{"id": "C73", "title": "package.xml says what the package says", "statement": "Whatever its fields contain, the package.xml written for a package is read by an XML reader as one package element with exactly the fields of the package, in order; text that XML can hold comes back unchanged and anything else is replaced by U+FFFD, character by character; what CMakeLists.txt looks for is declared there exactly if the configuration lists roscpp and std_msgs itself.", "quantifier": "every package, with arbitrary bytes in all fields", "why_tests_cant": "All byte strings, including markup, quotes, control characters and invalid UTF-8.", "anchors": ["internal/gen/config/catkin/package.go:Package.Write,Package", "internal/gen/catkin/catkin.go:generatePackageXML"]}
{"id": "C74", "title": "convert.h converts every channel", "statement": "If channel names are identifiers and overrides and includes are plain one-line text, the generated convert.h is read by a C++ compiler as: the configured includes in order, a value and a message type per channel (the override, or the default type of the target), and a conversion function each way per channel, with a body exactly if the channel has no override; nothing is defined twice exactly if no two channels differ only in the case of their first letter; programs with two source files including it link only if every channel has an override.", "quantifier": "every set of channels, types, overrides and includes, both targets, and every successful run", "why_tests_cant": "All channel maps and override texts; collisions need particular pairs of names.", "anchors": ["internal/gen/cpp/embed/templates/base/convert/convert_base.h.tmpl", "internal/gen/cpp/embed/templates/animate/convert/convert.h.tmpl", "internal/gen/cpp/embed/templates/ros/convert/convert.h.tmpl", "internal/gen/config/cpp/context.go:Process"]}
{"id": "C75", "title": "main.cpp declares what it uses, with convert.h, and nothing twice", "statement": "In the main.cpp and convert.h written together for any valid tree, every type, variable, field, method, enumerator and function that main.cpp uses has been declared before (by itself, by convert.h, or by a header that it includes), and is called with the declared number of arguments; no name is declared twice in a scope or is also a macro; every method is declared in its class as it is defined and every declared method is defined; the labels of a switch are distinct; value-returning functions end in a return; all literals are well-formed.  The names excluded by the hypotheses do break this.", "quantifier": "every valid tree with names that C++ can spell and that do not clash, every type map, configuration and title, for both targets", "why_tests_cant": "All trees; needs the texts of both files and the scoping rules of C++.", "anchors": ["internal/gen/cpp/embed/templates/base", "internal/gen/cpp/embed/templates/animate/main.cpp.tmpl", "internal/gen/cpp/embed/templates/ros/main.cpp.tmpl", "internal/gen/cpp/embed/templates/base/convert/convert_base.h.tmpl", "internal/gen/cpp/embed/prelude/rtcg.h"]}
{"id": "C76", "title": "The text of main.cpp runs as the tree says", "statement": "The main.cpp written for any valid tree, read as a C++ program and run statement by statement, shows what the tester's observations of the tree say: given typed words (animate), or timer ticks, acknowledgements and messages (ROS), it gives the system under test exactly the inputs it should have given, in order, and either waits for more, or has ended with the exit code of its final status and a log that ends in that status and the outcome of each test.  It never gets stuck on an undeclared name, a wrong argument count or an ill-typed value.", "quantifier": "every valid tree with names that C++ can spell and that do not clash, every type map, configuration, title, and every script of words or events that fit the channel types", "why_tests_cant": "All trees and all unbounded input sequences; needs the program text and its execution.", "anchors": ["internal/gen/cpp/embed/templates/base", "internal/gen/cpp/embed/templates/animate/main.cpp.tmpl", "internal/gen/cpp/embed/templates/ros/main.cpp.tmpl", "internal/gen/cpp/embed/prelude/rtcg.h"]}
{"id": "C77", "title": "The program of a forbidden trace exits with 1 exactly if the forbidden trace was seen", "statement": "The main.cpp written for the test of a forbidden trace, read as C++ and run on any sequence of typed words or ROS events, ends with exit code 1 exactly if the observations contain the prefix of the trace followed by its forbidden event.", "quantifier": "every forbidden trace with spellable names, every type map, title and configuration, and every script", "why_tests_cant": "All traces and all scripts.", "anchors": ["internal/gen/cpp/embed/templates/base", "internal/gen/cpp/embed/prelude/rtcg.h", "internal/trace/expand.go:Forbidden.Expand"]}
{"id": "C78", "title": "How a run of rtcg-gen ends", "statement": "A run of rtcg-gen reads the suite from standard input if the input path means -, else from the file; refuses to delete the current directory by name; with -clean deletes exactly what is at or below the output directory, failing if that is the root or a directory above the current one; then reads the configuration (an empty directory means the one the file is in), and generates. Everything else is left alone, and a run ends with success exactly if everything needed was supplied.", "quantifier": "every command line, file system, standard input, suite and configuration (the XML decoder is a parameter)", "why_tests_cant": "All paths and their spellings, all contents of the file system, and all combinations of failures.", "anchors": ["cmd/rtcg-gen/main.go", "internal/cli/cli.go", "internal/gen/config/config.go:Load", "internal/gen/gen.go"]}
{"id": "C79", "title": "What is written is in order", "statement": "Names are written in strictly ascending byte order wherever a map is ranged over: the tests of a suite file, the maps inside a machine file, the rules of the Makefile, and the enumerations and functions of convert.h.", "quantifier": "every suite, set of machines, type map and configuration", "why_tests_cant": "All maps, whatever order Go ranges over them in.", "anchors": ["internal/serial/serial.go", "internal/gen/cpp/embed/templates"]}
{"id": "C80", "title": "The JSON reader reads the language of RFC 8259", "statement": "A text is read exactly if some white space is followed by a text of the JSON grammar, and then as the value it denotes: escapes in either case, surrogate pairs joined, halves and bytes that are not UTF-8 replaced. Nesting beyond 10000 is refused. Each text denotes one value, written files are texts of the grammar, and suites depend on the value only.", "quantifier": "every byte string and every JSON value", "why_tests_cant": "All byte strings: every escape, every way of nesting and of placing white space.", "anchors": ["internal/serial/serial.go:ReadJSON", "internal/testlang/testlang.go:ReadSuite", "internal/stm/suite.go:ReadSuite"]}
{"id": "C81", "title": "Configuration files are read as the XML documents they are", "statement": "A configuration is read from a file exactly if the file starts with a well-formed XML document (text, comments, declarations and directives allowed around; whatever follows the root element is ignored) whose root is rtcg-gen and describes it: of repeated attributes and single elements the last counts, repeated list elements are kept in order, unknown elements and attributes are skipped, references and CDATA sections are expanded, name spaces do not matter. Each file has at most one meaning, and it depends on the root element only.", "quantifier": "every byte string (and every table of non-ASCII name characters), every configuration", "why_tests_cant": "All byte strings: every way of nesting, quoting, escaping, commenting and repeating.", "anchors": ["internal/gen/config/config.go:Load", "internal/gen/config/cpp/cpp.go:Config", "internal/gen/config/catkin/package.go:Package"]}
{"id": "C82", "title": "From a trace file and a configuration file to exit codes", "statement": "For every file of testable traces and every configuration file: rtcg-read-traces, rtcg-make-stms and rtcg-gen, run one after the other, succeed exactly if every variant has a typed channel and its conversion code (or a test called convert); then every trace has a main.cpp in each variant, and the text of that program, when run, whatever is typed into it, ends with exit code 1 exactly if the forbidden trace is observed.", "quantifier": "every trace file, configuration document, file system, iteration order, date and run of the generated programs (testable traces, C++ names; ROS: distinct topics and no unexpected acknowledgements)", "why_tests_cant": "All inputs to all tools together, and all executions of what they generate.", "anchors": ["cmd/rtcg-read-traces/main.go", "cmd/rtcg-make-stms/main.go", "cmd/rtcg-gen/main.go", "internal/gen/gen.go:Generate"]}
{"id": "C83", "title": "Command lines, files and exit codes", "statement": "rtcg-gen accepts exactly the documented flags (-clean, -clean=bool, -output dir, one or two dashes, -- ends them), help gives exit code 0, anything else that starts with a dash 2; the remaining arguments are a configuration file and optionally an input, otherwise exit code 1; the exit code is 0 exactly if generation succeeds, 1 if it fails and 2 if it crashes, and files change only then or as the run says. rtcg-read-traces and rtcg-make-stms read their one file (or standard input for none or a dash), print their result with exit code 0, and print nothing otherwise. A file is opened exactly if it is there and everything before a slash in its path is a directory.", "quantifier": "every list of arguments, file system, current directory and standard input", "why_tests_cant": "The space of command lines and file systems is infinite; tests try a few.", "anchors": ["cmd/rtcg-gen/main.go:parseArgs", "internal/cli/cli.go:ParseFileArgument", "internal/cli/cli.go:OpenFileOrStdin", "internal/cli/cli.go:HandleError", "cmd/rtcg-read-traces/main.go", "cmd/rtcg-make-stms/main.go"]}
{"id": "C84", "title": "rtcg.sh hides no failure and deletes nothing", "statement": "rtcg.sh ends with exit code 0 exactly if all three tools succeed, with 1 otherwise; if the traces cannot be read or turned into machines, no file changes; nothing is ever deleted, as long as the first argument does not look like a flag (refuted otherwise). With a directory as the first argument, as the usage line says, it always fails. For testable traces and a configuration document, it succeeds exactly if every variant has a typed channel and its conversion code, and the programs it leaves under out end with exit code 1 exactly if the forbidden trace is observed.", "quantifier": "every list of arguments, file system, standard input, iteration order and execution of the generated programs", "why_tests_cant": "All inputs to the whole tool chain and all executions of the generated tests.", "anchors": ["rtcg.sh", "cmd/rtcg-read-traces/main.go", "cmd/rtcg-make-stms/main.go", "cmd/rtcg-gen/main.go"]}
{"id": "C85", "title": "The conversion functions written into convert.h pass values on", "statement": "In the convert.h of the animate variant, toX and fromX of a channel without an override, when called, give back their argument as C++ passes it to a parameter of the type of the channel; over ROS, for channels of enumerations, they turn a text into a message with that text and back (cut at the first NUL), and for other channels they do not compile; with an override they are the functions of the user. So, if the functions of the user change nothing and, over ROS, there are some for all channels that are no enumerations, the generated program together with the convert.h generated with it ends with exit code 1 exactly if the forbidden trace is observed.", "quantifier": "every set of channels with readable names, types and overrides, every value, every input to the tool chain and execution of the generated programs", "why_tests_cant": "All values on all channels, and all executions of the generated program with the generated header.", "anchors": ["internal/gen/cpp/embed/templates/base/convert/convert_base.h.tmpl", "internal/gen/cpp/embed/templates/animate/convert/convert.h.tmpl", "internal/gen/cpp/embed/templates/ros/convert/convert.h.tmpl"]}
{"id": "C86", "title": "The prelude does what the generated tests take it to do", "statement": "rtcg.h and rtcg.cpp, which every generated tree has a copy of, declare and define the same functions; run, isRunning holds exactly of the statuses of a test that waits, exitCode gives 1 for a failed test, 2 for an internal error and 0 otherwise, getStatus gives the status of the object it is called on, a new test case waits to start, and every status and every outcome is printed as a text of its own.", "quantifier": "every argument of the functions of the prelude, every object, stream and state of the program that calls them, and every successful run of the generator", "why_tests_cant": "All programs and states that the functions may be called in, and all generated trees.", "anchors": ["internal/gen/cpp/embed/prelude/rtcg.h", "internal/gen/cpp/embed/prelude/rtcg.cpp", "internal/gen/cpp/copy.go:copyPrelude", "internal/gen/cpp/copy.go:copyPreludeFile"]}
{"id": "C87", "title": "The example that comes with rtcg", "statement": "The model of rtcg-read-traces and rtcg-make-stms makes, from the example traces, byte for byte the outputs that the authors recorded with the real tools; whatever the iteration orders, the tools succeed on the example, and each of its 21 traces gets, in each of the two variants, a program that ends with exit code 1 exactly if the trace is observed. The conversions of the example give back every percentage from 0 to 100 except 53 and 59, which become 52 and 58.", "quantifier": "every iteration order, classification of non-ASCII letters, date and execution of the generated programs; every percentage", "why_tests_cant": "All iteration orders of Go maps and all executions of the 42 generated programs.", "anchors": ["examples/bmon/traces", "examples/bmon/tests.json", "examples/bmon/stms.json", "examples/bmon/gen.xml", "examples/bmon/animate/src/convert/convert.cpp", "examples/bmon/ros/src/convert/convert.cpp"]}
{"id": "C88", "title": "Whatever is typed into a test", "statement": "The animate program does what the tree says of the words and values that its input spells, whatever words are typed: a value of a number channel may have a sign, be out of range or be followed by more letters, which are then the next word; any words spell something. The exit code is 1 exactly if the trace was observed in that sense. If something without digits is typed for a number, that counts as the observation of 0, and nothing that follows is read. When the input ends (or is not read any more) a test that is over ends as usual, and one that is not never ends: however long it runs, it goes on saying sorry.", "quantifier": "every test tree or trace, every sequence of typed words, every end of input, every number of rounds of the loop", "why_tests_cant": "All inputs a person or a pipe can give, and a statement about a loop that does not end.", "anchors": ["internal/gen/cpp/embed/templates/animate/main_body.cpp.tmpl", "internal/gen/cpp/embed/templates/animate/main.cpp.tmpl"]}
{"id": "C89", "title": "The sources of a test link", "statement": "main.cpp, the prelude and the user's convert.cpp link to one program exactly if convert.cpp defines, once each, the conversion functions of the channels with a type of their own, none of those of the other channels, and no main: nothing that the generator writes is defined twice, and every function and method that it declares is defined, with the same types.", "quantifier": "every tree of a test whose names can be spelled and do not clash, every set of types, configuration, variant, and list of functions in convert.cpp", "why_tests_cant": "All generated programs with all conversion files of users.", "anchors": ["internal/gen/cpp/embed/templates/base/convert/convert_base.h.tmpl", "internal/gen/cpp/embed/templates/base/base.cpp.tmpl", "internal/gen/cpp/embed/prelude/rtcg.h", "internal/gen/cpp/embed/prelude/rtcg.cpp"]}
{"id": "C90", "title": "Machine files with null in them", "statement": "If a machine file has null for a machine or a state, rtcg-gen crashes (exit code 2) or fails (1), if for a verdict (or without one) or for the type of a channel of the suite, it fails (1), and it never ends with 0 when there is a variant; null for a type in a single machine makes no difference, not even to the program. With everything else in order, which of the three happens depends on where null stands only: a null type always gives 1, and with no null type a null machine or state gives 2 unless a null verdict comes first. Whatever it writes before that stays in the output directory, is what it would have been, and nothing is deleted. The files that rtcg-make-stms prints have no null in them, whatever the machines.", "quantifier": "every machine file, configuration, file system, iteration order and command line", "why_tests_cant": "All places for null in files of any size, together with the orders in which the generator gets to them.", "anchors": ["internal/stm/suite.go:ReadSuite", "internal/stm/stm.go:TransitionSets", "internal/gen/gencommon/context.go:NewContext", "internal/gen/cpp/embed/templates/base/convert/convert_base.h.tmpl", "internal/gen/cpp/embed/templates/base/state_entry.cpp.tmpl", "cmd/rtcg-gen/main.go"]}
{"id": "C91", "title": "What a test suite or machine file says when keys are repeated", "statement": "A text is read as a test suite, or as a machine suite, exactly if it starts with a JSON document in which everything given for a field fits, and the result is what the document says: of texts given several times the last that is not null counts; null and the empty array forget the list that was there, the last array says how many elements there are, and each element is made of all that was given for its place since then; null forgets what may be null; maps collect, and of a repeated name the last counts; an event without a value keeps the value given before. Every document that fits has one meaning, and only the order of values for the same field matters. It is not true that the last value for a field counts (refuted: elements keep what an earlier array says of their place).", "quantifier": "every text, every JSON document, with any keys repeated in any objects", "why_tests_cant": "All documents; that exactly these are accepted and have exactly this meaning.", "anchors": ["internal/testlang/testlang.go:ReadSuite", "internal/testlang/node.go:Node", "internal/testlang/event.go:UnmarshalText", "internal/stm/suite.go:ReadSuite", "internal/stm/stm.go:Stm", "internal/stm/state.go:State", "internal/stm/transition/set.go:Set", "internal/structure/set.go:UnmarshalJSON", "internal/stm/verdict/verdict.go:UnmarshalJSON", "internal/serial/serial.go"]}
{"id": "C92", "title": "Every expression of the generated main.cpp has a type", "statement": "For every supported tree with spellable, unambiguous names, in both variants, main.cpp together with convert.h is well-typed: every operand, argument, initial value, assigned and returned value has a type that converts to what is asked for, conditions are truth values, switch labels belong to the enumeration, constants are not assigned, methods and callbacks used from outside are public and have the right parameters, and what goes to a stream can be printed. The overrides must fit: in the animate variant they are types of values, printable for inputs; over ROS they are message types. Otherwise the generator succeeds and the result has a type error (refuted without); over ROS that is an equivalence.", "quantifier": "every tree, every type map, configuration and list of tests, every override type with any abilities", "why_tests_cant": "The text depends on all of these; a test compiles one output.", "anchors": ["internal/gen/cpp/embed/templates/base/stm.cpp.tmpl", "internal/gen/cpp/embed/templates/base/out_callback.cpp.tmpl", "internal/gen/cpp/embed/templates/base/state_entry.cpp.tmpl", "internal/gen/cpp/embed/templates/base/convert/convert_base.h.tmpl", "internal/gen/cpp/embed/templates/animate/main_body.cpp.tmpl", "internal/gen/cpp/embed/templates/ros/main_body.cpp.tmpl", "internal/gen/cpp/embed/prelude/rtcg.h", "internal/gen/config/cpp/context.go:Process"]}
{"id": "C93", "title": "From a trace file to sources that compile and link", "statement": "For every file of testable traces and every configuration file, if rtcg-read-traces, rtcg-make-stms and rtcg-gen succeed one after the other, then the files that they leave for a trace in a variant (main.cpp, the shared convert.h, and the prelude) are sources that a compiler accepts: every name is declared, every expression has a type (if the types that the configuration gives to channels can do what they have to); and together with a convert.cpp they make a program exactly if that defines, once each, the conversion functions of the channels that the configuration gives a type, and none of the others. Asked of the names: C++ identifiers, channels that differ in more than the case of the first letter, no test named like a macro, and over ROS topics that differ.", "quantifier": "every trace file and configuration file, every order of maps, every file system, every set of functions in convert.cpp", "why_tests_cant": "The sources come out of three programs run on arbitrary files; a test compiles one of them.", "anchors": ["cmd/rtcg-read-traces/main.go", "cmd/rtcg-make-stms/main.go", "cmd/rtcg-gen/main.go", "internal/gen/cpp/cpp.go", "internal/gen/cpp/template.go", "internal/gen/cpp/embed/templates/base/stm.cpp.tmpl", "internal/gen/cpp/embed/templates/base/convert/convert_base.h.tmpl", "internal/gen/cpp/embed/prelude/rtcg.h", "internal/gen/cpp/embed/prelude/rtcg.cpp"]}
{"id": "C94", "title": "rtcg-gen killed while it runs", "statement": "Killed at any moment (also in the middle of making a path, of writing a file, or of cleaning), rtcg-gen has changed nothing outside its output directory, without -clean it has deleted nothing, and once generating, all files but at most one are as they were or as they are to be. Run again with the same arguments, however often it was cut off before, it ends in exactly the file system an undisturbed run would have ended in, if the suite and the configuration are outside the output directory (and the user's code is not in it). With -clean and the suite inside it, a run cut off after cleaning cannot be repeated (refuted).", "quantifier": "every file system, configuration, suite, order of maps and command line; every number of interruptions at any points, with any contents of the file being written", "why_tests_cant": "There are as many crash points as operations and bytes written, and histories of any number of cut off runs.", "anchors": ["cmd/rtcg-gen/main.go:run", "cmd/rtcg-gen/main.go:maybeClean", "internal/gen/gen.go:Generate", "internal/gen/cpp/copy.go", "internal/gen/templating/templating.go:CreateFile", "internal/gen/cpp/cpp.go:Generate", "internal/gen/catkin/catkin.go:Generate", "internal/gen/makefile/makefile.go:Generate"]}
{"id": "C95", "title": "A file that ends too early is not taken for a complete one", "statement": "If only the first bytes of what rtcg-read-traces or rtcg-make-stms printed reach the next tool (a full disk, a closed pipe, a killed process), that tool ends with exit code 1, prints nothing and touches no file, not even with -clean; only if just the final newline is missing does it read the same suite. The same holds of any suite that is a JSON object, and of configuration files: cut before the end of the root element they are refused, cut after it they are read as the whole. Trace files have no such protection (refuted): cut at the end of a line the remaining traces are lost without an error, and cut within a line another behaviour is forbidden.", "quantifier": "every suite and every text the tools print, every configuration file, every byte at which they are cut, every command line, file system and order of maps", "why_tests_cant": "Texts are unbounded and can be cut at every byte, also within strings, escapes and tags.", "anchors": ["internal/serial/serial.go:ReadJSON", "internal/testlang/testlang.go:ReadSuite", "internal/stm/suite.go:ReadSuite", "internal/gen/config/config.go:Load", "internal/trace/read.go:Read", "cmd/rtcg-make-stms/main.go", "cmd/rtcg-gen/main.go"]}
{"id": "C96", "title": "Failing system calls are never hidden, and running again repairs what they left", "statement": "rtcg-gen reports success only if none of the system calls it made failed, and then the files are exactly those of a run without trouble: an error while opening, making, reading, writing or closing any file, making a directory or cleaning always gives an error. Whatever it leaves then is no worse than after being killed, and once the trouble is over running the command again gives what it should have given. If one of the other tools can print only part of its output, rtcg.sh fails and touches nothing, or does what it would have done.", "quantifier": "every sequence of operations, every set of failing calls at any of them, every content a failing call leaves, any number of failing runs, every byte at which printing stops, every order of maps", "why_tests_cant": "Each of the hundreds of calls of a run can fail, in any combination and with any partial effect; tests do not run with failing disks.", "anchors": ["internal/gen/cpp/copy.go:writeFile,copyLocalFile,copyPreludeFile", "internal/gen/templating/templating.go:CreateFile", "internal/gen/catkin/catkin.go:generatePackageXML", "internal/gen/config/config.go:Load", "cmd/rtcg-gen/main.go:readSuite,maybeClean,generate", "internal/serial/serial.go:WriteJSON", "internal/cli/cli.go:HandleError"]}
{"id": "C97", "title": "Two runs at the same time do not disturb each other", "statement": "Two rtcg-gen processes whose output directories are apart, and neither of which reads in the output directory of the other, can run at the same time, also with -clean: if each would succeed on its own, then neither fails under any schedule, both end, and in the end each output directory is as if the other process had not been there, everything else is untouched, and the schedule makes no difference. Even if the other one fails or is killed at any time, a run that would succeed on its own succeeds with the same output. With the same output directory this does not hold (refuted): one can make the other fail.", "quantifier": "every schedule of the steps of the two processes, all suites, configurations, command lines, working directories, file systems and orders of maps", "why_tests_cant": "There are exponentially many schedules, which tests cannot control.", "anchors": ["cmd/rtcg-gen/main.go:run,maybeClean,readSuite,generate", "internal/gen/gen.go:Generate,mkdirs,runSubgens", "internal/gen/cpp/copy.go", "internal/gen/gencommon/dirset.go"]}
