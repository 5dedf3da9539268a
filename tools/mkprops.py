#!/usr/bin/env python3
"""Writes ../properties.jsonl.  Each entry: id, title, statement, quantifier, why_tests_cant, anchors."""
import json, os
P = []
def p(id, title, statement, quantifier, why, *anchors):
    P.append(dict(id=id, title=title, statement=statement, quantifier=quantifier,
                  why_tests_cant=why, anchors=list(anchors)))

V='internal/testlang/value/'; T='internal/testlang/'; TR='internal/trace/'; S='internal/stm/'; G='internal/gen/'
p('C01','Value text round-trip',
  'Writing a value as text and reading the text back gives the same value exactly when the value is an int64, or an enumeration constant that has no surrounding white space and does not itself spell an int64; a valueless event writes no value text and cannot be marshalled as a value.',
  'every int64 and every byte string used as an enumeration constant',
  'The int64 and byte-string domains are unbounded for testing; unit tests try 42 and "Ok".',
  V+'value.go:Value.MarshalText,Value.UnmarshalText', V+'int.go', V+'enum.go')
p('C02','Exact recognition of integer values',
  'Reading value text never fails; after trimming white space the result is an integer exactly when the text is an optional sign followed by at least one decimal digit whose numeric value lies in [-2^63, 2^63-1], and then it is that number; every other text becomes the enumeration constant with that trimmed text.',
  'every byte string',
  'The boundary (sign handling, overflow by one, leading zeros, spaces) is a property of all strings.',
  V+'value.go:Value.UnmarshalText', V+'int.go:IntValue.UnmarshalText')
p('C03','Event text round-trip',
  'Writing an event with a valid kind as text and parsing it into a fresh event gives back the same event if and only if its channel name is non-empty, has no dot and no surrounding white space, and its value (if any) round-trips as a value.',
  'every event (all names, kinds, values)',
  'An if-and-only-if over all byte strings; tests sample three events.',
  T+'event.go:Event.MarshalText,Event.UnmarshalText', T+'channel/channel.go:MarshalText,UnmarshalTextWithRemainder')
p('C04','Which texts are events',
  'Event text is accepted exactly when it contains a dot and the text between the first dot and the second dot (or the end), trimmed and lower-cased, is in, out or call; the channel name is then the trimmed text before the first dot and the value comes from everything after the second dot (absent if there is no second dot).',
  'every byte string',
  'Total characterisation of a parser; tests use a dozen strings.',
  T+'event.go:Event.UnmarshalText', T+'channel/channel.go:UnmarshalTextWithRemainder', T+'channel/kind_enum.go:ParseKind')
p('C05','Parsed events are stable under re-serialisation',
  'Any event obtained by parsing text whose channel name is non-empty is written and re-parsed to the same event, so tests survive the hop between rtcg-read-traces and rtcg-make-stms.  (It is false for an empty channel name: such a trace is accepted by the first tool and rejected by the second.)',
  'every byte string accepted as an event',
  'Needs an argument about trimming and splitting over every string.',
  T+'event.go', T+'channel/channel.go')
p('C06','Parsing into a used event',
  'Parsing text into an event that already holds data overwrites channel and value when the text carries a value; when the text carries no value the previous value is kept, so the result is independent of the previous contents exactly for texts with a value field or previously valueless events.',
  'every event text and every previous event',
  'Depends on previous state of the receiver, which tests always leave fresh.',
  T+'event.go:Event.UnmarshalText')
p('C07','Equality and prefix tests mean equality and prefix',
  'Event equality holds exactly for equal events; trace equality exactly for equal traces; the prefix test exactly when the second trace is the first followed by some further events.',
  'all pairs of events and traces',
  'Relational property over all pairs.',
  T+'event.go:Event.Equals', V+'value.go:Value.Equals', TR+'trace.go:Trace.Equals,Trace.IsPrefixOf')
p('C08','Reading back written traces',
  'A trace file that lists, one per line, an optional name and the comma-separated event texts of well-formed traces reads back as exactly those traces, in order.',
  'every finite list of well-formed traces of any length',
  'Unbounded inputs; the test reads one three-line file.',
  TR+'read.go:Read,parseRow,tryParseName', 'encoding/csv semantics as configured by newReader')
p('C09','Comments and blank lines are invisible',
  'Inserting or removing empty lines, or lines whose very first byte is #, between the lines of an unquoted trace file does not change what is read; a line containing only spaces is not blank and makes reading fail.',
  'every list of unquoted lines and every insertion point',
  'Quantifies over all files and insertion points.',
  TR+'read.go:newReader')
p('C10','Reading is all-or-nothing',
  'Reading succeeds exactly when every record of the file parses as a trace, and then yields one trace per record in file order; a single bad record makes the whole read fail with that record\'s error and no traces.',
  'every list of records',
  'Position of the bad record is unbounded.',
  TR+'read.go:Read')
p('C11','Shape of a row',
  'A row of n >= 1 cells becomes a trace with n-1 prefix events (in order) and the last cell as forbidden event; the name is the trimmed text before the first colon of the first cell, or empty if there is none; a row with no cells is rejected.',
  'every list of cells',
  'Quantifies over all rows.',
  TR+'read.go:parseRow,tryParseName,selectEvent')
p('C12','Naming loses nothing',
  'Naming a list of traces gives a suite with exactly as many tests as traces, in which every trace occurs, unchanged, under exactly one name per occurrence in the list; no trace overwrites another.',
  'every list of traces, including clashing and adversarial names',
  'Clashes such as foo, foo, foo0 grow without bound.',
  TR+'trace.go:Name,insertName,synthesiseName')
p('C13','Names follow the policy',
  'Each trace gets the first name free at its turn among: its own name, then its own name followed by 0, 1, 2, ...; traces with no name or named test get test0, test1, ....  Hence a name not clashing with earlier ones is kept, and names are never empty.',
  'every list of traces',
  'First-free choice over an unbounded family of names.',
  TR+'trace.go:insertName,synthesiseName')
p('C14','Naming terminates',
  'The search for a free name always ends after at most one more attempt than there are names already taken.',
  'every set of taken names and every base name',
  'Termination of an unbounded for loop.',
  TR+'trace.go:insertName')
p('C15','Expanded traces are valid tests',
  'Expanding any forbidden trace under any name gives a test tree that full validation accepts, whose nodes are all tagged with exactly that name.',
  'every trace (any prefix length) and name',
  'Unbounded prefix.',
  TR+'expand.go:Forbidden.Expand', 'internal/validate/validate.go:Full')
p('C16','Collapse inverts Expand',
  'Collapsing an expanded trace succeeds and returns the same prefix and forbidden event, with the name cleared.  (Full equality is false for named traces.)',
  'every trace and name',
  'Round-trip over unbounded traces; a fuzz test only samples.',
  TR+'collapse.go:Collapse', TR+'expand.go')
p('C17','What Collapse accepts',
  'Collapse succeeds exactly on trees that form a single chain root, n1, ..., nk, fail of individually valid nodes, returning the inconclusive events in order as prefix and the last passing event as forbidden event (an empty event if there is none); it fails on any branching or ill-formed chain.  It is not injective: a chain with two passing nodes loses the first.',
  'every test tree',
  'All trees.',
  TR+'collapse.go:Collapse,collapseNode')
p('C18','Suite-level round-trip',
  'Expanding a named suite and collapsing the result gives, whatever the iteration order of the maps, the same test names each with its trace with the name cleared.',
  'every suite and every map iteration order',
  'Go randomises map iteration; tests see a few orders.',
  TR+'expand.go:ExpandAll', TR+'collapse.go:CollapseAll', 'internal/structure/map.go')
p('C19','Full validation checks every node',
  'Full validation accepts a tree if and only if the root has no event, no outcome and at least one test, and every other node at any depth has at least one test and is either a fail node with neither event nor successors, an inconclusive node with an event and at least one successor, or a passing node with an event and exactly one successor.',
  'every test tree',
  'All trees of all shapes and depths.',
  'internal/validate/validate.go:Full', 'internal/validate/node.go')
p('C20','Validation visits in pre-order and reports the first fault',
  'Walking a tree visits every node exactly once in pre-order (parents first, earlier siblings\' whole subtrees before later siblings), stopping at the first error; so validation reports the fault of the first bad node in pre-order.',
  'every tree and every visitor',
  'Unbounded trees; depends on the stack discipline.',
  T+'walk.go:Walk', 'internal/structure/stack.go')
p('C21','Suite validation does not depend on map order',
  'Validating a suite succeeds iff every test in it validates, for every map iteration order, and then returns the same names and trees.',
  'every suite and iteration order',
  'Random iteration order.',
  'internal/validate/suite.go:FullSuite', 'internal/structure/map.go:TryOverMapValues')
p('C22','Building a validated test cannot crash',
  'Building a state machine from a validated test terminates and never dereferences a missing event or a missing identifier; the only error it can return is a conflict between channel types.',
  'every validated tree',
  'Crash freedom for all trees.',
  S+'builder.go:Build', S+'state.go:addTransitionToNode')
p('C23','One state per non-failing node',
  'The machine built from a validated test has exactly one state for each non-failing node of the tree, the first one being called initial and standing for the root; failing nodes give no state.',
  'every validated tree',
  'All trees.',
  S+'builder.go:Build,processNode')
p('C24','State identifiers are unique',
  'If no node of the tree carries an identifier beforehand, all states of the built machine have distinct identifiers.  (With pre-assigned identifiers such as step0 this is false.)',
  'every validated tree without identifiers',
  'Counter discipline over all trees.',
  S+'builder.go:ensureNodeID')
p('C25','The machine is closed and connected',
  'Every transition leads to a state of the machine, and every state other than the initial one is the target of exactly one transition; every state is reachable from the initial one.',
  'every validated tree without identifiers',
  'Global graph property over all trees.',
  S+'builder.go', S+'state.go')
p('C26','Transitions are exactly the successors',
  'The transitions of a state are, channel by channel and in order, exactly the events of the non-failing successors of its node, each leading to the state of that successor.',
  'every validated tree and every node',
  'All trees.',
  S+'state.go:AddOutgoingNode', S+'transition/set.go:AddToSets')
p('C27','Verdicts come from successors',
  'A state reports for each test named by some successor node the outcome of the last such successor, and nothing else.',
  'every validated tree and node',
  'All trees, overlapping test lists.',
  S+'state.go:addVerdictsFromNode', S+'verdict/verdict.go:Add')
p('C28','Recorded test names',
  'The set of tests recorded in a machine is exactly the set of tests named by non-root nodes of the tree, and every test mentioned in a verdict is in it.',
  'every validated tree',
  'All trees.',
  S+'builder.go:buildState')
p('C29','Channel type inference is exact',
  'Building succeeds exactly when, for every channel name, all events of the tree on it carry values of the same kind (none, number, constant); the inferred type is then that kind, and for numbers it is int if some value is negative and nat otherwise.',
  'every validated tree',
  'All trees and values.',
  S+'builder.go:inferEventType', T+'rstype/unify.go', V+'int.go:Type')
p('C30','Suite types do not depend on iteration order',
  'Unifying the channel types of all machines of a suite gives the same success or failure and the same types whatever order maps are iterated in: it succeeds exactly when no channel has two kinds across the suite, and yields for each channel the least type covering all machines.',
  'every suite and all iteration orders of both maps',
  'Random map order, unbounded suites.',
  S+'builder.go:unifyTypes', T+'rstype/unify.go:Unify')
p('C31','Unification is a join',
  'Unifying types is commutative, associative and idempotent up to error, has the missing type as unit, succeeds exactly for equal kinds, and returns the least upper bound for the order nat < int < real.',
  'all types',
  'Algebraic laws.',
  T+'rstype/unify.go', T+'rstype/arithmos.go:MaxDomain')
p('C32','Rebuilding gives the same machine',
  'Building a test assigns identifiers inside the test tree; building the same (now annotated) test again, with a fresh or a used builder, gives the same machine and changes no identifier.',
  'every validated tree, every earlier use of the builder',
  'Hidden mutation and reuse of a stateful builder.',
  S+'builder.go:Build,ensureNodeID,BuildMany')
p('C33','One transition set per channel',
  'Within a state no two transition sets are for the same channel, no set is empty, and adding a transition keeps the order and contents of all others.',
  'all sequences of additions',
  'Unbounded sequences of additions.',
  S+'transition/set.go:AddToSets')
p('C34','Aggregation loses no transition',
  'Grouping all transitions of a machine by channel yields distinct channels; for each channel and state the grouped transitions are exactly those the state has on that channel, in order, and nothing else appears.',
  'every machine with unique state identifiers',
  'All machines.',
  S+'stm.go:TransitionSets', S+'transition/set.go:AddToAggregateSets')
p('C35','Inputs and outputs are split correctly',
  'The generator context lists input channels and non-input channels disjointly and completely, in order; its merged input table gives for each state all input transitions of that state; the two flags say exactly whether any, resp. the first, state has an input.',
  'every machine',
  'All machines.',
  G+'gencommon/context.go:makeTransitions,populateFilters,addInput,firstStateHasIn')
p('C36','Test suites survive the JSON hop',
  'Writing a test suite made from read-and-named traces with non-empty channel names and reading it back gives the same suite.',
  'every list of such traces',
  'All suites.',
  T+'testlang.go:Suite.Write,ReadSuite', T+'node.go', 'internal/serial/serial.go')
p('C37','State machine suites survive the JSON hop, or are refused',
  'Writing a state machine suite succeeds exactly when every transition carries a value; when it succeeds (channel names well-formed, values normal) reading it back gives the same suite.  Hence a test with any valueless event can be read, validated and built but never emitted.',
  'every machine suite',
  'All suites.',
  S+'suite.go:Write,ReadSuite', V+'value.go:MarshalText', S+'transition/transition.go')
p('C38','Enumeration names round-trip',
  'For kinds, outcomes, type names and C++ variants: writing a valid member and reading it back, in any ASCII letter case, gives the same member; different members have different names; unknown names and out-of-range members are rejected.',
  'all members and all strings',
  'All strings and letter cases.',
  T+'channel/kind_enum.go', T+'outcome_enum.go', T+'rstype/rstype.go', G+'config/cpp/variant_enum.go')
p('C39','Sets and verdicts keep their contents in JSON',
  'A set of tests written in any order and read back is the same set, and a verdict map written and read back is the same map.',
  'every set, verdict and iteration order',
  'Random iteration order.',
  'internal/structure/set.go', S+'verdict/verdict.go')
p('C40','The generated test fails exactly on the forbidden trace',
  'Driving the test program generated for a forbidden trace with any sequence of acknowledgements, outputs, timer events that the main loop lets through, the program ends with a failing status if and only if, before any timeout, the observed events are exactly the prefix followed by the forbidden event.',
  'every trace whose events all carry values with distinct callback names, every event sequence',
  'All schedules of events.',
  G+'cpp/embed/templates/base/stm.cpp.tmpl', G+'cpp/embed/templates/base/out_callback.cpp.tmpl', G+'cpp/embed/templates/base/in_callback.cpp.tmpl', G+'cpp/embed/templates/base/state_entry.cpp.tmpl')
p('C41','The verdict tracks the trace',
  'While the generated test runs, its recorded outcome is inconclusive until the whole prefix has been observed, pass from then on, and fail exactly once the forbidden event has been observed.',
  'every such trace and event sequence',
  'All schedules.',
  G+'cpp/embed/templates/base/state_entry.cpp.tmpl', G+'cpp/embed/templates/base/verdict.cpp.tmpl')
p('C42','Deviation ends the test off-script',
  'The first output that does not match the current step ends the test as off-script without changing the recorded outcome.',
  'every such trace and every deviating output',
  'All schedules.',
  G+'cpp/embed/templates/base/out_callback.cpp.tmpl')
p('C43','A finished test stays finished',
  'Under the animate main loop, once the test has ended its status and outcome never change again.  (At the level of raw callbacks this is false: an output arriving after the end can restart the test.)',
  'every machine, every event sequence',
  'All schedules, including late callbacks.',
  G+'cpp/embed/templates/animate/main_body.cpp.tmpl', G+'cpp/embed/templates/base/stm.cpp.tmpl')
p('C44','Timers act only when they should',
  'A timeout ends a running test as timed out and does nothing to a finished one; the initial-delay callback enters the first state only while the test is waiting to start and otherwise does nothing; ending twice keeps the first status; ending with a running status ends as an internal error.',
  'every machine, state and callback sequence',
  'All states.',
  G+'cpp/embed/templates/base/stm.cpp.tmpl:timeoutCallback,initialDelayCallback,end')
p('C45','Exit codes',
  'The exit code of a test is 1 exactly for a failure, 2 exactly for an internal error and 0 for every other status; the waiting statuses are exactly the running ones.',
  'all statuses',
  'Finite but must be complete; not covered by any test in the repository.',
  G+'cpp/embed/prelude/rtcg.cpp')
p('C46','Generated code refers only to things it declares',
  'In the program generated from a built machine every state constant, entry function and verdict setter that is used is declared exactly once, no two callbacks share a name, no switch has two identical cases, and every literal fits the type of its channel.  (False if an output and a call share a channel name, if preset identifiers differ only in letter case, or if an event has no value.)',
  'every machine built from a validated, identifier-free tree with valid states, typed channels and representable values whose non-input channels have distinct names',
  'All machines.',
  G+'cpp/func.go', G+'cpp/embed/templates/base/*.tmpl')
p('C47','The right inputs are sent',
  'On entering a state for an input step the generated program sends exactly that input with exactly that value (for values that fit the C++ type), and sends nothing in any other state.  (False for values outside 32 bits.)',
  'every trace and schedule',
  'All values and schedules.',
  G+'cpp/embed/templates/base/state_entry.cpp.tmpl', G+'cpp/func.go:Value,StdType', S+'state.go:In')
p('C48','Branching tests follow the tree',
  'For any machine built from a validated, identifier-free tree whose states are valid (at most one input, no input/output mixture, successors distinguishable by event), the generated program after any accepted event sequence is in the state of the tree node reached by that sequence, and has failed exactly if that node has a failing successor naming a test that no later successor of the node names with another outcome (so for a test named by only one successor: exactly if some successor of it fails).  (Having any failing successor is not enough.)',
  'every such tree and event sequence',
  'All trees and schedules.',
  G+'cpp/embed/templates/base/*.tmpl', S+'builder.go')
p('C49','Generation into a fresh directory',
  'Generating C++ into an empty output directory writes exactly the expected files, each with the expected content, if every configured variant overrides the type of some channel of the suite (or a test is called convert), its conversion source exists and every machine has a template rendering; otherwise generation fails - in particular, without an override, on convert.h, whose directory is then never created.',
  'every configuration and suite with plain test names',
  'Depends on configuration/suite combination and directory state.',
  G+'cpp/cpp.go:Dirs,Generate', G+'cpp/template.go', G+'gen.go')
p('C50','Output stays under the output directory',
  'With test names that are plain path components, every directory created and every file written lies under the output directory.  (False for names such as ../x.)',
  'every suite, configuration and output directory',
  'All names.',
  G+'gencommon/dirset.go', G+'cpp/cpp.go', G+'catkin/catkin.go', G+'makefile/makefile.go')
p('C51','Tests do not overwrite each other',
  'With plain test names and each variant configured once, no two writes of a run go to the same file, and after a successful run, whatever the directory held before, every test has its own files and the shared files their own content.  (A variant configured twice overwrites itself.)',
  'every suite',
  'All pairs of names.',
  G+'cpp/cpp.go', G+'catkin/catkin.go')
p('C52','Package metadata is expanded per test',
  'Every test\'s package file is the configured package with the placeholder replaced by that test\'s own name, whatever the order in which tests are generated; the template itself is never changed.',
  'every suite and iteration order',
  'Aliasing bugs only show with several tests in some order.',
  G+'catkin/catkin.go:generateTest', G+'config/catkin/package.go:Expand')
p('C53','Autofill only fills gaps',
  'Autofilling sets the format to 2, leaves every non-empty text field and the dependency lists unchanged, gives every empty text field its documented default, and doing it twice equals doing it once.',
  'every package description',
  'All field combinations.',
  G+'config/catkin/package.go:Autofill')
p('C54','Placeholder expansion is complete',
  'Expanding replaces the non-overlapping left-to-right occurrences of the placeholder and nothing else; if the name is not made of placeholder pieces no placeholder remains; the version and dependencies are untouched.',
  'all templates and names',
  'All strings.',
  G+'config/catkin/package.go:Expand,expandOne')
p('C55','Channel type overrides',
  'Processing a configuration keeps exactly the channels of the suite, each with its inferred type and the last override given for its name (none if not given); the conversion flag is set exactly if some channel of the suite is overridden.',
  'every configuration and type map, every iteration order',
  'Random iteration order.',
  G+'config/cpp/context.go:Process', G+'config/cpp/cpp.go:ChannelMap')
p('C56','Cleaning refuses the current directory',
  'With -clean, an output path that denotes the current directory wherever that is (empty, ., ./., a/..) is refused before anything is deleted; without -clean nothing is deleted; with it nothing outside the output path is.  (Paths above the current directory, such as .., and the current directory by its own name are not refused.)',
  'every path string',
  'All spellings.',
  'cmd/rtcg-gen/main.go:maybeClean,run')
p('C57','Command-line arguments',
  'Each tool accepts exactly the documented numbers of arguments, using standard input when the last is missing, and rejects every other count; the optional-argument parse never reads past the arguments.',
  'every argument list',
  'All argument lists.',
  'internal/cli/cli.go:ParseFileArgument', 'cmd/*/main.go')
p('C58','C++ types and literals',
  'The C++ type chosen for a channel is std::string exactly for constants, unsigned int exactly for naturals, int exactly for integers and double exactly for reals; a number\'s literal denotes that number and a constant\'s literal denotes that constant if it contains no quote, backslash or line break.',
  'all types and values',
  'All values.',
  G+'cpp/func.go:StdType,Value')
p('C59','Identifier case conversion',
  'Lower-underscoring never yields an upper-case ASCII letter, is idempotent on ASCII text and keeps the letters of its input in order; up-casing the first letter changes at most the first letter and is idempotent.',
  'every ASCII string',
  'All strings.',
  'internal/strmanip/strmanip.go')
p('C60','Failures after a trace',
  'The failures found after a trace are exactly the (test, forbidden event) pairs of tests whose prefix equals the trace, once each; the spine nodes built from them contain one separate node per input failure and one shared node holding all other failures.',
  'every suite, trace and iteration order',
  'All suites and orders.',
  'internal/factorise/factorise.go')
p('C61','From trace file to running test',
  'For every file of well-formed, fully valued traces, running the whole pipeline (read, name, expand, write, read, validate, build, write, read, generate) succeeds up to type conflicts, and each generated program fails exactly when its own forbidden trace is observed.',
  'every list of such traces and every event sequence',
  'Composition of all stages over unbounded inputs.',
  'rtcg.sh', 'cmd/*/main.go')
p('C62','Tagging a whole tree',
  'Marking a whole tree replaces the test names of every node, at any depth, and changes nothing else.',
  'every tree and list of test names',
  'All trees.',
  'internal/testlang/walk.go:MarkAll')
p('C63','The ROS variant follows the tree',
  'Generated for ROS, a test behaves as the interactive one: after any sequence of timer, acknowledgement and output messages in which acknowledgements only come when one is awaited, its position, outcomes, inputs sent and status are those of the interactive test given the same events, so that a trace test fails exactly when its trace has been observed.  An unexpected acknowledgement later is reported as an internal error, never as a failure; one that arrives during the initial delay can make the test fail although nothing was sent or received.',
  'every supported tree or trace and every message sequence',
  'All schedules of three kinds of asynchronous callbacks.',
  G+'cpp/embed/templates/ros/main.cpp.tmpl', G+'cpp/embed/templates/base/stm.cpp.tmpl')
p('C64','Construction sends nothing',
  'Constructing the generated test object, which happens before the publishers are created in the ROS variant, never sends an input; the test waits for the initial delay exactly if its first state has an input.',
  'every machine, type map and list of tests for which generation succeeds',
  'All machines, including ones not built by this tool.',
  G+'cpp/embed/templates/base/stm.cpp.tmpl', G+'cpp/embed/templates/ros/main.cpp.tmpl')
p('C65','Generation is deterministic',
  'Whether generation succeeds, and the files and directories there are after a successful run, do not depend on the orders in which maps of tests and types are iterated.',
  'every configuration, suite with plain names, file system and pair of iteration orders',
  'All iteration orders; Go randomises them.',
  G+'gen.go', G+'cpp/cpp.go', G+'catkin/catkin.go')
p('C66','Generation leaves the conversion sources alone',
  'If the configuration directory and the output directory differ, no run, successful or not, changes the user\'s conversion code.  (If they are the same directory, a successful run leaves it empty.)',
  'every configuration, suite, file system and iteration order',
  'All directory layouts; needs the order of opening, truncating and reading.',
  G+'cpp/copy.go:copyLocalFile,writeFile')
p('C67','Path spelling does not matter',
  'Two spellings of a path are treated alike by rtcg-gen exactly when they denote the same place from every current directory: cleaning a path does not change what it denotes and gives equal results for equal denotations.',
  'all pairs of path strings and all current directories',
  'All strings.',
  'cmd/rtcg-gen/main.go:parseArgs,run', 'path/filepath.Clean as used there')
p('C68','rtcg-make-stms accepts and prints',
  'Given a readable suite, rtcg-make-stms succeeds exactly if no test is null, every test is a valid tree, each channel carries values of one class throughout the suite and every event carries a value, whatever the orders in which maps are iterated; what it prints, rtcg-gen reads as the machines of those tests with the least channel types covering all of them.',
  'every input text and iteration order',
  'All suites and orders; composes decoder, validator, builder, unification and encoder.',
  'cmd/rtcg-make-stms/main.go', 'internal/validate/validate.go', 'internal/stm/builder.go', 'internal/stm/suite.go')
p('C69','rtcg-read-traces accepts and prints',
  'rtcg-read-traces succeeds exactly on the files whose traces can be read and whose prefixes have at most 4996 events, whatever the iteration order; if the names in them are valid UTF-8 and channel names are not empty, what it prints is read back by rtcg-make-stms as exactly the trees of the traces under their names.',
  'every input text and iteration order',
  'All files and orders; composes parser, naming, expansion and encoder.',
  'cmd/rtcg-read-traces/main.go', 'internal/trace/expand.go:Forbidden.Expand', 'internal/trace/trace.go', 'internal/testlang/testlang.go')
p('C70','What a state does on entry',
  'In a machine built from any valid tree, with any branching: a state reports failure exactly if its outcome includes failing; it counts as an input state exactly if one of its non-dead continuations is an input; the input it sends is the one continuation of the first input channel that has exactly one continuation, and it sends nothing if no input channel has exactly one.',
  'every valid tree and every state of its machine',
  'All trees and all branching patterns.',
  'internal/stm/state.go', 'internal/stm/builder.go')
p('C71','The generated Makefile builds every test',
  'Read as make reads it, the Makefile has one rule per test whose command compiles that test\'s main.cpp, rtcg.cpp and (if some channel has an override) convert.cpp into bin/<test>; the default goal builds all of them and nothing else, in whatever order rules are run; after a successful generation every named source exists, rtcg.h is found, and convert.h is found exactly if some channel has an override.  A one-at-a-time make creates bin first; with parallel jobs nothing makes a program wait for bin.',
  'every set of test names, configuration, suite, file system, and every order in which make may run the rules',
  'All sets of names and all schedules of a parallel make.',
  'internal/gen/makefile/embed/templates/Makefile.tmpl', 'internal/gen/makefile/makefile.go')
p('C72','The generated CMakeLists.txt names what exists',
  'Read as CMake reads it, the file of a test names its package, looks for and passes on roscpp, std_msgs and the configured dependencies in order, and builds its program from main.cpp, convert.cpp and rtcg.cpp; after generation these exist, except that convert.cpp does only with an override.  Packages of different tests have different names exactly if the configured name is missing or has the placeholder; the library targets of any two tests have the same names.',
  'every package, configuration, suite and file system',
  'All names and dependency lists.',
  'internal/gen/catkin/embed/templates/CMakeLists.txt.tmpl', 'internal/gen/catkin/catkin.go')
p('C73','package.xml says what the package says',
  'Whatever its fields contain, the package.xml written for a package is read by an XML reader as one package element with exactly the fields of the package, in order; text that XML can hold comes back unchanged and anything else is replaced by U+FFFD, character by character; what CMakeLists.txt looks for is declared there exactly if the configuration lists roscpp and std_msgs itself.',
  'every package, with arbitrary bytes in all fields',
  'All byte strings, including markup, quotes, control characters and invalid UTF-8.',
  'internal/gen/config/catkin/package.go:Package.Write,Package', 'internal/gen/catkin/catkin.go:generatePackageXML')
p('C74','convert.h converts every channel',
  'If channel names are identifiers and overrides and includes are plain one-line text, the generated convert.h is read by a C++ compiler as: the configured includes in order, a value and a message type per channel (the override, or the default type of the target), and a conversion function each way per channel, with a body exactly if the channel has no override; nothing is defined twice exactly if no two channels differ only in the case of their first letter; programs with two source files including it link only if every channel has an override.',
  'every set of channels, types, overrides and includes, both targets, and every successful run',
  'All channel maps and override texts; collisions need particular pairs of names.',
  'internal/gen/cpp/embed/templates/base/convert/convert_base.h.tmpl', 'internal/gen/cpp/embed/templates/animate/convert/convert.h.tmpl', 'internal/gen/cpp/embed/templates/ros/convert/convert.h.tmpl', 'internal/gen/config/cpp/context.go:Process')
p('C75','main.cpp declares what it uses, with convert.h, and nothing twice',
  'In the main.cpp and convert.h written together for any valid tree, every type, variable, field, method, enumerator and function that main.cpp uses has been declared before (by itself, by convert.h, or by a header that it includes), and is called with the declared number of arguments; no name is declared twice in a scope or is also a macro; every method is declared in its class as it is defined and every declared method is defined; the labels of a switch are distinct; value-returning functions end in a return; all literals are well-formed.  The names excluded by the hypotheses do break this.',
  'every valid tree with names that C++ can spell and that do not clash, every type map, configuration and title, for both targets',
  'All trees; needs the texts of both files and the scoping rules of C++.',
  'internal/gen/cpp/embed/templates/base', 'internal/gen/cpp/embed/templates/animate/main.cpp.tmpl', 'internal/gen/cpp/embed/templates/ros/main.cpp.tmpl', 'internal/gen/cpp/embed/templates/base/convert/convert_base.h.tmpl', 'internal/gen/cpp/embed/prelude/rtcg.h')
p('C76','The text of main.cpp runs as the tree says',
  'The main.cpp written for any valid tree, read as a C++ program and run statement by statement, shows what the tester\'s observations of the tree say: given typed words (animate), or timer ticks, acknowledgements and messages (ROS), it gives the system under test exactly the inputs it should have given, in order, and either waits for more, or has ended with the exit code of its final status and a log that ends in that status and the outcome of each test.  It never gets stuck on an undeclared name, a wrong argument count or an ill-typed value.',
  'every valid tree with names that C++ can spell and that do not clash, every type map, configuration, title, and every script of words or events that fit the channel types',
  'All trees and all unbounded input sequences; needs the program text and its execution.',
  'internal/gen/cpp/embed/templates/base', 'internal/gen/cpp/embed/templates/animate/main.cpp.tmpl', 'internal/gen/cpp/embed/templates/ros/main.cpp.tmpl', 'internal/gen/cpp/embed/prelude/rtcg.h')
p('C77','The program of a forbidden trace exits with 1 exactly if the forbidden trace was seen',
  'The main.cpp written for the test of a forbidden trace, read as C++ and run on any sequence of typed words or ROS events, ends with exit code 1 exactly if the observations contain the prefix of the trace followed by its forbidden event.',
  'every forbidden trace with spellable names, every type map, title and configuration, and every script',
  'All traces and all scripts.',
  'internal/gen/cpp/embed/templates/base', 'internal/gen/cpp/embed/prelude/rtcg.h', 'internal/trace/expand.go:Forbidden.Expand')
p('C78','How a run of rtcg-gen ends',
  'A run of rtcg-gen reads the suite from standard input if the input path means -, else from the file; refuses to delete the current directory by name; with -clean deletes exactly what is at or below the output directory, failing if that is the root or a directory above the current one; then reads the configuration (an empty directory means the one the file is in), and generates. Everything else is left alone, and a run ends with success exactly if everything needed was supplied.',
  'every command line, file system, standard input, suite and configuration (the XML decoder is a parameter)',
  'All paths and their spellings, all contents of the file system, and all combinations of failures.',
  'cmd/rtcg-gen/main.go', 'internal/cli/cli.go', 'internal/gen/config/config.go:Load', 'internal/gen/gen.go')
p('C79','What is written is in order',
  'Names are written in strictly ascending byte order wherever a map is ranged over: the tests of a suite file, the maps inside a machine file, the rules of the Makefile, and the enumerations and functions of convert.h.',
  'every suite, set of machines, type map and configuration',
  'All maps, whatever order Go ranges over them in.',
  'internal/serial/serial.go', 'internal/gen/cpp/embed/templates')
p('C80','The JSON reader reads the language of RFC 8259',
  'A text is read exactly if some white space is followed by a text of the JSON grammar, and then as the value it denotes: escapes in either case, surrogate pairs joined, halves and bytes that are not UTF-8 replaced. Nesting beyond 10000 is refused. Each text denotes one value, written files are texts of the grammar, and suites depend on the value only.',
  'every byte string and every JSON value',
  'All byte strings: every escape, every way of nesting and of placing white space.',
  'internal/serial/serial.go:ReadJSON', 'internal/testlang/testlang.go:ReadSuite', 'internal/stm/suite.go:ReadSuite')
p('C81','Configuration files are read as the XML documents they are',
  'A configuration is read from a file exactly if the file starts with a well-formed XML document (text, comments, declarations and directives allowed around; whatever follows the root element is ignored) whose root is rtcg-gen and describes it: of repeated attributes and single elements the last counts, repeated list elements are kept in order, unknown elements and attributes are skipped, references and CDATA sections are expanded, name spaces do not matter. Each file has at most one meaning, and it depends on the root element only.',
  'every byte string (and every table of non-ASCII name characters), every configuration',
  'All byte strings: every way of nesting, quoting, escaping, commenting and repeating.',
  'internal/gen/config/config.go:Load', 'internal/gen/config/cpp/cpp.go:Config', 'internal/gen/config/catkin/package.go:Package')
p('C82','From a trace file and a configuration file to exit codes',
  'For every file of testable traces and every configuration file: rtcg-read-traces, rtcg-make-stms and rtcg-gen, run one after the other, succeed exactly if every variant has a typed channel and its conversion code (or a test called convert); then every trace has a main.cpp in each variant, and the text of that program, when run, whatever is typed into it, ends with exit code 1 exactly if the forbidden trace is observed.',
  'every trace file, configuration document, file system, iteration order, date and run of the generated programs (testable traces, C++ names; ROS: distinct topics and no unexpected acknowledgements)',
  'All inputs to all tools together, and all executions of what they generate.',
  'cmd/rtcg-read-traces/main.go', 'cmd/rtcg-make-stms/main.go', 'cmd/rtcg-gen/main.go', 'internal/gen/gen.go:Generate')
p('C83','Command lines, files and exit codes',
  'rtcg-gen accepts exactly the documented flags (-clean, -clean=bool, -output dir, one or two dashes, -- ends them), help gives exit code 0, anything else that starts with a dash 2; the remaining arguments are a configuration file and optionally an input, otherwise exit code 1; the exit code is 0 exactly if generation succeeds, 1 if it fails and 2 if it crashes, and files change only then or as the run says. rtcg-read-traces and rtcg-make-stms read their one file (or standard input for none or a dash), print their result with exit code 0, and print nothing otherwise. A file is opened exactly if it is there and everything before a slash in its path is a directory.',
  'every list of arguments, file system, current directory and standard input',
  'The space of command lines and file systems is infinite; tests try a few.',
  'cmd/rtcg-gen/main.go:parseArgs', 'internal/cli/cli.go:ParseFileArgument', 'internal/cli/cli.go:OpenFileOrStdin', 'internal/cli/cli.go:HandleError', 'cmd/rtcg-read-traces/main.go', 'cmd/rtcg-make-stms/main.go')
p('C84','rtcg.sh hides no failure and deletes nothing',
  'rtcg.sh ends with exit code 0 exactly if all three tools succeed, with 1 otherwise; if the traces cannot be read or turned into machines, no file changes; nothing is ever deleted, as long as the first argument does not look like a flag (refuted otherwise). With a directory as the first argument, as the usage line says, it always fails. For testable traces and a configuration document, it succeeds exactly if every variant has a typed channel and its conversion code, and the programs it leaves under out end with exit code 1 exactly if the forbidden trace is observed.',
  'every list of arguments, file system, standard input, iteration order and execution of the generated programs',
  'All inputs to the whole tool chain and all executions of the generated tests.',
  'rtcg.sh', 'cmd/rtcg-read-traces/main.go', 'cmd/rtcg-make-stms/main.go', 'cmd/rtcg-gen/main.go')
p('C85','The conversion functions written into convert.h pass values on',
  'In the convert.h of the animate variant, toX and fromX of a channel without an override, when called, give back their argument as C++ passes it to a parameter of the type of the channel; over ROS, for channels of enumerations, they turn a text into a message with that text and back (cut at the first NUL), and for other channels they do not compile; with an override they are the functions of the user. So, if the functions of the user change nothing and, over ROS, there are some for all channels that are no enumerations, the generated program together with the convert.h generated with it ends with exit code 1 exactly if the forbidden trace is observed.',
  'every set of channels with readable names, types and overrides, every value, every input to the tool chain and execution of the generated programs',
  'All values on all channels, and all executions of the generated program with the generated header.',
  'internal/gen/cpp/embed/templates/base/convert/convert_base.h.tmpl', 'internal/gen/cpp/embed/templates/animate/convert/convert.h.tmpl', 'internal/gen/cpp/embed/templates/ros/convert/convert.h.tmpl')
p('C86','The prelude does what the generated tests take it to do',
  'rtcg.h and rtcg.cpp, which every generated tree has a copy of, declare and define the same functions; run, isRunning holds exactly of the statuses of a test that waits, exitCode gives 1 for a failed test, 2 for an internal error and 0 otherwise, getStatus gives the status of the object it is called on, a new test case waits to start, and every status and every outcome is printed as a text of its own.',
  'every argument of the functions of the prelude, every object, stream and state of the program that calls them, and every successful run of the generator',
  'All programs and states that the functions may be called in, and all generated trees.',
  'internal/gen/cpp/embed/prelude/rtcg.h', 'internal/gen/cpp/embed/prelude/rtcg.cpp', 'internal/gen/cpp/copy.go:copyPrelude', 'internal/gen/cpp/copy.go:copyPreludeFile')
p('C87','The example that comes with rtcg',
  'The model of rtcg-read-traces and rtcg-make-stms makes, from the example traces, byte for byte the outputs that the authors recorded with the real tools; whatever the iteration orders, the tools succeed on the example, and each of its 21 traces gets, in each of the two variants, a program that ends with exit code 1 exactly if the trace is observed. The conversions of the example give back every percentage from 0 to 100 except 53 and 59, which become 52 and 58.',
  'every iteration order, classification of non-ASCII letters, date and execution of the generated programs; every percentage',
  'All iteration orders of Go maps and all executions of the 42 generated programs.',
  'examples/bmon/traces', 'examples/bmon/tests.json', 'examples/bmon/stms.json', 'examples/bmon/gen.xml', 'examples/bmon/animate/src/convert/convert.cpp', 'examples/bmon/ros/src/convert/convert.cpp')
p('C88','Whatever is typed into a test',
  'The animate program does what the tree says of the words and values that its input spells, whatever words are typed: a value of a number channel may have a sign, be out of range or be followed by more letters, which are then the next word; any words spell something. The exit code is 1 exactly if the trace was observed in that sense. If something without digits is typed for a number, that counts as the observation of 0, and nothing that follows is read. When the input ends (or is not read any more) a test that is over ends as usual, and one that is not never ends: however long it runs, it goes on saying sorry.',
  'every test tree or trace, every sequence of typed words, every end of input, every number of rounds of the loop',
  'All inputs a person or a pipe can give, and a statement about a loop that does not end.',
  'internal/gen/cpp/embed/templates/animate/main_body.cpp.tmpl', 'internal/gen/cpp/embed/templates/animate/main.cpp.tmpl')
p('C89','The sources of a test link',
  'main.cpp, the prelude and the user\'s convert.cpp link to one program exactly if convert.cpp defines, once each, the conversion functions of the channels with a type of their own, none of those of the other channels, and no main: nothing that the generator writes is defined twice, and every function and method that it declares is defined, with the same types.',
  'every tree of a test whose names can be spelled and do not clash, every set of types, configuration, variant, and list of functions in convert.cpp',
  'All generated programs with all conversion files of users.',
  'internal/gen/cpp/embed/templates/base/convert/convert_base.h.tmpl', 'internal/gen/cpp/embed/templates/base/base.cpp.tmpl', 'internal/gen/cpp/embed/prelude/rtcg.h', 'internal/gen/cpp/embed/prelude/rtcg.cpp')
p('C90','Machine files with null in them',
  'If a machine file has null for a machine or a state, rtcg-gen crashes (exit code 2) or fails (1), if for a verdict (or without one) or for the type of a channel of the suite, it fails (1), and it never ends with 0 when there is a variant; null for a type in a single machine makes no difference, not even to the program. With everything else in order, which of the three happens depends on where null stands only: a null type always gives 1, and with no null type a null machine or state gives 2 unless a null verdict comes first. Whatever it writes before that stays in the output directory, is what it would have been, and nothing is deleted. The files that rtcg-make-stms prints have no null in them, whatever the machines.',
  'every machine file, configuration, file system, iteration order and command line',
  'All places for null in files of any size, together with the orders in which the generator gets to them.',
  'internal/stm/suite.go:ReadSuite', 'internal/stm/stm.go:TransitionSets', 'internal/gen/gencommon/context.go:NewContext', 'internal/gen/cpp/embed/templates/base/convert/convert_base.h.tmpl', 'internal/gen/cpp/embed/templates/base/state_entry.cpp.tmpl', 'cmd/rtcg-gen/main.go')
p('C91','What a test suite or machine file says when keys are repeated',
  'A text is read as a test suite, or as a machine suite, exactly if it starts with a JSON document in which everything given for a field fits, and the result is what the document says: of texts given several times the last that is not null counts; null and the empty array forget the list that was there, the last array says how many elements there are, and each element is made of all that was given for its place since then; null forgets what may be null; maps collect, and of a repeated name the last counts; an event without a value keeps the value given before. Every document that fits has one meaning, and only the order of values for the same field matters. It is not true that the last value for a field counts (refuted: elements keep what an earlier array says of their place).',
  'every text, every JSON document, with any keys repeated in any objects',
  'All documents; that exactly these are accepted and have exactly this meaning.',
  'internal/testlang/testlang.go:ReadSuite', 'internal/testlang/node.go:Node', 'internal/testlang/event.go:UnmarshalText', 'internal/stm/suite.go:ReadSuite', 'internal/stm/stm.go:Stm', 'internal/stm/state.go:State', 'internal/stm/transition/set.go:Set', 'internal/structure/set.go:UnmarshalJSON', 'internal/stm/verdict/verdict.go:UnmarshalJSON', 'internal/serial/serial.go')
p('C92','Every expression of the generated main.cpp has a type',
  'For every supported tree with spellable, unambiguous names, in both variants, main.cpp together with convert.h is well-typed: every operand, argument, initial value, assigned and returned value has a type that converts to what is asked for, conditions are truth values, switch labels belong to the enumeration, constants are not assigned, methods and callbacks used from outside are public and have the right parameters, and what goes to a stream can be printed. The overrides must fit: in the animate variant they are types of values, printable for inputs; over ROS they are message types. Otherwise the generator succeeds and the result has a type error (refuted without); over ROS that is an equivalence.',
  'every tree, every type map, configuration and list of tests, every override type with any abilities',
  'The text depends on all of these; a test compiles one output.',
  'internal/gen/cpp/embed/templates/base/stm.cpp.tmpl', 'internal/gen/cpp/embed/templates/base/out_callback.cpp.tmpl', 'internal/gen/cpp/embed/templates/base/state_entry.cpp.tmpl', 'internal/gen/cpp/embed/templates/base/convert/convert_base.h.tmpl', 'internal/gen/cpp/embed/templates/animate/main_body.cpp.tmpl', 'internal/gen/cpp/embed/templates/ros/main_body.cpp.tmpl', 'internal/gen/cpp/embed/prelude/rtcg.h', 'internal/gen/config/cpp/context.go:Process')
p('C93','From a trace file to sources that compile and link',
  'For every file of testable traces and every configuration file, if rtcg-read-traces, rtcg-make-stms and rtcg-gen succeed one after the other, then the files that they leave for a trace in a variant (main.cpp, the shared convert.h, and the prelude) are sources that a compiler accepts: every name is declared, every expression has a type (if the types that the configuration gives to channels can do what they have to); and together with a convert.cpp they make a program exactly if that defines, once each, the conversion functions of the channels that the configuration gives a type, and none of the others. Asked of the names: C++ identifiers, channels that differ in more than the case of the first letter, no test named like a macro, and over ROS topics that differ.',
  'every trace file and configuration file, every order of maps, every file system, every set of functions in convert.cpp',
  'The sources come out of three programs run on arbitrary files; a test compiles one of them.',
  'cmd/rtcg-read-traces/main.go', 'cmd/rtcg-make-stms/main.go', 'cmd/rtcg-gen/main.go', 'internal/gen/cpp/cpp.go', 'internal/gen/cpp/template.go', 'internal/gen/cpp/embed/templates/base/stm.cpp.tmpl', 'internal/gen/cpp/embed/templates/base/convert/convert_base.h.tmpl', 'internal/gen/cpp/embed/prelude/rtcg.h', 'internal/gen/cpp/embed/prelude/rtcg.cpp')
p('C94','rtcg-gen killed while it runs',
  'Killed at any moment (also in the middle of making a path, of writing a file, or of cleaning), rtcg-gen has changed nothing outside its output directory, without -clean it has deleted nothing, and once generating, all files but at most one are as they were or as they are to be. Run again with the same arguments, however often it was cut off before, it ends in exactly the file system an undisturbed run would have ended in, if the suite and the configuration are outside the output directory (and the user\'s code is not in it). With -clean and the suite inside it, a run cut off after cleaning cannot be repeated (refuted).',
  'every file system, configuration, suite, order of maps and command line; every number of interruptions at any points, with any contents of the file being written',
  'There are as many crash points as operations and bytes written, and histories of any number of cut off runs.',
  'cmd/rtcg-gen/main.go:run', 'cmd/rtcg-gen/main.go:maybeClean', 'internal/gen/gen.go:Generate', 'internal/gen/cpp/copy.go', 'internal/gen/templating/templating.go:CreateFile', 'internal/gen/cpp/cpp.go:Generate', 'internal/gen/catkin/catkin.go:Generate', 'internal/gen/makefile/makefile.go:Generate')
p('C95','A file that ends too early is not taken for a complete one',
  'If only the first bytes of what rtcg-read-traces or rtcg-make-stms printed reach the next tool (a full disk, a closed pipe, a killed process), that tool ends with exit code 1, prints nothing and touches no file, not even with -clean; only if just the final newline is missing does it read the same suite. The same holds of any suite that is a JSON object, and of configuration files: cut before the end of the root element they are refused, cut after it they are read as the whole. Trace files have no such protection (refuted): cut at the end of a line the remaining traces are lost without an error, and cut within a line another behaviour is forbidden.',
  'every suite and every text the tools print, every configuration file, every byte at which they are cut, every command line, file system and order of maps',
  'Texts are unbounded and can be cut at every byte, also within strings, escapes and tags.',
  'internal/serial/serial.go:ReadJSON', 'internal/testlang/testlang.go:ReadSuite', 'internal/stm/suite.go:ReadSuite', 'internal/gen/config/config.go:Load', 'internal/trace/read.go:Read', 'cmd/rtcg-make-stms/main.go', 'cmd/rtcg-gen/main.go')
p('C96','Failing system calls are never hidden, and running again repairs what they left',
  'rtcg-gen reports success only if none of the system calls it made failed, and then the files are exactly those of a run without trouble: an error while opening, making, reading, writing or closing any file, making a directory or cleaning always gives an error. Whatever it leaves then is no worse than after being killed, and once the trouble is over running the command again gives what it should have given. If one of the other tools can print only part of its output, rtcg.sh fails and touches nothing, or does what it would have done.',
  'every sequence of operations, every set of failing calls at any of them, every content a failing call leaves, any number of failing runs, every byte at which printing stops, every order of maps',
  'Each of the hundreds of calls of a run can fail, in any combination and with any partial effect; tests do not run with failing disks.',
  'internal/gen/cpp/copy.go:writeFile,copyLocalFile,copyPreludeFile', 'internal/gen/templating/templating.go:CreateFile', 'internal/gen/catkin/catkin.go:generatePackageXML', 'internal/gen/config/config.go:Load', 'cmd/rtcg-gen/main.go:readSuite,maybeClean,generate', 'internal/serial/serial.go:WriteJSON', 'internal/cli/cli.go:HandleError')
p('C97','Two runs at the same time do not disturb each other',
  'Two rtcg-gen processes whose output directories are apart, and neither of which reads in the output directory of the other, can run at the same time, also with -clean: if each would succeed on its own, then neither fails under any schedule, both end, and in the end each output directory is as if the other process had not been there, everything else is untouched, and the schedule makes no difference. Even if the other one fails or is killed at any time, a run that would succeed on its own succeeds with the same output. With the same output directory this does not hold (refuted): one can make the other fail.',
  'every schedule of the steps of the two processes, all suites, configurations, command lines, working directories, file systems and orders of maps',
  'There are exponentially many schedules, which tests cannot control.',
  'cmd/rtcg-gen/main.go:run,maybeClean,readSuite,generate', 'internal/gen/gen.go:Generate,mkdirs,runSubgens', 'internal/gen/cpp/copy.go', 'internal/gen/gencommon/dirset.go')
out = os.path.join(os.path.dirname(os.path.abspath(__file__)), '..', 'properties.jsonl')
with open(out,'w') as f:
    for e in P: f.write(json.dumps(e)+'\n')
print(len(P))
