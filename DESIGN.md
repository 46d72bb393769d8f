# Design: a Rocq model of vscode-ncproj

The code under study is the C++ part of jmr1/vscode-ncproj in `/repo`: the NC
program parser library (`parser/`) and the language server (`nclangsrv/`).
Nothing of it is built or run. Every definition below `rocq/theories/Model`
cites the file and lines it was read from.

## Layout

| directory | contents |
|---|---|
| `theories/Model` | executable Gallina model, no proofs |
| `theories/Spec` | small independent specifications used in the statements |
| `theories/Proofs` | lemmas |
| `theories/Props` | the property theorems, each closed by `exact lemma`, `Print Assumptions`, and an `Example` that meets the hypotheses |
| `theories/Checks` | the project's own test cases, transcribed and run on the model |

## Modelling conventions

* `std::string` is Coq's `string` (8-bit characters, like `char`).
* `std::map`/`std::unordered_map` are association lists, sorted when the code
  depends on the order.
* `int`/`unsigned` are `Z`, with the wrap written out where a property is about it.
* `double` is the IEEE binary64 format of `Coq.Floats.SpecFloat` (`spec_float`
  with precision 53, emax 1024): addition, subtraction, multiplication,
  division, square root and comparison are the bit-exact functions of that
  library. `stod` and `%f` printing are written on top of it. `sin`, `cos`,
  `acos`, ... are oracle arguments.
* Exceptions are explicit outcomes. Undefined behaviour is an explicit outcome.
* A failing `std::stoi` (no digits / out of range) is an outcome.
* boost::spirit grammars are modelled as the recursive-descent functions they
  denote (ordered choice, expectation points that throw, pre-skip of blanks,
  longest-match symbol tables), including the state that semantic actions mutate.

## Properties and the intended proofs

| id | model | proof |
|---|---|---|
| C01 | macro table as the ordered association list of `std::map` with the descending comparator, `lower_bound` | refinement to "maximum line not above L" over the set of entries, by induction on the table |
| C02 | `emplace` and `insert_or_assign` on that table, MacroEvaluator and SystemMacroAssigner | refinement to a finite function, induction over operation sequences |
| C03 | `Renumberer::renumber` as a state transformer | induction over the program, closed form of the counter |
| C04 | same | case analysis giving an exact description of the output block |
| C05 | `renumber`, `remove` | induction over the program |
| C06 | same | induction with the phase counter as invariant |
| C07 | `remove_comment` | filter characterisation, idempotence |
| C08 | `remove_optional_block` | longest-prefix characterisation |
| C09 | `AxesRotator` | case analysis over the nine tables, lifted to blocks by map |
| C10 | tables as signed permutation matrices over Z | rotation part by finite case analysis; the arc-direction part is expected to be false of the code for several options: `_refuted` |
| C11 | `UniqueCode` | induction with "seen" set invariant |
| C12 | `CodeGroupsVerifier` | induction with the occurrence map invariant |
| C13 | `RangeVerifierVisitor` | iff by induction over the block |
| C14 | `RangeVerifier::operator()` on axis tables | iff by induction over the table |
| C15 | `RotationVerifier` as state machine | induction over program histories |
| C16 | `FileSplitter` in all five modes | accumulator induction: partition law |
| C17 | block-number mode | counting invariant |
| C18 | tool-change mode | invariant linking cut points with the tool-change count |
| C19 | `verify_range` | decision table, case analysis |
| C20 | grammar status carried between calls | expected false: `_refuted`; the part that holds (lines without brackets and macros) proved separately |
| C21 | grammar + printing | induction over word lists with a lookahead side condition |
| C22 | `calculator` grammar and `eval` | induction over expression trees: parsing the printed tree returns the tree, evaluation equals the specification |
| C23 | `ValueCalculator::parse`, `MacroEvaluator::evaluate` | expected false for trailing text: `_refuted`; table unchanged on failure proved |
| C24 | `uint32_to_bcd`, `bcd_to_ui32` with explicit 64/32-bit wrap | induction on decimal digits |
| C25 | `UnitConverter` | induction over the block with the visitor flags |
| C26 | same, on decimal strings | rounding error bound through Flocq (`Proofs/FloatReal.v`); false for entries without decimals: `_refuted` |
| C27 | `AttributesPathCalculator::evaluate` | frame lemmas for the steps of a block, then induction over the run; refuted where a helix fails after a spiral and for a dwell beside a prepared tool |
| C28 | `copy_on_return` | doubles that are numbers are totally preordered, sums with finite numbers stay numbers; invariant over the run |
| C29 | `reset` | false (a flag is not reset): `_refuted`; equality of states without that option, and after a coordinate |
| C30 | enumeration names | finite case analysis plus rejection over all strings |
| C31 | document table of the server | refinement to a map |
| C32 | `main` read loop and output framing | induction over message sequences |
| C33 | message dispatch | case analysis over methods, induction over sequences |
| C34 | error text rewriting and tokenising | expected false for some message texts: `_refuted`, plus the true part |
| C35 | `splitLines`, `rtrim` | induction on text |
| C36 | `set_ncsettings` | expected false: `_refuted`, plus the function it actually computes |
| C37 | `parse` pipeline | expected false on one path: `_refuted`, plus the true part |
| C38 | `MacrosDescReader` | expected false at range ends: `_refuted`, plus the true part |
| C39 | `SplitFile` flattening into a list of allocations | round trip by induction: lengths cut the words back into pieces; the reading is unique |
| C40 | `formatTime` | arithmetic |
| C41 | `MacroEvaluator::evaluate` | the visitor's state over the block; `#1 X5` refutes the claim, blocks without `#` are unaffected |
| C42 | FIX, FUP, ROUND on binary64 | exact integer arithmetic on mantissa and exponent |
| C43 | function table against the evaluator | case analysis; SINH refutes it |
| C44 | `AttributesSameWordVerifier` | induction over the block |
| C45 | `AttributesGrammarSelector` over the blocks of a program | induction over blocks and words; G20.5 counts as G20 |
| C46 | Model/Server hover_line, search in the line at the cursor; Spec/HoverSpec says which word is at a position | reply characterised for code, macro and neither; two refutations |
| C47 | Model/Server code_lens, resolve_lens | invariant over message sequences; refutation with two documents |
| C48 | Model/Server completion, resolve_item | reply characterised from the tables; refutation for faulty files |
| C49 | Model/Splitter split_amount | generic cut lemma over the list of blocks; invariants for modal motion code and cycle flag |
| C50 | Model/Splitter split_blocks | same cut lemma |
| C51 | `parse` pipeline | case analysis over the steps; silent rejections are expected: `_refuted` for those |
| C52 | `parse` pipeline | frame lemmas for the steps, every word read has a number; expected false with macros: `_refuted` |
| C53 | `parse` pipeline, `evaluate` | frame lemmas; expected false for path errors and the zero point check: `_refuted` |
| C54 | `simple_parse` and its users | frame lemma and invariance of `parse` under the numbering state |
| C55 | `Model/Wrapper.v`: memory as a list of allocations, `delete` of anything but a live one is undefined | closed form of the memory after a call, then of giving it back |
| C56 | `SplitFileString` | same; expected false for an empty piece (the pointer is never set): `_refuted` |
| C57 | `GetMacroValues`, `GetLineMacroValues`, `GetPathValues` | same; rebuilding a sorted table keeps it |
| C58 | `build_grammar_map` and the group loops | induction with the offset as invariant |
| C59 | `Model/Settings.v`: the readers on property trees | iff with relations that say where a value is and what its text means; induction over the lists of children |
| C60 | `Model/Document.v`: `NCParser::parse` up to the parser | case analysis over the readers; expected false for the second document: `_refuted` |
| C61 | `Model/Messages.v` | finite tables; induction over the interleaving |
| C62 | `run_document` | frame lemma for readers that have read; the loop over lines is a fold |
| C63 | `fanuc_line_parser` in `Model/Document.v`, `relabel` and `diagnostics` in `Model/NCText.v` | every message has one of the shapes of C34: all texts start with a letter, a place with "1:" as there is no line end in front; the rest a failure names is a suffix of the line |
| C64 | `Model/Heidenhain.v`: the line grammar with failures and expectation failures as outcomes | a rule that succeeds has read one way of writing its word, and what follows cannot belong to it; induction over the words |
| C65 | same, `expectation_text` in `Model/Messages.v` | every rule goes on from or throws at a suffix of its text; the flag is an output only |
| C66 | same | first word of the line; expected false for names that merely begin with a reserved word: `_refuted` |
| C67 | `Model/OrderAttr.v` | skipping ends at the first letter looked for; case analysis on what is found |
| C68 | `Model/Session.v` joins `Server.v` and `Document.v` | the parser of the server is always the first one or the one with the configuration read; then C31, C62, C63 |
| C69 | `Document.v` as it is; `Spec/EscapeSpec.v` says which documents are harmless | what the grammar reads from a line without marks is a number for every word, so each `stoi`/`stod` throws at most out_of_range; a state invariant (no helix, motion code from the document) keeps the path calculator from its undefined reads |
| C70 | `Editor.v`: the form of cmtconfig as a record of texts, the .NET number parser per culture, export, the JSON tree, loading; how a number is written (`dtext`, `shows`) is an argument | number parser sound and complete for a grammar of numbers; the tree is read back setting by setting with the reader of C59; prefixes of a plain number are numbers, so the filter of the boxes leaves it alone |
| C71 | `Net.v`: the methods of the .NET class on the memory of `Wrapper.v`; reading a text stops at the first zero; the bytes of the register beside the answer are an argument | the memory after each call is known exactly (`WrapperProofs.v`), so reading and releasing are computed in it |
| C72 | `Layout.v`: both declarations of each structure as data, layout rules of each side, memory as bytes, texts at given addresses | storing then loading fields that lie in order is proved once; that both layouts agree is computed from the declarations |
| C73 | `Client.v`: settings as two layers over the defaults of package.json, the arguments built from them, and the option parser for long options | the four optional pairs of arguments are read one after another |
| C74 | `Client.v`: the extension as a machine with its two flags, over edits, commands, ends of the tool and file changes; file names as texts | invariants over all sequences of events |
| C75 | `Blocks.v`: texts of codes, string.Format as a machine over characters, a directory as a list of paths and contents | the language of formatted lines as a relation; writing as a map over the files |
| C76 | `MacrosDesc.v`, `Server.v`, `ShippedCodes.v`: tables of codes as read, the names in the shipped files | invariant of the table: a name and the name with a zero have the same entry; then C46 and C48 |
| C77 | `Highlight.v`: the rules of the highlighting as a machine over the characters of a line | each rule of the line grammar reads harmless text or a comment; the machine follows |
| C78 | `Grammar.v`, `Removers.v`, `Renumberer.v`, `Rotator.v`, `UnitConv.v` | the words of an accepted line as a chain of states; a word without brackets leaves the state alone; a chain is read back from its text |
| C79 | `PathCalc.v`, `PathGeom.v` | rounding errors of sums, products and roots by Flocq, collected for a line and for a time; the modes in force as the last word of a kind |
| C80 | `PathCalc.v`, `PathGeom.v` | the case analysis on signs of the code against the plain differences; errors by a relation `close` that adds up roundings; deep drilling: the number of strokes is exact because the rest is not small, `fmod` by division of the mantissas |
| C81 | `PathCalc.v`, `PathGeom.v` | error of the radius by `close`, of pi by Machin's series from the standard library; arcs: signs of the coordinates seen from the centre give the quadrants, the sine of the angle between the points decides between opposite ones, the length depends little on the radius |
| C82 | `PathCalc.v` | the part of a block before its motion keeps the position; the way by the bounds of C79 |
| C83 | `PathCalc.v` | what comes before the motion keeps the modes; a motion ends the block early in known cases only; the end of the block sets each mode to the last word found |
| C84 | `PathGeom.v`, `PathCalc.v` | derivatives for the formula; relative errors of the rounded operations added up; the block's words lead to the formula |
| C85 | `PathGeom.v`, `PathCalc.v` | relative errors of the rounded operations added up, the arc tangent by the mean value theorem; the block's words lead to the formula |

## Trusted base

* Coq 8.16.1's kernel and `vm_compute`.
* The reading of the C++ and of boost::spirit semantics recorded in the model
  comments.
* What `Print Assumptions` lists under each theorem in `Props`: "Closed under
  the global context", except for theorems about rounding errors of doubles
  (C26_partial, C26_succeeds, C40_time, C40_summary and the proofs of C79, C80, C81, C82, C84 and C85). These go
  through Flocq and the standard library's real numbers and list exactly
  `ClassicalDedekindReals.sig_not_dec`, `ClassicalDedekindReals.sig_forall_dec`,
  `FunctionalExtensionality.functional_extensionality_dep` and
  `Classical_Prop.classic`. Flocq adds no axiom of its own.
* Loading the libraries also brings the module parameters of
  `Coq.ssr.ssrunder.Under_rel` into the environment; no theorem uses them.

## Agreement with the project's tests

The code cannot be run here, but its tests say what it does. The cases of
`parser_ut` (C++) and `parser_net_test` (C#) are transcribed in
`theories/Checks` with their expected values, and the model meets all of them:
line parsing with the exact words, verdicts and messages, the path calculator's
lengths and ranges within the tolerance of the test, macros, verifiers,
renumbering, rotating, unit conversion, splitting, Heidenhain lines, and calls
through the C interface. Left out: `PathCalculatorTest`'s arcs by increments
(never called by the program) and LINQ queries of the C# tests. `sin`, `atan` and `log` are power series there (`Checks/Approx.v`).

## What is modelled

| source | model | left out |
|---|---|---|
| `parser/Macro.h`, `fanuc/MacroDefines.h` | `Model/Macro.v` | |
| `parser/fanuc/AllAttributesParserDefines` | `Model/Attr.v` | |
| `parser/fanuc/ValueCalculator.cpp` | `Model/Calc.v` | `sin`, `cos`, ... are oracles |
| `parser/fanuc/MacroEvaluator.cpp`, `MacroEvaluatedCodeVerifier.cpp` | `Model/MacroEval.v` | |
| `parser/fanuc/SystemMacroAssigner.cpp` | `Model/MacroAssign.v` | |
| `parser/fanuc/AllAttributesParserGrammar.h`, `.cpp` (the line grammar, `verify_range`), `build_symbols` | `Model/Grammar.v` | boost::spirit by what it does for these rules; the bracket counters are unbounded |
| `conf/*/grammar.json` | `Model/Shipped.v` | generated |
| `UniqueCode`, `SameWordInBlockVerifier`, `CodeGroupsVerifier`, `RangeVerifier`, `RotationVerifier`, `GrammarSelector` | `Model/Verifiers.v` | |
| `AttributesPathCalculator.cpp`, `fanuc/PathCalculator.h` | `Model/PathGeom.v`, `PathCalc.v` | `atan`, `log` and the unqualified `abs` are oracle arguments, and so is the value read through the dangling reference at the end of `evaluate`; `pow(x, 2)` is `x * x` |
| `Renumberer`, `AxesRotator`, `UnitConverter`, `FileSplitter` | `Model/Renumberer.v`, `Rotator.v`, `UnitConv.v`, `Splitter.v` | |
| `parser/fanuc/AllAttributesParser.cpp` (construction, settings, `parse`, `simple_parse` and its users, `split_file`) | `Model/Parser.v` | line and column of messages (the rest of the text is kept instead), languages; what a failing `split_file` leaves in its result |
| `parser/fanuc/AllAttributesParserWrapper.cpp`, `parser/AllAttributesParserWrapperBase.cpp` | `Model/Wrapper.v` | running out of memory; the forwarding functions |
| comment and optional block removers | `Model/Removers.v` | |
| `parser/GeneralParserDefines.cpp` | `Model/Enums.v` | |
| `parser/fanuc/MessageText*.h`, `.cpp` | `Model/Messages.v` | |
| `nclangsrv/NCSettingsReader.cpp`, `CodeGroupsReader.cpp`, `WordGrammarReader.cpp` | `Model/Settings.v` | boost property tree: the files are trees |
| `nclangsrv/NCParser.cpp` | `Model/NCText.v` (text handling, summaries), `Model/Document.v` (reading, the run) | logging |
| `nclangsrv/nclangsrv.cpp` | `Model/Framing.v` | process start, logging |
| `nclangsrv/JsonMessageHandler.cpp` | `Model/Server.v` | rapidjson's text reader and writer: messages are JSON trees, and an access it would assert on is undefined behaviour; the NC parser is an oracle argument of the server |
| `nclangsrv/MacrosDescReader.cpp` | `Model/MacrosDesc.v` | boost property tree: the file is a tree |
| `parser/heidenhain` | `Model/Heidenhain.v` | what depends on the version of Boost is an argument; running out of memory |
| `parser/fanuc/OrderAttributeParser.cpp` | `Model/OrderAttr.v` | `qi::float_` is an argument |
| `parser_net` (the class around the parser) | `Model/Net.v` | decoding of the bytes of texts |
| `parser_net` (structures shared with the parser), `parser/*/…Wrapper.h` | `Model/Layout.v` | the layouts follow the documented rules of the two platforms |
| `parser_net/PredefinedBlocks.cs`, `CodeGroups.cs` | `Model/Blocks.v` | JSON; `string.Format` and `uint.Parse` from their documentation |
| `cmtconfig` | `Model/Editor.v` | the drawing of the form; numbers as texts of .NET from its documentation |
| `vscode-client/src/extension.ts` | `Model/Client.v` | the editor itself: settings, events and paths from its documentation |
| `syntaxes/ncproj.tmLanguage.json`, `language-configuration.json` | `Model/Highlight.v` | the engine of the editor from its documentation; auto-closing pairs |
| `conf/*/desc` | `Model/ShippedCodes.v` | generated; names of the codes only, and one file with its texts |
| the caller keeping parsers between documents | `Model/Session.v` | |
| `nclangsrv/Logger.cpp`, `parser_net/Grammar.cs` | none | a stream with time stamps; a class for a JSON library |
