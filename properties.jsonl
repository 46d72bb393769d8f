{"id": "C01", "title": "A macro read returns the latest definition at or before the line", "statement": "When a program line uses macro #n, the value substituted is the one given to #n by the latest assignment at or before that line in the macro table; if there is no such assignment the line is rejected with a missing-value error. No definition of another macro number is ever returned.", "quantifier": "every macro table built by any sequence of assignments, every macro number and every line number", "why_tests_cant": "The answer depends on an arbitrary history of assignments at arbitrary lines; a test fixes one history.", "anchors": ["parser/fanuc/MacroDefines.h: macro_map_key_cmp", "parser/fanuc/MacroEvaluatedCodeVerifier.cpp: MacroEvaluatedCodeVisitor", "parser/fanuc/CodeGroupsVerifier.cpp: CodeGroupsVisitor"]}
{"id": "C02", "title": "User assignments keep the first value per line, system words keep the last", "statement": "After any sequence of lines, the macro table holds at most one value per (macro number, line); re-assigning a user macro on a line that already assigned it keeps the first value, while values published by addresses such as S, F, M or N (macros 4119, 4109, 4113, 4114, ...) are overwritten by the last one in the block. All other entries are untouched.", "quantifier": "every sequence of user and system assignments", "why_tests_cant": "Interaction of two different insertion policies over unbounded histories.", "anchors": ["parser/fanuc/MacroEvaluator.cpp: MacroEvaluator::evaluate", "parser/fanuc/SystemMacroAssigner.cpp: SystemMacroAssignerVisitor"]}
{"id": "C03", "title": "Renumbering produces the arithmetic sequence the settings describe", "statement": "Renumbering a whole program with frequency 0/1 and existing_only off gives the k-th numberable block the number start + k*step for as long as it does not exceed max_number, then restarts from the lower end of the address range; blocks starting with %, O, ( or / are left alone.", "quantifier": "every program, start value, step, maximum and address", "why_tests_cant": "The counter is carried across an unbounded number of blocks and wraps; tests check a few lines.", "anchors": ["parser/fanuc/Renumberer.cpp: Renumberer::renumber", "parser/fanuc/Renumberer.h: set_start_value, reset"]}
{"id": "C04", "title": "Renumbering touches nothing but the block number", "statement": "For every block, renumbering leaves all words other than the leading block number unchanged and in order, and never adds more than one word.", "quantifier": "every block, every renumber state, every settings value", "why_tests_cant": "Must hold for every block shape and every counter/frequency state.", "anchors": ["parser/fanuc/Renumberer.cpp: Renumberer::renumber"]}
{"id": "C05", "title": "Removing numbering undoes renumbering", "statement": "For a program without block numbers, renumbering (with a numbering address) and then removing numbering returns the original program.", "quantifier": "every unnumbered program, every renumber settings value, every starting state", "why_tests_cant": "A round-trip over all programs and all counter states.", "anchors": ["parser/fanuc/Renumberer.cpp: Renumberer::remove, Renumberer::renumber"]}
{"id": "C06", "title": "Renumber frequency numbers exactly every k-th block", "statement": "With frequency k>1 exactly the blocks at positions 0,k,2k,... among the numberable blocks carry a number afterwards; in the others an existing number is removed.", "quantifier": "every program and every frequency k>1", "why_tests_cant": "Phase of a modular counter over unbounded programs.", "anchors": ["parser/fanuc/Renumberer.cpp: Renumberer::renumber"]}
{"id": "C07", "title": "Removing comments removes exactly the comments", "statement": "The result of remove_comment contains no comment and is the input block with precisely the comments deleted; applying it again changes nothing.", "quantifier": "every block", "why_tests_cant": "All positions and multiplicities of comments in a block.", "anchors": ["parser/fanuc/AllAttributesParser.cpp: AllAttributesParser::remove_comment"]}
{"id": "C08", "title": "Removing optional blocks removes exactly the leading optional-block marks", "statement": "remove_optional_block deletes exactly the numbered optional-block marks /1../9 at the start of the block; a bare / and marks later in the block stay, and all other words are kept in order.", "quantifier": "every block", "why_tests_cant": "All block shapes.", "anchors": ["parser/fanuc/AllAttributesParser.cpp: AllAttributesParser::remove_optional_block"]}
{"id": "C09", "title": "Rotating by 90 degrees four times, 180 twice, or 90 then 270 is the identity on axis words", "statement": "Rotating a program around an axis and rotating it back leaves every axis and arc-centre word (X,Y,Z,I,J,K) with the same address and the same numeric value, and leaves all other addresses untouched.", "quantifier": "every block, every rotation option", "why_tests_cant": "Composition law over all blocks.", "anchors": ["parser/fanuc/AxesRotator.cpp: AxesRotator::operator(), wtom"]}
{"id": "C10", "title": "Rotation is a proper rotation of space and consistent with plane and arc direction", "statement": "Each rotation option acts on the coordinates as a rotation matrix of determinant +1; the plane word G17/G18/G19 is mapped to the image of the plane, and the arc direction G2/G3 is reversed exactly when the image of the plane normal is the negative normal of the new plane.", "quantifier": "all nine rotation options and every block", "why_tests_cant": "A geometric consistency statement relating three independent tables for all vectors.", "anchors": ["parser/fanuc/AxesRotator.cpp: wtom"]}
{"id": "C11", "title": "Unique addresses are rejected exactly when repeated", "statement": "A block is rejected with a uniqueness error exactly when an address marked unique in the grammar occurs at least twice in it, and the address named is the first one to be repeated.", "quantifier": "every grammar and every block", "why_tests_cant": "Iff over all blocks and grammars.", "anchors": ["parser/fanuc/UniqueCode.cpp: UniqueCode::operator()"]}
{"id": "C12", "title": "Two codes of one group in a block are reported", "statement": "With code group checking on, a block is rejected exactly when two of its G codes (or two of its M codes) belong to a common group, or a code uses an undefined macro; the error names both codes and the group.", "quantifier": "every code group table, macro table, line and block", "why_tests_cant": "Iff over all group tables and all blocks.", "anchors": ["parser/fanuc/CodeGroupsVerifier.cpp: CodeGroupsVerifier::operator()"]}
{"id": "C13", "title": "Spindle, tool and feed limits are enforced exactly", "statement": "A block is rejected exactly when some S exceeds the maximum spindle speed, some T exceeds the tool magazine size (on lathes the first half of the digits is the tool), or some F exceeds the maximum working feed.", "quantifier": "every machine description and every block", "why_tests_cant": "Iff over all machine settings and digit strings.", "anchors": ["parser/fanuc/RangeVerifier.cpp: RangeVerifierVisitor"]}
{"id": "C14", "title": "Axis travel limits are enforced relative to the zero point", "statement": "A block is rejected exactly when after it some machine axis position plus the zero point lies outside the travel range of that axis.", "quantifier": "every axis table, zero point and position", "why_tests_cant": "Iff over all settings.", "anchors": ["parser/fanuc/RangeVerifier.cpp: RangeVerifier::operator()"]}
{"id": "C15", "title": "Missing spindle start is reported once, at the first cutting move", "statement": "Over a whole program, if the operator does not switch on the spindle, an error is raised at the first block by which a cutting code (G1, G81..G89) has appeared while S or M3/M4 has not, and never again; with operator-controlled rotation every S, M3 and M4 is rejected.", "quantifier": "every sequence of blocks", "why_tests_cant": "A temporal property over unbounded histories.", "anchors": ["parser/fanuc/RotationVerifier.cpp: RotationVerifierVisitor, RotationVerifier::operator()"]}
{"id": "C16", "title": "Splitting a file loses, duplicates and reorders nothing", "statement": "For every split mode (text, number of blocks, tool change, tool path, tool time), concatenating the pieces and deleting the inserted retraction-plane blocks gives back the input program; retraction planes occur exactly at the end of every piece but the last and the start of every piece but the first.", "quantifier": "every program, every mode and every setting", "why_tests_cant": "Partition law over all programs.", "anchors": ["parser/fanuc/FileSplitter.cpp: FileSplitter::evaluate, evaluate_block_numbers, evaluate_tool_change"]}
{"id": "C17", "title": "Splitting by number of blocks respects the requested size", "statement": "When splitting every n blocks, every piece but the last has at least n blocks, and exactly n if no drilling cycle is active and cutting at any motion is allowed; a non-positive n is refused.", "quantifier": "every program and every n", "why_tests_cant": "Counting invariant across unbounded input.", "anchors": ["parser/fanuc/FileSplitter.cpp: FileSplitter::evaluate_block_numbers"]}
{"id": "C18", "title": "Splitting by tool change cuts exactly before the second and later tool changes", "statement": "A new piece starts exactly at each block containing a tool change other than the first tool change of the program.", "quantifier": "every program, both tool-change conventions", "why_tests_cant": "Temporal property over unbounded input.", "anchors": ["parser/fanuc/FileSplitter.cpp: FileSplitter::evaluate_tool_change"]}
{"id": "C19", "title": "A word is accepted exactly when its value is in the configured range", "statement": "For an ordinary address (not a calculation character) in a fresh parser, a numeric word is accepted exactly when its signed integer part is between range_from and range_to, a decimal point appears only if decimals are allowed, and the digits after the point are between decimal_from and decimal_to; otherwise the matching message is produced.", "quantifier": "every word grammar entry and every word", "why_tests_cant": "Full decision table over unbounded digit strings.", "anchors": ["parser/fanuc/AllAttributesParserGrammar.h: verify_range"]}
{"id": "C20", "title": "Acceptance of a line does not depend on earlier lines", "statement": "Whether a line is accepted by the syntax check depends only on the line and the settings, not on lines parsed before it with the same parser.", "quantifier": "every pair of histories and every line", "why_tests_cant": "History independence quantifies over all prefixes.", "anchors": ["parser/fanuc/AllAttributesParserGrammar.h: status, verify_range, all_attributes_grammar"]}
{"id": "C21", "title": "Printing a parsed block and parsing it again is stable", "statement": "Writing the words of an accepted block back as text and parsing that text yields the same words.", "quantifier": "every block of well-formed words over every word grammar", "why_tests_cant": "Round trip over an unbounded language.", "anchors": ["parser/fanuc/AllAttributesParserGrammar.h: all_attributes_grammar", "parser/fanuc/AllAttributesParserWrapper.cpp: Attributes2StringVisitor"]}
{"id": "C22", "title": "Macro expressions follow the usual precedence and associativity", "statement": "The value of a macro expression is that of its standard reading: brackets first, then sign and # and functions, then * / AND MOD from the left, then + - OR XOR from the left.", "quantifier": "every expression of every depth", "why_tests_cant": "Structural induction over all expressions.", "anchors": ["parser/fanuc/ValueCalculator.cpp: calculator, eval"]}
{"id": "C23", "title": "Malformed macro expressions are rejected", "statement": "If the right-hand side of a macro assignment is not a complete expression, the assignment is refused and the macro table is unchanged.", "quantifier": "every character sequence", "why_tests_cant": "All strings.", "anchors": ["parser/fanuc/ValueCalculator.cpp: ValueCalculator::parse", "parser/fanuc/MacroEvaluator.cpp: MacroEvaluator::evaluate"]}
{"id": "C24", "title": "BIN and BCD are inverse on all 8-digit values", "statement": "Converting a number to BCD and back returns the number, for every 32-bit unsigned value, and the BCD form has the decimal digits as nibbles.", "quantifier": "every 32-bit unsigned number", "why_tests_cant": "4 billion inputs.", "anchors": ["parser/fanuc/ValueCalculator.cpp: uint32_to_bcd, bcd_to_ui32"]}
{"id": "C25", "title": "Unit conversion changes only length and feed words", "statement": "Converting units changes only words of type length or feed and the unit selection codes G20/G21; optional blocks, dwell blocks, macro words and bracketed words are left as they are, and no word is added, removed or reordered.", "quantifier": "every block and every word grammar", "why_tests_cant": "Frame property over all blocks.", "anchors": ["parser/fanuc/UnitConverter.cpp: UnitConverterVisitor"]}
{"id": "C26", "title": "Unit conversion writes the correctly rounded value", "statement": "A converted word denotes the original value divided (multiplied) by 25.4, rounded to the number of decimals of the target grammar.", "quantifier": "every numeric word and every precision", "why_tests_cant": "All digit strings; rounding and zero-trimming corner cases.", "anchors": ["parser/fanuc/UnitConverter.cpp: UnitConverterVisitor::operator()"]}
{"id": "C27", "title": "Path totals are the sum of the block contributions", "statement": "After any sequence of blocks, the total work and rapid path equal the sums of the per-block work and rapid path reported after each block, and the total time equals the sum of motion, exchange and dwell times.", "quantifier": "every sequence of blocks and every machine setting", "why_tests_cant": "Accumulation invariant over unbounded histories including failing blocks.", "anchors": ["parser/fanuc/AttributesPathCalculator.cpp: AttributesPathCalculator::evaluate"]}
{"id": "C28", "title": "Reported axis extremes bracket every visited position", "statement": "For every axis the reported minimum is at most, and the maximum at least, every position the axis took at the end of some block since the last reset, and both were actually taken.", "quantifier": "every sequence of blocks", "why_tests_cant": "Invariant over unbounded histories.", "anchors": ["parser/fanuc/AttributesPathCalculator.cpp: copy_on_return"]}
{"id": "C29", "title": "Resetting the path calculator forgets the past", "statement": "After reset_attributes_path_calculator the calculator behaves as newly created.", "quantifier": "every history before the reset and every continuation", "why_tests_cant": "Behavioural equivalence after any history.", "anchors": ["parser/fanuc/AttributesPathCalculator.cpp: AttributesPathCalculator::reset"]}
{"id": "C30", "title": "Enumeration names round-trip", "statement": "Every configuration enumeration value survives being written as text and read back, and reading rejects every string that is not a documented name.", "quantifier": "every value of every enumeration, every string", "why_tests_cant": "Rejection ranges over all strings.", "anchors": ["parser/GeneralParserDefines.cpp: to_string, to_E*", "parser/fanuc/AllAttributesParserDefines.cpp: to_WordType"]}
{"id": "C31", "title": "The server text for a document is the last one sent", "statement": "After any sequence of open, change and close notifications, the text used for diagnostics, hover and code lenses of a document is the last text sent for it, and closed documents have none.", "quantifier": "every sequence of notifications over any set of documents", "why_tests_cant": "Refinement to an abstract map over all histories.", "anchors": ["nclangsrv/JsonMessageHandler.cpp: textDocument_didOpen, textDocument_didChange, textDocument_didClose, publishDiagnostics"]}
{"id": "C32", "title": "Message framing delivers every message exactly once", "statement": "Any sequence of client messages written with Content-Length headers is split by the server into exactly those message bodies, in order, and the server's own output is framed so that it splits the same way.", "quantifier": "every sequence of message bodies", "why_tests_cant": "Byte-level round trip over all message sequences.", "anchors": ["nclangsrv/nclangsrv.cpp: main"]}
{"id": "C33", "title": "Every request gets exactly one reply with its id", "statement": "For every message with an id and a supported method the server sends exactly one response carrying the same id; notifications get no response.", "quantifier": "every sequence of messages", "why_tests_cant": "Protocol property over all sequences.", "anchors": ["nclangsrv/JsonMessageHandler.cpp: JsonMessageHandler::parse"]}
{"id": "C34", "title": "Diagnostics point at the offending line", "statement": "Each diagnostic is reported at the line of the document that the parser rejected.", "quantifier": "every document and every rejected line", "why_tests_cant": "Text rewriting of messages for arbitrary line numbers.", "anchors": ["nclangsrv/NCParser.cpp: NCParser::parse", "nclangsrv/JsonMessageHandler.cpp: publishDiagnostics"]}
{"id": "C35", "title": "Splitting a document into lines is lossless", "statement": "Splitting a document at line feeds and joining again gives the document back, no line contains a line feed, and numbering of lines agrees between the parser and the diagnostics.", "quantifier": "every document text", "why_tests_cant": "All texts.", "anchors": ["nclangsrv/NCParser.cpp: splitLines"]}
{"id": "C36", "title": "Machine points are taken relative to the zero point", "statement": "After the machine settings are applied, the tool exchange point and machine base point used by the path calculation are the configured points minus the zero point, for every axis.", "quantifier": "every machine point table and zero point", "why_tests_cant": "All tables, including axes other than X, Y, Z.", "anchors": ["parser/fanuc/AllAttributesParser.cpp: AllAttributesParser::set_ncsettings"]}
{"id": "C37", "title": "A line that reports an error is rejected", "statement": "Parsing a line returns false whenever an error message is produced, and true only with no message.", "quantifier": "every line, history and setting", "why_tests_cant": "All error paths of the pipeline.", "anchors": ["parser/fanuc/AllAttributesParser.cpp: AllAttributesParser::parse"]}
{"id": "C38", "title": "Macro descriptions cover the documented ranges", "statement": "A macro number inside a documented range gets the description of that range, including both end points; numbers outside get none; a user description overrides a built-in one.", "quantifier": "every description table and macro number", "why_tests_cant": "All tables and boundary numbers.", "anchors": ["nclangsrv/MacrosDescReader.cpp: getDesc, readRanges"]}
{"id": "C39", "title": "The exported split result encodes the pieces faithfully", "statement": "The flattened arrays handed to the caller by the split function (values plus length arrays) determine the pieces, blocks and words exactly.", "quantifier": "every nested split result", "why_tests_cant": "Flatten/unflatten round trip for all shapes.", "anchors": ["parser/fanuc/AllAttributesParserWrapper.cpp: SplitFile, SplitFileString"]}
{"id": "C40", "title": "Time and path summaries are faithful", "statement": "A formatted machining time is the input time in hours, minutes, seconds, with minutes and seconds below 60.", "quantifier": "every time value", "why_tests_cant": "All values including carries.", "anchors": ["nclangsrv/NCParser.cpp: formatTime, formatPathTimeResult"]}
{"id": "C41", "title": "Only an assignment changes the macro table", "statement": "A block changes the user macro table only if it is an assignment of the form #n=expression; in particular a block without an equal sign leaves the table unchanged.", "quantifier": "every block, table and line", "why_tests_cant": "All blocks: the accidental assignments are combinations nobody writes on purpose.", "anchors": ["parser/fanuc/MacroEvaluator.cpp: MacroVisitor, MacroEvaluator::evaluate"]}
{"id": "C42", "title": "FIX, FUP and ROUND round as documented", "statement": "FIX gives the greatest integer not above its argument, FUP the least integer not below, ROUND the nearest integer with halves away from zero.", "quantifier": "every finite number, however the argument is written", "why_tests_cant": "All doubles.", "anchors": ["parser/fanuc/ValueCalculator.cpp: eval"]}
{"id": "C43", "title": "Every function the grammar accepts has a value", "statement": "For every function name accepted in macro expressions, applying it to an argument with a value gives a value.", "quantifier": "every function name and argument", "why_tests_cant": "Completeness of the dispatch over the symbol table.", "anchors": ["parser/fanuc/ValueCalculator.cpp: eval, func_"]}
{"id": "C44", "title": "A word limited to once per block is rejected exactly when repeated", "statement": "Where at most one word of an address is allowed in a block (M on Haas controls), a block passes exactly when that address occurs at most once, and the error names the address otherwise.", "quantifier": "every block and every address", "why_tests_cant": "Unbounded blocks, any position of the repetition.", "anchors": ["parser/fanuc/AttributesSameWordVerifier.cpp"]}
{"id": "C45", "title": "The last G20 or G21 decides the unit", "statement": "After any sequence of blocks the active unit is inches if the last of the words G20 and G21 was G20, millimetres if it was G21, and the unit the program started with if there was none.", "quantifier": "every sequence of blocks, any number of words, any spelling of the numbers", "why_tests_cant": "State over unboundedly many blocks.", "anchors": ["parser/fanuc/AttributesGrammarSelector.cpp", "parser/fanuc/AllAttributesParser.cpp: parse"]}
{"id": "C46", "title": "Hover shows the word under the cursor", "statement": "A hover request on a known document at a position inside a G or M code answers with the description of that very code; inside a macro variable with its description and, when the document assigns it, its value at that line; outside of both it answers with an empty object.", "quantifier": "all documents, positions, description tables and server states", "why_tests_cant": "Positions, lines and tables are unbounded; tests sample a few cursor positions.", "anchors": ["nclangsrv/JsonMessageHandler.cpp: textDocument_hover, search_code, extract_code"]}
{"id": "C47", "title": "Resolving a code lens shows the summary of its document", "statement": "Resolving a code lens that was given out for a document shows the path and time summary computed for that document.", "quantifier": "all sequences of messages", "why_tests_cant": "It speaks about all interleavings of requests for several documents.", "anchors": ["nclangsrv/JsonMessageHandler.cpp: textDocument_codeLens, codeLens_resolve"]}
{"id": "C48", "title": "Completion offers exactly the codes of the tables", "statement": "A completion request offers every code of the description tables and nothing else, and resolving an offered item shows the description of that code.", "quantifier": "all tables and server states", "why_tests_cant": "The tables are read from files; tests see one set of them.", "anchors": ["nclangsrv/JsonMessageHandler.cpp: textDocument_completion, completionItem_resolve, fetch_gCodesDesc, fetch_mCodesDesc, fetch_macrosDesc"]}
{"id": "C49", "title": "Splitting by path length or time cuts exactly where the limit is reached", "statement": "When a program is split by path length or by time, a new part starts exactly at the first block where the sum of the amounts of the current part has reached the limit and a cut is allowed there: not inside a drilling cycle and, if asked for, only in rapid traverse. A limit that is not positive is refused.", "quantifier": "all programs, amounts per block, limits and settings", "why_tests_cant": "The cut depends on sums over arbitrarily many blocks and on modal state.", "anchors": ["parser/fanuc/FileSplitter.cpp: operator() for FileSplittingByToolPathLength and FileSplittingByToolTime"]}
{"id": "C50", "title": "Splitting by number of blocks never cuts a drilling cycle", "statement": "When a program is split by number of blocks, a new part starts exactly at the first block where the current part has the requested number of blocks and a cut is allowed there: never while a drilling cycle goes on or at the block that cancels it and, if asked for, only in rapid traverse.", "quantifier": "all programs, sizes and settings", "why_tests_cant": "Modal state runs through arbitrarily many blocks.", "anchors": ["parser/fanuc/FileSplitter.cpp: operator() for FileSplittingByNumberOfBlocks, one_block_after_start"]}
{"id": "C51", "title": "A rejected line comes with a message", "statement": "Whenever parsing a line returns false, the message is not empty.", "quantifier": "all lines, settings, grammars and states of the parser", "why_tests_cant": "The verdict and the message are set on many paths; a silent rejection shows up only for particular combinations of text, settings and earlier lines.", "anchors": ["parser/fanuc/AllAttributesParser.cpp: AllAttributesParser::parse", "parser/fanuc/AllAttributesParserGrammar.h: verify_range"]}
{"id": "C52", "title": "Only accepted lines change the unit system", "statement": "After a line that is rejected the unit system is the one before it; after an accepted line it is that of the last G20 or G21 of the line, and unchanged without one.", "quantifier": "all lines, settings and states of the parser", "why_tests_cant": "A rejected line that switches units changes the meaning of all later lines; which check rejects and when is a matter of all settings and the history.", "anchors": ["parser/fanuc/AllAttributesParser.cpp: AllAttributesParser::parse", "parser/fanuc/GrammarSelector.cpp"]}
{"id": "C53", "title": "A rejected line moves no axis and adds no path or time", "statement": "After a line that is rejected the reported positions, axis extremes, total path and total time (also per tool) are those before it.", "quantifier": "all lines, settings, machines and states of the parser", "why_tests_cant": "The path is the result of arbitrarily long histories, and a rejection can come from any check before or after the calculation.", "anchors": ["parser/fanuc/AllAttributesParser.cpp: AllAttributesParser::parse", "parser/fanuc/AttributesPathCalculator.cpp: evaluate"]}
{"id": "C54", "title": "Editing commands do not disturb the analysis", "statement": "Converting units, giving or removing numbers, rotating and removing comments or block skips with a parser leaves its macros, path, unit system and checks alone, and the next line is analysed as if the edit had not happened.", "quantifier": "all edited lines, all following lines, all settings and states of the parser", "why_tests_cant": "State shared between commands shows only in particular sequences of calls.", "anchors": ["parser/fanuc/AllAttributesParser.cpp: simple_parse, convert_length, remove_numbering, renumber, rotate, remove_comment, remove_optional_block"]}
{"id": "C55", "title": "What a call hands out can be read, and giving it back releases it", "statement": "After a call of the C interface that returns words and a message, the caller's variables lead to exactly the words and the message of the parser, and starting from null pointers the functions for giving memory back release every allocation of the call exactly once; a call that throws hands out nothing.", "quantifier": "all operations, words, messages and states of memory", "why_tests_cant": "Ownership errors show only for particular shapes of results (no words, no message, empty texts), and often not even then.", "anchors": ["parser/fanuc/AllAttributesParserWrapper.cpp: fill_parsed, fill_message, Parse, RemoveNumbering, Renumber, RotateAxes, ConvertLength, RemoveComment, RemoveOptionalBlock", "parser/AllAttributesParserWrapperBase.cpp: DisposeParser, DisposeParse"]}
{"id": "C56", "title": "The texts of a split file are its pieces and can be given back", "statement": "Each text returned by the split function that returns texts is the lines of one piece, one line for each line of that part of the program and with the retraction planes; the texts can always be given back.", "quantifier": "all programs, split modes and states of the parser", "why_tests_cant": "The failing shape (an empty first piece) depends on where the first cut falls.", "anchors": ["parser/fanuc/AllAttributesParserWrapper.cpp: SplitFileString", "parser/AllAttributesParserWrapperBase.cpp: DisposeSplitFileString", "parser/fanuc/AllAttributesParser.cpp: split_file"]}
{"id": "C57", "title": "Macros, path and time handed out are those of the parser", "statement": "The arrays of macro numbers, lines and values are the macro table; the arrays for one line are exactly the assignments of that line, each number once; path, time and axis ranges are those of the calculator; all of it is released once when given back.", "quantifier": "all macro tables, lines, calculator states and states of memory", "why_tests_cant": "All tables and all subsets of lines.", "anchors": ["parser/fanuc/AllAttributesParserWrapper.cpp: GetMacroValues, GetLineMacroValues, GetPathValues", "parser/AllAttributesParserWrapperBase.cpp: DisposeGetMacroValues, DisposeGetPathValues"]}
{"id": "C58", "title": "A parser made from arrays has the tables in them", "statement": "A code belongs to a code group exactly if the flattened arrays list it under that name, and the grammar of a word is the last one listed for it.", "quantifier": "all arrays whose lengths fit", "why_tests_cant": "Offsets into flattened arrays go wrong only for particular shapes (empty groups, repeated names).", "anchors": ["parser/fanuc/AllAttributesParserWrapper.cpp: build_grammar_map, CreateFanucAllAttributesParser"]}
{"id": "C59", "title": "The configuration files say what the server works with", "statement": "The settings are accepted exactly when every value is in its place and can be read, and then are the values of the file; code groups and word grammars are exactly those the files list; numbers and truth values are read back as written; the parser gets each value in its place.", "quantifier": "all configuration trees and all texts of values", "why_tests_cant": "The shipped files never have repeated entries, missing values or odd number texts.", "anchors": ["nclangsrv/NCSettingsReader.cpp: read", "nclangsrv/CodeGroupsReader.cpp: read", "nclangsrv/WordGrammarReader.cpp: read", "nclangsrv/NCParser.cpp: parse"]}
{"id": "C60", "title": "Configuration that cannot be read is reported", "statement": "A document opened while a configuration file cannot be read is answered with the error about the first such file and nothing else, as long as the file cannot be read; otherwise the parser works with exactly what the files of the configured driver say.", "quantifier": "all states of the disk and of the readers, all documents", "why_tests_cant": "Needs sequences of documents with the files changing in between.", "anchors": ["nclangsrv/NCParser.cpp: parse", "nclangsrv/NCSettingsReader.cpp: read"]}
{"id": "C61", "title": "Every message has its text, with the values it is about", "statement": "Both languages have exactly one text for each message; every value given with a message appears in it, in order, each behind a text of its own.", "quantifier": "all messages, languages and values", "why_tests_cant": "Many messages are hard to provoke; the tables of the two languages are kept by hand.", "anchors": ["parser/fanuc/MessageText.h", "parser/fanuc/MessageTextImpl.h: make_message, make_message2", "parser/fanuc/MessageText_en.cpp", "parser/fanuc/MessageText_pl.cpp"]}
{"id": "C62", "title": "The answer about a document depends on the document and the configuration only", "statement": "Once the files have been read, neither the disk nor any other document has an influence on the answer about a document; text behind a line changes nothing of what is said about the text up to it.", "quantifier": "all documents, histories and states of the disk", "why_tests_cant": "All histories and all continuations of a text.", "anchors": ["nclangsrv/NCParser.cpp: parse"]}
{"id": "C63", "title": "What the server reports about a line stands at that line", "statement": "For each line of a document that the parser of the server rejects there is exactly one diagnostic, in order, at the number of that line; if the message quotes the rest of the line it is at the character where that rest begins, otherwise at the beginning.", "quantifier": "all documents, configurations, states of the parser and results of the library functions", "why_tests_cant": "The place is read back from the text of the message, which quotes text of the user.", "anchors": ["nclangsrv/NCParser.cpp: parse", "nclangsrv/JsonMessageHandler.cpp: textDocument_publishDiagnostics", "parser/fanuc/AllAttributesParser.cpp: parse"]}
{"id": "C64", "title": "The words read from a Heidenhain line are the words written in it", "statement": "An accepted line consists of nothing but the words handed out, written one after the other with blanks between them; the words form a line (perhaps a number, then at least one word, no two neighbours that cannot be told apart). Every list of words that forms a line can be written so that it is read as exactly these words.", "quantifier": "all lines, lists of words and states of the parser", "why_tests_cant": "Words may be written without blanks between them and their parts are optional, so there are unboundedly many combinations of neighbours.", "anchors": ["parser/heidenhain/AllAttributesParserGrammar.h", "parser/heidenhain/AllAttributesParser.cpp: parse"]}
{"id": "C65", "title": "A rejected Heidenhain line has a message that names the place", "statement": "There is a message exactly if the line is rejected; it names the line and column of a place in the text and quotes what follows it, and the words handed out stand in front of that place. The lines read before have no influence. Callers of the C interface get the verdict and the message.", "quantifier": "all lines and states of the parser", "why_tests_cant": "The grammar keeps a flag between lines, and the place depends on which alternative has thrown.", "anchors": ["parser/heidenhain/AllAttributesParserGrammar.h", "parser/heidenhain/AllAttributesParser.cpp: parse", "parser/heidenhain/AllAttributesParserWrapper.cpp: Parse"]}
{"id": "C66", "title": "Which Heidenhain lines are turned down", "statement": "Lines with nothing but blanks or a number are rejected. A name is rejected exactly if it begins with CYCL, Q, BEGIN or END; a comment exactly if it has a tilde before its end. A line that begins with one of these words is accepted only with what has to follow it.", "quantifier": "all lines and states of the parser", "why_tests_cant": "The claim is about all names and comments.", "anchors": ["parser/heidenhain/AllAttributesParserGrammar.h", "parser/heidenhain/AllAttributesParser.cpp: parse"]}
{"id": "C67", "title": "Two numbers of a line are read in the given order", "statement": "OrderAttributeParser succeeds exactly if a number stands behind the first occurrence of the first letter and a number behind the first occurrence of the second letter after that; these are the values. Otherwise it fails, with a message exactly if one of the letters is found and no number stands behind it. The message shows the line and the column of the place.", "quantifier": "all lines, pairs of printable characters and readers of numbers", "why_tests_cant": "The unit test has one line and two pairs of letters; the claim is about every line.", "anchors": ["parser/fanuc/OrderAttributeParser.cpp"]}
{"id": "C68", "title": "What the server says about a document is what a fresh analysis of its last text says", "statement": "After any messages the server has handled, the diagnostics it sends for a text are those of a run of the parser on this text alone with the configuration read at the start, one for each line a new parser rejects, in order and at that line; the code lenses of a document are the summaries of a run on its last text alone. A diagnostic about the macro descriptions may precede those of the first text.", "quantifier": "all histories of messages, documents, configurations and results of the mathematical library", "why_tests_cant": "No test runs the message handler; the claim is about every history of messages.", "anchors": ["nclangsrv/JsonMessageHandler.cpp", "nclangsrv/NCParser.cpp"]}
{"id": "C69", "title": "No document brings the server down", "statement": "Whatever text is sent, the run of the parser comes to its end with messages: no exception leaves it and nothing undefined is evaluated. Nothing in the message loop catches an exception, so one that leaves the parser ends the server.", "quantifier": "all documents, byte by byte, all tables and settings that can be read, all results of the mathematical library", "why_tests_cant": "Tests run lines somebody thought of. That none of the conversions and lookups behind a line can fail for any text is a claim about all of them.", "anchors": ["nclangsrv/NCParser.cpp", "nclangsrv/JsonMessageHandler.cpp", "parser/fanuc/AllAttributesParser.cpp", "parser/fanuc/AttributesPathCalculator.cpp"]}
{"id": "C70", "title": "The settings editor writes what its form shows", "statement": "When the editor of the machine settings writes a file, the server can read it and every setting it gets is the one in the form. Loading a file and saving it again leaves it as it is.", "quantifier": "all texts in all boxes of the form, all machines and files, both cultures", "why_tests_cant": "The two programs agree only through a text file. Whether the numbers, words and tables that one of them writes are the ones the other reads depends on every text somebody can type and on the culture of the computer.", "anchors": ["cmtconfig/NCSettingsForm.cs", "cmtconfig/NCSettingsForm/CNCMachinePoints.cs", "cmtconfig/NCSettingsForm/CNCKinematics.cs", "cmtconfig/NCSettingsDefinition.cs", "nclangsrv/NCSettingsReader.cpp"]}
{"id": "C71", "title": "A .NET program gets the results of the parser and leaves no memory behind", "statement": "The .NET class around the library returns the words, texts, messages, macro values and results of the parser, hands its tables over complete, and gives every allocation of the library back exactly once.", "quantifier": "all calls, blocks, messages, tables, states of the memory", "why_tests_cant": "Memory that is read after it was given back, or never given back, goes unnoticed in a test; which arrays the library made depends on the program and on whether it has mistakes.", "anchors": ["parser_net/AllAttributesParser.cs", "parser_net/FanucAllAttributesParser.cs", "parser/fanuc/AllAttributesParserWrapper.cpp", "parser/AllAttributesParserWrapperBase.cpp"]}
{"id": "C72", "title": "Shared structures carry their values between a .NET program and the parser", "statement": "Every field of a structure that a .NET program fills is read by the parser with the same value, and the reverse for results; arrays, the machine settings and the numbers of enumerations included.", "quantifier": "all shared structures, values, array lengths, earlier contents of the memory", "why_tests_cant": "The two sides declare each structure on their own; a field of another size or order reads neighbouring bytes, which a test sees only for values that differ there, and padding keeps whatever was in memory.", "anchors": ["parser_net/AllAttributesParser.cs", "parser/AllAttributesParserWrapperBase.h", "parser/AllAttributesParserWrapperBase.cpp", "parser/GeneralParserDefines.h", "parser/fanuc/AllAttributesParserWrapper.h"]}
{"id": "C73", "title": "The server works with the settings chosen in the editor", "statement": "The options the extension starts the language server with give the server exactly the settings in force: the file of settings, the log file, the macro descriptions and whether to calculate paths.", "quantifier": "all settings of user and workspace", "why_tests_cant": "Which value is in force depends on two layers and a default, and any text is a possible path; the option parser treats some of them as options.", "anchors": ["vscode-client/src/extension.ts", "nclangsrv/nclangsrv.cpp", "package.json"]}
{"id": "C74", "title": "The extension reports settings that need a reload, runs one tool and shows the machine", "statement": "After any events the running server has the settings in force or the user has been asked to reload; each edit of a setting is asked about; toggling changes the setting; at most one configuration tool runs, and only where supported; the server restarts when its file of settings changes; the status bar shows the machine or the name of the file.", "quantifier": "all sequences of edits, commands and file changes, all settings, paths and file contents", "why_tests_cant": "The extension keeps a flag that one command sets and a later, possibly unrelated event clears; only sequences of events show where it is wrong.", "anchors": ["vscode-client/src/extension.ts", "package.json"]}
{"id": "C75", "title": "Codes and predefined blocks of .NET programs are read and saved unchanged", "statement": "The text of a code is read as that code; predefined blocks are read from all files of their directory with the decimal separator filled in; saving keeps what was read, deletes only removed groups and touches no other file.", "quantifier": "all codes, lines, groups, directories and separators", "why_tests_cant": "Lines are formatted by a small language of braces, and files are found and deleted by comparing paths; only unusual texts and paths show where saving is not the inverse of reading.", "anchors": ["parser_net/PredefinedBlocks.cs", "parser_net/CodeGroups.cs"]}
{"id": "C76", "title": "A code that completion offers shows its description, there and when pointed at", "statement": "Every G or M code in the completion list is a code of the description file, perhaps with a zero in front; its entry in the list and the text shown when the pointer is on it in a document are the first entry of the file for it.", "quantifier": "all description files, documents, histories of messages, positions", "why_tests_cant": "Completion and hover look codes up in different ways, and the synonyms with a zero are added while the file is read; whether both agree depends on how the file spells its codes.", "anchors": ["nclangsrv/CodesReader.cpp", "nclangsrv/JsonMessageHandler.cpp", "conf/generic_mill/desc/mcode_desc_en.json"]}
{"id": "C77", "title": "What the editor shows as a comment is what the parser reads as one", "statement": "In an accepted line, the characters coloured as a comment are exactly those of the comments the parser reads; the colours of a line do not depend on other lines; a line that is made a comment by the editor is one for the parser.", "quantifier": "all lines, documents and word tables", "why_tests_cant": "Two independent descriptions of the same language, a regular-expression grammar and the parser, have to agree on every line.", "anchors": ["syntaxes/ncproj.tmLanguage.json", "language-configuration.json", "parser/fanuc/AllAttributesParserGrammar.h"]}
{"id": "C78", "title": "What an editing command writes is read again as it was meant", "statement": "The text of a line after removing comments, the block number or optional-block marks, after renumbering or rotating, is accepted again and read as exactly the words the command made, with the parser in the same state as after the original line.", "quantifier": "all accepted lines, all states of the parser, all settings of the commands and all word tables", "why_tests_cant": "Whether words join up when something between them is taken out, and whether a changed number is still in range, depends on the whole line and on the tables.", "anchors": ["parser/fanuc/AllAttributesParser.cpp", "parser/fanuc/AllAttributesParserGrammar.h", "parser/fanuc/Renumberer.cpp", "parser/fanuc/AxesRotator.cpp"]}
{"id": "C79", "title": "The way and the time of straight motions are those of geometry", "statement": "The way reported for a block with G0 or G1 is the distance between the position before and the position after it (X halved where it is a diameter), or in incremental coordinates the length of the increments, to 15 digits; the time of a motion is its way divided by the feed in force, by feed times speed when turning with G95, and by the rapid feed of the machine for rapid motions.", "quantifier": "all machines, states of the calculator and blocks, and all coordinates, feeds and speeds of a size that occurs", "why_tests_cant": "The tests compare some ways with numbers computed before; the rounding errors and the modes in force have endlessly many combinations.", "anchors": ["parser/fanuc/AttributesPathCalculator.cpp", "parser/fanuc/PathCalculator.cpp", "parser/fanuc/MathUtils.h"]}
{"id": "C80", "title": "The ways of a drilling cycle are those of geometry", "statement": "For the first hole of a boring or tapping cycle the cutting way reported is the way from the level R to the bottom (twice that when tapping), and the rapid way reported is the way to the hole, down to R and back to the height of before (G98) or to R (G99), in absolute and in incremental coordinates and in all three planes.", "quantifier": "all machines, states of the calculator and blocks, and all coordinates of a size that occurs", "why_tests_cant": "The tests look at some holes at certain heights; signs, planes, return levels and rounding have endlessly many combinations, and the tests wrote down what the code said.", "anchors": ["parser/fanuc/AttributesPathCalculator.cpp", "parser/fanuc/PathCalculator.cpp", "parser/fanuc/MathUtils.h"]}
{"id": "C81", "title": "The ways of circles and arcs are those of geometry", "statement": "A full circle programmed by its centre is reported with the length two pi times its radius, in all three planes, in absolute and incremental coordinates and in both directions; an arc is reported with the length of the arc in its direction, a helix with its length along the thread.", "quantifier": "all machines, states of the calculator and blocks, all centres and positions up to a kilometre, and whatever the arc tangent of the library", "why_tests_cant": "The tests compare some arcs with the numbers the code gave; starting points on an axis, planes and rounding have endlessly many combinations.", "anchors": ["parser/fanuc/AttributesPathCalculator.cpp", "parser/fanuc/PathCalculator.cpp", "parser/fanuc/MathUtils.h"]}
{"id": "C82", "title": "A tool change and a reference return go to their points", "statement": "A block that exchanges the tool is reported as a rapid motion straight to the tool exchange point, a block with G28 as one to the base point of the machine: with the length of the way, the time it takes at the rapid feed, and the end at that point.", "quantifier": "all machines, states of the calculator and blocks that exchange a tool without special codes or have G28 as their only special code, and all points and positions of a size that occurs", "why_tests_cant": "The tests change a few tools at fixed points; machines, positions, planes and whatever stands where a temporary value was are endless.", "anchors": ["parser/fanuc/AttributesPathCalculator.cpp"]}
{"id": "C83", "title": "A modal word holds until another of its kind replaces it", "statement": "After every block the path calculation works with the feed, the speed and the codes of each group (motion, plane, absolute or incremental coordinates, kind of feed, kind of speed, return of a cycle) that were given last: by the block itself or by an earlier one, whatever stands between.", "quantifier": "all machines, states of the calculator, blocks and sequences of blocks", "why_tests_cant": "The tests carry a few feeds over a few lines; which words stand together on a line, what is active and how many blocks lie between is endless.", "anchors": ["parser/fanuc/AttributesPathCalculator.cpp"]}
{"id": "C84", "title": "The way of a spiral is the length of the curve", "statement": "For a circular motion with a centre and a number of turns L or a step Q, the reported way is, up to rounding, the length of the spiral from the start point to the end point.", "quantifier": "all machines, states of the calculator, planes, centres, turns and steps", "why_tests_cant": "Tests compare a few spirals with numbers taken from the program itself; that the formula is the length of the curve, and that rounding never spoils it, is a statement about all numbers.", "anchors": ["parser/fanuc/PathCalculator.cpp", "parser/fanuc/AttributesPathCalculator.cpp"]}
{"id": "C85", "title": "The way of an arc with a radius is the length of that arc", "statement": "For a circular motion with R the reported way is, up to rounding, the length of the arc with this radius between the start point and the end point: the shorter one for a positive R, the longer one for a negative R. Where there is no such arc the block is rejected.", "quantifier": "all machines, states of the calculator, planes, coordinates and radii", "why_tests_cant": "Tests compare a few arcs with numbers taken from the program itself; the angle comes out of a difference, a root, a quotient and an arc tangent, and only a proof bounds what their roundings do for all coordinates.", "anchors": ["parser/fanuc/PathCalculator.cpp", "parser/fanuc/AttributesPathCalculator.cpp"]}
