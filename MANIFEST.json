{
 "claims": [
  {
   "property": "C01",
   "status": "proved",
   "theorems": [
    "C01_lookup_is_latest",
    "C01_lookup_missing",
    "C01_use_in_block"
   ],
   "note": "Lookup in the macro table and use of the looked-up value in a block."
  },
  {
   "property": "C02",
   "status": "proved",
   "theorems": [
    "C02_table_is_function",
    "C02_user_keeps_first",
    "C02_system_keeps_last"
   ],
   "note": "User assignments keep the first value of a line, system assignments the last."
  },
  {
   "property": "C03",
   "status": "partial",
   "theorems": [
    "C03_numbers_partial",
    "C03_numbers_refuted"
   ],
   "note": "Numbers follow start, step and wrap-around for blocks whose number word is plain. Refuted in general: an existing N#5 keeps its macro mark, so the block does not carry the computed number."
  },
  {
   "property": "C04",
   "status": "proved",
   "theorems": [
    "C04_only_the_number",
    "C04_at_most_one_word"
   ],
   "note": "Renumbering changes at most one word and only its number."
  },
  {
   "property": "C05",
   "status": "proved",
   "theorems": [
    "C05_remove_undoes_renumber"
   ],
   "note": "Removing the numbers after renumbering gives the block without numbers."
  },
  {
   "property": "C06",
   "status": "proved",
   "theorems": [
    "C06_every_kth"
   ],
   "note": "Only every k-th numberable block is numbered."
  },
  {
   "property": "C07",
   "status": "proved",
   "theorems": [
    "C07_exactly_the_comments",
    "C07_idempotent"
   ],
   "note": "On parsed blocks."
  },
  {
   "property": "C08",
   "status": "proved",
   "theorems": [
    "C08_exactly_the_leading_marks",
    "C08_idempotent"
   ],
   "note": "On parsed blocks."
  },
  {
   "property": "C09",
   "status": "proved",
   "theorems": [
    "C09_round_trip",
    "C09_four_times",
    "C09_plane_round_trip",
    "C09_arc_direction_refuted"
   ],
   "note": "Axis words, all non-G words and plane words are restored. C09_arc_direction_refuted is a finding outside the property's claim: G2/G3 are not restored."
  },
  {
   "property": "C10",
   "status": "partial",
   "theorems": [
    "C10_coordinates",
    "C10_proper",
    "C10_plane",
    "C10_arc_partial",
    "C10_arc_refuted",
    "C10_plane_has_image"
   ],
   "note": "Proper rotation and plane rewriting proved; arc direction proved for plane G17 and refuted for every option in some other plane."
  },
  {
   "property": "C11",
   "status": "proved",
   "theorems": [
    "C11_accepts",
    "C11_names_first"
   ],
   "note": "Accept/reject condition and the reported address."
  },
  {
   "property": "C12",
   "status": "proved",
   "theorems": [
    "C12_accepts",
    "C12_names_both"
   ],
   "note": "For well-formed group tables and G/M values that are decimal digits; undefined macro codes are also rejections."
  },
  {
   "property": "C13",
   "status": "partial",
   "theorems": [
    "C13_limits_partial",
    "C13_limits_refuted"
   ],
   "note": "Proved for integer words. Refuted for words with a decimal part: the fraction is ignored, S100.5 passes with limit 100."
  },
  {
   "property": "C14",
   "status": "proved",
   "theorems": [
    "C14_travel",
    "C14_integers_exact"
   ],
   "note": "For axis limits whose difference with the zero point needs no rounding; whole-number limits always qualify."
  },
  {
   "property": "C15",
   "status": "proved",
   "theorems": [
    "C15_reported_once",
    "C15_operator"
   ],
   "note": "For programs whose S and M values are decimal digits."
  },
  {
   "property": "C16",
   "status": "proved",
   "theorems": [
    "C16_partition",
    "C16_same_cuts",
    "C16_text_cuts"
   ],
   "note": "All five modes. For text splitting the cut positions are characterised too."
  },
  {
   "property": "C17",
   "status": "proved",
   "theorems": [
    "C17_at_least",
    "C17_exactly",
    "C17_refused",
    "C17_rapid_only"
   ],
   "note": "Sizes without retraction planes; G/M values are assumed to be decimal digits for the exact size and the rapid-traverse condition."
  },
  {
   "property": "C18",
   "status": "proved",
   "theorems": [
    "C18_cuts"
   ],
   "note": "For G and M values that are decimal digits. Words after an optional-block mark do not count. A block with the first two tool changes starts a new piece."
  },
  {
   "property": "C19",
   "status": "partial",
   "theorems": [
    "C19_accepted_partial",
    "C19_rejected_partial",
    "C19_too_big",
    "C19_no_integer_part_refuted"
   ],
   "note": "Decision table proved for every word with a digit in front of the point, in every parser state. Without one the range is not checked (C19_no_integer_part_refuted); a number too big for int ends in std::out_of_range instead of the range message (C19_too_big)."
  },
  {
   "property": "C20",
   "status": "partial",
   "theorems": [
    "C20_partial",
    "C20_plain_partial",
    "C20_bracket_refuted",
    "C20_macro_refuted"
   ],
   "note": "The parser remembers brackets and macros of earlier lines: false in general (two refutations). Proved after lines without brackets and #, and for lines of plain words after any lines."
  },
  {
   "property": "C21",
   "status": "partial",
   "theorems": [
    "C21_partial",
    "C21_shipped_partial",
    "C21_assign_refuted",
    "C21_comma_refuted",
    "C21_name_refuted"
   ],
   "note": "False for lone commas, for an address followed by an assignment that joins, and behind a program name (three refutations); proved for all other lines."
  },
  {
   "property": "C22",
   "status": "proved",
   "theorems": [
    "C22_value",
    "C22_unambiguous"
   ],
   "note": "For every spelling (blanks, either bracket, redundant brackets) of every expression. Literal values and libm are arbitrary functions."
  },
  {
   "property": "C23",
   "status": "partial",
   "theorems": [
    "C23_assignment_partial",
    "C23_no_prefix_partial",
    "C23_refusal_unchanged",
    "C23_complete_accepted",
    "C23_refuted"
   ],
   "note": "Refuted as stated: text after a complete expression is ignored (#1=1X5 is accepted). Proved: an accepted right-hand side starts with a complete expression not followed by an operator and stores its value; without such a prefix it is refused; a refusal never changes the table."
  },
  {
   "property": "C24",
   "status": "proved",
   "theorems": [
    "C24_round_trip",
    "C24_expression"
   ],
   "note": "All 32-bit numbers, on integers and through the calculator."
  },
  {
   "property": "C25",
   "status": "partial",
   "theorems": [
    "C25_frame",
    "C25_optional",
    "C25_dwell_partial",
    "C25_refuted",
    "C25_rotation",
    "C25_unit_code"
   ],
   "note": "Frame, optional blocks, rotation words and unit code proved for every block and grammar. A dwell block is only left alone from the G4 word on: words in front of it are converted (C25_refuted: X254 G4)."
  },
  {
   "property": "C26",
   "status": "partial",
   "theorems": [
    "C26_partial",
    "C26_succeeds",
    "C26_refuted",
    "C26_zero_refuted"
   ],
   "note": "Proved for every grammar entry that allows decimals, up to the 2^-50 relative error of binary64 arithmetic and for numbers between 10^-300 and 10^300 (or 0). For entries without decimals trailing zeros of the integer are cut (C26_refuted: F254 -> F1, F0 -> F). Uses Flocq, hence the axioms of Coq's Reals."
  },
  {
   "property": "C27",
   "status": "partial",
   "theorems": [
    "C27_path_partial",
    "C27_time_partial",
    "C27_path_refuted",
    "C27_time_refuted"
   ],
   "note": "Path and time totals proved for every run, failing blocks included, except blocks that fail inside a helix after a spiral or are undefined (path), and reading failures or dwells beside a prepared tool (time). Both exceptions are refutations of the full property. Summation is in the order of the blocks, with doubles."
  },
  {
   "property": "C28",
   "status": "proved",
   "theorems": [
    "C28"
   ],
   "note": "For every sequence of blocks and every word; machine points finite."
  },
  {
   "property": "C29",
   "status": "partial",
   "theorems": [
    "C29_partial",
    "C29_moved_partial",
    "C29_refuted"
   ],
   "note": "A pending automatic rapid traverse survives the reset (refuted). Proved without that option, and with it once a block with a coordinate followed the last tool number."
  },
  {
   "property": "C30",
   "status": "partial",
   "theorems": [
    "C30_partial",
    "C30_stream",
    "C30_rotation_names",
    "C30_rotation_stream",
    "C30_settings",
    "C30_refuted",
    "C30_driver_refuted"
   ],
   "note": "Round trip and rejection proved for 15 of the 16 enumerations; the rotation direction never reads back what it writes (C30_refuted), and the advertised driver list contains a name that is rejected (C30_driver_refuted)."
  },
  {
   "property": "C31",
   "status": "partial",
   "theorems": [
    "C31_partial",
    "C31_code_lens",
    "C31_diagnostics",
    "C31_changes_refuted",
    "C31_zero_refuted"
   ],
   "note": "For histories handled to the end in which each change notification carries one change and texts and names hold no character zero, the stored lines and results of a document come from the last text sent, and closed documents have none; the code lenses and the published diagnostics are those of that text. Refuted without the two conditions: only the first of several changes is used, and a text ends at its first character zero. The NC parser is an oracle."
  },
  {
   "property": "C32",
   "status": "partial",
   "theorems": [
    "C32_partial",
    "C32_all",
    "C32_output",
    "C32_unique",
    "C32_refuted",
    "C32_content_type_refuted"
   ],
   "note": "Proved for messages whose body does not start with a line end and that have only the Content-Length header, for any message handler. Refuted for bodies that start with a line end and for messages with a Content-Type header."
  },
  {
   "property": "C33",
   "status": "partial",
   "theorems": [
    "C33_replies",
    "C33_answered_partial",
    "C33_notified",
    "C33_text_id_refuted",
    "C33_resolve_refuted",
    "C33_hover_refuted",
    "C33_no_json_refuted"
   ],
   "note": "Every handled request with an int id gets exactly one reply with that id, everything else gets none (C33_replies). The server does handle the requests of good_request after any history (C33_answered_partial). Refuted beyond: text ids, resolving an item before a completion, hovering over a macro number too big for int, messages that are no object."
  },
  {
   "property": "C34",
   "status": "partial",
   "theorems": [
    "C34_partial",
    "C34_refuted",
    "C34_dropped_refuted",
    "C34_undefined_refuted"
   ],
   "note": "Proved for the message shapes `located`; messages that quote \"line 1\", empty texts on line 1 and messages without a colon refute the full claim."
  },
  {
   "property": "C35",
   "status": "partial",
   "theorems": [
    "C35_lines",
    "C35_segments",
    "C35_numbering",
    "C35_lossless_partial",
    "C35_refuted"
   ],
   "note": "Lines are the segments between line feeds and numbering agrees; trailing white space is dropped, so joining is lossless exactly when no line ends in white space."
  },
  {
   "property": "C36",
   "status": "partial",
   "theorems": [
    "C36_partial",
    "C36_refuted",
    "C36_rotary_refuted"
   ],
   "note": "False of the code: operator precedence makes the used point the zero point itself (0 where 1 is configured), and settings with a rotary axis not at 0 cannot be applied. The partial theorem says exactly which values are used."
  },
  {
   "property": "C37",
   "status": "partial",
   "theorems": [
    "C37_partial",
    "C37_macros_partial",
    "C37_refuted"
   ],
   "note": "Proved for lines without # and for every line when macros are not evaluated. False for a macro whose value makes the text unreadable; C37_macros_partial says that this is the only way."
  },
  {
   "property": "C38",
   "status": "partial",
   "theorems": [
    "C38_own_entry",
    "C38_ranges_partial",
    "C38_outside",
    "C38_inside",
    "C38_loads",
    "C38_end_points_refuted",
    "C38_too_large_refuted"
   ],
   "note": "User entries override built-in ones; strictly inside a documented range the description is found, outside of all ranges there is none, whatever order the table is walked in. Refuted: the end point of a range gets none, and without a log a number that does not fit an int is fatal."
  },
  {
   "property": "C39",
   "status": "proved",
   "theorems": [
    "C39_export",
    "C39_determined",
    "C39_released"
   ],
   "note": "Words are read as C strings; a word with a zero character (impossible in input given as C strings) is cut there, so the words are assumed to have none."
  },
  {
   "property": "C40",
   "status": "proved",
   "theorems": [
    "C40_time",
    "C40_summary",
    "C40_buffer_refuted"
   ],
   "note": "Times below 2^62 ms; the summary needs a tool name that fits its buffer (C40_buffer_refuted shows what happens otherwise)."
  },
  {
   "property": "C41",
   "status": "partial",
   "theorems": [
    "C41_partial",
    "C41_refuted"
   ],
   "note": "Refuted: #1X5 stores 5 in macro 1 without an equal sign. Proved for blocks without a macro word."
  },
  {
   "property": "C42",
   "status": "proved",
   "theorems": [
    "C42_rounding"
   ],
   "note": "All finite doubles."
  },
  {
   "property": "C43",
   "status": "partial",
   "theorems": [
    "C43_partial",
    "C43_refuted"
   ],
   "note": "Refuted: SINH is accepted by the grammar and never evaluated. Proved for the other real functions."
  },
  {
   "property": "C44",
   "status": "proved",
   "theorems": [
    "C44_accepts",
    "C44_rejects"
   ],
   "note": "Accepted exactly when the address occurs at most once; the error names it."
  },
  {
   "property": "C45",
   "status": "proved",
   "theorems": [
    "C45_last_decides",
    "C45_determined",
    "C45_fraction_refuted"
   ],
   "note": "For programs whose G words have a number that fits an int. A fraction is ignored: G20.5 selects inches."
  },
  {
   "property": "C46",
   "status": "partial",
   "theorems": [
    "C46_code",
    "C46_macro_partial",
    "C46_code_macro_partial",
    "C46_nothing",
    "C46_description_refuted",
    "C46_undefined_refuted"
   ],
   "note": "A macro variable is only described when the document assigns some macro (C46_description_refuted); a code given by an unassigned macro gives an empty object (C46_undefined_refuted)."
  },
  {
   "property": "C47",
   "status": "partial",
   "theorems": [
    "C47_resolve_partial",
    "C47_other_document_refuted"
   ],
   "note": "The summary shown is the one of the document whose lens was asked last; with two documents it can be the wrong one (C47_other_document_refuted)."
  },
  {
   "property": "C48",
   "status": "partial",
   "theorems": [
    "C48_offered",
    "C48_resolved",
    "C48_faulty_file_refuted"
   ],
   "note": "Holds for readable description files; a faulty file leaves the codes read before the fault (C48_faulty_file_refuted)."
  },
  {
   "property": "C49",
   "status": "partial",
   "theorems": [
    "C49_amount_partial",
    "C49_refused",
    "C49_hidden_rapid_refuted"
   ],
   "note": "Cuts are missed when rapid traverse cancels cycles and another G code follows G0 (C49_hidden_rapid_refuted); proved otherwise."
  },
  {
   "property": "C50",
   "status": "partial",
   "theorems": [
    "C50_blocks_partial"
   ],
   "note": "Same exception as C49 (C49_hidden_rapid_refuted); proved otherwise."
  },
  {
   "property": "C51",
   "status": "partial",
   "theorems": [
    "C51_partial",
    "C51_word_refuted",
    "C51_assignment_refuted"
   ],
   "note": "Proved for lines without # of which a word was read. False when the first word is refused while macros are evaluated, and for assignments that cannot be calculated."
  },
  {
   "property": "C52",
   "status": "partial",
   "theorems": [
    "C52_rejected_partial",
    "C52_accepted_partial",
    "C52_refuted"
   ],
   "note": "Proved for lines without #. False for a line with a macro that is rejected after the second reading."
  },
  {
   "property": "C53",
   "status": "partial",
   "theorems": [
    "C53_positions_partial",
    "C53_sums_partial",
    "C53_positions_refuted",
    "C53_sums_refuted"
   ],
   "note": "Proved for every line, macros included, unless the path calculation itself or the travel range at the zero point rejects it, or std::out_of_range is reported; the first two are refuted."
  },
  {
   "property": "C54",
   "status": "partial",
   "theorems": [
    "C54_state",
    "C54_partial",
    "C54_refuted"
   ],
   "note": "The state of the analysis is never touched. That the next line gets the same reply is proved for edited lines without brackets and #, and refuted otherwise (bracket counters of the grammar)."
  },
  {
   "property": "C55",
   "status": "proved",
   "theorems": [
    "C55_words",
    "C55_exception",
    "C55_released",
    "C55_reuse_refuted"
   ],
   "note": "Memory is a list of allocations; running out of memory is not modelled. The reuse theorem shows the null pointers are needed: variables of an earlier call are left alone when a line has no words."
  },
  {
   "property": "C56",
   "status": "partial",
   "theorems": [
    "C56_pieces",
    "C56_texts",
    "C56_partial",
    "C56_refuted",
    "C56_empty_refuted"
   ],
   "note": "False when the first piece is empty: its pointer is never set and giving it back deletes through it. What a failing split leaves behind is modelled for the text mode only."
  },
  {
   "property": "C57",
   "status": "proved",
   "theorems": [
    "C57_macros",
    "C57_line",
    "C57_large_refuted",
    "C57_path",
    "C57_released"
   ],
   "note": "For macro numbers that fit an int; a larger one is handed out negative (C57_large_refuted)."
  },
  {
   "property": "C58",
   "status": "proved",
   "theorems": [
    "C58_groups",
    "C58_grammar"
   ],
   "note": ""
  },
  {
   "property": "C59",
   "status": "proved",
   "theorems": [
    "C59_settings",
    "C59_groups",
    "C59_grammar",
    "C59_values",
    "C59_read_back",
    "C59_passed_on"
   ],
   "note": "Files are property trees; boost's JSON reader is not modelled. Names of enumerators are read as in Model/Enums.v."
  },
  {
   "property": "C60",
   "status": "partial",
   "theorems": [
    "C60_settings",
    "C60_first_grammar",
    "C60_first_gcodes",
    "C60_first_mcodes",
    "C60_missing",
    "C60_configured",
    "C60_refuted",
    "C60_used",
    "C60_defaults"
   ],
   "note": "Proved for the settings file and for the first report about the other files. False afterwards: a grammar that could not be read is not tried again and later documents are parsed with the empty table (C60_refuted)."
  },
  {
   "property": "C61",
   "status": "proved",
   "theorems": [
    "C61_complete",
    "C61_quoted",
    "C61_places",
    "C61_places2",
    "C61_used",
    "C61_text",
    "C61_unknown"
   ],
   "note": "C61_used: the messages of parse are of the table and have the number of values the table says. The text of std::out_of_range is up to the library and assumed to start with a letter in C61_text."
  },
  {
   "property": "C62",
   "status": "proved",
   "theorems": [
    "C62_history",
    "C62_first",
    "C62_prefix",
    "C62_start"
   ],
   "note": ""
  },
  {
   "property": "C63",
   "status": "partial",
   "theorems": [
    "C63_partial",
    "C63_dropped_refuted",
    "C63_line_refuted",
    "C63_return_refuted",
    "C63_macro_refuted",
    "C63_tabulator_refuted"
   ],
   "note": "Conditions: no carriage return within a line, no message with \"line 1\" in it, on the first line no colon or a column other than the first, columns below 2^31; the character only without tabulators. Each condition but the last has a refutation with the shipped tables."
  },
  {
   "property": "C64",
   "status": "proved",
   "theorems": [
    "C64_sound",
    "C64_complete",
    "C64_again"
   ],
   "note": "What qi::int_ makes of the digits of a parameter and whether a failed +rule moves past blanks depend on the version of Boost; the theorems hold for any. Each word has one written form in C64_complete, not all of them."
  },
  {
   "property": "C65",
   "status": "partial",
   "theorems": [
    "C65_place",
    "C65_message",
    "C65_history",
    "C65_caller",
    "C65_no_grammar_refuted"
   ],
   "note": "Without a call that makes the grammar, parse dereferences a null pointer. The column is only given for lines without tabulators and line ends."
  },
  {
   "property": "C66",
   "status": "proved",
   "theorems": [
    "C66_bare",
    "C66_name",
    "C66_comment",
    "C66_cycle",
    "C66_parameter",
    "C66_program",
    "C66_longer_refuted",
    "C66_point_refuted"
   ],
   "note": "The two refuted: names that only begin with a reserved word are rejected too; a point that begins a number becomes part of the word in front of it."
  },
  {
   "property": "C67",
   "status": "proved",
   "theorems": [
    "C67_order",
    "C67_message"
   ],
   "note": "What qi::float_ reads is an argument. The column is given for lines without tabulators in front of the place."
  },
  {
   "property": "C68",
   "status": "proved",
   "theorems": [
    "C68_diagnostics",
    "C68_lenses",
    "C68_placed"
   ],
   "note": "For configuration that can be read, changes of one text and texts without the character zero (see C60 and C31 for the others). C68_placed has the conditions of C63 on messages."
  },
  {
   "property": "C69",
   "status": "partial",
   "theorems": [
    "C69_partial",
    "C69_shipped_partial",
    "C69_bracket_refuted",
    "C69_pecking_refuted",
    "C69_helix_refuted",
    "C69_summary_refuted"
   ],
   "note": "Proved for documents without brackets and macros in which no pecking cycle, no helix and no repeated hole can occur, with tables that have a range for every letter (all shipped ones do). False without these conditions: N[ ends the server with std::invalid_argument, a pecking cycle without Q or a helix block without Z reads an empty optional, a tiny feed makes a time that is no int64. Missing: documents with macros and brackets for which no conversion fails, and pecking cycles and repeats with values in a safe range."
  },
  {
   "property": "C70",
   "status": "partial",
   "theorems": [
    "C70_partial",
    "C70_texts",
    "C70_single",
    "C70_saved_partial",
    "C70_polish_refuted",
    "C70_large_refuted",
    "C70_range_refuted",
    "C70_nan_refuted",
    "C70_stop_refuted"
   ],
   "note": "Proved: an exported file is read by the server with the settings of the form, when the driver and the machine are known to the server and no box says NaN; a file that is loaded and saved stays the same in English, when its numbers are plain texts, its ranges are singles, its feeds are whole numbers and its words are in the lists. False without these conditions: a Polish machine point loses its point, 1E+20 becomes 120 in a box of a machine point, a range of 0.1 becomes the nearest single, NaN in a box is written and the server then refuses the file, a file with the rotation direction stop cannot be loaded. Missing: loading and saving in Polish for numbers without a fraction."
  },
  {
   "property": "C71",
   "status": "partial",
   "theorems": [
    "C71_words",
    "C71_message",
    "C71_exception",
    "C71_split_partial",
    "C71_texts_partial",
    "C71_macros",
    "C71_line_macros",
    "C71_path",
    "C71_groups",
    "C71_grammar",
    "C71_whole",
    "C71_leak_refuted",
    "C71_answer_refuted",
    "C71_texts_refuted"
   ],
   "note": "Proved for the words, the message, macro values, path results and tables of all calls; for pieces of a split file with memory given back when there is a piece; for texts of a split file without empty pieces. False: a split that fails leaves three arrays behind; an empty piece is read through a pointer that was never set; an answer of one byte is read as four, so a mistake can be reported as success. Decoding of the bytes is left out."
  },
  {
   "property": "C72",
   "status": "partial",
   "theorems": [
    "C72_given_partial",
    "C72_returned",
    "C72_kinematics",
    "C72_points",
    "C72_zero_point",
    "C72_zero_point_missing",
    "C72_enums_partial",
    "C72_unset_refuted",
    "C72_null_refuted",
    "C72_marks"
   ],
   "note": "Proved for all thirteen shared structures, in both directions, alone and in arrays, for texts that are set; for the machine settings; for all enumerators but one. False: a text that was never set reaches the parser as null, which it copies, undefined behaviour; AxesRotatingOption.unset has no counterpart. Addresses of eight bytes, low byte first, are assumed; the two layouts follow the documented rules of the platforms."
  },
  {
   "property": "C73",
   "status": "partial",
   "theorems": [
    "C73_options_partial",
    "C73_sound",
    "C73_fails",
    "C73_dash_refuted",
    "C73_words"
   ],
   "note": "Proved for all settings whose paths do not begin with a dash; whenever the server starts, its settings are those in force. False for a path such as -log.txt, which the option parser takes for an option, and the server stops; C73_fails says exactly when. Reading of options by boost and the layers of settings of the editor are modelled from their documentation."
  },
  {
   "property": "C74",
   "status": "partial",
   "theorems": [
    "C74_stale",
    "C74_each_partial",
    "C74_each_refuted",
    "C74_toggle_partial",
    "C74_toggle_refuted",
    "C74_one_tool",
    "C74_supported_refuted",
    "C74_watched",
    "C74_status",
    "C74_status_file",
    "C74_stem_partial",
    "C74_stem_one_dot",
    "C74_stem_refuted"
   ],
   "note": "Proved: old settings never go unreported, one tool at a time, restart for the file of settings only, the status bar. False: after a command that changes nothing the next edit is not asked about; toggling has no effect when the workspace has its own value; the tool is started where it is said not to be supported; a name that contains its extension earlier is cut there. Paths are taken to be in normal form, and the event of an update to come at once."
  },
  {
   "property": "C75",
   "status": "partial",
   "theorems": [
    "C75_code",
    "C75_code_texts",
    "C75_format",
    "C75_read",
    "C75_one_bad",
    "C75_written",
    "C75_saved_partial",
    "C75_saved_refuted",
    "C75_separator_refuted",
    "C75_relative_refuted"
   ],
   "note": "Proved: codes and their texts, what each line is shown as and when it fails, what is read and what is there after saving. Reading again what was saved is proved if no line has a brace and the path is full. False otherwise: a brace is saved without its escape, the separator is saved in place of its hole, and groups read from a relative path are deleted. JSON is not modelled; string.Format and uint.Parse are modelled from their documentation."
  },
  {
   "property": "C76",
   "status": "partial",
   "theorems": [
    "C76_partial",
    "C76_shipped",
    "C76_zero_refuted"
   ],
   "note": "Proved for description files whose codes are named without superfluous zeros, which holds for all shipped files but two. False for these: the M codes of the generic machines are named 00 to 09, the list shows them and pointing at M03 shows nothing."
  },
  {
   "property": "C77",
   "status": "partial",
   "theorems": [
    "C77_lines",
    "C77_comments_partial",
    "C77_shipped",
    "C77_operations",
    "C77_backslash_refuted",
    "C77_semicolon_refuted",
    "C77_toggle_refuted",
    "C77_letters"
   ],
   "note": "Proved for accepted lines without backslash, for all shipped tables. False: behind a backslash the end of a comment is overlooked; a semicolon is coloured as a comment and refused by the parser; the editor makes a line a comment with #, which the parser reads as a macro variable. The engine of the editor is modelled from its documentation."
  },
  {
   "property": "C78",
   "status": "partial",
   "theorems": [
    "C78_comments_partial",
    "C78_number_partial",
    "C78_marks_partial",
    "C78_renumber_partial",
    "C78_rotate_partial",
    "C78_shipped",
    "C78_empty_refuted",
    "C78_joined_refuted",
    "C78_range_refuted",
    "C78_variable_refuted",
    "C78_convert_refuted"
   ],
   "note": "Proved for lines without a comma of their own whose words do not join, which all usual lines satisfy, and with the shipped tables for rotating. False: a line with only a comment becomes an empty one, which is refused; a comment may keep an address and = apart; renumbering past the range of N; rotating changes G#2 to G#3; numbers converted to millimetres may be too big."
  },
  {
   "property": "C79",
   "status": "partial",
   "theorems": [
    "C79_absolute_partial",
    "C79_incremental_partial",
    "C79_cut_time_partial",
    "C79_turning_time_partial",
    "C79_rapid_time_partial",
    "C79_dwell_refuted",
    "C79_surface_speed_refuted",
    "C79_surface_time_partial"
   ],
   "note": "Proved for blocks without a tool change and with the usual G codes only, for coordinates of 0 or 2^-400..2^400 and rates of 2^-100..2^100. False: a dwell (G4 X2) while G1 is active is reported as a motion; with G96 the way is taken for the diameter, so that the time grows with its square. Missing: motions to the tool exchange point and by G28, arcs and drilling cycles (their times are covered)."
  },
  {
   "property": "C80",
   "status": "partial",
   "theorems": [
    "C80_bore_partial",
    "C80_tap_partial",
    "C80_bore_by_partial",
    "C80_tap_by_partial",
    "C80_level_refuted",
    "C80_depth_refuted",
    "C80_next_refuted",
    "C80_tap_by_refuted",
    "C80_plane_refuted",
    "C80_fine_partial",
    "C80_back_partial",
    "C80_peck_partial",
    "C80_peck_by_partial",
    "C80_fine_by_refuted",
    "C80_back_by_refuted",
    "C80_chip_refuted",
    "C80_peck_refuted",
    "C80_without_q_refuted"
   ],
   "note": "Proved for the first hole of a cycle without K (boring, tapping, deep drilling, and fine boring and boring backwards in absolute coordinates), with the usual G codes only, for boring in absolute coordinates with the tool above the level above the bottom, for coordinates of 0 or 2^-400..2^400; for deep drilling with up to 1000 steps of at least a thousandth that leave a rest of at least a thousandth of a step. False: a level below zero under a tool above zero; a depth counted from the level may give a negative cutting way; the next hole after G99 is counted from the height before the first; tapping with G91 and G99 is reported without rapid; outside G17 the position of the hole is not kept. Fine boring with G91 leaves out the way to the level, boring backwards with G91 is reported with too much rapid, and G73 has two rapid ways for one hole; a missing Q is read from an empty optional; where the steps of G83 divide the depth, one stroke too many is counted as cutting. Missing: the exact ways of the cycle 73, and repeats K."
  },
  {
   "property": "C81",
   "status": "partial",
   "theorems": [
    "C81_circle_partial",
    "C81_arc_partial",
    "C81_opposite_partial",
    "C81_axis_refuted",
    "C81_quadrant_refuted",
    "C81_helix_refuted",
    "C81_diameter_refuted"
   ],
   "note": "Proved, with both words of the centre, outside a helix and where X is not a diameter: full circles with a radius of at least 10^-6, whatever the arc tangent; and, with an accurate arc tangent, arcs from one quadrant into a neighbouring or the opposite one in both directions, to a millionth of a millimetre, where start and end keep a thousandth from the axes through the centre and the chord is up to 7/8 of the diameter; for opposite quadrants the sine of the angle between the points is at least a quarter. abs is taken for doubles. False: from a point on an axis through the centre the long arc is reported as the short one, and so it is between two points in one quadrant; a turn of a helix is reported as a circle whose radius includes the pitch; where X is a diameter the centre I is halved too. Missing: arcs of nearly half a circle, where the length depends on the last digits of the chord. Arcs with a radius are C85, spirals C84."
  },
  {
   "property": "C82",
   "status": "partial",
   "theorems": [
    "C82_way_partial",
    "C82_end_partial",
    "C82_time_partial",
    "C82_axes_refuted",
    "C82_via_refuted",
    "C82_modal_refuted",
    "C82_cut_refuted",
    "C82_stale_refuted"
   ],
   "note": "Proved for blocks that name no other motion than G0, with X counted half where it is a diameter. Where it ends holds as long as the temporary value that the code refers to after its lifetime is still found (C82_stale_refuted shows another one). False: G28 with one axis takes all axes home; the point G28 goes by is not counted; a cut that goes on after G28 is taken for rapid; G28 with G1 is taken for a cut."
  },
  {
   "property": "C83",
   "status": "partial",
   "theorems": [
    "C83_block_partial",
    "C83_until_partial",
    "C83_motion_partial",
    "C83_motion_kept_partial",
    "C83_arc_refuted",
    "C83_cycle_refuted",
    "C83_tool_refuted"
   ],
   "note": "Proved for blocks that name a motion, or that come while G0, G1 or G80 is active, or that give a coordinate, and whose tool, if they name one, is taken. False for the others, whose words are forgotten: a feed on a line of its own while G2 or G3 is active, G91 on a line of its own while a cycle is active, and a feed beside a tool that is only made ready."
  },
  {
   "property": "C84",
   "status": "partial",
   "theorems": [
    "C84_formula",
    "C84_turns_partial",
    "C84_steps_partial",
    "C84_end_refuted"
   ],
   "note": "Proved to 13 digits for spirals between the centre and a point around it, with at least one turn or with a positive step no larger than the radius, for radii from 2^-100 to 2^100 and a library whose logarithm is accurate; the formula is shown to be the length of the curve. False for other end points: the end point does not enter the calculation, so a spiral into the centre and one that ends next to its start get the same way."
  },
  {
   "property": "C85",
   "status": "partial",
   "theorems": [
    "C85_radius_partial",
    "C85_nowhere_refuted",
    "C85_too_far_refuted"
   ],
   "note": "Proved to 13 digits, also where X is a diameter, for coordinates and radii up to 10^6 with chord and radius at least 10^-6, for chords up to 15/16 of the diameter (beyond that the difference of squares cancels and the digits are lost) and for a library whose arc tangent is accurate. False where start and end are the same point, which is reported as a whole circle, and where the points are too far apart for the radius: the block is accepted and a way is made up."
  }
 ]
}