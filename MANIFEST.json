{
 "claims": [
  {
   "property": "C01",
   "status": "partial",
   "theorems": [
    "C01_read_after_writes",
    "C01_linear_subscript_refuted",
    "C01_linear_subscript_partial"
   ],
   "note": "Read-after-write is proved for every size and write sequence. The one-subscript half is false of the code (subscript k is taken as row k, column 1): refuted with a witness; the one-column case is proved."
  },
  {
   "property": "C02",
   "status": "partial",
   "theorems": [
    "C02_out_of_range_rejected_refuted",
    "C02_row_out_of_range_partial",
    "C02_accepted_subscripts"
   ],
   "note": "False of the code for columns (a column beyond the last addresses the next row): refuted. Row overflow is rejected and the exact set of accepted subscript pairs is characterised."
  },
  {
   "property": "C03",
   "status": "proved",
   "theorems": [
    "C03_shape_invariant"
   ],
   "note": "Invariant over all write sequences."
  },
  {
   "property": "C04",
   "status": "proved",
   "theorems": [
    "C04_index_first_match",
    "C04_index_window",
    "C04_window_elements"
   ],
   "note": "First match and window positions, for every array, value and window."
  },
  {
   "property": "C05",
   "status": "proved",
   "theorems": [
    "C05_scoping_refinement",
    "C05_write_then_read"
   ],
   "note": "Refinement of the store to the scoping rules over every operation history; write-then-read law in every reachable state."
  },
  {
   "property": "C06",
   "status": "proved",
   "theorems": [
    "C06_call_restores_caller",
    "C06_caller_locals_invisible",
    "C06_outer_writes_persist"
   ],
   "note": "Restoration of the caller, invisibility of its LOCALs, persistence of outer writes, for arbitrary callee bodies given as decision trees."
  },
  {
   "property": "C07",
   "status": "partial",
   "theorems": [
    "C07_balanced_refuted",
    "C07_balance_partial",
    "C07_pcount_restored_partial"
   ],
   "note": "False for exceptional exits (refuted). Exact accounting of the stacks is proved: they grow by the number of activations left by an exception."
  },
  {
   "property": "C08",
   "status": "partial",
   "theorems": [
    "C08_parameter_binding_partial",
    "C08_pcount_partial",
    "C08_no_parameters_partial",
    "C08_reserved_parameter_refuted"
   ],
   "note": "Proved for parameter lists without repetition and without the names self and scope; refuted for those names."
  },
  {
   "property": "C09",
   "status": "partial",
   "theorems": [
    "C09_no_duplicates",
    "C09_search_order",
    "C09_release",
    "C09_resolution",
    "C09_dll_first",
    "C09_release_command_refuted",
    "C09_set_list_refuted",
    "C09_missing_file"
   ],
   "note": "List invariant, most-recent-first order, release and resolution are proved for the methods; the RELEASE PROCEDURE command (passes strings) and SET PROCEDURE TO a, b (loads only a) are refuted."
  },
  {
   "property": "C10",
   "status": "partial",
   "theorems": [
    "C10_other_settings_unchanged",
    "C10_onoff_read_back",
    "C10_onoff_values",
    "C10_onoff_invalid_rejected",
    "C10_failure_changes_nothing_partial",
    "C10_bell_read_back",
    "C10_century_read_back",
    "C10_compatible_read_back",
    "C10_notify_read_back",
    "C10_index_refresh_read_back",
    "C10_procedure_read_refuted",
    "C10_compatible_prompt_refuted",
    "C10_unchecked_values_refuted"
   ],
   "note": "Frame, read-back, value invariant and rejection proved for the ON/OFF settings over all histories; failing calls with string arguments change nothing; refuted for COMPATIBLE's prompt flag and for the unchecked CENTURY/NOTIFY/BELL values. The multi-valued settings (BELL, CENTURY, COMPATIBLE, NOTIFY, INDEX, REFRESH) have read-back theorems of their own; SET('PROCEDURE') cannot be read back."
  },
  {
   "property": "C11",
   "status": "proved",
   "theorems": [
    "C11_stuff_slice",
    "C11_stuff_to_end"
   ],
   "note": "For every way to cut the text in three. Positions are at least 1."
  },
  {
   "property": "C12",
   "status": "partial",
   "theorems": [
    "C12_chrtran_partial",
    "C12_chrtran_full_lists_partial",
    "C12_chrtran_deletion_refuted"
   ],
   "note": "Proved when every character to be replaced has a counterpart. False otherwise: where FoxPro deletes, the function raises IndexError (proved for every such input)."
  },
  {
   "property": "C13",
   "status": "partial",
   "theorems": [
    "C13_strtran_after_start_partial",
    "C13_start_occurrence_refuted"
   ],
   "note": "The function is characterised for every text, start and maximum: it replaces occurrences start+1 .. start+n, one later than FoxPro; refuted with a witness. Excludes the empty search text."
  },
  {
   "property": "C14",
   "status": "partial",
   "theorems": [
    "C14_words_partial",
    "C14_words_exist",
    "C14_word_zero_refuted",
    "C14_delimiter_set_refuted"
   ],
   "note": "Proved for whitespace and one-character delimiters and word numbers other than 0. Several delimiter characters and word number 0 are refuted."
  },
  {
   "property": "C15",
   "status": "partial",
   "theorems": [
    "C15_first_occurrence_partial",
    "C15_nth_pair_partial",
    "C15_nth_begin_refuted",
    "C15_no_end_partial",
    "C15_no_end_second_refuted",
    "C15_multiline_refuted",
    "C15_missing_end_refuted",
    "C15_missing_end_partial",
    "C15_ignore_case"
   ],
   "note": "Proved for texts without line feed: occurrence 1 as in FoxPro, occurrence n as the n-th begin/end pair. Counting begin delimiters, texts across lines and flag 2 with a special begin character are refuted. The flags for case and inclusion are modelled but have no theorem."
  },
  {
   "property": "C16",
   "status": "partial",
   "theorems": [
    "C16_like_prefix_partial",
    "C16_like_open_pattern_partial",
    "C16_like_whole_refuted",
    "C16_like_backslash_refuted"
   ],
   "note": "Proved: true iff some prefix matches, so the claim holds for patterns ending in *. Matching the whole text is refuted. Patterns with other regular-expression characters are outside the model."
  },
  {
   "property": "C17",
   "status": "partial",
   "theorems": [
    "C17_str_fits",
    "C17_str_width_partial",
    "C17_str_scaled_partial",
    "C17_str_negative_refuted"
   ],
   "note": "Numerals that fit, the width for all non-negative numbers and the meaning of the scaled form are proved; negative numbers that do not fit raise AttributeError (refuted)."
  },
  {
   "property": "C18",
   "status": "partial",
   "theorems": [
    "C18_atline_partial",
    "C18_ratline_partial",
    "C18_absent_refuted"
   ],
   "note": "Proved for texts that occur and contain no carriage return; the not-found result is 1 instead of 0 (refuted)."
  },
  {
   "property": "C19",
   "status": "partial",
   "theorems": [
    "C19_dtos_width_partial",
    "C19_dtos_order_partial",
    "C19_dtos_determines_partial",
    "C19_dtos_datetime_order_partial",
    "C19_dtos_early_years_refuted"
   ],
   "note": "Proved for dates and datetimes of the years 1000-9999. Earlier years are refuted under the assumption that strftime('%Y') does not pad (glibc)."
  },
  {
   "property": "C20",
   "status": "proved",
   "theorems": [
    "C20_quarter",
    "C20_quarter_range",
    "C20_gomonth",
    "C20_gomonth_inverse",
    "C20_dow",
    "C20_dow_range_and_step"
   ],
   "note": "dateutil's relativedelta addition is modelled from its documented algorithm (trusted)."
  },
  {
   "property": "C21",
   "status": "proved",
   "theorems": [
    "C21_documented_fields",
    "C21_box_shown",
    "C21_argument_order",
    "C21_defaults",
    "C21_return_values"
   ],
   "note": "Qt itself is not modelled: the theorems are about the arguments the box is created with and the value returned for a button."
  },
  {
   "property": "C22",
   "status": "partial",
   "theorems": [
    "C22_use_lowest_free",
    "C22_found_under_alias_partial",
    "C22_names",
    "C22_refuses_and_frame",
    "C22_close_by_number",
    "C22_close_by_alias_refuted",
    "C22_use_current_refuted",
    "C22_numbers_and_duplicates_refuted"
   ],
   "note": "True for USE file IN 0, closing by number and USE IN SELECT(alias). False: USE IN alias clears a different area (always), USE without IN raises TypeError (always), USE t IN n opens in area n+1, a duplicate alias is accepted. The dbf library is a contract (table = record list and pointer)."
  },
  {
   "property": "C23",
   "status": "partial",
   "theorems": [
    "C23_select_alias_partial",
    "C23_select_function_values",
    "C23_select_round_trip_refuted"
   ],
   "note": "SELECT alias is right; SELECT(SELECT('alias')) selects the following area, always."
  },
  {
   "property": "C24",
   "status": "partial",
   "theorems": [
    "C24_pointer_legal",
    "C24_goto",
    "C24_skip_partial",
    "C24_append",
    "C24_skip_backward_refuted"
   ],
   "note": "Invariant over every sequence of table commands from the initial state. SKIP before the first record raises dbf's Bof instead of going to the beginning of file."
  },
  {
   "property": "C25",
   "status": "partial",
   "theorems": [
    "C25_count_partial",
    "C25_sum_partial",
    "C25_delete_partial",
    "C25_replace_partial",
    "C25_replace_selected_table_partial",
    "C25_pointer_partial",
    "C25_selected_meaning",
    "C25_next_past_end_refuted",
    "C25_delete_current_partial",
    "C25_count_defaults_partial"
   ],
   "note": "Under `ready` (NEXT/RECORD within the file, pointer on a record or at end). Missing: NEXT n past the end raises after doing the work (refuted). Conditions are pure functions of the current record."
  },
  {
   "property": "C26",
   "status": "partial",
   "theorems": [
    "C26_selection_restored_partial",
    "C26_record_out_of_range_refuted",
    "C26_raising_condition_refuted"
   ],
   "note": "True whenever the command ends normally; false when it raises."
  },
  {
   "property": "C27",
   "status": "partial",
   "theorems": [
    "C27_scan_partial",
    "C27_scan_refuted"
   ],
   "note": "For ALL and REST scope on a non-empty table with the pointer on a record and a body that keeps selection and pointer. Empty table, end of file, NEXT scope and a body that selects another table are refuted."
  },
  {
   "property": "C28",
   "status": "partial",
   "theorems": [
    "C28_locate_continue_partial",
    "C28_locate_from_top_refuted"
   ],
   "note": "True with the matches counted from the current record; LOCATE as converted does not start from the top and drops its scope clause (refuted)."
  },
  {
   "property": "C29",
   "status": "proved",
   "theorems": [
    "C29_crc",
    "C29_short",
    "C29_detects_bursts",
    "C29_detects_one_byte",
    "C29_damaged_header_refused"
   ],
   "note": "Checksum = CRC-16 (poly 0x1021, init 0) of all header bytes after the first two, for every header; any change of one byte or of two adjacent bytes changes it, and the reader refuses such a header."
  },
  {
   "property": "C30",
   "status": "partial",
   "theorems": [
    "C30_reread",
    "C30_truncated_refuted",
    "C30_source_name_refuted"
   ],
   "note": "Proved for members whose code block is completely inside the archive and whose name needs no re-encoding; a truncated archive and the source-file-name offset (which points one byte too far) are refuted with witnesses."
  },
  {
   "property": "C31",
   "status": "proved",
   "theorems": [
    "C31_inverts_packing",
    "C31_decodes_or_refuses"
   ],
   "note": "Decoding inverts packing for every date 1980-2107 with even seconds; every other 32-bit word is refused."
  },
  {
   "property": "C32",
   "status": "partial",
   "theorems": [
    "C32_decompile_partial",
    "C32_iif_jumps_refuted"
   ],
   "note": "Proved for every tree over literals, names with qualifiers, unary/binary operators, built-in, extended and user calls, AND/OR jumps, parentheses and groups. IIF with jump codes refuted for all operands. Float, date and currency literals are not in the tree language."
  },
  {
   "property": "C33",
   "status": "partial",
   "theorems": [
    "C33_currency_exactly",
    "C33_currency_partial",
    "C33_currency_refuted"
   ],
   "note": "Exact characterisation of the amounts whose text denotes the stored amount; negative amounts with a fraction and fractions below one tenth are refuted for every such amount."
  },
  {
   "property": "C34",
   "status": "proved",
   "theorems": [
    "C34_ints",
    "C34_short_read"
   ],
   "note": "All 16/32-bit fields; signed and unsigned decodes agree modulo 2^n; short reads raise struct.error."
  },
  {
   "property": "C35",
   "status": "partial",
   "theorems": [
    "C35_terminates",
    "C35_lines_partial",
    "C35_block_partial",
    "C35_sync_partial",
    "C35_zero_length_refuted",
    "C35_one_length_refuted"
   ],
   "note": "Termination for all files; every line of a well-formed area gives one text, decompiled from exactly that line or its hex dump. Length prefixes 0 and 1 are refuted (the block, or the rest of it, is lost)."
  },
  {
   "property": "C36",
   "status": "partial",
   "theorems": [
    "C36_structure_partial",
    "C36_value_partial",
    "C36_negated_sum_refuted",
    "C36_negative_base_refuted",
    "C36_modulo_refuted",
    "C36_compared_comparison_refuted",
    "C36_inlined_at_refuted",
    "C36_inlined_left_refuted"
   ],
   "note": "Proved for every grammar-produced tree except the constructions that are listed and refuted, each for all variable names: minus before a parenthesis, signed base of a power, % with a product on its right, a compared comparison, AT inside a product, LEFT of a sum. Calls of LEN, ABS, ROUND, MAX, MIN, IIF, BETWEEN (of values that are not comparisons) and MOD (of single operands) are covered at any depth, other calls if the function is one of the program's own. 'Operator tree' is up to joining adjacent string constants."
  },
  {
   "property": "C37",
   "status": "proved",
   "theorems": [
    "C37_truth",
    "C37_not_comparison"
   ],
   "note": "All nestings of AND/OR/NOT/parentheses over tame arithmetic and comparisons (operands that are bare string constants excluded: they lose their quotes), every valuation. NOT a = b is shown to negate the comparison."
  },
  {
   "property": "C38",
   "status": "partial",
   "theorems": [
    "C38_augmented_partial",
    "C38_plain_partial",
    "C38_sum_partial",
    "C38_chain_refuted",
    "C38_product_sum_refuted"
   ],
   "note": "Right for x = x op r with one operator (+ - * /), for sums of any length on integers and strings, and whenever the statement stays a plain assignment; refuted for x - a - b and x * a + b (for all names)."
  },
  {
   "property": "C39",
   "status": "partial",
   "theorems": [
    "C39_for_partial",
    "C39_negative_step_refuted"
   ],
   "note": "Positive steps: the three emitted arguments evaluate to a, b+1, s and range runs FoxPro's values. Negative steps refuted for every loop that reaches b or b+1."
  },
  {
   "property": "C40",
   "status": "partial",
   "theorems": [
    "C40_first_true_partial",
    "C40_otherwise_partial",
    "C40_otherwise_alone_refuted"
   ],
   "note": "Proved for all case lists with single-line conditions (first true case, OTHERWISE when none holds, an error in a condition). Refuted for every DO CASE without CASE: its OTHERWISE never runs."
  },
  {
   "property": "C41",
   "status": "partial",
   "theorems": [
    "C41_nesting_partial",
    "C41_program_partial",
    "C41_continued_comment_refuted"
   ],
   "note": "Proved for all statement trees whose texts are single lines, including failed statements, WITH, empty blocks and whole programs: there is exactly one reading and its nesting is that of the source (TRY without CATCH is flattened, see C51). Refuted for an @..SAY command written over two lines."
  },
  {
   "property": "C42",
   "status": "partial",
   "theorems": [
    "C42_value_partial",
    "C42_signs_exact",
    "C42_signs_refuted"
   ],
   "note": "Any interpretation with an involutive negation; sign chains characterised exactly over Z; -+x and ---x lose their sign (refuted for all non-zero values)."
  },
  {
   "property": "C43",
   "status": "partial",
   "theorems": [
    "C43_left",
    "C43_right_partial",
    "C43_right_zero_refuted",
    "C43_substr_rest",
    "C43_substr_partial",
    "C43_substr_one_refuted",
    "C43_at",
    "C43_rat",
    "C43_at_occurrence_refuted",
    "C43_at_empty_refuted",
    "C43_occurs",
    "C43_space",
    "C43_replicate",
    "C43_pad_partial",
    "C43_pad_truncation_refuted"
   ],
   "note": "LEFT, AT, RAT, OCCURS, SPACE, REPLICATE and two-argument SUBSTR proved; RIGHT with 0, SUBSTR of length 1 past the end, AT with an occurrence or an empty needle, PADL/PADR that truncate are refuted."
  },
  {
   "property": "C44",
   "status": "partial",
   "theorems": [
    "C44_bitset",
    "C44_bitclear_partial",
    "C44_bitclear_negative_refuted",
    "C44_bittest",
    "C44_bitwise"
   ],
   "note": "BITSET, BITTEST, BITAND/BITOR/BITXOR for all values; BITCLEAR for non-negative 32-bit values, refuted for negative ones."
  },
  {
   "property": "C45",
   "status": "partial",
   "theorems": [
    "C45_date",
    "C45_datetime_partial",
    "C45_twelve_refuted",
    "C45_rejects"
   ],
   "note": "Dates and times with hours 1-11 are proved, and everything that is not a date is rejected. For hour 12 the claim is false (noon becomes hour 24, which dt.datetime refuses; midnight becomes noon): refuted for every such literal."
  },
  {
   "property": "C46",
   "status": "proved",
   "theorems": [
    "C46_blob"
   ],
   "note": "All hexadecimal strings, down to the emitted bytearray(...) text."
  },
  {
   "property": "C47",
   "status": "partial",
   "theorems": [
    "C47_with_partial",
    "C47_program_partial",
    "C47_after_nested_refuted",
    "C47_this_refuted"
   ],
   "note": "Proved for programs without a .name reference after an inner WITH of the same WITH and without WITH THIS/THISFORM; both exclusions refuted for all names. The trailers of .name are left out of the model."
  },
  {
   "property": "C48",
   "status": "partial",
   "theorems": [
    "C48_constants_partial",
    "C48_in_string_refuted",
    "C48_nested_refuted",
    "C48_undefine_refuted"
   ],
   "note": "Proved for programs without conditionals and #INCLUDE (those are C49, C71): the output is the one the history of #DEFINE/#UNDEFINE lines prescribes. False in general: a constant is replaced inside string constants too, a constant named in a definition is not replaced, and #UNDEFINE of an unknown name fails the conversion (all refuted for every such program)."
  },
  {
   "property": "C49",
   "status": "partial",
   "theorems": [
    "C49_selected",
    "C49_complete_partial",
    "C49_dropped",
    "C49_other_directive_refuted"
   ],
   "note": "Selection of exactly one branch and independence of the dropped branch proved for all programs; completeness for programs without #INCLUDE. Any other directive (#IFNDEF, #ELIF) makes the whole conversion fail: refuted. The truth of an #IF expression is an oracle parameter."
  },
  {
   "property": "C50",
   "status": "partial",
   "theorems": [
    "C50_expands",
    "C50_unambiguous",
    "C50_idempotent",
    "C50_others",
    "C50_given",
    "C50_short_partial",
    "C50_short_refuted"
   ],
   "note": "Expansion, unambiguity and idempotence proved for all names. Short names: NEW is taken for NEWOBJECT (refuted); every other name of fewer than four letters is left alone."
  },
  {
   "property": "C51",
   "status": "partial",
   "theorems": [
    "C51_catch_partial",
    "C51_finally_skipped_refuted",
    "C51_normal_partial"
   ],
   "note": "With CATCH: proved. Without CATCH: refuted for every block that does not end normally (FINALLY is skipped), proved when it does."
  },
  {
   "property": "C52",
   "status": "partial",
   "theorems": [
    "C52_written",
    "C52_existing",
    "C52_source_partial",
    "C52_source_refuted",
    "C52_unknown_refuted",
    "C52_ignored_partial"
   ],
   "note": "Naming, keeping an existing module, and never touching the source when the output is a directory are proved. False otherwise: with its own name as output the source is overwritten, and files with unknown extensions are copied over whatever has that name."
  },
  {
   "property": "C53",
   "status": "partial",
   "theorems": [
    "C53_method_binding_partial",
    "C53_method_with_local_refuted"
   ],
   "note": "Refuted for methods whose body has a Python local of its own; binding proved for the others."
  },
  {
   "property": "C54",
   "status": "partial",
   "theorems": [
    "C54_call_syntax_single_partial",
    "C54_call_syntax_refuted",
    "C54_local_array_refuted"
   ],
   "note": "Refuted for shadowed and LOCAL arrays; proved when a single non-LOCAL frame binds the name."
  },
  {
   "property": "C55",
   "status": "partial",
   "theorems": [
    "C55_emitted_set_commands_refuted",
    "C55_known_words_partial"
   ],
   "note": "Refuted: twelve emitted words are unknown to the runtime; proved for the remaining ones."
  },
  {
   "property": "C56",
   "status": "partial",
   "theorems": [
    "C56_str_decimals_partial",
    "C56_str_exact_width_refuted"
   ],
   "note": "Proved when the field is wider than the integer part. An integer part that fills the field exactly is refuted."
  },
  {
   "property": "C57",
   "status": "proved",
   "theorems": [
    "C57_dtoc_determines",
    "C57_dtoc_datetime_determines",
    "C57_dtoc_text",
    "C57_dtoc_datetime_text"
   ],
   "note": "For all valid dates and datetimes."
  },
  {
   "property": "C58",
   "status": "partial",
   "theorems": [
    "C58_eof_value_partial",
    "C58_eof_on_last_record_refuted"
   ],
   "note": "The computed values are characterised in every reachable state; EOF() is already true on the last record (refuted for every non-empty table)."
  },
  {
   "property": "C59",
   "status": "partial",
   "theorems": [
    "C59_zap_current_partial",
    "C59_zap_in_refuted"
   ],
   "note": "ZAP of the selected table is right; ZAP IN is ignored (refuted for every reference)."
  },
  {
   "property": "C60",
   "status": "partial",
   "theorems": [
    "C60_first_seek_partial",
    "C60_second_seek_refuted"
   ],
   "note": "First SEEK only; once an area has a stored search, the key is ignored (refuted for all keys). The index lookup itself is an argument of the model."
  },
  {
   "property": "C61",
   "status": "partial",
   "theorems": [
    "C61_replace_current_partial",
    "C61_replace_for_refuted"
   ],
   "note": "REPLACE of the current record is right; FOR/WHILE are dropped and the expression is evaluated only once (refuted)."
  },
  {
   "property": "C62",
   "status": "partial",
   "theorems": [
    "C62_emitted_calls_refuted"
   ],
   "note": "Exact list of the emitted calls the runtime does not accept."
  },
  {
   "property": "C63",
   "status": "proved",
   "theorems": [
    "C63_insert",
    "C63_append"
   ],
   "note": "The rows to be inserted are an argument of the model (the conversion of dictionaries and objects to rows is not modelled)."
  },
  {
   "property": "C64",
   "status": "proved",
   "theorems": [
    "C64_alias",
    "C64_file_name"
   ],
   "note": "For files named dir/stem.dbf."
  },
  {
   "property": "C65",
   "status": "partial",
   "theorems": [
    "C65_member_file_partial",
    "C65_same_name_refuted",
    "C65_outside_refuted"
   ],
   "note": "A member's file holds its bytes if no later member has the same name; two members with the same name and absolute member names are refuted."
  },
  {
   "property": "C66",
   "status": "partial",
   "theorems": [
    "C66_terminated_partial",
    "C66_unterminated_refuted"
   ],
   "note": "Proved for names with a terminator; without one the reader never ends (refuted for every such file)."
  },
  {
   "property": "C67",
   "status": "partial",
   "theorems": [
    "C67_first_clause_partial",
    "C67_repeats_clause_refuted"
   ],
   "note": "An unknown byte as first clause gives a hex dump of the line; after a known clause it repeats that clause (refuted for every command, clause and byte 98-186)."
  },
  {
   "property": "C68",
   "status": "partial",
   "theorems": [
    "C68_control_flow_partial",
    "C68_program_partial"
   ],
   "note": "Proved for statement lists and whole programs with CATCH in every TRY, single-line texts, no failed statement and the WITH restrictions of C47. Commands, conditions and loop heads are opaque (M_Conv has the expressions); that the text of a loop head means the FoxPro loop is C39."
  },
  {
   "property": "C69",
   "status": "partial",
   "theorems": [
    "C69_number_partial",
    "C69_sign_only_refuted"
   ],
   "note": "Proved for all literals except an exponent with a sign and no digits (1E+), where the emitted text is no Python number: refuted for every mantissa. float() and repr(float) are parameters under the stated contract; decimals too large for a float are outside (finite)."
  },
  {
   "property": "C70",
   "status": "proved",
   "theorems": [
    "C70_string"
   ],
   "note": "CPython's repr is modelled; str.isprintable is a parameter."
  },
  {
   "property": "C71",
   "status": "partial",
   "theorems": [
    "C71_inserted_partial",
    "C71_constants_refuted",
    "C71_guard_refuted"
   ],
   "note": "Proved when the included file uses no constant of the including program. False otherwise: constants of the program are not replaced in the file's text, and the file can neither test nor #UNDEFINE them."
  },
  {
   "property": "C72",
   "status": "partial",
   "theorems": [
    "C72_incomplete_refuted",
    "C72_excluded_partial",
    "C72_same_name_refuted",
    "C72_modules_partial"
   ],
   "note": "False: in Python 3 the conversion of a project never completes (the start file is written as str to a binary file), and of two files with the same name only the second one is converted. Proved: with distinct names every program file has its module in the package."
  },
  {
   "property": "C73",
   "status": "partial",
   "theorems": [
    "C73_frame_partial",
    "C73_left_refuted",
    "C73_cp1252_refuted"
   ],
   "note": "Frame condition proved whether or not the conversion succeeds. False: the temporary file is never removed, and a character cp1252 lacks makes the conversion fail although the output is UTF-8."
  },
  {
   "property": "C74",
   "status": "partial",
   "theorems": [
    "C74_methods_partial",
    "C74_lost_refuted"
   ],
   "note": "Proved for every class without ADD OBJECT, and in any class for methods whose parameters stand in parentheses. False otherwise: each ADD OBJECT visits the methods, which removes their parameter line from the tree, so the method comes out without parameters (refuted for all such classes)."
  },
  {
   "property": "C75",
   "status": "partial",
   "theorems": [
    "C75_objects_partial",
    "C75_methods_partial",
    "C75_lost_refuted",
    "C75_dropped_refuted",
    "C75_with_partial"
   ],
   "note": "Objects, their order, names, types and WITH properties proved; methods proved for the first object and for parenthesised parameters. False: later objects' methods lose parameters declared on a line; methods for nested or inherited objects are left out."
  },
  {
   "property": "C76",
   "status": "partial",
   "theorems": [
    "C76_values_partial",
    "C76_lost_refuted"
   ],
   "note": "Proved for plain properties whose value has no name after a period. False: obj.prop = value lines and values with such a name have no effect at all (refuted for all classes)."
  },
  {
   "property": "C77",
   "status": "proved",
   "theorems": [
    "C77_logical",
    "C77_null"
   ],
   "note": "Both directions, all texts."
  },
  {
   "property": "C78",
   "status": "partial",
   "theorems": [
    "C78_value_partial",
    "C78_quotes_refuted",
    "C78_library_partial",
    "C78_fails_refuted"
   ],
   "note": "Proved for libraries whose property lines all have a value and whose values have not both quotes and a bracket. False: one property line without \" = \" (a value of several lines) makes the whole conversion fail; a value with both quotes and a bracket is written without quotes."
  },
  {
   "property": "C79",
   "status": "partial",
   "theorems": [
    "C79_controls_partial",
    "C79_classes",
    "C79_path_refuted",
    "C79_nested_refuted",
    "C79_value_refuted",
    "C79_methods_partial",
    "C79_text_refuted"
   ],
   "note": "Proved for controls directly on the form whose property lines have exactly one \" = \" and whose method lines mention PROCEDURE only at the start. False: a control in a container makes the conversion fail or disappears, a value with \" = \" makes it fail, a method line that mentions \"PROCEDURE \" elsewhere is changed (each for all forms)."
  },
  {
   "property": "C80",
   "status": "partial",
   "theorems": [
    "C80_field_partial",
    "C80_variable_partial",
    "C80_assign_partial",
    "C80_alias_refuted",
    "C80_eof_refuted",
    "C80_m_refuted"
   ],
   "note": "Proved: a field of the selected table takes precedence, any other name is the variable, an assignment sets exactly one variable (for names that are not aliases of open tables). False: the alias of an open table hides fields and variables of that name; past the last record a field cannot be read; m.name is not the variable name."
  },
  {
   "property": "C81",
   "status": "partial",
   "theorems": [
    "C81_object_partial",
    "C81_array_partial",
    "C81_memvar_refuted",
    "C81_to_array_refuted",
    "C81_clauses_refuted"
   ],
   "note": "Proved for SCATTER NAME with GATHER NAME, and for GATHER FROM an array. False: MEMVAR does nothing in either command, SCATTER TO array stores None, a FIELDS list and BLANK are ignored, and FIELDS LIKE/EXCEPT and ADDITIVE always fail."
  },
  {
   "property": "C82",
   "status": "partial",
   "theorems": [
    "C82_parts_partial",
    "C82_plain_partial",
    "C82_join_partial",
    "C82_forceext_partial",
    "C82_backslash_refuted",
    "C82_special_refuted"
   ],
   "note": "Proved for paths with \"/\" as the separator and a name that is not only periods before its extension. False: a path with backslashes is one name without a directory, an empty extension leaves a period, no path has a drive, and a name like .txt has no extension."
  },
  {
   "property": "C83",
   "status": "partial",
   "theorems": [
    "C83_unicode_partial",
    "C83_rejected_partial",
    "C83_plain_refuted",
    "C83_read_refuted"
   ],
   "note": "Proved for flags 2 and 4 and for rejected arguments (under Python 3). False: with flags 0 and 1 no text is ever written and the result is 0 (flag 0 empties the file); FILETOSTR always fails."
  },
  {
   "property": "C84",
   "status": "proved",
   "theorems": [
    "C84_include",
    "C84_locfile"
   ],
   "note": "The result is determined for every search path: the first directory that has the file, otherwise the fallback."
  },
  {
   "property": "C85",
   "status": "partial",
   "theorems": [
    "C85_resolves_partial",
    "C85_found_partial",
    "C85_missing_partial",
    "C85_repeated_refuted",
    "C85_drive_refuted",
    "C85_memo"
   ],
   "note": "Proved for relative paths; also the memo file of a table. False: a missing component whose name also occurs earlier in the path gives a wrong path; a path with a drive is never found."
  },
  {
   "property": "C86",
   "status": "partial",
   "theorems": [
    "C86_arguments",
    "C86_text",
    "C86_own_partial",
    "C86_procedure_partial",
    "C86_program_partial",
    "C86_in_partial",
    "C86_file_refuted",
    "C86_directory_refuted",
    "C86_clash_refuted",
    "C86_variable_refuted",
    "C86_loads_partial",
    "C86_missing_refuted"
   ],
   "note": "Proved for procedures of the file, procedure files, DO name.prg and IN file, for names that are no procedure of the file itself. False: DO name never runs a program file; a file in a directory is never found; a program with the name of a procedure of the file cannot be run; a variable called prg is taken for a program; a missing program keeps the whole file from loading."
  },
  {
   "property": "C87",
   "status": "partial",
   "theorems": [
    "C87_value",
    "C87_one_line_partial",
    "C87_characters",
    "C87_lines_refuted",
    "C87_blanks_refuted",
    "C87_code",
    "C87_effect",
    "C87_additive_refuted",
    "C87_merge_refuted",
    "C87_end_partial",
    "C87_end_refuted"
   ],
   "note": "Proved: the value is the lines without the blanks round them (one line without such blanks is exact, no other character is ever lost), the text of the statement, its effect, and where the block ends. False: two or more lines lose their line ends, blanks at the ends of lines are lost, ADDITIVE and TEXTMERGE are ignored, and a line that only mentions the word ENDTEXT ends the block."
  },
  {
   "property": "C88",
   "status": "partial",
   "theorems": [
    "C88_local",
    "C88_private",
    "C88_public_partial",
    "C88_reserved_refuted",
    "C88_dimension_refuted",
    "C88_hidden_refuted",
    "C88_text",
    "C88_keyword_refuted"
   ],
   "note": "Proved for LOCAL and PRIVATE, and for PUBLIC names not in use before, with the text. False: an array called self or scope cannot be declared; DIMENSION and DECLARE never give the program an array; HIDDEN and PROTECTED forget an array declared together with a plain name, and give no Python for a name that is a keyword."
  },
  {
   "property": "C89",
   "status": "partial",
   "theorems": [
    "C89_variables",
    "C89_all",
    "C89_classlib_refuted",
    "C89_this_refuted",
    "C89_popup_refuted"
   ],
   "note": "Proved for variables and ALL. False: RELEASE CLASSLIB releases variables, RELEASE THIS and THISFORM always fail, RELEASE POPUPS always fails."
  },
  {
   "property": "C90",
   "status": "partial",
   "theorems": [
    "C90_case",
    "C90_own",
    "C90_library",
    "C90_procedure_file_partial",
    "C90_arguments_refuted",
    "C90_error_refuted",
    "C90_expression_refuted",
    "C90_expression_partial",
    "C90_text"
   ],
   "note": "Proved for a constant name of a class of the file or of the library, with the arguments, and for a class of a procedure file without arguments. False: the arguments are lost for a class of a procedure file, an error while such an object is made is reported as a missing class, and a name that is no constant never finds the classes of the file itself."
  },
  {
   "property": "C91",
   "status": "partial",
   "theorems": [
    "C91_form",
    "C91_kept",
    "C91_decoration_refuted",
    "C91_statements_partial",
    "C91_semicolon_refuted",
    "C91_ampersand_refuted"
   ],
   "note": "Proved: every comment becomes a Python comment or stays as it is; the text and asterisks of an ordinary comment are kept exactly; comments without & that do not end in a semicolon leave the statements as they are. False: asterisks with blanks between them stay as they are and are no Python; a comment after && that ends in a semicolon swallows its statement; a comment with &name becomes a call of a function that does not exist."
  },
  {
   "property": "C92",
   "status": "partial",
   "theorems": [
    "C92_kept",
    "C92_not_lost",
    "C92_macro_refuted"
   ],
   "note": "Proved for every statement whose visit raises or gives nothing: all its lines are there in order and every line is a comment. False for macro substitution: such a line becomes a call of vfpfunc.macro_eval, which does not exist."
  },
  {
   "property": "C93",
   "status": "partial",
   "theorems": [
    "C93_independent_partial",
    "C93_error_refuted",
    "C93_names_partial",
    "C93_property_refuted"
   ],
   "note": "Proved for all sequences in which no error occurs among the names of a statement (LOCAL, RELEASE and the like). False: after such an error names are no longer taken for variables; a property among such names makes it and the names after it variables."
  },
  {
   "property": "C94",
   "status": "partial",
   "theorems": [
    "C94_installs_partial",
    "C94_never_called_refuted",
    "C94_error_refuted",
    "C94_store_refuted",
    "C94_commands_refuted",
    "C94_events_partial"
   ],
   "note": "Proved: ON ERROR, ON SHUTDOWN and ON ESCAPE with a call or an assignment store a function that, when called, does what the command says, each event under its own name; without a command the handler is removed. False: nothing ever calls the stored function, so a program behaves the same whatever the handler and an error goes through; of the variables of STORE only the first is set by the handler; other commands, ON KEY, ON PAD and ON BAR cannot be converted or fail."
  },
  {
   "property": "C95",
   "status": "partial",
   "theorems": [
    "C95_message_partial",
    "C95_success",
    "C95_interpreter_partial",
    "C95_rethrow_partial",
    "C95_throw_object_refuted",
    "C95_no_text_refuted",
    "C95_details_refuted",
    "C95_message_function_refuted"
   ],
   "note": "Proved: the text given to ERROR or THROW is the message the handler of TRY sees, whatever ran before; so is the text of an error of the interpreter; THROW alone passes the caught error on with its text. False: THROW of the caught object loses its message; ERROR without a text has the message None; the number is always 0 and the user value is not there; MESSAGE() fails."
  },
  {
   "property": "C96",
   "status": "partial",
   "theorems": [
    "C96_lines_partial",
    "C96_read_partial",
    "C96_seek_partial",
    "C96_write_partial",
    "C96_carriage_return_refuted",
    "C96_open_write_refuted",
    "C96_open_refuted",
    "C96_open_partial",
    "C96_update_refuted",
    "C96_update_partial",
    "C96_close_partial",
    "C96_relative_seek_refuted"
   ],
   "note": "Proved: lines written to a new file are read back one by one; FREAD, FSEEK from the start and to the end, and FWRITE at a position do what they say for all contents without carriage returns; a file that is there is opened for reading or both. False: FREAD never returns a carriage return; FOPEN for writing empties the file; a missing file or another attribute raises instead of giving -1; writing after reading a line appends to the file; seeking from the position or the end by an amount other than 0 fails."
  },
  {
   "property": "C97",
   "status": "partial",
   "theorems": [
    "C97_erase_partial",
    "C97_copy_partial",
    "C97_rename_partial",
    "C97_directories_partial",
    "C97_case_refuted",
    "C97_rename_replaces_refuted",
    "C97_wildcard_refuted"
   ],
   "note": "Proved for all file systems when the names are in lower case or expressions and the target of RENAME is free. False: a written name with capitals is looked up in lower case; RENAME replaces an existing file; wildcards are not expanded."
  },
  {
   "property": "C98",
   "status": "partial",
   "theorems": [
    "C98_words_partial",
    "C98_quotes_refuted"
   ],
   "note": "Proved for all command lines without quotation marks and &: the words are passed on one by one, however many blanks separate them. False: quotation marks do not keep an argument with blanks together."
  },
  {
   "property": "C99",
   "status": "partial",
   "theorems": [
    "C99_procedures_partial",
    "C99_methods_partial",
    "C99_property_refuted",
    "C99_end_refuted",
    "C99_date_refuted"
   ],
   "note": "Proved for all programs without classes (main code, then every procedure in order under its name) and for classes that have only methods. False: any other line of a class (a property) raises TypeError and the rest is not written; ENDDEFINE is never written; a program whose date stamp is 0 is not decompiled."
  },
  {
   "property": "C100",
   "status": "partial",
   "theorems": [
    "C100_declare_partial",
    "C100_again_partial",
    "C100_undeclared_refuted",
    "C100_clear_partial",
    "C100_clear_refuted",
    "C100_capital_refuted",
    "C100_missing_refuted"
   ],
   "note": "Proved: a declared function is callable under its alias (or name), also a second one of the same library, and names the library does not export mean what they meant before; CLEAR DLLS takes aliases away and nothing else. False: every function the library exports becomes callable and hides procedures; a function declared under its own name cannot be cleared; names with capitals are lower-cased and not found; a library that is not there is replaced by the functions of the Python process."
  },
  {
   "property": "C101",
   "status": "partial",
   "theorems": [
    "C101_cursor_partial",
    "C101_empty_refuted",
    "C101_type_refuted",
    "C101_row_refuted",
    "C101_create_refuted",
    "C101_answer",
    "C101_default"
   ],
   "note": "Proved when there is a row, all columns are numbers, texts or truth values, and every row fits the table. False: a result without rows, or with a column of any other type, leaves everything as it was (the old rows stay in the cursor); a row that does not fit cuts the cursor off there; a table that cannot be made leaves no cursor: 1 is returned each time."
  },
  {
   "property": "C102",
   "status": "partial",
   "theorems": [
    "C102_lines_partial",
    "C102_same_line_partial",
    "C102_continue_refuted",
    "C102_logical_refuted",
    "C102_position_refuted",
    "C102_continued_at_refuted",
    "C102_debug"
   ],
   "note": "Proved for texts in programs of ? only (the same lines) and of ?? only. False: what ?? shows after ? is on a line of its own; truth values are shown as True and False; the position of @ is ignored and @ ... CLEAR adds an empty line; an @ command continued on a second line makes the output invalid."
  },
  {
   "property": "C103",
   "status": "partial",
   "theorems": [
    "C103_same_partial",
    "C103_digits_partial",
    "C103_width_refuted",
    "C103_date_refuted",
    "C103_text_integer_refuted",
    "C103_logical_refuted",
    "C103_binary_refuted"
   ],
   "note": "Proved: values that have the type already are unchanged, whatever spelling and case of the type; whole numbers become their digits and digits (with sign and blanks) the number. False: a type with a width cannot be converted; dates and times always fail; a text with anything but a whole number fails as I; every text but the empty one is .T.; .T. and .NULL. become Python words; texts fail as blobs."
  },
  {
   "property": "C104",
   "status": "partial",
   "theorems": [
    "C104_kept_partial",
    "C104_width_refuted",
    "C104_underline_refuted",
    "C104_cells_refuted",
    "C104_combo_caption_refuted",
    "C104_spinner_refuted",
    "C104_no_effect_refuted",
    "C104_container_refuted",
    "C104_effect_refuted"
   ],
   "note": "Proved for captions, heights, fonts, texts, tool tips, Enabled and Visible inside a container that is, and others, with the frame. False: Width gives the height; FontUnderline cannot be read; AllowCellSelection is inverted; the caption of a combo box fails; a spinner is cut to 0..99; SpecialEffect 1 becomes 0; what a class has no property for (Visible of a label, Value of a check box, ...) is stored without effect."
  },
  {
   "property": "C105",
   "status": "partial",
   "theorems": [
    "C105_additem",
    "C105_value_partial",
    "C105_choose",
    "C105_case_refuted",
    "C105_absent_refuted",
    "C105_number_refuted",
    "C105_more_buttons_partial",
    "C105_fewer_buttons_refuted"
   ],
   "note": "Proved for AddItem, choices, items that no earlier item equals but for case, and for more buttons. False: case is ignored; a text that is no item empties the value, a number fails; given fewer buttons, an option group loses the last one only, and only after the program has given control to Qt."
  },
  {
   "property": "C106",
   "status": "partial",
   "theorems": [
    "C106_grid_partial",
    "C106_click_partial",
    "C106_created_grid_refuted",
    "C106_list_partial",
    "C106_list_again_refuted",
    "C106_created_list_refuted"
   ],
   "note": "Proved for a source that is assigned to an existing grid or an empty list. False: a grid or list made with its source forgets it, so that a refresh shows, and a click moves, the table of the current work area; a list given a source again keeps its old items."
  },
  {
   "property": "C107",
   "status": "partial",
   "theorems": [
    "C107_mod_partial",
    "C107_mod_sum_refuted",
    "C107_mod_product_refuted",
    "C107_between",
    "C107_inlist_numbers",
    "C107_inlist_strings",
    "C107_nvl_partial",
    "C107_nvl_comparison_refuted",
    "C107_empty_partial",
    "C107_empty_blanks_refuted",
    "C107_empty_comparison_refuted",
    "C107_evl_partial",
    "C107_evl_blanks_refuted",
    "C107_evl_null_refuted",
    "C107_isnull",
    "C107_isnull_compared_refuted",
    "C107_iif",
    "C107_sign",
    "C107_sign_factor_refuted",
    "C107_abs",
    "C107_max",
    "C107_min",
    "C107_round_partial",
    "C107_round_halfway_refuted"
   ],
   "note": "Proved for arguments that are arithmetic expressions or comparisons over variables, constants and calls, with integer, string, logical and NULL values. False: arguments are not put in parentheses (MOD of a sum, MOD by a product, NVL and EMPTY of a comparison), nor is the code of SIGN and ISNULL (in a product, compared with a logical value); strings of blanks are not empty; EVL replaces NULL; ROUND takes the even one of two neighbours. Floats left out."
  },
  {
   "property": "C108",
   "status": "partial",
   "theorems": [
    "C108_current_partial",
    "C108_beyond_partial",
    "C108_main_refuted",
    "C108_levels_refuted",
    "C108_depth_refuted"
   ],
   "note": "Proved for PROGRAM() in a procedure and far beyond the active ones. False: the main program is always MAIN; the decorators are on the stack too, so that every odd level is SCOPER, level 2k is that of the k-th procedure, and the number of procedures is always too large."
  },
  {
   "property": "C109",
   "status": "partial",
   "theorems": [
    "C109_value_partial",
    "C109_no_value_refuted",
    "C109_return"
   ],
   "note": "Proved for RETURN with a value (on top of C68, for the emitted text). False without value: the call gives None, which a condition takes for .F."
  },
  {
   "property": "C110",
   "status": "partial",
   "theorems": [
    "C110_meaning_partial",
    "C110_program_refuted",
    "C110_abbreviation",
    "C110_native_partial",
    "C110_native_refuted",
    "C110_missing_refuted",
    "C110_reserved_refuted",
    "C110_object_refuted",
    "C110_builtin_partial",
    "C110_builtin_refuted",
    "C110_text"
   ],
   "note": "Proved for names that are neither native nor used by the run time (procedures of the program, of procedure files, unknown names), for the native functions the converter or the run time has and for abbreviations. False: a procedure with the name of a native function is called instead of it; 232 native functions (TRANSFORM, TYPE, TTOC, NEWOBJECT, EVALUATE, ...) are looked up as procedures; procedures of procedure files with names the run time uses (replace, count, wait, ...) are never called; a program file is not found; f(...).name looks for a variable; a procedure called open, os, math, ... replaces what in-lined functions use."
  },
  {
   "property": "C111",
   "status": "partial",
   "theorems": [
    "C111_reaches",
    "C111_arguments_partial",
    "C111_rejected_refuted",
    "C111_seek_refuted",
    "C111_select"
   ],
   "note": "Proved for 69 functions with all numbers of arguments but 15 (listed), which raise TypeError: RECNO and RECCOUNT of an area, USED(), ERROR(), AFIELDS, OS(), VARTYPE with two arguments, ... SEEK() takes the key for the table."
  },
  {
   "property": "C112",
   "status": "partial",
   "theorems": [
    "C112_missing_refuted",
    "C112_ends_refuted",
    "C112_wait_partial",
    "C112_wait_refuted",
    "C112_clear_refuted",
    "C112_assert_partial",
    "C112_assert_refuted"
   ],
   "note": "Proved: WAIT without TO and ASSERT of something true change nothing. False: twelve of the commands call functions the run time does not have, so that whatever came before, each raises AttributeError and no program gets past one; WAIT TO leaves the variable as it is and needs it to exist; CLEAR and CLEAR MEMORY leave every variable; ASSERT of something false raises though asserts are off unless turned on."
  },
  {
   "property": "C113",
   "status": "partial",
   "theorems": [
    "C113_case",
    "C113_distinct_partial",
    "C113_class_refuted",
    "C113_loads_partial",
    "C113_keyword_refuted",
    "C113_variable_partial",
    "C113_letterless_refuted"
   ],
   "note": "Proved: case makes no difference; different names stay different but for CLASS and CLASSTYPE; names that are not Python keywords give code that loads; names with a letter mean the variable. False: CLASS and CLASSTYPE are one name; a name that is one of 31 Python keywords (PASS, FROM, IN, RAISE, ...), in any place and spelling, gives a file that does not load; a name without letters (_ or _1) is a Python name whatever the variable is worth."
  },
  {
   "property": "C114",
   "status": "partial",
   "theorems": [
    "C114_core_partial",
    "C114_loop_variable_refuted",
    "C114_subtraction_refuted",
    "C114_assigned_loop_variable_refuted",
    "C114_negative_step_refuted"
   ],
   "note": "Proved, down to the characters of the text and up to the values: the text is read by Python as one program; from any variables it ends when the FoxPro program does, without an error, with the same values in all variables other than those of FOR loops, and goes on when the FoxPro program goes on, for programs whose loop variables are used only inside their loops and not assigned there, with steps that are positive constants, whose expressions are free of the constructions refuted in C36 to C38. FoxPro is followed on whole numbers up to 2^53, texts and logical values, with LEN, ABS, MAX, MIN, IIF, BETWEEN and MOD at any depth of the expressions. False otherwise: after a FOR its variable is one step short; assigning it inside the loop has no effect on the loop; a negative step skips passes; x = x - a - b becomes x -= a - b."
  },
  {
   "property": "C115",
   "status": "partial",
   "theorems": [
    "C115_functions_partial",
    "C115_no_return_refuted",
    "C115_self_refuted"
   ],
   "note": "Proved, down to the characters of the text and through the scopes of vfpfunc: the text is read by Python as one module; a call with at most as many arguments as parameters returns the value of the FoxPro function, leaves the variables that no function declares with the values they have in FoxPro and the scopes as they were, and goes on as long as the FoxPro call goes on, for functions whose variables are parameters, declared in any number of LOCAL lines at the beginning, or declared nowhere in the file: public, or private to the running function that made them, seen by those it calls and gone when it returns (FoxPro's dynamic scoping; a name is not declared in one function and undeclared in another); with FOR loops over own variables, under the conditions of C114. Arguments are passed by value; calls of functions of the file are statements of their own, the whole right side of an assignment or the whole value of a RETURN; calls of LEN, ABS, MAX, MIN, IIF, BETWEEN and MOD are allowed anywhere, and no function of the file has one of these names. A function whose value is used has a RETURN and a value at the end of each path; one called only as a statement need not have any, and may use RETURN alone. False otherwise: a function without RETURN returns None and not .T.; a parameter named self or scope makes every call that passes it an error."
  },
  {
   "property": "C116",
   "status": "partial",
   "theorems": [
    "C116_thisform_partial",
    "C116_add_partial",
    "C116_library_class_refuted",
    "C116_procedure_file_refuted",
    "C116_container_refuted",
    "C116_same_name_refuted",
    "C116_parent_refuted"
   ],
   "note": "Proved for every tree of objects a program can make, if nothing is named Parent: ThisForm ends, with a form, a toolbar or an error; an object of a class of the calling file is found by its name, has its Parent, is shown once in forms, toolbars, pages, page frames and option groups, has the form of its container, and all else is unchanged. False: classes of the library are never found by AddObject; objects of classes of procedure files get no Parent, are not shown and have no form; controls in a Container, a Grid or another control are not shown; a second object of the same name leaves the first on the form without a name; an object named Parent makes ThisForm search for ever."
  },
  {
   "property": "C117",
   "status": "proved",
   "theorems": [
    "C117_whole_text",
    "C117_case",
    "C117_layout"
   ],
   "note": "Proved in full for the rules of the lexer as regular expressions, followed as ANTLR follows them. The pieces laid out are ASCII words, plain numbers, the symbols, .AND., .OR., .NOT., texts in quotes (without &), line ends with remarks and remark lines that begin with * (without & and ;); pieces that would run together (two words, a number and a word, * and *) need a layout between them."
  },
  {
   "property": "C118",
   "status": "partial",
   "theorems": [
    "C118_keywords_partial",
    "C118_cut_refuted",
    "C118_number_and_refuted"
   ],
   "note": "Proved: every word is exactly the keyword whose spellings, listed keyword by keyword with the least length the grammar allows, contain it, and a name otherwise. False: 104 keywords cut to four letters are not recognised as such (WHIL, DEFA, CLAS, ENDD, ORDE ...); .AND., .OR. and .NOT. right after a whole number lose their first period to the number, for every number."
  },
  {
   "property": "C119",
   "status": "partial",
   "theorems": [
    "C119_reads",
    "C119_tree_partial",
    "C119_one_reading",
    "C119_value_partial",
    "C119_truth_partial",
    "C119_not_sum_refuted",
    "C119_not_text_refuted",
    "C119_not_parentheses_refuted"
   ],
   "note": "Proved, from the characters on: the tree read is that of the language but for NOT, which takes only the first operand of what follows; the code has the value of the expression (operands as in C36) and conditions with NOT are true exactly when the FoxPro ones are, if what follows NOT does not begin with a text constant, a sum, a parenthesis before an arithmetic operator or two powers. False of those: NOT x + y = z joins paths, NOT \"abc\" $ x loses the quotes, NOT (x + y) * z = w loses the parentheses, for all names and layouts. The conditions of C36 and C37 remain."
  },
  {
   "property": "C120",
   "status": "partial",
   "theorems": [
    "C120_reads",
    "C120_one_reading",
    "C120_runs_partial",
    "C120_subtraction_refuted"
   ],
   "note": "Proved from the characters of the program to the run of its Python text: the statements read are those of the language but for the grouping of NOT (C119), no text can be read as two programs, and the run does what the FoxPro run does, under the conditions of C114 and C119; names of built-in functions may be abbreviated (C50). False without them: x = x - a - b is converted to S.x -= a - b, for all names, numbers and layouts. Remarks after && are skipped here; preprocessing, which makes lines of them, is C122."
  },
  {
   "property": "C121",
   "status": "partial",
   "theorems": [
    "C121_reads",
    "C121_one_reading",
    "C121_calls_partial"
   ],
   "note": "Proved from the characters of the file to the values returned by the Python functions, under the conditions of C115 and C119: functions whose value is used end with RETURN and a value (others may end without RETURN or with RETURN alone), calls of functions of the file are whole right hand sides, whole values of RETURN or statements: f(x), = f(x), DO f and DO f WITH expressions that are not variables (built-in functions as in C114 anywhere, abbreviated or not), variables are parameters, LOCAL, or declared nowhere (types after AS that are one name are read and have no effect), and so on (the refutations are those of C115 and C119). The main program is C123, remarks after ENDPROC are C125."
  },
  {
   "property": "C122",
   "status": "partial",
   "theorems": [
    "C122_preprocessed",
    "C122_laid_out",
    "C122_reads",
    "C122_continued_remark_refuted",
    "C122_last_definition_refuted"
   ],
   "note": "Proved from the characters of the file to the text that is converted (C122_preprocessed), to its being laid out as C117 and C121 need (C122_laid_out) and to the functions read from it (C122_reads), under: no constant is named inside a text in quotes or a remark line (C48), remarks at the ends of lines without & and ; (C91), #IF and #INCLUDE are C48. False without: a remark that begins with a name right after the semicolon of a continued line (;&&name) becomes a line with a macro, for all lines, names and layouts; a #DEFINE on a last line without a new line loses the last word of its value, so the constants of an included file lose it."
  },
  {
   "property": "C123",
   "status": "partial",
   "theorems": [
    "C123_program_partial"
   ],
   "note": "Proved from the characters of the program file to what a call of MAIN returns and leaves in the scopes, under the conditions of C122 for directives, of C119 and C120 for the grammar and of C115 for the functions; for the main program, and for procedures called as statements, a RETURN is not needed, and RETURN alone is allowed. Not covered: names that are LOCAL in one function and undeclared in another, FOR over undeclared variables, PRIVATE and PUBLIC lines, other statements; remarks after ENDPROC are C125; the refutations are those of the properties it is made of."
  },
  {
   "property": "C124",
   "status": "partial",
   "theorems": [
    "C124_not_assigned_partial",
    "C124_assigned_refuted"
   ],
   "note": "Proved for functions that do not assign to the parameters that stand for variables of the caller, with any other statements, calls and arguments, under the conditions of C115, down to the characters of the converted line: it does what FoxPro does for these and all other variables. False where the function assigns to such a parameter: FoxPro passes the variable itself, the converted call its value, and the change is lost, for all names and values. Public or private variables that the function could also reach by name are excluded."
  },
  {
   "property": "C125",
   "status": "partial",
   "theorems": [
    "C125_reads",
    "C125_kept",
    "C125_calls_partial",
    "C125_program_partial",
    "C125_decoration_refuted"
   ],
   "note": "Proved from the characters of the file to the values the Python functions and MAIN return, under the conditions of C121 and C123, for remarks whose converted lines are empty or begin with # and are one line each (C114 asks the same of remarks in functions); False without that condition: with a remark of asterisks and blanks such as * * * (kept as it is, C91) Python reads the file as one that is not a module of functions, refuted for every such file; where the comments stand in the text is proved without conditions. Remarks at the very end of a file without a line end, and around classes, are not covered."
  }
 ]
}