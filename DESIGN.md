# Formal model of vfp2py: design

Everything under `rocq/theories` is Coq 8.16.1 using only Coq's standard library.

## How the model is organised

* `Py*.v`: the fragment of Python used by the code: exceptions as values
  (`res A := Ok a | Err e`), strings as lists of code points (`pystr := list Z`), slices,
  `str.find/count/replace/split`, integer arithmetic on `Z`.
* `M_*.v`: the model proper. One file per source area, function by function; no proofs. Every
  definition carries a comment `(* file:lines *)` naming the code it mirrors, and what was simplified.
* `S_*.v`: specifications: small definitions written from the FoxPro (or Python, or file format) rules, which do
  not mention the model's helpers.
* `P_*.v`: lemmas and proofs.
* `T_*.v`: the property theorems: statement, proof, `Print Assumptions`, and an `Example`
  showing a concrete non-trivial case that meets the hypotheses.

A property whose full statement is false of the code gets one or more `..._refuted` theorems (wherever possible for every program or state
of a class, not just for one witness) plus the strongest statement that does hold; it is reported as `partial` in MANIFEST.json.
A theorem that covers only part of its property carries the suffix `_partial`; the note in MANIFEST.json says what is missing.

## Plan per property

| id | modelled | how it is proved |
|----|----------|------------------|
| C01-C04 | `Array` as a record (data, dim1, columns flag, offset) with `_get_index`, get/set/index/alen/slices | arithmetic on row-major addressing; invariant over write sequences; refutation for column overflow |
| C05-C07 | `_Memvar` as two stacks of finite maps; decorator as push/bind/body/pop | refinement to a one-line scoping specification over an abstract stack of frames; induction over operation sequences and call trees; refutation for exceptional exit |
| C08 | `_parameters` decorator | induction over the zip of names and arguments |
| C09 | `_Function.set_procedure/release_procedure/__getitem__` | invariant (NoDup) over histories, refinement to a most-recently-used list |
| C10 | `set` / `SET_PROPS` as a finite map from setting to list of values | case analysis per setting, frame theorem over histories |
| C11-C18 | string functions of vfpfunc on code-point lists | induction on strings against declarative specifications; regular expressions (like, strextract) through an explicit matcher model |
| C19, C20 | dates as (y, m, d) triples, Gregorian month lengths | arithmetic; ordering of digit strings |
| C21 | decision part of `messagebox` (GUI calls dropped) | bit-field arithmetic on Z |
| C22-C28, C58-C61, C63, C64 | `DatabaseContext` over a cursor model of `dbf.Table` (records, index) | invariants over operation sequences; scope clauses as list functions; refutations for every state where they fail |
| C29-C35, C65-C67 | `fxp_read.py`: checksum, header/footer codec, date, integers, extraction, expression decoder, line loop | CRC refinement by finite sweep + induction; codec round trips; induction on expression trees; termination by fuel bound |
| C36-C39, C42-C44 | expression emitters of the convert visitor on abstract syntax trees; emitted Python as tokens | a Python expression parser (precedence climbing) as specification; denotational equivalence; refutations where parentheses are lost |
| C40, C41, C47, C51, C68 | statement emitters, `add_indents`, on nested line lists | an indentation parser and a Python statement semantics as specification; simulation of a FoxPro statement semantics |
| C45, C46, C69, C70 | constants and the `repr` of their values | readers of Python number and string literals as specification |
| C48, C49, C71 | `PreprocessVisitor` on token lines | induction over directive trees against a specification by histories of directives |
| C50 | the abbreviation table | finite sweep over the whole table lifted to a statement about all prefixes |
| C74–C76 | `visitClassDef`, `visitFuncDef`, `visitClassAssign`, `visitAddObject` over the list of class members | invariant of the loop (number of visits so far), refutations as equations between classes |
| C77 | `visitBoolOrNull` | equivalence with an inductive relation |
| C52, C72, C73 | `convert_file`, `read_vfp_project`, `convert_project` over an abstract file system | case analysis on extensions, frame conditions, invariant of the loop over the project's files |
| C53-C57 | parameters of methods, array call syntax, emitted SET words, `str` layout, `dtoc` | as C05-C10, C11-C20 |
| C62 | table of emitted `DB.` calls against table of methods | computation over the two tables |
| C78, C79 | `convert_vcx_to_vfp_code`, `convert_scx_to_vfp_code` over the list of records; whether a value parses as a constant is a parameter (any predicate) | relational specification of a value, a property line and a class; equations for the refutations |
| C80, C81 | `_Variable`, `scatter`, `update_from`, `visitScatterExpr`, `visitGatherExpr` on the work areas of `M_Db.v` and the scopes of `M_Memvar.v` | reuse of the refinement of C01-C04; frame conditions for the record written |
| C82-C85 | `os.path` functions as used (posixpath), the in-lined file name functions, `strtofile`, `filetostr`, `which`, `locfile`, `find_file_ignore_case`, `memo_filename`, `find_full_path` | lemmas on splitting at the last separator; relational meaning of a relative path |
| C86 | `visitFuncDo` (without DO FORM), `scopeId` for functions, `vfpfunc.module` | the statement as a target, its text, and what it calls in a world of modules |
| C87 | `visitTextBlock`, `visitTextChunk`, `text` | the characters between TEXT and ENDTEXT to the Python list and the stored string |
| C88 | `visitDeclaration`, `visitDeclarationItem` | the statement, its text and its effect on the scopes of M_Memvar |
| C89 | `visitRelease` | each form of the statement, its text and effect |
| C90 | `func_call` for CREATEOBJECT, `create_object`, `_Class.__getitem__`, `vfpclass` | which class is called with which arguments; making the object is a parameter |
| C91 | `visitLineComment`, `replace_define_tokens` for comments, the tokens COMMENT, LINECONT and MACROLINE | the regular expression by a general backtracking matcher; the lines of a program as comments, macros and statements; an & without a name is left out |
| C92 | `visitLine` | the visit of the statement is a parameter |
| C93 | `visit_with_disabled_scope`, `visitIdAttr`, `visitAtomExpr`, the trailers, `createIdAttr`, `scopeId` | the flag as a state; one kind of error; calls are all written F.name |
| C94 | `visitOnStmt`, `on_event`, `error_func` | programs of assignments, calls, ON, ERROR, THROW and TRY; that nothing else reads the stored handler is read from the sources |
| C95 | `visitThrowError`, `visitTryStmt`, `message` and the values it uses | the same programs as C94; FINALLY and WHEN are not modelled; addresses in texts are counters |
| C96 | the conversions of FOPEN ... FCLOSE in `visitFuncCallExpr` | Python text files with one-byte characters; the position is a character index; buffering is not modelled |
| C97 | `visitDeleteFile`, `visitCopyMoveFile`, `visitChMkRmDir`, `visitSpecialExpr` | a case-sensitive file system as a dictionary from paths; parent directories are not checked |
| C98 | `visitShellRun` | the text behind RUN; a word that starts with & is converted to a name |
| C99 | `read_procedure_header`, `read_class_header`, `read_fxp_file_block`, the part of `main` that writes the source | byte contents of the file; texts are encoded one byte per character; printing is left out |
| C100 | `visitDllDeclare`, `visitClearStmt` (DLLS), `dll_declare`, `dll_clear`, the look-up of functions | a library is a partial map from names to functions; argument types are not used by the code |
| C101 | `sqlexec`, `_odbc_cursor_to_db`, `create_table`, with the work areas of C22-C28 | the connection is the outcome of the command; dbf.Table and append are arguments |
| C102 | `visitPrintStmt`, `visitAtPos`, `getCtxText` | texts and truth values; print of Python on two streams |
| C103 | `visitCastExpr`, `visitAsType`, `datatypes_map` | floats are opaque; int() of ASCII texts is modelled in full |
| C104 | the property definitions of `HasFont` and eleven control classes | Qt widgets are a record with getters and setters (trusted); colours, icons and layouts left out |
| C105 | `Combobox.additem`, `value`; `Optiongroup.buttoncount`, `add_object` | QComboBox, its signals and QButtonGroup are modelled (trusted); case folding is any function |
| C106 | `Listbox`, `Grid`: constructor, source, refresh, click; with the work areas of C22-C28 | headings of grids left out; _str of values is any function |
| C107 | `func_call`: mod, between, inlist, iif, max, min, abs, sign, round, empty, evl, nvl, isnull | integers, strings, logical values and NULL; Python round, max, min and `in` of a tuple are modelled in S_PyEval |
| C108 | `program`; the frames that `_parameters` adds; `visitPrg` (the name of the main program) | a frame of the Python stack is its file and function name |
| C109 | `visitReturnStmt` on top of the statements of C68 | as C68; the value of an expression is any function of the state |
| C110 | `func_call` (what a name is taken to be), `createIdAttr` (a call with more after it), `scopeId`, `_Function.__getattr__` | the code of in-lined functions is in C41-C46, C69, C107; whether DTOC, DTOS, STRTRAN, STRCONV are in-lined depends on a parameter |
| C111 | the parameter lists of the functions of `vfpfunc` and `DatabaseContext` that FoxPro has; the arguments `func_call` gives them | positional binding as in Python |
| C112 | `visitDefineMenu`, `visitDefinePad`, `visitDefinePopup`, `visitDefineBar`, `visitActivateMenu`, `visitDeactivate`, `visitOnStmt` (ON PAD, ON BAR, ON KEY, ON SHUTDOWN, ON ESCAPE), `visitReadEvent`, `visitReport`, `visitFuncDo` (DO FORM), `visitWaitCmd`, `visitClearStmt`, `visitAssert`; `vfpfunc.wait`, `vfpfunc.clear`, the names of `vfpfunc` | values of expressions and their truth are parameters |
| C113 | `visitIdentifier`, `createIdAttr` (a name alone), `scopeId`, names of properties, of procedures and of calls of procedures of the file | Python is its lexer: maximal runs of letters, digits and underscores, a keyword among them being a syntax error; names are ASCII |
| C114 | `visitAssign` (one variable), `visitIfStmt`, `visitCaseStmt`, `visitForStart`, `visitWhileStmt`, EXIT, LOOP, comments, expressions with calls of LEN, ABS, MAX, MIN, IIF, BETWEEN and MOD; `CodeStr`/`repr` of values as characters; `add_indents` | declarations, scoping, other calls, dates, fractions and divisions are left out; Python is its lexer (the words, numbers, strings and operators that the converter emits), its grammar of expressions and statements (as in C36 and C68) and its values on whole numbers, strings, True, False and None; `print` of a value is modelled with the set of printable characters as a parameter |
| C115 | `visitPrg`, `visitFuncDef` with `LPARAMETERS`, `LOCAL`, RETURN, calls as statements, in assignments and in RETURN (`visitFuncDo` for functions of the file), on top of C114; the decorator `lparameters` (C03, M_Params) and the scopes (M_Memvar) | limits on the depth of calls, PRIVATE and PUBLIC lines, arrays, arguments by reference, calls of functions of the file inside larger expressions and the imports are left out; the main program is C123; functions named like the names that the emitted code uses, or like the built-in functions followed, are excluded |
| C116 | `Custom.__init__`, `add_object`, `addobject`, `parentform`, `addWidget` of the containers, `create_object` as called by `addobject` | Qt: a layout is the list of widgets added to it; Init and `_assign` of the objects, names that are properties of the class (C104), the main window and COM are left out |
| C117, C118 | the lexer rules of the grammar, `VisualFoxpro9.g4:714-1623`, every one | ANTLR is the longest match, the first rule winning; layouts of C117 are of ASCII words, numbers, symbols, texts in quotes (without &), line ends and lines that begin with * |
| C119 | the rules `expr`, `args`, `atom`, `constant` of the grammar, `VisualFoxpro9.g4:321-346, 412-442`, as ANTLR parses them (`VisualFoxpro9Parser.py:12629-12890`), after the lexer of C117 | names, whole numbers, texts in quotes, logicals, calls (the name after the replacement of abbreviations, M_Call) and operators; not CAST, members, references, brackets, dates; the prediction of ANTLR is that of a parser looking one token ahead |
| C120, C121 | the rules `lines`, `line`, `lineComment`, `funcDef`, `parameters`, `declaration` and those of the statements of C114 and C115, `VisualFoxpro9.g4:24-161`, after the lexer of C117 and the expressions of C119 | other statements are failures; so are calls that begin with a keyword, PARAMETERS, array declarations, types that are not one name, and remarks between the header and the declarations of a function; remarks after ENDPROC are C125 |
| C122 | the rule `preprocessorCode` and its lines, `VisualFoxpro9.g4:4-22`, `PreprocessVisitor` (M_Prep) on the tokens of C117, the join without carriage returns and the header of the main program in `prg2py`, `vfp2py.py:495-498` | #INCLUDE is a failure here; the condition of #IF is the rest of its line; the pieces of the specification leave out #IF |
| C123 | the chain of C122, C121 and C115, and the name MAIN, `visitPrg`, `vfp2py_convert_visitor.py:171-182` | the imports at the head of the module and the layout by autopep8 are left out; so is what calls MAIN |
| C124 | `visitFuncDo`, `vfp2py_convert_visitor.py:1257-1314`, for functions of the file, and `visitArgs`, :587-589, on top of C115 | DO of programs and modules, DO FORM and references with @ are left out |
| C125 | `funcDef` with the remarks after ENDPROC, `VisualFoxpro9.g4:79-81`, `visitPrg`, `vfp2py_convert_visitor.py:171-182`, on top of C121 and C123 | classes; the imports; a last remark without a line end |

## What is modelled, and what is not

Modelled (source in /repo/vfp2py; exact lines are in the comments of the definitions):

* `vfpfunc.py`: `SET_PROPS`, `set`; `Array` and the functions on arrays; `_Memvar`; `_Function`, procedure files of `_Class`, `create_object`; `parameters`/`lparameters`,
  `pcount`; the string, number, date and path functions named in `M_Strings.v`, `M_Dates.v` and the later files; files and directories; errors and ON commands;
  SQLEXEC, DECLARE ... DLL, RUN; the decision part of `messagebox`; properties of the controls, combo boxes, option groups, list boxes and grids.
* `vfpdatabase.py`: work areas, aliases, record movement, scopes, append/insert/delete/recall/pack/zap, replace, locate/continue, seek.
* `fxp_read.py`: everything but the layout of the printed dump.
* `vfp2py_convert_visitor.py`: expressions, conditions, operators, the in-lined functions, literals, function abbreviations;
  statements (IF, CASE, FOR, WHILE, SCAN, WITH, TRY, assignments, EXIT/LOOP/RETURN, TEXT, declarations, ?, @, ON, ERROR, THROW, DO, file commands),
  lines, comments and procedures; class definitions (which members come out, with which parameters, properties and values).
* `vfp2py.py`: `PreprocessVisitor`, `TreeCleanVisitor` on expressions, `add_indents`, `convert_file`, `read_vfp_project`, `convert_project`.

The table above says for each property which functions are modelled and what is simplified.

Not modelled: Qt itself (widgets are records, see below), layouts, colours and icons of controls, ODBC itself, what a DLL does, the ANTLR generated parser for statements other than those of C120 and C121 (other models start from trees or tokens), autopep8/isort post-formatting, printers, and the conversion of the remaining commands of the visitor (reports, menus,
SQL SELECT, ...). Properties mention these only through the pure decision logic around them.

## Trusted base

1. Coq's kernel (8.16.1). `coqchk` reports seven axioms of `Coq.ssr.ssrunder` as being present in the context because `Lia` loads that
   library; no theorem uses them.
2. The reading of the Python code recorded in the `M_*.v` comments, including the simplifications stated there, and the Python semantics
   in `Py*.v` (integers, lists, slices, exceptions as results).
3. Contracts of code outside /repo. They appear in the models as definitions (when simple) or as parameters over which the theorems quantify:
   * the `dbf` library: the table operations in section "dbf tables" of `M_Db.v` (defined);
   * `datetime`/`dateutil` date arithmetic and `strftime` (defined on triples in `M_Dates.v`);
   * the regular expressions used by `like`, `strextract`, `atc` (defined as explicit matchers in `M_Strings.v`);
   * floats: FXP double constants and `float`/`repr` of decimal constants are parameters (`M_FxpCode.v`, `M_Lit.v`);
     C69 assumes only that `repr(float(s))` is a literal denoting the same float;
   * Qt (C104-C106): a widget gives back what its setter was given, sizes are cut to 0..16777215, a QSpinBox holds 0..99, enabled/visible are those of the chain of
     parents, QComboBox, its signals and `findText`, deferred deletion by `deleteLater` (defined in `M_Gui.v` and `M_GuiList.v`);
   * Python's text files, `shutil`, `os`, `glob`, `subprocess` as defined in `M_LowFile.v`, `M_FileCmd.v` and the files named in the table;
   * which non-ASCII characters `repr` shows unescaped (`str.isprintable`): parameter (C70 holds for every choice);
   * evaluation of `#IF` expressions: parameter `ev` (C48, C49, C71 hold for every choice);
   * loading, encoding, converting a source text, the name of a temporary file, and the rows of a project table: parameters of `M_File.v`;
   * the converted texts of property values in class bodies: given (`M_Class.v`);
   * whether the text of a property value parses as a constant (C78): parameter `const` of `M_Form.v` (any predicate);
   * the field names of a table (C80, C81): parameter `fields` of `M_Vars.v`; encodings, whether a file can be written, and `os.path.abspath` (C83, C84): parameters of `M_Path.v`;
   * the outcome of commands and conditions in C68: parameters of both semantics.
4. The specification files `S_*.v`: they say what FoxPro (or the Python grammar, or the file format) does.
   `/verif/seeded/LOG.jsonl` records the wrong programs the theorems were tested against.

### What `Print Assumptions` lists

For each of the 585 theorems below: "Closed under the global context", that is, no axiom at all.

| property | file | theorems (all closed under the global context) |
|---|---|---|
| C01 | T_Array | `C01_linear_subscript_partial`, `C01_linear_subscript_refuted`, `C01_read_after_writes` |
| C02 | T_Array | `C02_accepted_subscripts`, `C02_out_of_range_rejected_refuted`, `C02_row_out_of_range_partial` |
| C03 | T_Array | `C03_shape_invariant` |
| C04 | T_Array | `C04_index_first_match`, `C04_index_window`, `C04_window_elements` |
| C05 | T_Memvar | `C05_scoping_refinement`, `C05_write_then_read` |
| C06 | T_Params | `C06_call_restores_caller`, `C06_caller_locals_invisible`, `C06_outer_writes_persist` |
| C07 | T_Params | `C07_balance_partial`, `C07_balanced_refuted`, `C07_pcount_restored_partial` |
| C08 | T_Params | `C08_no_parameters_partial`, `C08_parameter_binding_partial`, `C08_pcount_partial`, `C08_reserved_parameter_refuted` |
| C09 | T_Procs | `C09_dll_first`, `C09_missing_file`, `C09_no_duplicates`, `C09_release`, `C09_release_command_refuted`, `C09_resolution`, `C09_search_order`, `C09_set_list_refuted` |
| C10 | T_Set | `C10_bell_read_back`, `C10_century_read_back`, `C10_compatible_prompt_refuted`, `C10_compatible_read_back`, `C10_failure_changes_nothing_partial`, `C10_index_refresh_read_back`, `C10_notify_read_back`, `C10_onoff_invalid_rejected`, `C10_onoff_read_back`, `C10_onoff_values`, `C10_other_settings_unchanged`, `C10_procedure_read_refuted`, `C10_unchecked_values_refuted` |
| C11 | T_Strings | `C11_stuff_slice`, `C11_stuff_to_end` |
| C12 | T_Strings | `C12_chrtran_deletion_refuted`, `C12_chrtran_full_lists_partial`, `C12_chrtran_partial` |
| C13 | T_Strings | `C13_start_occurrence_refuted`, `C13_strtran_after_start_partial` |
| C14 | T_Strings | `C14_delimiter_set_refuted`, `C14_word_zero_refuted`, `C14_words_exist`, `C14_words_partial` |
| C15 | T_Strings | `C15_first_occurrence_partial`, `C15_ignore_case`, `C15_missing_end_partial`, `C15_missing_end_refuted`, `C15_multiline_refuted`, `C15_no_end_partial`, `C15_no_end_second_refuted`, `C15_nth_begin_refuted`, `C15_nth_pair_partial` |
| C16 | T_Strings | `C16_like_backslash_refuted`, `C16_like_open_pattern_partial`, `C16_like_prefix_partial`, `C16_like_whole_refuted` |
| C17 | T_Strings | `C17_str_fits`, `C17_str_negative_refuted`, `C17_str_scaled_partial`, `C17_str_width_partial` |
| C18 | T_Strings | `C18_absent_refuted`, `C18_atline_partial`, `C18_ratline_partial` |
| C19 | T_Dates | `C19_dtos_datetime_order_partial`, `C19_dtos_determines_partial`, `C19_dtos_early_years_refuted`, `C19_dtos_order_partial`, `C19_dtos_width_partial` |
| C20 | T_Dates | `C20_dow`, `C20_dow_range_and_step`, `C20_gomonth`, `C20_gomonth_inverse`, `C20_quarter`, `C20_quarter_range` |
| C21 | T_Dates | `C21_argument_order`, `C21_box_shown`, `C21_defaults`, `C21_documented_fields`, `C21_return_values` |
| C22 | T_Db | `C22_close_by_alias_refuted`, `C22_close_by_number`, `C22_found_under_alias_partial`, `C22_names`, `C22_numbers_and_duplicates_refuted`, `C22_refuses_and_frame`, `C22_use_current_refuted`, `C22_use_lowest_free` |
| C23 | T_Db | `C23_select_alias_partial`, `C23_select_function_values`, `C23_select_round_trip_refuted` |
| C24 | T_Db | `C24_append`, `C24_goto`, `C24_pointer_legal`, `C24_skip_backward_refuted`, `C24_skip_partial` |
| C25 | T_Db | `C25_count_defaults_partial`, `C25_count_partial`, `C25_delete_current_partial`, `C25_delete_partial`, `C25_next_past_end_refuted`, `C25_pointer_partial`, `C25_replace_partial`, `C25_replace_selected_table_partial`, `C25_selected_meaning`, `C25_sum_partial` |
| C26 | T_Db | `C26_raising_condition_refuted`, `C26_record_out_of_range_refuted`, `C26_selection_restored_partial` |
| C27 | T_Db | `C27_scan_partial`, `C27_scan_refuted` |
| C28 | T_Db | `C28_locate_continue_partial`, `C28_locate_from_top_refuted` |
| C29 | T_Fxp | `C29_crc`, `C29_damaged_header_refused`, `C29_detects_bursts`, `C29_detects_one_byte`, `C29_short` |
| C30 | T_Fxp | `C30_reread`, `C30_source_name_refuted`, `C30_truncated_refuted` |
| C31 | T_Fxp | `C31_decodes_or_refuses`, `C31_inverts_packing` |
| C32 | T_FxpCode | `C32_decompile_partial`, `C32_iif_jumps_refuted` |
| C33 | T_Fxp | `C33_currency_exactly`, `C33_currency_partial`, `C33_currency_refuted` |
| C34 | T_Fxp | `C34_ints`, `C34_short_read` |
| C35 | T_FxpCode | `C35_block_partial`, `C35_lines_partial`, `C35_one_length_refuted`, `C35_sync_partial`, `C35_terminates`, `C35_zero_length_refuted` |
| C36 | T_Conv | `C36_compared_comparison_refuted`, `C36_inlined_at_refuted`, `C36_inlined_left_refuted`, `C36_modulo_refuted`, `C36_negated_sum_refuted`, `C36_negative_base_refuted`, `C36_structure_partial`, `C36_value_partial` |
| C37 | T_Conv | `C37_not_comparison`, `C37_truth` |
| C38 | T_Conv | `C38_augmented_partial`, `C38_chain_refuted`, `C38_plain_partial`, `C38_product_sum_refuted`, `C38_sum_partial` |
| C39 | T_Conv | `C39_for_partial`, `C39_negative_step_refuted` |
| C40 | T_Stmt | `C40_first_true_partial`, `C40_otherwise_alone_refuted`, `C40_otherwise_partial` |
| C41 | T_Stmt | `C41_continued_comment_refuted`, `C41_nesting_partial`, `C41_program_partial` |
| C42 | T_Conv | `C42_signs_exact`, `C42_signs_refuted`, `C42_value_partial` |
| C43 | T_Inline | `C43_at`, `C43_at_empty_refuted`, `C43_at_occurrence_refuted`, `C43_left`, `C43_occurs`, `C43_pad_partial`, `C43_pad_truncation_refuted`, `C43_rat`, `C43_replicate`, `C43_right_partial`, `C43_right_zero_refuted`, `C43_space`, `C43_substr_one_refuted`, `C43_substr_partial`, `C43_substr_rest` |
| C44 | T_Inline | `C44_bitclear_negative_refuted`, `C44_bitclear_partial`, `C44_bitset`, `C44_bittest`, `C44_bitwise` |
| C45 | T_Lit | `C45_date`, `C45_datetime_partial`, `C45_rejects`, `C45_twelve_refuted` |
| C46 | T_Lit | `C46_blob` |
| C47 | T_Stmt | `C47_after_nested_refuted`, `C47_program_partial`, `C47_this_refuted`, `C47_with_partial` |
| C48 | T_Prep | `C48_constants_partial`, `C48_in_string_refuted`, `C48_nested_refuted`, `C48_undefine_refuted` |
| C49 | T_Prep | `C49_complete_partial`, `C49_dropped`, `C49_other_directive_refuted`, `C49_selected` |
| C50 | T_Abbr | `C50_expands`, `C50_given`, `C50_idempotent`, `C50_others`, `C50_short_partial`, `C50_short_refuted`, `C50_unambiguous` |
| C51 | T_Stmt | `C51_catch_partial`, `C51_finally_skipped_refuted`, `C51_normal_partial` |
| C52 | T_File | `C52_existing`, `C52_ignored_partial`, `C52_source_partial`, `C52_source_refuted`, `C52_unknown_refuted`, `C52_written` |
| C53 | T_Params | `C53_method_binding_partial`, `C53_method_with_local_refuted` |
| C54 | T_Procs | `C54_call_syntax_refuted`, `C54_call_syntax_single_partial`, `C54_local_array_refuted` |
| C55 | T_Set | `C55_emitted_set_commands_refuted`, `C55_known_words_partial` |
| C56 | T_Strings | `C56_str_decimals_partial`, `C56_str_exact_width_refuted` |
| C57 | T_Dates | `C57_dtoc_datetime_determines`, `C57_dtoc_datetime_text`, `C57_dtoc_determines`, `C57_dtoc_text` |
| C58 | T_Db | `C58_eof_on_last_record_refuted`, `C58_eof_value_partial` |
| C59 | T_Db | `C59_zap_current_partial`, `C59_zap_in_refuted` |
| C60 | T_Db | `C60_first_seek_partial`, `C60_second_seek_refuted` |
| C61 | T_Db | `C61_replace_current_partial`, `C61_replace_for_refuted` |
| C62 | T_Db | `C62_emitted_calls_refuted` |
| C63 | T_Db | `C63_append`, `C63_insert` |
| C64 | T_Db | `C64_alias`, `C64_file_name` |
| C65 | T_Fxp | `C65_member_file_partial`, `C65_outside_refuted`, `C65_same_name_refuted` |
| C66 | T_Fxp | `C66_terminated_partial`, `C66_unterminated_refuted` |
| C67 | T_FxpCode | `C67_first_clause_partial`, `C67_repeats_clause_refuted` |
| C68 | T_Stmt | `C68_control_flow_partial`, `C68_program_partial` |
| C69 | T_Lit | `C69_number_partial`, `C69_sign_only_refuted` |
| C70 | T_Lit | `C70_string` |
| C71 | T_Prep | `C71_constants_refuted`, `C71_guard_refuted`, `C71_inserted_partial` |
| C72 | T_File | `C72_excluded_partial`, `C72_incomplete_refuted`, `C72_modules_partial`, `C72_same_name_refuted` |
| C73 | T_File | `C73_cp1252_refuted`, `C73_frame_partial`, `C73_left_refuted` |
| C74 | T_Class | `C74_lost_refuted`, `C74_methods_partial` |
| C75 | T_Class | `C75_dropped_refuted`, `C75_lost_refuted`, `C75_methods_partial`, `C75_objects_partial`, `C75_with_partial` |
| C76 | T_Class | `C76_lost_refuted`, `C76_values_partial` |
| C77 | T_Lit | `C77_logical`, `C77_null` |
| C78 | T_Form | `C78_fails_refuted`, `C78_library_partial`, `C78_quotes_refuted`, `C78_value_partial` |
| C79 | T_Form | `C79_classes`, `C79_controls_partial`, `C79_methods_partial`, `C79_nested_refuted`, `C79_path_refuted`, `C79_text_refuted`, `C79_value_refuted` |
| C80 | T_Vars | `C80_alias_refuted`, `C80_assign_partial`, `C80_eof_refuted`, `C80_field_partial`, `C80_m_refuted`, `C80_variable_partial` |
| C81 | T_Vars | `C81_array_partial`, `C81_clauses_refuted`, `C81_memvar_refuted`, `C81_object_partial`, `C81_to_array_refuted` |
| C82 | T_Path | `C82_backslash_refuted`, `C82_forceext_partial`, `C82_join_partial`, `C82_parts_partial`, `C82_plain_partial`, `C82_special_refuted` |
| C83 | T_Path | `C83_plain_refuted`, `C83_read_refuted`, `C83_rejected_partial`, `C83_unicode_partial` |
| C84 | T_Path | `C84_include`, `C84_locfile` |
| C85 | T_Path | `C85_drive_refuted`, `C85_found_partial`, `C85_memo`, `C85_missing_partial`, `C85_repeated_refuted`, `C85_resolves_partial` |
| C86 | T_Do | `C86_arguments`, `C86_clash_refuted`, `C86_directory_refuted`, `C86_file_refuted`, `C86_in_partial`, `C86_loads_partial`, `C86_missing_refuted`, `C86_own_partial`, `C86_procedure_partial`, `C86_program_partial`, `C86_text`, `C86_variable_refuted` |
| C87 | T_Text | `C87_additive_refuted`, `C87_blanks_refuted`, `C87_characters`, `C87_code`, `C87_effect`, `C87_end_partial`, `C87_end_refuted`, `C87_lines_refuted`, `C87_merge_refuted`, `C87_one_line_partial`, `C87_value` |
| C88 | T_Decl | `C88_dimension_refuted`, `C88_hidden_refuted`, `C88_keyword_refuted`, `C88_local`, `C88_private`, `C88_public_partial`, `C88_reserved_refuted`, `C88_text` |
| C89 | T_Decl | `C89_all`, `C89_classlib_refuted`, `C89_popup_refuted`, `C89_this_refuted`, `C89_variables` |
| C90 | T_Create | `C90_arguments_refuted`, `C90_case`, `C90_error_refuted`, `C90_expression_partial`, `C90_expression_refuted`, `C90_library`, `C90_own`, `C90_procedure_file_partial`, `C90_text` |
| C91 | T_Comment | `C91_ampersand_refuted`, `C91_decoration_refuted`, `C91_form`, `C91_kept`, `C91_semicolon_refuted`, `C91_statements_partial` |
| C92 | T_Comment | `C92_kept`, `C92_macro_refuted`, `C92_not_lost` |
| C93 | T_Scope | `C93_error_refuted`, `C93_independent_partial`, `C93_names_partial`, `C93_property_refuted` |
| C94 | T_Error | `C94_commands_refuted`, `C94_error_refuted`, `C94_events_partial`, `C94_installs_partial`, `C94_never_called_refuted`, `C94_store_refuted` |
| C95 | T_Error | `C95_details_refuted`, `C95_interpreter_partial`, `C95_message_function_refuted`, `C95_message_partial`, `C95_no_text_refuted`, `C95_rethrow_partial`, `C95_success`, `C95_throw_object_refuted` |
| C96 | T_LowFile | `C96_carriage_return_refuted`, `C96_close_partial`, `C96_lines_partial`, `C96_open_partial`, `C96_open_refuted`, `C96_open_write_refuted`, `C96_read_partial`, `C96_relative_seek_refuted`, `C96_seek_partial`, `C96_update_partial`, `C96_update_refuted`, `C96_write_partial` |
| C97 | T_FileCmd | `C97_case_refuted`, `C97_copy_partial`, `C97_directories_partial`, `C97_erase_partial`, `C97_rename_partial`, `C97_rename_replaces_refuted`, `C97_wildcard_refuted` |
| C98 | T_FileCmd | `C98_quotes_refuted`, `C98_words_partial` |
| C99 | T_FxpProg | `C99_date_refuted`, `C99_end_refuted`, `C99_methods_partial`, `C99_procedures_partial`, `C99_property_refuted` |
| C100 | T_Dll | `C100_again_partial`, `C100_capital_refuted`, `C100_clear_partial`, `C100_clear_refuted`, `C100_declare_partial`, `C100_missing_refuted`, `C100_undeclared_refuted` |
| C101 | T_Sql | `C101_answer`, `C101_create_refuted`, `C101_cursor_partial`, `C101_default`, `C101_empty_refuted`, `C101_row_refuted`, `C101_type_refuted` |
| C102 | T_Print | `C102_continue_refuted`, `C102_continued_at_refuted`, `C102_debug`, `C102_lines_partial`, `C102_logical_refuted`, `C102_position_refuted`, `C102_same_line_partial` |
| C103 | T_Cast | `C103_binary_refuted`, `C103_date_refuted`, `C103_digits_partial`, `C103_logical_refuted`, `C103_same_partial`, `C103_text_integer_refuted`, `C103_width_refuted` |
| C104 | T_Gui | `C104_cells_refuted`, `C104_combo_caption_refuted`, `C104_container_refuted`, `C104_effect_refuted`, `C104_kept_partial`, `C104_no_effect_refuted`, `C104_spinner_refuted`, `C104_underline_refuted`, `C104_width_refuted` |
| C105 | T_GuiList | `C105_absent_refuted`, `C105_additem`, `C105_case_refuted`, `C105_choose`, `C105_fewer_buttons_refuted`, `C105_more_buttons_partial`, `C105_number_refuted`, `C105_value_partial` |
| C106 | T_GuiList | `C106_click_partial`, `C106_created_grid_refuted`, `C106_created_list_refuted`, `C106_grid_partial`, `C106_list_again_refuted`, `C106_list_partial` |
| C107 | T_Logic | `C107_abs`, `C107_between`, `C107_empty_blanks_refuted`, `C107_empty_comparison_refuted`, `C107_empty_partial`, `C107_evl_blanks_refuted`, `C107_evl_null_refuted`, `C107_evl_partial`, `C107_iif`, `C107_inlist_numbers`, `C107_inlist_strings`, `C107_isnull`, `C107_isnull_compared_refuted`, `C107_max`, `C107_min`, `C107_mod_partial`, `C107_mod_product_refuted`, `C107_mod_sum_refuted`, `C107_nvl_comparison_refuted`, `C107_nvl_partial`, `C107_round_halfway_refuted`, `C107_round_partial`, `C107_sign`, `C107_sign_factor_refuted` |
| C108 | T_Program | `C108_beyond_partial`, `C108_current_partial`, `C108_depth_refuted`, `C108_levels_refuted`, `C108_main_refuted` |
| C109 | T_Program | `C109_no_value_refuted`, `C109_return`, `C109_value_partial` |
| C110 | T_Call | `C110_abbreviation`, `C110_builtin_partial`, `C110_builtin_refuted`, `C110_meaning_partial`, `C110_missing_refuted`, `C110_native_partial`, `C110_native_refuted`, `C110_object_refuted`, `C110_program_refuted`, `C110_reserved_refuted`, `C110_text` |
| C111 | T_Sig | `C111_arguments_partial`, `C111_reaches`, `C111_rejected_refuted`, `C111_seek_refuted`, `C111_select` |
| C112 | T_Menu | `C112_assert_partial`, `C112_assert_refuted`, `C112_clear_refuted`, `C112_ends_refuted`, `C112_missing_refuted`, `C112_wait_partial`, `C112_wait_refuted` |
| C113 | T_Names | `C113_case`, `C113_class_refuted`, `C113_distinct_partial`, `C113_keyword_refuted`, `C113_letterless_refuted`, `C113_loads_partial`, `C113_variable_partial` |
| C114 | T_Core | `C114_assigned_loop_variable_refuted`, `C114_core_partial`, `C114_loop_variable_refuted`, `C114_negative_step_refuted`, `C114_subtraction_refuted` |
| C115 | T_Funs | `C115_functions_partial`, `C115_no_return_refuted`, `C115_self_refuted` |
| C116 | T_Objects | `C116_add_partial`, `C116_container_refuted`, `C116_library_class_refuted`, `C116_parent_refuted`, `C116_procedure_file_refuted`, `C116_same_name_refuted`, `C116_thisform_partial` |
| C117 | T_Lexer | `C117_any_layout`, `C117_case`, `C117_layout`, `C117_whole_text` |
| C118 | T_Lexer | `C118_cut_refuted`, `C118_keywords_partial`, `C118_number_and_refuted` |
| C119 | T_Parse | `C119_not_parentheses_refuted`, `C119_not_sum_refuted`, `C119_not_text_refuted`, `C119_one_reading`, `C119_reads`, `C119_tree_partial`, `C119_truth_partial`, `C119_value_partial` |
| C120 | T_Prog | `C120_one_reading`, `C120_reads`, `C120_runs_partial`, `C120_subtraction_refuted` |
| C121 | T_Prog | `C121_calls_partial`, `C121_one_reading`, `C121_reads` |
| C122 | T_Prg | `C122_continued_remark_refuted`, `C122_laid_out`, `C122_last_definition_refuted`, `C122_preprocessed`, `C122_reads` |
| C123 | T_Main | `C123_program_partial` |
| C124 | T_Ref | `C124_assigned_refuted`, `C124_not_assigned_partial` |
| C125 | T_After | `C125_calls_partial`, `C125_decoration_refuted`, `C125_kept`, `C125_program_partial`, `C125_reads` |
