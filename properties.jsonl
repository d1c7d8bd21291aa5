{"id": "C01", "title": "Array element reads return the latest write to that element", "statement": "For an Array with r rows and c columns, after `a[i, j] = v` a read of `a[i, j]` yields v and a read of any other in-range subscript pair yields what it yielded before; with c columns `a[i, j]` and the one-subscript form `a[(i-1)*c + j]` are the same element.", "quantifier": "every array size, every in-range subscript pair, every stored value", "why_tests_cant": "the claim ranges over all sizes and all pairs of subscripts; a test fixes one array", "anchors": ["vfp2py/vfpfunc.py:Array.__getitem__", "vfp2py/vfpfunc.py:Array.__setitem__", "vfp2py/vfpfunc.py:Array._get_index"]}
{"id": "C02", "title": "Out-of-range array subscripts are rejected", "statement": "Reading or writing an Array with a subscript outside 1..rows / 1..columns raises an error and leaves the array unchanged; it never reads or changes another element.", "quantifier": "every array size and every subscript pair outside the declared bounds", "why_tests_cant": "needs all out-of-range pairs for all sizes, including those that land inside the backing storage", "anchors": ["vfp2py/vfpfunc.py:Array.__getitem__", "vfp2py/vfpfunc.py:Array.__setitem__", "vfp2py/vfpfunc.py:Array._get_index"]}
{"id": "C03", "title": "Array shape queries stay consistent under every operation sequence", "statement": "After any sequence of element writes, ALEN(a), ALEN(a,1), ALEN(a,2) keep the declared values, len(a) equals rows*max(columns,1), and a failed write changes nothing.", "quantifier": "all declared sizes and all finite sequences of element writes (successful or failing)", "why_tests_cant": "an invariant over unbounded histories", "anchors": ["vfp2py/vfpfunc.py:Array.alen", "vfp2py/vfpfunc.py:Array.__len__", "vfp2py/vfpfunc.py:Array.__setitem__"]}
{"id": "C04", "title": "ASCAN finds the first matching element", "statement": "`a.index(v)` returns the smallest 1-based position holding v, and 0 exactly when no element equals v; the optional start/length arguments restrict the search to that window and still return positions in the whole array.", "quantifier": "all arrays, all searched values, all windows", "why_tests_cant": "first-match and exact-absence are universally quantified over contents", "anchors": ["vfp2py/vfpfunc.py:Array.index", "vfp2py/vfpfunc.py:Array._subarray"]}
{"id": "C05", "title": "Variable lookup follows FoxPro scoping", "statement": "A memory-variable read yields the current procedure's LOCAL of that name if there is one, else the innermost PRIVATE/implicit/PUBLIC binding along the call chain, else NameError; a write changes exactly the binding a read would see, or creates a binding in the current procedure's private frame when none is visible.", "quantifier": "all variable names, all finite sequences of declarations, writes, deletes, calls and returns", "why_tests_cant": "needs every interleaving of nested scopes and shadowing", "anchors": ["vfp2py/vfpfunc.py:_Memvar.__getitem__", "vfp2py/vfpfunc.py:_Memvar.__setitem__", "vfp2py/vfpfunc.py:_Memvar._get_scope", "vfp2py/vfpfunc.py:_Memvar.pushscope", "vfp2py/vfpfunc.py:_Memvar.popscope"]}
{"id": "C06", "title": "LOCALs are invisible to callees and restored on return", "statement": "While a called procedure runs, the caller's LOCALs are not visible; after a balanced call returns, every LOCAL of the caller has its previous value, bindings created by the callee in its own frame are gone, and changes made to variables visible from outer frames persist.", "quantifier": "all call trees and all callee bodies", "why_tests_cant": "universally quantified over callee behaviour", "anchors": ["vfp2py/vfpfunc.py:_Memvar.pushscope", "vfp2py/vfpfunc.py:_Memvar.popscope", "vfp2py/vfpfunc.py:_Memvar.add_local", "vfp2py/vfpfunc.py:_Memvar.add_private"]}
{"id": "C07", "title": "Procedure calls leave the scope stack and PCOUNT() balanced", "statement": "However a procedure decorated with parameters/lparameters terminates, the memory-variable scope stack and the parameter-count stack have the depth they had before the call.", "quantifier": "all call trees, all arguments, and both ways of leaving a procedure (return and exception)", "why_tests_cant": "requires every possible exit point of every callee", "anchors": ["vfp2py/vfpfunc.py:_parameters", "vfp2py/vfpfunc.py:parameters", "vfp2py/vfpfunc.py:lparameters", "vfp2py/vfpfunc.py:pcount"]}
{"id": "C08", "title": "Parameter binding", "statement": "Calling a procedure declared with n parameters binds the first min(n,k) parameters to the k arguments in order, binds the remaining ones to .F., ignores surplus arguments, and PCOUNT() inside it equals k, for LOCAL and PRIVATE parameters alike.", "quantifier": "all parameter lists and argument lists", "why_tests_cant": "ranges over all arities on both sides", "anchors": ["vfp2py/vfpfunc.py:_parameters", "vfp2py/vfpfunc.py:pcount"]}
{"id": "C09", "title": "Procedure files are searched most-recent-first without duplicates", "statement": "After any sequence of SET PROCEDURE / SET PROCEDURE ... ADDITIVE / RELEASE PROCEDURE the search list contains no module twice, a non-additive SET replaces the list, an additive SET puts the named modules in front and keeps the order of the rest, and a call resolves to the first module in the list that defines the name.", "quantifier": "all histories of SET/RELEASE PROCEDURE and all function names", "why_tests_cant": "history-dependent ordering invariant", "anchors": ["vfp2py/vfpfunc.py:_Function.set_procedure", "vfp2py/vfpfunc.py:_Function.release_procedure", "vfp2py/vfpfunc.py:_Function.__getitem__"]}
{"id": "C10", "title": "SET changes only the named setting and SET() reads it back", "statement": "A successful `set(name, value, set_value=True)` makes later `set(name)` report that value and leaves every other setting unchanged; invalid values raise and change nothing; ON/OFF settings only ever hold ON or OFF.", "quantifier": "all settings, all values, all histories of set calls", "why_tests_cant": "frame condition over the whole settings table and all histories", "anchors": ["vfp2py/vfpfunc.py:set", "vfp2py/vfpfunc.py:SET_PROPS"]}
{"id": "C11", "title": "STUFF replaces exactly the requested slice", "statement": "stuff(s, n, k, t) keeps the n-1 first characters, then t, then the characters from position n+k on; its length is len(s)-removed+len(t).", "quantifier": "all strings, all positions and lengths", "why_tests_cant": "all inputs", "anchors": ["vfp2py/vfpfunc.py:stuff"]}
{"id": "C12", "title": "CHRTRAN is a character-wise map", "statement": "chrtran(s, from, to) replaces every character of s by its counterpart and, as in FoxPro, deletes characters of `from` that have no counterpart; other characters are untouched.", "quantifier": "all strings and all translation tables", "why_tests_cant": "all inputs, including tables of different lengths and repeated characters", "anchors": ["vfp2py/vfpfunc.py:chrtran"]}
{"id": "C13", "title": "STRTRAN replaces the requested occurrences only", "statement": "strtran(s, old, new, start, n) replaces exactly the occurrences number start..start+n-1 of old (counted without overlap from the left) and leaves all other text unchanged.", "quantifier": "all strings, all occurrence windows", "why_tests_cant": "all inputs and all windows", "anchors": ["vfp2py/vfpfunc.py:strtran"]}
{"id": "C14", "title": "GETWORDNUM and GETWORDCOUNT agree", "statement": "getwordcount(s, d) is the number of non-empty maximal runs of non-delimiter characters of s, getwordnum(s, k, d) is the k-th of them for 1<=k<=count and the empty string otherwise.", "quantifier": "all strings, delimiters and indices", "why_tests_cant": "all inputs including k=0 and beyond the last word", "anchors": ["vfp2py/vfpfunc.py:getwordcount", "vfp2py/vfpfunc.py:getwordnum", "vfp2py/vfpfunc.py:_getwords"]}
{"id": "C15", "title": "STREXTRACT returns the text between delimiters", "statement": "strextract(s, b, e, n) returns the text strictly between the n-th occurrence of b and the first following e, and '' when there is none.", "quantifier": "all strings and delimiters", "why_tests_cant": "all inputs, including delimiters with regular-expression metacharacters", "anchors": ["vfp2py/vfpfunc.py:strextract"]}
{"id": "C16", "title": "LIKE matches wildcards only", "statement": "like(pattern, s) is true iff s as a whole matches pattern where * stands for any run of characters, ? for one character and everything else for itself.", "quantifier": "all patterns and strings", "why_tests_cant": "all patterns, including those containing regular-expression metacharacters", "anchors": ["vfp2py/vfpfunc.py:like"]}
{"id": "C17", "title": "STR() always fills its field", "statement": "str(n, length) returns exactly `length` characters for every integer n: the right-aligned decimal numeral when it fits and asterisks (or a scaled form) when it does not.", "quantifier": "all integers and field widths", "why_tests_cant": "all numbers and widths", "anchors": ["vfp2py/vfpfunc.py:str"]}
{"id": "C18", "title": "Line search functions", "statement": "atline(x, s) is the 1-based number of the first line of s containing x, ratline the last one, and 0 when no line contains it.", "quantifier": "all strings", "why_tests_cant": "all inputs", "anchors": ["vfp2py/vfpfunc.py:atline", "vfp2py/vfpfunc.py:ratline"]}
{"id": "C19", "title": "DTOS strings sort chronologically", "statement": "For dates, dtos(d) has 8 characters, determines d, and d1 < d2 iff dtos(d1) < dtos(d2) lexicographically.", "quantifier": "all pairs of valid dates of years 0..9999", "why_tests_cant": "quadratic in the date range", "anchors": ["vfp2py/vfpfunc.py:dtos"]}
{"id": "C20", "title": "Calendar helpers", "statement": "quarter(d, m) is always 1..4 and advances by one every three months starting at month m; gomonth moves by exactly k calendar months clamping the day to the end of the month; dow numbering is a bijection that turns with the first-day argument.", "quantifier": "all dates, month offsets and first-month/first-day arguments", "why_tests_cant": "all dates and offsets", "anchors": ["vfp2py/vfpfunc.py:quarter", "vfp2py/vfpfunc.py:gomonth", "vfp2py/vfpfunc.py:dow_fix"]}
{"id": "C21", "title": "MESSAGEBOX flag decoding", "statement": "For every flag value with a valid button group the selected buttons, icon and default button depend only on the documented bit fields, the default button is always one of the displayed buttons, and title and flags may be given in either order.", "quantifier": "all integer flag values", "why_tests_cant": "all flag values", "anchors": ["vfp2py/vfpfunc.py:messagebox"]}
{"id": "C22", "title": "Work areas and aliases", "statement": "After USE file IN 0 the table occupies the lowest free work area and is found under its alias; USE IN alias frees exactly that area; other areas are never disturbed; a file already in use is refused.", "quantifier": "all histories of USE/CLOSE/SELECT", "why_tests_cant": "unbounded histories over 32767 areas", "anchors": ["vfp2py/vfpdatabase.py:DatabaseContext.use", "vfp2py/vfpdatabase.py:DatabaseContext.get_workarea", "vfp2py/vfpdatabase.py:DatabaseContext.used", "vfp2py/vfpdatabase.py:DatabaseContext.close_tables"]}
{"id": "C23", "title": "SELECT() round trip", "statement": "select(select_function(alias)) makes the table with that alias current.", "quantifier": "all database states and aliases", "why_tests_cant": "all states", "anchors": ["vfp2py/vfpdatabase.py:DatabaseContext.select_function", "vfp2py/vfpdatabase.py:DatabaseContext.select", "vfp2py/vfpdatabase.py:DatabaseContext.get_workarea"]}
{"id": "C24", "title": "Record pointer stays legal", "statement": "After any sequence of GOTO/SKIP/APPEND/scoped commands the record pointer is between before-first and after-last, RECNO() is between 0 and RECCOUNT()+1, GO n for 1<=n<=RECCOUNT() gives RECNO()=n and SKIP k moves exactly k records or stops at the file end.", "quantifier": "all navigation histories", "why_tests_cant": "unbounded histories", "anchors": ["vfp2py/vfpdatabase.py:DatabaseContext.goto", "vfp2py/vfpdatabase.py:DatabaseContext.skip", "vfp2py/vfpdatabase.py:DatabaseContext.recno", "vfp2py/vfpdatabase.py:DatabaseContext.reccount"]}
{"id": "C25", "title": "Scope clauses select the right records", "statement": "COUNT/SUM/DELETE/RECALL/REPLACE with ALL, REST, NEXT n, RECORD n, FOR and WHILE process exactly the records FoxPro's scope rules name, in order and once each, and touch no other record.", "quantifier": "all tables, starting positions, scopes and conditions", "why_tests_cant": "all tables and predicates", "anchors": ["vfp2py/vfpdatabase.py:DatabaseContext._get_records", "vfp2py/vfpdatabase.py:DatabaseContext.count", "vfp2py/vfpdatabase.py:DatabaseContext.delete_record", "vfp2py/vfpdatabase.py:DatabaseContext.replace", "vfp2py/vfpdatabase.py:DatabaseContext.sum"]}
{"id": "C26", "title": "Scoped commands leave the selected work area unchanged", "statement": "A scoped command addressed to another work area leaves the current work area selected, on every path through the command.", "quantifier": "all states, tables, scopes and conditions (including ones that raise)", "why_tests_cant": "all exit points", "anchors": ["vfp2py/vfpdatabase.py:DatabaseContext._get_records"]}
{"id": "C27", "title": "SCAN visits each matching record once", "statement": "A SCAN loop runs its body once for each record from the start position (or the first, with ALL) to the last that satisfies the condition, in record order, and afterwards the record pointer is back where it was.", "quantifier": "all tables, conditions and starting positions", "why_tests_cant": "all tables and conditions", "anchors": ["vfp2py/vfpdatabase.py:DatabaseContext.scanner"]}
{"id": "C28", "title": "LOCATE/CONTINUE enumerate exactly the matches", "statement": "LOCATE FOR followed by CONTINUE until FOUND() is false visits exactly the records from the current one on that satisfied the condition, in order, and finally leaves the pointer at end of file with FOUND() false.", "quantifier": "all tables, conditions and starting positions", "why_tests_cant": "all tables and conditions", "anchors": ["vfp2py/vfpdatabase.py:DatabaseContext.locate", "vfp2py/vfpdatabase.py:DatabaseContext.continue_locate", "vfp2py/vfpdatabase.py:DatabaseContext.found"]}
{"id": "C29", "title": "FXP header checksum is CRC-16/CCITT", "statement": "The FXP header checksum equals the CRC with polynomial 0x1021 of the header bytes, always fits in 16 bits, and changing any one byte after the first two always changes it.", "quantifier": "all byte strings of length at least two", "why_tests_cant": "2^n inputs", "anchors": ["vfp2py/fxp_read.py:checksum_calc"]}
{"id": "C30", "title": "Extracted FXP files re-read identically", "statement": "A program file extracted from an FXP/APP archive is accepted by the reader again and yields the same type, directory name, file name and code bytes.", "quantifier": "all archive members that fit the format", "why_tests_cant": "all member contents and names", "anchors": ["vfp2py/fxp_read.py:fxp_read"]}
{"id": "C31", "title": "FXP date stamps", "statement": "Decoding the packed 32-bit date inverts the packing for every date from 1980 to 2107 with even seconds, and packed values with impossible fields are rejected, never silently changed.", "quantifier": "all 2^32 packed values", "why_tests_cant": "2^32 values", "anchors": ["vfp2py/fxp_read.py:convert_date"]}
{"id": "C32", "title": "FXP expression decompilation preserves structure", "statement": "For every expression tree, decompiling its postfix byte encoding yields the fully parenthesised infix text of exactly that tree and consumes exactly its bytes.", "quantifier": "all expression trees of any depth", "why_tests_cant": "unbounded trees", "anchors": ["vfp2py/fxp_read.py:read_expr", "vfp2py/fxp_read.py:read_next_code", "vfp2py/fxp_read.py:OPERATORS", "vfp2py/fxp_read.py:FUNCTIONS"]}
{"id": "C33", "title": "FXP currency literals keep their value", "statement": "The decompiled text of a currency literal denotes the stored 64-bit amount.", "quantifier": "all signed amounts", "why_tests_cant": "all values", "anchors": ["vfp2py/fxp_read.py:FXPCurrency.__repr__"]}
{"id": "C34", "title": "FXP integer fields", "statement": "The 16- and 32-bit integers are decoded little-endian, signed and unsigned decodes agree modulo 2^n and a short read is rejected.", "quantifier": "all byte strings", "why_tests_cant": "all values", "anchors": ["vfp2py/fxp_read.py:read_short", "vfp2py/fxp_read.py:read_ushort", "vfp2py/fxp_read.py:read_int", "vfp2py/fxp_read.py:read_uint"]}
{"id": "C35", "title": "FXP line recovery stays in sync", "statement": "Decoding a code area always terminates and, whatever a single line contains, the next line is read from the position its length prefix gives.", "quantifier": "all byte strings", "why_tests_cant": "arbitrary corrupted input", "anchors": ["vfp2py/fxp_read.py:read_code_line_area", "vfp2py/fxp_read.py:parse_line", "vfp2py/fxp_read.py:read_code_block"]}
{"id": "C36", "title": "Converted arithmetic keeps its structure", "statement": "Python parses the text emitted for an arithmetic expression into the operator tree FoxPro would evaluate.", "quantifier": "all expression trees the FoxPro grammar can produce", "why_tests_cant": "unbounded trees; precedence and associativity interact", "anchors": ["vfp2py/vfp2py_convert_visitor.py:operationExpr", "vfp2py/vfp2py_convert_visitor.py:visitAddition", "vfp2py/vfp2py_convert_visitor.py:visitMultiplication", "vfp2py/vfp2py_convert_visitor.py:visitModulo", "vfp2py/vfp2py_convert_visitor.py:visitPower", "vfp2py/vfp2py_convert_visitor.py:visitUnaryNegation", "vfp2py/vfp2py_convert_visitor.py:visitComparison", "vfp2py/vfp2py_convert_visitor.py:visitSubExpr"]}
{"id": "C37", "title": "Converted boolean expressions keep their truth value", "statement": "The text emitted for a combination of AND/OR/NOT evaluates, under Python's precedence rules, to the value of the FoxPro expression for every valuation of its atoms.", "quantifier": "all boolean trees and valuations", "why_tests_cant": "unbounded trees", "anchors": ["vfp2py/vfp2py_convert_visitor.py:OperatorExpr.__repr__", "vfp2py/vfp2py_convert_visitor.py:visitBooleanOr", "vfp2py/vfp2py_convert_visitor.py:visitBooleanAnd", "vfp2py/vfp2py_convert_visitor.py:visitBooleanNegation"]}
{"id": "C38", "title": "Augmented assignment is equivalent", "statement": "When `x = x op rest` is emitted as `x op= rest`, the value stored in x is the same.", "quantifier": "all right-hand sides", "why_tests_cant": "all expressions", "anchors": ["vfp2py/vfp2py_convert_visitor.py:visitAssign"]}
{"id": "C39", "title": "FOR loops run the right iterations", "statement": "The emitted range() runs the loop body for exactly the values FoxPro's FOR i = a TO b STEP s takes.", "quantifier": "all integer bounds and non-zero steps", "why_tests_cant": "all integers", "anchors": ["vfp2py/vfp2py_convert_visitor.py:visitForStart"]}
{"id": "C40", "title": "DO CASE selects the first true case", "statement": "The emitted if/elif chain executes exactly the branch FoxPro's DO CASE would, including OTHERWISE.", "quantifier": "all case lists and valuations", "why_tests_cant": "all case lists", "anchors": ["vfp2py/vfp2py_convert_visitor.py:visitCaseStmt"]}
{"id": "C41", "title": "Emitted blocks are well-formed Python blocks", "statement": "Every compound statement in the output is followed by a deeper-indented block holding at least one executable statement, and the indentation of the output determines the original nesting.", "quantifier": "all statement trees", "why_tests_cant": "unbounded nesting", "anchors": ["vfp2py/vfp2py_convert_visitor.py:visitLines", "vfp2py/vfp2py.py:add_indents", "vfp2py/vfp2py_convert_visitor.py:visitIfStmt", "vfp2py/vfp2py_convert_visitor.py:visitForStmt"]}
{"id": "C42", "title": "Parse-tree clean-up preserves values", "statement": "Simplifying nested parentheses, chained powers and repeated signs before conversion does not change the value of the expression.", "quantifier": "all expression trees", "why_tests_cant": "unbounded trees", "anchors": ["vfp2py/vfp2py.py:TreeCleanVisitor"]}
{"id": "C43", "title": "Inlined string functions agree with FoxPro", "statement": "The Python emitted for SUBSTR, LEFT, RIGHT, AT, RAT, OCCURS, SPACE, REPLICATE, PADL, PADR on string and integer arguments computes FoxPro's result.", "quantifier": "all strings and in-range integer arguments", "why_tests_cant": "all inputs", "anchors": ["vfp2py/vfp2py_convert_visitor.py:func_call"]}
{"id": "C44", "title": "Inlined bit functions", "statement": "BITSET/BITCLEAR/BITTEST emitted code sets, clears and tests exactly the addressed bit of a 32-bit value; the other bits are unchanged.", "quantifier": "all 32-bit values and bit numbers", "why_tests_cant": "2^32 * 32 cases", "anchors": ["vfp2py/vfp2py_convert_visitor.py:func_call"]}
{"id": "C45", "title": "Date literals", "statement": "The emitted constructor for {^Y-M-D H:M:S AM/PM} denotes the 24-hour time FoxPro assigns to it.", "quantifier": "all clock times", "why_tests_cant": "all times", "anchors": ["vfp2py/vfp2py_convert_visitor.py:visitDate"]}
{"id": "C46", "title": "Blob literals", "statement": "The emitted bytes for 0h... are the big-endian bytes of the hexadecimal numeral and have ceil(digits/2) bytes.", "quantifier": "all hexadecimal strings", "why_tests_cant": "all strings", "anchors": ["vfp2py/vfp2py_convert_visitor.py:visitBlob"]}
{"id": "C47", "title": "WITH blocks", "statement": "A leading-dot reference is resolved against the innermost enclosing WITH at that point of the program.", "quantifier": "all nestings of WITH", "why_tests_cant": "unbounded nesting", "anchors": ["vfp2py/vfp2py_convert_visitor.py:visitWithStmt", "vfp2py/vfp2py_convert_visitor.py:createIdAttr"]}
{"id": "C48", "title": "Preprocessor constants", "statement": "After preprocessing, every identifier token that is #DEFINEd at that point is replaced by its definition, case-insensitively, every other token is unchanged and in order, and #UNDEFINE stops the replacement.", "quantifier": "all token streams and directive sequences", "why_tests_cant": "unbounded streams", "anchors": ["vfp2py/vfp2py.py:PreprocessVisitor.replace_define_tokens", "vfp2py/vfp2py.py:PreprocessVisitor.visitPreprocessorDefine", "vfp2py/vfp2py.py:PreprocessVisitor.visitPreprocessorUndefine"]}
{"id": "C49", "title": "Conditional compilation", "statement": "#IF/#IFDEF keeps exactly one of its branches; directives in the dropped branch have no effect on later lines.", "quantifier": "all directive trees", "why_tests_cant": "unbounded nesting", "anchors": ["vfp2py/vfp2py.py:PreprocessVisitor.visitPreprocessorIf"]}
{"id": "C50", "title": "Function abbreviations", "statement": "Every abbreviation of a built-in function that is at least as long as its minimum expands to that function, expansion is idempotent, and no abbreviation expands to two functions; other names are left alone, in particular those of fewer than four letters.", "quantifier": "all names in the table and all their prefixes", "why_tests_cant": "quantifies over every prefix of every entry", "anchors": ["vfp2py/function_abbreviations.py:expander"]}
{"id": "C51", "title": "TRY without CATCH", "statement": "The FINALLY block runs however the TRY block ends.", "quantifier": "all statement outcomes", "why_tests_cant": "all exit points", "anchors": ["vfp2py/vfp2py_convert_visitor.py:visitTryStmt"]}
{"id": "C52", "title": "Output file naming", "statement": "Converting a file never overwrites its source and derives the output name from the extension rules; unknown extensions are rejected without writing.", "quantifier": "all file names", "why_tests_cant": "all names", "anchors": ["vfp2py/vfp2py.py:convert_file"]}
{"id": "C53", "title": "Method parameters are bound like procedure parameters", "statement": "Calling a method declared with LPARAMETERS/PARAMETERS binds its parameters to the arguments exactly as for a procedure, whatever statements the method body contains.", "quantifier": "all methods, bodies and argument lists", "why_tests_cant": "the binding depends on which Python locals the generated body happens to have; a test exercises one body", "anchors": ["vfp2py/vfpfunc.py:_parameters"]}
{"id": "C54", "title": "Array call syntax finds the visible array", "statement": "A call-syntax reference arr(i) to an array yields the array that the plain variable reference arr would yield at that point (innermost LOCAL/PRIVATE/PUBLIC binding).", "quantifier": "all scope chains and array names", "why_tests_cant": "shadowing depends on the whole call chain", "anchors": ["vfp2py/vfpfunc.py:_Function.__getitem__", "vfp2py/vfpfunc.py:_Memvar.__getitem__"]}
{"id": "C55", "title": "Every emitted SET command is executable", "statement": "Every SET command for which the converter emits a runtime call names a setting the runtime knows, so the call never fails with KeyError, whatever its arguments and the history of earlier SETs.", "quantifier": "all SET words the converter emits, all arguments, all histories", "why_tests_cant": "joins two tables kept in different modules, over all histories", "anchors": ["vfp2py/vfp2py_convert_visitor.py:visitSetCmd", "vfp2py/vfpfunc.py:set", "vfp2py/vfpfunc.py:SET_PROPS"]}
{"id": "C56", "title": "STR() gives up decimals before digits", "statement": "str(n, length, decimals) shows the integer part whenever its numeral fits in the field, keeps as many of the decimals as there is room for, and always returns exactly length characters.", "quantifier": "all integers, widths and decimal counts", "why_tests_cant": "the code chooses between four layouts by comparisons of lengths; tests cover single widths", "anchors": ["vfp2py/vfpfunc.py:str"]}
{"id": "C57", "title": "DTOC text determines the date", "statement": "dtoc(d) is the text mm/dd/yyyy of the date with two-digit month and day, and two different dates (or datetimes) never have the same text.", "quantifier": "all dates and datetimes", "why_tests_cant": "injectivity relates all pairs of dates", "anchors": ["vfp2py/vfpfunc.py:dtoc"]}
{"id": "C58", "title": "EOF() and BOF()", "statement": "EOF() is true exactly when the pointer is past the last record and BOF() exactly when it is before the first, so a DO WHILE NOT EOF() ... SKIP loop visits every record once.", "quantifier": "all tables, all reachable pointer positions", "why_tests_cant": "needs every reachable pointer position; a test checks a few positions of one table", "anchors": ["vfp2py/vfpdatabase.py:eof", "vfp2py/vfpdatabase.py:bof"]}
{"id": "C59", "title": "ZAP empties the named table only", "statement": "ZAP removes every record of the table it addresses (the IN table, or the selected one) and leaves the other tables and the selection alone.", "quantifier": "all databases and table references", "why_tests_cant": "frame condition over all other work areas", "anchors": ["vfp2py/vfpdatabase.py:zap"]}
{"id": "C60", "title": "SEEK finds the key it is given", "statement": "After SEEK key the pointer is on the first record the index gives for that key and FOUND() is true, or past the end and FOUND() is false, whatever SEEKs were done before.", "quantifier": "all tables, keys and SEEK histories", "why_tests_cant": "depends on hidden per-area search state left by earlier SEEKs", "anchors": ["vfp2py/vfpdatabase.py:seek"]}
{"id": "C61", "title": "REPLACE honours its clauses", "statement": "REPLACE field WITH expr changes the field of exactly the records its scope, FOR and WHILE select, each to the value the expression has on that record, and no other data.", "quantifier": "all tables, scopes, conditions and expressions", "why_tests_cant": "unbounded tables and conditions; conversion and runtime have to agree", "anchors": ["vfp2py/vfp2py_convert_visitor.py:visitReplace", "vfp2py/vfpdatabase.py:replace"]}
{"id": "C62", "title": "Emitted table commands are callable", "statement": "Every DB.method(...) call the converter emits for a table command names a method of the runtime's DatabaseContext and passes only keywords it accepts.", "quantifier": "all table statements of the grammar", "why_tests_cant": "joins two modules; only executing each converted statement would show it", "anchors": ["vfp2py/vfp2py_convert_visitor.py:visitReplace", "vfp2py/vfp2py_convert_visitor.py:visitUpdateCmd", "vfp2py/vfp2py_convert_visitor.py:visitQuery", "vfp2py/vfp2py_convert_visitor.py:visitCloseStmt", "vfp2py/vfpdatabase.py:DatabaseContext"]}
{"id": "C63", "title": "APPEND and INSERT add at the end", "statement": "APPEND BLANK and INSERT add the new records after the existing ones, in order, change no existing record or other table, keep the selected work area and leave the pointer on the last record.", "quantifier": "all databases, table references and numbers of rows", "why_tests_cant": "frame condition over all records and areas", "anchors": ["vfp2py/vfpdatabase.py:append", "vfp2py/vfpdatabase.py:insert"]}
{"id": "C64", "title": "ALIAS() names the table", "statement": "ALIAS() returns the alias a table was opened with (lower case), or the stem of its file name, and that name finds the table again.", "quantifier": "all aliases, directories and file names", "why_tests_cant": "all names", "anchors": ["vfp2py/vfpdatabase.py:alias", "vfp2py/vfpdatabase.py:DatabaseWorkspace.is_alias"]}
{"id": "C65", "title": "Extraction writes each member to its own file", "statement": "Extracting an archive writes every member's bytes to a file named after the member inside the output directory, one file per member, and touches no other file.", "quantifier": "all archives, member names and output directories", "why_tests_cant": "depends on all pairs of member names", "anchors": ["vfp2py/fxp_read.py:read_header", "vfp2py/fxp_read.py:fxp_read"]}
{"id": "C66", "title": "Null-terminated names", "statement": "A null-terminated name in an archive is read as exactly the bytes before its terminator and reading always ends.", "quantifier": "all files and positions", "why_tests_cant": "all byte strings, including damaged ones", "anchors": ["vfp2py/fxp_read.py:read_until_null"]}
{"id": "C67", "title": "Unknown clause bytes are not invented into text", "statement": "When a code line contains a byte that is not a known clause, the decompiled line does not repeat or invent clause text for it.", "quantifier": "all lines and all unknown clause bytes", "why_tests_cant": "depends on what the previous clause happened to be", "anchors": ["vfp2py/fxp_read.py:parse_subline"]}
{"id": "C68", "title": "Control flow of a converted program", "statement": "The Python text emitted for a list of FoxPro statements runs the same commands, in the same order and with the same outcome, as the FoxPro statements: branches, loops with EXIT and LOOP, TRY/CATCH/FINALLY with exceptions, nested to any depth.", "quantifier": "all programs, all states, all outcomes of commands and conditions (including errors), all numbers of loop passes", "why_tests_cant": "interactions of nested control structures cannot be enumerated", "anchors": ["vfp2py/vfp2py_convert_visitor.py:visitIfStmt", "vfp2py/vfp2py_convert_visitor.py:visitCaseStmt", "vfp2py/vfp2py_convert_visitor.py:visitForStmt", "vfp2py/vfp2py_convert_visitor.py:visitWhileStmt", "vfp2py/vfp2py_convert_visitor.py:visitScanStmt", "vfp2py/vfp2py_convert_visitor.py:visitTryStmt", "vfp2py/vfp2py_convert_visitor.py:visitWithStmt", "vfp2py/vfp2py.py:add_indents"]}
{"id": "C69", "title": "Number literals", "statement": "The Python text emitted for a FoxPro number literal (integer, hexadecimal, decimal, with or without exponent) is a Python number of the same value.", "quantifier": "all number literals of the grammar", "why_tests_cant": "all literals, in particular those whose Python spelling differs (leading zeros, empty exponents, bare 0x)", "anchors": ["vfp2py/vfp2py_convert_visitor.py:convert_number"]}
{"id": "C70", "title": "String literals", "statement": "The Python string literal emitted for a FoxPro string constant reads back as exactly its characters, whatever quotes, backslashes, control or non-ASCII characters it contains.", "quantifier": "all strings", "why_tests_cant": "all character sequences", "anchors": ["vfp2py/vfp2py_convert_visitor.py:visitString", "vfp2py/vfp2py_convert_visitor.py:create_string"]}
{"id": "C71", "title": "#INCLUDE inserts the included file", "statement": "A program with an #INCLUDE line preprocesses to the same text as the program with the lines of the included file in its place.", "quantifier": "all programs, all included files (with any nesting of conditionals and constants)", "why_tests_cant": "interaction of two files' constants, over all programs", "anchors": ["vfp2py/vfp2py.py:PreprocessVisitor.visitPreprocessorInclude", "vfp2py/vfp2py.py:preprocess_file"]}
{"id": "C72", "title": "Converting a project converts all of its files", "statement": "Converting a project turns every included program file into its own module of the package, writes the start files, and completes.", "quantifier": "all projects, all file systems", "why_tests_cant": "all combinations of file names in a project", "anchors": ["vfp2py/vfp2py.py:convert_project", "vfp2py/vfp2py.py:read_vfp_project"]}
{"id": "C73", "title": "Conversion leaves nothing behind", "statement": "Converting a program file changes no file but its output, leaves no temporary file, and works for every text that UTF-8 can store.", "quantifier": "all file systems, all sources, also when the conversion fails", "why_tests_cant": "frame condition over the whole file system, on failing paths as well", "anchors": ["vfp2py/vfp2py.py:convert_file", "vfp2py/vfp2py.py:read_vfp_project"]}
{"id": "C74", "title": "Methods keep their parameters", "statement": "Every method of a class definition appears once in the converted class, with exactly the parameters it declares (in parentheses or on a PARAMETERS/LPARAMETERS line) and its remaining lines.", "quantifier": "all class definitions: any number and order of properties, objects, comments and methods", "why_tests_cant": "depends on what else the class contains; a test exercises one class", "anchors": ["vfp2py/vfp2py_convert_visitor.py:visitClassDef", "vfp2py/vfp2py_convert_visitor.py:visitFuncDef"]}
{"id": "C75", "title": "Methods and properties of contained objects", "statement": "Every ADD OBJECT line yields one object, in order, with its WITH properties and with exactly the methods written for it, each with the parameters it declares.", "quantifier": "all class definitions", "why_tests_cant": "depends on the number of objects and on all other members of the class", "anchors": ["vfp2py/vfp2py_convert_visitor.py:visitClassDef", "vfp2py/vfp2py_convert_visitor.py:visitAddObject"]}
{"id": "C76", "title": "Property values of a class", "statement": "Every property assignment in a class body sets that property (of the class or of a contained object) to that value when an instance is created, in the order of the source.", "quantifier": "all class definitions, all values", "why_tests_cant": "names and values are recovered from converted text; every text matters", "anchors": ["vfp2py/vfp2py_convert_visitor.py:visitClassAssign", "vfp2py/vfp2py_convert_visitor.py:visitClassDef"]}
{"id": "C77", "title": "Logical and NULL constants", "statement": "A logical constant converts to the Python constant of the same truth value whatever the case of its letter, NULL converts to None, and no other letter is accepted.", "quantifier": "all texts between the periods", "why_tests_cant": "equivalence over all texts, both directions", "anchors": ["vfp2py/vfp2py_convert_visitor.py:visitBoolOrNull"]}
{"id": "C78", "title": "Class libraries keep their classes", "statement": "Converting a class library gives one class definition per class record, in order, with all of its properties and methods, each property value written as the FoxPro expression for what it means.", "quantifier": "all libraries, all property values", "why_tests_cant": "every value text matters: the quoting depends on which quotes and brackets occur in it", "anchors": ["vfp2py/vfp2py.py:convert_vcx_to_vfp_code"]}
{"id": "C79", "title": "Forms keep their controls", "statement": "Converting a form gives a class with every control of the form, its properties and its methods, wherever on the form the control is and whatever the property values are.", "quantifier": "all forms", "why_tests_cant": "needs forms of any shape: depth of containers and values are unbounded", "anchors": ["vfp2py/vfp2py.py:convert_scx_to_vfp_code"]}
{"id": "C80", "title": "Names in expressions", "statement": "In a converted program a name is a field of the selected table if that table has such a field, and otherwise the variable of that name; m.name is always the variable; an assignment changes that variable and nothing else.", "quantifier": "all names, variables and open tables", "why_tests_cant": "needs any combination of open tables, fields and variables of the same names", "anchors": ["vfp2py/vfpfunc.py:_Variable", "vfp2py/vfp2py_convert_visitor.py:scopeId", "vfp2py/vfp2py_convert_visitor.py:createIdAttr"]}
{"id": "C81", "title": "SCATTER and GATHER", "statement": "SCATTER copies the fields of the current record into an object, array or variables, and GATHER writes them back to the current record of the selected table; only the fields named are copied, and no other record changes.", "quantifier": "all tables, records, field lists and forms of both commands", "why_tests_cant": "any table and record, and any state in which the values are written back", "anchors": ["vfp2py/vfpfunc.py:scatter", "vfp2py/vfpfunc.py:gather", "vfp2py/vfpdatabase.py:update_from", "vfp2py/vfp2py_convert_visitor.py:visitScatterExpr", "vfp2py/vfp2py_convert_visitor.py:visitGatherExpr"]}
{"id": "C82", "title": "File name functions", "statement": "JUSTFNAME, JUSTSTEM, JUSTEXT, JUSTPATH, JUSTDRIVE, FORCEEXT and ADDBS take a path apart and put it together as in FoxPro: the parts make up the path, and FORCEEXT changes the extension only.", "quantifier": "all paths", "why_tests_cant": "paths of any length and with any number of periods and separators", "anchors": ["vfp2py/vfp2py_convert_visitor.py:func_call"]}
{"id": "C83", "title": "STRTOFILE and FILETOSTR", "statement": "STRTOFILE writes the text to the file (or after its end), in the encoding asked for, and returns the number of bytes; FILETOSTR gives the contents of a file.", "quantifier": "all texts, files and flags", "why_tests_cant": "any text, and any contents the file had before", "anchors": ["vfp2py/vfpfunc.py:strtofile", "vfp2py/vfpfunc.py:filetostr"]}
{"id": "C84", "title": "Files on the search path", "statement": "An included file, and a file given to LOCFILE, is the one in the first directory of the search path that has it; the name alone is used, or the user asked, only if there is none.", "quantifier": "all search paths, files and directories", "why_tests_cant": "search paths of any length over any files", "anchors": ["vfp2py/vfp2py.py:which", "vfp2py/vfpfunc.py:locfile"]}
{"id": "C85", "title": "Paths in a project file", "statement": "The path of a project member, written in any case, leads to the file it names relative to the directory of the project; if a component is missing, the caller is told and gets the path where it should be.", "quantifier": "all directory trees and paths", "why_tests_cant": "trees and paths of any depth", "anchors": ["vfp2py/vfp2py.py:find_full_path", "vfp2py/vfp2py.py:find_file_ignore_case", "vfp2py/vfp2py.py:memo_filename"]}
{"id": "C86", "title": "DO runs what it names", "statement": "DO name runs the procedure of that name of the file itself, else of the procedure files, else the program of that name; DO name.prg runs that program, and DO name IN file the procedure of that file; the arguments are passed in order.", "quantifier": "all names, files and sets of procedures", "why_tests_cant": "needs any combination of procedures, modules and names", "anchors": ["vfp2py/vfp2py_convert_visitor.py:visitFuncDo", "vfp2py/vfp2py_convert_visitor.py:scopeId", "vfp2py/vfpfunc.py:module"]}
{"id": "C87", "title": "TEXT stores its lines", "statement": "TEXT TO name ... ENDTEXT stores the lines of the block in the variable, as they are; ADDITIVE appends them, and the block ends at the first ENDTEXT line.", "quantifier": "all texts and variables", "why_tests_cant": "needs any text, with any blanks, quotes and line ends", "anchors": ["vfp2py/vfp2py_convert_visitor.py:visitTextBlock", "vfp2py/vfp2py_convert_visitor.py:visitTextChunk", "vfp2py/vfpfunc.py:text"]}
{"id": "C88", "title": "Declarations", "statement": "LOCAL, PRIVATE and PUBLIC declare the names in their scope, DIMENSION and DECLARE create arrays of the size given.", "quantifier": "all names, sizes and states of the variables", "why_tests_cant": "needs any names and any variables in being", "anchors": ["vfp2py/vfp2py_convert_visitor.py:visitDeclaration", "vfp2py/vfp2py_convert_visitor.py:visitDeclarationItem"]}
{"id": "C89", "title": "RELEASE", "statement": "RELEASE names removes these variables, RELEASE ALL those of the procedure, RELEASE CLASSLIB, RELEASE THIS and RELEASE POPUPS what they name.", "quantifier": "all names and states", "why_tests_cant": "needs any variables in being", "anchors": ["vfp2py/vfp2py_convert_visitor.py:visitRelease"]}
{"id": "C90", "title": "CREATEOBJECT", "statement": "CREATEOBJECT creates an object of the class named, whatever the case of the name, with the arguments given; the class is one of the file, of the library or of the procedure files, the one set last first.", "quantifier": "all names, classes, arguments and procedure files", "why_tests_cant": "needs any combination of class definitions and arguments", "anchors": ["vfp2py/vfp2py_convert_visitor.py:func_call", "vfp2py/vfpfunc.py:create_object", "vfp2py/vfpfunc.py:_Class.__getitem__", "vfp2py/vfpfunc.py:vfpclass"]}
{"id": "C91", "title": "Comments stay comments", "statement": "Every comment of the program becomes a Python comment with the same text, and comments do not change which statements the program has.", "quantifier": "all programs and comments", "why_tests_cant": "needs any comment text at any place", "anchors": ["vfp2py/vfp2py_convert_visitor.py:visitLineComment", "vfp2py/vfp2py.py:PreprocessVisitor.replace_define_tokens", "VisualFoxpro9.g4:COMMENT"]}
{"id": "C92", "title": "Statements that cannot be converted", "statement": "A statement that cannot be converted is kept, whole, as a comment, and nothing of it is executed.", "quantifier": "all statements", "why_tests_cant": "needs any statement text", "anchors": ["vfp2py/vfp2py_convert_visitor.py:visitLine"]}
{"id": "C93", "title": "Statements are converted one by one", "statement": "How a statement is converted does not depend on the statements before it, whether they could be converted or not.", "quantifier": "all sequences of statements", "why_tests_cant": "needs any combination of statements and errors", "anchors": ["vfp2py/vfp2py_convert_visitor.py:visit_with_disabled_scope", "vfp2py/vfp2py_convert_visitor.py:visitIdentTrailer", "vfp2py/vfp2py_convert_visitor.py:createIdAttr"]}
{"id": "C94", "title": "ON commands install handlers", "statement": "After ON KEY, ON ERROR, ON SHUTDOWN or ON ESCAPE with a command, the command runs when the event happens, and the last one given is the one that does; without a command the handler is removed.", "quantifier": "all sequences of ON commands and events", "why_tests_cant": "needs any sequence of installs and events", "anchors": ["vfp2py/vfp2py_convert_visitor.py:visitOnStmt", "vfp2py/vfp2py_convert_visitor.py:on_event", "vfp2py/vfpfunc.py:error_func"]}
{"id": "C95", "title": "Errors carry their message", "statement": "ERROR, THROW and the handler of TRY pass on the message and the number of an error, and ERROR(), MESSAGE() and the like report them.", "quantifier": "all messages and errors", "why_tests_cant": "needs any text and any place of raising", "anchors": ["vfp2py/vfp2py_convert_visitor.py:visitThrowError", "vfp2py/vfp2py_convert_visitor.py:visitTryStmt", "vfp2py/vfpfunc.py:message", "vfp2py/vfpfunc.py:error", "vfp2py/vfp2py_convert_visitor.py:visitRaiseError"]}
{"id": "C96", "title": "Low-level file functions", "statement": "FOPEN, FCREATE, FGETS, FREAD, FPUTS, FWRITE, FSEEK and FCLOSE read and write the bytes of a file at the current position as in FoxPro.", "quantifier": "all files, positions and sequences of calls", "why_tests_cant": "needs any contents and any position", "anchors": ["vfp2py/vfp2py_convert_visitor.py:visitFuncCallExpr"]}
{"id": "C97", "title": "Commands on files", "statement": "ERASE removes the named file, COPY FILE copies it, RENAME gives it another name, MKDIR and RMDIR make and remove directories; all other files stay as they are.", "quantifier": "all file systems and names", "why_tests_cant": "needs any file system and any names", "anchors": ["vfp2py/vfp2py_convert_visitor.py:visitDeleteFile", "vfp2py/vfp2py_convert_visitor.py:visitCopyMoveFile", "vfp2py/vfp2py_convert_visitor.py:visitChMkRmDir", "vfp2py/vfp2py_convert_visitor.py:visitSpecialExpr"]}
{"id": "C98", "title": "RUN passes on its words", "statement": "RUN starts the program that is written with the arguments that are written.", "quantifier": "all command lines", "why_tests_cant": "needs any words and blanks", "anchors": ["vfp2py/vfp2py_convert_visitor.py:visitShellRun"]}
{"id": "C99", "title": "Decompiling procedures and classes", "statement": "The source written for a compiled program has the main code, every procedure under its name with its code, and every class with its properties and methods.", "quantifier": "all compiled programs", "why_tests_cant": "needs any number of procedures and classes", "anchors": ["vfp2py/fxp_read.py:read_fxp_file_block", "vfp2py/fxp_read.py:read_procedure_header", "vfp2py/fxp_read.py:read_class_header"]}
{"id": "C100", "title": "Functions of libraries", "statement": "DECLARE ... IN makes the named function of a library callable under its name or alias, and nothing else; CLEAR DLLS takes it away again.", "quantifier": "all libraries, names and sequences of declarations", "why_tests_cant": "needs any library and any names", "anchors": ["vfp2py/vfp2py_convert_visitor.py:visitDllDeclare", "vfp2py/vfpfunc.py:dll_declare", "vfp2py/vfp2py_convert_visitor.py:visitClearStmt", "vfp2py/vfpfunc.py:dll_clear"]}
{"id": "C101", "title": "SQLEXEC fills a cursor", "statement": "After a successful SQLEXEC the named cursor (sqlresult without a name) holds exactly the rows of the result, in order, with the pointer on the first; a cursor of that name is replaced and other tables are untouched; 1 means that this happened.", "quantifier": "all work areas, columns, rows and names", "why_tests_cant": "needs any state of the work areas and any result", "anchors": ["vfp2py/vfpfunc.py:sqlexec", "vfp2py/vfpfunc.py:_odbc_cursor_to_db"]}
{"id": "C102", "title": "? and ?? show their values", "statement": "? starts a new line and shows its values, ?? goes on in the same line, @ ... SAY shows at a position.", "quantifier": "all programs of ?, ??, DEBUGOUT and @", "why_tests_cant": "needs any sequence of statements", "anchors": ["vfp2py/vfp2py_convert_visitor.py:visitPrintStmt", "vfp2py/vfp2py_convert_visitor.py:visitAtPos"]}
{"id": "C103", "title": "CAST converts values", "statement": "CAST(x AS type) gives x as a value of the named type.", "quantifier": "all values and types", "why_tests_cant": "needs any value and type", "anchors": ["vfp2py/vfp2py_convert_visitor.py:visitCastExpr", "vfp2py/vfp2py_convert_visitor.py:visitAsType"]}
{"id": "C104", "title": "Controls keep the properties they are given", "statement": "Reading a property of a form or control gives the value that was assigned to it last, the control shows it, and the other properties are unchanged.", "quantifier": "all controls, states and values", "why_tests_cant": "needs any control in any state and any value", "anchors": ["vfp2py/vfpfunc.py:HasFont", "vfp2py/vfpfunc.py:Form", "vfp2py/vfpfunc.py:Commandbutton", "vfp2py/vfpfunc.py:Grid"]}
{"id": "C105", "title": "Combo boxes and option groups offer and give choices", "statement": "AddItem adds an item and changes nothing else; assigning an item to Value selects it and calls ProgrammaticChange only; a choice of the user calls InteractiveChange; an option group has as many buttons as ButtonCount says.", "quantifier": "all items, values, histories and numbers of buttons", "why_tests_cant": "needs any sequence of items and any number of buttons", "anchors": ["vfp2py/vfpfunc.py:Combobox", "vfp2py/vfpfunc.py:Optiongroup"]}
{"id": "C106", "title": "Lists and grids show their table", "statement": "A grid or list box with a source shows the records of that table as they are at the last refresh, marks the current record, and a click on a row makes its record the current one of that table and of no other.", "quantifier": "all work areas, tables, grids and rows", "why_tests_cant": "needs any state of the work areas", "anchors": ["vfp2py/vfpfunc.py:Listbox", "vfp2py/vfpfunc.py:Grid"]}
{"id": "C107", "title": "Inlined functions on numbers, logical values and NULL", "statement": "MOD, BETWEEN, INLIST, IIF, MAX, MIN, ABS, SIGN, ROUND, EMPTY, EVL, NVL and ISNULL, converted to Python operators and builtins, have the value FoxPro gives them, for every argument expression and inside every expression.", "quantifier": "all argument expressions and all values of their variables", "why_tests_cant": "needs any argument expression and any value", "anchors": ["vfp2py/vfp2py_convert_visitor.py:func_call"]}
{"id": "C108", "title": "PROGRAM() names the active procedures", "statement": "PROGRAM() is the name of the procedure being executed, in the main program that of its file; PROGRAM(n) is that of the n-th active procedure, PROGRAM(-1) the number of active procedures, and beyond them it is empty.", "quantifier": "all chains of calls and all levels", "why_tests_cant": "needs any depth of calls", "anchors": ["vfp2py/vfpfunc.py:program", "vfp2py/vfpfunc.py:_parameters", "vfp2py/vfp2py_convert_visitor.py:visitPrg"]}
{"id": "C109", "title": "RETURN gives its value to the caller", "statement": "A call of a converted procedure has the value of the RETURN statement that ends it, wherever in the procedure it stands; a procedure that ends without one, or by a RETURN without value, has the value .T.", "quantifier": "all procedures built from commands, branches, loops and TRY, all states", "why_tests_cant": "needs any procedure body and state", "anchors": ["vfp2py/vfp2py_convert_visitor.py:visitReturnStmt", "vfp2py/vfpfunc.py:_parameters"]}
{"id": "C110", "title": "A call reaches the function it names", "statement": "f(...) in an expression calls what FoxPro calls: the native function of that name or abbreviation, otherwise the procedure of the program, otherwise that of the procedure files, otherwise the program file; also when the value of the call is used at once, as in f(...).name.", "quantifier": "all names, numbers of arguments, sets of procedures, procedure files and programs", "why_tests_cant": "needs any name and any set of procedures", "anchors": ["vfp2py/vfp2py_convert_visitor.py:func_call", "vfp2py/vfp2py_convert_visitor.py:createIdAttr", "vfp2py/vfp2py_convert_visitor.py:scopeId", "vfp2py/vfpfunc.py:_Function"]}
{"id": "C111", "title": "Native functions take the arguments FoxPro takes", "statement": "A call of a native function with a number of arguments that FoxPro allows is accepted by the function of the run time it becomes, each argument getting to the parameter for it.", "quantifier": "all functions of the run time that are FoxPro functions, all arguments", "why_tests_cant": "needs all functions and argument lists", "anchors": ["vfp2py/vfp2py_convert_visitor.py:func_call", "vfp2py/vfpfunc.py:strextract", "vfp2py/vfpfunc.py:vartype", "vfp2py/vfpdatabase.py:seek", "vfp2py/vfpdatabase.py:recno"]}
{"id": "C112", "title": "Menus, events, reports, forms, WAIT, CLEAR and ASSERT", "statement": "A converted program with commands for menus, READ EVENTS, ON KEY, REPORT FORM, DO FORM, WAIT, CLEAR and ASSERT goes on past them; WAIT TO gives its variable the key, CLEAR MEMORY drops the variables, ASSERT does nothing unless asserts are on.", "quantifier": "all programs of such commands, all arguments and memories", "why_tests_cant": "needs any sequence of commands", "anchors": ["vfp2py/vfp2py_convert_visitor.py:visitDefineMenu", "vfp2py/vfp2py_convert_visitor.py:visitReadEvent", "vfp2py/vfp2py_convert_visitor.py:visitWaitCmd", "vfp2py/vfp2py_convert_visitor.py:visitAssert", "vfp2py/vfpfunc.py:wait", "vfp2py/vfpfunc.py:clear"]}
{"id": "C113", "title": "Names in any case, one variable each", "statement": "A name of a variable, property or procedure may be spelled in any case; different names stay different, and whatever the name, the converted file loads and the name means the variable of the program.", "quantifier": "all names of letters, digits and underscores, in any case, as variable, property, procedure or call", "why_tests_cant": "needs any name in any spelling", "anchors": ["vfp2py/vfp2py_convert_visitor.py:visitIdentifier", "vfp2py/vfp2py_convert_visitor.py:createIdAttr", "vfp2py/vfp2py_convert_visitor.py:scopeId"]}
{"id": "C114", "title": "A converted program does what the program did", "statement": "A program of assignments, IF, DO CASE, DO WHILE, FOR, EXIT, LOOP and comments, over expressions of numbers, texts and logical values, is converted to a text that Python reads as a program; run from the same variables, that program ends when the FoxPro program ends, without an error, and leaves the same variables.", "quantifier": "all programs of these statements, of any size and nesting, all starting variables, all numbers of passes through their loops", "why_tests_cant": "needs any program, any input and any number of passes", "anchors": ["vfp2py/vfp2py_convert_visitor.py:visitAssign", "vfp2py/vfp2py_convert_visitor.py:visitIfStmt", "vfp2py/vfp2py_convert_visitor.py:visitCaseStmt", "vfp2py/vfp2py_convert_visitor.py:visitForStart", "vfp2py/vfp2py_convert_visitor.py:visitWhileStmt", "vfp2py/vfp2py_convert_visitor.py:visitLines", "vfp2py/vfp2py.py:add_indents"]}
{"id": "C115", "title": "A converted function returns what the function did", "statement": "A file of functions with parameters and local variables, that assign, branch, loop, call one another, also recursively, and return values, is converted to a text that Python reads as a module; a call of any of its functions, with any arguments, returns what the FoxPro function returns, gives the public variables the same values, and leaves all other variables and the scopes as they were; variables that are not declared are private to the function that makes them, and seen and set by those it calls.", "quantifier": "all files of functions, all nestings of statements, all call graphs, arguments, public variables and depths of recursion", "why_tests_cant": "needs any program, any arguments and any depth of recursion", "anchors": ["vfp2py/vfp2py_convert_visitor.py:visitPrg", "vfp2py/vfp2py_convert_visitor.py:visitFuncDef", "vfp2py/vfp2py_convert_visitor.py:visitParameters", "vfp2py/vfp2py_convert_visitor.py:visitReturnStmt", "vfp2py/vfp2py_convert_visitor.py:visitDeclaration", "vfp2py/vfp2py_convert_visitor.py:func_call", "vfp2py/vfp2py_convert_visitor.py:visitAssign", "vfp2py/vfpfunc.py:_parameters", "vfp2py/vfpfunc.py:_Memvar"]}
{"id": "C116", "title": "AddObject and ThisForm", "statement": "AddObject makes an object of the class named, found in its container under the name given, whatever its case, with the container as its Parent, and shown where the container shows its controls; ThisForm in any object, however deep in containers, is the form it is on, and an error when there is none; nothing else changes.", "quantifier": "all histories of objects added to objects, all containers, classes and names", "why_tests_cant": "needs trees of objects of any depth and shape", "anchors": ["vfp2py/vfpfunc.py:Custom.addobject", "vfp2py/vfpfunc.py:Custom.add_object", "vfp2py/vfpfunc.py:Custom.parentform", "vfp2py/vfpfunc.py:Custom.__init__", "vfp2py/vfpfunc.py:create_object", "vfp2py/vfpfunc.py:Pageframe.addWidget", "vfp2py/vfpfunc.py:Optiongroup.add_object"]}
{"id": "C117", "title": "Letter case and layout of the source never matter", "statement": "Reading a source text loses no character of it and takes the longest words the grammar allows; texts that differ only in the case of letters are read as the same words; and words, numbers, operators and line ends give the parser the same tokens whatever blanks, tabs, continued lines and remarks stand between them.", "quantifier": "all texts, of any length; all ways of laying out all sequences of words, numbers, symbols, dotted operators and line ends", "why_tests_cant": "texts and layouts are unbounded, and the 312 rules of the lexer compete for every character", "anchors": ["vfp2py/VisualFoxpro9.g4:714-1623", "vfp2py/VisualFoxpro9Lexer.py"]}
{"id": "C118", "title": "Keywords may be cut short, and operators written with periods", "statement": "Every keyword is recognised in full and cut to any length down to four letters, in any case, and no other word is taken for a keyword; .AND., .OR. and .NOT. are operators wherever they are written.", "quantifier": "all words; all keywords and lengths; all numbers before a dotted operator", "why_tests_cant": "the words are unbounded; each of 291 keywords has its own rule of abbreviation, competing with all others", "anchors": ["vfp2py/VisualFoxpro9.g4:714-1057"]}
{"id": "C119", "title": "An expression means in Python what its text says in FoxPro", "statement": "However an expression is laid out, spelled and cased, the text is read as the operator tree of the language, operators binding in its order (power, product, modulo, sum, comparison, NOT, AND, OR, each from the left); and the Python code made of the text has the value, or the truth value, of the FoxPro expression.", "quantifier": "all expressions over names, numbers, texts in quotes, logical constants, calls, parentheses and all operators, of any size; all layouts", "why_tests_cant": "expressions and layouts are unbounded; the parser is generated code of some 13000 lines", "anchors": ["vfp2py/VisualFoxpro9.g4:321-346", "vfp2py/VisualFoxpro9Parser.py:12629-12890", "vfp2py/vfp2py_convert_visitor.py:594-630", "vfp2py/vfp2py_convert_visitor.py:1183-1256"]}
{"id": "C120", "title": "A program means in Python what its text says in FoxPro", "statement": "However a program is laid out, spelled, abbreviated, cased and remarked upon, its text is read as the statements of the language, and only as those; and the Python program made of it, run from the same variables, ends when it ends and leaves them with the same values.", "quantifier": "all texts of programs of assignments, IF/ELSE, DO CASE/OTHERWISE, DO WHILE and WHILE, FOR/STEP/NEXT, EXIT, LOOP and remarks, nested to any depth; all layouts; all values of the variables; all runs", "why_tests_cant": "programs, layouts, values and runs are unbounded; the chain goes from characters through lexer, parser, visitor and printer to what Python reads and does", "anchors": ["vfp2py/VisualFoxpro9.g4:24-146", "vfp2py/vfp2py_convert_visitor.py:204-225", "vfp2py/vfp2py_convert_visitor.py:427-480", "vfp2py/vfp2py_convert_visitor.py:515-585"]}
{"id": "C121", "title": "A file of functions means in Python what its text says in FoxPro", "statement": "The text of a file of functions, with parameters in parentheses or in LPARAMETERS, LOCAL variables and calls of each other before or after their definition, is read as those functions, and only as those, however it is laid out; and calling a function of the Python file made of it returns the value and leaves the public variables as FoxPro does.", "quantifier": "all texts of files of functions with the statements of C120, RETURN and calls, in any order and recursive; all layouts; all arguments and states of the scopes", "why_tests_cant": "files, layouts, recursion depths and runs are unbounded", "anchors": ["vfp2py/VisualFoxpro9.g4:66-81", "vfp2py/VisualFoxpro9.g4:151-161", "vfp2py/vfp2py_convert_visitor.py:160-182", "vfp2py/vfp2py_convert_visitor.py:355-404"]}
{"id": "C122", "title": "What is converted is the program with its directives done", "statement": "From the characters of a program file, the preprocessor makes the text the directives say: constants are put in where they are defined, in any letter case, and nowhere else; lines of the branch of #IFDEF that is selected stay, those of the other go; remarks at the ends of lines become lines of their own; nothing else changes but carriage returns; and that text, after the line of the main program, is read as the functions it says.", "quantifier": "all texts of programs with #DEFINE, #UNDEFINE, #IFDEF/#ELSE/#ENDIF nested to any depth, all layouts, all constants", "why_tests_cant": "texts, layouts, nesting and constants are unbounded; the chain goes from characters through the lexer, the preprocessor and the lexer and parser again", "anchors": ["vfp2py/VisualFoxpro9.g4:4-22", "vfp2py/vfp2py.py:PreprocessVisitor", "vfp2py/vfp2py.py:preprocess_code", "vfp2py/vfp2py.py:prg2py"]}
{"id": "C123", "title": "A program file does in Python what it does in FoxPro", "statement": "From the characters of a program file with directives, a main program and functions, the converted text is one Python module; its function MAIN, called with any arguments, ends when the program ends, with the value of its RETURN, leaves the variables that nothing in the file declares with the values they have in FoxPro, whether they were there before, or are made on the way and are private to the procedure that makes them, and changes nothing else; it goes on when the program goes on.", "quantifier": "all texts of program files, layouts, letter cases, constants and branches of directives, all nestings of statements, call graphs, arguments, variables and depths of recursion", "why_tests_cant": "programs, layouts, inputs and depths of calls are unbounded; the chain goes from characters through two passes of lexer and parser, the visitor, the printed text, its reading by Python and the scopes at run time", "anchors": ["vfp2py/vfp2py.py:prg2py", "vfp2py/vfp2py.py:preprocess_code", "vfp2py/vfp2py_convert_visitor.py:visitPrg", "vfp2py/vfp2py_convert_visitor.py:visitFuncDef", "vfp2py/vfp2py_convert_visitor.py:visitLine", "vfp2py/vfpfunc.py:_parameters", "vfp2py/vfpfunc.py:_Memvar"]}
{"id": "C124", "title": "Variables passed by DO are changed by what is called", "statement": "After DO f WITH x, in the converted program, the variable x has the value that f has given to its parameter, and all other variables the values they have in FoxPro.", "quantifier": "all files of functions, all functions and arguments of DO, all states of the variables", "why_tests_cant": "needs every function that may be called and every state", "anchors": ["vfp2py/vfp2py_convert_visitor.py:visitFuncDo", "vfp2py/vfp2py_convert_visitor.py:visitArgs", "vfp2py/vfpfunc.py:_parameters"]}
{"id": "C125", "title": "Remarks between functions are kept and change nothing", "statement": "Remarks and empty lines after the ENDPROC or ENDFUNC of a function, between functions or at the end of a file, are comments and empty lines of the Python file, in the same order, after that function and before the next; and the Python file still has the same functions and main program, which do what they do in FoxPro.", "quantifier": "all program files and files of functions of C121 and C123 with any remarks and empty lines after any ENDPROC, however laid out; all arguments and states of the scopes", "why_tests_cant": "files, remarks, layouts and runs are unbounded", "anchors": ["vfp2py/VisualFoxpro9.g4:79-81", "vfp2py/vfp2py_convert_visitor.py:visitPrg", "vfp2py/vfp2py_convert_visitor.py:visitLineComment"]}
