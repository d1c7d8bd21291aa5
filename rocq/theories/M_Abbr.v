(** Abbreviated names of built-in functions: function_abbreviations.py, and the renaming at the start of func_call. *)
From Verif Require Import PyBase PyStr.
Open Scope Z_scope.

(* function_abbreviations, function_abbreviations.py:1-313 *)
Definition function_abbreviations : list pystr := [
  u "ACLA|SS"; u "ADBO|BJECTS"; u "ADAT|ABASES"; u "ADOC|KSTATE"; u "AERR|OR"; u "AEVE|NTS"; u "AFIE|LDS"; u "AFON|T"; u "AGETC|LASS";
  u "AGETF|ILEVERSION"; u "AINST|ANCE"; u "ALAN|GUAGE"; u "ALIN|ES"; u "AMEM|BERS"; u "AMOU|SEOBJ"; u "ANET|RESOURCES"; u "APRI|NTERS";
  u "APRO|CINFO"; u "ASQL|HANDLES"; u "ASEL|OBJ"; u "ASTA|CKINFO"; u "ATAG|INFO"; u "AUSE|D"; u "AVCX|CLASSES"; u "ACOP|Y"; u "ADDP|ROPERTY";
  u "ADDB|S"; u "ADLL|S"; u "AELE|MENT"; u "ALIA|S"; u "ALLT|RIM"; u "ASCA|N"; u "ASES|SIONS"; u "ASOR|T"; u "ASUB|SCRIPT"; u "ATCL|INE";
  u "ATLI|NE"; u "BETW|EEN"; u "BINT|OC"; u "BIND|EVENT"; u "BITA|ND"; u "BITC|LEAR"; u "BITL|SHIFT"; u "BITN|OT"; u "BITO|R"; u "BITR|SHIFT";
  u "BITS|ET"; u "BITT|EST"; u "BITX|OR"; u "CTOB|IN"; u "CAND|IDATE"; u "CAPS|LOCK"; u "CEIL|ING"; u "CHRS|AW"; u "CHRT|RAN"; u "CLEARR|ESULTSET";
  u "CMON|TH"; u "CNTB|AR"; u "CNTP|AD"; u "COMA|RRAY"; u "COMC|LASSINFO"; u "COMR|ETURNERROR"; u "COMP|OBJ"; u "CPCO|NVERT"; u "CPCU|RRENT";
  u "CPDB|F"; u "CREATEB|INARY"; u "CREATE|OBJECT"; u "CREATEOF|FLINE"; u "CURD|IR"; u "CURSORG|ETPROP"; u "CURSORS|ETPROP"; u "CURSORTOX|ML";
  u "CURV|AL"; u "DBAL|IAS"; u "DBGE|TPROP"; u "DBSE|TPROP"; u "DBUS|ED"; u "DDEAB|ORTTRANS"; u "DDEAD|VISE"; u "DDEEN|ABLED"; u "DDEEX|ECUTE";
  u "DDEI|NITIATE"; u "DDEL|ASTERROR"; u "DDEP|OKE"; u "DDER|EQUEST"; u "DDES|ETOPTION"; u "DDESETS|ERVICE"; u "DDESETT|OPIC"; u "DDET|ERMINATE";
  u "DATET|IME"; u "DEFA|ULTEXT"; u "DELE|TED"; u "DESC|ENDING"; u "DIFF|ERENCE"; u "DIRE|CTORY"; u "DISK|SPACE"; u "DISP|LAYPATH"; u "DODE|FAULT";
  u "DRIV|ETYPE"; u "DROP|OFFLINE"; u "EDIT|SOURCE"; u "EMPT|Y"; u "ERRO|R"; u "EVAL|UATE"; u "EVENT|HANDLER"; u "EXEC|SCRIPT"; u "FCHS|IZE";
  u "FCLO|SE"; u "FCOU|NT"; u "FCRE|ATE"; u "FDAT|E"; u "FERR|OR"; u "FFLU|SH"; u "FGET|S"; u "FIEL|D"; u "FILET|OSTR"; u "FILT|ER"; u "FKLA|BEL";
  u "FKMA|X"; u "FLOC|K"; u "FLOO|R"; u "FONT|METRIC"; u "FOPE|N"; u "FORC|EEXT"; u "FORCEP|ATH"; u "FOUN|D"; u "FPUT|S"; u "FREA|D"; u "FSEE|K";
  u "FSIZ|E"; u "FTIM|E"; u "FULL|PATH"; u "FWRI|TE"; u "GETA|UTOINCVALUE"; u "GETC|OLOR"; u "GETCU|RSORADAPTER"; u "GETD|IR"; u "GETE|NV";
  u "GETF|ILE"; u "GETFL|DSTATE"; u "GETFO|NT"; u "GETH|OST"; u "GETI|NTERFACE"; u "GETN|EXTMODIFIED"; u "GETO|BJECT"; u "GETP|EM"; u "GETPI|CT";
  u "GETPR|INTER"; u "GETR|ESULTSET"; u "GETWORDC|OUNT"; u "GETWORDN|UM"; u "GETB|AR"; u "GETPA|D"; u "GOMO|NTH"; u "HEAD|ER"; u "ICAS|E";
  u "IMES|TATUS"; u "IDXC|OLLATE"; u "INLI|ST"; u "INDB|C"; u "INDE|XSEEK"; u "INKE|Y"; u "INPU|TBOX"; u "INSM|ODE"; u "ISAL|PHA"; u "ISBL|ANK";
  u "ISCO|LOR"; u "ISDI|GIT"; u "ISEX|CLUSIVE"; u "ISFL|OCKED"; u "ISHO|STED"; u "ISLE|ADBYTE"; u "ISLO|WER"; u "ISME|MOFETCHED"; u "ISMO|USE";
  u "ISNU|LL"; u "ISPE|N"; u "ISRL|OCKED"; u "ISRE|ADONLY"; u "ISTR|ANSACTABLE"; u "ISUP|PER"; u "JUSTD|RIVE"; u "JUSTE|XT"; u "JUSTF|NAME";
  u "JUSTP|ATH"; u "JUSTS|TEM"; u "KEYM|ATCH"; u "LAST|KEY"; u "LINE|NO"; u "LOAD|PICTURE"; u "LOCF|ILE"; u "LOG1|0"; u "LOOK|UP"; u "LOWE|R";
  u "LTRI|M"; u "LUPD|ATE"; u "MAKE|TRANSACTABLE"; u "MDOW|N"; u "MEML|INES"; u "MEMO|RY"; u "MESS|AGE"; u "MESSAGEB|OX"; u "MINU|TE"; u "MLIN|E";
  u "MONT|H"; u "MRKB|AR"; u "MRKP|AD"; u "MWIN|DOW"; u "NEW|OBJECT"; u "NORM|ALIZE"; u "NUML|OCK"; u "OBJT|OCLIENT"; u "OCCU|RS"; u "OLDV|AL";
  u "ORDE|R"; u "PARA|METERS"; u "PAYM|ENT"; u "PCOU|NT"; u "PEMS|TATUS"; u "POPU|P"; u "PRIM|ARY"; u "PRIN|TSTATUS"; u "PRMB|AR"; u "PRMP|AD";
  u "PROG|RAM"; u "PROM|PT"; u "PROP|ER"; u "PRTI|NFO"; u "PUTF|ILE"; u "QUAR|TER"; u "RAIS|EEVENT"; u "RATL|INE"; u "RECC|OUNT"; u "RECN|O";
  u "RECS|IZE"; u "REFR|ESH"; u "RELA|TION"; u "REMO|VEPROPERTY"; u "REPL|ICATE"; u "REQU|ERY"; u "RGBS|CHEME"; u "RIGH|T"; u "RLOC|K"; u "ROUN|D";
  u "RTRI|M"; u "SQLCA|NCEL"; u "SQLCOL|UMNS"; u "SQLCOM|MIT"; u "SQLCON|NECT"; u "SQLD|ISCONNECT"; u "SQLE|XEC"; u "SQLG|ETPROP";
  u "SQLI|DLEDISCONNECT"; u "SQLM|ORERESULTS"; u "SQLP|REPARE"; u "SQLR|OLLBACK"; u "SQLSE|TPROP"; u "SQLST|RINGCONNECT"; u "SQLT|ABLES";
  u "SAVE|PICTURE"; u "SCHE|ME"; u "SCOL|S"; u "SECO|NDS"; u "SELE|CT"; u "SETF|LDSTATE"; u "SETR|ESULTSET"; u "SKPB|AR"; u "SKPP|AD"; u "SOUN|DEX";
  u "SPAC|E"; u "SROW|S"; u "STRE|XTRACT"; u "STRTO|FILE"; u "STRC|ONV"; u "STRTR|AN"; u "STUF|F"; u "SUBS|TR"; u "SYSM|ETRIC"; u "TABLER|EVERT";
  u "TABLEU|PDATE"; u "TAGC|OUNT"; u "TAGN|O"; u "TARG|ET"; u "TEXT|MERGE"; u "TRAN|SFORM"; u "TXNL|EVEL"; u "TXTW|IDTH"; u "UNBI|NDEVENTS";
  u "UPPE|R"; u "VART|YPE"; u "VERS|ION"; u "WDOC|KABLE"; u "WBOR|DER"; u "WCHI|LD"; u "WCOL|S"; u "WEXI|ST"; u "WFON|T"; u "WLAS|T"; u "WLCO|L";
  u "WLRO|W"; u "WMAX|IMUM"; u "WMIN|IMUM"; u "WONT|OP"; u "WOUT|PUT"; u "WPAR|ENT"; u "WROW|S"; u "WTIT|LE"; u "WVIS|IBLE"; u "XMLT|OCURSOR";
  u "XMLU|PDATEGRAM"
].
(* str.lower, for ASCII *)
Definition lower_char (c : Z) : Z := if (65 <=? c) && (c <=? 90) then c + 32 else c.
Definition lower_text (s : pystr) : pystr := map lower_char s.
(* abbr.find('|'): the texts before and after the bar *)
Fixpoint cut_at (s : pystr) : pystr * pystr :=
  match s with
  | [] => ([], [])
  | c :: s => if c =? 124 then ([], s) else let '(a, b) := cut_at s in (c :: a, b)
  end.
(** A dictionary, latest entry first *)
Definition dict := list (pystr * pystr).
Fixpoint lookup (d : dict) (k : pystr) : option pystr :=
  match d with [] => None | (x, v) :: d => if pystr_eqb x k then Some v else lookup d k end.
(* the loop, function_abbreviations.py:321-325 *)
Definition add_abbr (d : dict) (abbr : pystr) : dict :=
  let '(a, b) := cut_at abbr in
  let keyword := lower_text (a ++ b) in
  fold_left (fun d cut => (firstn cut keyword, keyword) :: d) (seq (length a) (S (length keyword) - length a)) d.
(* expander, function_abbreviations.py:315-325 *)
Definition expander : dict := fold_left add_abbr function_abbreviations [(u "trim", u "rtrim"); (u "msgb", u "messagebox")].
(* function_expander.get(funcname, funcname), vfp2py_convert_visitor.py:633 *)
Definition expand (funcname : pystr) : pystr := match lookup expander funcname with Some v => v | None => funcname end.
