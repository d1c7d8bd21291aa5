(** What reading the words of a source text should mean. *)
From Verif Require Import PyBase PyStr M_Lexer.
Open Scope Z_scope.

(** ** The texts a rule stands for *)
Inductive lang : rx -> pystr -> Prop :=
| L_eps : lang Eps []
| L_cls other l c : xorb other (existsb (fun p => (fst p <=? c) && (c <=? snd p)) l) = true -> lang (Cls other l) [c]
| L_cat a b s t : lang a s -> lang b t -> lang (Cat a b) (s ++ t)
| L_left a b s : lang a s -> lang (Alt a b) s
| L_right a b s : lang b s -> lang (Alt a b) s
| L_none a : lang (Star a) []
| L_more a s t : lang a s -> lang (Star a) t -> lang (Star a) (s ++ t).
(** The first token of a text: no rule has a longer text there, and no earlier rule has this one *)
Definition first_token (s : pystr) (k : string) (t : pystr) : Prop :=
  t <> [] /\
  (exists rest, s = t ++ rest) /\
  (exists before r after, rules = before ++ (k, r) :: after /\ lang r t /\ forall k' r', In (k', r') before -> ~ lang r' t) /\
  (forall k' r' t' rest', In (k', r') rules -> lang r' t' -> s = t' ++ rest' -> (length t' <= length t)%nat).
Inductive reads : pystr -> list (string * pystr) -> Prop :=
| R_end : reads [] []
| R_next k t rest ts : first_token (t ++ rest) k t -> reads rest ts -> reads (t ++ rest) ((k, t) :: ts).

(** ** Words *)
Definition up (c : Z) : Z := if (97 <=? c) && (c <=? 122) then c - 32 else c.
Definition upper (s : pystr) : pystr := map up s.
Definition letter (c : Z) : bool := (65 <=? c) && (c <=? 90) || (97 <=? c) && (c <=? 122) || (c =? 95).
Definition digit (c : Z) : bool := (48 <=? c) && (c <=? 57).
Definition name_char (c : Z) : bool := letter c || digit c.
Definition word (w : pystr) : bool := match w with c :: r => letter c && forallb name_char r | [] => false end.
(** The keywords: what they are taken for, their full spelling, and the length of the shortest abbreviation *)
Definition keywords : list (string * string * nat) := [
   ("ACTIVATE", "ACTIVATE", 4%nat); ("ADD", "ADD", 3%nat); ("ADDITIVE", "ADDITIVE", 8%nat); ("AFTER", "AFTER", 5%nat); ("ALIAS", "ALIAS", 5%nat);
   ("ALL", "ALL", 3%nat); ("ALTER", "ALTER", 5%nat); ("ALTERNATE", "ALTERNATE", 9%nat); ("AND", "AND", 3%nat); ("APPEND", "APPEND", 4%nat);
   ("ARRAY", "ARRAY", 4%nat); ("AS", "AS", 2%nat); ("ASCENDING", "ASCENDING", 9%nat); ("ASSERT", "ASSERT", 4%nat); ("ASSERTS", "ASSERTS", 7%nat);
   ("AT", "AT", 2%nat); ("BAR", "BAR", 3%nat); ("BEFORE", "BEFORE", 6%nat); ("BELL", "BELL", 4%nat); ("BLANK", "BLANK", 4%nat);
   ("BOOLEANCHAR", "F", 1%nat); ("BOOLEANCHAR", "N", 1%nat); ("BOOLEANCHAR", "T", 1%nat); ("BOOLEANCHAR", "Y", 1%nat); ("BOTTOM", "BOTTOM", 6%nat);
   ("BOTTOM", "BOTT", 4%nat); ("BROWSE", "BROWSE", 4%nat); ("BY", "BY", 2%nat); ("CANDIDATE", "CANDIDATE", 9%nat); ("CASE", "CASE", 4%nat);
   ("CAST", "CAST", 4%nat); ("CATCH", "CATCH", 4%nat); ("CENTURY", "CENTURY", 4%nat); ("CHDIR", "CHDIR", 4%nat); ("CHDIR", "CD", 2%nat);
   ("CLASS", "CLASS", 5%nat); ("CLASSLIB", "CLASSLIB", 8%nat); ("CLEAR", "CLEAR", 4%nat); ("CLOCK", "CLOCK", 5%nat); ("CLOSE", "CLOSE", 4%nat);
   ("COLLECTION", "COLLECTION", 10%nat); ("COLOR", "COLOR", 5%nat); ("COLUMN", "COLUMN", 6%nat); ("COMMAND", "COMMAND", 7%nat);
   ("COMPACT", "COMPACT", 7%nat); ("COMPATIBLE", "COMPATIBLE", 10%nat); ("COMPILE", "COMPILE", 4%nat); ("CONSOLE", "CONSOLE", 7%nat);
   ("CONTINUE", "CONTINUE", 4%nat); ("COPY", "COPY", 4%nat); ("COUNT", "COUNT", 4%nat); ("CREATE", "CREATE", 4%nat); ("CURSOR", "CURSOR", 4%nat);
   ("DATABASE", "DATABASES", 8%nat); ("DATABASE", "DATA", 4%nat); ("DATASESSION", "DATASESSION", 11%nat); ("DATE", "DATE", 4%nat);
   ("DB4", "DB4", 3%nat); ("DBF", "DBF", 3%nat); ("DEACTIVATE", "DEACTIVATE", 4%nat); ("DEBUG", "DEBUG", 4%nat); ("DEBUGOUT", "DEBUGOUT", 6%nat);
   ("DECLARE", "DECLARE", 4%nat); ("DEFAULT", "DEFAULT", 7%nat); ("DEFINE", "DEFINE", 4%nat); ("DELETE", "DELETE", 4%nat);
   ("DELETED", "DELETED", 7%nat); ("DESCENDING", "DESCENDING", 10%nat); ("DIMENSION", "DIMENSION", 4%nat); ("DISTINCT", "DISTINCT", 8%nat);
   ("DLLS", "DLLS", 4%nat); ("DO", "DO", 2%nat); ("DOEVENTS", "DOEVENTS", 4%nat); ("DROP", "DROP", 4%nat); ("EACH", "EACH", 4%nat);
   ("ELIF", "ELIF", 4%nat); ("ELSE", "ELSE", 4%nat); ("ENCRYPT", "ENCRYPT", 7%nat); ("ENDCASE", "ENDCASE", 4%nat); ("ENDDEFINE", "ENDDEFINE", 5%nat);
   ("ENDDO", "ENDDO", 5%nat); ("ENDFOR", "ENDFOR", 5%nat); ("ENDIF", "ENDIF", 4%nat); ("ENDPROC", "ENDFUNC", 3%nat); ("ENDPROC", "ENDPROC", 4%nat);
   ("ENDSCAN", "ENDSCAN", 4%nat); ("ENDTEXT", "ENDTEXT", 4%nat); ("ENDTRY", "ENDTRY", 5%nat); ("ENDWITH", "ENDWITH", 4%nat); ("ERASE", "ERASE", 4%nat);
   ("ERROR", "ERROR", 4%nat); ("ESCAPE", "ESCAPE", 6%nat); ("EVENTS", "EVENTS", 6%nat); ("EXACT", "EXACT", 4%nat); ("EXCEPT", "EXCEPT", 6%nat);
   ("EXCLUSIVE", "EXCLUSIVE", 9%nat); ("EXCLUSIVE", "EXCL", 4%nat); ("EXTENDED", "EXTENDED", 8%nat); ("EXTERNAL", "EXTERNAL", 4%nat);
   ("FIELDS", "FIELDS", 6%nat); ("FILE", "FILES", 4%nat); ("FILL", "FILL", 4%nat); ("FILTER", "FILTER", 4%nat); ("FINALLY", "FINALLY", 4%nat);
   ("FLAGS", "FLAGS", 5%nat); ("FONT", "FONT", 4%nat); ("FOR", "FOR", 3%nat); ("FORCE", "FORCE", 5%nat); ("FORM", "FORM", 4%nat);
   ("FOXOBJECT", "FOXOBJECT", 9%nat); ("FOXPLUS", "FOXPLUS", 7%nat); ("FREE", "FREE", 4%nat); ("FROM", "FROM", 4%nat); ("GATHER", "GATHER", 4%nat);
   ("GETS", "GETS", 4%nat); ("GOTO", "GOTO", 4%nat); ("GOTO", "GO", 2%nat); ("HELP", "HELP", 4%nat); ("HIDE", "HIDE", 4%nat); ("ICON", "ICON", 4%nat);
   ("IF", "IF", 2%nat); ("IFDEF", "IFDEF", 5%nat); ("IN", "IN", 2%nat); ("INCLUDE", "INCLUDE", 7%nat); ("INDEX", "INDEX", 5%nat);
   ("INDEXES", "INDEXES", 7%nat); ("INSERT", "INSERT", 4%nat); ("INTO", "INTO", 4%nat); ("JOIN", "JOIN", 4%nat); ("KEY", "KEY", 3%nat);
   ("KEYBOARD", "KEYBOARD", 4%nat); ("LABEL", "LABEL", 5%nat); ("LIBRARY", "LIBRARY", 7%nat); ("LIKE", "LIKE", 4%nat); ("LINE", "LINE", 4%nat);
   ("LINKED", "LINKED", 6%nat); ("LIST", "LIST", 4%nat); ("LOCATE", "LOCATE", 4%nat); ("MACROS", "MACROS", 6%nat); ("MARGIN", "MARGIN", 6%nat);
   ("MARK", "MARK", 4%nat); ("MASTER", "MASTER", 6%nat); ("MAX", "MAX", 3%nat); ("MEMO", "MEMO", 4%nat); ("MEMORY", "MEMORY", 6%nat);
   ("MEMOWIDTH", "MEMOWIDTH", 9%nat); ("MEMVAR", "MEMVAR", 6%nat); ("MENU", "MENU", 4%nat); ("MENUS", "MENUS", 5%nat); ("MESSAGE", "MESSAGE", 4%nat);
   ("MIN", "MIN", 3%nat); ("MKDIR", "MKDIR", 4%nat); ("MKDIR", "MD", 2%nat); ("MODIFY", "MODIFY", 4%nat); ("MULTILOCKS", "MULTILOCKS", 10%nat);
   ("NAME", "NAME", 4%nat); ("NEAR", "NEAR", 4%nat); ("NEGOTIATE", "NEGOTIATE", 9%nat); ("NEXT", "NEXT", 4%nat); ("NOCLEAR", "NOCLEAR", 7%nat);
   ("NOCONSOLE", "NOCONSOLE", 9%nat); ("NODEBUG", "NODEBUG", 6%nat); ("NOEJECT", "NOEJECT", 7%nat); ("NOMARGIN", "NOMARGIN", 8%nat);
   ("NOMENU", "NOMENU", 6%nat); ("NOOPTIMIZE", "NOOPTIMIZE", 10%nat); ("NOPROMPT", "NOPROMPT", 8%nat); ("NORM", "NORM", 4%nat);
   ("NOSAVE", "NOSAVE", 6%nat); ("NOSHOW", "NOSHOW", 6%nat); ("NOT", "NOT", 3%nat); ("NOTE", "NOTE", 4%nat); ("NOTIFY", "NOTIFY", 6%nat);
   ("NOUPDATE", "NOUPDATE", 8%nat); ("NOWAIT", "NOWAIT", 6%nat); ("NULL", "NULL", 4%nat); ("NUMBER", "NUMBER", 6%nat); ("OBJECT", "OBJECT", 6%nat);
   ("OF", "OF", 2%nat); ("OFF", "OFF", 3%nat); ("ON", "ON", 2%nat); ("OR", "OR", 2%nat); ("ORDER", "ORDER", 5%nat); ("OTHERWISE", "OTHERWISE", 4%nat);
   ("PACK", "PACK", 4%nat); ("PAD", "PAD", 3%nat); ("PARAMETER", "LPARAMETERS", 4%nat); ("PARAMETER", "PARAMETERS", 4%nat); ("PLAIN", "PLAIN", 5%nat);
   ("POP", "POP", 3%nat); ("POPUP", "POPUPS", 5%nat); ("PRETEXT", "PRETEXT", 7%nat); ("PRINTER", "PRINTER", 4%nat); ("PROCEDURE", "PROCEDURE", 4%nat);
   ("PROCEDURE", "FUNCTION", 4%nat); ("PROGRAM", "PROGRAM", 7%nat); ("PROGRAMCONTROL", "NODEFAULT", 4%nat); ("PROGRAMCONTROL", "SUSPEND", 4%nat);
   ("PROGRAMCONTROL", "CANCEL", 4%nat); ("PROGRAMCONTROL", "RESUME", 4%nat); ("PROGRAMCONTROL", "EXIT", 4%nat); ("PROGRAMCONTROL", "LOOP", 4%nat);
   ("PROGRAMCONTROL", "QUIT", 4%nat); ("PROMPT", "PROMPT", 6%nat); ("PUSH", "PUSH", 4%nat); ("READ", "READ", 4%nat); ("RECALL", "RECALL", 4%nat);
   ("RECORD", "RECORD", 6%nat); ("RECYCLE", "RECYCLE", 7%nat); ("REFERENCE", "REFERENCE", 9%nat); ("REFRESH", "REFRESH", 7%nat);
   ("REINDEX", "REINDEX", 4%nat); ("RELATION", "RELATION", 8%nat); ("RELATIVE", "RELATIVE", 8%nat); ("RELEASE", "RELEASE", 4%nat);
   ("RENAME", "RENAME", 4%nat); ("REPLACE", "REPLACE", 4%nat); ("REPORT", "REPORT", 6%nat); ("RESOURCES", "RESOURCES", 9%nat); ("REST", "REST", 4%nat);
   ("RESTORE", "RESTORE", 5%nat); ("RETRY", "RETRY", 4%nat); ("RETURN", "RETURN", 4%nat); ("RMDIR", "RMDIR", 4%nat); ("RMDIR", "RD", 2%nat);
   ("ROLLOVER", "ROLLOVER", 8%nat); ("RUN", "RUN", 3%nat); ("SAFETY", "SAFETY", 4%nat); ("SAME", "SAME", 4%nat); ("SAVE", "SAVE", 4%nat);
   ("SAY", "SAY", 3%nat); ("SCAN", "SCAN", 4%nat); ("SCATTER", "SCATTER", 4%nat); ("SCHEME", "SCHEME", 6%nat); ("SCOPE", "PROTECTED", 4%nat);
   ("SCOPE", "PRIVATE", 4%nat); ("SCOPE", "HIDDEN", 4%nat); ("SCOPE", "PUBLIC", 4%nat); ("SCOPE", "LOCAL", 5%nat); ("SCREEN", "SCREEN", 4%nat);
   ("SEEK", "SEEK", 4%nat); ("SELECT", "SELECT", 4%nat); ("SELECTION", "SELECTION", 9%nat); ("SET", "SET", 3%nat); ("SHADOW", "SHADOW", 6%nat);
   ("SHARED", "SHARED", 5%nat); ("SHOW", "SHOW", 4%nat); ("SHUTDOWN", "SHUTDOWN", 8%nat); ("SIZE", "SIZE", 4%nat); ("SKIPKW", "SKIP", 4%nat);
   ("SORT", "SORT", 4%nat); ("STATUS", "STATUS", 6%nat); ("STEP", "STEP", 4%nat); ("STORE", "STORE", 4%nat); ("STRUCTURE", "STRUCTURE", 4%nat);
   ("STYLE", "STYLE", 5%nat); ("SUM", "SUM", 3%nat); ("SYSMENU", "SYSMENU", 7%nat); ("SYSTEM", "SYSTEM", 6%nat); ("TABLE", "TABLES", 4%nat);
   ("TABLEPROMPT", "TABLEPROMPT", 11%nat); ("TAG", "TAG", 3%nat); ("TALK", "TALK", 4%nat); ("TEXT", "TEXT", 4%nat); ("TEXTMERGE", "TEXTMERGE", 9%nat);
   ("THEN", "THEN", 4%nat); ("THROW", "THROW", 4%nat); ("TIMEOUT", "TIMEOUT", 4%nat); ("TITLE", "TITLE", 5%nat); ("TO", "TO", 2%nat);
   ("TOP", "TOP", 3%nat); ("TRY", "TRY", 3%nat); ("TYPE", "TYPE", 4%nat); ("TYPEAHEAD", "TYPEAHEAD", 9%nat); ("UDFPARMS", "UDFPARMS", 8%nat);
   ("UNDEFINE", "UNDEFINE", 8%nat); ("UNDEFINE", "UNDEF", 5%nat); ("UNIQUE", "UNIQUE", 6%nat); ("UNLOCK", "UNLOCK", 4%nat); ("UPDATE", "UPDATE", 4%nat);
   ("USE", "USE", 3%nat); ("VALUE", "VALUE", 5%nat); ("VALUES", "VALUES", 6%nat); ("WAIT", "WAIT", 4%nat); ("WHEN", "WHEN", 4%nat);
   ("WHERE", "WHERE", 5%nat); ("WHILE", "WHILE", 5%nat); ("WINDOW", "WINDOWS", 4%nat); ("WITH", "WITH", 4%nat); ("ZAP", "ZAP", 3%nat);
   ("ZOOM", "ZOOM", 4%nat) ]%string.
Definition spellings : list (pystr * string) :=
  flat_map (fun p => let '(k, full, least) := p in map (fun n => (firstn n (u full), k)) (seq least (S (String.length full) - least))) keywords.
Fixpoint find_word (l : list (pystr * string)) (w : pystr) : option string :=
  match l with [] => None | (x, k) :: l => if pystr_eqb x w then Some k else find_word l w end.
Definition word_kind (w : pystr) : string :=
  match find_word spellings (upper w) with
  | Some k => k
  | None => if pystr_eqb w (u "_") then "T__0" else "ID"
  end.

(** ** A source text: words, numbers and symbols with layout between them *)
Definition symbols : list (string * string) := [
  ("COMMERCIALAT", "@"); ("ASTERISK", "*"); ("PLUS_SIGN", "+"); ("MINUS_SIGN", "-"); ("FORWARDSLASH", "/"); ("PERIOD", "."); ("LEFTBRACKET", "[");
  ("RIGHTBRACKET", "]"); ("LEFTBRACE", "{"); ("RIGHTBRACE", "}"); ("LEFTPAREN", "("); ("RIGHTPAREN", ")"); ("BACKSLASH", "\"); ("LESSTHAN", "<");
  ("GREATERTHAN", ">"); ("EXCLAMATION", "!"); ("HASH", "#"); ("DOUBLEEQUALS", "=="); ("NOTEQUALS", "!="); ("NOTEQUALS", "<>"); ("GTEQ", ">=");
  ("GTEQ", "=>"); ("LTEQ", "<="); ("LTEQ", "=<"); ("MODULO", "%"); ("EQUALS", "="); ("CARAT", "^"); ("COMMA", ","); ("DOLLAR", "$"); ("COLON", ":");
  ("QUESTION", "?"); ("DOUBLEQUOTE", """"); ("SINGLEQUOTE", "'") ]%string.
Definition dotted : list (string * string) := [("OTHERAND", "AND"); ("OTHERNOT", "NOT"); ("OTHEROR", "OR")]%string.
Inductive piece :=
| Word (w : pystr)                               (* a name or a keyword *)
| Number (whole : pystr) (fraction : option pystr)   (* 12, 12.50 *)
| Sym (k t : string)                             (* one of the symbols *)
| Dotted (k : string) (w : pystr)                (* .AND. .OR. .NOT. *)
| Quoted (q : Z) (s : pystr)                     (* 'text' or "text" *)
| NewLine (remark : option pystr)                (* the end of a line, with a remark (&& ...) before it or not *)
| Remark (s : pystr).                            (* a line that begins with an asterisk, with its end *)
Definition piece_ok (p : piece) : Prop :=
  match p with
  | Word w => word w = true
  | Number a b => a <> [] /\ forallb digit a = true /\ match b with Some b => b <> [] /\ forallb digit b = true | None => True end
  | Sym k t => In (k, t) symbols
  | Dotted k w => exists t, In (k, t) dotted /\ upper w = u t
  | Quoted q s => (q = 34 \/ q = 39) /\ ~ In q s /\ ~ In 10 s /\ ~ In 38 s
  | NewLine r => match r with Some r => ~ In 10 r | None => True end
  | Remark s => ~ In 10 s /\ ~ In 38 s /\ ~ In 59 s
  end.
Definition piece_text (p : piece) : pystr :=
  match p with
  | Word w => w
  | Number a b => a ++ match b with Some b => 46 :: b | None => [] end
  | Sym _ t => u t
  | Dotted _ w => 46 :: w ++ [46]
  | Quoted q s => q :: s ++ [q]
  | NewLine r => match r with Some r => u "&&" ++ r | None => [] end ++ [10]
  | Remark s => 42 :: s ++ [10]
  end.
(** Layout: blanks, tabs and carriage returns; a line continued with a semicolon, perhaps with a remark after it *)
Inductive layout := Blank (c : Z) | Continued (blanks : pystr) (remark : option pystr).
Definition blank (c : Z) : bool := (c =? 32) || (c =? 9) || (c =? 13).
Definition layout_ok (g : layout) : Prop :=
  match g with
  | Blank c => blank c = true
  | Continued b r => forallb blank b = true /\ match r with Some r => ~ In 10 r | None => True end
  end.
Definition layout_text (g : layout) : pystr :=
  match g with
  | Blank c => [c]
  | Continued b r => 59 :: b ++ match r with Some r => u "&&" ++ r | None => [] end ++ [10]
  end.
Definition source := list (list layout * piece).
Definition text (src : source) (last : list layout) : pystr :=
  flat_map (fun p => flat_map layout_text (fst p) ++ piece_text (snd p)) src ++ flat_map layout_text last.
(** Pieces that would read as one if nothing stood between them *)
Definition starts_with (p : piece) (f : Z -> bool) : bool := match piece_text p with c :: _ => f c | [] => false end.
Definition runs_on (p q : piece) : bool :=
  match p with
  | Word _ => starts_with q name_char
  | Number _ _ => starts_with q (fun c => name_char c || (c =? 46))
  | Sym k t =>
      (existsb (String.eqb t) ["="; "<"; ">"; "!"]%string && starts_with q (fun c => (c =? 60) || (c =? 61) || (c =? 62)))
      || (String.eqb t "." && (starts_with q digit || match q with Word w => existsb (fun p => pystr_eqb (upper w) (u (snd p))) dotted | _ => false end))
  | Dotted _ _ | Quoted _ _ | NewLine _ | Remark _ => false
  end.
Fixpoint apart (src : source) : Prop :=
  match src with
  | (_, p) :: (((g, q) :: _) as rest) => (g <> [] \/ runs_on p q = false) /\ apart rest
  | _ => True
  end.
Definition laid_out (src : source) (last : list layout) : Prop :=
  Forall (fun p => Forall layout_ok (fst p) /\ piece_ok (snd p)) src /\ Forall layout_ok last /\ apart src.
(** The tokens the pieces stand for.  A text in quotes is its two quotes with the tokens of the text between them, blanks and all; so is a remark, between its asterisk and the end of the line. *)
Definition quote_kind (q : Z) : string := if q =? 34 then "DOUBLEQUOTE" else "SINGLEQUOTE".
Definition piece_kind (p : piece) : string :=
  match p with
  | Word w => word_kind w
  | Number _ _ => "NUMBER_LITERAL"
  | Sym k _ => k
  | Dotted k _ => k
  | Quoted q _ => quote_kind q
  | NewLine _ => "NL"
  | Remark _ => "ASTERISK"
  end.
Definition piece_all (p : piece) : list (string * pystr) :=
  match p with
  | Quoted q s => (quote_kind q, [q]) :: tokens s ++ [(quote_kind q, [q])]
  | NewLine (Some r) => [("COMMENT"%string, u "&&" ++ r); ("NL"%string, [10])]
  | Remark s => ("ASTERISK"%string, [42]) :: tokens s ++ [("NL"%string, [10])]
  | _ => [(piece_kind p, piece_text p)]
  end.
Definition piece_tokens (p : piece) : list (string * pystr) := visible (piece_all p).
(** The tokens of the text: those of the pieces, with hidden tokens between them *)
Inductive interleaved : list piece -> list (string * pystr) -> Prop :=
| I_end hs : forallb (fun t => hidden (fst t)) hs = true -> interleaved [] hs
| I_piece p ps hs ts : forallb (fun t => hidden (fst t)) hs = true -> interleaved ps ts -> interleaved (p :: ps) (hs ++ piece_all p ++ ts).
