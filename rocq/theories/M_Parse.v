(** The parser for expressions: the rule expr of VisualFoxpro9.g4:333-346 as ANTLR follows it, VisualFoxpro9Parser.py:12629-12890 (expr, with the
    precedence of the operator before it), and what the visitor makes of constants and names.

    Where the alternatives of a rule overlap, ANTLR takes the first of those that fit; NOT, .T. and NULL are therefore never names here.  Left out,
    as a failure: what M_Conv leaves out (fractions, currency, dates, blobs, CAST, brackets, periods, references), arguments that are not given.  The names of functions in
    the trees are those after the replacement of abbreviations and other names, vfp2py_convert_visitor.py:632-651. *)
From Verif Require Import PyBase PyStr M_Lexer S_Py M_Lit M_Conv.
From Verif Require M_Call.
Open Scope Z_scope.

(** A token as the parser has it: the tokens of the hidden channel are skipped, but the text of a rule (getCtxText, vfp2py_convert_visitor.py:154-157) includes them. *)
Record ptok := { kind : string; txt : pystr; before : pystr }.
Fixpoint stream (skipped : pystr) (l : list (string * pystr)) : list ptok :=
  match l with
  | [] => []
  | (k, t) :: l => if hidden k then stream (skipped ++ t) l else {| kind := k; txt := t; before := skipped |} :: stream [] l
  end.
Definition is_kind (t : ptok) (k : string) : bool := String.eqb (kind t) k.
Definition one_of (t : ptok) (l : list string) : bool := existsb (is_kind t) l.
(* the rule identifier, g4:444-712 *)
Definition identifiers : list string := [
  "ID"; "ACTIVATE"; "ADD"; "ADDITIVE"; "AFTER"; "ALIAS"; "ALL"; "ALTER"; "ALTERNATE"; "AND"; "APPEND"; "ARRAY"; "AS"; "ASCENDING"; "ASSERT"; "ASSERTS"; "AT"; "BAR";
  "BEFORE"; "BELL"; "BLANK"; "BOOLEANCHAR"; "BOTTOM"; "BROWSE"; "BY"; "CANDIDATE"; "CASE"; "CAST"; "CATCH"; "CENTURY"; "CHDIR"; "CLASS"; "CLASSLIB"; "CLEAR"; "CLOCK";
  "CLOSE"; "COLLECTION"; "COLOR"; "COLUMN"; "COMMAND"; "COMPACT"; "COMPATIBLE"; "COMPILE"; "CONSOLE"; "CONTINUE"; "COPY"; "COUNT"; "CREATE"; "CURSOR"; "DATABASE";
  "DATASESSION"; "DATE"; "DBF"; "DEACTIVATE"; "DEBUG"; "DEBUGOUT"; "DECLARE"; "DEFAULT"; "DEFINE"; "DELETE"; "DELETED"; "DESCENDING"; "DIMENSION"; "DISTINCT"; "DLLS";
  "DO"; "DOEVENTS"; "DROP"; "EACH"; "ELIF"; "ELSE"; "ENCRYPT"; "ENDCASE"; "ENDDEFINE"; "ENDDO"; "ENDFOR"; "ENDIF"; "ENDPROC"; "ENDSCAN"; "ENDTEXT"; "ENDTRY"; "ENDWITH";
  "ERASE"; "ERROR"; "ESCAPE"; "EVENTS"; "EXACT"; "EXCEPT"; "EXCLUSIVE"; "EXTENDED"; "EXTERNAL"; "FIELDS"; "FILE"; "FILL"; "FILTER"; "FINALLY"; "FLAGS"; "FONT"; "FOR";
  "FORCE"; "FORM"; "FOXOBJECT"; "FOXPLUS"; "FREE"; "FROM"; "GATHER"; "GETS"; "GOTO"; "HELP"; "HIDE"; "ICON"; "IF"; "IFDEF"; "IN"; "INCLUDE"; "INDEX"; "INDEXES"; "INSERT";
  "INTO"; "JOIN"; "KEY"; "KEYBOARD"; "LABEL"; "LIBRARY"; "LIKE"; "LINE"; "LINKED"; "LIST"; "LOCATE"; "MACROS"; "MARGIN"; "MARK"; "MASTER"; "MAX"; "MEMO"; "MEMORY";
  "MEMOWIDTH"; "MEMVAR"; "MENU"; "MENUS"; "MESSAGE"; "MIN"; "MKDIR"; "MODIFY"; "MULTILOCKS"; "NAME"; "NEAR"; "NEGOTIATE"; "NEXT"; "NOCLEAR"; "NOCONSOLE"; "NODEBUG";
  "NOEJECT"; "NOMARGIN"; "NOMENU"; "NOOPTIMIZE"; "NOPROMPT"; "NORM"; "NOSAVE"; "NOSHOW"; "NOT"; "NOTE"; "NOTIFY"; "NOUPDATE"; "NOWAIT"; "NULL"; "NUMBER"; "OBJECT"; "OF";
  "OFF"; "ON"; "OR"; "ORDER"; "OTHERWISE"; "PACK"; "PAD"; "PARAMETER"; "PLAIN"; "POP"; "POPUP"; "PRETEXT"; "PRINTER"; "PROCEDURE"; "PROGRAM"; "PROGRAMCONTROL"; "PROMPT";
  "PUSH"; "READ"; "RECALL"; "RECORD"; "RECYCLE"; "REFERENCE"; "REFRESH"; "REINDEX"; "RELATION"; "RELATIVE"; "RELEASE"; "RENAME"; "REPLACE"; "REPORT"; "RESOURCES"; "REST";
  "RESTORE"; "RETRY"; "RETURN"; "RMDIR"; "ROLLOVER"; "RUN"; "SAFETY"; "SAME"; "SAVE"; "SAY"; "SCAN"; "SCATTER"; "SCHEME"; "SCOPE"; "SCREEN"; "SEEK"; "SELECT";
  "SELECTION"; "SET"; "SHADOW"; "SHARED"; "SHOW"; "SHUTDOWN"; "SIZE"; "SKIPKW"; "SORT"; "STATUS"; "STEP"; "STORE"; "STRUCTURE"; "STYLE"; "SUM"; "SYSMENU"; "SYSTEM";
  "TABLE"; "TABLEPROMPT"; "TAG"; "TALK"; "TEXT"; "TEXTMERGE"; "THEN"; "THROW"; "TIMEOUT"; "TITLE"; "TO"; "TOP"; "TRY"; "TYPE"; "TYPEAHEAD"; "UDFPARMS"; "UNDEFINE";
  "UNIQUE"; "UNLOCK"; "UPDATE"; "USE"; "VALUE"; "VALUES"; "WAIT"; "WHEN"; "WHERE"; "WHILE"; "WINDOW"; "WITH"; "ZAP"; "ZOOM"]%string.
(** The binary operators with their precedence, VisualFoxpro9Parser.py:12759-12875; operationExpr and visitComparison, vfp2py_convert_visitor.py:594-618, 1207-1252 *)
Definition operators : list (string * (nat * (ctx -> ctx -> ctx))) := [
  ("CARAT", (10%nat, CBin OPow)); ("ASTERISK", (9%nat, CBin OMul)); ("FORWARDSLASH", (9%nat, CBin ODiv)); ("MODULO", (8%nat, CBin OMod));
  ("PLUS_SIGN", (7%nat, CBin OAdd)); ("MINUS_SIGN", (7%nat, CBin OSub));
  ("DOUBLEEQUALS", (6%nat, CCmp OEq)); ("EQUALS", (6%nat, CCmp OEq)); ("NOTEQUALS", (6%nat, CCmp ONe)); ("HASH", (6%nat, CCmp ONe)); ("GREATERTHAN", (6%nat, CCmp OGt));
  ("GTEQ", (6%nat, CCmp OGe)); ("LESSTHAN", (6%nat, CCmp OLt)); ("LTEQ", (6%nat, CCmp OLe)); ("DOLLAR", (6%nat, CCmp OIn));
  ("OTHERAND", (5%nat, CAnd)); ("AND", (5%nat, CAnd)); ("OTHEROR", (4%nat, COr)); ("OR", (4%nat, COr))]%string.
Fixpoint lookup {A} (k : string) (l : list (string * A)) : option A := match l with [] => None | (x, a) :: l => if String.eqb x k then Some a else lookup k l end.
Definition binop (ts : list ptok) : option (nat * (ctx -> ctx -> ctx) * list ptok) :=
  match ts with
  | [] => None
  | t :: ts =>
      match ts with
      | t2 :: ts2 => if is_kind t "ASTERISK" && is_kind t2 "ASTERISK" then Some (10%nat, CBin OPow, ts2) else option_map (fun p => (p, ts)) (lookup (kind t) operators)
      | [] => option_map (fun p => (p, ts)) (lookup (kind t) operators)
      end
  end.
(* the text of a string up to its closing quote, g4:415; visitString, vfp2py_convert_visitor.py:1204-1205 *)
Fixpoint until (q : string) (ts : list ptok) : option (pystr * list ptok) :=
  match ts with
  | [] => None
  | t :: ts =>
      if is_kind t q then Some (before t, ts)
      else if is_kind t "NL" then None
      else match until q ts with Some (s, r) => Some (before t ++ txt t ++ s, r) | None => None end
  end.
(* symbol.text.lower() *)
Definition lower_text (s : pystr) : pystr := map lower_char s.
(* visitIdentifier, vfp2py_convert_visitor.py:1396-1402 *)
Definition lower_name (s : pystr) : pystr := let n := lower_text s in if pystr_eqb n (u "class") then u "classtype" else n.
(* the alternatives of expr that begin an expression, VisualFoxpro9Parser.py:12638-12741; g4:334-336, 344-346 *)
Definition primary (expr : nat -> list ptok -> option (ctx * list ptok)) (args : list ptok -> option (list ctx * list ptok)) (ts : list ptok) : option (ctx * list ptok) :=
  match ts with
  | [] => None
  | t :: r =>
      if is_kind t "LEFTPAREN" then
        match expr 0%nat r with Some (e, c :: r) => if is_kind c "RIGHTPAREN" then Some (CSub e, r) else None | _ => None end
      else if one_of t ["PLUS_SIGN"; "MINUS_SIGN"]%string then
        match expr 12%nat r with Some (e, r) => Some (CSign (is_kind t "MINUS_SIGN") e, r) | None => None end
      else if one_of t ["EXCLAMATION"; "NOT"; "OTHERNOT"]%string then
        match expr 11%nat r with Some (e, r) => Some (CNot e, r) | None => None end
      else if is_kind t "NUMBER_LITERAL" then
        match int_text (txt t) with Some n => Some (CInt n, r) | None => None end
      else if is_kind t "PERIOD" then
        match r with
        | b :: c :: r =>
            if is_kind c "PERIOD" then
              if is_kind b "NULL" then Some (CNull, r)
              else if is_kind b "BOOLEANCHAR" then match visit_bool (Some (txt b)) with Ok (Some v) => Some (CBool v, r) | _ => None end
              else None
            else None
        | _ => None
        end
      else if is_kind t "NULL" then Some (CNull, r)
      else if one_of t ["SINGLEQUOTE"; "DOUBLEQUOTE"]%string then
        match until (kind t) r with Some (s, r) => Some (CStr s, r) | None => None end
      else if one_of t identifiers then
        match r with
        | c :: r' =>
            if is_kind c "LEFTPAREN" then
              match r' with
              | d :: r'' => if is_kind d "RIGHTPAREN" then Some (CCall (M_Call.resolve (lower_name (txt t))) [], r'')
                            else match args r' with Some (l, r) => Some (CCall (M_Call.resolve (lower_name (txt t))) l, r) | None => None end
              | [] => None
              end
            else if one_of c ["LEFTBRACKET"; "PERIOD"]%string then None
            else Some (CVar (lower_name (txt t)), r)
        | [] => Some (CVar (lower_name (txt t)), r)
        end
      else None
  end.
(* expr, VisualFoxpro9Parser.py:12629-12890: an operand, then operators as long as they bind at least as tightly as p; args, g4:321-324 *)
Fixpoint parse_expr (f : nat) (p : nat) (ts : list ptok) {struct f} : option (ctx * list ptok) :=
  match f with
  | O => None
  | S f => match primary (parse_expr f) (parse_args f) ts with Some (t, ts) => parse_ops f p t ts | None => None end
  end
with parse_ops (f : nat) (p : nat) (operand : ctx) (ts : list ptok) {struct f} : option (ctx * list ptok) :=
  match f with
  | O => None
  | S f =>
      match binop ts with
      | Some (l, node, r) =>
          if (p <=? l)%nat then match parse_expr f (S l) r with Some (e, r) => parse_ops f p (node operand e) r | None => None end
          else Some (operand, ts)
      | None => Some (operand, ts)
      end
  end
with parse_args (f : nat) (ts : list ptok) {struct f} : option (list ctx * list ptok) :=
  match f with
  | O => None
  | S f =>
      match parse_expr f 0%nat ts with
      | Some (e, c :: r) =>
          if is_kind c "COMMA" then match parse_args f r with Some (l, r) => Some (e :: l, r) | None => None end
          else if is_kind c "RIGHTPAREN" then Some ([e], r)
          else None
      | _ => None
      end
  end.
Definition expression (ts : list ptok) : option (ctx * list ptok) := parse_expr (2 * length ts + 2) 0%nat ts.
(* an expression that is the whole of a text *)
Definition read_expr (s : pystr) : option ctx := match expression (stream [] (tokens s)) with Some (t, []) => Some t | _ => None end.
