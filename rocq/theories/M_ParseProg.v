(** The parser for programs and files of functions: the rules lines, line, lineComment, funcDef and those statements of VisualFoxpro9.g4:24-151, 153, 161, 235-236 that M_Core has, with what the visitor
    takes from their nodes.

    Where the alternatives of a rule overlap, ANTLR takes the first that fits: a name and = is an assignment whatever the name, but after NOTE (a comment) and DO (the name of a program).
    Left out, as a failure: all other statements; call statements whose name is a keyword; DO CASE without a CASE or with comments before the first; PARAMETERS; comments between the header of a function and its
    declarations, and after ENDPROC (M_After); declarations of arrays, and types that are not one name. *)
From Verif Require Import PyBase PyStr M_Lexer S_Py M_Lit M_Conv M_Stmt M_Program M_Show M_Core M_Parse.
From Verif Require M_Comment M_Call.
Open Scope Z_scope.

Definition next_is (k : string) (ts : list ptok) : bool := match ts with t :: _ => is_kind t k | [] => false end.
(* lineEnd, g4:40-43 *)
Definition line_end (ts : list ptok) : option (list ptok) := match ts with [] => Some [] | t :: r => if is_kind t "NL" then Some r else None end.
(* a keyword and the end of the line *)
Definition keyword (k : string) (ts : list ptok) : option (list ptok) := match ts with t :: r => if is_kind t k then Some r else None | [] => None end.
Definition bind {A B} (o : option A) (k : A -> option B) : option B := match o with Some a => k a | None => None end.
(* (~NL)* NL, as getCtxText gives it (vfp2py_convert_visitor.py:154-157) *)
Fixpoint line_text (ts : list ptok) : option (pystr * list ptok) :=
  match ts with
  | [] => None
  | t :: r => if is_kind t "NL" then Some (before t ++ txt t, r) else match line_text r with Some (s, r) => Some (before t ++ txt t ++ s, r) | None => None end
  end.
(* the tokens that can only end a block, unless = follows *)
Definition block_ends : list string := ["ENDIF"; "ELSE"; "ENDDO"; "ENDFOR"; "NEXT"; "CASE"; "OTHERWISE"; "ENDCASE"; "ENDPROC"; "PROCEDURE"]%string.
Definition block_end (ts : list ptok) : bool := match ts with t :: r => one_of t block_ends && negb (next_is "EQUALS" r) | [] => true end.
Section parser.
(* function_list, vfp2py_convert_visitor.py:160-161 *)
Variable functions : pystr -> bool.
(* func_call, :652-655: DODEFAULT is never a function of the file.
   Calls of functions of the file inside other expressions are not told apart (C115 excludes them). *)
Definition call_of (e : ctx) : option (pystr * list ctx) :=
  match e with CCall f l => if negb (pystr_eqb f (u "dodefault")) && functions f then Some (f, l) else None | _ => None end.
(* visitAssign, :565-585; visitReturnStmt, :1907-1910 *)
Definition assignment (x : pystr) (e : ctx) : cstmt := match call_of e with Some (f, l) => KCall (Into x) f l | None => KLet x e end.
Definition answer (e : ctx) : cstmt := match call_of e with Some (f, l) => KCall Answer f l | None => KReturn e end.
(* args, g4:320-323, without missing arguments *)
Fixpoint p_exprs (n : nat) (ts : list ptok) : option (list ctx * list ptok) :=
  match n with
  | O => None
  | S n => bind (expression ts) (fun '(e, r) => if next_is "COMMA" r then bind (p_exprs n (tl r)) (fun '(l, r) => Some (e :: l, r)) else Some ([e], r))
  end.
Fixpoint p_line (f : nat) (ts : list ptok) {struct f} : option (cstmt * list ptok) :=
  match f, ts with
  | S f, t :: r =>
      if is_kind t "NL" then Some (KNote (M_Comment.comment_code (txt t)), r)                                     (* lineComment, g4:29-32; visitLineComment, :204-217 *)
      else if one_of t ["ASTERISK"; "NOTE"]%string then bind (line_text r) (fun '(s, r) => Some (KNote (M_Comment.comment_code (txt t ++ s)), r))
      else if one_of t identifiers && negb (is_kind t "DO") && next_is "EQUALS" r then                            (* assign, g4:153 *)
        bind (expression (tl r)) (fun '(e, r) => bind (line_end r) (fun r => Some (assignment (lower_name (txt t)) e, r)))
      else if is_kind t "IF" then                                                                                 (* ifStart, ifStmt, g4:83-89; :427-437 *)
        bind (expression r) (fun '(c, r) => bind (keyword "NL" (if next_is "THEN" r then tl r else r)) (fun r => bind (p_lines f r) (fun '(a, r) =>
          if next_is "ELSE" r then
            bind (keyword "NL" (tl r)) (fun r => bind (p_lines f r) (fun '(b, r) => bind (keyword "ENDIF" r) (fun r => bind (line_end r) (fun r => Some (KIf c a (KSome b), r)))))
          else bind (keyword "ENDIF" r) (fun r => bind (line_end r) (fun r => Some (KIf c a KNone, r))))))
      else if is_kind t "DO" && next_is "CASE" r then                                                             (* caseStmt, g4:112-114; :439-456 *)
        bind (keyword "NL" (tl r)) (fun r => bind (p_cases f r) (fun '(l, r) =>
          match l with
          | KNo => None
          | KOr c a more =>
              if next_is "OTHERWISE" r then                                                                       (* otherwise, g4:108-110 *)
                bind (keyword "NL" (tl r)) (fun r => bind (p_lines f r) (fun '(b, r) => bind (keyword "ENDCASE" r) (fun r => bind (line_end r) (fun r => Some (KCase c a more (KSome b), r)))))
              else bind (keyword "ENDCASE" r) (fun r => bind (line_end r) (fun r => Some (KCase c a more KNone, r)))
          end))
      else if is_kind t "WHILE" || is_kind t "DO" && next_is "WHILE" r then                                       (* whileStart, whileStmt, g4:116-122; :473-477 *)
        bind (expression (if is_kind t "DO" then tl r else r)) (fun '(c, r) => bind (keyword "NL" r) (fun r => bind (p_lines f r) (fun '(b, r) =>
          bind (keyword "ENDDO" r) (fun r => bind (line_end r) (fun r => Some (KWhile c b, r))))))
      else if is_kind t "FOR" then                                                                                (* forStart, forStmt, forEnd, g4:91-102; :462-474 *)
        match r with
        | x :: r =>
            if one_of x identifiers && next_is "EQUALS" r then
              bind (expression (tl r)) (fun '(from, r) => bind (keyword "TO" r) (fun r => bind (expression r) (fun '(to, r) =>
                bind (if next_is "STEP" r then bind (expression (tl r)) (fun '(e, r) => Some (Some e, r)) else Some (None, r)) (fun '(step, r) =>
                  bind (keyword "NL" r) (fun r => bind (p_lines f r) (fun '(b, r) =>
                    bind (if next_is "NEXT" r then match tl r with y :: r => if one_of y identifiers then Some r else Some (y :: r) | [] => Some [] end else keyword "ENDFOR" r) (fun r =>
                      bind (line_end r) (fun r => Some (KFor (lower_name (txt x)) from to step b, r)))))))))
            else None
        | [] => None
        end
      else if is_kind t "PROGRAMCONTROL" then                                                                     (* programControl, g4:151; :515-522 *)
        bind (line_end r) (fun r =>
          if pystr_eqb (lower_text (txt t)) (u "exit") then Some (KExit, r) else if pystr_eqb (lower_text (txt t)) (u "loop") then Some (KLoop, r) else None)
      else if is_kind t "RETURN" then                                                                             (* returnStmt, g4:161; :1907-1910 *)
        match expression r with Some (e, r) => bind (line_end r) (fun r => Some (answer e, r)) | None => bind (line_end r) (fun r => Some (KLeave, r)) end
      else if is_kind t "EQUALS" then                                                                             (* exprCmd, g4:235 *)
        bind (expression r) (fun '(e, r) => bind (line_end r) (fun r => bind (call_of e) (fun '(f, l) => Some (KCall Nowhere f l, r))))
      else if is_kind t "ID" && next_is "LEFTPAREN" r then                                                        (* complexIdCmd, g4:236, 252-255; visitAtomExpr, :1096-1124 *)
        bind (expression ts) (fun '(e, r) => bind (line_end r) (fun r => bind (call_of e) (fun '(f, l) => Some (KCall Nowhere f l, r))))
      else if is_kind t "DO" then                                                                                 (* funcDo, g4:150-151; visitFuncDo, :1257-1283; TreeCleanVisitor, vfp2py.py:134-158 *)
        match r with
        | x :: r =>
            if one_of x identifiers && negb (one_of x ["FORM"; "NOT"; "NULL"]%string) && functions (lower_text (txt x)) then
              bind (if next_is "WITH" r then p_exprs (length r) (tl r) else Some ([], r)) (fun '(l, r) => bind (line_end r) (fun r => Some (KCall Nowhere (lower_text (txt x)) l, r)))
            else None
        | [] => None
        end
      else None
  | _, _ => None
  end
with p_lines (f : nat) (ts : list ptok) {struct f} : option (clines * list ptok) :=                               (* lines, nongreedyLines, g4:45-51 *)
  match f with
  | O => None
  | S f => if block_end ts then Some (KNil, ts) else bind (p_line f ts) (fun '(s, r) => bind (p_lines f r) (fun '(l, r) => Some (KCons s l, r)))
  end
with p_cases (f : nat) (ts : list ptok) {struct f} : option (ccases * list ptok) :=                               (* singleCase, g4:104-106 *)
  match f with
  | O => None
  | S f =>
      if next_is "CASE" ts then
        bind (expression (tl ts)) (fun '(c, r) => bind (keyword "NL" r) (fun r => bind (p_lines f r) (fun '(a, r) => bind (p_cases f r) (fun '(l, r) => Some (KOr c a l, r)))))
      else Some (KNo, ts)
  end.
Definition whole_lines (ts : list ptok) : option (clines * list ptok) := p_lines (2 * length ts + 1) ts.
(** ** Functions *)
(* parameters and declarationItem, g4:66-72, 304-306, with types that are one name; the types are not visited, :359-363, 556-557 *)
Fixpoint p_names (ts : list ptok) : option (list pystr * list ptok) :=
  match ts with
  | x :: r =>
      if one_of x identifiers then
        match r with
        | c :: r' =>
            if is_kind c "COMMA" then bind (p_names r') (fun '(l, r) => Some (lower_name (txt x) :: l, r))
            else if is_kind c "AS" then                                                                           (* asType, g4:308-310 *)
              match r' with
              | y :: d :: r'' => if one_of y identifiers then if is_kind d "COMMA" then bind (p_names r'') (fun '(l, r) => Some (lower_name (txt x) :: l, r)) else Some ([lower_name (txt x)], d :: r'') else None
              | _ => None
              end
            else Some ([lower_name (txt x)], r)
        | [] => Some ([lower_name (txt x)], [])
        end
      else None
  | [] => None
  end.
(* asType? with a type that is one name, g4:75-77 *)
Definition p_type (ts : list ptok) : option (list ptok) := if next_is "AS" ts then match tl ts with y :: r => if one_of y identifiers then Some r else None | [] => None end else Some ts.
(* ('(' parameters? ')')? asType? of funcDefStart, g4:75-77; visitFuncDefStart, :355-357 *)
Definition p_given (ts : list ptok) : option (list pystr * list ptok) :=
  if next_is "LEFTPAREN" ts then
    if next_is "RIGHTPAREN" (tl ts) then Some ([], tl (tl ts)) else bind (p_names (tl ts)) (fun '(l, r) => bind (keyword "RIGHTPAREN" r) (fun r => Some (l, r)))
  else Some ([], ts).
Definition p_header (ts : list ptok) : option (list pystr * list ptok) := bind (p_given ts) (fun '(l, r) => bind (p_type r) (fun r => Some (l, r))).
(* a declaration, g4:154, that begins with a token of kind k whose text begins with [first]; visitFuncDef, :379-390, visitDeclaration, :530-551 *)
Definition p_declaration (k : string) (named : pystr -> bool) (ts : list ptok) : option (list pystr * list ptok) :=
  match ts with
  | t :: r =>
      if is_kind t k && negb (next_is "EQUALS" r) then
        if named (lower_text (txt t)) && negb (match r with x :: _ => one_of x ["ARRAY"; "DIMENSION"; "DECLARE"]%string | [] => true end) then
          bind (p_names r) (fun '(l, r) => bind (line_end r) (fun r => Some (l, r)))
        else None
      else Some ([], ts)
  | [] => Some ([], ts)
  end.
Definition first_l (s : pystr) : bool := match s with c :: _ => c =? 108 | [] => false end.
(* the lines LOCAL at the beginning of a function *)
Fixpoint p_declares (n : nat) (ts : list ptok) : option (list (list pystr) * list ptok) :=
  if next_is "SCOPE" ts && negb (next_is "EQUALS" (tl ts)) then
    match n with
    | O => None
    | S n => bind (p_declaration "SCOPE" (fun s => pystr_eqb s (u "local")) ts) (fun '(l, r) => bind (p_declares n r) (fun '(ls, r) => Some (l :: ls, r)))
    end
  else Some ([], ts).
(* funcDef, g4:79-81; visitFuncDef, :376-404 *)
Definition p_func (ts : list ptok) : option (proc * list ptok) :=
  match ts with
  | t :: x :: r =>
      if is_kind t "PROCEDURE" && one_of x identifiers then
        bind (p_header r) (fun '(given, r) => bind (keyword "NL" r) (fun r =>
          bind (match given with [] => p_declaration "PARAMETER" first_l r | _ => if next_is "PARAMETER" r && negb (next_is "EQUALS" (tl r)) then None else Some (given, r) end) (fun '(params, r) =>
            bind (p_declares (length r) r) (fun '(locals, r) =>
              bind (whole_lines r) (fun '(body, r) =>
                let f := {| p_name := lower_name (txt x); p_params := params; p_declared := locals; p_body := body |} in
                if next_is "ENDPROC" r then bind (line_end (tl r)) (fun r => Some (f, r)) else Some (f, r))))))
      else None
  | _ => None
  end.
(* prg, g4:24-26 *)
Fixpoint p_funcs (f : nat) (ts : list ptok) : option (list proc) :=
  match ts, f with
  | [], _ => Some []
  | _, O => None
  | _, S f => bind (p_func ts) (fun '(p, r) => bind (p_funcs f r) (fun l => Some (p :: l)))
  end.
End parser.
(** The names of the functions are known before their bodies are visited, :160-161; here the parser runs twice, and finds them first. *)
Definition parse_file (ts : list ptok) : option (list proc) := bind (p_funcs (fun _ => true) (length ts) ts) (fun l => p_funcs (fun f => existsb (pystr_eqb f) (map p_name l)) (length ts) ts).
Definition read_lines (s : pystr) : option clines := match whole_lines (fun _ => false) (stream [] (tokens s)) with Some (l, []) => Some l | _ => None end.
Definition read_file (s : pystr) : option (list proc) := parse_file (stream [] (tokens s)).
