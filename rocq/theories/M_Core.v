(** Programs of assignments to variables, IF, DO CASE, DO WHILE, FOR, EXIT, LOOP, calls of functions of the file, RETURN and comments, converted down to their text: the expressions by M_Conv, their
    text by M_Show, the lines and blocks by M_Stmt.  Names are those the visitor has made lower case (visitIdentifier, vfp2py_convert_visitor.py:1396-1402). *)
From Verif Require Import PyBase PyStr S_Py M_Lit M_Stmt M_Program M_Conv M_Show.
Open Scope Z_scope.

(* VisualFoxpro9.g4:36-40, 82-146, 258-262 *)
(** What becomes of the value of a call: it is stored, forgotten or returned *)
Inductive goal := Into (x : pystr) | Nowhere | Answer.
Inductive cstmt :=
| KLet (x : pystr) (t : ctx)
| KIf (c : ctx) (a : clines) (b : copt)
| KCase (c : ctx) (a : clines) (more : ccases) (other : copt)
| KWhile (c : ctx) (b : clines)
| KFor (x : pystr) (from to : ctx) (step : option ctx) (b : clines)
| KExit | KLoop
| KCall (g : goal) (f : pystr) (args : list ctx)       (* x = f(args); f(args), = f(args) or DO f WITH args; RETURN f(args); f is a function of the file *)
| KReturn (t : ctx)
| KLeave                                               (* RETURN alone *)
| KNote (ls : list pystr)
with clines := KNil | KCons (s : cstmt) (l : clines)
with copt := KNone | KSome (l : clines)
with ccases := KNo | KOr (c : ctx) (a : clines) (more : ccases).

(* createIdAttr and scopeId, vfp2py_convert_visitor.py:971-1006 *)
Definition var (x : pystr) : list tok := [Id (u "S"); Dot; Id x].
Section compile.
Variable lib : pystr -> bool.
Variable printable : Z -> bool.
Definition expr_text (t : ctx) : pystr := text printable (M_Conv.code lib t).
(* func_call, :654-655; visitFuncDo, :1281-1283 *)
Definition call_text (g : goal) (f : pystr) (args : list ctx) : pystr :=
  let call := func_code [Id f] (map (convert lib) args) in
  match g with
  | Into x => stmt_text printable (assign (var x) call)                                                      (* visitAssign, :565-585 *)
  | Nowhere => text printable (repr call)                                                                    (* visitAtomExpr, :1096-1122, and exprCmd, VisualFoxpro9.g4:235 *)
  | Answer => return_text (Some (text printable (repr call)))                                                  (* visitReturnStmt, :1907-1910 *)
  end.
Fixpoint compile (s : cstmt) : fstmt :=
  match s with
  | KLet x t => FCmd [Txt (stmt_text printable (assign (var x) (convert lib t)))]                            (* visitAssign, :565-585 *)
  | KIf c a b => FIf [Txt (expr_text c)] (compiles a) (compileo b)                                           (* visitIfStmt, :427-437 *)
  | KCase c a more other => FCase [] (CCons [Txt (expr_text c)] (compiles a) (compilec more)) (compileo other)   (* visitCaseStmt, :439-456 *)
  | KWhile c b => FWhile [Txt (expr_text c)] (compiles b)                                                    (* visitWhileStmt, :476-480 *)
  | KFor x from to step b =>                                                                                 (* visitForStart, :462-471 *)
      FFor [Txt (for_text printable (var x) (for_range (convert lib from) (convert lib to) (option_map (convert lib) step)))] (compiles b)
  | KExit => FExit
  | KLoop => FLoop
  | KCall g f args => FCmd [Txt (call_text g f args)]
  | KReturn t => FCmd [Txt (return_text (Some (expr_text t)))]                                               (* visitReturnStmt, :1907-1910 *)
  | KLeave => FCmd [Txt (return_text None)]                                                                  (* visitReturnStmt, :1907-1910 *)
  | KNote ls => FComment ls
  end
with compiles (l : clines) : flines := match l with KNil => FNil | KCons s l => FCons (compile s) (compiles l) end
with compileo (o : copt) : fopt := match o with KNone => FNone | KSome l => FSome (compiles l) end
with compilec (l : ccases) : fcases := match l with KNo => CNil | KOr c a l => CCons [Txt (expr_text c)] (compiles a) (compilec l) end.
(* visitLines, :219-225, and add_indents, vfp2py.py:123-132 *)
Definition core_text (l : clines) : pystr := add_indents (fst (lines [] (compiles l))) 0.
(** ** Functions *)
(* FUNCTION name / LPARAMETERS params / lines LOCAL with their names / body, VisualFoxpro9.g4:31, 43-58 *)
Record proc := { p_name : pystr; p_params : list pystr; p_declared : list (list pystr); p_body : clines }.
Definition p_locals (f : proc) : list pystr := concat (p_declared f).
(* make_func_code with strings, :106-113 *)
Definition strings_call (f : list tok) (names : list pystr) : pystr := text printable (repr (func_code f (map VStr names))).
(* visitFuncDef, :376-404; visitDeclaration of LOCAL, :530-551 *)
Definition compile_proc (f : proc) : func := {|
  f_decorator := strings_call [Id (u "lparameters")] (p_params f);
  f_name := p_name f;
  f_body := fold_right (fun l b => FCons (FCmd [Txt (strings_call [Id (u "M"); Dot; Id (u "add_local")] l)]) b) (compiles (p_body f)) (p_declared f)
|}.
(* visitPrg, :171-182, without the imports *)
Definition file_text (fs : list proc) : pystr := program_text (map compile_proc fs).
End compile.
