(** ?, ??, DEBUGOUT and @: vfp2py_convert_visitor.py:154-157, 406-422, and what the emitted Python prints.
    Values are texts and truth values; a text in the emitted code stands for the expression that gives it. *)
From Verif Require Import PyBase PyStr.
Open Scope Z_scope.
Open Scope res_scope.

Inductive pval := PText (s : pystr) | PBool (b : bool).
Definition py_show (v : pval) : pystr := match v with PText s => s | PBool true => u "True" | PBool false => u "False" end.
(** the statements: `?` and `??` with values; DEBUGOUT; @ with its position, its SAY clauses, whether it is a CLEAR, and its own text *)
Inductive pstmt := Ask (twice : bool) (vs : list pval) | DebugOut (vs : list pval) | AtPos (pos : list Z) (clear : bool) (says : list pval) (src : pystr).
(** a call of print: arguments, `end`, whether `file=sys.stderr`, and what follows the call on its line *)
Record call := mkCall { c_args : list pval; c_end : option pystr; c_err : bool; c_rest : pystr }.
Definition visit_print (s : pstmt) : res call :=
  match s with
  | Ask twice vs => Ok (mkCall vs (if twice then Some [] else None) false [])
  | DebugOut vs => Ok (mkCall vs None true [])
  | AtPos _ _ says src =>
      if 1 <? zlen says then Err GenericException
      else Ok (mkCall says None false (u " # " ++ src))
  end.
(** Python: print writes its arguments with a blank between them, and then `end` *)
Fixpoint blanks (l : list pystr) : pystr := match l with [] => [] | [x] => x | x :: r => x ++ 32 :: blanks r end.
Definition print_out (c : call) : pystr := blanks (map py_show (c_args c)) ++ match c_end c with Some e => e | None => [10] end.
(** what the program writes to sys.stdout and sys.stderr.  A comment that has a line break makes the next line of the module FoxPro text:
    a SyntaxError (ValueError here), and nothing runs. *)
Definition one_line (c : call) : bool := negb (existsb (Z.eqb 10) (c_rest c)).
Fixpoint calls (p : list pstmt) : res (list call) := match p with [] => Ok [] | s :: r => do c <- visit_print s; do l <- calls r; Ok (c :: l) end.
Definition run_print (p : list pstmt) : res (pystr * pystr) :=
  do l <- calls p;
  if forallb one_line l then Ok (concat (map print_out (filter (fun c => negb (c_err c)) l)), concat (map print_out (filter c_err l)))
  else Err ValueError.
