(** PROGRAM() of vfpfunc.py and RETURN of vfp2py_convert_visitor.py.

    Simplified: of a frame of Python's call stack only the file and the function name are kept; names are ASCII. *)
From Verif Require Import PyBase PyStr M_Stmt.
Open Scope Z_scope.

Record frame := { fr_file : pystr; fr_name : pystr }.
(* str.upper, ASCII *)
Definition up (c : Z) : Z := if lower c then c - 32 else c.
(* re.sub(r'.py$', '', file) for a file name without line breaks: a character and py at the end, vfpfunc.py:1409 *)
Definition without_py (f : pystr) : pystr :=
  match rev f with y :: p :: _ :: r => if (y =? 121) && (p =? 112) then rev r else f | _ => f end.
(* program, vfpfunc.py:1397-1410.  [trace] is traceback.extract_stack()[:-1]; the result is a number for a negative level. *)
Inductive answer := Name (s : pystr) | Level (n : Z).
Definition program (level : option Z) (trace : list frame) : res answer :=
  let name k :=
    if zlen trace <=? k then Ok (Name [])
    else rmap (fun f => Name (map up (if pystr_eqb (fr_name f) (u "_program_main") then without_py (fr_file f) else fr_name f))) (py_nth trace k) in
  match level with
  | None => name (-1)
  | Some k => if k <? 0 then Ok (Level (zlen trace - 1)) else if k =? 0 then name 1 else name k
  end.
(* Every converted procedure is decorated with parameters(...) or lparameters(...), whose scoper calls it, vfpfunc.py:1726-1771.
   functools.wraps and the assignment to __name__ do not change the name in the code object, which is what the stack shows. *)
Definition scoper : frame := {| fr_file := u "vfpfunc.py"; fr_name := u "scoper" |}.
(* the stack below PROGRAM(): what started the program, then for each active procedure its scoper and itself *)
Definition stack (start procs : list frame) : list frame := start ++ flat_map (fun p => [scoper; p]) procs.
(* visitPrg, vfp2py_convert_visitor.py:171-180: the name under which a procedure is defined.  The main program has been turned into
   the procedure _program_main by prg2py_after_preproc, vfp2py.py:495-531. *)
Definition def_name (first : bool) (name : pystr) : pystr := if first && pystr_eqb name (u "_program_main") then u "MAIN" else name.

(* visitReturnStmt, vfp2py_convert_visitor.py:1907-1910 *)
Definition return_text (e : option pystr) : pystr := match e with None => u "return" | Some t => u "return " ++ t end.
