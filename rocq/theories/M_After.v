(** Program files with remarks and empty lines between the functions: the rule funcDef with the lineComment* after ENDPROC, VisualFoxpro9.g4:79-81, and visitPrg, vfp2py_convert_visitor.py:171-182, which writes
    them after the function.  The rest is M_ParseProg, M_Core and M_Prg. *)
From Verif Require Import PyBase PyStr M_Lexer S_Py M_Lit M_Conv M_Stmt M_Program M_Show M_Core M_Parse M_ParseProg M_Prg.
From Verif Require M_Comment.
Open Scope Z_scope.

Section parser.
Variable functions : pystr -> bool.
(* lineComment*, g4:29-32; visitLineComment, vfp2py_convert_visitor.py:204-217 *)
Fixpoint p_remarks (n : nat) (ts : list ptok) : option (list pystr * list ptok) :=
  match n, ts with
  | _, [] => Some ([], [])
  | O, _ => None
  | S n, t :: r =>
      if is_kind t "NL" then bind (p_remarks n r) (fun '(l, r) => Some (M_Comment.comment_code (txt t) ++ l, r))
      else if one_of t ["ASTERISK"; "NOTE"]%string then bind (line_text r) (fun '(s, r) => bind (p_remarks n r) (fun '(l, r) => Some (M_Comment.comment_code (txt t ++ s) ++ l, r)))
      else Some ([], ts)
  end.
(* funcDef, g4:79-81; without ENDPROC the remarks are lines of the function, and none are left here *)
Definition p_func_after (ts : list ptok) : option ((proc * list pystr) * list ptok) := bind (p_func functions ts) (fun '(f, r) => bind (p_remarks (length r) r) (fun '(c, r) => Some ((f, c), r))).
(* prg, g4:24-26 *)
Fixpoint p_funcs_after (n : nat) (ts : list ptok) : option (list (proc * list pystr)) :=
  match ts, n with
  | [], _ => Some []
  | _, O => None
  | _, S n => bind (p_func_after ts) (fun '(f, r) => bind (p_funcs_after n r) (fun l => Some (f :: l)))
  end.
End parser.
(* the names of the functions first, vfp2py_convert_visitor.py:160-161, as in M_ParseProg *)
Definition parse_after (ts : list ptok) : option (list (proc * list pystr)) :=
  bind (p_funcs_after (fun _ => true) (length ts) ts) (fun l => p_funcs_after (fun f => existsb (pystr_eqb f) (map (fun g => p_name (fst g)) l)) (length ts) ts).
Definition read_after (s : pystr) : option (list (proc * list pystr)) := parse_after (stream [] (tokens s)).
(* prg2py, vfp2py.py:495-498 *)
Definition read_prg_after (ev : pystr -> res bool) (s : pystr) : option (list (proc * list pystr)) := match prep_text ev s with Some (Ok t) => read_after (main_header ++ t) | _ => None end.
(* visitPrg, vfp2py_convert_visitor.py:171-182 *)
Fixpoint visit_after (w : pystr) (l : list (func * list pystr)) : list item :=
  match l with
  | [] => []
  | (f, c) :: l =>
      let '(b, w) := lines w (f_body f) in
      Ln (u "@" ++ f_decorator f) :: Ln (u "def " ++ f_name f ++ u "():") :: Bl b :: map Ln c ++ visit_after w l
  end.
Definition after_text (lib : pystr -> bool) (printable : Z -> bool) (l : list (proc * list pystr)) : pystr := add_indents (visit_after [] (map (fun '(f, c) => (compile_proc lib printable f, c)) l)) 0.
Definition prg_after_text (lib : pystr -> bool) (printable : Z -> bool) (l : list (proc * list pystr)) : pystr := after_text lib printable (combine (main_first (map fst l)) (map snd l)).
