(** The conversion of statements: vfp2py_convert_visitor.py, visitLine .. visitTryStmt, and add_indents of vfp2py.py.

    The Python text of a command, a condition or a loop head is a template filled with leading-dot references (.name, resolved through
    WITH); everything else in it is opaque here (M_Conv.v has the expressions).  A statement whose conversion raises, or gives None,
    is [FFail] with its source lines.  Left out: the trailers of leading-dot references (calls, further names), so that a reference is
    just .name; several WHEN clauses of one CATCH (the code reads the first one). *)
From Verif Require Import PyBase PyStr.
Open Scope Z_scope.

(** A piece of the text of a command: fixed Python text, or .name *)
Inductive piece := Txt (s : pystr) | Dotted (s : pystr).
(** VisualFoxpro9.g4:36-40, 82-146 *)
Inductive fstmt :=
| FCmd (ps : list piece)
| FExit | FLoop                                                  (* PROGRAMCONTROL *)
| FComment (ls : list pystr)
| FFail (src : list pystr)
| FIf (c : list piece) (a : flines) (b : fopt)
| FCase (comments : list (list pystr)) (cs : fcases) (other : fopt)
| FFor (head : list piece) (body : flines)                        (* the text between for and : *)
| FScan (head : list piece) (body : flines)
| FWhile (c : list piece) (body : flines)
| FWith (obj : list piece) (body : flines)
| FTry (body : flines) (catch : fcatch) (fin : fopt)
with flines := FNil | FCons (s : fstmt) (l : flines)
with fopt := FNone | FSome (l : flines)
with fcases := CNil | CCons (c : list piece) (body : flines) (cs : fcases)
with fcatch := NoCatch | Catch (to : option pystr) (cond : option (list piece)) (body : flines).

(** The nested lists of code lines the visitor builds *)
Inductive item := Ln (s : pystr) | Bl (l : list item).

(** str.islower, for ASCII letters *)
Definition lower (c : Z) : bool := (97 <=? c) && (c <=? 122).
Definition upper (c : Z) : bool := (65 <=? c) && (c <=? 90).
Definition islower (s : pystr) : bool := existsb lower s && negb (existsb upper s).
(* valid_identifier, vfp2py_convert_visitor.py:126-127, for texts that are no Python keyword *)
Definition name_char (c : Z) : bool := lower c || upper c || ((48 <=? c) && (c <=? 57)) || (c =? 95).
Definition valid_identifier (s : pystr) : bool := match s with [] => false | _ => forallb name_char s end.
(* scopeId, vfp2py_convert_visitor.py:971-986 *)
Definition scope_id (s : pystr) : pystr :=
  if pystr_eqb s (u "this") then u "self"
  else if pystr_eqb s (u "thisform") then u "self.parentform"
  else if valid_identifier s then u "S." ++ s
  else u "S[" ++ s ++ u "]".
(* createIdAttr, vfp2py_convert_visitor.py:988-1006: the last lines *)
Definition id_attr (identifier : pystr) (trailer : list pystr) : pystr :=
  (if islower identifier then scope_id identifier else identifier) ++ concat (map (fun t => u "." ++ t) trailer).
(* visitIdAttr, vfp2py_convert_visitor.py:1025-1031 (visitAtomExpr:1090-1096 does the same): [w] is self.withid *)
Definition dotted (w s : pystr) : pystr :=
  match w with [] => id_attr s [] | _ => id_attr w [s] end.
Definition piece_text (w : pystr) (p : piece) : pystr := match p with Txt s => s | Dotted s => dotted w s end.
Definition code (w : pystr) (ps : list piece) : pystr := concat (map (piece_text w) ps).

(* badline, vfp2py_convert_visitor.py:221-222 *)
Definition badline (i : item) : bool :=
  match i with Ln [] => true | Ln (c :: _) => c =? 35 | Bl [] => true | Bl _ => false end.
(* visitLines, vfp2py_convert_visitor.py:219-225, after the lines have been visited *)
Definition pass_if_bad (l : list item) : list item := if forallb badline l then l ++ [Ln (u "pass")] else l.

(** Each visit returns its lines and the withid it leaves behind. *)
Fixpoint visit (w : pystr) (s : fstmt) {struct s} : list item * pystr :=
  match s with
  | FCmd ps => ([Ln (code w ps)], w)
  | FExit => ([Ln (u "break")], w)                                         (* visitProgramControl, :520-527 *)
  | FLoop => ([Ln (u "continue")], w)
  | FComment ls => (map Ln ls, w)                                          (* visitLineComment, :204-217 *)
  | FFail src => (map (fun l => Ln (u "#FIX ME: " ++ l)) src, w)           (* visitLine, :198-202 *)
  | FIf c a b =>                                                           (* visitIfStmt, :427-437 *)
      let head := code w c in
      let '(la, w) := lines w a in
      match b with
      | FNone => ([Ln (u "if " ++ head ++ u ":"); Bl la], w)
      | FSome b => let '(lb, w) := lines w b in ([Ln (u "if " ++ head ++ u ":"); Bl la; Ln (u "else:"); Bl lb], w)
      end
  | FCase comments cs other =>                                             (* visitCaseStmt, :439-456 *)
      let '(lc, w) :=
        match cs with
        | CNil => ([Ln (u "if True:"); Bl [Ln (u "pass")]], w)
        | CCons c body cs =>
            let head := code w c in
            let '(lb, w) := lines w body in
            let '(lr, w) := elifs w cs in
            (Ln (u "if " ++ head ++ u ":") :: Bl lb :: lr, w)
        end in
      let '(lo, w) := match other with FNone => ([], w) | FSome l => let '(lo, w) := lines w l in ([Ln (u "else:"); Bl lo], w) end in
      (map (fun c => Bl (map Ln c)) comments ++ lc ++ lo, w)
  | FFor head body =>                                                      (* visitForStmt, :462-474 *)
      let h := code w head in
      let '(l, w) := lines w body in ([Ln (u "for " ++ h ++ u ":"); Bl l], w)
  | FWhile c body =>                                                       (* visitWhileStmt, :476-480 *)
      let h := code w c in
      let '(l, w) := lines w body in ([Ln (u "while " ++ h ++ u ":"); Bl l], w)
  | FScan head body =>                                                     (* visitScanStmt, :488-495: the body is visited first *)
      let '(l, w) := lines w body in ([Ln (u "for " ++ code w head ++ u ":"); Bl l], w)
  | FWith obj body => let '(l, _) := lines (code w obj) body in (l, [])    (* visitWithStmt, :482-486 *)
  | FTry body catch fin =>                                                 (* visitTryStmt, :497-518 *)
      let '(lb, w) := lines w body in
      let '(lf, w) := match fin with FNone => ([], w) | FSome l => lines w l end in
      match catch with
      | NoCatch => (lb ++ lf, w)
      | Catch to cond handler =>
          let lt :=
            match to with
            | Some x => [Ln (u "except Exception as err:"); Bl [Ln (u "S." ++ x ++ u " = vfpfunc.Exception.from_pyexception(err)")]]
            | None => [Ln (u "except Exception:")]
            end in
          let lw := match cond with Some c => [Bl [Ln (u "if not (" ++ code w c ++ u "):"); Bl [Ln (u "raise")]]] | None => [] end in
          let '(lh, w) := lines w handler in
          (Ln (u "try:") :: Bl lb :: lt ++ lw ++ [Bl lh] ++ match lf with [] => [] | _ => [Ln (u "finally:"); Bl lf] end, w)
      end
  end
with visit_all (w : pystr) (l : flines) {struct l} : list item * pystr :=
  match l with
  | FNil => ([], w)
  | FCons s l => let '(a, w) := visit w s in let '(b, w) := visit_all w l in (a ++ b, w)
  end
with lines (w : pystr) (l : flines) {struct l} : list item * pystr :=
  match l with
  | FNil => (pass_if_bad [], w)
  | FCons s l => let '(a, w) := visit w s in let '(b, w) := visit_all w l in (pass_if_bad (a ++ b), w)
  end
with elifs (w : pystr) (cs : fcases) {struct cs} : list item * pystr :=
  match cs with
  | CNil => ([], w)
  | CCons c body cs =>
      let head := code w c in
      let '(lb, w) := lines w body in
      let '(lr, w) := elifs w cs in
      (Ln (u "elif " ++ head ++ u ":") :: Bl lb :: lr, w)
  end.

(* add_indents, vfp2py.py:123-132 *)
Fixpoint join (sep : pystr) (l : list pystr) : pystr := match l with [] => [] | [x] => x | x :: l => x ++ sep ++ join sep l end.
Fixpoint indent_item (n : nat) (i : item) : pystr :=
  match i with
  | Ln [] => []
  | Ln s => repeat 32 (4 * n) ++ s
  | Bl l => join [10] (map (indent_item (S n)) l)
  end.
Definition add_indents (l : list item) (n : nat) : pystr := join [10] (map (indent_item n) l).

(** A program: its functions (visitFuncDef, :377-405, visitPrg, :169-188; imports, classes and comments between functions are left out). *)
Record func := mkFunc { f_decorator : pystr; f_name : pystr; f_body : flines }.
Fixpoint visit_funcs (w : pystr) (l : list func) : list item :=
  match l with
  | [] => []
  | f :: l =>
      let '(b, w) := lines w (f_body f) in
      Ln (u "@" ++ f_decorator f) :: Ln (u "def " ++ f_name f ++ u "():") :: Bl b :: visit_funcs w l
  end.
Definition program_text (l : list func) : pystr := add_indents (visit_funcs [] l) 0.
