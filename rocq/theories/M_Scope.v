(** The flag PythonConvertVisitor.scope: visit_with_disabled_scope, vfp2py/vfp2py_convert_visitor.py:145-149, and the visits of names that use it,
    visitIdAttr, visitAtomExpr, visitFuncCallTrailer, visitIdentTrailer and createIdAttr (:989-1030, 1096-1119), scopeId (:972-987) and visitLine (:189-202).

    Simplified: a name is a valid Python name in small letters, not this or thisform; the arguments of a call are expressions of the same kind; a name
    with one list of arguments is written F.name(...) for every name (func_call knows many names); WITH blocks (C47) are left out. *)
From Verif Require Import PyBase PyStr M_Lit M_Stmt.
Open Scope Z_scope.

(* EBad: something whose visit raises, such as the date {^2001-13-01} (:1197) *)
Inductive ex := EBad | EId (n : pystr) (t : trailer)
with trailer := TNone | TAttr (n : pystr) (t : trailer) | TArgs (l : exs) (t : trailer)
with exs := XNil | XCons (e : ex) (l : exs).
(* the trailer visited: names and lists of arguments *)
Inductive part := PName (n : pystr) | PArgs (l : list pystr).
Definition part_code (p : part) : pystr := match p with PName n => u "." ++ n | PArgs l => make_func_code [] l end.
Definition scope_id (scope : bool) (n : pystr) : pystr := if scope then u "S." ++ n else n.
(* createIdAttr, the cases for a call and for everything else *)
Definition create_id (scope : bool) (n : pystr) (t : list part) : pystr :=
  match t with
  | [PArgs l] => make_func_code (u "F." ++ n) l
  | _ => scope_id scope n ++ concat (map part_code t)
  end.
(* Every visit gives its result and the flag after it *)
Fixpoint visit (e : ex) (scope : bool) : res pystr * bool :=
  match e with
  | EBad => (Err ValueError, scope)
  | EId n t => match visit_trailer t scope with
               | (Ok t, scope) => (Ok (create_id scope n t), scope)
               | (Err x, scope) => (Err x, scope)
               end
  end
with visit_trailer (t : trailer) (scope : bool) : res (list part) * bool :=
  match t with
  | TNone => (Ok [], scope)
  | TAttr n t => match visit_trailer t scope with
                 | (Ok l, _) => (Ok (PName n :: l), true)              (* visit_with_disabled_scope leaves the flag set *)
                 | r => r
                 end
  | TArgs l t => match visit_trailer t scope with
                 | (Ok p, scope) => match visit_list l scope with
                                    | (Ok a, scope) => (Ok (PArgs a :: p), scope)
                                    | (Err x, scope) => (Err x, scope)
                                    end
                 | r => r
                 end
  end
with visit_list (l : exs) (scope : bool) : res (list pystr) * bool :=
  match l with
  | XNil => (Ok [], scope)
  | XCons e l => match visit e scope with
                 | (Ok c, scope) => match visit_list l scope with (Ok r, scope) => (Ok (c :: r), scope) | r => r end
                 | (Err x, scope) => (Err x, scope)
                 end
  end.
(* visit_with_disabled_scope *)
Definition disabled {A} (v : bool -> res A * bool) : res A * bool := match v false with (Ok a, _) => (Ok a, true) | r => r end.
(** A statement: expressions (an assignment, a command), or names such as those of RELEASE or LOCAL, followed by expressions *)
Inductive sstmt := Stmt (names : option exs) (es : exs).
Definition visit_stmt (s : sstmt) (scope : bool) : res (list pystr * list pystr) * bool :=
  let '(Stmt names es) := s in
  match match names with Some l => disabled (visit_list l) | None => (Ok [], scope) end with
  | (Ok ns, scope) => match visit_list es scope with (Ok cs, scope) => (Ok (ns, cs), scope) | (Err x, scope) => (Err x, scope) end
  | (Err x, scope) => (Err x, scope)
  end.
(* visitLines and visitLine: a statement that raises becomes a comment (C92) and the next one is visited *)
Fixpoint visit_stmts (l : list sstmt) (scope : bool) : list (res (list pystr * list pystr)) :=
  match l with [] => [] | s :: l => let (r, scope) := visit_stmt s scope in r :: visit_stmts l scope end.
