(** Procedures and classes: visitFuncDef, visitClassDef and what they use, vfp2py_convert_visitor.py:145-149, 239-404, 530-585.

    The lines of a procedure are kept as they are (M_Stmt.v has their conversion); what matters here is which of them are comments and
    which declare parameters.  Visiting a procedure removes its PARAMETERS line from the parse tree (387-391), so a visit gives the tree
    back as well.  The text a value is converted to is given: v_first when names are not resolved (self.scope is False), v_text when they
    are; v_code tells whether it is a CodeStr, v_resets whether it contains something that visit_with_disabled_scope is called for (a name
    after a period, AS), which leaves self.scope True.  Names are in lower case already (visitIdentifier, 1396-1402).  Left out: targets
    with subscripts, STORE to several names, the text of CREATEOBJECT calls. *)
From Verif Require Import PyBase PyStr M_Stmt.
Open Scope Z_scope.

Inductive bline := BComment (text : pystr) | BParam (local : bool) (names : list pystr) | BOther (text : pystr).
Record fundef := Fun {
  f_name : list pystr;           (* idAttr2: the names between the periods *)
  f_params : list pystr;         (* those in parentheses *)
  f_lines : list bline;
  f_after : list pystr           (* comments after ENDPROC *)
}.
Record value := Val { v_first : pystr; v_text : pystr; v_code : bool; v_resets : bool }.
Inductive member :=
| MComment (text : pystr)
| MAssign (target : list pystr) (v : value)
| MAdd (name type : pystr) (args : list (pystr * pystr))
| MFunc (f : fundef)
| MOther (text : pystr).         (* any other command: HIDDEN, PROTECTED, DIMENSION, ... *)

(** What comes out: a function with its decorator (lparameters or parameters) *)
Record outfun := OFun { o_name : pystr; o_local : bool; o_params : list pystr; o_body : list bline }.
(** An object created in _assign, with the methods of the subclass made for it *)
Record outobj := OObj { ob_name : pystr; ob_type : pystr; ob_args : list (pystr * pystr); ob_funs : list outfun }.
Inductive aitem := IComment (text : pystr) | ICode (text : pystr) | IObj (o : outobj).
Record outclass := OClass { oc_assign : list aitem; oc_funs : list outfun }.

Fixpoint join (sep : pystr) (l : list pystr) : pystr := match l with [] => [] | [x] => x | x :: l => x ++ sep ++ join sep l end.

(* visitFuncDef, vfp2py_convert_visitor.py:376-404: the first line that is no comment, and the lines without it *)
Fixpoint take_param (l : list bline) : option (bool * list pystr * list bline) :=
  match l with
  | BComment t :: r => match take_param r with Some (k, ns, r) => Some (k, ns, BComment t :: r) | None => None end
  | BParam k ns :: r => Some (k, ns, r)
  | _ => None
  end.
Definition visit_fun (f : fundef) : outfun * fundef :=
  let name := join (u ".") (f_name f) in
  match f_params f with
  | _ :: _ => (OFun name true (f_params f) (f_lines f), f)
  | [] =>
      match take_param (f_lines f) with
      | Some (k, ns, r) => (OFun name k ns r, Fun (f_name f) [] r (f_after f))
      | None => (OFun name true [] (f_lines f), f)
      end
  end.

(* createIdAttr and scopeId, vfp2py_convert_visitor.py:972-1006, with self.scope *)
Definition target_text (scope : bool) (target : list pystr) : pystr :=
  match target with
  | [] => []
  | n :: t => if scope then id_attr n t else n ++ concat (map (fun t => u "." ++ t) t)
  end.
(* visitAssign, vfp2py_convert_visitor.py:565-585, for one target *)
Definition visit_assign (target text : pystr) (code : bool) : pystr :=
  match (if code then find (fun op => prefixb (target ++ [32] ++ op ++ [32]) text) [u "+"; u "-"; u "*"; u "/"] else None) with
  | Some op => target ++ [32] ++ op ++ u "= " ++ skipn (length target + 3) text
  | None => target ++ u " = " ++ text
  end.
(* visitClassAssign, vfp2py_convert_visitor.py:338-347, and visit_with_disabled_scope, :145-149: the value is visited first, then the
   names after the periods, then the target *)
Definition class_assign (target : list pystr) (v : value) : pystr * pystr :=
  let scope := v_resets v || (1 <? length target)%nat in
  let arg1 := visit_assign (target_text scope target) (v_first v) (v_code v) in
  let arg2 := visit_assign (target_text true target) (v_text v) (v_code v) in
  (py_slice arg1 None (Some (str_find arg1 (u " = "))), py_slice arg2 (Some (str_find arg2 (u " = "))) None).
Definition has_dot (s : pystr) : bool := existsb (Z.eqb 46) s.
(* s.split('.', 1) and s.rsplit('.', 1) *)
Fixpoint split_first (s : pystr) : pystr * pystr :=
  match s with [] => ([], []) | c :: s => if c =? 46 then ([], s) else let '(a, b) := split_first s in (c :: a, b) end.
Definition split_last (s : pystr) : pystr * pystr := let '(a, b) := split_first (rev s) in (rev b, rev a).

(** dictionaries, in the order of insertion *)
Fixpoint put_arg (l : list (pystr * pystr)) (k v : pystr) : list (pystr * pystr) :=
  match l with [] => [(k, v)] | (x, w) :: l => if pystr_eqb x k then (x, v) :: l else (x, w) :: put_arg l k v end.
Fixpoint put_fun (l : list outfun) (f : outfun) : list outfun :=
  match l with [] => [f] | g :: l => if pystr_eqb (o_name g) (o_name f) then f :: l else g :: put_fun l f end.

(* the functions visited in turn, vfp2py_convert_visitor.py:260-261, 279-280 *)
Fixpoint visit_funs (fs : list fundef) : list outfun * list fundef :=
  match fs with
  | [] => ([], [])
  | f :: fs => let '(o, f) := visit_fun f in let '(os, fs) := visit_funs fs in (o :: os, f :: fs)
  end.
(* vfp2py_convert_visitor.py:253-258 *)
Definition add_assigns (name : pystr) (assigns : list (pystr * pystr)) (args : list (pystr * pystr)) : list (pystr * pystr) :=
  fold_left (fun args '(ident, val) =>
    if has_dot ident then
      let '(parent, ident) := split_first ident in
      if pystr_eqb parent name then put_arg args ident (str_replace val (u " = ") [] (Some 1)) else args
    else args) assigns args.
(* vfp2py_convert_visitor.py:259-265 *)
Definition own_funs (name : pystr) (os : list outfun) : list outfun :=
  fold_left (fun l o =>
    if has_dot (o_name o) then
      let '(parent, fn) := split_last (o_name o) in
      if pystr_eqb parent name then put_fun l (OFun fn (o_local o) (o_params o) (o_body o)) else l
    else l) os [].
(* the loop over the members, vfp2py_convert_visitor.py:245-273 *)
Fixpoint visit_members (assigns : list (pystr * pystr)) (ms : list member) (fs : list fundef) : list aitem * list fundef :=
  match ms with
  | [] => ([], fs)
  | MComment t :: ms => let '(l, fs) := visit_members assigns ms fs in (IComment t :: l, fs)
  | MAssign target v :: ms =>
      let '(ident, val) := class_assign target v in
      let '(l, fs) := visit_members assigns ms fs in
      ((if has_dot ident then [] else [ICode (u "self." ++ ident ++ val)]) ++ l, fs)
  | MAdd name type args :: ms =>
      let args := add_assigns name assigns args in
      let '(os, fs) := visit_funs fs in
      let o := OObj name type (put_arg (put_arg args (u "parent") (u "self")) (u "name") name) (own_funs name os) in
      let '(l, fs) := visit_members assigns ms fs in (IObj o :: l, fs)
  | MFunc _ :: ms | MOther _ :: ms => visit_members assigns ms fs
  end.
Definition class_assigns (ms : list member) : list (pystr * pystr) :=
  flat_map (fun m => match m with MAssign t v => [class_assign t v] | _ => [] end) ms.
Definition class_funs (ms : list member) : list fundef := flat_map (fun m => match m with MFunc f => [f] | _ => [] end) ms.
(* visitClassDef, vfp2py_convert_visitor.py:239-290; the method _assign comes first in the emitted class *)
Definition visit_class (ms : list member) : outclass :=
  let '(items, fs) := visit_members (class_assigns ms) ms (class_funs ms) in
  let '(os, _) := visit_funs fs in
  OClass (items ++ map IComment (flat_map f_after fs)) (fold_left (fun l o => if has_dot (o_name o) then l else put_fun l o) os []).
