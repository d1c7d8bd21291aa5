(** DO: visitFuncDo, vfp2py/vfp2py_convert_visitor.py:1257-1314, except DO FORM (:1263-1276).

    The operands are what visitSpecialExpr (:1152-1154) gives: a name or string constant in lower case, or the code of an expression.
    [filename] is the name of the file being converted, [functions] the procedures it has (function_list, :162-163). *)
From Verif Require Import PyBase PyStr M_Path M_Lit M_Stmt.
Open Scope Z_scope.

Inductive value := VStr (s : pystr) | VCode (s : pystr).
Definition text (v : value) : pystr := match v with VStr s | VCode s => s end.
(* keyword.kwlist *)
Definition keywords : list pystr := map u ["False"; "None"; "True"; "and"; "as"; "assert"; "async"; "await"; "break"; "class"; "continue"; "def"; "del"; "elif";
  "else"; "except"; "finally"; "for"; "from"; "global"; "if"; "import"; "in"; "is"; "lambda"; "nonlocal"; "not"; "or"; "pass"; "raise"; "return"; "try"; "while"; "with"; "yield"]%string.
(* valid_identifier, vfp2py_convert_visitor.py:126-127 *)
Definition valid_name (s : pystr) : bool := valid_identifier s && negb (existsb (pystr_eqb s) keywords).

(** What the emitted statement calls *)
Inductive target :=
| TName (n : pystr)                      (* n(...): a function of the module itself *)
| TF (n : pystr)                         (* F.n(...) *)
| TFkey (e : value)                      (* F[e](...) *)
| TAttr (m : pystr) (n : pystr)          (* m.n(...), after import m *)
| TGet (m : pystr) (e : pystr)           (* getattr(m, e)(...), after import m *)
| TModAttr (e : value) (n : pystr)       (* vfpfunc.module(e).n(...) *)
| TModGet (e : value) (f : pystr).       (* getattr(vfpfunc.module(e), f)(...) *)

(* scopeId(func, 'func'), vfp2py_convert_visitor.py:971-986 *)
Definition scope_func (f : value) : target := if valid_name (text f) then TF (text f) else TFkey f.
Definition one_of (l : list pystr) (s : pystr) : bool := existsb (pystr_eqb s) l.
Definition blank (v : value) : bool := match text v with [] => true | _ => false end.
Definition ends_with (s e : pystr) : bool := prefixb (rev e) (rev s).
Definition drop_last (n : nat) (s : pystr) : pystr := firstn (length s - n) s.     (* s[:-n] *)

(* vfp2py_convert_visitor.py:1294-1313; the splitext and normpath at :1298 leave a name as it is, and module vfpfunc is imported anyway *)
Definition in_module (ns func : value) : target :=
  let ns := if ends_with (text ns) (u ".prg") then VStr (drop_last 4 (text ns)) else ns in
  match ns, func with
  | VStr m, VStr f => if valid_name m then TAttr m f else TModAttr ns f
  | VStr m, VCode f => if valid_name m then TGet m f else TModGet ns f
  | VCode _, VStr f => TModAttr ns f
  | VCode _, VCode f => TModGet ns f
  end.
(* vfp2py_convert_visitor.py:1278-1292 *)
Definition do_target (filename : pystr) (functions : list pystr) (func : value) (inn : option value) : target :=
  let ns := match inn with Some v => v | None => VStr [] end in
  let ns := if pystr_eqb (fst (splitext (text ns))) filename then VStr [] else ns in
  if blank ns then
    if one_of functions (text func) then TName (text func)
    else let (root, ext) := splitext (text func) in
         if one_of [u ".prg"; u ".mpr"; u ".spr"] ext
         then in_module (VStr (if one_of [u ".mpr"; u ".spr"] ext then root ++ u "_" ++ tl ext else root)) (VStr (u "MAIN"))
         else scope_func func
  else in_module ns func.

(** The text, make_func_code (:106-112) and add_args_to_code (:123-124) *)
Section Text.
Variable printable : Z -> bool.
Definition value_repr (v : value) : pystr := match v with VStr s => str_repr printable s | VCode s => s end.
Definition show (t : target) : pystr :=
  match t with
  | TName n => n
  | TF n => u "F." ++ n
  | TFkey e => u "F[" ++ value_repr e ++ u "]"
  | TAttr m n => m ++ u "." ++ n
  | TGet m e => make_func_code (u "getattr") [m; e]
  | TModAttr e n => make_func_code (u "vfpfunc.module") [value_repr e] ++ u "." ++ n
  | TModGet e f => make_func_code (u "getattr") [make_func_code (u "vfpfunc.module") [value_repr e]; f]
  end.
Definition do_text (filename : pystr) (functions : list pystr) (func : value) (inn : option value) (args : list pystr) : pystr :=
  make_func_code (show (do_target filename functions func inn)) args.
End Text.
(* self.imports.append('import ' + namespace), :1300: the module is imported when the file is loaded *)
Definition do_import (t : target) : option pystr := match t with TAttr m _ | TGet m _ => Some m | _ => None end.

(** ** The statement executed *)
Section Run.
Variable P : Type.
(* the functions of the file itself, the lookup F[name] (M_Procs.v), the modules that can be imported and their functions, and the strings that are
   the values of expressions *)
Record world := World { w_own : pystr -> option P; w_F : pystr -> option P; w_mod : pystr -> option (pystr -> option P); w_str : pystr -> option pystr }.
Definition get {A} (e : exc) (o : option A) : res A := match o with Some x => Ok x | None => Err e end.
Open Scope res_scope.
Definition value_of (w : world) (v : value) : res pystr := match v with VStr s => Ok s | VCode s => get NameError (w_str w s) end.
(* vfpfunc.module, vfpfunc.py:1718-1719; only top level modules.  GenericException stands for ImportError too. *)
Definition py_module (w : world) (name : pystr) : res (pystr -> option P) := get GenericException (w_mod w (map lower_char name)).
(* a name imported and defined in one module is the function defined *)
Definition called (w : world) (t : target) : res P :=
  match t with
  | TName n => get NameError (w_own w n)
  | TF n => get GenericException (w_F w n)
  | TFkey e => do s <- value_of w e; get GenericException (w_F w s)
  | TAttr m n => match w_own w m with Some _ => Err AttributeError | None => do f <- get GenericException (w_mod w m); get AttributeError (f n) end
  | TGet m e => match w_own w m with Some _ => Err AttributeError | None => do f <- get GenericException (w_mod w m); do s <- value_of w (VCode e); get AttributeError (f s) end
  | TModAttr e n => do s <- value_of w e; do f <- py_module w s; get AttributeError (f n)
  | TModGet e c => do s <- value_of w e; do f <- py_module w s; do s <- value_of w (VCode c); get AttributeError (f s)
  end.
(* a file loads only if all its imports do *)
Definition loads (w : world) (ts : list target) : bool :=
  forallb (fun t => match do_import t with Some m => match w_mod w m with Some _ => true | None => false end | None => true end) ts.
End Run.
Arguments World {P}. Arguments w_own {P}. Arguments w_F {P}. Arguments w_mod {P}. Arguments w_str {P}. Arguments called {P}. Arguments loads {P}.
