(** Menus, events, reports, WAIT, CLEAR, ASSERT and DO FORM: the statements vfp2py/vfp2py_convert_visitor.py emits for them, and what vfpfunc.py does for these.

    Names are what visitSpecialExpr (:1152-1154) gives, a string or the code of an expression; expressions are their code. *)
From Verif Require Import PyBase PyStr M_Lit M_Stmt M_Do M_Call.
Open Scope Z_scope.

Inductive command :=
| DefineMenu (name : value) (window : option value) (screen : bool) (bar : bool) (line : option Z) (nomargin : bool)
| DefinePad (pad menu prompt : pystr) (message : option pystr) (key : option (list pystr * pystr)) (scheme : option Z)
| DefinePopup (name : value) (shadow margin relative : bool) (scheme : option Z)
| DefineBar (bar : Z) (menu : value) (prompt : pystr) (message : option pystr)
| ActivateMenu (name : value) (nowait : bool) (pad : option value)
| Deactivate (menu : bool) (names : list pystr)
| OnPad (pad menu : value) (activate : option (bool * value))       (* true: a popup *)
| OnBar (bar : Z) (menu : value) (activate : option (bool * value))
| OnKey (keys : list pystr) (code : pystr)
| OnError (code : pystr) | OnShutdown (code : pystr) | OnEscape (code : pystr)
| ReadEvents
| Report (name : value)
| DoForm (form : value) (name : option pystr) (linked : bool) (args : list pystr) (noshow : bool) (to : option pystr)
| Wait (message to : option pystr) (window : option (option (pystr * pystr))) (nowait noclear : bool) (timeout : option pystr)
| Clear (what : option pystr) (arg : option pystr)
| Assert (cond : pystr) (message : option pystr).

(** What is emitted *)
Inductive stmt :=
| SCall (f : pystr) (args : list pystr) (kwargs : list (pystr * pystr))                 (* vfpfunc.f(args, kwargs) *)
| SAssignCall (to : pystr) (f : pystr) (args : list pystr) (kwargs : list (pystr * pystr))
| SHook (f : pystr) (code : pystr)                                                      (* vfpfunc.f = lambda: code *)
| SKey (keys : list pystr) (code : pystr)                                               (* vfpfunc.on_key[keys] = lambda: code *)
| SAssert (cond : pystr) (message : option pystr).
Section Emit.
Variable printable : Z -> bool.
Notation repr := (value_repr printable).
Notation str := (str_repr printable).
Definition flag (k : string) (b : bool) : list (pystr * pystr) := if b then [(u k, u "True")] else [].
Definition opt {A} (k : string) (f : A -> pystr) (o : option A) : list (pystr * pystr) := match o with Some x => [(u k, f x)] | None => [] end.
Definition or_none (o : option pystr) : pystr := match o with Some x => x | None => u "None" end.
Definition activate_args (a : option (bool * value)) : list pystr :=
  match a with Some (p, n) => [u "(" ++ str (u (if p then "popup" else "menu")) ++ u ", " ++ repr n ++ u ")"] | None => [] end.
Definition bool_text (b : bool) : pystr := u (if b then "True" else "False").
Definition emit (c : command) : stmt :=
  match c with
  | DefineMenu name window screen bar line nomargin =>                                      (* :1962-1975 *)
      SCall (u "define_menu") [repr name]
        (match window with Some w => [(u "window", repr w)] | None => if screen then [(u "window", u "vfpfunc.SCREEN")] else [] end
         ++ flag "bar" bar ++ (if bar then opt "line" dec line else []) ++ flag "nomargin" nomargin)
  | DefinePad pad menu prompt message key scheme =>                                         (* :1977-1987 *)
      SCall (u "define_pad") [str pad; str menu; str prompt]
        [(u "message", or_none message);
         (u "key", match key with Some (ks, e) => u "(" ++ str (M_Lit.join (u "+") ks) ++ u ", " ++ e ++ u ")" | None => u "()" end);
         (u "color_scheme", match scheme with Some n => dec n | None => u "None" end)]
  | DefinePopup name shadow margin relative scheme =>                                       (* :1989-2000 *)
      SCall (u "define_popup") [repr name] (flag "shadow" shadow ++ flag "margin" margin ++ flag "relative" relative ++ opt "color_scheme" dec scheme)
  | DefineBar bar menu prompt message =>                                                    (* :2002-2009 *)
      SCall (u "define_bar") [dec bar; repr menu; prompt] (opt "message" (fun x => x) message)
  | ActivateMenu name nowait pad => SCall (u "activate_menu") [repr name] (flag "nowait" nowait ++ opt "pad" repr pad)    (* :2017-2024 *)
  | Deactivate menu names => SCall (u (if menu then "deactivate_menu" else "deactivate_popup")) (map str names) []         (* :1468-1474 *)
  | OnPad pad menu a => SCall (u "on_pad_bar") ([str (u "pad"); repr pad; repr menu] ++ activate_args a) []                 (* :1375-1382 *)
  | OnBar bar menu a => SCall (u "on_pad_bar") ([str (u "bar"); dec bar; repr menu] ++ activate_args a) []
  | OnKey keys code => SKey (map str keys) code                                              (* :1370-1372 *)
  | OnError code => SHook (u "error_func") code                                              (* :1384-1390, on_event :1345-1367 *)
  | OnShutdown code => SHook (u "shutdown_func") code
  | OnEscape code => SHook (u "escape_func") code
  | ReadEvents => SCall (u "read_events") [] []                                              (* :1341-1343 *)
  | Report name => SCall (u "report_form") [repr name] []                                    (* :1788-1789 *)
  | DoForm form name linked args noshow to =>                                                (* :1263-1276 *)
      let kwargs := match name with Some n => (u "name", str n) :: flag "linked" linked | None => [] end
        ++ (match args with [] => [] | _ => [(u "args", u "[" ++ M_Lit.join (u ", ") args ++ u "]")] end) ++ flag "noshow" noshow in
      match to with Some t => SAssignCall t (u "do_form") [repr form] kwargs | None => SCall (u "do_form") [repr form] kwargs end
  | Wait message to window nowait noclear timeout =>                                         (* :1459-1466 *)
      SCall (u "wait") [match message with Some m => m | None => str [] end]
        [(u "to", or_none to);
         (u "window", match window with Some (Some (a, b)) => u "[" ++ a ++ u ", " ++ b ++ u "]" | Some None => u "[-1, -1]" | None => u "[]" end);
         (u "nowait", bool_text nowait); (u "noclear", bool_text noclear); (u "timeout", match timeout with Some t => t | None => u "-1" end)]
  | Clear what arg =>                                                                        (* :1316-1333, without DLLS *)
      SCall (u "clear") ([match what with Some w => str w | None => u "None" end] ++ match arg with Some a => [a] | None => [] end) []
  | Assert cond message => SAssert cond message                                              (* :1912-1916 *)
  end.
End Emit.
(** The text; make_func_code with keyword arguments, :106-112 *)
Definition keywords_text (l : list (pystr * pystr)) : list pystr := map (fun p => fst p ++ u "=" ++ snd p) l.
Definition stmt_text (s : stmt) : pystr :=
  match s with
  | SCall f args kwargs => make_func_code (u "vfpfunc." ++ f) (args ++ keywords_text kwargs)
  | SAssignCall t f args kwargs => t ++ u " = " ++ make_func_code (u "vfpfunc." ++ f) (args ++ keywords_text kwargs)
  | SHook f code => u "vfpfunc." ++ f ++ u " = lambda: " ++ code
  | SKey keys code => u "vfpfunc.on_key[" ++ M_Lit.join (u ", ") keys ++ u "] = lambda: " ++ code
  | SAssert c None => u "assert " ++ c
  | SAssert c (Some m) => u "assert " ++ c ++ u ", " ++ m
  end.

(** ** Executed *)
Section Run.
Variable V : Type.
Record state := St { s_vars : list (pystr * V); s_hooks : list (pystr * pystr) }.
Variable ev : pystr -> list (pystr * V) -> res V.      (* the value of code *)
Variable truth : V -> bool.
Open Scope res_scope.
Fixpoint eval_all (l : list pystr) (vars : list (pystr * V)) : res unit :=
  match l with [] => Ok tt | e :: l => do _ <- ev e vars; eval_all l vars end.
(* the attribute of the module, or one assigned *)
Definition has_attribute (f : pystr) (s : state) : bool := one_of lib_names f || existsb (fun p => pystr_eqb f (fst p)) (s_hooks s).
(* vfpfunc.f(...), for f a function that does nothing: wait, vfpfunc.py:1632-1633, and clear, :1709-1710; Python looks the function up first.
   UserError stands for AssertionError. *)
Definition exec (st : stmt) (s : state) : res state :=
  match st with
  | SCall f args kwargs => if has_attribute f s then do _ <- eval_all (args ++ map snd kwargs) (s_vars s); Ok s else Err AttributeError
  | SAssignCall _ f args kwargs => if has_attribute f s then do _ <- eval_all (args ++ map snd kwargs) (s_vars s); Ok s else Err AttributeError
  | SHook f code => Ok (St (s_vars s) ((f, code) :: s_hooks s))
  | SKey _ _ => if has_attribute (u "on_key") s then Ok s else Err AttributeError
  | SAssert c m =>
      do v <- ev c (s_vars s);
      if truth v then Ok s else do _ <- eval_all (match m with Some m => [m] | None => [] end) (s_vars s); Err (UserError 0)
  end.
End Run.
Arguments St {V}. Arguments s_vars {V}. Arguments s_hooks {V}. Arguments exec {V}. Arguments has_attribute {V}. Arguments eval_all {V}.
