(** Calls of functions in expressions: func_call, vfp2py/vfp2py_convert_visitor.py:631-970, for what the name is taken to be.

    What the code of in-lined functions computes is in M_Conv.v; [functions] are the procedures of the file (function_list, :162-163).  Names are in lower
    case, as visitIdentifier gives them. *)
From Verif Require Import PyBase PyStr M_Abbr M_Lit M_Stmt M_Do.
Open Scope Z_scope.

(* vfp2py_convert_visitor.py:637-651 *)
Definition other_names : dict := map (fun p => (u (fst p), u (snd p)))
  [("at_c", "at"); ("atcc", "atc"); ("atcline", "atline"); ("chrtranc", "chrtran"); ("leftc", "left"); ("lenc", "len"); ("likec", "like"); ("ratc", "rat");
   ("rightc", "right"); ("select", "select_function"); ("stuffc", "stuff"); ("substrc", "substr"); ("sys", "vfp_sys")]%string.
(* :632-651 *)
Definition resolve (f : pystr) : pystr := let f := expand f in match lookup other_names f with Some g => g | None => f end.
(** The functions always written as other code, and those written so with some numbers of arguments.
    vfp2py_convert_visitor.py:656-658, 660, 666-670, 675, 681, 688, 698, 709-715, 723-758, 772-779, 791, 816-956 *)
Definition inlined_always : list pystr := map u
  ["asc"; "len"; "alen"; "ains"; "acopy"; "empty"; "occurs"; "atc"; "at"; "rat"; "date"; "datetime"; "time"; "dtot"; "year"; "month"; "day"; "hour"; "minute"; "sec"; "dow"; "cdow";
   "cmonth"; "dmy"; "between"; "nvl"; "evl"; "sign"; "alltrim"; "ltrim"; "rtrim"; "lower"; "upper"; "padr"; "padl"; "padc"; "proper"; "right"; "substr"; "getenv"; "getwordcount";
   "rand"; "ceiling"; "exp"; "log"; "log10"; "sin"; "cos"; "tan"; "asin"; "acos"; "atan"; "atan2"; "pi"; "sqrt"; "dtor"; "rtod"; "bitand"; "bitclear"; "bitlshift"; "bitnot";
   "bitor"; "bitrshift"; "bitset"; "bittest"; "bitxor"; "abs"; "round"; "max"; "min"; "mod"; "int"; "isnull"; "isalpha"; "islower"; "isdigit"; "isupper"; "inlist"; "parameters";
   "createobject"; "fcreate"; "fopen"; "fclose"; "fputs"; "fwrite"; "fgets"; "fread"; "fseek"; "file"; "directory"; "justdrive"; "justpath"; "justfname"; "juststem"; "justext";
   "forceext"; "addbs"; "curdir"]%string.
Definition inlined_with : list (pystr * list nat) := map (fun p => (u (fst p), snd p))
  [("chr", [1]); ("val", [1]); ("space", [1]); ("replicate", [2]); ("iif", [3]); ("left", [2]); ("ascan", [2; 3; 4]); ("pythonfunctioncall", [3]); ("strtran", [2; 3]); ("dtoc", [1]);
   ("dtos", [1])]%nat%string.
(* :741, :781-790, :793 *)
Definition inlined_by_value : list pystr := map u ["dtoc"; "dtos"; "strtran"; "strconv"]%string.
(** dir(vfpfunc) without the names with capital letters: what the module defines and what it imports, vfpfunc.py *)
Definition lib_names : list pystr := map u [
  "_exec"; "_getwords"; "_in_qtgui"; "_odbc_cursor_to_db"; "_parameters"; "_str"; "absolute_import"; "atline"; "capslock"; "cdx"; "chrtran"; "clear";
  "clearall"; "create_object"; "ctod"; "ctypes"; "dateutil"; "ddeinitiate"; "ddesetoption"; "ddesetservice"; "ddesettopic"; "ddeterminate";
  "division"; "dow_fix"; "dt"; "dtoc"; "dtos"; "error"; "error_func"; "fdate"; "filetostr"; "ftime"; "functools"; "gather"; "getdir"; "getfile";
  "getwordcount"; "getwordnum"; "glob"; "gomonth"; "home"; "importlib"; "inkey"; "inspect"; "isblank"; "like"; "lineno"; "locfile"; "lparameters";
  "message"; "messagebox"; "module"; "os"; "parameters"; "pcount"; "print_function"; "program"; "pyodbc"; "qt_app"; "quarter"; "quit"; "ratline";
  "re"; "rgb"; "scatter"; "seconds"; "set"; "sqlcommit"; "sqlconnect"; "sqldisconnect"; "sqlexec"; "sqlrollback"; "sqlstringconnect"; "sqltables";
  "str"; "strextract"; "strtofile"; "strtran"; "stuff"; "sys"; "text"; "traceback"; "types"; "vartype"; "version"; "vfp_sys"; "vfpclass"; "wait"]%string.
(** dir(DB), without the names of every object: vfpdatabase.py:38-377 *)
Definition db_names : list pystr := map u [
  "_current_record"; "_current_record_copy"; "_get_records"; "_get_table_info"; "_update_from"; "afields"; "alias"; "alter_table"; "append";
  "append_from"; "bof"; "browse"; "close_tables"; "continue_locate"; "copy_structure"; "count"; "cpdbf"; "create_table"; "current_table"; "dbf";
  "delete_record"; "deleted"; "eof"; "fcount"; "field"; "found"; "get_workarea"; "goto"; "index_on"; "insert"; "locate"; "open_tables"; "pack";
  "reccount"; "recno"; "recsize"; "reindex"; "replace"; "scanner"; "seek"; "select"; "select_function"; "skip"; "sum"; "use"; "used"; "zap"]%string.

(** What a call f(...) with n arguments becomes *)
Inductive ctarget :=
| CSuper                  (* super(type(self), self).method(...) *)
| COwn (f : pystr)        (* f(...), the function of the module *)
| CInline (f : pystr)     (* other code *)
| CLib (f : pystr)        (* vfpfunc.f(...) *)
| CDb (f : pystr)         (* DB.f(...) *)
| CF (f : pystr)          (* F.f(...) or F['f'](...), scopeId, :971-986 *)
| CVar (f : pystr).       (* S.f(...), the variable, or S[f](...) with the bare name *)
Section Call.
Variable by_value : pystr -> bool.     (* whether the values of the arguments have the function written as other code *)
Definition inlined (f : pystr) (n : nat) : bool :=
  one_of inlined_always f || existsb (fun p => pystr_eqb f (fst p) && existsb (Nat.eqb n) (snd p)) inlined_with || (one_of inlined_by_value f && by_value f).
(* :652-655, :963-969 *)
Definition call_target (functions : list pystr) (f : pystr) (n : nat) : ctarget :=
  let f := resolve f in
  if pystr_eqb f (u "dodefault") then CSuper
  else if one_of functions f then COwn f
  else if inlined f n then CInline f
  else if one_of lib_names f then CLib f
  else if one_of db_names f then CDb f
  else CF f.
(* createIdAttr, :989-1009, for f(...) with [more] after it (.name or further brackets); the cases setitem, getitem and callmethod left out *)
Definition used_target (functions : list pystr) (f : pystr) (n : nat) (more : bool) : ctarget := if more then CVar f else call_target functions f n.
End Call.
Section Text.
Variable printable : Z -> bool.
(* :653-655, :964-970; none for the code of in-lined functions and for DODEFAULT *)
Definition target_text (t : ctarget) : option pystr :=
  match t with
  | COwn f => Some f
  | CLib f => Some (u "vfpfunc." ++ f)
  | CDb f => Some (u "DB." ++ f)
  | CF f => Some (show printable (scope_func (VStr f)))
  | CVar f => Some (if valid_name f then u "S." ++ f else u "S[" ++ f ++ u "]")
  | CSuper | CInline _ => None
  end.
Definition call_text (t : ctarget) (args : list pystr) : option pystr := option_map (fun g => make_func_code g args) (target_text t).
End Text.

(** ** The call executed *)
Section Run.
Variable P : Type.
Inductive callee := Procedure (p : P) | Runtime (f : pystr) | Inlined (f : pystr) | Method.
(* attributes F has itself, which __getattr__ is not asked for: vfpfunc.py:1051-1106 *)
Definition f_attributes : list pystr := map u ["modules"; "dlls"; "set_procedure"; "release_procedure"; "dll_declare"; "dll_clear"]%string.
(* [vars]: the variables that can be called, arrays (vfpfunc.py:915-916) *)
Definition reached (vars : pystr -> option P) (w : world P) (t : ctarget) : res callee :=
  match t with
  | CSuper => Ok Method
  | COwn f => rmap Procedure (get NameError (w_own w f))
  | CInline f => Ok (Inlined f)
  | CLib f | CDb f => Ok (Runtime f)
  | CF f => if one_of f_attributes f then Ok (Runtime f) else rmap Procedure (get GenericException (w_F w f))
  | CVar f => rmap Procedure (get NameError (vars f))
  end.
(** Names in the code of in-lined functions that Python looks up in the module, then among its own: :659, :661, :667, :669, :672-674, :718-733, :746, :811-815, :838, :842, :928,
    :946-955, for arguments that are not constants; "import math" and so on come before the functions of the file. *)
Definition globals : list (pystr * list pystr) := map (fun p => (u (fst p), map u (snd p)))
  [("asc", ["ord"]); ("len", ["len"]); ("alen", ["len"]); ("val", ["float"]); ("date", ["dt"]); ("datetime", ["dt"]); ("time", ["dt"]); ("dow", ["vfpfunc"]); ("getenv", ["os"]);
   ("getwordcount", ["len"]); ("rand", ["random"]); ("ceiling", ["math"]); ("exp", ["math"]); ("log", ["math"]); ("log10", ["math"]); ("sin", ["math"]); ("cos", ["math"]);
   ("tan", ["math"]); ("asin", ["math"]); ("acos", ["math"]); ("atan", ["math"]); ("pi", ["math"]); ("sqrt", ["math"]); ("dtor", ["math"]); ("rtod", ["math"]); ("abs", ["abs"]);
   ("round", ["round"]); ("max", ["max"]); ("min", ["min"]); ("int", ["int"]); ("fcreate", ["open"]); ("fopen", ["open"]); ("file", ["os"]); ("directory", ["os"]);
   ("justdrive", ["os"]); ("justpath", ["os"]); ("justfname", ["os"]); ("juststem", ["os"]); ("justext", ["os"]); ("forceext", ["os"]); ("addbs", ["os"]); ("curdir", ["os"])]%string.
(* a name of the module is the procedure of that name when there is one *)
Inductive object := Python (g : pystr) | Own (p : P).
Definition global (w : world P) (g : pystr) : object := match w_own w g with Some p => Own p | None => Python g end.
Definition used (w : world P) (f : pystr) : list object := flat_map (fun p => if pystr_eqb f (fst p) then map (global w) (snd p) else []) globals.
End Run.
Arguments Procedure {P}. Arguments Runtime {P}. Arguments Inlined {P}. Arguments Method {P}. Arguments reached {P}. Arguments Python {P}. Arguments Own {P}.
Arguments global {P}. Arguments used {P}.
