(** CREATEOBJECT: func_call for createobject, vfp2py/vfp2py_convert_visitor.py:887-909, and create_object, _Class.__getitem__ and vfpclass,
    vfp2py/vfpfunc.py:1691-1704, 1108-1134, 1779-1787.

    The classes pythontuple, pythonlist and pythondictionary (visitor:888-895) and the names self.SubClass... of contained objects (C75) are left out. *)
From Verif Require Import PyBase PyStr M_Lit M_Stmt M_Do.
Open Scope Z_scope.

(* str.title, for the letters of ASCII: a letter is a capital iff no letter is before it *)
Definition letter (c : Z) : bool := lower c || upper c.
Definition cap (c : Z) : Z := if lower c then c - 32 else c.
Definition low (c : Z) : Z := if upper c then c + 32 else c.
Fixpoint title_from (prev : bool) (s : pystr) : pystr :=
  match s with [] => [] | c :: r => (if prev then low c else cap c) :: title_from (letter c) r end.
Definition title (s : pystr) : pystr := title_from false s.

(** The first argument: a string constant or the code of an expression *)
Inductive ctarget :=
| COwn (n : pystr)                  (* Name(...) *)
| CLib (n : pystr)                  (* vfpfunc.Name(...) *)
| CCreate (v : value).              (* vfpfunc.create_object(v, ...) *)
(* visitor:896-909; [class_list] the classes of the file (:161), [lib] the attributes of vfpfunc *)
Definition create_target (class_list : list pystr) (lib : pystr -> bool) (v : value) : ctarget :=
  match v with
  | VStr s => let n := title s in if one_of class_list n then COwn n else if lib n then CLib n else CCreate (VStr n)
  | VCode _ => CCreate v
  end.
Definition create_code (printable : Z -> bool) (t : ctarget) (args : list pystr) : pystr :=
  match t with
  | COwn n => make_func_code n args
  | CLib n => make_func_code (u "vfpfunc." ++ n) args
  | CCreate v => make_func_code (u "vfpfunc.create_object") (value_repr printable v :: args)
  end.

Section Run.
Variables Cls Arg Obj : Type.
Variable new : Cls -> list Arg -> res Obj.        (* the class called: __init__ and Init *)
(* a procedure file: its classes in _CLASSES and its other attributes that are classes *)
Record pmodule := PModule { p_classes : pystr -> option Cls; p_attr : pystr -> option Cls }.
Record cworld := CWorld {
  c_own : pystr -> option Cls;        (* the classes the file defines *)
  c_lib : pystr -> option Cls;        (* the classes of vfpfunc *)
  c_mods : list pmodule;              (* C.modules, the latest SET PROCEDURE first (M_Procs.v) *)
  c_com : pystr -> option Obj;        (* win32com.client.Dispatch *)
  c_str : pystr -> option pystr       (* the values of expressions that are strings *)
}.
(* _Class.__getitem__, vfpfunc.py:1117-1123; _CLASSES holds the functions that make the classes (vfpclass) *)
Fixpoint class_get (mods : list pmodule) (key : pystr) : option Cls :=
  match mods with
  | [] => None
  | m :: r => match p_classes m key with
              | Some c => Some c
              | None => match p_attr m key with Some c => Some c | None => class_get r key end
              end
  end.
(* create_object, vfpfunc.py:1691-1704.  inspect.getouterframes(...)[2] is the caller of the procedure that calls create_object: for a converted
   procedure the wrapper made by parameters or lparameters (vfpfunc.py:1736-1770), so the globals are those of vfpfunc *)
Definition create_object (w : cworld) (name : pystr) (args : list Arg) : res Obj :=
  let n := title name in
  match c_lib w n with
  | Some c => new c args
  | None =>
      let com := match c_com w n with Some o => Ok o | None => Err GenericException end in
      match class_get (c_mods w) n with
      | Some c => match new c [] with Ok o => Ok o | Err _ => com end
      | None => com
      end
  end.
Definition run_create (w : cworld) (t : ctarget) (args : list Arg) : res Obj :=
  match t with
  | COwn n => match c_own w n with Some c => new c args | None => Err NameError end     (* double_caller, vfpfunc.py:1783-1785 *)
  | CLib n => match c_lib w n with Some c => new c args | None => Err AttributeError end
  | CCreate (VStr s) => create_object w s args
  | CCreate (VCode e) => match c_str w e with Some s => create_object w s args | None => Err NameError end
  end.
End Run.
