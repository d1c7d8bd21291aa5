(** DECLARE ... IN library and CLEAR DLLS: vfp2py_convert_visitor.py:1316-1322, 1335-1339; vfpfunc.py:1058-1062, 1085-1108.
    A ctypes library object has the attributes set on it and, beyond these, every function the library exports: looking one up loads it
    and keeps it as an attribute, which changes no result and is left out.  The argument types of DECLARE are not used by the code. *)
From Verif Require Import PyBase PyStr.
Open Scope Z_scope.
Open Scope res_scope.

Section Dll.
Variable F : Type.
(** what is installed: the functions exported by the library that ctypes.CDLL(name) loads, ctypes.util.find_library, and the process
    itself, which is what CDLL(None) gives *)
Record system := mkSys { y_load : pystr -> option (pystr -> option F); y_find : pystr -> option pystr; y_self : pystr -> option F }.
Record dll := mkDll { d_name : option pystr; d_exports : pystr -> option F; d_attrs : list (pystr * F) }.
(** hasattr/getattr of a library object *)
Definition attr (d : dll) (key : pystr) : option F := match dget pystr_eqb (d_attrs d) key with Some f => Some f | None => d_exports d key end.
(** lines 1087-1090; a library that is not found at all is the process itself *)
Definition cdll (y : system) (name : pystr) : res dll :=
  match y_load y name with
  | Some ex => Ok (mkDll (Some name) ex [])
  | None => match y_find y name with
            | Some n => match y_load y n with Some ex => Ok (mkDll (Some n) ex []) | None => Err GenericException end
            | None => Ok (mkDll None (y_self y) [])
            end
  end.
Definition same_name (a b : option pystr) : bool := match a, b with Some a, Some b => pystr_eqb a b | None, None => true | _, _ => false end.
(** lines 1091-1099: the library of that name that is there already, if any; the attribute is set on it *)
Fixpoint set_on (dlls : list dll) (n : option pystr) (funcname alias : pystr) : option (res (list dll)) :=
  match dlls with
  | [] => None
  | d :: r =>
      if same_name (d_name d) n then
        Some (match attr d funcname with
              | Some f => Ok (mkDll (d_name d) (d_exports d) (dset pystr_eqb (d_attrs d) alias f) :: r)
              | None => Err AttributeError
              end)
      else match set_on r n funcname alias with Some (Ok r) => Some (Ok (d :: r)) | x => x end
  end.
Definition dll_declare (y : system) (dlls : list dll) (name funcname : pystr) (alias : option pystr) : res (list dll) :=
  let a := match alias with Some (c :: r) => c :: r | _ => funcname end in
  do d <- cdll y name;
  match set_on dlls (d_name d) funcname a with
  | Some r => r
  | None => match attr d funcname with Some f => Ok (dlls ++ [mkDll (d_name d) (d_exports d) [(a, f)]]) | None => Err AttributeError end
  end.
(** lines 1101-1108 *)
Fixpoint del_attr (l : list (pystr * F)) (k : pystr) : list (pystr * F) :=
  match l with [] => [] | (x, f) :: r => if pystr_eqb k x then del_attr r k else (x, f) :: del_attr r k end.
Definition dll_clear (dlls : list dll) (funcs : list pystr) : list dll :=
  match funcs with
  | [] => []
  | _ => map (fun d => mkDll (d_name d) (d_exports d) (fold_left del_attr funcs (d_attrs d))) dlls
  end.
(** _Function.__getattr__, lines 1058-1062: the libraries come first; `rest`: procedures and arrays *)
Fixpoint from_dlls (dlls : list dll) (key : pystr) : option F :=
  match dlls with [] => None | d :: r => match attr d key with Some f => Some f | None => from_dlls r key end end.
Definition function (dlls : list dll) (rest : pystr -> option F) (key : pystr) : option F :=
  match from_dlls dlls key with Some f => Some f | None => rest key end.

(** The commands: names are converted to lower case, visitDllDeclare 1335-1339, visitIdentifier 1396-1402, visitSpecialExpr 1152-1154 *)
Definition lower1 (c : Z) : Z := if (65 <=? c) && (c <=? 90) then c + 32 else c.
Definition lower (s : pystr) : pystr := map lower1 s.
Inductive cmd := Declare (funcname library : pystr) (alias : option pystr) | ClearDlls (names : list pystr).
Definition run (y : system) (dlls : list dll) (c : cmd) : res (list dll) :=
  match c with
  | Declare f l a => dll_declare y dlls (lower l) (lower f) (option_map lower a)
  | ClearDlls ns => Ok (dll_clear dlls (map lower ns))
  end.
Fixpoint runs (y : system) (dlls : list dll) (cs : list cmd) : res (list dll) :=
  match cs with [] => Ok dlls | c :: r => do d <- run y dlls c; runs y d r end.
End Dll.
Arguments mkSys {F}. Arguments mkDll {F}. Arguments y_load {F}. Arguments y_find {F}. Arguments y_self {F}. Arguments d_name {F}. Arguments d_exports {F}. Arguments d_attrs {F}.
Arguments attr {F}. Arguments cdll {F}. Arguments set_on {F}. Arguments dll_declare {F}. Arguments del_attr {F}. Arguments dll_clear {F}. Arguments from_dlls {F}. Arguments function {F}. Arguments run {F}. Arguments runs {F}.
