(** Model of class _Function (vfpfunc.py:1051-1083) and of the parts of class _Class (1108-1134) and set() that keep the
    list of procedure files. *)
From Verif Require Import PyBase M_Memvar.
Open Scope res_scope.

(** Objects that can be compared with the elements of F.modules: module objects (identified by their import name:
    importlib.import_module returns the same object for the same name) and plain strings. *)
Inductive pyobj := Mod (n : name) | Str (n : name).
Definition pyobj_eqb (a b : pyobj) : bool :=
  match a, b with
  | Mod x, Mod y => String.eqb x y
  | Str x, Str y => String.eqb x y
  | _, _ => false
  end.

(** list.remove: drops the first equal element, ValueError when there is none. *)
Fixpoint py_remove (l : list pyobj) (x : pyobj) : res (list pyobj) :=
  match l with
  | [] => Err ValueError
  | y :: r => if pyobj_eqb y x then Ok r else do r' <- py_remove r x; Ok (y :: r')
  end.

(** vfpfunc.py:1074-1079 (and 1125-1130 for classes) set_procedure *)
Definition set_procedure (mods : list pyobj) (m : pyobj) (additive : bool) : list pyobj :=
  let mods' :=
    if negb additive then []
    else if existsb (pyobj_eqb m) mods
         then match py_remove mods m with Ok l => l | Err _ => mods end
         else mods in
  m :: mods'.

(** vfpfunc.py:1081-1083 release_procedure: removes one after the other; a missing one raises and the earlier
    removals stay. *)
Fixpoint release_procedure (mods : list pyobj) (ms : list pyobj) : res unit * list pyobj :=
  match ms with
  | [] => (Ok tt, mods)
  | m :: r => match py_remove mods m with
              | Err e => (Err e, mods)
              | Ok l => release_procedure l r
              end
  end.

(** Histories of calls of the two methods. *)
Inductive pcall := PSet (m : pyobj) (additive : bool) | PRelease (ms : list pyobj).
Definition pcall_step (mods : list pyobj) (c : pcall) : list pyobj :=
  match c with
  | PSet m a => set_procedure mods m a
  | PRelease ms => snd (release_procedure mods ms)
  end.
Definition pcall_run (mods : list pyobj) (cs : list pcall) : list pyobj := fold_left pcall_step cs mods.

Section Lookup.
  Context {V F : Type}.
  Variable as_array : V -> option F.    (* isinstance(value, Array): the array, seen as a callable *)
  Variable attr : pyobj -> name -> option F.     (* function objects found by getattr(module, key) *)
  Variable other_attr : pyobj -> name -> bool.   (* hasattr but neither a function nor a builtin *)
  Variable in_classes : pyobj -> name -> bool.   (* key in module._CLASSES *)

  (** `for dll in self.dlls: if hasattr(dll, key): return getattr(dll, key)`; a dll is its attribute function. *)
  Definition dll_lookup (dlls : list (name -> option F)) (key : name) : option F :=
    fold_right (fun d acc => match d key with Some f => Some f | None => acc end) None dlls.

  Definition module_provides (m : pyobj) (key : name) : option F :=
    if in_classes m key then None
    else if other_attr m key then None
    else attr m key.

  Fixpoint module_lookup (mods : list pyobj) (key : name) : option F :=
    match mods with
    | [] => None
    | m :: r => match module_provides m key with Some f => Some f | None => module_lookup r key end
    end.

  (** `for scope in M.public_scopes: if key in scope and isinstance(scope[key], Array)`: outermost first. *)
  Fixpoint array_lookup (scopes : list (@scope V)) (key : name) : option F :=
    match scopes with
    | [] => None
    | d :: r => match sget d key with
                | Some v => match as_array v with Some f => Some f | None => array_lookup r key end
                | None => array_lookup r key
                end
    end.

  (** vfpfunc.py:1059-1072 __getitem__ *)
  Definition function_get (dlls : list (name -> option F)) (mods : list pyobj) (m : memvar V) (key : name) : res F :=
    match dll_lookup dlls key with
    | Some f => Ok f
    | None => match module_lookup mods key with
              | Some f => Ok f
              | None => match array_lookup (public_scopes m) key with
                        | Some f => Ok f
                        | None => Err GenericException
                        end
              end
    end.
End Lookup.

(** The commands as converted code performs them. *)
Inductive pcmd :=
| SetProcedureTo (names : list name) (additive : bool)   (* SET PROCEDURE TO a, b [ADDITIVE] *)
| ReleaseProcedure (names : list name).                  (* RELEASE PROCEDURE a, b *)

(** vfp2py_convert_visitor.py:1812-1814 emits vfpfunc.set('procedure', 'a', 'b', set_value=True[, additive=True]);
    vfpfunc.py:1679-1682 uses args[0] only.
    vfp2py_convert_visitor.py:1418-1428 emits F.release_procedure('a', 'b') with string arguments. *)
Definition run_pcmd (importable : name -> bool) (mods : list pyobj) (c : pcmd) : res unit * list pyobj :=
  match c with
  | SetProcedureTo [] _ => (Err IndexError, mods)
  | SetProcedureTo (n :: _) additive =>
      if importable n then (Ok tt, set_procedure mods (Mod n) additive) else (Err GenericException, mods)
  | ReleaseProcedure names => release_procedure mods (map Str names)
  end.
