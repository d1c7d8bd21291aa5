(** Declarations and RELEASE: visitDeclaration and visitDeclarationItem, vfp2py/vfp2py_convert_visitor.py:530-557, visitRelease, :1419-1447.

    Names are plain identifiers as visitIdentifier (:1396-1402) gives them; a declared type is ignored by the code.  PARAMETERS and EXTERNAL, which give
    nothing (:531-535), are left out; for PARAMETERS see C08. *)
From Verif Require Import PyBase PyStr M_Memvar M_Lit M_Stmt M_Do.
Open Scope Z_scope.
Open Scope res_scope.

Inductive scope_word := Local | Private | Public | Hidden | Protected.
Record item := Item { i_name : string; i_dims : list pystr (* the code of the dimensions, [] for a plain name *) }.
(* inds, :537-539 *)
Definition dims_of (array_word : bool) (i : item) : list pystr := match i_dims i with [] => if array_word then [u "1"] else [] | d => d end.
Definition is_array (d : list pystr) : bool := match d with [] => false | _ => true end.

(** The statements: M.add_...(names, arrays); a = b = False; a = Array(...) *)
Inductive stmt :=
| SAdd (s : scope_word) (names : list string) (arrays : list (string * list pystr))
| SFalse (targets : list pystr)
| SArray (target : pystr) (dims : list pystr).
(* :541-542; the parenthesis of getattr is not closed in the code *)
Definition self_name (n : pystr) : pystr := if valid_name n then u "self." ++ n else u "getattr(self, " ++ n.
(* visitDeclaration, :536-554 *)
Definition declaration (sc : option scope_word) (array_word : bool) (items : list item) : list stmt :=
  let inds := map (fun i => (i_name i, dims_of array_word i)) items in
  let plain := filter (fun p => negb (is_array (snd p))) inds in
  let arrays := filter (fun p => is_array (snd p)) inds in
  let rename n := match sc with Some Hidden | Some Protected => self_name (u n) | _ => u n end in
  match sc with
  | Some Local | Some Private | Some Public =>
      [SAdd match sc with Some s => s | None => Local end (map fst plain) (fold_left (fun d p => dset String.eqb d (fst p) (snd p)) arrays [])]
  | _ => match plain with
         | _ :: _ => [SFalse (map (fun p => rename (fst p)) plain)]
         | [] => map (fun p => SArray (rename (fst p)) (snd p)) arrays
         end
  end.

(** The text, with make_func_code (:106-112) *)
Section Text.
Variable printable : Z -> bool.
Definition repr (n : string) : pystr := str_repr printable (u n).
Definition array_code (d : list pystr) : pystr := make_func_code (u "Array") d.
Definition add_name (s : scope_word) : pystr := match s with Local => u "M.add_local" | Private => u "M.add_private" | Public => u "M.add_public" | _ => [] end.
Definition keyword_args (l : list (string * list pystr)) : list pystr :=
  if forallb (fun p => valid_name (u (fst p))) l then map (fun p => u (fst p) ++ u "=" ++ array_code (snd p)) l
  else [u "**{" ++ M_Lit.join (u ", ") (map (fun p => repr (fst p) ++ u ": " ++ array_code (snd p)) l) ++ u "}"].
Definition stmt_code (s : stmt) : pystr :=
  match s with
  | SAdd sc names arrays => make_func_code (add_name sc) (map repr names ++ keyword_args arrays)
  | SFalse ts => M_Lit.join (u " = ") (ts ++ [u "False"])
  | SArray t d => t ++ u " = " ++ array_code d
  end.
End Text.

(** ** Execution *)
Section Run.
Variable V : Type.
Variable pyfalse : V.
Variable array : list pystr -> res V.        (* Array(dimensions), class Array, vfpfunc.py:874-881; see M_Array.v *)
(* the variables of the program, and those of the Python function *)
Record state := State { s_mem : memvar V; s_py : list (pystr * V) }.
Fixpoint arrays_of (l : list (string * list pystr)) : res (list (string * V)) :=
  match l with [] => Ok [] | (n, d) :: l => do v <- array d; do vs <- arrays_of l; Ok ((n, v) :: vs) end.
Definition exec (st : state) (s : stmt) : res state :=
  match s with
  | SAdd sc names arrays => do kw <- arrays_of arrays;
      do m <- match sc with Local => add_local pyfalse (s_mem st) names kw | Private => add_private pyfalse (s_mem st) names kw | _ => add_public pyfalse (s_mem st) names kw end;
      Ok (State m (s_py st))
  | SFalse ts => Ok (State (s_mem st) (fold_left (fun d t => dset pystr_eqb d t pyfalse) ts (s_py st)))
  | SArray t d => do v <- array d; Ok (State (s_mem st) (dset pystr_eqb (s_py st) t v))
  end.
Fixpoint exec_all (st : state) (l : list stmt) : res state := match l with [] => Ok st | s :: l => do st' <- exec st s; exec_all st' l end.

(** ** RELEASE *)
Inductive what := RVars | RClasslib | RPopup.     (* RELEASE PROCEDURE: C09 *)
Inductive rstmt :=
| RThis | RThisform                 (* self.release()(), self.parentform.release()() *)
| RDel (names : list string)        (* del M.a, M.b *)
| RPopups (names : list string) (extended : bool)
| RAll.                             (* M.release() *)
(* visitRelease, :1419-1447, for at least one argument *)
Definition release (w : what) (extended : bool) (args : list string) : list rstmt :=
  match w with
  | RPopup => [RPopups args extended]
  | _ => let isthis a := (String.eqb a "this" || String.eqb a "thisform")%string in
         let rest := filter (fun a => negb (isthis a)) args in
         map (fun a => if String.eqb a "this" then RThis else RThisform) (filter isthis args) ++ match rest with [] => [] | _ => [RDel rest] end
  end.
Definition release_all : list rstmt := [RAll].
Definition rstmt_code (printable : Z -> bool) (s : rstmt) : pystr :=
  match s with
  | RThis => make_func_code (u "self.release()") []
  | RThisform => make_func_code (u "self.parentform.release()") []
  | RDel l => u "del " ++ M_Lit.join (u ", ") (map (fun n => u "M." ++ u n) l)
  | RPopups l e => make_func_code (u "F.release_popups") (map (repr printable) l ++ if e then [u "extended=True"] else [])
  | RAll => make_func_code (u "M.release") []
  end.
(* [popups]: what F.release_popups (_Function.__getattr__, vfpfunc.py:1058-1072) finds; there is no such function in the library.
   The release method of a form (vfpfunc.py:237-238) returns None, which is then called.  The list records which objects were released. *)
Variable popups : option (memvar V -> res (memvar V)).
Definition rexec (m : memvar V) (s : rstmt) : res unit * (memvar V * list rstmt) :=
  match s with
  | RThis | RThisform => (Err TypeError, (m, [s]))
  | RDel l => (Ok tt, (fold_left mem_del l m, []))
  | RPopups _ _ => match popups with None => (Err GenericException, (m, [])) | Some f => match f m with Ok m' => (Ok tt, (m', [])) | Err e => (Err e, (m, [])) end end
  | RAll => match mem_release m with Ok m' => (Ok tt, (m', [])) | Err e => (Err e, (m, [])) end
  end.
Fixpoint rexec_all (m : memvar V) (l : list rstmt) : res unit * memvar V :=
  match l with
  | [] => (Ok tt, m)
  | s :: l => match rexec m s with (Ok _, (m', _)) => rexec_all m' l | (Err e, (m', _)) => (Err e, m') end
  end.
End Run.
