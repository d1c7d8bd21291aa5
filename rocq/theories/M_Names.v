(** Names of variables, properties and procedures in emitted code: visitIdentifier, createIdAttr (the name alone), scopeId, visitIdentTrailer, visitFuncDefStart of
    vfp2py/vfp2py_convert_visitor.py.  Names are ASCII. *)
From Verif Require Import PyBase PyStr M_Memvar M_Stmt M_Do.
Open Scope Z_scope.

Definition lower_text (s : pystr) : pystr := map (fun c => if upper c then c + 32 else c) s.
(* visitIdentifier, :1396-1402 *)
Definition identifier (text : pystr) : pystr := let n := lower_text text in if pystr_eqb n (u "class") then u "classtype" else n.
(** What a name of a variable becomes *)
Inductive ref :=
| RVar (n : pystr)      (* S.n *)
| RKey (n : pystr)      (* S[n], the bare name: :986 with a CodeStr *)
| RSelf | RForm         (* self, self.parentform *)
| RPython (n : pystr).  (* n *)
(* createIdAttr and scopeId, :1004-1006, :971-986 *)
Definition reference (text : pystr) : ref :=
  let n := identifier text in
  if islower n then
    if pystr_eqb n (u "this") then RSelf
    else if pystr_eqb n (u "thisform") then RForm
    else if valid_name n then RVar n else RKey n
  else RPython n.
Definition ref_text (r : ref) : pystr :=
  match r with
  | RVar n => u "S." ++ n
  | RKey n => u "S[" ++ n ++ u "]"
  | RSelf => u "self"
  | RForm => u "self.parentform"
  | RPython n => n
  end.
(** Places of names *)
Inductive use :=
| Variable_ (t : pystr)                  (* the value of a variable, or the target of an assignment *)
| Property (obj : pystr) (t : pystr)     (* a property of the object in a variable, :1020-1022, :1011-1015 *)
| Define (t : pystr)                     (* PROCEDURE t, :356-358 and :174-183 *)
| Call (t : pystr).                      (* t(), a procedure of the file, :654-655 *)
Definition use_text (x : use) : pystr :=
  match x with
  | Variable_ t => ref_text (reference t)
  | Property obj t => ref_text (reference obj) ++ u "." ++ identifier t
  | Define t => u "def " ++ identifier t ++ u "():"
  | Call t => identifier t ++ u "()"
  end.

(** ** Python *)
(** The words of a text: what its lexer takes for names or keywords *)
Fixpoint words_from (s cur : pystr) : list pystr :=
  match s with
  | [] => match cur with [] => [] | _ => [cur] end
  | c :: s => if name_char c then words_from s (cur ++ [c]) else match cur with [] => words_from s [] | _ => cur :: words_from s [] end
  end.
Definition words (s : pystr) : list pystr := words_from s [].
(* a keyword in the place of a name is a syntax error; "def" begins a definition *)
Definition loads (x : use) : bool :=
  let l := words (use_text x) in
  negb (existsb (one_of keywords) (match x with Define _ => tl l | _ => l end)).
(** The value of a variable: [m] is what S finds, [py] the Python names *)
Definition read {V} (m py : pystr -> option V) (r : ref) : res V :=
  match r with
  | RVar n => get NameError (m n)
  | RPython n => get NameError (py n)
  | RKey _ => Err GenericException      (* the file does not load *)
  | RSelf => get NameError (py (u "self"))
  | RForm => get AttributeError (py (u "self.parentform"))
  end.
