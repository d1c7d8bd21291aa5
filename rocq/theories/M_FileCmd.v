(** The file commands ERASE / DELETE FILE, COPY FILE, RENAME, MKDIR, RMDIR and the command RUN: vfp2py_convert_visitor.py:1124-1157, 1893-1905.
    They are converted to os.remove, shutil.copyfile, shutil.move, os.mkdir, os.rmdir and subprocess.call, of which the model is below: a file
    system that distinguishes upper and lower case, as a dictionary from paths to files and directories.  Simplified: whether the directory a
    new file is put into exists is not checked; only files are moved; RECYCLE and `?` are not modelled. *)
From Verif Require Import PyBase PyStr.
Open Scope Z_scope.
Open Scope res_scope.

Definition lower_char (c : Z) : Z := if (65 <=? c) && (c <=? 90) then c + 32 else c.
Definition lower (s : pystr) : pystr := map lower_char s.
(** A file name in a command: written as such or as a string constant, or an expression with its value *)
Inductive fname := Literal (s : pystr) | Value (s : pystr).
(** visitSpecialExpr, 1152-1154: the name that reaches the converted command *)
Definition name_of (n : fname) : pystr := match n with Literal s => lower s | Value s => s end.

Inductive node := File (s : pystr) | Dir.
Definition fsys := list (pystr * node).
Definition at_ (fs : fsys) (p : pystr) : option node := dget pystr_eqb fs p.
Fixpoint del (fs : fsys) (p : pystr) : fsys :=
  match fs with [] => [] | (k, v) :: r => if pystr_eqb p k then del r p else (k, v) :: del r p end.
Definition put (fs : fsys) (p : pystr) (n : node) : fsys := dset pystr_eqb fs p n.
(** os.path.basename, without trailing separators *)
Fixpoint basename_aux (cur s : pystr) : pystr := match s with [] => rev cur | c :: r => if c =? 47 then basename_aux [] r else basename_aux (c :: cur) r end.
Definition basename (s : pystr) : pystr := basename_aux [] s.

Inductive cmd := Erase (a : fname) | CopyFile (a b : fname) | Rename (a b : fname) | MkDir (a : fname) | RmDir (a : fname).
(** the converted commands; GenericException stands for the OSError or shutil.Error they raise *)
Definition py_remove (fs : fsys) (p : pystr) : res fsys :=
  match at_ fs p with Some (File _) => Ok (del fs p) | _ => Err GenericException end.
Definition py_copyfile (fs : fsys) (a b : pystr) : res fsys :=
  if pystr_eqb a b then Err GenericException                                  (* SameFileError *)
  else match at_ fs a, at_ fs b with
       | Some (File s), Some Dir => Err GenericException
       | Some (File s), _ => Ok (put fs b (File s))
       | _, _ => Err GenericException
       end.
(** shutil.move: into b if it is a directory that does not have such a file, otherwise os.rename, which replaces a file b *)
Definition py_move (fs : fsys) (a b : pystr) : res fsys :=
  match at_ fs a with
  | Some (File s) =>
      match at_ fs b with
      | Some Dir => let t := b ++ [47] ++ basename a in match at_ fs t with Some _ => Err GenericException | None => Ok (put (del fs a) t (File s)) end
      | _ => if pystr_eqb a b then Ok fs else Ok (put (del fs a) b (File s))
      end
  | _ => Err GenericException
  end.
Definition py_mkdir (fs : fsys) (p : pystr) : res fsys := match at_ fs p with Some _ => Err GenericException | None => Ok (put fs p Dir) end.
Definition inside (p q : pystr) : bool := prefixb (p ++ [47]) q.
Definition py_rmdir (fs : fsys) (p : pystr) : res fsys :=
  match at_ fs p with Some Dir => if existsb (fun e => inside p (fst e)) fs then Err GenericException else Ok (del fs p) | _ => Err GenericException end.
(** visitDeleteFile 1124-1133, visitCopyMoveFile 1135-1141, visitChMkRmDir 1143-1150 *)
Definition run (fs : fsys) (c : cmd) : res fsys :=
  match c with
  | Erase a => py_remove fs (name_of a)
  | CopyFile a b => py_copyfile fs (name_of a) (name_of b)
  | Rename a b => py_move fs (name_of a) (name_of b)
  | MkDir a => py_mkdir fs (name_of a)
  | RmDir a => py_rmdir fs (name_of a)
  end.

(** visitShellRun, 1893-1905: the text behind RUN is split at white space; the list goes to subprocess.call.  A word with & in front becomes
    the name behind it as Python code. *)
Inductive arg := AText (s : pystr) | ACode (s : pystr).
Definition run_args (text : pystr) : list arg :=
  map (fun w => match w with 38 :: r => ACode r | _ => AText w end) (split_ws [] text).
