(** Converting files and projects: convert_file, read_vfp_project, convert_project, vfp2py.py:380-538.

    The file system maps paths, as they are written, to files and directories; that a directory must exist to create a file in it, and
    that several paths may name one file, is left out (shutil.copy onto the same path is refused).  What a source file becomes is left to
    parameters: [load] is the preprocessed text (preprocess_file, or for forms and class libraries convert_scx_to_vfp_code and
    convert_vcx_to_vfp_code before it, which remove their temporary tables again), [conv] is prg2py_after_preproc, [cp1252] and [utf8]
    are the encodings, [tmp] is the name tempfile chooses, [records] are the rows of the project table with the result of
    find_full_path for each. *)
From Verif Require Import PyBase PyStr.
Open Scope Z_scope.

Inductive node := File (data : list Z) | Dir.
Definition fs := pystr -> option node.
Definition put (s : fs) (p : pystr) (n : node) : fs := fun q => if pystr_eqb q p then Some n else s q.
Definition isdir (s : fs) (p : pystr) : bool := match s p with Some Dir => true | _ => false end.
Definition isfile (s : fs) (p : pystr) : bool := match s p with Some (File _) => true | _ => false end.

(** A row of the project table: deleted, the column exclude (None for an empty one), the path found, whether it was not found, mainprog *)
Record prow := Row { r_deleted : bool; r_exclude : option bool; r_path : pystr; r_failed : bool; r_main : bool }.
Record env := Env {
  load : fs -> pystr -> res pystr;
  cp1252 : pystr -> option (list Z);
  conv : pystr -> pystr -> res pystr;
  utf8 : pystr -> option (list Z);
  tmp : fs -> pystr;
  records : fs -> pystr -> res (list prow)
}.

(** os.path *)
Definition lower_char (c : Z) : Z := if (65 <=? c) && (c <=? 90) then c + 32 else c.
Definition lower (s : pystr) : pystr := map lower_char s.
Fixpoint basename (p : pystr) : pystr :=
  match p with [] => [] | c :: r => if existsb (Z.eqb 47) p then basename r else p end.
Fixpoint last_dot (s : pystr) : option (pystr * pystr) :=
  match s with
  | [] => None
  | c :: r => match last_dot r with Some (a, e) => Some (c :: a, e) | None => if c =? 46 then Some ([], s) else None end
  end.
Definition split_ext (s : pystr) : pystr * pystr :=      (* splitext of a name without directory *)
  match last_dot s with Some (a, e) => if forallb (Z.eqb 46) a then (s, []) else (a, e) | None => (s, []) end.
Definition join (a b : pystr) : pystr :=
  if prefixb [47] b then b else match a with [] => b | _ => if last a 0 =? 47 then a ++ b else a ++ [47] ++ b end.
Definition one_of (s : pystr) (l : list string) : bool := existsb (fun x => pystr_eqb s (u x)) l.

(* open(p, 'wb'), then the encoding of the text, then the write *)
Definition write (s : fs) (p : pystr) (data : option (list Z)) : fs * res unit :=
  if isdir s p then (s, Err GenericException)
  else match data with Some d => (put s p (File d), Ok tt) | None => (put s p (File []), Err UnicodeError) end.

(* convert_file, vfp2py.py:531-538: from the tokens on; the temporary file stays *)
Definition finish (e : env) (s : fs) (infile outfile : pystr) : fs * res unit :=
  match load e s infile with
  | Err x => (s, Err x)
  | Ok text =>
      let data := u "procedure _program_main" ++ [10] ++ text in
      match write s (tmp e s) (cp1252 e data) with
      | (s, Err x) => (s, Err x)
      | (s, Ok _) =>
          match conv e data (fst (split_ext (basename infile))) with
          | Err x => (s, Err x)
          | Ok out => write s outfile (utf8 e (u "# coding=utf-8" ++ [10] ++ out))
          end
      end
  end.

(** A dict from names to paths (None for a file that was not found), in the order of insertion *)
Definition files := list (pystr * option pystr).
Fixpoint add (l : files) (k : pystr) (v : option pystr) : files :=
  match l with [] => [(k, v)] | (x, w) :: l => if pystr_eqb x k then (k, v) :: l else (x, w) :: add l k v end.
(* read_vfp_project, vfp2py.py:380-408: the loop over the records *)
Fixpoint read_rows (l : list prow) (f : files) : files :=
  match l with
  | [] => f
  | r :: l =>
      if r_deleted r || match r_exclude r with None => true | Some b => b end then read_rows l f
      else read_rows l (if r_failed r then add f (r_path r) None else add f (lower (basename (r_path r))) (Some (r_path r)))
  end.

(* the extension rules of convert_file, vfp2py.py:500-530; [run] converts a project *)
Definition convert_with (run : fs -> pystr -> pystr -> fs * res unit) (e : env) (s : fs) (infile outfile : pystr) : fs * res unit :=
  let file_ext := snd (split_ext (basename (lower infile))) in
  if one_of file_ext [".pjx"]%string then run s infile outfile
  else if one_of file_ext [".prg"; ".mpr"; ".spr"; ".scx"; ".vcx"]%string then
    if isdir s outfile then
      let base := fst (split_ext (lower (basename infile))) in
      let suffix := if one_of file_ext [".prg"]%string then [] else map (fun c => if c =? 46 then 95 else c) file_ext in
      let outfile := join outfile (base ++ suffix ++ u ".py") in
      if isfile s outfile then (s, Ok tt) else finish e s infile outfile
    else finish e s infile outfile
  else if one_of file_ext [".frx"; ".mnx"; ".fll"; ".app"]%string then (s, Ok tt)
  else if one_of file_ext [".fpw"; ".h"]%string then (s, Ok tt)
  else if isdir s outfile then
    let target := join outfile (lower (basename infile)) in
    match s infile with
    | Some (File d) => if pystr_eqb target infile || isdir s target then (s, Err GenericException) else (put s target (File d), Ok tt)
    | _ => (s, Err GenericException)
    end
  else (s, Ok tt).

(* if not os.path.isdir(d): os.mkdir(d) *)
Definition mkdir (s : fs) (d : pystr) : res fs :=
  match s d with Some Dir => Ok s | Some (File _) => Err GenericException | None => Ok (put s d Dir) end.
(* convert_project, vfp2py.py:410-453.  Exceptions of the single files are logged and dropped.  The start file is opened in binary mode,
   so the first print to it raises; with a config.fpw, import ConfigParser raises before that (Python 3). *)
Fixpoint convert_project (fuel : nat) (e : env) (s : fs) (infile directory : pystr) : fs * res unit :=
  match fuel with
  | O => (s, Err GenericException)                          (* RecursionError *)
  | S fuel =>
      match records e s infile with
      | Err x => (s, Err x)
      | Ok rows =>
          let fl := read_rows rows [] in
          let package := join directory (basename directory) in
          match mkdir s directory with
          | Err x => (s, Err x)
          | Ok s =>
              match mkdir s package with
              | Err x => (s, Err x)
              | Ok s =>
                  let s := fold_left (fun s '(k, v) => fst (convert_with (convert_project fuel e) e s (match v with Some p => p | None => k end) package)) fl s in
                  if existsb (fun '(k, _) => pystr_eqb k (u "config.fpw")) fl then (s, Err GenericException)
                  else (fst (write s (join package (u "__main__.py")) (Some [])), Err TypeError)
              end
          end
      end
  end.
Definition convert_file (fuel : nat) (e : env) : fs -> pystr -> pystr -> fs * res unit := convert_with (convert_project fuel e) e.
