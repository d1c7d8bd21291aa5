(** File names and files: the inlined file name functions (vfp2py/vfp2py_convert_visitor.py:943-961), strtofile and filetostr
    (vfp2py/vfpfunc.py:1201-1203, 1470-1489), the searches for files (vfp2py/vfp2py.py:31-37, 204-214, 364-378, vfp2py/vfpfunc.py:1263-1273).
    os.path is posixpath: the separator is "/". *)
From Verif Require Import PyBase PyStr.
Open Scope Z_scope.
Open Scope res_scope.

(** ** posixpath *)
Definition is_slash (c : Z) : bool := c =? 47.
(* p.rfind('/') + 1 splits p in two *)
Fixpoint split_at (f : Z -> bool) (p : pystr) : pystr * pystr :=
  match p with
  | [] => ([], [])
  | c :: r => let (h, t) := split_at f r in match h with [] => if f c then ([c], t) else ([], c :: t) | _ => (c :: h, t) end
  end.
Fixpoint drop (f : Z -> bool) (s : pystr) : pystr := match s with c :: r => if f c then drop f r else s | [] => [] end.
(* h.rstrip(seps), unless nothing else is there *)
Definition rstrip (f : Z -> bool) (s : pystr) : pystr := rev (drop f (rev s)).
Definition trim_head (f : Z -> bool) (h : pystr) : pystr := match rstrip f h with [] => h | t => t end.
Definition dirname (p : pystr) : pystr := trim_head is_slash (fst (split_at is_slash p)).
Definition basename (p : pystr) : pystr := snd (split_at is_slash p).
(* os.path.splitext: the last period of the last component, unless only periods come before it there *)
Fixpoint last_dot (s : pystr) : option (pystr * pystr) :=
  match s with
  | [] => None
  | c :: r => match last_dot r with Some (a, e) => Some (c :: a, e) | None => if c =? 46 then Some ([], s) else None end
  end.
Definition splitext (p : pystr) : pystr * pystr :=
  let (d, b) := split_at is_slash p in
  match last_dot b with Some (a, e) => if forallb (Z.eqb 46) a then (p, []) else (d ++ a, e) | None => (p, []) end.
Definition join (a b : pystr) : pystr :=
  if prefixb [47] b then b else match a with [] => b | _ => if last a 0 =? 47 then a ++ b else a ++ 47 :: b end.

(** ** The value of the emitted expressions, vfp2py_convert_visitor.py:948-959.  filesystem_caseless (:944-945), which makes constant arguments
    lower case, is left out. *)
Definition justdrive (p : pystr) : pystr := [].                                (* os.path.splitdrive(p)[0] *)
Definition justpath (p : pystr) : pystr := dirname p.
Definition justfname (p : pystr) : pystr := basename p.
Definition juststem (p : pystr) : pystr := fst (splitext (basename p)).
Definition justext (p : pystr) : pystr := tl (snd (splitext p)).               (* os.path.splitext(p)[1][1:] *)
Definition forceext (p e : pystr) : pystr := fst (splitext p) ++ u "." ++ e.
Definition addbs (p : pystr) : pystr := join p [].

(** ** Files *)
Definition fs := pystr -> option (list Z).       (* the contents of a file *)
Definition put (s : fs) (p : pystr) (d : list Z) : fs := fun q => if pystr_eqb q p then Some d else s q.
Section Files.
(* the encodings (None if a character has no encoding), and whether a file can be opened for writing *)
Variable utf16 utf8 : pystr -> option (list Z).
Variable writable : fs -> pystr -> bool.
(* strtofile, vfpfunc.py:1470-1489, under Python 3: the string itself cannot be written to a file opened in binary mode; the exception is
   caught, but by then the file has been opened, and emptied if it is not for appending *)
Definition strtofile (s : fs) (text file : pystr) (flag : Z) : fs * res Z :=
  if negb (existsb (Z.eqb flag) [0; 1; 2; 4]) then (s, Err ValueError)
  else
    let output := if flag =? 2 then match utf16 text with Some d => Ok (Some d) | None => Err UnicodeError end
                  else if flag =? 4 then match utf8 text with Some d => Ok (Some ([239; 187; 191] ++ d)) | None => Err UnicodeError end
                  else Ok None in
    match output with
    | Err e => (s, Err e)
    | Ok out =>
        if negb (writable s file) then (s, Ok 0)
        else let opened := if flag =? 1 then match s file with Some d => put s file d | None => put s file [] end else put s file [] in
             match out with Some d => (put opened file d, Ok (zlen d)) | None => (opened, Ok 0) end
    end.
(* filetostr, vfpfunc.py:1201-1203, under Python 3: a string has no method decode; [readable] says whether the file decodes as text *)
Definition filetostr (readable : list Z -> bool) (s : fs) (file : pystr) : res pystr :=
  match s file with
  | None => Err GenericException
  | Some d => if readable d then Err AttributeError else Err UnicodeError
  end.
End Files.

(** ** Searching *)
Definition isfile (s : fs) (p : pystr) : bool := match s p with Some _ => true | None => false end.
Fixpoint first_of (f : pystr -> option pystr) (l : list pystr) : option pystr :=
  match l with [] => None | x :: l => match f x with Some y => Some y | None => first_of f l end end.
(* which, vfp2py.py:31-37 *)
Definition which (s : fs) (search : list pystr) (file : pystr) : pystr :=
  match first_of (fun d => let t := join d file in if isfile s t then Some t else None) (filter (fun d => match d with [] => false | _ => true end) search) with
  | Some p => p | None => file end.
(* locfile, vfpfunc.py:1263-1273; [abspath] is os.path.abspath, None means that the user is asked *)
Definition locfile (abspath : pystr -> pystr) (s : fs) (search : list pystr) (file : pystr) : option pystr :=
  if isfile s file then Some (abspath file)
  else let name := basename file in
       first_of (fun d => let t := join d name in if isfile s t then Some (abspath t) else None) search.

(** Directories: a path is the list of its components, a directory the list of its entries (os.listdir, in its order) *)
Definition path := list pystr.
Definition dirs := path -> option (list pystr).
Definition lower_char (c : Z) : Z := if (65 <=? c) && (c <=? 90) then c + 32 else c.
Definition lower (s : pystr) : pystr := map lower_char s.
(* find_file_ignore_case, vfp2py.py:204-208, for one directory *)
Definition find_ignore_case (s : dirs) (name : pystr) (dir : path) : res (option path) :=
  match s dir with
  | None => Err GenericException          (* NotADirectoryError, FileNotFoundError *)
  | Some l => Ok (match find (fun t => pystr_eqb (lower t) (lower name)) l with Some t => Some (dir ++ [t]) | None => None end)
  end.
(* memo_filename, vfp2py.py:210-214: the file lies in directory dir *)
Definition memo_filename (s : dirs) (dir : path) (file ext : pystr) : res (option path) :=
  find_ignore_case s (fst (splitext file) ++ u "." ++ ext) dir.
(* ntpath.split; the drive is a letter and a colon (UNC paths left out) *)
Definition is_sep (c : Z) : bool := (c =? 47) || (c =? 92).
Definition ntsplit (p : pystr) : pystr * pystr :=
  match p with
  | x :: 58 :: r => let (h, t) := split_at is_sep r in (x :: 58 :: trim_head is_sep h, t)
  | _ => let (h, t) := split_at is_sep p in (trim_head is_sep h, t)
  end.
(* vfp2py.py:366-367 *)
Fixpoint explode (fuel : nat) (h : pystr) (acc : list pystr) : list pystr :=
  match fuel with
  | O => h :: acc
  | S fuel => let (h', t) := ntsplit h in match t with [] => h :: acc | _ => explode fuel h' (t :: acc) end
  end.
Definition name_parts (p : pystr) : list pystr := let (h, t) := ntsplit p in explode (length p) h [t].
(* name_parts[name_parts.index(part):] *)
Fixpoint from_first (l : list pystr) (x : pystr) : list pystr :=
  match l with [] => [] | y :: r => if pystr_eqb y x then l else from_first r x end.
(* vfp2py.py:369-377: [all] is name_parts *)
Fixpoint walk (s : dirs) (all : list pystr) (parts : list pystr) (at_ : path) : res (path * bool) :=
  match parts with
  | [] => Ok (at_, false)
  | part :: parts =>
      if pystr_eqb part (u "..") then walk s all parts (removelast at_)
      else if pystr_eqb part (u ".") || pystr_eqb part [] then walk s all parts at_
      else do r <- find_ignore_case s part at_;
           match r with
           | None => Ok (at_ ++ from_first all part, true)
           | Some next => walk s all parts next
           end
  end.
(* find_full_path, vfp2py.py:364-378 *)
Definition find_full_path (s : dirs) (p : pystr) (start : path) : res (path * bool) := walk s (name_parts p) (name_parts p) start.
