(** The low-level file functions FOPEN, FCREATE, FCLOSE, FPUTS, FWRITE, FGETS, FREAD and FSEEK: vfp2py_convert_visitor.py:910-942.  They are
    converted to open() and the methods of Python's text files, which are part of the model: universal newlines when reading, no translation
    when writing (as on Linux), seek() restricted to absolute positions and the end, and a write after a read going behind the block that was
    read ahead.  Simplified: the text is ASCII (so that characters are bytes), a file is shorter than the block of 8192 bytes that Python
    reads ahead, and nobody else uses the file while it is open (its contents are then those of the handle). *)
From Verif Require Import PyBase PyStr.
Open Scope Z_scope.
Open Scope res_scope.

Inductive mode := RD | WR | RW.                                     (* 'r', 'w', 'r+' *)
Definition files := list (pystr * pystr).
(** pos: the position of the text; seen: something has been read since the last seek or write *)
Record handle := mkH { h_name : pystr; h_mode : mode; h_raw : pystr; h_pos : Z; h_seen : bool }.

(** The second argument of FOPEN and FCREATE, a number (910-920): what the conversion makes of it.  opentypes[n] may be out of range; a larger n
    is left where it is and the mode is put behind it: open(name, n, 'r') *)
Inductive conv_mode := Mode (m : mode) | ConvertFails (e : exc) | RunFails (e : exc).
Definition open_mode (types : list mode) (attr : option Z) : conv_mode :=
  match attr with
  | None => match types with m :: _ => Mode m | [] => ConvertFails IndexError end
  | Some n => if n <=? zlen types then match py_nth types n with Ok m => Mode m | Err e => ConvertFails e end
              else RunFails TypeError
  end.
Definition fopen_types : list mode := [RD; WR; RW].
Definition fcreate_types : list mode := [WR; RD].
(** open(name, mode) *)
Definition py_open (fs : files) (name : pystr) (m : mode) : res (handle * files) :=
  match m with
  | WR => Ok (mkH name WR [] 0 false, dset pystr_eqb fs name [])
  | _ => match dget pystr_eqb fs name with Some raw => Ok (mkH name m raw 0 false, fs) | None => Err GenericException end   (* FileNotFoundError *)
  end.
Definition fopen (fs : files) (name : pystr) (attr : option Z) : res (handle * files) :=
  match open_mode fopen_types attr with Mode m => py_open fs name m | ConvertFails e | RunFails e => Err e end.
Definition fcreate (fs : files) (name : pystr) (attr : option Z) : res (handle * files) :=
  match open_mode fcreate_types attr with Mode m => py_open fs name m | ConvertFails e | RunFails e => Err e end.
(** 921-922: close(), which writes what has been written *)
Definition fclose (h : handle) (fs : files) : files := match h_mode h with RD => fs | _ => dset pystr_eqb fs (h_name h) (h_raw h) end.

(** write(): at the position, or at the end if something has been read; the gap behind the end is filled with zeros.  The result
    is the number of characters. *)
Definition put_at (raw s : pystr) (p : Z) : pystr :=
  firstn (Z.to_nat p) raw ++ py_repeat 0 (p - zlen raw) ++ s ++ skipn (Z.to_nat (p + zlen s)) raw.
Definition py_write (h : handle) (s : pystr) : res Z * handle :=
  match h_mode h with
  | RD => (Err ValueError, h)                                       (* io.UnsupportedOperation *)
  | _ => let p := if h_seen h then zlen (h_raw h) else h_pos h in
         (Ok (zlen s), mkH (h_name h) (h_mode h) (put_at (h_raw h) s p) (p + zlen s) false)
  end.
(** 923-929: FWRITE(h, s [, n]) and FPUTS(h, s [, n]) *)
Definition cut (s : pystr) (n : option Z) : pystr := match n with None => s | Some n => py_slice s None (Some n) end.
Definition fwrite (h : handle) (s : pystr) (n : option Z) : res Z * handle := py_write h (cut s n).
Definition fputs (h : handle) (s : pystr) (n : option Z) : res Z * handle := py_write h (cut s n ++ [13; 10]).

(** One character of the translated text and the rest: \r\n and \r are \n *)
Definition next_char (raw : pystr) : option (Z * pystr) :=
  match raw with
  | [] => None
  | 13 :: 10 :: r => Some (10, r)
  | 13 :: r => Some (10, r)
  | c :: r => Some (c, r)
  end.
(** read(n); fuel is the length of the text *)
Fixpoint take (fuel : nat) (n : Z) (raw : pystr) : pystr * pystr :=
  match fuel with
  | O => ([], raw)
  | S k => if n =? 0 then ([], raw)
           else match next_char raw with None => ([], raw) | Some (c, r) => let (a, b) := take k (n - 1) r in (c :: a, b) end
  end.
(** readline(n) *)
Fixpoint take_line (fuel : nat) (n : Z) (raw : pystr) : pystr * pystr :=
  match fuel with
  | O => ([], raw)
  | S k => if n =? 0 then ([], raw)
           else match next_char raw with
                | None => ([], raw)
                | Some (c, r) => if c =? 10 then ([10], r) else let (a, b) := take_line k (n - 1) r in (c :: a, b)
                end
  end.
Definition count_of (n : option Z) : Z := match n with Some n => n | None => -1 end.   (* read('') is read(): all *)
Definition reading (h : handle) (f : nat -> Z -> pystr -> pystr * pystr) (n : option Z) : res pystr * handle :=
  match h_mode h with
  | WR => (Err ValueError, h)                                       (* io.UnsupportedOperation *)
  | _ => let rest := skipn (Z.to_nat (h_pos h)) (h_raw h) in
         let (a, b) := f (length rest) (count_of n) rest in
         (Ok a, mkH (h_name h) (h_mode h) (h_raw h) (zlen (h_raw h) - zlen b) true)
  end.
(** 930-939 *)
Definition fread (h : handle) (n : option Z) : res pystr * handle := reading h take n.
Definition crlf (c : Z) : bool := (c =? 13) || (c =? 10).
Fixpoint lstrip_by (f : Z -> bool) (s : pystr) : pystr := match s with c :: r => if f c then lstrip_by f r else s | [] => [] end.
Definition strip_by (f : Z -> bool) (s : pystr) : pystr := rev (lstrip_by f (rev (lstrip_by f s))).
Definition fgets (h : handle) (n : option Z) : res pystr * handle :=
  let (r, h) := reading h take_line n in (rmap (strip_by crlf) r, h).
(** 940-942: seek(offset [, whence]) of a text file *)
Definition fseek (h : handle) (offset : Z) (whence : option Z) : res Z * handle :=
  let to p := (Ok p, mkH (h_name h) (h_mode h) (h_raw h) p false) in
  match whence with
  | None | Some 0 => if offset <? 0 then (Err ValueError, h) else to offset
  | Some 1 => if offset =? 0 then to (h_pos h) else (Err ValueError, h)        (* can't do nonzero cur-relative seeks *)
  | Some 2 => if offset =? 0 then to (zlen (h_raw h)) else (Err ValueError, h)
  | Some _ => (Err ValueError, h)
  end.
