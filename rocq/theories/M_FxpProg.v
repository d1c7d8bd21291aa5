(** fxp_read.py: the procedures and classes of a compiled program and the FoxPro source written for them.
    Simplified: what is printed is left out; reading at a negative position raises ValueError (the code gets an OSError; both are
    swallowed alike); texts are encoded to bytes one to one, as all of them were decoded from bytes. *)
From Verif Require Import PyBase PyStr M_Fxp M_FxpCode.
Open Scope Z_scope.
Open Scope res_scope.

(** `fid.seek(p)` before a reader *)
Definition seek {A} (p : Z) (r : res A) : res A := if p <? 0 then Err ValueError else r.
Fixpoint many {A} (rd : list Z -> Z -> res (A * Z)) (n : nat) (f : list Z) (p : Z) : res (list A) :=
  match n with O => Ok [] | S k => do (x, p) <- rd f p; do r <- many rd k f p; Ok (x :: r) end.
(** read_procedure_header, fxp_read.py:1445-1451; read_class_header, 1453-1459; read_source_info, 1464-1466 *)
Definition proc_head (f : list Z) (p : Z) : res ((pystr * Z * Z) * Z) :=
  do (n, p) <- read_string f p; do (pos, p) <- read_uint f p; do (fl, p) <- read_short f p; do (_, p) <- read_short f p; Ok ((n, pos, fl), p).
Definition class_head (f : list Z) (p : Z) : res ((pystr * pystr * Z) * Z) :=
  do (n, p) <- read_string f p; do (b, p) <- read_string f p; do (pos, p) <- read_uint f p; do (_, p) <- fread f p 2; Ok ((n, b, pos), p).
Definition source_info (f : list Z) (p : Z) : res (list Z * Z) := exactly 16 f p.

Record proc := mkProc { p_name : pystr; p_flag : Z; p_code : pystr }.
Record cls := mkCls { c_name : pystr; c_parent : pystr; c_code : pystr }.
(** the loop over procedures and classes, 1509-1512: the code at each position *)
Section Block.
Variables (rounds fuel : nat) (o : oracle) (f : list Z) (start : Z).
Fixpoint codes (ps : list Z) : option (res (list pystr)) :=
  match ps with
  | [] => Some (Ok [])
  | p :: r => if p + start <? 0 then Some (Err ValueError)
              else match code_block rounds fuel o f (p + start) with
                   | None => None
                   | Some (Err e) => Some (Err e)
                   | Some (Ok t) => match codes r with Some (Ok ts) => Some (Ok (t :: ts)) | x => x end
                   end
  end.
(** read_fxp_file_block, fxp_read.py:1476-1514; `pages`: the keys of dbf.code_pages *)
Definition file_block (pages : Z -> bool) (name_pos : Z) : option (res (list proc * list cls)) :=
  match seek start (do (b, _) <- fread f start 37; if zlen b =? 37 then Ok b else Err StructError) with
  | Err e => Some (Err e)
  | Ok b =>
      let nproc := signed 16 (le (sub b 0 2)) in
      let ncls := signed 16 (le (sub b 2 2)) in
      let main := signed 32 (le (sub b 4 4)) in
      let ppos := start + signed 32 (le (sub b 8 4)) in
      let cpos := start + signed 32 (le (sub b 12 4)) in
      let spos := start + signed 32 (le (sub b 16 4)) in
      let lpos := start + signed 32 (le (sub b 24 4)) in
      match convert_date (le (sub b 28 4)) with
      | Err e => Some (Err e)
      | Ok _ =>
          if negb (pages (255 - le (sub b 36 1))) then Some (Err KeyError) else
          match read_until_null fuel f (name_pos + le (sub b 32 4)) with
          | None => None
          | Some (Err e) => Some (Err e)
          | Some (Ok _) =>
              match (do ps <- seek ppos (many proc_head (Z.to_nat nproc) f ppos);
                     do cs <- seek cpos (many class_head (Z.to_nat ncls) f cpos);
                     do _ <- seek lpos (Ok tt);                                           (* read_line_info, 1461-1462, never fails *)
                     do _ <- seek spos (many source_info (Z.to_nat (nproc + ncls + 1)) f spos);
                     Ok (([], main, 0) :: ps, cs)) with
              | Err e => Some (Err e)
              | Ok (ps, cs) =>
                  match codes (map (fun h => snd (fst h)) ps ++ map snd cs) with
                  | None => None
                  | Some (Err e) => Some (Err e)
                  | Some (Ok ts) =>
                      Some (Ok (map (fun ht => mkProc (fst (fst (fst ht))) (snd (fst ht)) (snd ht)) (combine ps ts),
                                map (fun ht => mkCls (fst (fst (fst ht))) (snd (fst (fst ht))) (snd ht)) (combine cs (skipn (length ps) ts))))
                  end
              end
          end
      end
  end.
End Block.

(** ** The source text, fxp_read.py:1590-1611.  The file is written piece by piece: what was written before an error stays. *)
Definition out := (pystr * option exc)%type.
Definition write (s : pystr) (k : out) : out := (s ++ fst k, snd k).
(** str.splitlines(True) *)
Definition is_break (c : Z) : bool := existsb (Z.eqb c) [10; 11; 12; 13; 28; 29; 30; 133].
Fixpoint keep_lines (cur s : pystr) : list pystr :=
  match s with
  | [] => match cur with [] => [] | _ => [cur] end
  | c :: r => if is_break c && negb ((c =? 13) && match r with d :: _ => d =? 10 | [] => false end)
              then (cur ++ [c]) :: keep_lines [] r
              else keep_lines (cur ++ [c]) r
  end.
(** the pattern of line 1604: "add ", optionally "hidden " or "protected ", "method " and digits: the qualifier and the digits *)
Fixpoint after (p s : pystr) : option pystr :=
  match p, s with
  | [], _ => Some s
  | a :: p, b :: s => if a =? b then after p s else None
  | _, [] => None
  end.
Fixpoint leading_digits (s : pystr) : pystr := match s with c :: r => if (48 <=? c) && (c <=? 57) then c :: leading_digits r else [] | [] => [] end.
Definition add_method (line : pystr) : option (pystr * pystr) :=
  match after (u "add ") line with
  | None => None
  | Some r =>
      let with_ q := match after (q ++ u "method ") r with Some d => Some (q, leading_digits d) | None => None end in
      match with_ (u "hidden ") with
      | Some x => Some x
      | None => match with_ (u "protected ") with Some x => Some x | None => with_ [] end
      end
  end.
(** int() of digits *)
Definition number (s : pystr) : res Z := match s with [] => Err ValueError | _ => Ok (fold_left (fun n c => n * 10 + (c - 48)) s 0) end.
(** the lines of a class, 1603-1611; `outfid.write(line)` gets a str where the file takes bytes *)
Fixpoint class_lines (procs : list proc) (ls : list pystr) : out :=
  match ls with
  | [] => ([], None)
  | l :: r =>
      match add_method l with
      | Some (q, d) =>
          match (do n <- number d; py_nth procs n) with
          | Err e => ([], Some e)
          | Ok p => write (q ++ u "PROCEDURE " ++ p_name p ++ [10]) (write (p_code p) (class_lines procs r))
          end
      | None => ([], Some TypeError)
      end
  end.
Definition class_text (procs : list proc) (c : cls) (k : out) : out :=
  write (u "DEFINE CLASS " ++ c_name c ++ u " AS " ++ c_parent c ++ [10])
    (let (t, e) := class_lines procs (keep_lines [] (c_code c)) in match e with Some _ => (t, e) | None => write t k end).
Definition proc_text (p : proc) : pystr :=
  if p_flag p =? 0 then (match p_name p with [] => [] | n => u "PROCEDURE " ++ n ++ [10] end) ++ p_code p else [].
Definition prg_text (procs : list proc) (classes : list cls) : out :=
  write (concat (map proc_text procs)) (fold_right (class_text procs) ([], None) classes).
(** A member of the archive, 1560-1563 and 1590: None: the decompiler does not come to an end; Some None: no source is written *)
Definition decompile (rounds fuel : nat) (o : oracle) (f : list Z) (start : Z) (pages : Z -> bool) (name_pos : Z) : option (option out) :=
  match file_block rounds fuel o f start pages name_pos with
  | None => None
  | Some (Err _) => Some None
  | Some (Ok (ps, cs)) => Some (Some (prg_text ps cs))
  end.
