(** Model of the string functions of vfp2py/vfpfunc.py. *)
From Verif Require Import PyBase PyStr.
Open Scope res_scope.

(** vfpfunc.py:1136-1137 atline *)
Definition atline (search string : pystr) : Z :=
  str_count (py_slice string None (Some (str_find string search + 1))) [13] + 1.
(** vfpfunc.py:1421-1422 ratline *)
Definition ratline (search string : pystr) : Z :=
  str_count (py_slice string None (Some (str_rfind string search + 1))) [13] + 1.

(** fchrs.index(c) *)
Fixpoint char_index (l : pystr) (c : Z) : option Z :=
  match l with
  | [] => None
  | x :: r => if x =? c then Some 0 else option_map (fun k => k + 1) (char_index r c)
  end.
(** vfpfunc.py:1145-1146 chrtran *)
Fixpoint chrtran (expr fchrs rchrs : pystr) : res pystr :=
  match expr with
  | [] => Ok []
  | c :: r =>
    do d <- (match char_index fchrs c with Some k => py_nth rchrs k | None => Ok c end);
    do t <- chrtran r fchrs rchrs;
    Ok (d :: t)
  end.

(** vfpfunc.py:1226-1227 _getwords; delim None splits on whitespace. *)
Definition getwords (string : pystr) (delim : option pystr) : res (list pystr) :=
  match delim with
  | None => Ok (filter (fun w => negb (match w with [] => true | _ => false end)) (split_ws [] string))
  | Some d => do l <- str_split string d; Ok (filter (fun w => negb (match w with [] => true | _ => false end)) l)
  end.
(** vfpfunc.py:1229-1230 *)
Definition getwordcount (string : pystr) (delim : option pystr) : res Z := rmap zlen (getwords string delim).
(** vfpfunc.py:1232-1236 *)
Definition getwordnum (string : pystr) (index : Z) (delim : option pystr) : res pystr :=
  do l <- getwords string delim;
  if (0 <=? index) && (index <=? zlen l) then py_nth l (index - 1) else Ok [].

(** vfpfunc.py:1491-1505 strtran; start is non-negative (a negative start behaves as 0), maxreplace None or 0 replaces all. *)
Fixpoint strtran_skip (start : nat) (ret string old : pystr) : pystr * pystr :=
  match start with
  | O => (ret, string)
  | S k => let ind := str_find string old + zlen old in
           strtran_skip k (ret ++ py_slice string None (Some ind)) (py_slice string (Some ind) None) old
  end.
Definition strtran (string old new : pystr) (start : Z) (maxreplace : option Z) : pystr :=
  let '(ret, rest) := strtran_skip (Z.to_nat start) [] string old in
  ret ++ match maxreplace with
         | Some k => if k =? 0 then str_replace rest old new None else str_replace rest old new (Some k)
         | None => str_replace rest old new None
         end.

(** vfpfunc.py:1507-1508 stuff, integer positions *)
Definition stuff (string : pystr) (start num_replaced : Z) (repl : pystr) : pystr :=
  py_slice string None (Some (start - 1)) ++ repl ++ py_slice string (Some (start - 1 + num_replaced)) None.

(** vfpfunc.py:1249-1253 isblank on a string: not expr.strip() *)
Definition isblank (s : pystr) : bool := forallb is_space s.

(** ** Regular expressions of the shape [like] builds: literals, "." and ".*"; "." does not match a newline. *)
Inductive ritem := Lit (c : Z) | AnyChar | Star.
Definition re_meta (c : Z) : bool :=
  existsb (Z.eqb c) [46; 94; 36; 42; 43; 63; 123; 125; 91; 93; 92; 124; 40; 41].
Definition is_alnum (c : Z) : bool :=
  ((48 <=? c) && (c <=? 57)) || ((65 <=? c) && (c <=? 90)) || ((97 <=? c) && (c <=? 122)).
(** Parsing of a pattern text; None for constructs outside the fragment (their meaning is not modelled). *)
Fixpoint re_parse (t : pystr) : option (list ritem) :=
  match t with
  | [] => Some []
  | c :: r =>
    if c =? 92 then
      match r with
      | d :: r' => if is_alnum d then None else option_map (cons (Lit d)) (re_parse r')
      | [] => None
      end
    else if c =? 46 then
      match r with
      | d :: r' => if d =? 42 then option_map (cons Star) (re_parse r') else option_map (cons AnyChar) (re_parse r)
      | [] => Some [AnyChar]
      end
    else if re_meta c then None
    else option_map (cons (Lit c)) (re_parse r)
  end.
(** re.match: some prefix of the string matches. *)
Fixpoint re_match (p : list ritem) : pystr -> bool :=
  match p with
  | [] => fun _ => true
  | Lit c :: p' => fun s => match s with x :: s' => (x =? c) && re_match p' s' | [] => false end
  | AnyChar :: p' => fun s => match s with x :: s' => negb (x =? 10) && re_match p' s' | [] => false end
  | Star :: p' =>
    (fix star (s : pystr) : bool :=
       re_match p' s || match s with x :: s' => negb (x =? 10) && star s' | [] => false end)
  end.
(** vfpfunc.py:1256 the pattern text *)
Definition like_pattern (matchstr : pystr) : pystr :=
  str_replace (str_replace (str_replace matchstr [46] [92; 46] None) [42] [46; 42] None) [63] [46] None.
(** vfpfunc.py:1255-1257 like; None when the pattern text leaves the modelled fragment *)
Definition like (matchstr string : pystr) : option bool :=
  option_map (fun p => re_match p string) (re_parse (like_pattern matchstr)).

(** ** vfpfunc.py:1448-1468 strextract *)
(** re.escape, CPython 3.7 and later *)
Definition re_special (c : Z) : bool :=
  existsb (Z.eqb c) [40; 41; 91; 93; 123; 125; 63; 42; 43; 45; 124; 94; 36; 92; 46; 38; 126; 35; 32; 9; 10; 13; 11; 12].
Definition re_escape (s : pystr) : pystr := flat_map (fun c => if re_special c then [92; c] else [c]) s.
(** character comparison, without and with re.IGNORECASE (ASCII letters only) *)
Definition lower_char (c : Z) : Z := if (65 <=? c) && (c <=? 90) then c + 32 else c.
Definition char_eq (ci : bool) (a b : Z) : bool := if ci then lower_char a =? lower_char b else a =? b.
(** an escaped literal at the start of s: the matched text and the rest *)
Fixpoint match_lit (ci : bool) (p s : pystr) : option (pystr * pystr) :=
  match p, s with
  | [], _ => Some ([], s)
  | a :: p', b :: s' => if char_eq ci a b then option_map (fun '(m, r) => (b :: m, r)) (match_lit ci p' s') else None
  | _ :: _, [] => None
  end.
(** ".*?" followed by the literal e: shortest text without newline: (between, end text, rest) *)
Fixpoint match_lazy (ci : bool) (e s : pystr) : option (pystr * pystr * pystr) :=
  match match_lit ci e s with
  | Some (m, r) => Some ([], m, r)
  | None => match s with
            | [] => None
            | c :: r => if c =? 10 then None
                        else option_map (fun '(x, m, r') => (c :: x, m, r')) (match_lazy ci e r)
            end
  end.
(** ".*": up to the end of the line: (between, rest) *)
Fixpoint match_greedy (s : pystr) : pystr * pystr :=
  match s with
  | [] => ([], [])
  | c :: r => if c =? 10 then ([], s) else let '(x, r') := match_greedy r in (c :: x, r')
  end.
(** one match at the start of s: (begin text, between, end text, rest) *)
Definition match_here (ci : bool) (b e s : pystr) : option (pystr * pystr * pystr * pystr) :=
  match match_lit ci b s with
  | None => None
  | Some (mb, r) =>
    match e with
    | [] => let '(x, r') := match_greedy r in Some (mb, x, [], r')
    | _ => option_map (fun '(x, me, r') => (mb, x, me, r')) (match_lazy ci e r)
    end
  end.
(** the first match in s *)
Fixpoint re_search (ci : bool) (b e s : pystr) : option (pystr * pystr * pystr * pystr) :=
  match match_here ci b e s with
  | Some m => Some m
  | None => match s with [] => None | _ :: r => re_search ci b e r end
  end.
(** re.findall; the matches do not overlap.  Not modelled: begin and end both empty (empty matches). *)
Fixpoint findall (fuel : nat) (ci incl : bool) (b e s : pystr) : list pystr :=
  match fuel with
  | O => []
  | S f => match re_search ci b e s with
           | None => []
           | Some (mb, x, me, r) => (if incl then mb ++ x ++ me else x) :: findall f ci incl b e r
           end
  end.
Definition strextract_matches (string b e : pystr) (flag : Z) : list pystr :=
  findall (S (length string)) (Z.testbit flag 0) (Z.testbit flag 2) b e string.
Definition strextract (string b e : pystr) (occurrence flag : Z) : pystr :=
  match py_nth (strextract_matches string b e flag) (occurrence - 1) with
  | Ok t => t
  | Err _ =>
    match e with
    | _ :: _ =>
      if Z.testbit flag 1 then
        (* the recursive call is given the escaped begin, and escapes it again *)
        match py_nth (strextract_matches string (re_escape b) [] (Z.land flag 5)) (occurrence - 1) with
        | Ok t => t
        | Err _ => []
        end
      else []
    | [] => []
    end
  end.

(** ** vfpfunc.py:1431-1446 str, for integer num (|num| <= 2^53, so that the conversion to float is exact) and decimals >= 0 *)
(** '{:.df}'.format(num) *)
Definition format_fixed (num decimals : Z) : pystr :=
  dec num ++ (if 0 <? decimals then 46 :: py_repeat 48 decimals else []).
(** '{:E}'.format(num), num >= 0: one digit, '.', six digits (rounded half to even), 'E+', at least two exponent digits *)
Definition round_half_even (a b : Z) : Z :=
  let q := a / b in let r := a mod b in
  if 2 * r <? b then q else if b <? 2 * r then q + 1 else if Z.even q then q else q + 1.
Definition sci_exponent (num : Z) : Z := zlen (dec_nat num) - 1.
Definition sci_mantissa (num : Z) : Z :=
  let e := sci_exponent num in
  if e <=? 6 then num * 10 ^ (6 - e) else round_half_even num (10 ^ (e - 6)).
(** mantissa in 10^6 .. 10^7-1 and exponent, after a possible carry of the rounding; (0, 0) for num = 0 *)
Definition sci_parts (num : Z) : Z * Z :=
  let m := sci_mantissa num in
  if m =? 10 ^ 7 then (10 ^ 6, sci_exponent num + 1) else (m, sci_exponent num).
(** the six digits after the point *)
Definition pad6 (n : Z) : pystr := let d := dec_nat n in py_repeat 48 (6 - zlen d) ++ d.
(** the groups of the regular expression (\d.)(\d+)(E[+-])0*(\d+): the last one without leading zeros *)
Definition sci_groups (num : Z) : pystr * pystr * pystr * pystr :=
  let '(m, e) := sci_parts num in
  ([48 + m / 10 ^ 6; 46], pad6 (m mod 10 ^ 6), [69; 43], dec_nat e).
Definition str_fn (num length decimals : Z) : res pystr :=
  let s0 := format_fixed num decimals in
  do s <-
    (if (length <? zlen s0) && (zlen s0 - (decimals - 1) <=? length) then Ok (py_slice s0 None (Some length))
     else if length <? zlen s0 then
       let s1 := dec num in
       if length <=? zlen s1 then
         if num <? 0 then Err AttributeError     (* re.match(...) is None: the pattern starts with a digit *)
         else
           let '(g0, g1, g2, g3) := sci_groups num in
           let trim := zlen g0 + zlen g1 + zlen g2 + zlen g3 - length in
           let g1' := if 0 <? trim then py_slice g1 None (Some (- trim)) else g1 in
           Ok (g0 ++ g1' ++ g2 ++ g3)
       else Ok s1
     else Ok s0);
  let t := str_rjust s length in
  Ok (if zlen t =? length then t else py_repeat 42 length).
