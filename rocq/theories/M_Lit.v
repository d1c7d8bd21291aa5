(** The conversion of constants: vfp2py_convert_visitor.py:1159-1204, and the text their values get in the output (repr).

    The decimal conversions of CPython are parameters: [flt] is float(text), [flt_repr] is repr of a float.  Which characters repr shows
    unescaped beyond ASCII (str.isprintable) is a parameter too.  Left out: currency constants (round(float(text), 4)). *)
From Verif Require Import PyBase PyStr.
Open Scope Z_scope.

Definition lower_char (c : Z) : Z := if (65 <=? c) && (c <=? 90) then c + 32 else c.
Definition has (c : Z) (s : pystr) : bool := existsb (Z.eqb c) s.

(** A Python value in a syntax tree: an int, a float, a CodeStr *)
Inductive num (F : Type) := NInt (n : Z) | NFloat (x : F) | NCode (s : pystr).
Arguments NInt {F} n. Arguments NFloat {F} x. Arguments NCode {F} s.

(* int(num), for a text of digits and points *)
Definition int_text (s : pystr) : option Z :=
  match s with [] => None | _ => if forallb is_digit s then Some (digits_value s) else None end.
(* convert_number, vfp2py_convert_visitor.py:1159-1169 *)
Definition convert_number {F} (flt : pystr -> F) (text : pystr) : num F :=
  let num := map lower_char text in
  if has 120 num || has 101 num then
    NCode (if (negb (has 120 num) && (last num 0 =? 101)) || (has 120 num && (length num =? 2)%nat) then num ++ u "0" else num)
  else match int_text num with Some n => NInt n | None => NFloat (flt num) end.
(* repr of such a value; CodeStr.__repr__, vfp2py_convert_visitor.py:31-33 *)
Definition num_repr {F} (flt_repr : F -> pystr) (x : num F) : pystr :=
  match x with NInt n => dec n | NFloat x => flt_repr x | NCode s => s end.

(* int(x + y, 16) for two hexadecimal digits *)
Definition hex_val (c : Z) : Z := if c <=? 57 then c - 48 else if c <=? 70 then c - 55 else c - 87.
Fixpoint pairs (s : pystr) : list Z :=
  match s with x :: y :: r => 16 * hex_val x + hex_val y :: pairs r | _ => [] end.
(* visitBlob, vfp2py_convert_visitor.py:1176-1181 *)
Definition visit_blob (text : pystr) : list Z :=
  let blob := skipn 2 text in
  pairs (if Nat.odd (length blob) then 48 :: blob else blob).

(* visitBoolOrNull, vfp2py_convert_visitor.py:1183-1189; [None] is NULL *)
Definition visit_bool (ch : option pystr) : res (option bool) :=
  match ch with
  | None => Ok None
  | Some t =>
      match map lower_char t with
      | [c] => if has c (u "fnty") then Ok (Some (has c (u "ty"))) else Err GenericException
      | _ => Err GenericException
      end
  end.

Fixpoint join (sep : pystr) (l : list pystr) : pystr := match l with [] => [] | [x] => x | x :: l => x ++ sep ++ join sep l end.
(* make_func_code, vfp2py_convert_visitor.py:106-112, without keyword arguments *)
Definition make_func_code (name : pystr) (args : list pystr) : pystr := name ++ u "(" ++ join (u ", ") args ++ u ")".
Fixpoint ints {F} (l : list (num F)) : option (list Z) :=
  match l with
  | [] => Some []
  | NInt n :: l => option_map (cons n) (ints l)
  | _ => None
  end.
(* visitDate, vfp2py_convert_visitor.py:1191-1202: [nums] are the texts of the numbers, [ident] that of the identifier *)
Definition visit_date {F} (flt : pystr -> F) (nums : list pystr) (ident : option pystr) : res (option pystr) :=
  match nums with
  | [] => Ok None
  | _ =>
      let numbers := map (convert_number flt) nums in
      let am_pm := map lower_char match ident with Some s => s | None => [] end in
      match ints numbers with
      | None => Err ValueError
      | Some numbers =>
          if negb (existsb (pystr_eqb am_pm) [[]; u "a"; u "am"; u "p"; u "pm"]) then Err ValueError
          else
            let r :=
              if existsb (pystr_eqb am_pm) [u "p"; u "pm"]
              then rbind (py_nth numbers 3) (fun h => py_set_nth numbers 3 (h + 12)) else Ok numbers in
            rmap (fun numbers =>
              Some (make_func_code (if (length numbers <? 4)%nat then u "dt.date" else u "dt.datetime") (map dec numbers))) r
      end
  end.

(* visitString, vfp2py_convert_visitor.py:1204-1205: text[1:-1]; create_string, :117-121, leaves it *)
Definition visit_string (text : pystr) : pystr := removelast (tl text).

(** repr of a str (CPython unicode_repr), and of a bytearray *)
Definition hex_digit (n : Z) : Z := if n <? 10 then 48 + n else 87 + n.
Fixpoint hex_n (k : nat) (c : Z) : pystr :=
  match k with O => [] | S k => hex_n k (c / 16) ++ [hex_digit (c mod 16)] end.
Definition repr_char (printable : Z -> bool) (q c : Z) : pystr :=
  if (c =? q) || (c =? 92) then [92; c]
  else if c =? 9 then u "\t" else if c =? 10 then u "\n" else if c =? 13 then u "\r"
  else if (c <? 32) || (c =? 127) then u "\x" ++ hex_n 2 c
  else if c <? 127 then [c]
  else if printable c then [c]
  else if c <=? 255 then u "\x" ++ hex_n 2 c
  else if c <=? 65535 then u "\u" ++ hex_n 4 c
  else u "\U" ++ hex_n 8 c.
Definition quote_of (s : pystr) : Z := if has 39 s && negb (has 34 s) then 34 else 39.
Definition str_repr (printable : Z -> bool) (s : pystr) : pystr :=
  let q := quote_of s in q :: concat (map (repr_char printable q) s) ++ [q].
Definition bytearray_repr (l : list Z) : pystr := u "bytearray(b" ++ str_repr (fun _ => false) l ++ u ")".
