(** Reading constants: the FoxPro forms (VisualFoxpro9.g4:411-417, 716-719) and what Python makes of the emitted text. *)
From Verif Require Import PyBase PyStr.
Open Scope Z_scope.

(** Digits and their values *)
Definition decimal (s : pystr) : Prop := Forall (fun c => 48 <= c <= 57) s.
Definition hex_value1 (c n : Z) : Prop :=
  (48 <= c <= 57 /\ n = c - 48) \/ (65 <= c <= 70 /\ n = c - 55) \/ (97 <= c <= 102 /\ n = c - 87).
(** [hexadecimal s n]: s is a run of hexadecimal digits of value n *)
Inductive hexadecimal : pystr -> Z -> Prop :=
| hx_nil : hexadecimal [] 0
| hx_snoc s c n d : hexadecimal s n -> hex_value1 c d -> hexadecimal (s ++ [c]) (16 * n + d).
(** [numeral s n]: s is a run of decimal digits of value n *)
Inductive numeral : pystr -> Z -> Prop :=
| nu_nil : numeral [] 0
| nu_snoc s c n : numeral s n -> 48 <= c <= 57 -> numeral (s ++ [c]) (10 * n + (c - 48)).

(** Numbers as Python reads them: an integer, or a float written m * 10^e *)
Inductive pynum := PI (n : Z) | PF (m e : Z).
(** a mantissa a, a. or a.b or .b: its digits as one numeral, and how many of them are decimals *)
Definition mantissa (s : pystr) (m e : Z) : Prop :=
  (s <> [] /\ numeral s m /\ e = 0) \/
  exists a b, s = a ++ 46 :: b /\ a ++ b <> [] /\ numeral (a ++ b) m /\ e = - zlen b.
Definition exp_sign (s : pystr) (n : Z) : Prop := (s = [] /\ n = 1) \/ (s = [43] /\ n = 1) \/ (s = [45] /\ n = -1).
(** the Python 3 lexical forms (without underscores, octal, binary and imaginary literals) *)
Inductive py_reads : pystr -> pynum -> Prop :=
| py_int s n : s <> [] -> numeral s n -> (hd 0 s <> 48 \/ n = 0) -> py_reads s (PI n)
| py_hex s x n : s <> [] -> (x = 120 \/ x = 88) -> hexadecimal s n -> py_reads (48 :: x :: s) (PI n)
| py_point s m e : In 46 s -> mantissa s m e -> py_reads s (PF m e)
| py_exp s m e c sg x k sign : mantissa s m e -> (c = 101 \/ c = 69) -> x <> [] -> numeral x k -> exp_sign sg sign ->
    py_reads (s ++ c :: sg ++ x) (PF m (e + sign * k)).

(** FoxPro number literals *)
Inductive numlit :=
| LInt (s : pystr)                                   (* 12 *)
| LHex (x : Z) (s : pystr)                           (* 0x1F *)
| LPoint (a b : pystr)                               (* 1.5, .5, 1. *)
| LExp (mant : pystr) (e : Z) (sign x : pystr).      (* 1.5E-3, 1e *)
Definition lit_text (l : numlit) : pystr :=
  match l with
  | LInt s => s
  | LHex x s => 48 :: x :: s
  | LPoint a b => a ++ 46 :: b
  | LExp m e sign x => m ++ e :: sign ++ x
  end.
(** those of the grammar, and the number they stand for; an exponent without digits is 0 *)
Inductive lit_value : numlit -> pynum -> Prop :=
| lv_int s n : s <> [] -> numeral s n -> lit_value (LInt s) (PI n)
| lv_hex x s n : x = 120 \/ x = 88 -> hexadecimal s n -> lit_value (LHex x s) (PI n)
| lv_point a b m e : mantissa (a ++ 46 :: b) m e -> lit_value (LPoint a b) (PF m e)
| lv_exp s m e c sg x k sign : mantissa s m e -> c = 101 \/ c = 69 -> numeral x k ->
    exp_sign sg sign -> lit_value (LExp s c sg x) (PF m (e + sign * k)).

(** A call f(a, b, ...) of decimal numbers, as Python reads it *)
Inductive arguments : pystr -> list Z -> Prop :=
| arg_one t n : py_reads t (PI n) -> arguments t [n]
| arg_more t n r l : py_reads t (PI n) -> arguments r l -> arguments (t ++ u ", " ++ r) (n :: l).
Definition calls (text f : pystr) (l : list Z) : Prop := exists a, arguments a l /\ text = f ++ u "(" ++ a ++ u ")".

(** The hour on the 24 hour clock that a 12 hour clock shows *)
Definition clock (h : Z) (pm : bool) : Z := h mod 12 + if pm then 12 else 0.

(** The value of a Python string literal between two equal quotes (no prefix, not triple-quoted); octal escapes and \N left out;
    [wide]: \u and \U are escapes *)
Definition hexv (c : Z) : option Z :=
  if (48 <=? c) && (c <=? 57) then Some (c - 48)
  else if (97 <=? c) && (c <=? 102) then Some (c - 87)
  else if (65 <=? c) && (c <=? 70) then Some (c - 55) else None.
Fixpoint hexes (acc : Z) (l : list Z) : option Z :=
  match l with [] => Some acc | c :: l => match hexv c with Some d => hexes (16 * acc + d) l | None => None end end.
Definition push (c : Z) (o : option pystr) : option pystr := option_map (cons c) o.
Fixpoint lit_body (wide : bool) (q : Z) (s : pystr) : option pystr :=
  match s with
  | [] => None
  | c :: r =>
      if c =? 92 then
        match r with
        | e :: r1 =>
            if (e =? 92) || (e =? 39) || (e =? 34) then push e (lit_body wide q r1)
            else if e =? 110 then push 10 (lit_body wide q r1)
            else if e =? 114 then push 13 (lit_body wide q r1)
            else if e =? 116 then push 9 (lit_body wide q r1)
            else if e =? 120 then
              match r1 with a :: b :: r2 => match hexes 0 [a; b] with Some n => push n (lit_body wide q r2) | None => None end | _ => None end
            else if (e =? 117) && wide then
              match r1 with
              | a :: b :: c :: d :: r2 => match hexes 0 [a; b; c; d] with Some n => push n (lit_body wide q r2) | None => None end
              | _ => None end
            else if (e =? 85) && wide then
              match r1 with
              | a :: b :: c :: d :: e :: f :: g :: h :: r2 =>
                  match hexes 0 [a; b; c; d; e; f; g; h] with
                  | Some n => if n <=? 1114111 then push n (lit_body wide q r2) else None | None => None end
              | _ => None end
            else None
        | [] => None
        end
      else if c =? q then match r with [] => Some [] | _ => None end
      else if (c =? 10) || (c =? 13) || (c =? 0) then None
      else push c (lit_body wide q r)
  end.
Definition string_literal (wide : bool) (s : pystr) : option pystr :=
  match s with q :: r => if (q =? 39) || (q =? 34) then lit_body wide q r else None | [] => None end.
(** bytearray(b'...'): no characters beyond ASCII, no \u and \U *)
Definition bytearray_literal (s l : pystr) : Prop :=
  exists t, s = u "bytearray(b" ++ t ++ u ")" /\ Forall (fun c => 0 <= c < 128) t /\ string_literal false t = Some l.
(** The number the bytes l stand for, most significant first *)
Definition big_endian (l : list Z) : Z := fold_left (fun a b => 256 * a + b) l 0.
