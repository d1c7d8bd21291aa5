(** How Python takes the text of an expression apart: Python Language Reference, section 2.  Left out, and not read: floats, prefixed and triple-quoted
    strings, comments, the operators 'is', '//', '@', ':=', '->' and '='. *)
From Verif Require Import PyBase PyStr S_Py S_Lit M_Do.
Open Scope Z_scope.

Definition letter_ (c : Z) : bool := ((97 <=? c) && (c <=? 122)) || ((65 <=? c) && (c <=? 90)) || (c =? 95).
Definition word_char (c : Z) : bool := letter_ c || is_digit c.
Fixpoint span (f : Z -> bool) (s : pystr) : pystr * pystr :=
  match s with [] => ([], []) | c :: r => if f c then let '(a, b) := span f r in (c :: a, b) else ([], s) end.
Definition is_w (w : pystr) (s : string) : bool := pystr_eqb w (u s).
(** Operators, constants and names; any other keyword is not part of an expression *)
Definition word (w : pystr) : option tok :=
  if is_w w "or" then Some (Op OOr) else if is_w w "and" then Some (Op OAnd) else if is_w w "in" then Some (Op OIn) else if is_w w "not" then Some Not
  else if is_w w "if" then Some If else if is_w w "else" then Some Else
  else if is_w w "True" || is_w w "False" || is_w w "None" then Some (Id w)
  else if one_of keywords w then None else Some (Id w).
(** An integer in decimal: no leading zeros *)
Definition integer (d : pystr) : option Z := match d with 48 :: _ :: _ => None | _ => Some (digits_value d) end.
(** The rest of a string literal up to the closing quote, and what follows *)
Fixpoint literal_end (q : Z) (s : pystr) : option (pystr * pystr) :=
  match s with
  | [] => None
  | c :: r =>
      if c =? 92 then match r with e :: r1 => option_map (fun p => (c :: e :: fst p, snd p)) (literal_end q r1) | [] => None end
      else if c =? q then Some ([c], r)
      else option_map (fun p => (c :: fst p, snd p)) (literal_end q r)
  end.
Definition next_is (c : Z) (s : pystr) : bool := match s with d :: _ => c =? d | [] => false end.
Definition symbol (s : pystr) : option (tok * pystr) :=
  match s with
  | 42 :: 42 :: r => Some (Op OPow, r)
  | 60 :: 61 :: r => Some (Op OLe, r)
  | 62 :: 61 :: r => Some (Op OGe, r)
  | 61 :: 61 :: r => Some (Op OEq, r)
  | 33 :: 61 :: r => Some (Op ONe, r)
  | 60 :: 60 :: r => Some (Op OShl, r)
  | 62 :: 62 :: r => Some (Op OShr, r)
  | 47 :: 47 :: r => None
  | c :: r =>
      if next_is 61 r then None
      else if c =? 43 then Some (Op OAdd, r) else if c =? 45 then Some (Op OSub, r) else if c =? 42 then Some (Op OMul, r) else if c =? 47 then Some (Op ODiv, r)
      else if c =? 37 then Some (Op OMod, r) else if c =? 124 then Some (Op OBor, r) else if c =? 94 then Some (Op OBxor, r) else if c =? 38 then Some (Op OBand, r)
      else if c =? 60 then Some (Op OLt, r) else if c =? 62 then Some (Op OGt, r) else if c =? 126 then Some (Tilde, r)
      else if c =? 40 then Some (Lp, r) else if c =? 41 then Some (Rp, r) else if c =? 91 then Some (Lb, r) else if c =? 93 then Some (Rb, r)
      else if c =? 58 then Some (Colon, r) else if c =? 44 then Some (Comma, r)
      else if c =? 46 then match r with d :: _ => if is_digit d then None else Some (Dot, r) | [] => Some (Dot, r) end
      else None
  | [] => None
  end.
(** One token off a text that starts with no blank *)
Definition token (s : pystr) : option (tok * pystr) :=
  match s with
  | [] => None
  | c :: r =>
      if letter_ c then
        let '(w, r) := span word_char s in
        (* r'..' and the like *)
        if next_is 39 r || next_is 34 r then None else option_map (fun t => (t, r)) (word w)
      else if is_digit c then
        let '(d, r) := span is_digit s in
        match r with x :: _ => if word_char x || (x =? 46) then None else option_map (fun n => (IntT n, r)) (integer d) | [] => option_map (fun n => (IntT n, r)) (integer d) end
      else if (c =? 39) || (c =? 34) then
        match literal_end c r with
        | Some (body, rest) => if pystr_eqb body [c] && next_is c rest then None else option_map (fun v => (StrT v, rest)) (string_literal true (c :: body))
        | None => None
        end
      else symbol s
  end.
Fixpoint lex_n (fuel : nat) (s : pystr) : option (list tok) :=
  match fuel with
  | O => None
  | S k =>
      match s with
      | [] => Some []
      | c :: r =>
          if c =? 32 then lex_n k r
          else match token s with Some (t, rest) => option_map (cons t) (lex_n k rest) | None => None end
      end
  end.
Definition lex (s : pystr) : option (list tok) := lex_n (S (length s)) s.
