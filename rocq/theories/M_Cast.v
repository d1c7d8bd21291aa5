(** CAST(x AS type): vfp2py_convert_visitor.py:562-563, 1035-1094.
    Floats are given by what CPython does with them (arguments of the section).  A type that is written with a width is converted like a
    call (createIdAttr, vfp2py_convert_visitor.py:989-992), so its text has a parenthesis and is no key of the dictionary. *)
From Verif Require Import PyBase PyStr M_Lit.
Open Scope Z_scope.
Open Scope res_scope.

(** the dictionary of lines 1035-1067, and the one of lines 1070-1085: None is the builtin function's name *)
Inductive func := FStr | FFloat | FInt | FBool | FBytes | FDate | FDatetime.
Definition types : list (pystr * func) :=
  [(u "w", FBytes); (u "blob", FBytes); (u "c", FStr); (u "char", FStr); (u "character", FStr); (u "y", FFloat); (u "currency", FFloat);
   (u "d", FDate); (u "date", FDate); (u "t", FDatetime); (u "datetime", FDatetime); (u "b", FFloat); (u "double", FFloat);
   (u "f", FFloat); (u "float", FFloat); (u "g", FStr); (u "general", FStr); (u "i", FInt); (u "int", FInt); (u "integer", FInt);
   (u "l", FBool); (u "logical", FBool); (u "m", FStr); (u "memo", FStr); (u "n", FFloat); (u "num", FFloat); (u "numeric", FFloat);
   (u "q", FBytes); (u "varbinary", FBytes); (u "v", FStr); (u "varchar", FStr)].
(** lines 562-563, 1069-1085; the name is in lower case (visitIdentifier) *)
Definition cast_func (name : pystr) (width : option (list Z)) : res func :=
  match width with
  | Some _ => Err KeyError
  | None => match dget pystr_eqb types (map lower_char name) with Some f => Ok f | None => Err KeyError end
  end.

Section Cast.
Variable F : Type.
Variables (of_int : Z -> F) (of_text : pystr -> option F) (trunc : F -> Z) (nonzero : F -> bool) (show : F -> pystr).
Inductive cval := KInt (n : Z) | KFloat (x : F) | KText (s : pystr) | KBool (b : bool) | KNone | KBytes (s : list Z) | KDate.
Definition blank (c : Z) : bool := (c =? 32) || ((9 <=? c) && (c <=? 13)) || ((28 <=? c) && (c <=? 31)).
Fixpoint strip_left (s : pystr) : pystr := match s with c :: r => if blank c then strip_left r else s | [] => [] end.
Definition strip_both (s : pystr) : pystr := rev (strip_left (rev (strip_left s))).
Fixpoint groups (s : pystr) : list pystr :=
  match s with [] => [[]] | c :: r => if c =? 95 then [] :: groups r else match groups r with g :: gs => (c :: g) :: gs | [] => [[c]] end end.
(** Python's int(text), for ASCII texts *)
Definition sign_of (s : pystr) : Z * pystr := match s with c :: r => if c =? 45 then (-1, r) else if c =? 43 then (1, r) else (1, s) | [] => (1, []) end.
Definition py_int (s : pystr) : res Z :=
  let '(sign, body) := sign_of (strip_both s) in
  if forallb (fun g => negb (zlen g =? 0) && forallb is_digit g) (groups body) then Ok (sign * digits_value (concat (groups body))) else Err ValueError.
(** the call of the function; the classes datetime.date and datetime.datetime need more than one argument, but take their own pickled
    form as a text or bytes of 4 or 10 characters whose third is a month *)
Definition pickled (n : Z) (x : cval) : bool :=
  match x with KText s | KBytes s => (zlen s =? n) && match s with _ :: _ :: m :: _ => (1 <=? m) && (m <=? 12) | _ => false end | _ => false end.
Definition apply_func (f : func) (x : cval) : res cval :=
  match f, x with
  | FStr, KInt n => Ok (KText (dec n))
  | FStr, KFloat x => Ok (KText (show x))
  | FStr, KText s => Ok (KText s)
  | FStr, KBool b => Ok (KText (if b then u "True" else u "False"))
  | FStr, KNone => Ok (KText (u "None"))
  | FStr, _ => Ok (KText [])                                                    (* the text of other objects is left out *)
  | FFloat, KInt n => Ok (KFloat (of_int n))
  | FFloat, KBool b => Ok (KFloat (of_int (if b then 1 else 0)))
  | FFloat, KFloat x => Ok (KFloat x)
  | FFloat, KText s => match of_text s with Some x => Ok (KFloat x) | None => Err ValueError end
  | FFloat, _ => Err TypeError
  | FInt, KInt n => Ok (KInt n)
  | FInt, KFloat x => Ok (KInt (trunc x))
  | FInt, KBool b => Ok (KInt (if b then 1 else 0))
  | FInt, KText s => do n <- py_int s; Ok (KInt n)
  | FInt, _ => Err TypeError
  | FBool, KInt n => Ok (KBool (negb (n =? 0)))
  | FBool, KFloat x => Ok (KBool (nonzero x))
  | FBool, KText s => Ok (KBool (negb (zlen s =? 0)))
  | FBool, KBool b => Ok (KBool b)
  | FBool, KNone => Ok (KBool false)
  | FBool, KBytes s => Ok (KBool (negb (zlen s =? 0)))
  | FBool, KDate => Ok (KBool true)
  | FBytes, KInt n => if n <? 0 then Err ValueError else Ok (KBytes (repeat 0 (Z.to_nat n)))
  | FBytes, KBool b => Ok (KBytes (if b then [0] else []))
  | FBytes, KBytes s => Ok (KBytes s)
  | FBytes, _ => Err TypeError
  | FDate, x => if pickled 4 x then Ok KDate else Err TypeError
  | FDatetime, x => if pickled 10 x then Ok KDate else Err TypeError
  end.
(** the expression as converted; an unknown type stops the conversion *)
Definition cast (x : cval) (name : pystr) (width : option (list Z)) : res cval := do f <- cast_func name width; apply_func f x.
End Cast.
