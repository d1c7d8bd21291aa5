(** The conversion of expressions: vfp2py_convert_visitor.py, and the parse-tree clean-up of vfp2py.py that precedes it.

    Text is modelled as a list of Python tokens; the blanks of the templates separate tokens exactly where this file does.  Parse
    trees are those of the rule expr of VisualFoxpro9.g4:333-346.  Left out: float, hexadecimal, exponent, currency, date and blob
    literals, CAST, leading-period and trailer expressions (see M_Stmt for WITH), references (@x), object-creating functions. *)
From Verif Require Import PyBase PyStr S_Py.
Open Scope Z_scope.

(** VisualFoxpro9.g4:333-346.  [CBin] carries one of OPow OMul ODiv OMod OAdd OSub, [CCmp] one of the comparisons (visitComparison's
    symbol_dict maps '=' and '==' to ==, '#', '<>' and '!=' to !=, and '$' to in). *)
Inductive ctx :=
| CVar (s : pystr) | CInt (n : Z) | CStr (s : pystr) | CBool (b : bool) | CNull
| CSub (e : ctx) | CSign (minus : bool) (e : ctx) | CNot (e : ctx)
| CBin (o : op) (a b : ctx) | CCmp (o : op) (a b : ctx) | CAnd (a b : ctx) | COr (a b : ctx)
| CCall (f : pystr) (args : list ctx).

(** ** TreeCleanVisitor, vfp2py.py:140-187.  Children are visited first. *)
Definition is_sub t := match t with CSub _ => true | _ => false end.
(* visitSubExpr, vfp2py.py:160-166: ((e)) becomes (e) *)
Definition clean_sub (e : ctx) : ctx := match e with CSub e' => CSub e' | _ => CSub e end.
(* visitPower, vfp2py.py:168-181: the parentheses of a ^ (b ^ c) go, those of (a ^ b) ^ c come *)
Definition clean_pow (a b : ctx) : ctx :=
  let b := match b with CSub (CBin OPow x y) => CBin OPow x y | _ => b end in
  let a := match a with CBin OPow x y => CSub (CBin OPow x y) | _ => a end in
  CBin OPow a b.
(* visitUnaryNegation, vfp2py.py:183-187: a minus directly over a sign turns both into plus *)
Definition clean_sign (minus : bool) (e : ctx) : ctx :=
  match minus, e with true, CSign _ e' => CSign false (CSign false e') | _, _ => CSign minus e end.
Fixpoint clean (t : ctx) : ctx :=
  match t with
  | CSub e => clean_sub (clean e)
  | CSign m e => clean_sign m (clean e)
  | CNot e => CNot (clean e)
  | CBin OPow a b => clean_pow (clean a) (clean b)
  | CBin o a b => CBin o (clean a) (clean b)
  | CCmp o a b => CCmp o (clean a) (clean b)
  | CAnd a b => CAnd (clean a) (clean b)
  | COr a b => COr (clean a) (clean b)
  | CCall f args => CCall f (map clean args)
  | CVar _ | CInt _ | CStr _ | CBool _ | CNull => t
  end.

(** ** Values the visitor passes around: Python constants, CodeStr texts and OperatorExpr objects
    (vfp2py_convert_visitor.py:31-51, 75-104) *)
Inductive val :=
| VInt (n : Z) | VStr (s : pystr) | VBool (b : bool) | VNone | VCode (ts : list tok) | VOr (a b : val) | VAnd (a b : val) | VNot (a : val).
Definition prec (v : val) : option nat := match v with VOr _ _ => Some 0%nat | VAnd _ _ => Some 1%nat | VNot _ => Some 2%nat | _ => None end.
Definition repr_int (n : Z) : list tok := if n <? 0 then [Op OSub; IntT (- n)] else [IntT n].
(* repr; OperatorExpr.__repr__ and wrap_arg, vfp2py_convert_visitor.py:82-92.  The operands of an OperatorExpr are formatted with str,
   so a string constant there loses its quotes (modelled as a bare name). *)
Fixpoint repr (v : val) : list tok :=
  let wrap p v :=
    match prec v with
    | Some q => if Nat.ltb q p then Lp :: repr v ++ [Rp] else repr v
    | None => match v with VStr s => [Id s] | _ => repr v end
    end in
  match v with
  | VInt n => repr_int n
  | VStr s => [StrT s]
  | VBool b => [Id (if b then u "True" else u "False")]
  | VNone => [Id (u "None")]
  | VCode ts => ts
  | VOr a b => wrap 0%nat a ++ Op OOr :: wrap 0%nat b
  | VAnd a b => wrap 1%nat a ++ Op OAnd :: wrap 1%nat b
  | VNot a => Not :: wrap 2%nat a
  end.
Fixpoint sep (l : list (list tok)) : list tok := match l with [] => [] | [x] => x | x :: l => x ++ Comma :: sep l end.
(* make_func_code, vfp2py_convert_visitor.py:106-113 *)
Definition func_code (f : list tok) (args : list val) : val := VCode (f ++ Lp :: sep (map repr args) ++ [Rp]).
Definition name (s : string) : list tok := [Id (u s)].
Definition dotted (a b : string) : list tok := [Id (u a); Dot; Id (u b)].
Definition ospath (b : string) : list tok := [Id (u "os"); Dot; Id (u "path"); Dot; Id (u b)].

(* the redirected builtin int, vfp2py_convert_visitor.py:54-66: the real int when it succeeds, a call of int in the code otherwise.
   int of a string constant is taken to fail. *)
Definition int_of (v : val) : val :=
  match v with
  | VInt n => VInt n
  | VBool b => VInt (if b then 1 else 0)
  | VCode [IntT n] => VInt n
  | VCode [Op OSub; IntT n] => VInt (- n)
  | _ => func_code (name "int") [v]
  end.
(* v + w, v - w on an int or a CodeStr, vfp2py_convert_visitor.py:35-45 *)
Definition plus (v w : val) : val := match v, w with VInt a, VInt b => VInt (a + b) | _, _ => VCode (repr v ++ Op OAdd :: repr w) end.
Definition minus (v w : val) : val := match v, w with VInt a, VInt b => VInt (a - b) | _, _ => VCode (repr v ++ Op OSub :: repr w) end.

Definition is (f : pystr) (s : string) : bool := pystr_eqb f (u s).
Definition isin (f : pystr) (l : list string) : bool := existsb (is f) l.
Definition is_int (v : val) (k : Z) : bool := match v with VInt n => n =? k | _ => false end.
Definition arg (l : list val) (k : nat) : list tok := repr (nth k l VNone).
Definition paren (ts : list tok) : list tok := Lp :: ts ++ [Rp].
Definition index (a b : list tok) := a ++ Lb :: b ++ [Rb].
Definition slice_to (a b : list tok) := a ++ Lb :: Colon :: b ++ [Rb].
Definition slice_from (a b : list tok) := a ++ Lb :: b ++ [Colon; Rb].
Definition slice (a b c : list tok) := a ++ Lb :: b ++ Colon :: c ++ [Rb].
Definition method (a : list tok) (m : string) (args : list val) : val := func_code (a ++ [Dot; Id (u m)]) args.
Definition ternary (a c b : list tok) : list tok := a ++ If :: c ++ Else :: b.
Definition bin_code (o : op) (a b : list tok) : list tok := a ++ Op o :: b.

(** func_call, vfp2py_convert_visitor.py:631-970, for the functions below; [lib f] says whether f is an attribute of vfpfunc.
    Arguments that the Python code would find missing (an IndexError that turns the line into a FIX ME comment) read as None here:
    statements about a function always give it the arguments it needs. *)
Definition func_call (lib : pystr -> bool) (f : pystr) (args : list val) : val :=
  let n := length args in
  let a k := nth k args VNone in
  let t k := arg args k in
  let ti k := repr (int_of (a k)) in
  if is f "space" && Nat.eqb n 1 then                                                        (* :659-663 *)
    match int_of (a 0%nat) with
    | VInt k => if 8 <? k then VCode (IntT k :: Op OMul :: [StrT (u " ")]) else VStr (py_repeat 32 k)
    | v => VCode (bin_code OMul (repr v) [StrT (u " ")])
    end
  else if is f "len" then func_code (name "len") args                                        (* :666-667 *)
  else if is f "empty" then                                                                  (* :709-710 *)
    VCode (paren (ternary (Not :: t 0%nat) (bin_code OIsNot (t 0%nat) (name "None")) (name "False")))
  else if is f "occurs" then method (t 1%nat) "count" [a 0%nat]                              (* :711-712 *)
  else if is f "at" then VCode (repr (method (t 1%nat) "find" [a 0%nat]) ++ [Op OAdd; IntT 1])    (* :717-722 *)
  else if is f "rat" then VCode (repr (method (t 1%nat) "rfind" [a 0%nat]) ++ [Op OAdd; IntT 1])
  else if is f "replicate" && Nat.eqb n 2 then VCode (bin_code OMul (t 0%nat) (ti 1%nat))    (* :723-725 *)
  else if is f "iif" && Nat.eqb n 3 then VCode (paren (ternary (t 1%nat) (t 0%nat) (t 2%nat)))   (* :773-774 *)
  else if is f "between" then VCode (paren (t 1%nat ++ Op OLe :: t 0%nat ++ Op OLe :: t 2%nat))  (* :775-776 *)
  else if is f "nvl" then VCode (paren (ternary (t 0%nat) (bin_code OIsNot (t 0%nat) (name "None")) (t 1%nat)))   (* :777-778 *)
  else if is f "evl" then VCode (paren (bin_code OOr (t 0%nat) (t 1%nat)))                   (* :779-780 *)
  else if is f "sign" then                                                                   (* :781-782 *)
    VCode (ternary [IntT 1] (bin_code OGt (t 0%nat) [IntT 0])
      (paren (ternary [Op OSub; IntT 1] (bin_code OLt (t 0%nat) [IntT 0]) [IntT 0])))
  else if is f "padr" then method (t 0%nat) "ljust" (tl args)                                (* :783-794 *)
  else if is f "padl" then method (t 0%nat) "rjust" (tl args)
  else if is f "padc" then method (t 0%nat) "center" (tl args)
  else if is f "alltrim" then method (t 0%nat) "strip" (tl args)
  else if is f "ltrim" then method (t 0%nat) "lstrip" (tl args)
  else if is f "rtrim" then method (t 0%nat) "rstrip" (tl args)
  else if is f "lower" then method (t 0%nat) "lower" (tl args)
  else if is f "upper" then method (t 0%nat) "upper" (tl args)
  else if is f "proper" then method (t 0%nat) "title" (tl args)
  else if is f "right" then VCode (slice_from (t 0%nat) (Op OSub :: ti 1%nat))               (* :821-823 *)
  else if is f "left" && Nat.eqb n 2 then VCode (slice_to (t 0%nat) (ti 1%nat))              (* :824-826 *)
  else if is f "substr" then                                                                 (* :827-836 *)
    let from := minus (int_of (a 1%nat)) (VInt 1) in
    if Nat.ltb n 3 then VCode (slice_from (t 0%nat) (repr from))
    else
      let len := int_of (a 2%nat) in
      if is_int len 1 then VCode (index (t 0%nat) (repr from))
      else if is_int from 0 then VCode (slice_to (t 0%nat) (repr len))
      else VCode (slice (t 0%nat) (repr from) (repr (plus len from)))
  else if is f "bitand" then VCode (paren (bin_code OBand (ti 0%nat) (ti 1%nat)))            (* :861-873 *)
  else if is f "bitclear" then
    VCode (paren (bin_code OBand (ti 0%nat) (paren (bin_code OBxor (paren (bin_code OShl [IntT 1] (ti 1%nat))) [IntT 4294967295]))))
  else if is f "bitlshift" then VCode (paren (bin_code OShl (ti 0%nat) (ti 1%nat)))
  else if is f "bitnot" then VCode (Tilde :: ti 0%nat)
  else if is f "bitor" then VCode (paren (bin_code OBor (ti 0%nat) (ti 1%nat)))
  else if is f "bitrshift" then VCode (paren (bin_code OShr (ti 0%nat) (ti 1%nat)))
  else if is f "bitset" then VCode (paren (bin_code OBor (ti 0%nat) (paren (bin_code OShl [IntT 1] (ti 1%nat)))))
  else if is f "bittest" then
    VCode (paren (bin_code OGt (paren (bin_code OBand (ti 0%nat) (paren (bin_code OShl [IntT 1] (ti 1%nat))))) [IntT 0]))
  else if is f "bitxor" then VCode (paren (bin_code OBxor (ti 0%nat) (ti 1%nat)))
  else if isin f ["abs"; "round"; "max"; "min"]%string then func_code [Id f] args            (* :874-875 *)
  else if is f "mod" then VCode (paren (bin_code OMod (t 0%nat) (t 1%nat)))                  (* :876-877 *)
  else if is f "int" then int_of (a 0%nat)                                                   (* :878-879 *)
  else if is f "isnull" then VCode (bin_code OEq (t 0%nat) (name "None"))                    (* :880-881 *)
  else if is f "inlist" then                                                                 (* :884-885; the repr of a tuple *)
    VCode (paren (t 0%nat ++ Op OIn :: match tl args with [x] => Lp :: repr x ++ [Comma; Rp] | l => Lp :: sep (map repr l) ++ [Rp] end))
  else if is f "addbs" then func_code (ospath "join") (args ++ [VStr []])                    (* :943-961 *)
  else if is f "justpath" then func_code (ospath "dirname") args
  else if is f "justfname" then func_code (ospath "basename") args
  else if lib f then func_code [Id (u "vfpfunc"); Dot; Id f] args                            (* :964-965 *)
  else func_code [Id (u "F"); Dot; Id f] args.                                               (* :969-970, scopeId :971-986 *)

(** ** The visitor *)
Section conv.
Variable lib : pystr -> bool.
(* add_parens in operationExpr, vfp2py_convert_visitor.py:1236-1240 *)
Definition add_parens (child : ctx) (v : val) : val := if is_sub child then VCode (paren (repr v)) else v.
(* the end of operationExpr, vfp2py_convert_visitor.py:1241-1252: two string constants are joined at once *)
Definition operation (o : op) (a b : val) : val :=
  match o, a, b with
  | OAdd, VStr x, VStr y => VStr (x ++ y)
  | _, _, _ => VCode (bin_code o (repr a) (repr b))
  end.
(* an OperatorExpr has no __eq__: two visits of the same operand compare unequal, vfp2py_convert_visitor.py:1232-1234 *)
Definition is_operator (v : val) : bool := match prec v with Some _ => true | None => false end.
(* [skip] is self.skip_extract.  [extract l] is what extract_args_from_addbs (:1218-1225) returns for the left operand l, converted,
   when l is a call of addbs. *)
Fixpoint conv (skip : bool) (t : ctx) {struct t} : val :=
  match t with
  | CVar s => VCode [Id (u "S"); Dot; Id s]                                    (* visitAtomExpr, createIdAttr, scopeId *)
  | CInt n => VInt n                                                           (* convert_number, :1160-1170 *)
  | CStr s => VStr s                                                           (* visitString, :1204 *)
  | CBool b => VBool b                                                         (* visitBoolOrNull, :1183 *)
  | CNull => VNone
  | CSub e => conv skip e                                                      (* visitSubExpr, :1254 *)
  | CSign m e => VCode (if m then Op OSub :: repr (conv skip e) else repr (conv skip e))    (* visitUnaryNegation, :625 *)
  | CNot e => VNot (conv skip e)                                               (* visitBooleanNegation, :628 *)
  | CAnd a b => VAnd (conv skip a) (conv skip b)                               (* visitBooleanAnd *)
  | COr a b => VOr (conv skip a) (conv skip b)                                 (* visitBooleanOr *)
  | CCmp o a b => VCode (bin_code o (repr (conv skip a)) (repr (conv skip b))) (* visitComparison, :594-613 *)
  | CBin o a b =>                                                              (* operationExpr, :1227-1252 *)
      let plain := operation o (add_parens a (conv skip a)) (add_parens b (conv skip b)) in
      match o, skip with
      | OAdd, false =>
          match extract a with
          | Some l => func_code (ospath "join") (l ++ [conv true b])
          | None => if is_operator (conv true a) then func_code (ospath "join") [conv true a; conv true b] else plain
          end
      | _, _ => plain
      end
  | CCall f args => func_call lib f (map (conv skip) args)
  end
with extract (t : ctx) {struct t} : option (list val) :=
  match t with
  | CCall f (x :: _) =>
      if is f "addbs" then
        match x with
        | CBin OAdd l r => Some (match extract l with Some q => q | None => [conv true l] end ++ [conv true r])
        | _ => Some [conv true x]
        end
      else None
  | _ => None
  end.
(* the text of an expression: convert(), vfp2py.py: the tree is cleaned, then visited *)
Definition convert (t : ctx) : val := conv false (clean t).
Definition code (t : ctx) : list tok := repr (convert t).
End conv.

(** ** visitAssign, vfp2py_convert_visitor.py:565-585, for one target: its value is kept in code form when it is not a CodeStr *)
Inductive stmt := SSet (target : list tok) (value : list tok) | SAug (target : list tok) (o : op) (value : list tok).
Fixpoint strip (p ts : list tok) (eqb : tok -> tok -> bool) : option (list tok) :=
  match p, ts with
  | [], _ => Some ts
  | x :: p, y :: ts => if eqb x y then strip p ts eqb else None
  | _ :: _, [] => None
  end.
Definition tok_eqb (a b : tok) : bool :=
  match a, b with
  | Id s, Id t => pystr_eqb s t
  | IntT n, IntT m => n =? m
  | StrT s, StrT t => pystr_eqb s t
  | Op o, Op p => match o, p with OOr, OOr | OAnd, OAnd | OAdd, OAdd | OSub, OSub | OMul, OMul | ODiv, ODiv | OMod, OMod | OPow, OPow => true | _, _ => false end
  | Not, Not | Tilde, Tilde | If, If | Else, Else | Lp, Lp | Rp, Rp | Lb, Lb | Rb, Rb | Colon, Colon | Comma, Comma | Dot, Dot => true
  | _, _ => false
  end.
Definition assign (target : list tok) (v : val) : stmt :=
  match v with
  | VCode ts =>
      match strip target ts tok_eqb with
      | Some (Op o :: rest) =>
          match o with OAdd | OSub | OMul | ODiv => SAug target o rest | _ => SSet target ts end
      | _ => SSet target ts
      end
  | _ => SSet target (repr v)
  end.
(* visitForStart, vfp2py_convert_visitor.py:462-471: the arguments of range *)
Definition for_range (start stop : val) (step : option val) : list val :=
  [int_of start; plus (int_of stop) (VInt 1)] ++ match step with Some s => [int_of s] | None => [] end.
