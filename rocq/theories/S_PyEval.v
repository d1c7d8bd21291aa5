(** What Python computes for the expressions the converter inlines, on integers, strings and booleans.

    [None] stands for an exception and for what is left out (floats, dates, objects): theorems only claim the [Some] cases.
    Variables are the attributes of the converter's scope object S. *)
From Verif Require Import PyBase PyStr S_Py.
Open Scope Z_scope.

Inductive pval := PI (n : Z) | PS (s : pystr) | PB (b : bool) | PN | PT (l : list pval).
Definition truth (v : pval) : bool :=
  match v with PI n => negb (n =? 0) | PS s => match s with [] => false | _ => true end | PB b => b | PN => false
  | PT l => match l with [] => false | _ => true end end.
Definition is_u (s : pystr) (t : string) : bool := pystr_eqb s (u t).

Definition un (o : unop) (v : pval) : option pval :=
  match o, v with UNeg, PI n => Some (PI (- n)) | UPos, PI n => Some (PI n) | UInv, PI n => Some (PI (- n - 1)) | _, _ => None end.
Definition bin (o : op) (a b : pval) : option pval :=
  match a, b with
  | PI x, PI y =>
      match o with
      | OAdd => Some (PI (x + y)) | OSub => Some (PI (x - y)) | OMul => Some (PI (x * y))
      | OMod => if y =? 0 then None else Some (PI (x mod y))
      | OPow => if y <? 0 then None else Some (PI (x ^ y))
      | OBand => Some (PI (Z.land x y)) | OBor => Some (PI (Z.lor x y)) | OBxor => Some (PI (Z.lxor x y))
      | OShl => if y <? 0 then None else Some (PI (x * 2 ^ y)) | OShr => if y <? 0 then None else Some (PI (x / 2 ^ y))
      | _ => None
      end
  | PS x, PS y => match o with OAdd => Some (PS (x ++ y)) | _ => None end
  | PS x, PI y => match o with OMul => Some (PS (concat (py_repeat x y))) | _ => None end
  | PI x, PS y => match o with OMul => Some (PS (concat (py_repeat y x))) | _ => None end
  | _, _ => None
  end.
(** x == y for the members of a tuple (tuples in tuples are left out); True and False count as 1 and 0 *)
Definition veq (x y : pval) : bool :=
  match x, y with
  | PI a, PI b => a =? b
  | PS a, PS b => pystr_eqb a b
  | PB a, PB b => Bool.eqb a b
  | PI a, PB b | PB b, PI a => a =? (if b then 1 else 0)
  | PN, PN => true
  | _, _ => false
  end.
Definition cmp (o : op) (a b : pval) : option bool :=
  match a, b with
  | _, PT l => match o with OIn => Some (existsb (veq a) l) | _ => None end
  | PI x, PI y =>
      match o with
      | OLt => Some (x <? y) | OLe => Some (x <=? y) | OGt => Some (y <? x) | OGe => Some (y <=? x)
      | OEq => Some (x =? y) | ONe => Some (negb (x =? y)) | OIsNot => None | _ => None
      end
  | PS x, PS y =>
      match o with
      | OEq => Some (pystr_eqb x y) | ONe => Some (negb (pystr_eqb x y)) | OIn => Some (0 <=? str_find y x) | _ => None
      end
  | PN, PN => match o with OEq | OIs => Some true | ONe | OIsNot => Some false | _ => None end
  | PN, _ | _, PN => match o with OEq | OIs => Some false | ONe | OIsNot => Some true | _ => None end
  | _, _ => None
  end.
Definition meth (s : pystr) (m : pystr) (args : list pval) : option pval :=
  match args with
  | [PS x] => if is_u m "find" then Some (PI (str_find s x)) else if is_u m "rfind" then Some (PI (str_rfind s x))
              else if is_u m "count" then Some (PI (str_count s x)) else None
  | [PI n] => if is_u m "ljust" then Some (PS (s ++ py_repeat 32 (n - zlen s))) else if is_u m "rjust" then Some (PS (py_repeat 32 (n - zlen s) ++ s)) else None
  | [PI n; PS [c]] => if is_u m "ljust" then Some (PS (s ++ py_repeat c (n - zlen s))) else if is_u m "rjust" then Some (PS (py_repeat c (n - zlen s) ++ s)) else None
  | _ => None
  end.
(** round(n, d) on an integer n: to the nearest multiple of 10 ^ -d, to the even one of two *)
Definition py_round (n d : Z) : Z :=
  if 0 <=? d then n
  else
    let p := 10 ^ (- d) in
    let q := n / p in
    match 2 * (n mod p) ?= p with Lt => q * p | Gt => (q + 1) * p | Eq => if Z.even q then q * p else (q + 1) * p end.
(** max and min of integers *)
Fixpoint extreme (pick : Z -> Z -> Z) (l : list pval) : option Z :=
  match l with
  | [] => None
  | [PI n] => Some n
  | PI n :: l => match extreme pick l with Some m => Some (pick n m) | None => None end
  | _ => None
  end.
Definition func (f : pystr) (args : list pval) : option pval :=
  match args with
  | [PI n] => if is_u f "int" then Some (PI n) else if is_u f "abs" then Some (PI (Z.abs n)) else None
  | [PS s] => if is_u f "len" then Some (PI (zlen s)) else None
  | [PI n; PI d] => if is_u f "round" then Some (PI (py_round n d)) else if is_u f "max" then Some (PI (Z.max n d))
                    else if is_u f "min" then Some (PI (Z.min n d)) else None
  | _ => if is_u f "max" then option_map PI (extreme Z.max args) else if is_u f "min" then option_map PI (extreme Z.min args) else None
  end.

Section eval.
Variable env : pystr -> option pval.
Fixpoint pev (e : pe) : option pval :=
  match e with
  | EInt n => Some (PI n)
  | EStr s => Some (PS s)
  | EName s => if is_u s "True" then Some (PB true) else if is_u s "False" then Some (PB false) else if is_u s "None" then Some PN else None
  | EAttr (EName o) x => if is_u o "S" then env x else None
  | EAttr _ _ => None
  | EUn o e => match pev e with Some v => un o v | None => None end
  | EBin OAnd a b => match pev a with Some v => if truth v then pev b else Some v | None => None end
  | EBin OOr a b => match pev a with Some v => if truth v then Some v else pev b | None => None end
  | EBin o a b => match pev a, pev b with Some x, Some y => bin o x y | _, _ => None end
  | ENot e => match pev e with Some v => Some (PB (negb (truth v))) | None => None end
  | EIf c a b => match pev c with Some v => if truth v then pev a else pev b | None => None end
  | ECmp a l =>
      (fix chain (x : option pval) (l : list (op * pe)) : option pval :=
         match l with
         | [] => Some (PB true)
         | (o, b) :: l =>
             match x, pev b with
             | Some x, Some y => match cmp o x y with Some true => chain (Some y) l | Some false => Some (PB false) | None => None end
             | _, _ => None
             end
         end) (pev a) l
  | ECall f args =>
      let vs := (fix all (l : list pe) : option (list pval) :=
        match l with [] => Some [] | e :: l => match pev e, all l with Some v, Some vs => Some (v :: vs) | _, _ => None end end) args in
      match vs with
      | None => None
      | Some vs =>
          match f with
          | EName g => func g vs
          | EAttr o m => match pev o with Some (PS s) => meth s m vs | _ => None end
          | _ => None
          end
      end
  | EIdx e i => match pev e, pev i with Some (PS s), Some (PI k) => match py_nth s k with Ok c => Some (PS [c]) | Err _ => None end | _, _ => None end
  | ESlice e a b =>
      let bound x := match x with None => Some None | Some e => match pev e with Some (PI n) => Some (Some n) | _ => None end end in
      match pev e, bound a, bound b with Some (PS s), Some a, Some b => Some (PS (py_slice s a b)) | _, _, _ => None end
  | ETuple l =>
      option_map PT ((fix all (l : list pe) : option (list pval) :=
        match l with [] => Some [] | e :: l => match pev e, all l with Some v, Some vs => Some (v :: vs) | _, _ => None end end) l)
  end.
End eval.

(** The value of a piece of emitted code *)
Definition py_value (env : pystr -> option pval) (ts : list tok) (v : pval) : Prop := exists e, py_parse ts e /\ pev env e = Some v.
