(** What a converted expression should mean, stated on the FoxPro parse tree. *)
From Verif Require Import PyBase PyStr S_Py M_Conv.
From Verif Require M_Call.
Open Scope Z_scope.

(** The tree of a call: of the Python function of the same name, of the operation it stands for, or of the function of the program *)
Definition same_name : list string := ["len"; "abs"; "round"; "max"; "min"]%string.
Definition call_mean (f : pystr) (l : list pe) : pe :=
  let own := ECall (EAttr (EName (u "F")) f) l in
  if isin f same_name then ECall (EName f) l
  else match l with
       | [x; y; z] => if is f "iif" then EIf x y z else if is f "between" then ECmp y [(OLe, x); (OLe, z)] else own
       | [x; y] => if is f "mod" then EBin OMod x y else own
       | _ => own
       end.
(** The operator tree of an expression: parentheses and unary plus only group. *)
Fixpoint mean (t : ctx) : pe :=
  match t with
  | CVar s => EAttr (EName (u "S")) s
  | CInt n => EInt n
  | CStr s => EStr s
  | CBool b => EName (u (if b then "True" else "False"))
  | CNull => EName (u "None")
  | CSub e => mean e
  | CSign true e => EUn UNeg (mean e)
  | CSign false e => mean e
  | CNot e => ENot (mean e)
  | CBin o a b => EBin o (mean a) (mean b)
  | CCmp o a b => ECmp (mean a) [(o, mean b)]
  | CAnd a b => EBin OAnd (mean a) (mean b)
  | COr a b => EBin OOr (mean a) (mean b)
  | CCall f args => call_mean f (map mean args)
  end.
(** Joining string constants that are added: 'a' + 'b' and 'ab' are taken to be the same tree. *)
Fixpoint joined (e : pe) : pe :=
  match e with
  | EBin OAdd a b => match joined a, joined b with EStr x, EStr y => EStr (x ++ y) | a, b => EBin OAdd a b end
  | EBin o a b => EBin o (joined a) (joined b)
  | EUn o e => EUn o (joined e)
  | ENot e => ENot (joined e)
  | ECmp a l => ECmp (joined a) (map (fun p => (fst p, joined (snd p))) l)
  | EIf c a b => EIf (joined c) (joined a) (joined b)
  | ECall f l => ECall (joined f) (map joined l)
  | EAttr e s => EAttr (joined e) s
  | _ => e
  end.
(** The code means the expression *)
Definition means (ts : list tok) (t : ctx) : Prop := exists e, py_parse ts e /\ joined e = joined (mean t).

(** How tightly the rule expr of the grammar binds (VisualFoxpro9.g4:333-346) *)
Definition tight (t : ctx) : nat :=
  match t with
  | COr _ _ => 1 | CAnd _ _ => 2 | CCmp _ _ _ => 3
  | CBin (OAdd | OSub) _ _ => 4 | CBin OMod _ _ => 5 | CBin (OMul | ODiv) _ _ => 6 | CBin _ _ _ => 7
  | CNot _ => 8 | CSign _ _ => 9 | _ => 10
  end.
Definition arith_op (o : op) : bool := match o with OPow | OMul | ODiv | OMod | OAdd | OSub => true | _ => false end.
Definition cmp_op (o : op) : bool := match o with OLt | OLe | OGt | OGe | OEq | ONe | OIn => true | _ => false end.
(** Trees the grammar produces *)
Fixpoint produced (t : ctx) : Prop :=
  match t with
  | CVar _ | CStr _ | CBool _ | CNull => True
  | CInt n => 0 <= n
  | CSub e => produced e
  | CSign _ e => (8 <= tight e)%nat /\ produced e
  | CNot e => (8 <= tight e)%nat /\ produced e
  | CBin o a b => arith_op o = true /\ (tight t <= tight a)%nat /\ (tight t < tight b)%nat /\ produced a /\ produced b
  | CCmp o a b => cmp_op o = true /\ (tight t <= tight a)%nat /\ (tight t < tight b)%nat /\ produced a /\ produced b
  | CAnd a b | COr a b => (tight t <= tight a)%nat /\ (tight t < tight b)%nat /\ produced a /\ produced b
  | CCall f args => (fix all l := match l with [] => True | x :: l => produced x /\ all l end) args
  end.
(** Without the outer parentheses *)
Fixpoint core (t : ctx) : ctx := match t with CSub e => core e | _ => t end.
Definition atomic (t : ctx) : bool := match t with CVar _ | CInt _ | CStr _ | CBool _ | CNull | CCall _ _ => true | _ => false end.

(** Functions that func_call does not inline.  The names are those after the replacement of abbreviations and other names (M_Call.resolve). *)
Definition inlined : list string :=
  ["space"; "len"; "empty"; "occurs"; "at"; "rat"; "replicate"; "iif"; "between"; "nvl"; "evl"; "sign"; "padr"; "padl"; "padc"; "alltrim";
   "ltrim"; "rtrim"; "lower"; "upper"; "proper"; "right"; "left"; "substr"; "bitand"; "bitclear"; "bitlshift"; "bitnot"; "bitor"; "bitrshift";
   "bitset"; "bittest"; "bitxor"; "abs"; "round"; "max"; "min"; "mod"; "int"; "isnull"; "inlist"; "addbs"; "justpath"; "justfname"]%string.
Definition own_function (lib : pystr -> bool) (f : pystr) : Prop :=
  lib f = false /\ (forall s, In s inlined -> f <> u s) /\
  ~ In f (u "dodefault" :: M_Call.inlined_always ++ map fst M_Call.inlined_with ++ M_Call.inlined_by_value ++ M_Call.db_names).
(** Calls of built-in functions whose code means them: BETWEEN of values that are not comparisons, MOD of single operands *)
Definition builtin_ok (f : pystr) (args : list ctx) : Prop :=
  (isin f same_name = true /\ args <> []) \/
  (f = u "iif" /\ exists x y z, args = [x; y; z]) \/
  (f = u "between" /\ exists x y z, args = [x; y; z] /\ Forall (fun t => match core t with CCmp _ _ _ => False | _ => True end) args) \/
  (f = u "mod" /\ exists x y, args = [x; y] /\ atomic (core x) = true /\ atomic (core y) = true).

(** Arithmetic and comparisons free of the constructions that the converter is known to get wrong:
    - a sign applied to a parenthesised operation, a minus directly over another sign;
    - an unparenthesised signed base of a power;
    - an unparenthesised product or quotient to the right of a modulo;
    - a comparison whose operand is, inside any parentheses, itself a comparison. *)
Fixpoint tame (lib : pystr -> bool) (t : ctx) : Prop :=
  match t with
  | CVar _ | CInt _ | CStr _ | CBool _ | CNull => True
  | CSub e => tame lib e
  | CSign m e => tame lib e /\ match core e with CSign _ _ => True | x => atomic x = true end /\ (m = true -> match e with CSign _ _ => False | _ => True end)
  | CNot _ | CAnd _ _ | COr _ _ => False
  | CBin o a b =>
      tame lib a /\ tame lib b /\
      match o with
      | OPow => match a with CSign _ _ => False | _ => True end
      | OMod => match b with CBin (OMul | ODiv) _ _ => False | _ => True end
      | _ => True
      end
  | CCmp _ a b => tame lib a /\ tame lib b /\ match core a with CCmp _ _ _ => False | _ => True end /\ match core b with CCmp _ _ _ => False | _ => True end
  | CCall f args => (own_function lib f \/ builtin_ok f args) /\ (fix all l := match l with [] => True | x :: l => tame lib x /\ all l end) args
  end.

(** Combinations of AND, OR and NOT over arithmetic and comparisons *)
Fixpoint boolean (lib : pystr -> bool) (t : ctx) : Prop :=
  match t with
  | CAnd a b | COr a b => boolean lib a /\ boolean lib b
  | CNot e => boolean lib e
  | CSub e => boolean lib e
  | _ => produced t /\ tame lib t /\ forall s, joined (mean t) <> EStr s
  end.
(** Their truth value, given that of the operands *)
Fixpoint holds (rho : pe -> bool) (t : ctx) : bool :=
  match t with
  | CAnd a b => holds rho a && holds rho b
  | COr a b => holds rho a || holds rho b
  | CNot e => negb (holds rho e)
  | CSub e => holds rho e
  | _ => rho (joined (mean t))
  end.
Fixpoint py_holds (rho : pe -> bool) (e : pe) : bool :=
  match e with
  | EBin OAnd a b => py_holds rho a && py_holds rho b
  | EBin OOr a b => py_holds rho a || py_holds rho b
  | ENot e => negb (py_holds rho e)
  | _ => rho (joined e)
  end.
