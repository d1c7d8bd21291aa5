(** What a FoxPro expression says: the grammar of the language, with its precedence. *)
From Verif Require Import PyBase PyStr M_Lexer S_Lexer S_Py M_Conv S_Conv.
From Verif Require M_Call.
Open Scope Z_scope.

Definition sym (t : string) : piece := Sym (match find (fun p => String.eqb (snd p) t) symbols with Some p => fst p | None => ""%string end) t.
(** The names of variables and functions: all words but the operators and constants, and DB4 and _ *)
Definition down (c : Z) : Z := if (65 <=? c) && (c <=? 90) then c + 32 else c.
Definition small (w : pystr) : pystr := map down w.
Definition named (w : pystr) : Prop := word w = true /\ ~ In (upper w) (map u ["AND"; "OR"; "NOT"; "NULL"; "DB4"; "_"; "CLASS"]%string).
(** How tightly operators bind, from the loosest on: OR, AND, NOT, comparisons, sums, %, products, powers, signs *)
Inductive binary : nat -> list piece -> (ctx -> ctx -> ctx) -> Prop :=
| B_or w : upper w = u "OR" -> binary 0 [Word w] COr
| B_or_dots w : upper w = u "OR" -> binary 0 [Dotted "OTHEROR" w] COr
| B_and w : upper w = u "AND" -> binary 1 [Word w] CAnd
| B_and_dots w : upper w = u "AND" -> binary 1 [Dotted "OTHERAND" w] CAnd
| B_comparison t o : In (t, o) [("=", OEq); ("==", OEq); ("<>", ONe); ("!=", ONe); ("#", ONe); ("<", OLt); (">", OGt); ("<=", OLe); ("=<", OLe); (">=", OGe); ("=>", OGe); ("$", OIn)]%string ->
    binary 3 [sym t] (CCmp o)
| B_sum t o : In (t, o) [("+", OAdd); ("-", OSub)]%string -> binary 4 [sym t] (CBin o)
| B_modulo : binary 5 [sym "%"] (CBin OMod)
| B_product t o : In (t, o) [("*", OMul); ("/", ODiv)]%string -> binary 6 [sym t] (CBin o)
| B_power : binary 7 [sym "^"] (CBin OPow)
| B_power_stars : binary 7 [sym "*"; sym "*"] (CBin OPow).
Inductive negation : piece -> Prop :=
| N_word w : upper w = u "NOT" -> negation (Word w)
| N_dots w : upper w = u "NOT" -> negation (Dotted "OTHERNOT" w)
| N_mark : negation (sym "!").
(** The name of the function that a name calls: abbreviations of at least four letters and other names of built-in functions stand for them (C50, C110) *)
Definition called (w : pystr) : pystr := M_Call.resolve (small w).
Inductive says : nat -> list piece -> ctx -> Prop :=
| Y_up n ps t : says (S n) ps t -> says n ps t
| Y_binary n o f a x b y : binary n o f -> says n a x -> says (S n) b y -> says n (a ++ o ++ b) (f x y)
| Y_not p a x : negation p -> says 2 a x -> says 2 (p :: a) (CNot x)
| Y_sign (m : bool) a x : says 8 a x -> says 8 (sym (if m then "-" else "+") :: a) (CSign m x)
| Y_parentheses a x : says 0 a x -> says 9 (sym "(" :: a ++ [sym ")"]) (CSub x)
| Y_number ds : says 9 [Number ds None] (CInt (digits_value ds))
| Y_text q s : says 9 [Quoted q s] (CStr s)
| Y_bool w c b : upper w = u c -> In (c, b) [("T", true); ("Y", true); ("F", false); ("N", false)]%string -> says 9 [sym "."; Word w; sym "."] (CBool b)
| Y_null w : upper w = u "NULL" -> says 9 [Word w] CNull
| Y_null_dots w : upper w = u "NULL" -> says 9 [sym "."; Word w; sym "."] CNull
| Y_name w : named w -> says 9 [Word w] (CVar (small w))
| Y_call w ps l : named w -> says_all ps l -> says 9 (Word w :: sym "(" :: ps ++ [sym ")"]) (CCall (called w) l)
with says_all : list piece -> list ctx -> Prop :=
| Z_none : says_all [] []
| Z_one ps t : says 0 ps t -> says_all ps [t]
| Z_more ps t qs l : says 0 ps t -> says_all qs l -> l <> [] -> says_all (ps ++ sym "," :: qs) (t :: l).

(** What the parser makes of NOT: it takes only the first operand of what follows. *)
Fixpoint first_operand (t : ctx) : ctx := match t with CBin _ a _ | CCmp _ a _ | CAnd a _ | COr a _ => first_operand a | _ => t end.
Fixpoint with_first (h t : ctx) : ctx :=
  match t with CBin o a b => CBin o (with_first h a) b | CCmp o a b => CCmp o (with_first h a) b | CAnd a b => CAnd (with_first h a) b | COr a b => COr (with_first h a) b | _ => h end.
Fixpoint regrouped (t : ctx) : ctx :=
  match t with
  | CNot e => let e := regrouped e in with_first (CNot (first_operand e)) e
  | CSub e => CSub (regrouped e)
  | CSign m e => CSign m (regrouped e)
  | CBin o a b => CBin o (regrouped a) (regrouped b)
  | CCmp o a b => CCmp o (regrouped a) (regrouped b)
  | CAnd a b => CAnd (regrouped a) (regrouped b)
  | COr a b => COr (regrouped a) (regrouped b)
  | CCall f l => CCall f (map regrouped l)
  | _ => t
  end.
(** The expressions for which that does no harm: what NOT applies to does not begin with a text constant, nor with a sum whose first summand is no operation,
    nor with parentheses before an arithmetic operator, nor with two powers. *)
Fixpoint begins_ok (t : ctx) : bool :=
  match t with
  | CCmp _ a _ => begins_ok a
  | CBin o a _ => match o, a with OAdd, CBin _ _ _ => begins_ok a | OAdd, _ | _, CSub _ | OPow, CBin OPow _ _ => false | _, _ => begins_ok a end
  | _ => true
  end.
Fixpoint nots_ok (t : ctx) : Prop :=
  match t with
  | CNot e => nots_ok e /\ match e with CNot _ => True | _ => begins_ok e = true /\ forall s, joined (mean (first_operand e)) <> EStr s end
  | CSub e => nots_ok e
  | CAnd a b | COr a b => nots_ok a /\ nots_ok b
  | _ => True
  end.
(** Combinations of AND, OR and NOT over operands that the converter does not get wrong (S_Conv) *)
Fixpoint conditions (lib : pystr -> bool) (t : ctx) : Prop :=
  match t with
  | CAnd a b | COr a b => conditions lib a /\ conditions lib b
  | CNot e | CSub e => conditions lib e
  | _ => tame lib t /\ forall s, joined (mean t) <> EStr s
  end.
