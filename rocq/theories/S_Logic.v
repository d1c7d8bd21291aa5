(** FoxPro's functions on numbers, logical values and NULL, and the arguments for which their inlined code is examined. *)
From Verif Require Import PyBase PyStr S_Py S_PyEval M_Conv S_Conv S_Inline.
Open Scope Z_scope.

(** EMPTY: zero, a string of nothing but blanks, .F.; NULL is not empty *)
Definition is_blank (c : Z) : bool := existsb (Z.eqb c) [32; 9; 10; 13].
Definition fox_empty (v : pval) : bool :=
  match v with PI n => n =? 0 | PS s => forallb is_blank s | PB b => negb b | PN => false | PT _ => false end.
Definition fox_nvl (v w : pval) : pval := match v with PN => w | _ => v end.
Definition fox_evl (v w : pval) : pval := if fox_empty v then w else v.
(** MOD: the remainder has the sign of the divisor *)
Definition fox_mod (x y r : Z) : Prop := (exists q, x = q * y + r) /\ (0 <= r < y \/ y < r <= 0).
(** ROUND to 10 ^ -d: the nearest multiple, of two the one further from zero *)
Definition fox_round (n d v : Z) : Prop :=
  if 0 <=? d then v = n
  else let p := 10 ^ (- d) in (exists q, v = q * p) /\ 2 * Z.abs (n - v) <= p /\ (2 * Z.abs (n - v) = p -> Z.abs n < Z.abs v).
Definition halfway (n d : Z) : Prop := d < 0 /\ 2 * (n mod 10 ^ (- d)) = 10 ^ (- d).

(** An argument with the value v, as for [number] in S_Inline; a comparison is told apart because its code has no parentheses *)
Definition valued lib env (t : ctx) (v : pval) : Prop := produced t /\ tame lib t /\ pev env (mean t) = Some v.
Definition not_comparison (t : ctx) : Prop := match core t with CCmp _ _ _ => False | _ => True end.
(** Without a sum, and without a sum, product or remainder, outside of inner parentheses; the parentheses around an argument do not count *)
Definition no_sum (t : ctx) : Prop := match core t with CBin (OAdd | OSub) _ _ | CCmp _ _ _ => False | _ => True end.
Definition no_product (t : ctx) : Prop := match core t with CBin OPow _ _ => True | CBin _ _ _ | CCmp _ _ _ => False | _ => True end.
