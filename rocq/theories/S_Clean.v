(** The value of a FoxPro expression, for any meaning of its operators. *)
From Verif Require Import PyBase PyStr S_Py M_Conv.

Record interp (V : Type) := {
  i_leaf : ctx -> V;                (* variables and constants *)
  i_neg : V -> V; i_not : V -> V;
  i_bin : op -> V -> V -> V; i_cmp : op -> V -> V -> V; i_and : V -> V -> V; i_or : V -> V -> V;
  i_call : pystr -> list V -> V
}.
Section value.
Variable V : Type.
Variable I : interp V.
Fixpoint value (t : ctx) : V :=
  match t with
  | CSub e => value e
  | CSign true e => i_neg V I (value e)
  | CSign false e => value e
  | CNot e => i_not V I (value e)
  | CBin o a b => i_bin V I o (value a) (value b)
  | CCmp o a b => i_cmp V I o (value a) (value b)
  | CAnd a b => i_and V I (value a) (value b)
  | COr a b => i_or V I (value a) (value b)
  | CCall f args => i_call V I f (map value args)
  | _ => i_leaf V I t
  end.
End value.

(** Chains of signs: whether the signs of a chain amount to a minus ... *)
Fixpoint minuses (t : ctx) : bool := match t with CSign m e => xorb m (minuses e) | _ => false end.
(** ... and whether the last sign is a minus that is alone or follows a plus. *)
Fixpoint kept (t : ctx) : bool :=
  match t with
  | CSign m e => match e with CSign m' (CSign _ _) => kept e | CSign m' _ => m' && negb m | _ => m end
  | _ => false
  end.
(** What a chain of signs is applied to *)
Fixpoint base (t : ctx) : ctx := match t with CSign _ e => base e | _ => t end.
(** Every chain of signs in t satisfies minuses = kept; [inside] tells whether t is the operand of a sign *)
Fixpoint signs_ok (inside : bool) (t : ctx) : Prop :=
  match t with
  | CSign m e => (inside = true \/ minuses t = kept t) /\ signs_ok true e
  | CSub e | CNot e => signs_ok false e
  | CBin _ a b | CCmp _ a b | CAnd a b | COr a b => signs_ok false a /\ signs_ok false b
  | CCall _ args => (fix all l := match l with [] => True | x :: l => signs_ok false x /\ all l end) args
  | _ => True
  end.
