(** Specification of FoxPro arrays: a table of r rows and c columns addressed from 1. *)
From Verif Require Import PyBase.

Section ArraySpec.
  Context {A : Type}.
  (** A write: row, column, value. *)
  Definition write2 := ((Z * Z) * A)%type.

  (** Value of cell (i,j) after a history of writes, oldest first. *)
  Fixpoint cell_after (init : A) (ws : list write2) (i j : Z) : A :=
    match ws with
    | [] => init
    | ((a, b), v) :: rest => cell_after (if (a =? i) && (b =? j) then v else init) rest i j
    end.

  Definition in_bounds (r c i j : Z) : Prop := 1 <= i <= r /\ 1 <= j <= c.

  (** Position of the first element of l satisfying p, counted from 1; None if there is none. *)
  Definition first_at (p : A -> bool) (l : list A) (k : Z) : Prop :=
    exists l1 x l2, l = l1 ++ x :: l2 /\ p x = true /\ (forall y, In y l1 -> p y = false) /\ k = zlen l1 + 1.
End ArraySpec.
