(** FoxPro's rules for scoped table commands, stated on record numbers (first record = 1). *)
From Verif Require Import PyBase M_Db.
Open Scope Z_scope.

(** The records with their numbers. *)
Fixpoint number (n : Z) (rs : list rec) : list (Z * rec) :=
  match rs with [] => [] | r :: rs => (n, r) :: number (n + 1) rs end.
Fixpoint take_while {A} (q : A -> bool) (l : list A) : list A :=
  match l with [] => [] | x :: r => if q x then x :: take_while q r else [] end.
(** Is record n within the scope, the record pointer being at record `here`? *)
Definition in_scope (sc : scope) (here n : Z) : bool :=
  match sc with
  | ScAll => true
  | ScRest => here <=? n
  | ScNext k => (here <=? n) && (n <? here + k)
  | ScRecord k => n =? k
  end.
(** The records a command processes: those in the scope, up to the first that fails WHILE, that satisfy FOR. *)
Definition selected (sc : scope) (here : Z) (for_p while_p : Z -> rec -> bool) (rs : list rec) : list (Z * rec) :=
  filter (fun x => for_p (fst x) (snd x))
    (take_while (fun x => while_p (fst x) (snd x))
       (filter (fun x => in_scope sc here (fst x)) (number 1 rs))).
(** The table after applying f to the records in `sel` (by number). *)
Definition touch (f : rec -> rec) (sel : list (Z * rec)) (rs : list rec) : list rec :=
  map (fun x => if existsb (Z.eqb (fst x)) (map fst sel) then f (snd x) else snd x) (number 1 rs).
(** A condition that depends only on the record at the pointer of the current work area (and its number). *)
Definition reads_record (c : option cond_fn) (p : Z -> rec -> bool) : Prop :=
  forall d w r, ws_at d (cur d) = Ok w -> t_record (w_tab w) = Some r -> run_cond c d = Ok (p (t_idx (w_tab w) + 1) r).
