(** The search order FoxPro prescribes. *)
From Verif Require Import PyBase M_Memvar M_Procs.

(** most recent first, each module once *)
Fixpoint keep_first (l : list pyobj) : list pyobj :=
  match l with
  | [] => []
  | x :: r => x :: filter (fun y => negb (pyobj_eqb x y)) (keep_first r)
  end.

(** The SETs still in force, newest first: everything since (and including) the last non-additive one. *)
Fixpoint in_force (newest_first : list (pyobj * bool)) : list pyobj :=
  match newest_first with
  | [] => []
  | (m, additive) :: older => m :: if additive then in_force older else []
  end.

Definition search_order (history : list (pyobj * bool)) : list pyobj := keep_first (in_force (rev history)).

(** a module that defines the procedure and comes before every other one that does *)
Definition first_provider {F} (provides : pyobj -> name -> option F) (mods : list pyobj) (key : name) (f : F) : Prop :=
  exists before m after, mods = before ++ m :: after /\ provides m key = Some f /\
    forall m', In m' before -> provides m' key = None.
