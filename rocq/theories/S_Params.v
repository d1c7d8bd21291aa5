(** What a caller may observe of a procedure call. *)
From Verif Require Import PyBase M_Memvar M_Params.

Section ParamsSpec.
  Context {V : Type} (pyfalse : V).

  (** Number of procedure activations in a run that were entered and then left by an exception. *)
  Fixpoint abnormal_exits (p : prog V) (s : rt V) : nat :=
    match p with
    | PRet _ | PRaise _ => 0
    | POp o k => let (r, m) := mem_step pyfalse (mem s) (op_of o) in
                 abnormal_exits (k r) (mkRt m (pcounts s) (nparams s))
    | PPcount k => abnormal_exits (k (pcount s)) s
    | PCall kind vs fn args body k =>
      let '(s1, e) := enter pyfalse kind vs fn args s in
      let inside := match e with
                    | Ok passed => if Nat.eqb (length passed) (co_argcount fn) then abnormal_exits body s1 else 0%nat
                    | Err _ => 0%nat
                    end in
      let '(r, s2) := scoper pyfalse kind vs fn args (exec pyfalse body) s in
      let here := match r with
                  | Ok _ => 0%nat
                  | Err _ => match vs, is_method fn, args with
                             | _ :: _, true, [] => 0%nat      (* rejected before a scope is pushed *)
                             | _, _, _ => 1%nat
                             end
                  end in
      (inside + here + abnormal_exits (k r) s2)%nat
    end.

  (** The program never declares x PUBLIC. *)
  Inductive never_public (x : name) : prog V -> Prop :=
  | NP_ret v : never_public x (PRet v)
  | NP_raise e : never_public x (PRaise e)
  | NP_op o k : (forall a kw, o = UPublic a kw -> ~ In x a /\ ~ In x (map fst kw)) ->
                (forall r, never_public x (k r)) -> never_public x (POp o k)
  | NP_pcount k : (forall r, never_public x (k r)) -> never_public x (PPcount k)
  | NP_call kind vs fn args body k : never_public x body -> (forall r, never_public x (k r)) ->
                never_public x (PCall kind vs fn args body k).

  Definition depth (s : rt V) : nat := length (public_scopes (mem s)).
End ParamsSpec.
