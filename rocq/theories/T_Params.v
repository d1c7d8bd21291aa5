(** Property theorems C06-C08 and C53: procedure calls. *)
From Verif Require Import PyBase M_Memvar S_Memvar P_Memvar M_Params S_Params P_Params.

(** C06: a call that returns normally, when no exception escaped an activation inside it, gives the caller back its
    LOCALs (of every frame on the chain) and the PCOUNT stack unchanged, and no name is bound in any frame of the
    caller that was not bound there before (unless the callee declared it PUBLIC). *)
Theorem C06_call_restores_caller :
  forall (V : Type) (pyfalse : V) kind vs fn args (body : prog V) (s s' : rt V) (v : V),
  exec pyfalse (PCall kind vs fn args body (fun r => match r with Ok w => PRet w | Err e => PRaise e end)) s = (Ok v, s') ->
  abnormal_exits pyfalse (PCall kind vs fn args body (fun r => match r with Ok w => PRet w | Err e => PRaise e end)) s = 0%nat ->
  local_scopes (mem s') = local_scopes (mem s) /\ pcounts s' = pcounts s /\
  length (public_scopes (mem s')) = length (public_scopes (mem s)) /\
  (forall x, never_public x body -> forall n d d',
     nth_error (public_scopes (mem s)) n = Some d -> nth_error (public_scopes (mem s')) n = Some d' ->
     sget d' x <> None -> sget d x <> None).
Proof.
  intros V pyfalse kind vs fn args body s s' v He Ha. cbn [exec] in He.
  destruct (scoper pyfalse kind vs fn args (exec pyfalse body) s) as [r s1] eqn:Es.
  destruct r as [w|e]; cbn [exec] in He; [|discriminate]. injection He as <- <-.
  apply (call_restores pyfalse kind vs fn args body s w s1 Es).
  cbn [abnormal_exits] in Ha |- *. rewrite Es in *. cbn [abnormal_exits] in *.
  destruct (enter pyfalse kind vs fn args s) as [s0 e0]. exact Ha.
Qed.
Print Assumptions C06_call_restores_caller.

(** C06: inside a call, any name that is not a parameter reads as if the caller had no LOCALs at all. *)
Theorem C06_caller_locals_invisible :
  forall (V : Type) (pyfalse : V) kind vs fn args (s : rt V) x,
  NoDup vs -> vs <> [] -> ~ In "self"%string vs -> ~ In "scope"%string vs ->
  co_varnames fn <> ["self"%string] -> co_argcount fn = 0%nat -> ~ In x vs ->
  fst (exec pyfalse (PCall kind vs fn args (read_param x) (fun r => match r with Ok v => PRet v | Err e => PRaise e end)) s)
  = mem_get (mkMem (public_scopes (mem s)) []) x.
Proof. intros V pyfalse. exact (callee_sees pyfalse). Qed.
Print Assumptions C06_caller_locals_invisible.

(** C06: a callee's assignment to a variable visible from an outer frame is read back by the caller. *)
Theorem C06_outer_writes_persist :
  forall (V : Type) (pyfalse : V) kind vs fn args (s : rt V) x v old,
  NoDup vs -> vs <> [] -> ~ In "self"%string vs -> ~ In "scope"%string vs ->
  co_varnames fn <> ["self"%string] -> co_argcount fn = 0%nat -> ~ In x vs ->
  mem_get (mkMem (public_scopes (mem s)) []) x = Ok old ->
  (forall d, In d (local_scopes (mem s)) -> sget d x = None) ->
  fst (exec pyfalse (PCall kind vs fn args (write_var x v)
         (fun r => match r with Ok _ => read_param x | Err e => PRaise e end)) s) = Ok v.
Proof. intros V pyfalse. exact (callee_write_persists pyfalse). Qed.
Print Assumptions C06_outer_writes_persist.

(** A caller with LOCAL l = 5 and PRIVATE p = 6 calls proc(1) with LPARAMETERS a, which sets l, p and a fresh q. *)
Definition ex_state : rt Z := mkRt (mkMem [[]; [("p"%string, 6)]] [[]; [("l"%string, 5)]]) [0] 0.
Definition ex_fn := mkFn [] 0.
Definition ex_body : prog Z :=
  POp (USet "l"%string 50) (fun _ => POp (USet "p"%string 60) (fun _ => POp (USet "q"%string 70) (fun _ => PRet 1))).
Definition ex_call : prog Z :=
  PCall PLocal ["a"%string] ex_fn [1] ex_body (fun r => match r with Ok w => PRet w | Err e => PRaise e end).
Example C06_example :
  exists s', exec 0 ex_call ex_state = (Ok 1, s') /\ abnormal_exits 0 ex_call ex_state = 0%nat /\
    mem_get (mem s') "l"%string = Ok 5 /\ mem_get (mem s') "p"%string = Ok 60 /\
    mem_get (mem s') "q"%string = Err NameError /\ never_public "q"%string ex_body.
Proof.
  eexists. split; [vm_compute; reflexivity|]. repeat split. 
  repeat (constructor; [intros; discriminate|intros ?]). constructor.
Qed.
Example C06_visible_example :
  fst (exec 0 (PCall PLocal ["a"%string] ex_fn [1] (read_param "l"%string)
       (fun r => match r with Ok v => PRet v | Err e => PRaise e end)) ex_state) = Err NameError.
Proof. vm_compute. reflexivity. Qed.

(** C07 as stated is false: a procedure left by an exception keeps its frame and its PCOUNT entry, so a caller that
    catches the exception loses sight of its own LOCALs. *)
Theorem C07_balanced_refuted :
  exists (p : prog Z) (s : rt Z), 
    mem_get (mem s) "l"%string = Ok 5 /\
    (* TRY proc() CATCH ENDTRY; RETURN l *)
    p = PCall PLocal ["a"%string] ex_fn [1] (PRaise (UserError 1)) (fun _ => read_param "l"%string) /\
    fst (exec 0 p s) = Err NameError /\
    length (public_scopes (mem (snd (exec 0 p s)))) = S (length (public_scopes (mem s))) /\
    length (pcounts (snd (exec 0 p s))) = S (length (pcounts s)).
Proof. eexists. exists ex_state. repeat split. Qed.
Print Assumptions C07_balanced_refuted.

(** The strongest true form: each stack grows by exactly the number of activations left by an exception.  In particular
    the stacks are balanced whenever no activation ends that way.  Missing from the full statement: the exceptional exits. *)
Theorem C07_balance_partial :
  forall (V : Type) (pyfalse : V) (p : prog V) (s : rt V),
  let s' := snd (exec pyfalse p s) in let n := abnormal_exits pyfalse p s in
  length (public_scopes (mem s')) = (length (public_scopes (mem s)) + n)%nat /\
  length (local_scopes (mem s')) = (length (local_scopes (mem s)) + n)%nat /\
  length (pcounts s') = (length (pcounts s) + n)%nat.
Proof. intros V pyfalse. exact (exec_balance pyfalse). Qed.
Print Assumptions C07_balance_partial.

(** and then PCOUNT() itself is what it was *)
Theorem C07_pcount_restored_partial :
  forall (V : Type) (pyfalse : V) (p : prog V) (s : rt V),
  abnormal_exits pyfalse p s = 0%nat -> pcounts (snd (exec pyfalse p s)) = pcounts s.
Proof. intros V pyfalse. exact (exec_pcounts pyfalse). Qed.
Print Assumptions C07_pcount_restored_partial.

Example C07_example :
  let p := PCall PLocal ["a"%string] ex_fn [1]
             (PCall PPrivate ["b"%string; "c"%string] ex_fn [2; 3; 4] (PRaise (UserError 1)) (fun _ => PRet 9))
             (fun _ => PRet 8) in
  abnormal_exits 0 p ex_state = 1%nat /\ depth (snd (exec 0 p ex_state)) = 3%nat /\ depth ex_state = 2%nat.
Proof. vm_compute. repeat split. Qed.

(** C08: parameter i of a procedure holds argument i, or .F. when there is none; surplus arguments are ignored.  The
    guard on names is needed, see the refutation below. *)
Theorem C08_parameter_binding_partial :
  forall (V : Type) (pyfalse : V) kind vs fn args (s : rt V) i x,
  NoDup vs -> ~ In "self"%string vs -> ~ In "scope"%string vs ->
  co_varnames fn <> ["self"%string] -> co_argcount fn = 0%nat ->
  nth_error vs i = Some x ->
  fst (exec pyfalse (PCall kind vs fn args (read_param x) (fun r => match r with Ok v => PRet v | Err e => PRaise e end)) s)
  = Ok (nth i args pyfalse).
Proof. intros V pyfalse. exact (call_reads_param pyfalse). Qed.
Print Assumptions C08_parameter_binding_partial.

(** C08: PCOUNT() in the body is the number of arguments (g is whatever the body does with it). *)
Theorem C08_pcount_partial :
  forall (V : Type) (pyfalse : V) kind vs fn args (s : rt V) (g : res Z -> V),
  NoDup vs -> vs <> [] -> ~ In "self"%string vs -> ~ In "scope"%string vs ->
  co_varnames fn <> ["self"%string] -> co_argcount fn = 0%nat ->
  fst (exec pyfalse (PCall kind vs fn args (PPcount (fun r => PRet (g r)))
         (fun r => match r with Ok v => PRet v | Err e => PRaise e end)) s)
  = Ok (g (Ok (zlen args))).
Proof. intros V pyfalse. exact (call_pcount pyfalse). Qed.
Print Assumptions C08_pcount_partial.
(** C08: in a procedure without parameters PCOUNT() is 0, and calling it with arguments fails. *)
Theorem C08_no_parameters_partial :
  forall (V : Type) (pyfalse : V) kind fn (s : rt V) (g : res Z -> V), co_argcount fn = 0%nat ->
  fst (exec pyfalse (PCall kind [] fn [] (PPcount (fun r => PRet (g r))) (fun r => match r with Ok v => PRet v | Err e => PRaise e end)) s)
    = Ok (g (Ok 0)) /\
  forall args body, args <> [] ->
    fst (exec pyfalse (PCall kind [] fn args body (fun r => match r with Ok v => PRet v | Err e => PRaise e end)) s) = Err TypeError.
Proof.
  intros V pyfalse kind fn s g Hn. split.
  - cbn [exec]. unfold scoper, enter. cbn [length]. rewrite Hn. cbn [Nat.eqb exec]. unfold pcount, push_frame. cbn [pcounts].
    assert (E : py_nth (pcounts s ++ [0]) (-1) = Ok 0).
    { unfold py_nth. unfold zlen. rewrite app_length. cbn [length]. destruct (Z.ltb_spec (-1) 0); [|lia].
      replace (-1 + Z.of_nat (length (pcounts s) + 1)) with (Z.of_nat (length (pcounts s))) by lia. cbn [andb orb]. 
      destruct (Z.ltb_spec (Z.of_nat (length (pcounts s))) 0); [lia|]. 
      destruct (Z.leb_spec (Z.of_nat (length (pcounts s) + 1)) (Z.of_nat (length (pcounts s)))); [lia|]. cbn [orb].
      rewrite Nat2Z.id. rewrite nth_error_app2, Nat.sub_diag by lia. reflexivity. }
    rewrite E. unfold leave. cbn [pcounts mem]. rewrite rev_app_distr. cbn [rev app]. unfold pushscope, popscope. cbn. destruct (mem s) as [ps ls]; cbn.
    rewrite ?app_length, ?rev_app_distr. cbn. reflexivity.
  - intros [|a args] body Ha; [congruence|]. cbn [exec]. unfold scoper, enter. rewrite Hn. cbn [length Nat.eqb]. reflexivity.
Qed.
Print Assumptions C08_no_parameters_partial.

Example C08_example :
  forall kind, map (fun x => fst (exec 0 (PCall kind ["a"%string; "b"%string] ex_fn [7] (read_param x)
       (fun r => match r with Ok v => PRet v | Err e => PRaise e end)) ex_state)) ["a"%string; "b"%string] = [Ok 7; Ok 0].
Proof. intros []; vm_compute; reflexivity. Qed.

(** Without the guard the claim is false: a parameter called SCOPE (or SELF) makes every call with an argument fail. *)
Theorem C08_reserved_parameter_refuted :
  exists (s : rt Z), forall kind (body : prog Z),
  fst (exec 0 (PCall kind ["scope"%string] ex_fn [7] body (fun r => match r with Ok v => PRet v | Err e => PRaise e end)) s)
  = Err TypeError.
Proof. exists ex_state. intros [] body; reflexivity. Qed.
Print Assumptions C08_reserved_parameter_refuted.

(** C53: methods.  When the method body has no Python local of its own, its parameters are bound as for a procedure. *)
Theorem C53_method_binding_partial :
  forall (V : Type) (pyfalse : V) kind vs fn self args (s : rt V) i x,
  NoDup vs -> ~ In "self"%string vs -> ~ In "scope"%string vs ->
  co_varnames fn = ["self"%string] -> co_argcount fn = 1%nat ->
  nth_error vs i = Some x ->
  fst (exec pyfalse (PCall kind vs fn (self :: args) (read_param x)
         (fun r => match r with Ok v => PRet v | Err e => PRaise e end)) s)
  = Ok (nth i args pyfalse).
Proof. intros V pyfalse. exact (method_reads_param pyfalse). Qed.
Print Assumptions C53_method_binding_partial.

Example C53_example :
  fst (exec 0 (PCall PLocal ["a"%string; "b"%string] (mkFn ["self"%string] 1) [99; 7; 8] (read_param "b"%string)
       (fun r => match r with Ok v => PRet v | Err e => PRaise e end)) ex_state) = Ok 8.
Proof. vm_compute. reflexivity. Qed.

(** As soon as the body has another Python local (TRY ... CATCH TO err emits `except Exception as err`), every call of
    such a method fails, whatever its body and arguments. *)
Theorem C53_method_with_local_refuted :
  forall (V : Type) (pyfalse : V) kind vs fn self args (s : rt V) (body : prog V) y,
  vs <> [] -> ~ In "self"%string vs -> ~ In "scope"%string vs ->
  co_varnames fn = ["self"%string; y] -> co_argcount fn = 1%nat ->
  fst (exec pyfalse (PCall kind vs fn (self :: args) body
         (fun r => match r with Ok v => PRet v | Err e => PRaise e end)) s) = Err TypeError.
Proof.
  intros V pyfalse kind vs fn self args s body y Hne H1 H2 Hc Ha. cbn [exec].
  destruct (enter pyfalse kind vs fn (self :: args) s) as [s1 e] eqn:En.
  rewrite (scoper_unfold pyfalse kind vs fn _ _ s s1 e En). unfold enter in En.
  destruct vs as [|v0 vs]; [congruence|].
  assert (is_method fn = false) as Hf by (unfold is_method; rewrite Hc; reflexivity). rewrite Hf in En.
  destruct e as [p|e].
  - unfold bind_params in En. destruct kind; match type of En with match ?x with _ => _ end = _ => destruct x end;
      inversion En; subst; cbn [length]; rewrite Ha; reflexivity.
  - assert (bad_keyword (zip_dict (v0 :: vs) (self :: args)) = false) as Hb by (apply not_reserved; assumption).
    exfalso. unfold bind_params, add_local, add_private in En. rewrite Hb in En.
    destruct kind; cbn [push_frame mem pushscope local_scopes public_scopes] in En;
      rewrite upd_last_rev, rev_app_distr in En; cbn in En; discriminate.
Qed.
Print Assumptions C53_method_with_local_refuted.
