(** Model of the parameters/lparameters decorators and PCOUNT(), vfp2py/vfpfunc.py:54, 1394-1395, 1727-1777,
    together with a language of procedure bodies: what converted code can do to the variable scopes. *)
From Verif Require Import PyBase M_Memvar.
Open Scope res_scope.

Section ParamsModel.
  Context {V : Type}.
  Variable pyfalse : V.

  (** The module globals involved: M, PCOUNTS (innermost last), PARAMETERS. *)
  Record rt := mkRt { mem : memvar V; pcounts : list Z; nparams : Z }.

  (** What the decorator reads of the decorated function: fn.__code__.co_varnames (arguments first, then every
      local variable of the body) and the number of positional arguments the call will check. *)
  Record fnobj := mkFn { co_varnames : list name; co_argcount : nat }.

  Inductive pkind := PLocal | PPrivate.   (* lparameters / parameters, vfpfunc.py:1773-1777 *)

  (** vfpfunc.py:1394-1395 pcount *)
  Definition pcount (s : rt) : res Z := py_nth (pcounts s) (-1).

  Definition push_frame (s : rt) (n : Z) : rt :=
    mkRt (pushscope (mem s)) (pcounts s ++ [n]) n.

  (** `{name: arg for name, arg in zip(varnames, args)}` *)
  Definition zip_dict (names : list name) (args : list V) : list (name * V) :=
    fold_left (fun d kv => dset String.eqb d (fst kv) (snd kv)) (combine names args) [].

  Definition is_method (fn : fnobj) : bool :=
    match co_varnames fn with [x] => String.eqb x "self" | _ => false end.

  (** First half of the three `scoper` functions (vfpfunc.py:1732-1741, 1746-1755, 1760-1764), up to the call of fn:
      the state reached and either an exception or the positional arguments passed to fn. *)
  Definition bind_params (kind : pkind) (varnames : list name) (args passed : list V) (s : rt) : rt * res (list V) :=
    let s1 := push_frame s (zlen args) in
    let kwargs := zip_dict varnames args in
    let rest := skipn (length args) varnames in
    let r := match kind with
             | PLocal => add_local pyfalse (mem s1) rest kwargs
             | PPrivate => add_private pyfalse (mem s1) rest kwargs
             end in
    match r with
    | Err e => (s1, Err e)
    | Ok m => (mkRt m (pcounts s1) (nparams s1), Ok passed)
    end.

  Definition enter (kind : pkind) (varnames : list name) (fn : fnobj) (args : list V) (s : rt) : rt * res (list V) :=
    match varnames with
    | [] => (push_frame s 0, Ok args)                       (* 1758-1764: fn( *args ) *)
    | _ =>
      if is_method fn then
        match args with
        | [] => (s, Err TypeError)                          (* scoper(self, *args) called without self *)
        | self :: args' => bind_params kind varnames args' [self] s    (* fn(self) *)
        end
      else bind_params kind varnames args [] s               (* fn() *)
    end.

  (** Second half: PCOUNTS.pop(); M.popscope().  Not protected by try/finally. *)
  Definition leave (s : rt) : res rt :=
    match rev (pcounts s) with
    | [] => Err IndexError
    | _ :: p => do m <- popscope (mem s); Ok (mkRt m (rev p) (nparams s))
    end.

  (** The whole decorated call. *)
  Definition scoper (kind : pkind) (varnames : list name) (fn : fnobj) (args : list V)
             (body : rt -> res V * rt) (s : rt) : res V * rt :=
    match enter kind varnames fn args s with
    | (s1, Err e) => (Err e, s1)
    | (s1, Ok passed) =>
      if Nat.eqb (length passed) (co_argcount fn) then
        match body s1 with
        | (Err e, s2) => (Err e, s2)
        | (Ok v, s2) => match leave s2 with Ok s3 => (Ok v, s3) | Err e => (Err e, s2) end
        end
      else (Err TypeError, s1)
    end.

  (** Operations on variables available to converted code (scopes are pushed and popped by calls only). *)
  Inductive uop :=
  | UGet (k : name) | UContains (k : name) | USet (k : name) (v : V) | UDel (k : name)
  | ULocal (args : list name) (kw : list (name * V))
  | UPrivate (args : list name) (kw : list (name * V))
  | UPublic (args : list name) (kw : list (name * V))
  | URelease.
  Definition op_of (o : uop) : op V :=
    match o with
    | UGet k => OGet k | UContains k => OContains k | USet k v => OSet k v | UDel k => ODel k
    | ULocal a kw => OAddLocal a kw | UPrivate a kw => OAddPrivate a kw | UPublic a kw => OAddPublic a kw
    | URelease => ORelease
    end.

  (** Procedure bodies as decision trees: after every step the continuation sees the result (or the exception, which it may
      catch, as TRY/CATCH does) and decides how to go on.  Every terminating converted procedure is such a tree. *)
  Inductive prog :=
  | PRet (v : V)
  | PRaise (e : exc)
  | POp (o : uop) (k : res (out V) -> prog)
  | PPcount (k : res Z -> prog)
  | PCall (kind : pkind) (varnames : list name) (fn : fnobj) (args : list V) (body : prog) (k : res V -> prog).

  Fixpoint exec (p : prog) (s : rt) : res V * rt :=
    match p with
    | PRet v => (Ok v, s)
    | PRaise e => (Err e, s)
    | POp o k => let (r, m) := mem_step pyfalse (mem s) (op_of o) in
                 exec (k r) (mkRt m (pcounts s) (nparams s))
    | PPcount k => exec (k (pcount s)) s
    | PCall kind vs fn args body k =>
      let (r, s1) := scoper kind vs fn args (exec body) s in exec (k r) s1
    end.
End ParamsModel.
Arguments rt V : clear implicits.
Arguments prog V : clear implicits.
Arguments uop V : clear implicits.
