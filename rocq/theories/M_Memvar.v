(** Model of class _Memvar, vfp2py/vfpfunc.py:943-1022. *)
From Verif Require Import PyBase.
Open Scope res_scope.

(** Variable names are arbitrary strings (the code lowercases nothing here; the converter emits lower case). *)
Definition name := string.

Section MemvarModel.
  Context {V : Type}.
  Variable pyfalse : V.   (* the Python value False *)

  Definition scope := list (name * V).      (* a Python dict *)
  (** vfpfunc.py:944-946.  Both lists are in Python order: the innermost scope is the last element. *)
  Record memvar := mkMem { public_scopes : list scope; local_scopes : list scope }.
  Definition mem_init : memvar := mkMem [] [].

  Definition sget (d : scope) (k : name) := dget String.eqb d k.
  Definition sset (d : scope) (k : name) (v : V) := dset String.eqb d k v.
  Definition sdel (d : scope) (k : name) := ddel String.eqb d k.
  Definition shas (d : scope) (k : name) := dmem String.eqb d k.

  (** `for scope in l: if key in scope: return scope` *)
  Definition first_with (l : list scope) (k : name) : option scope := find (fun d => shas d k) l.

  (** vfpfunc.py:948-953 _get_scope.  The code returns the dict object; the flag remembers which list it lives in, so
      that a mutation of the returned object can be written back (see mutate). *)
  Definition get_scope (m : memvar) (k : name) : option (bool * scope) :=
    match rev (local_scopes m) with
    | d :: _ => if shas d k then Some (true, d)
                else option_map (pair false) (first_with (rev (public_scopes m)) k)
    | [] => option_map (pair false) (first_with (rev (public_scopes m)) k)
    end.

  (** Mutating the first dict of l that contains k. *)
  Fixpoint upd_first (l : list scope) (k : name) (f : scope -> scope) : list scope :=
    match l with
    | [] => []
    | d :: r => if shas d k then f d :: r else d :: upd_first r k f
    end.
  (** Mutating `l[-1]`. *)
  Definition upd_last (l : list scope) (f : scope -> scope) : res (list scope) :=
    match rev l with [] => Err IndexError | d :: r => Ok (rev (f d :: r)) end.
  Definition upd_head (l : list scope) (f : scope -> scope) : res (list scope) :=
    match l with [] => Err IndexError | d :: r => Ok (f d :: r) end.

  (** Mutating the dict object that get_scope returned. *)
  Definition mutate (m : memvar) (islocal : bool) (k : name) (f : scope -> scope) : memvar :=
    if islocal
    then match upd_last (local_scopes m) f with
         | Ok l => mkMem (public_scopes m) l
         | Err _ => m
         end
    else mkMem (rev (upd_first (rev (public_scopes m)) k f)) (local_scopes m).

  (** vfpfunc.py:965-969 __getitem__ (and 962-963 __getattr__). *)
  Definition mem_get (m : memvar) (k : name) : res V :=
    match get_scope m k with
    | Some (_, d) => match sget d k with Some v => Ok v | None => Err KeyError end
    | None => Err NameError
    end.

  (** vfpfunc.py:955-960 __contains__: any exception counts as absent. *)
  Definition mem_contains (m : memvar) (k : name) : bool := is_ok (mem_get m k).

  (** vfpfunc.py:971-972 __setitem__: `(self._get_scope(key) or self.public_scopes[-1])[key] = val`.
      An empty dict is falsy, hence the test on d. *)
  Definition mem_set (m : memvar) (k : name) (v : V) : res memvar :=
    let fallback :=
      do p <- upd_last (public_scopes m) (fun d => sset d k v); Ok (mkMem p (local_scopes m)) in
    match get_scope m k with
    | Some (loc, d) => match d with [] => fallback | _ => Ok (mutate m loc k (fun d => sset d k v)) end
    | None => fallback
    end.

  (** vfpfunc.py:980-983 __delitem__ *)
  Definition mem_del (m : memvar) (k : name) : memvar :=
    match get_scope m k with
    | Some (loc, d) => match d with [] => m | _ => mutate m loc k (fun d => sdel d k) end
    | None => m
    end.

  (** vfpfunc.py:988-992 _add_to_scopes: positional names get False, keyword names their value. *)
  Definition add_to_scope (args : list name) (kwargs : list (name * V)) (d : scope) : scope :=
    fold_left (fun d kv => sset d (fst kv) (snd kv)) kwargs
      (fold_left (fun d k => sset d k pyfalse) args d).

  (** Python rejects a keyword argument that collides with a named parameter: `add_local(self, ...)` takes `self`
      and `_add_to_scopes(self, scope, ...)` takes `scope`. *)
  Definition bad_keyword (kwargs : list (name * V)) : bool :=
    existsb (fun kv => String.eqb (fst kv) "self" || String.eqb (fst kv) "scope") kwargs.

  (** vfpfunc.py:994-1001 add_local / add_private / add_public.  The scope is looked up (IndexError) before the
      inner call; a `self` keyword fails even earlier, which makes no difference to callers. *)
  Definition add_local (m : memvar) (args : list name) (kwargs : list (name * V)) : res memvar :=
    do l <- upd_last (local_scopes m) (add_to_scope args kwargs);
    if bad_keyword kwargs then Err TypeError else Ok (mkMem (public_scopes m) l).
  Definition add_private (m : memvar) (args : list name) (kwargs : list (name * V)) : res memvar :=
    do p <- upd_last (public_scopes m) (add_to_scope args kwargs);
    if bad_keyword kwargs then Err TypeError else Ok (mkMem p (local_scopes m)).
  Definition add_public (m : memvar) (args : list name) (kwargs : list (name * V)) : res memvar :=
    do p <- upd_head (public_scopes m) (add_to_scope args kwargs);
    if bad_keyword kwargs then Err TypeError else Ok (mkMem p (local_scopes m)).

  (** vfpfunc.py:1003-1005 pushscope *)
  Definition pushscope (m : memvar) : memvar :=
    mkMem (public_scopes m ++ [[]]) (local_scopes m ++ [[]]).

  (** vfpfunc.py:1007-1011 popscope; its return value (the arguments passed through) is not used by the callers. *)
  Definition popscope (m : memvar) : res memvar :=
    match rev (public_scopes m) with
    | [] => Err IndexError
    | _ :: p => match rev (local_scopes m) with
                | [] => Err IndexError      (* unreachable: both lists always have the same length *)
                | _ :: l => Ok (mkMem (rev p) (rev l))
                end
    end.

  (** vfpfunc.py:1013-1022 release in mode 'Normal' (the other modes do nothing). *)
  Definition mem_release (m : memvar) : res memvar :=
    match rev (local_scopes m), rev (public_scopes m) with
    | l :: _, p :: _ => Ok (fold_left mem_del (map fst l ++ map fst p) m)
    | _, _ => Err IndexError
    end.

  (** The operations converted programs perform on M / S. *)
  Inductive op :=
  | OGet (k : name) | OContains (k : name) | OSet (k : name) (v : V) | ODel (k : name)
  | OAddLocal (args : list name) (kw : list (name * V))
  | OAddPrivate (args : list name) (kw : list (name * V))
  | OAddPublic (args : list name) (kw : list (name * V))
  | ORelease | OPush | OPop.
  Inductive out := RVal (v : V) | RBool (b : bool) | RUnit.

  Definition upd_state (m : memvar) (r : res memvar) : res out * memvar :=
    match r with Ok m' => (Ok RUnit, m') | Err e => (Err e, m) end.

  Definition mem_step (m : memvar) (o : op) : res out * memvar :=
    match o with
    | OGet k => (rmap RVal (mem_get m k), m)
    | OContains k => (Ok (RBool (mem_contains m k)), m)
    | OSet k v => upd_state m (mem_set m k v)
    | ODel k => (Ok RUnit, mem_del m k)
    | OAddLocal a kw => upd_state m (add_local m a kw)
    | OAddPrivate a kw => upd_state m (add_private m a kw)
    | OAddPublic a kw => upd_state m (add_public m a kw)
    | ORelease => upd_state m (mem_release m)
    | OPush => (Ok RUnit, pushscope m)
    | OPop => upd_state m (popscope m)
    end.

  Fixpoint mem_run (m : memvar) (os : list op) : list (res out) * memvar :=
    match os with
    | [] => ([], m)
    | o :: r => let (x, m1) := mem_step m o in
                let (xs, m2) := mem_run m1 r in (x :: xs, m2)
    end.
End MemvarModel.
Arguments memvar V : clear implicits.
Arguments op V : clear implicits.
Arguments out V : clear implicits.
