(** FoxPro's scoping rules, stated on a call chain of frames (innermost first).  Each frame holds the LOCALs of one
    procedure activation and the PRIVATE (or undeclared) variables it created; the outermost frame holds the PUBLICs. *)
From Verif Require Import PyBase M_Memvar.

Section MemvarSpec.
  Context {V : Type} (pyfalse : V).
  Definition bindings := name -> option V.
  Record frame := mkFrame { loc : bindings; priv : bindings }.
  Definition chain := list frame.

  Definition no_bindings : bindings := fun _ => None.
  Definition bind (b : bindings) (k : name) (v : option V) : bindings :=
    fun x => if String.eqb x k then v else b x.

  Definition set_priv f b := mkFrame (loc f) b.
  Definition set_loc f b := mkFrame b (priv f).

  (** innermost private binding *)
  Fixpoint priv_lookup (c : chain) (k : name) : option V :=
    match c with
    | [] => None
    | f :: r => match priv f k with Some v => Some v | None => priv_lookup r k end
    end.
  Definition lookup (c : chain) (k : name) : option V :=
    match c with
    | [] => None
    | f :: _ => match loc f k with Some v => Some v | None => priv_lookup c k end
    end.

  (** rebind the innermost private binding of k, if any, to v (None removes it) *)
  Fixpoint priv_rebind (c : chain) (k : name) (v : option V) : chain :=
    match c with
    | [] => []
    | f :: r => match priv f k with
                | Some _ => set_priv f (bind (priv f) k v) :: r
                | None => f :: priv_rebind r k v
                end
    end.
  Definition rebind (c : chain) (k : name) (v : option V) : chain :=
    match c with
    | [] => []
    | f :: r => match loc f k with
                | Some _ => set_loc f (bind (loc f) k v) :: r
                | None => priv_rebind c k v
                end
    end.

  Definition declare (names : list name) (inits : list (name * V)) (b : bindings) : bindings :=
    fold_left (fun b kv => bind b (fst kv) (Some (snd kv))) inits
      (fold_left (fun b k => bind b k (Some pyfalse)) names b).

  Fixpoint on_outermost (c : chain) (f : frame -> frame) : chain :=
    match c with
    | [] => []
    | [x] => [f x]
    | x :: r => x :: on_outermost r f
    end.

  Definition reserved (kw : list (name * V)) : bool :=
    existsb (fun kv => String.eqb (fst kv) "self" || String.eqb (fst kv) "scope") kw.

  Definition spec_step (c : chain) (o : op V) : res (out V) * chain :=
    match c with
    | [] => match o with
            | OGet _ => (Err NameError, [])
            | OContains _ => (Ok (RBool false), [])
            | ODel _ => (Ok RUnit, [])
            | OPush => (Ok RUnit, [mkFrame no_bindings no_bindings])
            | _ => (Err IndexError, [])
            end
    | f :: r =>
      match o with
      | OGet k => (match lookup c k with Some v => Ok (RVal v) | None => Err NameError end, c)
      | OContains k => (Ok (RBool (match lookup c k with Some _ => true | None => false end)), c)
      | OSet k v => (Ok RUnit, match lookup c k with
                               | Some _ => rebind c k (Some v)
                               | None => set_priv f (bind (priv f) k (Some v)) :: r
                               end)
      | ODel k => (Ok RUnit, rebind c k None)
      | OAddLocal a kw => if reserved kw then (Err TypeError, c) else (Ok RUnit, set_loc f (declare a kw (loc f)) :: r)
      | OAddPrivate a kw => if reserved kw then (Err TypeError, c) else (Ok RUnit, set_priv f (declare a kw (priv f)) :: r)
      | OAddPublic a kw => if reserved kw then (Err TypeError, c)
                           else (Ok RUnit, on_outermost c (fun g => set_priv g (declare a kw (priv g))))
      | ORelease => (Ok RUnit, mkFrame no_bindings no_bindings :: r)
      | OPush => (Ok RUnit, mkFrame no_bindings no_bindings :: c)
      | OPop => (Ok RUnit, r)
      end
    end.

  Fixpoint spec_run (c : chain) (os : list (op V)) : list (res (out V)) * chain :=
    match os with
    | [] => ([], c)
    | o :: r => let (x, c1) := spec_step c o in
                let (xs, c2) := spec_run c1 r in (x :: xs, c2)
    end.
End MemvarSpec.
