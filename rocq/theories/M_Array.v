(** Model of class Array, vfp2py/vfpfunc.py:874-941. *)
From Verif Require Import PyBase.
Open Scope res_scope.

Section ArrayModel.
  Context {A : Type}.
  Variable pyfalse : A.            (* the Python value False stored in fresh elements *)
  Variable aeqb : A -> A -> bool.  (* Python `==` on stored values *)

  (** vfpfunc.py:875-881, the instance attributes.  `offset` may be None because _subarray passes
      `ind.start`, which is None for `a[:k]`. *)
  Record array := mkArray { data : list A; dim1 : Z; columns : bool; offset : option Z }.

  (** vfpfunc.py:875-881 __init__.  dim1/dim2 are integers here (the code applies int() to them). *)
  Definition array_init (d1 d2 : Z) (off : option Z) : array :=
    let cols := negb (d2 =? 0) in
    let d2' := if d2 =? 0 then 1 else d2 in
    {| data := concat (repeat (py_repeat pyfalse d1) (Z.to_nat d2')); dim1 := d1; columns := cols; offset := off |}.

  (** vfpfunc.py:912-913 __len__ *)
  Definition array_len (a : array) : Z := zlen (data a).

  (** vfpfunc.py:884-894 _subarray for slices without a step: both ends shifted by one. *)
  Definition subarray (a : array) (start stop : option Z) : array :=
    let start' := option_map (fun i => i - 1) start in
    let stop' := option_map (fun i => i - 1) stop in
    let d := py_slice (data a) start' stop' in
    let na := array_init (zlen d) 1 start' in
    {| data := d; dim1 := dim1 na; columns := columns na; offset := offset na |}.

  (** vfpfunc.py:896-905 _get_index.  A non-tuple subscript i is the list [i]. *)
  Definition get_index (a : array) (inds : list Z) : res Z :=
    do p <- (match inds with
             | [] => Err IndexError                  (* inds[0] on the empty tuple *)
             | [i] => Ok (i, 1)
             | [i; j] => Ok (i, j)
             | _ => Err ValueError                   (* too many values to unpack *)
             end);
    let '(i, j) := p in
    let ind1 := i - 1 in
    let ind2 := j - 1 in
    do w <- py_floordiv (array_len a) (dim1 a);
    match offset a with
    | None => Err TypeError                          (* int - None *)
    | Some off =>
      let ind := w * ind1 + ind2 - off in
      if ind <? 0 then Err IndexError else Ok ind
    end.

  (** vfpfunc.py:907-910 __getitem__ (non-slice branch); also 915-916 __call__. *)
  Definition array_get (a : array) (inds : list Z) : res A :=
    do k <- get_index a inds; py_nth (data a) k.

  (** vfpfunc.py:912-913 __setitem__ *)
  Definition array_set (a : array) (inds : list Z) (v : A) : res array :=
    do k <- get_index a inds;
    do d <- py_set_nth (data a) k v;
    Ok {| data := d; dim1 := dim1 a; columns := columns a; offset := offset a |}.

  (** vfpfunc.py:921-928 alen: the dictionary is built before it is indexed, so `len(self) // self.dim1`
      is evaluated (and may raise) for every arr_attr. *)
  Definition alen (a : array) (attr : Z) : res Z :=
    if (attr =? 2) && negb (columns a) then Ok 0
    else
      do w <- py_floordiv (array_len a) (dim1 a);
      if attr =? 0 then Ok (array_len a)
      else if attr =? 1 then Ok (dim1 a)
      else if attr =? 2 then Ok w
      else Err KeyError.

  (** list.index: position of the first element equal to v. *)
  Fixpoint list_index (l : list A) (v : A) : option Z :=
    match l with
    | [] => None
    | x :: r => if aeqb x v then Some 0 else option_map (fun k => k + 1) (list_index r v)
    end.

  (** vfpfunc.py:930-934 index *)
  Definition array_index (a : array) (v : A) : res Z :=
    match list_index (data a) v with
    | None => Ok 0
    | Some k => match offset a with None => Err TypeError | Some off => Ok (k + 1 + off) end
    end.
End ArrayModel.
Arguments array A : clear implicits.

(** A sequence of element writes as converted code performs them under ON ERROR / TRY: a write that raises leaves
    the array as it was (the assignment in __setitem__ is the last step). *)
Definition array_write {A} (a : array A) (w : list Z * A) : array A :=
  match array_set a (fst w) (snd w) with Ok a' => a' | Err _ => a end.
Definition array_writes {A} (a : array A) (ws : list (list Z * A)) : array A := fold_left array_write ws a.
