(** Python values and control used by the models: exceptions as values, strings as lists of code points,
    sequence slicing.  Semantics of CPython 3; nothing here is specific to vfp2py. *)
From Coq Require Export String Ascii.
From Coq Require Export List ZArith Lia Bool Arith.
Export ListNotations.
Open Scope Z_scope.
Open Scope list_scope.

(** Exceptions.  Only the class matters to the callers, not the message. *)
Inductive exc :=
| IndexError | ValueError | KeyError | NameError | TypeError | ZeroDivisionError
| AttributeError | StructError | StopIteration | UnicodeError | OverflowError_
| GenericException        (* `raise Exception(...)` *)
| DbfEof | DbfBof | DbfError
| UserError (n : Z).      (* an exception raised by converted user code *)

Inductive res (A : Type) := Ok (a : A) | Err (e : exc).
Arguments Ok {A} a.
Arguments Err {A} e.

Definition rbind {A B} (x : res A) (f : A -> res B) : res B :=
  match x with Ok a => f a | Err e => Err e end.
Definition rmap {A B} (f : A -> B) (x : res A) : res B :=
  match x with Ok a => Ok (f a) | Err e => Err e end.
Declare Scope res_scope.
Delimit Scope res_scope with res.
Notation "'do' x <- a ; b" := (rbind a (fun x => b))
  (at level 200, x pattern, a at level 100, b at level 200) : res_scope.

Definition is_ok {A} (r : res A) : bool := match r with Ok _ => true | Err _ => false end.

(** Strings: sequences of code points. *)
Definition pystr := list Z.
Fixpoint u (s : string) : pystr :=
  match s with
  | EmptyString => []
  | String c r => Z.of_nat (nat_of_ascii c) :: u r
  end.

Fixpoint pystr_eqb (a b : pystr) : bool :=
  match a, b with
  | [], [] => true
  | x :: a', y :: b' => (x =? y) && pystr_eqb a' b'
  | _, _ => false
  end.

Lemma pystr_eqb_spec a b : reflect (a = b) (pystr_eqb a b).
Proof.
  revert b; induction a as [|x a IH]; intros [|y b]; cbn [pystr_eqb]; try (constructor; congruence).
  destruct (Z.eqb_spec x y) as [->|H]; cbn [andb].
  - destruct (IH b) as [->|H]; constructor; congruence.
  - constructor; congruence.
Qed.

Definition zlen {A} (l : list A) : Z := Z.of_nat (length l).

(** Sequence indexing `l[i]`, including Python's negative indices. *)
Definition py_nth {A} (l : list A) (i : Z) : res A :=
  let n := zlen l in
  let j := if i <? 0 then i + n else i in
  if (j <? 0) || (n <=? j) then Err IndexError
  else match nth_error l (Z.to_nat j) with Some a => Ok a | None => Err IndexError end.

Fixpoint list_upd {A} (l : list A) (k : nat) (v : A) : list A :=
  match l, k with
  | [], _ => []
  | _ :: r, O => v :: r
  | x :: r, S k' => x :: list_upd r k' v
  end.

(** `l[i] = v` *)
Definition py_set_nth {A} (l : list A) (i : Z) (v : A) : res (list A) :=
  let n := zlen l in
  let j := if i <? 0 then i + n else i in
  if (j <? 0) || (n <=? j) then Err IndexError else Ok (list_upd l (Z.to_nat j) v).

(** Bounds of `l[a:b]` with step None: CPython's PySlice_AdjustIndices. *)
Definition slice_bound (n : Z) (d : Z) (i : option Z) : Z :=
  match i with
  | None => d
  | Some k => let k := if k <? 0 then k + n else k in Z.max 0 (Z.min n k)
  end.
Definition py_slice {A} (l : list A) (a b : option Z) : list A :=
  let n := zlen l in
  let lo := slice_bound n 0 a in
  let hi := slice_bound n n b in
  firstn (Z.to_nat (hi - lo)) (skipn (Z.to_nat lo) l).

(** `//` and `%`; division by zero raises. *)
Definition py_floordiv (a b : Z) : res Z := if b =? 0 then Err ZeroDivisionError else Ok (a / b).
Definition py_mod (a b : Z) : res Z := if b =? 0 then Err ZeroDivisionError else Ok (a mod b).

(** `[x] * n` : non-positive n gives the empty list. *)
Definition py_repeat {A} (x : A) (n : Z) : list A := repeat x (Z.to_nat n).

(** Python dictionaries with keys of an arbitrary type: insertion-ordered association lists. *)
Section Dict.
  Context {K V : Type} (keqb : K -> K -> bool).
  Fixpoint dget (d : list (K * V)) (k : K) : option V :=
    match d with
    | [] => None
    | (k', v) :: r => if keqb k k' then Some v else dget r k
    end.
  Fixpoint dset (d : list (K * V)) (k : K) (v : V) : list (K * V) :=
    match d with
    | [] => [(k, v)]
    | (k', v') :: r => if keqb k k' then (k', v) :: r else (k', v') :: dset r k v
    end.
  Fixpoint ddel (d : list (K * V)) (k : K) : list (K * V) :=
    match d with
    | [] => []
    | (k', v') :: r => if keqb k k' then ddel r k else (k', v') :: ddel r k
    end.
  Definition dmem (d : list (K * V)) (k : K) : bool :=
    match dget d k with Some _ => true | None => false end.
End Dict.

Lemma dget_dset {K V} (keqb : K -> K -> bool)
      (H : forall a b, reflect (a = b) (keqb a b)) (d : list (K * V)) k v k' :
  dget keqb (dset keqb d k v) k' = if keqb k' k then Some v else dget keqb d k'.
Proof.
  induction d as [|[a b] d IH]; cbn [dset dget].
  - destruct (keqb k' k); reflexivity.
  - destruct (H k a) as [->|Hka]; cbn [dget].
    + destruct (H k' a); reflexivity.
    + rewrite IH. destruct (H k' a) as [->|]; [|reflexivity].
      destruct (H a k); [congruence|reflexivity].
Qed.

Lemma dget_ddel {K V} (keqb : K -> K -> bool)
      (H : forall a b, reflect (a = b) (keqb a b)) (d : list (K * V)) k k' :
  dget keqb (ddel keqb d k) k' = if keqb k' k then None else dget keqb d k'.
Proof.
  induction d as [|[a b] d IH]; cbn [ddel dget].
  - destruct (keqb k' k); reflexivity.
  - destruct (H k a) as [Eka|Nka]; cbn [dget]; rewrite IH.
    + subst a. destruct (keqb k' k); reflexivity.
    + destruct (H k' a) as [Ea|]; [|reflexivity].
      destruct (H k' k); [congruence|reflexivity].
Qed.

Lemma zlen_app {A} (a b : list A) : zlen (a ++ b) = zlen a + zlen b.
Proof. unfold zlen. rewrite app_length. lia. Qed.
Lemma zlen_nonneg {A} (a : list A) : 0 <= zlen a.
Proof. unfold zlen. lia. Qed.
Lemma zlen_cons {A} (x : A) (a : list A) : zlen (x :: a) = 1 + zlen a.
Proof. unfold zlen. cbn [length]. lia. Qed.

Lemma list_upd_length {A} (l : list A) k v : length (list_upd l k v) = length l.
Proof. revert k; induction l as [|x l IH]; intros [|k]; cbn; auto. Qed.

Lemma nth_error_list_upd {A} (l : list A) k v i :
  nth_error (list_upd l k v) i =
  if Nat.eqb i k then (if Nat.ltb k (length l) then Some v else None) else nth_error l i.
Proof.
  revert k i; induction l as [|x l IH]; intros k i.
  - cbn [list_upd length]. destruct (Nat.eqb_spec i k) as [->|]; [|reflexivity].
    destruct k; reflexivity.
  - destruct k as [|k], i as [|i]; cbn [list_upd nth_error]; try reflexivity.
    rewrite IH. cbn [Nat.eqb length].
    destruct (Nat.eqb i k); [|reflexivity].
    destruct (Nat.ltb_spec k (length l)), (Nat.ltb_spec (S k) (S (length l))); try reflexivity; lia.
Qed.

Lemma py_nth_nonneg {A} (l : list A) i :
  0 <= i -> py_nth l i = match nth_error l (Z.to_nat i) with Some a => Ok a | None => Err IndexError end.
Proof.
  intros Hi. unfold py_nth. destruct (Z.ltb_spec i 0); [lia|].
  destruct (Z.ltb_spec i 0); [lia|]. cbn [orb].
  destruct (Z.leb_spec (zlen l) i) as [H1|H1]; [|reflexivity].
  destruct (nth_error l (Z.to_nat i)) eqn:E; [|reflexivity].
  assert (nth_error l (Z.to_nat i) <> None) as Hn by congruence.
  apply nth_error_Some in Hn. unfold zlen in H1. lia.
Qed.

Lemma py_set_nth_nonneg {A} (l : list A) i v :
  0 <= i -> py_set_nth l i v = if zlen l <=? i then Err IndexError else Ok (list_upd l (Z.to_nat i) v).
Proof.
  intros Hi. unfold py_set_nth. destruct (Z.ltb_spec i 0); [lia|].
  destruct (Z.ltb_spec i 0); [lia|]. cbn [orb]. reflexivity.
Qed.
