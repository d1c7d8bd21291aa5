(** FoxPro's string and bit functions, and the arguments for which their inlined code is examined. *)
From Verif Require Import PyBase PyStr S_Py S_PyEval M_Conv S_Conv.
Open Scope Z_scope.

Definition fox_left (s : pystr) (n : Z) : pystr := firstn (Z.to_nat n) s.
Definition fox_right (s : pystr) (n : Z) : pystr := skipn (length s - Z.to_nat n) s.
Definition fox_substr (s : pystr) (from : Z) (n : Z) : pystr := firstn (Z.to_nat n) (skipn (Z.to_nat (from - 1)) s).
Definition fox_substr_rest (s : pystr) (from : Z) : pystr := skipn (Z.to_nat (from - 1)) s.
(** AT and RAT: the 1-based position of the first or last occurrence, 0 if there is none *)
Definition fox_at (x s : pystr) (p : Z) : Prop :=
  (p = 0 /\ forall k, ~ occurs_at s x k) \/
  (exists k, p = Z.of_nat k + 1 /\ occurs_at s x k /\ forall j, (j < k)%nat -> ~ occurs_at s x j).
Definition fox_rat (x s : pystr) (p : Z) : Prop :=
  (p = 0 /\ forall k, ~ occurs_at s x k) \/
  (exists k, p = Z.of_nat k + 1 /\ occurs_at s x k /\ forall j, (k < j)%nat -> ~ occurs_at s x j).
(** OCCURS: occurrences met from the left, each search resuming behind the previous occurrence *)
Inductive fox_occurs (x : pystr) : pystr -> Z -> Prop :=
| occ_none s : (forall k, ~ occurs_at s x k) -> fox_occurs x s 0
| occ_one a b n : (forall j, (j < length a)%nat -> ~ occurs_at (a ++ x ++ b) x j) -> fox_occurs x b n -> fox_occurs x (a ++ x ++ b) (n + 1).
Definition fox_replicate (s : pystr) (n : Z) : pystr := concat (repeat s (Z.to_nat n)).
Definition fox_padl (s : pystr) (n : Z) (c : Z) : pystr := if zlen s <? n then repeat c (Z.to_nat (n - zlen s)) ++ s else firstn (Z.to_nat n) s.
Definition fox_padr (s : pystr) (n : Z) (c : Z) : pystr := if zlen s <? n then s ++ repeat c (Z.to_nat (n - zlen s)) else firstn (Z.to_nat n) s.

(** An argument that is a number n: any tame expression whose operator tree has that value; a text s: a variable or constant. *)
Definition number lib env (t : ctx) (n : Z) : Prop := produced t /\ tame lib t /\ pev env (mean t) = Some (PI n).
Definition string_ lib env (t : ctx) (s : pystr) : Prop := produced t /\ tame lib t /\ pev env (mean t) = Some (PS s).
Definition text lib env (t : ctx) (s : pystr) : Prop := produced t /\ tame lib t /\ pev env (mean t) = Some (PS s) /\ atomic t = true.
Definition call (f : string) (args : list ctx) : ctx := CCall (u f) args.
