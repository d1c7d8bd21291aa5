(** Python expressions: tokens, syntax trees and a parser.

    The parser is the grammar of Python 3 expressions restricted to what the converter emits: conditional expressions, or, and, not,
    (chained) comparisons, | ^ & << >> + - * / %, unary + - ~, ** and primaries (names, literals, parentheses, tuples, attributes,
    calls, subscripts and slices).  Python Language Reference, section 6. *)
From Verif Require Import PyBase PyStr.
Open Scope Z_scope.

Inductive op :=
| OOr | OAnd | OLt | OLe | OGt | OGe | OEq | ONe | OIn | OIs | OIsNot | OBor | OBxor | OBand | OShl | OShr | OAdd | OSub | OMul | ODiv | OMod | OPow.
Inductive tok :=
| Id (s : pystr) | IntT (n : Z) | StrT (s : pystr) | Op (o : op) | Not | Tilde | If | Else | Lp | Rp | Lb | Rb | Colon | Comma | Dot.
Inductive unop := UNeg | UPos | UInv.
Inductive pe :=
| EName (s : pystr) | EInt (n : Z) | EStr (s : pystr)
| EUn (o : unop) (e : pe) | EBin (o : op) (a b : pe) | ENot (e : pe) | ECmp (a : pe) (l : list (op * pe)) | EIf (c a b : pe)
| ECall (f : pe) (args : list pe) | EAttr (e : pe) (s : pystr) | EIdx (e i : pe) | ESlice (e : pe) (a b : option pe) | ETuple (l : list pe).

(** Binding strength: 0 conditional, 1 or, 2 and, 3 not, 4 comparisons, 5 |, 6 ^, 7 &, 8 shifts, 9 + -, 10 * / %, 11 unary, 12 **,
    13 primaries. *)
Definition level (o : op) : nat :=
  match o with
  | OOr => 1 | OAnd => 2
  | OLt | OLe | OGt | OGe | OEq | ONe | OIn | OIs | OIsNot => 4
  | OBor => 5 | OBxor => 6 | OBand => 7 | OShl | OShr => 8 | OAdd | OSub => 9 | OMul | ODiv | OMod => 10 | OPow => 12
  end.
Definition sign (t : tok) : option unop :=
  match t with Op OSub => Some UNeg | Op OAdd => Some UPos | Tilde => Some UInv | _ => None end.

Fixpoint pexp (fuel : nat) (lvl : nat) (ts : list tok) : option (pe * list tok) :=
  match fuel with
  | O => None
  | S k =>
      match lvl with
      | 0%nat =>
          match pexp k 1 ts with
          | Some (a, If :: r) =>
              match pexp k 1 r with
              | Some (c, Else :: r) => match pexp k 0 r with Some (b, r) => Some (EIf c a b, r) | None => None end
              | _ => None
              end
          | x => x
          end
      | 3%nat =>
          match ts with
          | Not :: r => match pexp k 3 r with Some (e, r) => Some (ENot e, r) | None => None end
          | _ => pexp k 4 ts
          end
      | 4%nat => match pexp k 5 ts with Some (a, r) => pcmp k a [] r | None => None end
      | 11%nat =>
          match ts with
          | t :: r =>
              match sign t with
              | Some o => match pexp k 11 r with Some (e, r) => Some (EUn o e, r) | None => None end
              | None => pexp k 12 ts
              end
          | [] => None
          end
      | 12%nat =>
          match pexp k 13 ts with
          | Some (a, Op OPow :: r) => match pexp k 11 r with Some (b, r) => Some (EBin OPow a b, r) | None => None end
          | x => x
          end
      | 13%nat =>
          match ts with
          | Id s :: r => ptrail k (EName s) r
          | IntT n :: r => ptrail k (EInt n) r
          | StrT s :: r => ptrail k (EStr s) r
          | Lp :: Rp :: r => ptrail k (ETuple []) r
          | Lp :: r =>
              match pexp k 0 r with
              | Some (e, Rp :: r) => ptrail k e r
              | Some (e, Comma :: r) => match pargs k r with Some (l, r) => ptrail k (ETuple (e :: l)) r | None => None end
              | _ => None
              end
          | _ => None
          end
      | _ => match pexp k (S lvl) ts with Some (a, r) => ploop k lvl a r | None => None end
      end
  end
(* the rest of a left-associative chain of operators of level lvl *)
with ploop (fuel : nat) (lvl : nat) (a : pe) (ts : list tok) : option (pe * list tok) :=
  match fuel with
  | O => None
  | S k =>
      match ts with
      | Op o :: r =>
          if Nat.eqb (level o) lvl then match pexp k (S lvl) r with Some (b, r) => ploop k lvl (EBin o a b) r | None => None end
          else Some (a, ts)
      | _ => Some (a, ts)
      end
  end
(* a chain of comparisons *)
with pcmp (fuel : nat) (a : pe) (l : list (op * pe)) (ts : list tok) : option (pe * list tok) :=
  match fuel with
  | O => None
  | S k =>
      let stop := Some (match l with [] => a | _ => ECmp a l end, ts) in
      match ts with
      | Op o :: r =>
          if Nat.eqb (level o) 4 then match pexp k 5 r with Some (b, r) => pcmp k a (l ++ [(o, b)]) r | None => None end
          else stop
      | _ => stop
      end
  end
(* attributes, calls, subscripts *)
with ptrail (fuel : nat) (a : pe) (ts : list tok) : option (pe * list tok) :=
  match fuel with
  | O => None
  | S k =>
      match ts with
      | Dot :: Id s :: r => ptrail k (EAttr a s) r
      | Lp :: r => match pargs k r with Some (l, r) => ptrail k (ECall a l) r | None => None end
      | Lb :: Colon :: Rb :: r => ptrail k (ESlice a None None) r
      | Lb :: Colon :: r => match pexp k 0 r with Some (e, Rb :: r) => ptrail k (ESlice a None (Some e)) r | _ => None end
      | Lb :: r =>
          match pexp k 0 r with
          | Some (i, Rb :: r) => ptrail k (EIdx a i) r
          | Some (i, Colon :: Rb :: r) => ptrail k (ESlice a (Some i) None) r
          | Some (i, Colon :: r) => match pexp k 0 r with Some (j, Rb :: r) => ptrail k (ESlice a (Some i) (Some j)) r | _ => None end
          | _ => None
          end
      | _ => Some (a, ts)
      end
  end
(* arguments up to the closing parenthesis *)
with pargs (fuel : nat) (ts : list tok) : option (list pe * list tok) :=
  match fuel with
  | O => None
  | S k =>
      match ts with
      | Rp :: r => Some ([], r)
      | _ =>
          match pexp k 0 ts with
          | Some (e, Rp :: r) => Some ([e], r)
          | Some (e, Comma :: r) => match pargs k r with Some (l, r) => Some (e :: l, r) | None => None end
          | _ => None
          end
      end
  end.

(** A complete expression *)
Definition py_parse (ts : list tok) (e : pe) : Prop := exists k, forall fuel, (k <= fuel)%nat -> pexp fuel 0 ts = Some (e, []).
Lemma py_parse_det ts e e' : py_parse ts e -> py_parse ts e' -> e = e'.
Proof. intros [k H] [k' H']. specialize (H (Nat.max k k') ltac:(lia)). specialize (H' (Nat.max k k') ltac:(lia)). congruence. Qed.

Example parse_example : pexp 100 0 [Id (u "a"); Op OSub; Id (u "b"); Op OSub; Op OSub; IntT 2; Op OPow; IntT 3; Op OPow; IntT 4; Op OLt; Not; Id (u "c")] = None /\
  pexp 100 0 [Not; Id (u "a"); Op OSub; Id (u "b"); Op OSub; Op OSub; IntT 2; Op OPow; IntT 3; Op OPow; IntT 4; Op OLt; Id (u "c"); Op OEq; Id (u "d"); Lb; Colon; IntT 3; Rb] =
  Some (ENot (ECmp (EBin OSub (EBin OSub (EName (u "a")) (EName (u "b"))) (EUn UNeg (EBin OPow (EInt 2) (EBin OPow (EInt 3) (EInt 4)))))
    [(OLt, EName (u "c")); (OEq, ESlice (EName (u "d")) None (Some (EInt 3)))]), []).
Proof. split; vm_compute; reflexivity. Qed.
