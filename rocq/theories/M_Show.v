(** The text of converted code.  M_Conv has code as lists of tokens; here are the blanks the templates of vfp2py/vfp2py_convert_visitor.py put between
    them: '{} {} {}' for operations and comparisons (:613, :1252), ' or ', ' and ', 'not ' (:94-104), '-{}' for a sign (:625-626), '({})' for parentheses
    (:1236-1240), '{}({})' with ', ' between arguments for calls (:106-113), 'S.{}' for variables (:971-986), and the repr of constants. *)
From Verif Require Import PyBase PyStr S_Py M_Lit M_Conv.
Open Scope Z_scope.

Definition op_text (o : op) : string :=
  match o with
  | OOr => "or" | OAnd => "and" | OLt => "<" | OLe => "<=" | OGt => ">" | OGe => ">=" | OEq => "==" | ONe => "!=" | OIn => "in" | OIs => "is" | OIsNot => "is not"
  | OBor => "|" | OBxor => "^" | OBand => "&" | OShl => "<<" | OShr => ">>" | OAdd => "+" | OSub => "-" | OMul => "*" | ODiv => "/" | OMod => "%" | OPow => "**"
  end.
(** What stands before a token *)
Inductive kind := Tight | Word | Value | Number | AfterDot.
Definition is_value (k : kind) : bool := match k with Value | Number => true | _ => false end.
Definition after_tok (k : kind) (t : tok) : kind :=
  match t with
  | Id _ | StrT _ | Rp | Rb => Value
  | IntT _ => Number
  | Op _ => if is_value k then Word else Tight
  | Not | If | Else | Comma => Word
  | Tilde | Lp | Lb | Colon => Tight
  | Dot => AfterDot
  end.
Definition blank_before (k : kind) (t : tok) : bool :=
  match k, t with
  | (Tight | AfterDot), _ => false
  | _, (Rp | Rb | Comma | Colon | Dot) => false
  | (Value | Number), (Lp | Lb) => false
  | _, _ => true
  end.
Section show.
Variable printable : Z -> bool.       (* str.isprintable beyond ASCII *)
Definition tok_text (t : tok) : pystr :=
  match t with
  | Id s => s | IntT n => dec n | StrT s => str_repr printable s | Op o => u (op_text o)
  | Not => u "not" | If => u "if" | Else => u "else" | Tilde => u "~" | Lp => u "(" | Rp => u ")" | Lb => u "[" | Rb => u "]" | Colon => u ":" | Comma => u "," | Dot => u "."
  end.
Fixpoint show (k : kind) (ts : list tok) : pystr :=
  match ts with [] => [] | t :: ts => (if blank_before k t then [32] else []) ++ tok_text t ++ show (after_tok k t) ts end.
Definition text (ts : list tok) : pystr := show Tight ts.
(* visitAssign, :581-585 *)
Definition stmt_text (s : stmt) : pystr :=
  match s with
  | SSet target v => text target ++ u " = " ++ text v
  | SAug target o v => text target ++ u " " ++ u (op_text o) ++ u "= " ++ text v
  end.
(* visitForStart, :462-471, without 'for ' and ':' *)
Definition for_text (target : list tok) (args : list val) : pystr := text (target ++ Op OIn :: repr (func_code (name "range") args)).
End show.
