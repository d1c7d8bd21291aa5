(** What preprocessing means: constants by the history of active directives, conditionals by selecting lines. *)
From Verif Require Import PyBase PyStr M_Prep.
Open Scope Z_scope.

Fixpoint papp (a b : plines) : plines := match a with PNil => b | PCons l a => PCons l (papp a b) end.
Fixpoint lines_of (l : list pline) : plines := match l with [] => PNil | x :: l => PCons x (lines_of l) end.

(** Names are the same up to the case of ASCII letters *)
Definition same_char (x y : Z) : bool :=
  (x =? y) || ((65 <=? x) && (x <=? 90) && (y =? x + 32)) || ((65 <=? y) && (y <=? 90) && (x =? y + 32)).
Fixpoint same_name (a b : pystr) : bool :=
  match a, b with [], [] => true | x :: a, y :: b => same_char x y && same_name a b | _, _ => false end.

(** The #DEFINE and #UNDEFINE lines so far, latest first; what a name stands for is decided by the latest one that names it *)
Inductive event := EDef (name : pystr) (v : list token) | EUndef (name : pystr).
Fixpoint current (h : list event) (n : pystr) : option (list token) :=
  match h with
  | [] => None
  | EDef x v :: h => if same_name x n then Some v else current h n
  | EUndef x :: h => if same_name x n then None else current h n
  end.
(** The definition in the rest of a #DEFINE line: without the blanks around it and the comment after it *)
Definition blank (t : token) : Prop := t_type t = TWs.
Definition blank_or_comment (t : token) : Prop := t_type t = TWs \/ t_type t = TComment.
Definition definition (rest v : list token) : Prop :=
  exists a b, rest = a ++ v ++ b /\ Forall blank a /\ Forall blank_or_comment b /\
    match v with [] => True | t :: _ => ~ blank t end /\ (forall w t, v = w ++ [t] -> ~ blank_or_comment t).

(** A line of text: the comments, as lines of their own, then the rest with every constant replaced *)
Definition line_out (h : list event) (toks : list token) : list token :=
  flat_map (fun t => match t_type t, current h (t_text t) with TComment, None => [Tok TComment (42 :: skipn 2 (t_text t) ++ [10])] | _, _ => [] end) toks
  ++ flat_map (fun t => match current h (t_text t), t_type t with Some v, _ => v | None, TComment => [] | None, _ => [t] end) toks.

(** [outputs h ls out h']: lines of text, #DEFINEs and #UNDEFINEs of defined names, read after the history h *)
Inductive outputs : list event -> plines -> list token -> list event -> Prop :=
| out_nil h : outputs h PNil [] h
| out_text h toks ls o h' : outputs h ls o h' -> outputs h (PCons (PText toks) ls) (line_out h toks ++ o) h'
| out_define h n rest v ls o h' : definition rest v -> outputs (EDef n v :: h) ls o h' -> outputs h (PCons (PDefine n rest) ls) o h'
| out_undef h n ls o h' : current h n <> None -> outputs (EUndef n :: h) ls o h' -> outputs h (PCons (PUndef n) ls) o h'.
Fixpoint straight (ls : plines) : Prop :=
  match ls with
  | PNil => True
  | PCons (PText _ | PDefine _ _ | PUndef _) ls => straight ls
  | PCons _ _ => False
  end.

(** [selects ev h ls flat]: flat is ls with every conditional replaced by the branch its condition selects where it stands *)
Inductive selects (ev : pystr -> res bool) : list event -> plines -> plines -> Prop :=
| sel_nil h : selects ev h PNil PNil
| sel_text h toks ls fl : selects ev h ls fl -> selects ev h (PCons (PText toks) ls) (PCons (PText toks) fl)
| sel_define h n rest v ls fl : definition rest v -> selects ev (EDef n v :: h) ls fl -> selects ev h (PCons (PDefine n rest) ls) (PCons (PDefine n rest) fl)
| sel_undef h n ls fl : selects ev (EUndef n :: h) ls fl -> selects ev h (PCons (PUndef n) ls) (PCons (PUndef n) fl)
| sel_if h cond a b (c : bool) ls fl : ev (concat (map t_text (line_out h cond))) = Ok c -> selects ev h (papp (if c then a else b) ls) fl ->
    selects ev h (PCons (PIf cond a b) ls) fl
| sel_ifdef h n a b ls fl : selects ev h (papp (match current h n with Some _ => a | None => b end) ls) fl -> selects ev h (PCons (PIfdef n a b) ls) fl.

Fixpoint no_include (l : pline) : Prop :=
  match l with
  | PInclude _ => False
  | PIf _ a b | PIfdef _ a b => no_includes a /\ no_includes b
  | _ => True
  end
with no_includes (ls : plines) : Prop := match ls with PNil => True | PCons l ls => no_include l /\ no_includes ls end.

(** A name is used in a line: as a word of its text or condition, after #IFDEF or #UNDEFINE *)
Definition word (n : pystr) (toks : list token) : Prop := exists t, In t toks /\ same_name n (t_text t) = true.
Fixpoint uses (n : pystr) (l : pline) : Prop :=
  match l with
  | PText toks => word n toks
  | PUndef x => same_name n x = true
  | PIf c a b => word n c \/ uses_in n a \/ uses_in n b
  | PIfdef x a b => same_name n x = true \/ uses_in n a \/ uses_in n b
  | PDefine _ _ | PInclude _ | PJunk => False
  end
with uses_in (n : pystr) (ls : plines) : Prop := match ls with PNil => False | PCons l ls => uses n l \/ uses_in n ls end.
