(** The preprocessor: class PreprocessVisitor, vfp2py.py:41-121.

    A program comes as its tree of lines (VisualFoxpro9.g4:4-22).  A line of text is the list of its tokens with the hidden ones, those
    left of it included (getHiddenTokensToLeft), up to its NL.  An #INCLUDE carries the lines of the file it names; the cache of
    included files (INCLUDE, vfp2py.py:29, 81-85) is left out, as a file that does not change gives the same result again.  The Python
    value of the expression of #IF (eval of its conversion) is a parameter [ev] of the text of that expression. *)
From Verif Require Import PyBase PyStr.
Open Scope Z_scope.

Inductive ttype := TWs | TComment | TOther.
Record token := Tok { t_type : ttype; t_text : pystr }.

Inductive pline :=
| PText (toks : list token)                            (* nonpreprocessorLine *)
| PDefine (name : pystr) (toks : list token)           (* the tokens between the name and the end of the line *)
| PUndef (name : pystr)
| PInclude (file : plines)
| PIf (cond : list token) (a : plines) (b : plines)    (* without #ELSE: b is PNil *)
| PIfdef (name : pystr) (a : plines) (b : plines)
| PJunk                                                (* preprocessorJunk: any other directive *)
with plines := PNil | PCons (l : pline) (ls : plines).

Definition lower_char (c : Z) : Z := if (65 <=? c) && (c <=? 90) then c + 32 else c.
Definition lower (s : pystr) : pystr := map lower_char s.

(** self.memory, a dict *)
Definition memory := list (pystr * list token).
Fixpoint get (m : memory) (k : pystr) : option (list token) :=
  match m with [] => None | (x, v) :: m => if pystr_eqb x k then Some v else get m k end.
Fixpoint remove (m : memory) (k : pystr) : memory :=
  match m with [] => [] | (x, v) :: m => if pystr_eqb x k then remove m k else (x, v) :: remove m k end.
Definition set (m : memory) (k : pystr) (v : list token) : memory := (k, v) :: remove m k.
(* m.update(n) *)
Definition update (m n : memory) : memory := fold_right (fun '(k, v) m => set m k v) m n.

(* visitPreprocessorDefine, vfp2py.py:56-66: the two while loops *)
Fixpoint drop_ws (l : list token) : list token :=
  match l with t :: l' => match t_type t with TWs => drop_ws l' | _ => l end | [] => [] end.
Fixpoint drop_tail (l : list token) : list token :=      (* of the reversed list *)
  match l with t :: l' => match t_type t with TOther => l | _ => drop_tail l' end | [] => [] end.
Definition trim (l : list token) : list token := rev (drop_tail (rev (drop_ws l))).

(* replace_define_tokens, vfp2py.py:103-118: [hidden] and [ret] are hidden_tokens and retval *)
Fixpoint replace_loop (m : memory) (l hidden ret : list token) : list token :=
  match l with
  | [] => hidden ++ ret
  | t :: l =>
      match get m (lower (t_text t)) with
      | Some v => replace_loop m l hidden (ret ++ v)
      | None =>
          match t_type t with
          | TComment => replace_loop m l (hidden ++ [Tok TComment (u "*" ++ skipn 2 (t_text t) ++ [10])]) ret
          | _ => replace_loop m l hidden (ret ++ [t])
          end
      end
  end.
Definition replace_define_tokens (m : memory) (l : list token) : list token := replace_loop m l [] [].

(* visitPreprocessorLines, vfp2py.py:50-54, and the visits of the kinds of lines, :56-101, :120-121; the result is the tokens and self.memory *)
Fixpoint prep (ev : pystr -> res bool) (m : memory) (l : pline) {struct l} : res (list token * memory) :=
  match l with
  | PText toks => Ok (replace_define_tokens m toks, m)
  | PDefine name toks => Ok ([], set m (lower name) (trim toks))
  | PUndef name => match get m (lower name) with Some _ => Ok ([], remove m (lower name)) | None => Err KeyError end
  | PInclude file => rbind (preps ev [] file) (fun '(toks, n) => Ok (toks, update m n))
  | PIf cond a b => rbind (ev (concat (map t_text (replace_define_tokens m cond)))) (fun c : bool => if c then preps ev m a else preps ev m b)
  | PIfdef name a b => match get m (lower name) with Some _ => preps ev m a | None => preps ev m b end
  | PJunk => Err TypeError       (* not overridden: visitChildren gives None, and lines += None raises *)
  end
with preps (ev : pystr -> res bool) (m : memory) (ls : plines) {struct ls} : res (list token * memory) :=
  match ls with
  | PNil => Ok ([], m)
  | PCons l ls => rbind (prep ev m l) (fun '(a, m) => rbind (preps ev m ls) (fun '(b, m) => Ok (a ++ b, m)))
  end.
(* preprocess_code, vfp2py.py:189-197 *)
Definition preprocess (ev : pystr -> res bool) (ls : plines) : res (list token) := rmap fst (preps ev [] ls).
