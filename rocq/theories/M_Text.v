(** TEXT ... ENDTEXT: visitTextBlock and visitTextChunk, vfp2py/vfp2py_convert_visitor.py:1942-1960, and vfpfunc.text, vfp2py/vfpfunc.py:1685-1689.

    The body is the source between the end of the TEXT line and the word that ends it; it has been through the preprocessor (C48, C49) before. *)
From Verif Require Import PyBase PyStr M_Lit M_Stmt M_Form.
Open Scope Z_scope.

(** The end of the body: textChunk : (~ENDTEXT)*, VisualFoxpro9.g4:246-248, with ENDTEXT (:848), COMMENT (:754) and ID (:1051).  Simplified: a name is a run
    of [name_char]s, and the token MACROLINE is left out. *)
Definition end_words : list pystr := [u "endt"; u "endte"; u "endtex"; u "endtext"].
Fixpoint name_run (s : pystr) : pystr := match s with c :: r => if name_char c then c :: name_run r else [] | [] => [] end.
Definition starts_name (c : Z) : bool := name_char c && negb ((48 <=? c) && (c <=? 57)).
Definition lower1 (c : Z) : Z := if upper c then c + 32 else c.
(* [skip] characters are left of the token the scan is in; [comment] is set within && ... *)
Fixpoint chunk_end (s : pystr) (skip : nat) (comment : bool) : option (pystr * pystr) :=
  match s with
  | [] => None
  | c :: r =>
      let more k b := match chunk_end r k b with Some (t, rest) => Some (c :: t, rest) | None => None end in
      if comment then more 0%nat (negb (c =? 10))
      else match skip with
      | S k => more k false
      | O => if starts_name c then
               let w := name_run s in
               if existsb (pystr_eqb (map lower1 w)) end_words then Some ([], skipn (length w) s) else more (length w - 1)%nat false
             else more 0%nat (prefixb (u "&&") s)
      end
  end.
Definition text_chunk (s : pystr) : option (pystr * pystr) := chunk_end s 0 false.

(** str.splitlines *)
Definition is_break (c : Z) : bool := existsb (Z.eqb c) [10; 11; 12; 13; 28; 29; 30; 133; 8232; 8233].
Fixpoint split_lines (cur : pystr) (cr : bool) (s : pystr) : list pystr :=
  match s with
  | [] => match cur with [] => [] | _ => [cur] end
  | c :: r => if cr && (c =? 10) then split_lines [] false r
              else if is_break c then cur :: split_lines [] (c =? 13) r
              else split_lines (cur ++ [c]) false r
  end.
Definition splitlines (s : pystr) : list pystr := split_lines [] false s.

(** The clauses of the command.  FLAGS and PRETEXT are left out: like ADDITIVE and TEXTMERGE they are parsed and not used. *)
Record clauses := Clauses { t_to : option pystr; t_additive : bool; t_merge : bool; t_noshow : bool }.
Section Emit.
Variable printable : Z -> bool.
(* visitTextChunk, :1954-1960 *)
Definition lines_code (body : pystr) : pystr := u "[" ++ M_Lit.join [44; 10] (map (str_repr printable) (splitlines body)) ++ u "]".
(* visitTextBlock, :1942-1952; [t_to] is the code of the variable *)
Definition text_code (t : clauses) (body : pystr) : pystr :=
  let val := make_func_code (u "vfpfunc.text") (lines_code body :: (if t_noshow t then [u "show=False"] else [])) in
  match t_to t with Some n => n ++ u " = " ++ val | None => val end.
End Emit.
(* vfpfunc.text, vfpfunc.py:1685-1689: the value and what is printed *)
Definition text_fn (lines : list pystr) (show : bool) : pystr * option pystr :=
  let t := concat (map strip lines) in (t, if show then Some t else None).
(** The command executed, on the variables [env] *)
Definition run_text (t : clauses) (body : pystr) (env : pystr -> option pystr) : (pystr -> option pystr) * option pystr :=
  let (v, out) := text_fn (splitlines body) (negb (t_noshow t)) in
  (match t_to t with Some n => fun x => if pystr_eqb x n then Some v else env x | None => env end, out).
