(** Comments and statements that cannot be converted: COMMENT, LINECONT and MACROLINE of VisualFoxpro9.g4:754-758, lineComment and line (:29-38),
    replace_define_tokens, vfp2py/vfp2py.py:103-118, visitLine and visitLineComment, vfp2py/vfp2py_convert_visitor.py:189-217. *)
From Verif Require Import PyBase PyStr M_Lit M_Stmt M_Form M_Text.
Open Scope Z_scope.

(** ** Regular expressions as Python matches them: the first way in the order of the alternatives, the longest repetition first *)
Inductive re := Chr (p : Z -> bool) | Many (p : Z -> bool) | Cat (a b : re) | Or (a b : re) | Maybe (a : re) | Group (n : nat) (a : re).
Definition groups := nat -> option pystr.
Definition set_group (n : nat) (s : pystr) (g : groups) : groups := fun i => if Nat.eqb i n then Some s else g i.
Section Match.
Variable X : Type.
Fixpoint many (p : Z -> bool) (s : pystr) (k : pystr -> option X) : option X :=
  match s with
  | c :: r => if p c then match many p r k with Some x => Some x | None => k s end else k s
  | [] => k []
  end.
(* [k] is what has to match after [r] *)
Fixpoint mt (r : re) (s : pystr) (g : groups) (k : pystr -> groups -> option X) : option X :=
  match r with
  | Chr p => match s with c :: r => if p c then k r g else None | [] => None end
  | Many p => many p s (fun s => k s g)
  | Cat a b => mt a s g (fun s g => mt b s g k)
  | Or a b => match mt a s g k with Some x => Some x | None => mt b s g k end
  | Maybe a => match mt a s g k with Some x => Some x | None => k s g end
  | Group n a => mt a s g (fun s' g => k s' (set_group n (firstn (length s - length s') s) g))
  end.
End Match.
Definition is_c (c : Z) : re := Chr (Z.eqb c).
(* fixer, visitor:205, with [*] for an asterisk:  ^ \s* ( && | [*]![*] | [*]* ) ( .*[^*; ]\s* | .*[^* ];\s* | ;\s* )? ( [*]* ) \s* ;* $ *)
Definition dot (c : Z) : bool := negb (c =? 10).
Definition alt_text : re := Cat (Many dot) (Cat (Chr (fun c => negb ((c =? 42) || (c =? 59) || (c =? 32)))) (Many is_space)).
Definition alt_semi : re := Cat (Many dot) (Cat (Chr (fun c => negb ((c =? 42) || (c =? 32)))) (Cat (is_c 59) (Many is_space))).
Definition alt_only : re := Cat (is_c 59) (Many is_space).
Definition lead : re := Or (Cat (is_c 38) (is_c 38)) (Or (Cat (is_c 42) (Cat (is_c 33) (is_c 42))) (Many (Z.eqb 42))).
Definition fixer : re :=
  Cat (Many is_space) (Cat (Group 1 lead) (Cat (Maybe (Group 2 (Or alt_text (Or alt_semi alt_only)))) (Cat (Group 3 (Many (Z.eqb 42))) (Cat (Many is_space) (Many (Z.eqb 59)))))).
(* the lines have no line feed in them, so $ is the end *)
Definition fixer_match (s : pystr) : option groups := mt groups fixer s (fun _ => None) (fun s g => match s with [] => Some g | _ => None end).
Definition text_of (o : option pystr) : pystr := match o with Some s => s | None => [] end.
(* repl, :206-215 *)
Definition repl (g : groups) : pystr :=
  let g1 := text_of (g 1%nat) in let g2 := text_of (g 2%nat) in let g3 := text_of (g 3%nat) in
  match g1, g2, g3 with
  | [], [], [] => []
  | _, _, _ =>
      let start := match g1 with [] => u "*" | _ => if pystr_eqb g1 (u "&&") || pystr_eqb g1 (u "*!*") then u "*" else g1 end in
      let middle := if Nat.eqb (length start) 1 && match g3 with [] => true | _ => false end then strip g2 else g2 in
      strip (repeat 35 (length start) ++ middle ++ repeat 35 (length g3))
  end.
Definition fix_comment (s : pystr) : pystr := match fixer_match s with Some g => repl g | None => s end.
(* visitLineComment, :204-217; [text] the source of the comment, continuation lines and all *)
Definition comment_code (text : pystr) : list pystr := map (fun l => fix_comment (strip l)) (splitlines text).

(** ** The lines of a program *)
(* MACROLINE : ~[\n&]* '&' ID (~'\n')*; being the longest token it is taken at the start of every line it matches.  Simplified: ID_START is the
   letters of ASCII and _ *)
Fixpoint macro_line (l : pystr) : bool := match l with [] => false | c :: r => if c =? 38 then match r with d :: _ => starts_name d | [] => false end else macro_line r end.
(* LINECONT : ';' WS* NL with WS : [ \t\r] *)
Definition is_ws (c : Z) : bool := (c =? 32) || (c =? 9) || (c =? 13).
Fixpoint drop_ws (s : pystr) : pystr := match s with c :: r => if is_ws c then drop_ws r else s | [] => [] end.
Definition continues (l : pystr) : bool := match drop_ws (rev l) with c :: _ => c =? 59 | [] => false end.
Inductive stmt := LMacro (t : pystr) | LComment (t : pystr) | LStmt (t : pystr).
(* lineComment : ('*' | NOTE) (~NL)* lineEnd | NL *)
Definition kind (t : pystr) : stmt :=
  match drop_ws t with
  | [] => LComment t
  | c :: r => if c =? 42 then LComment t else if pystr_eqb (map lower1 (name_run (c :: r))) (u "note") then LComment t else LStmt t
  end.
(* the lines lexed and parsed; [cur] is the text of the statement so far.  Lines with an & that is not followed by a name are left out *)
Fixpoint logical (cur : option pystr) (ls : list pystr) : list stmt :=
  match ls with
  | [] => match cur with Some t => [kind t] | None => [] end
  | l :: r =>
      match cur with
      | None => if macro_line l then LMacro l :: logical None r else if continues l then logical (Some (l ++ [10])) r else kind l :: logical None r
      | Some t => if negb (macro_line l) && continues l then logical (Some (t ++ l ++ [10])) r else kind (t ++ l) :: logical None r
      end
  end.
(** A statement as written: its lines, and the text after && at the end of the last *)
Record item := Item { i_code : list pystr; i_note : option pystr }.
(* replace_define_tokens: the comment is put in front as a line of its own, vfp2py.py:113-118 *)
Definition preproc (i : item) : list pystr := match i_note i with Some t => [42 :: t] | None => [] end ++ i_code i.
Definition program (p : list item) : list stmt := logical None (flat_map preproc p).

(** ** visitLine, visitor:189-202 *)
Inductive visited := VRaises | VNone | VCode1 (c : pystr) | VCodes (l : list pystr).     (* what visiting the statement gives *)
Fixpoint split_nl (s : pystr) : list pystr :=       (* str.split of a line feed *)
  match s with [] => [[]] | c :: r => if c =? 10 then [] :: split_nl r else match split_nl r with l :: ls => (c :: l) :: ls | [] => [[c]] end end.
Definition fix_me (text : pystr) : list pystr :=
  map (fun l => u "#FIX ME: " ++ l) (filter (fun l => match l with [] => false | _ => true end) (split_nl text)).
Section Line.
Variable printable : Z -> bool.
Variable visit : pystr -> visited.
Definition line_code (s : stmt) : list pystr :=
  match s with
  | LComment t => comment_code t
  | LMacro t => [make_func_code (u "vfpfunc.macro_eval") [str_repr printable t]]
  | LStmt t => match visit t with VRaises | VNone => fix_me t | VCode1 c => [c] | VCodes l => l end
  end.
End Line.
