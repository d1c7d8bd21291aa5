(** What the text of a FoxPro program says: its lines, statements and functions. *)
From Verif Require Import PyBase PyStr M_Lexer S_Py M_Conv M_Stmt M_Core S_Lexer S_Expr.
From Verif Require M_Comment M_Call.
Open Scope Z_scope.

(** A keyword, in any of its spellings *)
Definition key (w : pystr) (k : string) : Prop := word_kind w = k.
(** What can be assigned to: any name but NOTE and DO *)
Definition target (w : pystr) : Prop := named w /\ word_kind w <> "NOTE"%string /\ word_kind w <> "DO"%string.
(** A call of a function of the file *)
Definition own_call (functions : pystr -> bool) (t : ctx) : bool := match t with CCall f _ => functions f && negb (pystr_eqb f (u "dodefault")) | _ => false end.
Definition listed (l : list pystr) (f : pystr) : bool := existsb (pystr_eqb f) l.
(** DO passes variables by reference: C115 has no such calls. *)
Definition by_value (t : ctx) : Prop := forall x, t <> CVar x.
Inductive optional (k : string) : list piece -> Prop :=
| W_none : optional k []
| W_word w : key w k -> optional k [Word w].
Inductive says_step : list piece -> option ctx -> Prop :=
| P_none : says_step [] None
| P_some w v t : key w "STEP" -> says 0 v t -> says_step (Word w :: v) (Some t).
Inductive for_end : list piece -> Prop :=
| E_endfor w : key w "ENDFOR" -> for_end [Word w]
| E_next w : key w "NEXT" -> for_end [Word w]
| E_next_name w x : key w "NEXT" -> named x -> for_end [Word w; Word x].
Section lines.
Variable functions : pystr -> bool.
Inductive says_line : list piece -> cstmt -> Prop :=
| L_blank r : says_line [NewLine r] (KNote [[]])
| L_remark s : says_line [Remark s] (KNote (M_Comment.comment_code (42 :: s ++ [10])))
| L_let x v t r : target x -> says 0 v t -> own_call functions t = false -> says_line (Word x :: sym "=" :: v ++ [NewLine r]) (KLet (small x) t)
| L_call x v f l r : target x -> says 0 v (CCall f l) -> own_call functions (CCall f l) = true -> says_line (Word x :: sym "=" :: v ++ [NewLine r]) (KCall (Into (small x)) f l)
| L_equals v f l r : says 0 v (CCall f l) -> own_call functions (CCall f l) = true -> says_line (sym "=" :: v ++ [NewLine r]) (KCall Nowhere f l)
| L_alone w ps l r : named w -> key w "ID" -> says_all ps l -> own_call functions (CCall (called w) l) = true -> says_line (Word w :: sym "(" :: ps ++ [sym ")"; NewLine r]) (KCall Nowhere (called w) l)
| L_do d w r : key d "DO" -> named w -> ~ In (word_kind w) ["CASE"; "WHILE"; "FORM"]%string -> functions (small w) = true -> says_line [Word d; Word w; NewLine r] (KCall Nowhere (small w) [])
| L_do_with d w k ps l r : key d "DO" -> named w -> ~ In (word_kind w) ["CASE"; "WHILE"; "FORM"]%string -> functions (small w) = true -> key k "WITH" -> says_all ps l -> l <> [] -> Forall by_value l ->
    says_line (Word d :: Word w :: Word k :: ps ++ [NewLine r]) (KCall Nowhere (small w) l)
| L_if i c t th r a la b lb e r' : key i "IF" -> says 0 c t -> optional "THEN" th -> says_lines a la -> says_other "ELSE" b lb -> key e "ENDIF" ->
    says_line (Word i :: c ++ th ++ [NewLine r] ++ a ++ b ++ [Word e; NewLine r']) (KIf t la lb)
| L_case d k r c t la lm o lo e r' : key d "DO" -> key k "CASE" -> says_cases c (KOr t la lm) -> says_other "OTHERWISE" o lo -> key e "ENDCASE" ->
    says_line ([Word d; Word k; NewLine r] ++ c ++ o ++ [Word e; NewLine r']) (KCase t la lm lo)
| L_while d w c t r a la e r' : optional "DO" d -> key w "WHILE" -> says 0 c t -> says_lines a la -> key e "ENDDO" ->
    says_line (d ++ Word w :: c ++ [NewLine r] ++ a ++ [Word e; NewLine r']) (KWhile t la)
| L_for k x from tf m to tt st ts r a la e r' : key k "FOR" -> named x -> says 0 from tf -> key m "TO" -> says 0 to tt -> says_step st ts -> says_lines a la -> for_end e ->
    says_line (Word k :: Word x :: sym "=" :: from ++ Word m :: to ++ st ++ [NewLine r] ++ a ++ e ++ [NewLine r']) (KFor (small x) tf tt ts la)
| L_exit w r : upper w = u "EXIT" -> says_line [Word w; NewLine r] KExit
| L_loop w r : upper w = u "LOOP" -> says_line [Word w; NewLine r] KLoop
| L_return w v t r : key w "RETURN" -> says 0 v t -> own_call functions t = false -> says_line (Word w :: v ++ [NewLine r]) (KReturn t)
| L_answer w v f l r : key w "RETURN" -> says 0 v (CCall f l) -> own_call functions (CCall f l) = true -> says_line (Word w :: v ++ [NewLine r]) (KCall Answer f l)
| L_leave w r : key w "RETURN" -> says_line [Word w; NewLine r] KLeave
with says_lines : list piece -> clines -> Prop :=
| L_nil : says_lines [] KNil
| L_cons p s ps l : says_line p s -> says_lines ps l -> says_lines (p ++ ps) (KCons s l)
with says_other : string -> list piece -> copt -> Prop :=
| O_none k : says_other k [] KNone
| O_some k w r ps l : key w k -> says_lines ps l -> says_other k (Word w :: NewLine r :: ps) (KSome l)
with says_cases : list piece -> ccases -> Prop :=
| C_no : says_cases [] KNo
| C_or w c t r a la ps l : key w "CASE" -> says 0 c t -> says_lines a la -> says_cases ps l -> says_cases (Word w :: c ++ [NewLine r] ++ a ++ ps) (KOr t la l).
End lines.
(** Names with commas between them, and after each a type, or none *)
Inductive says_names : list piece -> list pystr -> Prop :=
| A_one w : named w -> says_names [Word w] [small w]
| A_more w ps l : named w -> says_names ps l -> says_names (Word w :: sym "," :: ps) (small w :: l)
| A_one_as w a y : named w -> key a "AS" -> named y -> says_names [Word w; Word a; Word y] [small w]
| A_more_as w a y ps l : named w -> key a "AS" -> named y -> says_names ps l -> says_names (Word w :: Word a :: Word y :: sym "," :: ps) (small w :: l).
(** ARRAY, DIMENSION and DECLARE would be read as keywords. *)
Definition not_array (ps : list piece) : Prop := match ps with Word w :: _ => ~ In (word_kind w) ["ARRAY"; "DIMENSION"; "DECLARE"]%string | _ => True end.
(** The parameters: in parentheses after the name of the function, or in a line LPARAMETERS; and the type of the function, or none *)
Inductive says_parameters : list piece -> list pystr -> Prop :=
| F_none r : says_parameters [NewLine r] []
| F_empty r : says_parameters [sym "("; sym ")"; NewLine r] []
| F_given ps l r : says_names ps l -> says_parameters (sym "(" :: ps ++ [sym ")"; NewLine r]) l
| F_line r w ps l r' : word_kind w = "PARAMETER"%string -> In (hd 0 w) [76; 108] -> says_names ps l -> not_array ps -> says_parameters (NewLine r :: Word w :: ps ++ [NewLine r']) l
| F_none_as a y r : key a "AS" -> named y -> says_parameters [Word a; Word y; NewLine r] []
| F_empty_as a y r : key a "AS" -> named y -> says_parameters [sym "("; sym ")"; Word a; Word y; NewLine r] []
| F_given_as ps l a y r : says_names ps l -> key a "AS" -> named y -> says_parameters (sym "(" :: ps ++ [sym ")"; Word a; Word y; NewLine r]) l
| F_line_as a y r w ps l r' : key a "AS" -> named y -> word_kind w = "PARAMETER"%string -> In (hd 0 w) [76; 108] -> says_names ps l -> not_array ps -> says_parameters (Word a :: Word y :: NewLine r :: Word w :: ps ++ [NewLine r']) l.
(** The local variables, in lines of their own *)
Inductive says_locals : list piece -> list (list pystr) -> Prop :=
| V_none : says_locals [] []
| V_line w ps l r : upper w = u "LOCAL" -> says_names ps l -> not_array ps -> says_locals (Word w :: ps ++ [NewLine r]) [l]
| V_more w ps l r vs ls : upper w = u "LOCAL" -> says_names ps l -> not_array ps -> says_locals vs ls -> says_locals (Word w :: ps ++ NewLine r :: vs) (l :: ls).
Inductive says_end : list piece -> Prop :=
| U_none : says_end []
| U_word w r : key w "ENDPROC" -> says_end [Word w; NewLine r].
Inductive says_file (functions : pystr -> bool) : list piece -> list proc -> Prop :=
| X_nil : says_file functions [] []
| X_cons w x p params v locals b body e ps l : key w "PROCEDURE" -> named x -> says_parameters p params -> says_locals v locals -> says_lines functions b body -> says_end e -> says_file functions ps l ->
    says_file functions (Word w :: Word x :: p ++ v ++ b ++ e ++ ps) ({| p_name := small x; p_params := params; p_declared := locals; p_body := body |} :: l).
(** What the parser makes of NOT, everywhere *)
Fixpoint regroup (s : cstmt) : cstmt :=
  match s with
  | KLet x t => KLet x (regrouped t)
  | KIf c a b => KIf (regrouped c) (regroups a) (regroupo b)
  | KCase c a more other => KCase (regrouped c) (regroups a) (regroupc more) (regroupo other)
  | KWhile c b => KWhile (regrouped c) (regroups b)
  | KFor x from to step b => KFor x (regrouped from) (regrouped to) (option_map regrouped step) (regroups b)
  | KCall x f l => KCall x f (map regrouped l)
  | KReturn t => KReturn (regrouped t)
  | KLeave | KExit | KLoop | KNote _ => s
  end
with regroups (l : clines) : clines := match l with KNil => KNil | KCons s l => KCons (regroup s) (regroups l) end
with regroupo (o : copt) : copt := match o with KNone => KNone | KSome l => KSome (regroups l) end
with regroupc (l : ccases) : ccases := match l with KNo => KNo | KOr c a l => KOr (regrouped c) (regroups a) (regroupc l) end.
(** and where it does no harm *)
Fixpoint nots (s : cstmt) : Prop :=
  match s with
  | KLet _ t | KReturn t => nots_ok t
  | KIf c a b => nots_ok c /\ notss a /\ notso b
  | KCase c a more other => nots_ok c /\ notss a /\ notsc more /\ notso other
  | KWhile c b => nots_ok c /\ notss b
  | KFor _ _ _ _ b => notss b
  | KCall _ _ l => Forall nots_ok l
  | KLeave | KExit | KLoop | KNote _ => True
  end
with notss (l : clines) : Prop := match l with KNil => True | KCons s l => nots s /\ notss l end
with notso (o : copt) : Prop := match o with KNone => True | KSome l => notss l end
with notsc (l : ccases) : Prop := match l with KNo => True | KOr c a l => nots_ok c /\ notss a /\ notsc l end.
