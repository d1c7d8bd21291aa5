(** Files of functions with remarks and empty lines after ENDPROC *)
From Verif Require Import PyBase PyStr M_Lexer S_Py M_Lit M_Conv M_Stmt M_Program M_Show M_Core S_Lexer M_Parse S_Expr M_ParseProg S_Prog.
From Verif Require M_Comment.
Open Scope Z_scope.

(** Remarks and empty lines, with the lines of comment they become *)
Inductive says_remarks : list piece -> list pystr -> Prop :=
| R_none : says_remarks [] []
| R_blank r ps l : says_remarks ps l -> says_remarks (NewLine r :: ps) ([] :: l)
| R_remark s ps l : says_remarks ps l -> says_remarks (Remark s :: ps) (M_Comment.comment_code (42 :: s ++ [10]) ++ l).
(** Only ENDPROC parts them from the lines of the function. *)
Inductive says_after : list piece -> list pystr -> Prop :=
| N_none : says_after [] []
| N_end w r ps l : key w "ENDPROC" -> says_remarks ps l -> says_after (Word w :: NewLine r :: ps) l.
Inductive says_noted (functions : pystr -> bool) : list piece -> list (proc * list pystr) -> Prop :=
| Q_nil : says_noted functions [] []
| Q_cons w x p params v locals b body e c ps l : key w "PROCEDURE" -> named x -> says_parameters p params -> says_locals v locals -> says_lines functions b body -> says_after e c -> says_noted functions ps l ->
    says_noted functions (Word w :: Word x :: p ++ v ++ b ++ e ++ ps) (({| p_name := small x; p_params := params; p_declared := locals; p_body := body |}, c) :: l).
