(** From the characters of a program to the text that is converted: prg2py, vfp2py.py:495-498, with preprocess_code, :189-197.

    The parser of the lines of the preprocessor is the rule preprocessorLines, VisualFoxpro9.g4:4-22; what it makes of them is M_Prep.  Left out, as a failure: #INCLUDE.  The condition of #IF is taken to
    be the rest of its line. *)
From Verif Require Import PyBase PyStr M_Lexer M_Lit M_Prep M_Conv M_Stmt M_Program M_Show M_Core M_Parse M_ParseProg.
Open Scope Z_scope.

Definition pair := (string * pystr)%type.
Definition is (k : string) (t : pair) : bool := String.eqb (fst t) k.
Definition prep_token (t : pair) : token := Tok (if is "WS" t then TWs else if is "COMMENT" t then TComment else TOther) (snd t).
(* the next token that the parser sees *)
Fixpoint skip (ts : list pair) : list pair := match ts with t :: r => if hidden (fst t) then skip r else ts | [] => [] end.
(* (~NL)*, and what follows the NL; at the end of the file there is none *)
Fixpoint to_end (ts : list pair) : list pair * option (list pair) :=
  match ts with
  | [] => ([], None)
  | t :: r => if is "NL" t then ([], Some r) else let '(l, o) := to_end r in (t :: l, o)
  end.
(* up to the last token that the parser sees: the end of the file is not a token of the stream, and the text of a rule stops at its last token *)
Definition seen (l : list pair) : list pair := rev (skip (rev l)).
(* nonpreprocessorLine, g4:21; the hidden tokens to its left are those after the last NL, vfp2py.py:104-107 *)
Definition text_line (ts : list pair) : pline * list pair :=
  match to_end ts with
  | (l, Some r) => (PText (map prep_token (l ++ [("NL"%string, [10])])), r)
  | (l, None) => (PText (map prep_token (seen l)), [])
  end.
(* visitPreprocessorDefine, vfp2py.py:56-60: tokens[namestart+1:stop]; the last token is the NL, but at the end of the file it is the last one of the definition *)
Definition define_line (x : pystr) (ts : list pair) : pline * list pair :=
  match to_end ts with
  | (l, Some r) => (PDefine x (map prep_token l), r)
  | (l, None) => (PDefine x (map prep_token (removelast (seen l))), [])
  end.
(* lineEnd, g4:40-43 *)
Definition ends_line (ts : list pair) : option (list pair) := match skip ts with [] => Some [] | t :: r => if is "NL" t then Some r else None end.
Definition newline (ts : list pair) : option (list pair) := match skip ts with [] => None | t :: r => if is "NL" t then Some r else None end.
Definition identifier (ts : list pair) : option (pystr * list pair) :=
  match skip ts with (k, x) :: r => if existsb (String.eqb k) identifiers then Some (x, r) else None | [] => None end.
(* '#' and a keyword *)
Definition directive (ts : list pair) : option (string * list pair) :=
  match skip ts with
  | t :: r => if is "HASH" t then match skip r with (k, _) :: r => Some (k, r) | [] => Some (""%string, []) end else None
  | [] => None
  end.
Fixpoint p_plines (f : nat) (ts : list pair) {struct f} : option (plines * list pair) :=
  match f with
  | O => None
  | S f =>
      let more (p : pline * list pair) := bind (p_plines f (snd p)) (fun '(ls, r) => Some (PCons (fst p) ls, r)) in
      (* ('#' ELSE NL lines)? '#' ENDIF lineEnd, g4:12-16 *)
      let rest_of_if (node : plines -> plines -> pline) (r : list pair) :=
        bind (newline r) (fun r => bind (p_plines f r) (fun '(a, r) =>
          match directive r with
          | Some (k, r1) =>
              if String.eqb k "ELSE" then
                bind (newline r1) (fun r => bind (p_plines f r) (fun '(b, r) =>
                  match directive r with
                  | Some (k, r) => if String.eqb k "ENDIF" then bind (ends_line r) (fun r => more (node a b, r)) else None
                  | None => None
                  end))
              else if String.eqb k "ENDIF" then bind (ends_line r1) (fun r => more (node a PNil, r)) else None
          | None => None
          end)) in
      match skip ts with
      | [] => Some (PNil, ts)
      | _ =>
          match directive ts with
          | None => more (text_line ts)
          | Some (k, r) =>
              if existsb (String.eqb k) ["ELSE"; "ENDIF"]%string then Some (PNil, ts)
              else if String.eqb k "DEFINE" then bind (identifier r) (fun '(x, r) => more (define_line x r))
              else if String.eqb k "INCLUDE" || String.eqb k "NL" || String.eqb k "" then None
              else if String.eqb k "IF" then
                match to_end r with (l, Some _) => rest_of_if (PIf (map prep_token (seen l))) (skipn (length l) r) | _ => None end
              else
                match (if String.eqb k "IFDEF" then bind (identifier r) (fun '(x, r) => rest_of_if (PIfdef x) r)
                       else if String.eqb k "UNDEFINE" then bind (identifier r) (fun '(x, r) => bind (ends_line r) (fun r => more (PUndef x, r))) else None) with
                | Some x => Some x
                | None => more (PJunk, match to_end r with (_, Some r) => r | _ => [] end)
                end
          end
      end
  end.
(* preprocessorCode, g4:4-6 *)
Definition lines_of_text (s : pystr) : option plines := bind (p_plines (S (length s)) (tokens s)) (fun '(ls, r) => match skip r with [] => Some ls | _ => None end).
(* prg2py, vfp2py.py:496-497: the tokens put together, without the carriage returns *)
Definition no_cr (s : pystr) : pystr := filter (fun c => negb (c =? 13)) s.
Definition joined (l : list token) : pystr := flat_map (fun t => no_cr (t_text t)) l.
(* None: the parser does not accept the text *)
Definition prep_text (ev : pystr -> res bool) (s : pystr) : option (res pystr) := option_map (fun ls => rmap joined (preprocess ev ls)) (lines_of_text s).
(* prepend_data, vfp2py.py:495 *)
Definition main_header : pystr := u "procedure _program_main" ++ [10].
Definition read_prg (ev : pystr -> res bool) (s : pystr) : option (list proc) :=
  match prep_text ev s with Some (Ok t) => read_file (main_header ++ t) | _ => None end.
(* visitPrg, vfp2py_convert_visitor.py:171-182: the first function is defined as MAIN where it is the main program; the imports and the blank lines that yapf and the modules before them add are left out,
   and so are the remarks between functions. *)
Definition main_first (fs : list proc) : list proc :=
  match fs with
  | f :: fs => {| p_name := def_name true (p_name f); p_params := p_params f; p_declared := p_declared f; p_body := p_body f |} :: fs
  | [] => []
  end.
Definition prg_text (lib : pystr -> bool) (printable : Z -> bool) (fs : list proc) : pystr := file_text lib printable (main_first fs).
