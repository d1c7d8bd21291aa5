(** Programs and files of functions from the source text on: properties C120 and C121. *)
From Verif Require Import PyBase PyStr M_Memvar M_Params M_Do S_Py P_Py S_PyEval M_Lit P_Lit M_Stmt S_Stmt P_Stmt T_Stmt M_Program M_Conv S_Conv P_Conv P_Bool S_Inline P_Inline S_For M_Show M_Core P_Fuel S_Lex S_Core P_Lex P_Core1 P_Core2 P_Core3 S_Funs P_Funs1 P_Funs2 P_Funs3 T_Core T_Funs.
From Verif Require Import M_Lexer S_Lexer M_Parse S_Expr P_Parse P_Parse2 P_Parse3 P_Expr P_Expr2 M_ParseProg S_Prog P_Prog1 P_Prog2 P_Prog3 P_Prog4.
From Verif Require T_Parse.
From Coq Require Import Lia.
Open Scope Z_scope.

(** ** C120 *)
(** Whatever the layout, the letter case, the abbreviations and the remarks, the parser makes of a program the statements of the language, but for the grouping of NOT in its expressions; *)
Theorem C120_reads : forall src last l, laid_out src last -> says_lines (listed []) (map snd src) l -> read_lines (S_Lexer.text src last) = Some (regroups l).
Proof. exact text_read_lines. Qed.
Print Assumptions C120_reads.
(** no two programs of the language differ in more than that. *)
Theorem C120_one_reading : forall ps l l', Forall piece_ok ps -> says_lines (listed []) ps l -> says_lines (listed []) ps l' -> regroups l = regroups l'.
Proof.
  intros ps l l' OK H H'. assert (exists ts, streams ps ts) as [ts R]. { clear. induction ps as [|p ps [ts R]]; [exists []; constructor | exists (piece_stream [] p ++ ts); constructor; auto]. }
  assert (A := whole_read (listed []) ps l ts [] H OK R eq_refl). assert (B := whole_read (listed []) ps l' ts [] H' OK R eq_refl). rewrite B in A. injection A as A. symmetry. exact A.
Qed.
Print Assumptions C120_one_reading.
(** The converted text of what was read is one Python program; run from the same variables, it ends when the FoxPro program ends, without an error, leaving every variable as FoxPro leaves it, other than the
    loop variables; and it goes on when the FoxPro program goes on. *)
Theorem C120_runs_partial : forall lib printable src last l, laid_out src last -> says_lines (listed []) (map snd src) l -> core_ok lib l -> notss l ->
  exists tree p, read_lines (S_Lexer.text src last) = Some tree /\ py_reads (core_text lib printable tree) p /\ (forall q, py_reads (core_text lib printable tree) q -> q = p) /\
    forall N st, match runs no_calls N l st with
                 | Done st1 f => f = Next /\ exists st2, pruns python N None p st = Some (st2, Normal) /\ forall x, ~ In x (S_Core.loops l) -> st2 x = st1 x
                 | Running => pruns python N None p st = None
                 | Wrong => True
                 end.
Proof.
  intros lib pr src last l H Hs O N. exists (regroups l). unfold core_text. rewrite (proj1 (proj2 (texts_same (listed []) lib pr _ _ _ false)) _ l Hs false [] O N).
  destruct (C114_core_partial lib pr l O) as (p & A & B & C). exists p. split; [apply C120_reads; auto|]. auto.
Qed.
Print Assumptions C120_runs_partial.

(** ** C121 *)
(** Files of functions: the same, with the names of the functions known before their bodies. *)
Theorem C121_reads : forall src last fs, laid_out src last -> says_file (listed (map p_name fs)) (map snd src) fs -> read_file (S_Lexer.text src last) = Some (map regroup_proc fs).
Proof. exact text_read_file. Qed.
Print Assumptions C121_reads.
Theorem C121_one_reading : forall src last fs fs', laid_out src last -> says_file (listed (map p_name fs)) (map snd src) fs -> says_file (listed (map p_name fs')) (map snd src) fs' -> map regroup_proc fs = map regroup_proc fs'.
Proof. intros src last fs fs' H A B. pose proof (C121_reads _ _ _ H A) as E. rewrite (C121_reads _ _ _ H B) in E. injection E as E. symmetry. exact E. Qed.
Print Assumptions C121_one_reading.
(** A call of any function of the converted file, from any state of the scopes that shows the variables G, which no function declares, returns what the FoxPro function returns, leaves them with the values
    they have in FoxPro, and changes nothing else; and it goes on when the FoxPro call goes on. *)
Theorem C121_calls_partial : forall lib printable src last fs G, laid_out src last -> says_file (listed (map p_name fs)) (map snd src) fs -> file_ok lib fs G -> Forall (fun f => notss (p_body f)) fs ->
  exists tree p fns, read_file (S_Lexer.text src last) = Some tree /\ py_reads (file_text lib printable tree) p /\ (forall q, py_reads (file_text lib printable tree) q -> q = p) /\ py_module p = Some fns /\
    forall N k f args s m, In f (map p_name fs) -> shows G m s ->
      match fox_call fs G N k f args s with
      | Value v s1 => exists w m1, py_call fns N k f args m = (Ok w, m1) /\ (w = v \/ ~ returning fs f /\ v = PB true /\ w = PN) /\ same_but G m m1 /\ shows G m1 s1
      | Endless => fst (py_call fns N k f args m) = Err unfinished
      | Failed => True
      end.
Proof.
  intros lib pr src last fs G H Hs O N. exists (map regroup_proc fs). unfold file_text. rewrite (file_text_same lib pr fs G _ _ fs Hs (Forall_impl _ (fun f H => proj2 (proj2 (proj2 H))) (proj2 (proj2 O))) N).
  destruct (C115_functions_partial lib pr fs G O) as (p & fns & A & B & C & D). exists p, fns. split; [apply C121_reads; auto|]. auto.
Qed.
Print Assumptions C121_calls_partial.

(** Outside of that, x = x - a - b is read well and converted to S.x -= a - b. *)
Theorem C120_subtraction_refuted : forall lib printable src last x y a b r, laid_out src last -> map snd src = [Word x; sym "="; Word y; sym "-"; Number a None; sym "-"; Number b None; NewLine r] ->
  target x -> named y -> S_Expr.small x = S_Expr.small y -> name_ok (S_Expr.small x) = true -> digits_value a <= 4503599627370496 -> 0 < digits_value b <= 4503599627370496 ->
  exists tree, says_lines (listed []) (map snd src) tree /\ read_lines (S_Lexer.text src last) = Some tree /\ differ lib printable tree (S_Expr.small x).
Proof.
  intros lib pr src last x y a b r H E Tx Ny Exy Nx Ha Hb. assert (OK : Forall piece_ok (map snd src)) by (destruct H as (H & _); apply Forall_map; eapply Forall_impl; [|exact H]; cbn; tauto).
  assert (S0 : says_lines (listed []) (map snd src) (KCons (KLet (S_Expr.small x) (CBin OSub (CBin OSub (CVar (S_Expr.small x)) (CInt (digits_value a))) (CInt (digits_value b)))) KNil)).
  { rewrite E. refine (L_cons (listed []) [Word x; sym "="; Word y; sym "-"; Number a None; sym "-"; Number b None; NewLine r] _ [] _ _ (L_nil (listed []))). refine (L_let (listed []) _ [Word y; sym "-"; Number a None; sym "-"; Number b None] _ _ _ _ _); [exact Tx | | reflexivity].
    apply (T_Parse.lift 0 4); [|lia]. refine (Y_binary 4 [sym "-"] (CBin OSub) [Word y; sym "-"; Number a None] _ [Number b None] _ _ _ _); [constructor; cbn; auto | | apply (T_Parse.lift 5 9); [apply Y_number | lia]].
    refine (Y_binary 4 [sym "-"] (CBin OSub) [Word y] _ [Number a None] _ _ _ _); [constructor; cbn; auto | rewrite Exy; apply T_Parse.name_read; auto; lia | apply (T_Parse.lift 5 9); [apply Y_number | lia]]. }
  eexists. split; [exact S0|]. split; [rewrite (C120_reads _ _ _ H S0); reflexivity|]. apply C114_subtraction_refuted; auto. rewrite E in OK. split; [|exact Ha]. repeat match goal with K : Forall _ (_ :: _) |- _ => inversion K; clear K; subst end.
  match goal with K : piece_ok (Number a None) |- _ => destruct K as (_ & K & _); apply digits_nonneg; exact K end.
Qed.
Print Assumptions C120_subtraction_refuted.

(** ** Examples *)
(* the level of an expression, and where its operator is *)
Ltac leaf := match goal with |- says ?m _ _ => apply (T_Parse.lift m 9); [first [apply Y_text | apply Y_name; T_Parse.named | exact (Y_number _)] | lia] end.
Ltac oper n k f := match goal with |- says ?m ?ps _ => let a := eval cbn [firstn] in (firstn k ps) in let o := eval cbn [firstn skipn] in (firstn 1 (skipn k ps)) in let b := eval cbn [skipn] in (skipn (S k) ps) in
  apply (T_Parse.lift m n); [apply (Y_binary n o f a _ b _); [constructor; vm_compute; auto 20 | |] | lia] end.
Ltac negated := match goal with |- says ?m _ _ => apply (T_Parse.lift m 2); [apply Y_not; [constructor; reflexivity|] | lia] end.
Ltac key := vm_compute; reflexivity.
Ltac target := split; [T_Parse.named | vm_compute; split; discriminate].
Ltac part i n ps := eval cbn [firstn skipn] in (firstn n (skipn i ps)).
Ltac line n := match goal with |- says_lines ?fns ?ps (KCons ?s ?l) => let p := part 0%nat n ps in let q := eval cbn [skipn] in (skipn n ps) in apply (L_cons fns p s q l) end.
Ltac a_let := match goal with |- says_line ?fns (_ :: _ :: ?ps) _ => let n := eval cbn in (length ps - 1)%nat in let v := part 0%nat n ps in refine (L_let fns _ v _ _ _ _ _); [target | | reflexivity] end.
Ltac a_call := match goal with |- says_line ?fns (_ :: _ :: ?ps) _ => let n := eval cbn in (length ps - 1)%nat in let v := part 0%nat n ps in refine (L_call fns _ v _ _ _ _ _ _); [target | | reflexivity] end.
Ltac a_return := match goal with |- says_line ?fns (_ :: ?ps) _ => let n := eval cbn in (length ps - 1)%nat in let v := part 0%nat n ps in refine (L_return fns _ v _ _ _ _ _); [key | | reflexivity] end.
Ltac an_answer := match goal with |- says_line ?fns (_ :: ?ps) _ => let n := eval cbn in (length ps - 1)%nat in let v := part 0%nat n ps in refine (L_answer fns _ v _ _ _ _ _ _); [key | | reflexivity] end.
Ltac an_equals := match goal with |- says_line ?fns (_ :: ?ps) _ => let n := eval cbn in (length ps - 1)%nat in let v := part 0%nat n ps in refine (L_equals fns v _ _ _ _ _); [| reflexivity] end.
Ltac alone := match goal with |- says_line ?fns (_ :: _ :: ?ps) _ => let n := eval cbn in (length ps - 2)%nat in let v := part 0%nat n ps in refine (L_alone fns _ v _ _ _ _ _ _); [T_Parse.named | key | | reflexivity] end.
Ltac a_do := match goal with |- says_line ?fns (_ :: _ :: _ :: ?ps) _ => let n := eval cbn in (length ps - 1)%nat in let v := part 0%nat n ps in refine (L_do_with fns _ _ _ v _ _ _ _ _ _ _ _ _ _); [key | T_Parse.named | vm_compute; intuition discriminate | reflexivity | key | | discriminate | repeat constructor; discriminate] end.
Ltac a_if n th m b := match goal with |- says_line ?fns (_ :: ?ps) _ =>
  let c := part 0%nat n ps in let p := part n th ps in let i := eval cbn in (n + th + 1)%nat in let a := part i m ps in let j := eval cbn in (i + m)%nat in let o := part j b ps in refine (L_if fns _ c _ p _ a _ o _ _ _ _ _ _ _ _ _) end; [key | | try constructor; key | | | key].
Ltac a_case n b := match goal with |- says_line ?fns (_ :: _ :: _ :: ?ps) _ => let c := part 0%nat n ps in let o := part n b ps in refine (L_case fns _ _ _ c _ _ _ o _ _ _ _ _ _ _ _) end; [key | key | | | key].
Ltac one_case n m := match goal with |- says_cases ?fns (_ :: ?ps) _ => let c := part 0%nat n ps in let i := eval cbn in (n + 1)%nat in let a := part i m ps in let j := eval cbn in (i + m)%nat in let q := eval cbn [skipn] in (skipn j ps) in refine (C_or fns _ c _ _ a _ q _ _ _ _ _) end; [key | | |].
Ltac a_while n m := match goal with |- says_line ?fns (_ :: ?ps) _ => let c := part 0%nat n ps in let i := eval cbn in (n + 1)%nat in let a := part i m ps in refine (L_while fns [] _ c _ _ a _ _ _ _ _ _ _ _) end; [constructor | key | | | key].
Ltac a_do_while n m := match goal with |- says_line ?fns (?d :: _ :: ?ps) _ => let c := part 0%nat n ps in let i := eval cbn in (n + 1)%nat in let a := part i m ps in refine (L_while fns [d] _ c _ _ a _ _ _ _ _ _ _ _) end; [constructor; key | key | | | key].
Ltac a_for n m b := match goal with |- says_line ?fns (_ :: _ :: _ :: ?ps) _ => let c := part 0%nat n ps in let i := eval cbn in (n + 1)%nat in let d := part i m ps in let j := eval cbn in (i + m + 1)%nat in let a := part j b ps in let k := eval cbn in (j + b)%nat in let e := eval cbn [removelast skipn] in (removelast (skipn k ps)) in
  refine (L_for fns _ _ c _ _ d _ [] _ _ a _ e _ _ _ _ _ _ _ _ _) end; [key | T_Parse.named | | key | | constructor | | ].
Ltac piece_fine := split; [repeat (apply Forall_cons || apply Forall_nil); vm_compute; auto | try (vm_compute; intuition discriminate); (eexists; split; [vm_compute; eauto | reflexivity])].
Ltac between := vm_compute; repeat split; first [right; reflexivity | left; discriminate].
(*
* the odd numbers up to n + 2
s = 0
w = "odd"

For I = 1 to n + 2
    IF NOT i % 2 = 1   && even
        loop
    ENDIF
    do case
    case i > 7
        EXIT
    Otherwise
        s = s + ;
            i
    endc
next i
WHILE s > 100 .and. .not. w = 'all'
    s = s - 100
enddo
*)
Definition odd_source : source := [([], Remark (u " the odd numbers up to n + 2")); ([], Word (u "s")); ([Blank 32], sym "="); ([Blank 32], Number (u "0") None); ([], NewLine None); ([], Word (u "w")); ([Blank 32], sym "="); ([Blank 32], Quoted 34 (u "odd")); ([], NewLine None); ([], NewLine None); ([], Word (u "For")); ([Blank 32], Word (u "I")); ([Blank 32], sym "="); ([Blank 32], Number (u "1") None); ([Blank 32], Word (u "to")); ([Blank 32], Word (u "n")); ([Blank 32], sym "+"); ([Blank 32], Number (u "2") None); ([], NewLine None); ([Blank 32; Blank 32; Blank 32; Blank 32], Word (u "IF")); ([Blank 32], Word (u "NOT")); ([Blank 32], Word (u "i")); ([Blank 32], sym "%"); ([Blank 32], Number (u "2") None); ([Blank 32], sym "="); ([Blank 32], Number (u "1") None); ([Blank 32; Blank 32; Blank 32], NewLine (Some (u " even"))); ([Blank 32; Blank 32; Blank 32; Blank 32; Blank 32; Blank 32; Blank 32; Blank 32], Word (u "loop")); ([], NewLine None); ([Blank 32; Blank 32; Blank 32; Blank 32], Word (u "ENDIF")); ([], NewLine None); ([Blank 32; Blank 32; Blank 32; Blank 32], Word (u "do")); ([Blank 32], Word (u "case")); ([], NewLine None); ([Blank 32; Blank 32; Blank 32; Blank 32], Word (u "case")); ([Blank 32], Word (u "i")); ([Blank 32], sym ">"); ([Blank 32], Number (u "7") None); ([], NewLine None); ([Blank 32; Blank 32; Blank 32; Blank 32; Blank 32; Blank 32; Blank 32; Blank 32], Word (u "EXIT")); ([], NewLine None); ([Blank 32; Blank 32; Blank 32; Blank 32], Word (u "Otherwise")); ([], NewLine None); ([Blank 32; Blank 32; Blank 32; Blank 32; Blank 32; Blank 32; Blank 32; Blank 32], Word (u "s")); ([Blank 32], sym "="); ([Blank 32], Word (u "s")); ([Blank 32], sym "+"); ([Blank 32; Continued [] None; Blank 32; Blank 32; Blank 32; Blank 32; Blank 32; Blank 32; Blank 32; Blank 32; Blank 32; Blank 32; Blank 32; Blank 32], Word (u "i")); ([], NewLine None); ([Blank 32; Blank 32; Blank 32; Blank 32], Word (u "endc")); ([], NewLine None); ([], Word (u "next")); ([Blank 32], Word (u "i")); ([], NewLine None); ([], Word (u "WHILE")); ([Blank 32], Word (u "s")); ([Blank 32], sym ">"); ([Blank 32], Number (u "100") None); ([Blank 32], Dotted "OTHERAND" (u "and")); ([Blank 32], Dotted "OTHERNOT" (u "not")); ([Blank 32], Word (u "w")); ([Blank 32], sym "="); ([Blank 32], Quoted 39 (u "all")); ([], NewLine None); ([Blank 32; Blank 32; Blank 32; Blank 32], Word (u "s")); ([Blank 32], sym "="); ([Blank 32], Word (u "s")); ([Blank 32], sym "-"); ([Blank 32], Number (u "100") None); ([], NewLine None); ([], Word (u "enddo")); ([], NewLine None)].
(*
FUNCTION Fact(n)
LOCAL r
* n!
IF n <= 1 THEN
    RETURN 1
ENDIF
r = FACT(n - 1)
Calls = calls + 1
retu n * R
ENDFUNC
Procedure gcd
lparameters a, b
local t
Local f
DO WHILE b # 0
    t = a % b
    a = b   && and so on
    b = t
ENDDO
f = fact(a)
RETURN f
*)
Definition file_source : source := [([], Word (u "FUNCTION")); ([Blank 32], Word (u "Fact")); ([], sym "("); ([], Word (u "n")); ([], sym ")"); ([], NewLine None); ([], Word (u "LOCAL")); ([Blank 32], Word (u "r")); ([], NewLine None); ([], Remark (u " n!")); ([], Word (u "IF")); ([Blank 32], Word (u "n")); ([Blank 32], sym "<="); ([Blank 32], Number (u "1") None); ([Blank 32], Word (u "THEN")); ([], NewLine None); ([Blank 32; Blank 32; Blank 32; Blank 32], Word (u "RETURN")); ([Blank 32], Number (u "1") None); ([], NewLine None); ([], Word (u "ENDIF")); ([], NewLine None); ([], Word (u "r")); ([Blank 32], sym "="); ([Blank 32], Word (u "FACT")); ([], sym "("); ([], Word (u "n")); ([Blank 32], sym "-"); ([Blank 32], Number (u "1") None); ([], sym ")"); ([], NewLine None); ([], Word (u "Calls")); ([Blank 32], sym "="); ([Blank 32], Word (u "calls")); ([Blank 32], sym "+"); ([Blank 32], Number (u "1") None); ([], NewLine None); ([], Word (u "retu")); ([Blank 32], Word (u "n")); ([Blank 32], sym "*"); ([Blank 32], Word (u "R")); ([], NewLine None); ([], Word (u "ENDFUNC")); ([], NewLine None); ([], Word (u "Procedure")); ([Blank 32], Word (u "gcd")); ([], NewLine None); ([], Word (u "lparameters")); ([Blank 32], Word (u "a")); ([], sym ","); ([Blank 32], Word (u "b")); ([], NewLine None); ([], Word (u "local")); ([Blank 32], Word (u "t")); ([], NewLine None); ([], Word (u "Local")); ([Blank 32], Word (u "f")); ([], NewLine None); ([], Word (u "DO")); ([Blank 32], Word (u "WHILE")); ([Blank 32], Word (u "b")); ([Blank 32], sym "#"); ([Blank 32], Number (u "0") None); ([], NewLine None); ([Blank 32; Blank 32; Blank 32; Blank 32], Word (u "t")); ([Blank 32], sym "="); ([Blank 32], Word (u "a")); ([Blank 32], sym "%"); ([Blank 32], Word (u "b")); ([], NewLine None); ([Blank 32; Blank 32; Blank 32; Blank 32], Word (u "a")); ([Blank 32], sym "="); ([Blank 32], Word (u "b")); ([Blank 32; Blank 32; Blank 32], NewLine (Some (u " and so on"))); ([Blank 32; Blank 32; Blank 32; Blank 32], Word (u "b")); ([Blank 32], sym "="); ([Blank 32], Word (u "t")); ([], NewLine None); ([], Word (u "ENDDO")); ([], NewLine None); ([], Word (u "f")); ([Blank 32], sym "="); ([Blank 32], Word (u "fact")); ([], sym "("); ([], Word (u "a")); ([], sym ")"); ([], NewLine None); ([], Word (u "RETURN")); ([Blank 32], Word (u "f")); ([], NewLine None)].
Lemma odd_laid : laid_out odd_source [].
Proof. split; [repeat (apply Forall_cons || apply Forall_nil); piece_fine|]. split; [constructor | between]. Qed.
Lemma file_laid : laid_out file_source [].
Proof. split; [repeat (apply Forall_cons || apply Forall_nil); piece_fine|]. split; [constructor | between]. Qed.

Definition odd : clines := let v (s : string) := CVar (u s) in
  KCons (KNote [u "#the odd numbers up to n + 2"]) (KCons (KLet (u "s") (CInt 0)) (KCons (KLet (u "w") (CStr (u "odd"))) (KCons (KNote [[]])
  (KCons (KFor (u "i") (CInt 1) (CBin OAdd (v "n"%string) (CInt 2)) None
    (KCons (KIf (CNot (CCmp OEq (CBin OMod (v "i"%string) (CInt 2)) (CInt 1))) (KCons KLoop KNil) KNone)
    (KCons (KCase (CCmp OGt (v "i"%string) (CInt 7)) (KCons KExit KNil) KNo (KSome (KCons (KLet (u "s") (CBin OAdd (v "s"%string) (v "i"%string))) KNil))) KNil)))
  (KCons (KWhile (CAnd (CCmp OGt (v "s"%string) (CInt 100)) (CNot (CCmp OEq (v "w"%string) (CStr (u "all"))))) (KCons (KLet (u "s") (CBin OSub (v "s"%string) (CInt 100))) KNil)) KNil))))).
Lemma odd_says : says_lines (listed []) (map snd odd_source) odd.
Proof.
  unfold odd_source, odd. cbn [map snd]. cbn zeta.
  line 1%nat; [exact (L_remark (listed []) (u " the odd numbers up to n + 2"))|].
  line 4%nat; [a_let; leaf|].
  line 4%nat; [a_let; leaf|].
  line 1%nat; [constructor|].
  line 44%nat; [a_for 1%nat 3%nat 32%nat|].
  - leaf.
  - oper 4%nat 1%nat (CBin OAdd); leaf.
  - line 12%nat; [a_if 6%nat 0%nat 2%nat 0%nat|].
    + negated. oper 3%nat 3%nat (CCmp OEq); [oper 5%nat 1%nat (CBin OMod); leaf | leaf].
    + line 2%nat; [apply L_loop; reflexivity | constructor].
    + constructor.
    + line 20%nat; [a_case 7%nat 8%nat|constructor].
      * one_case 3%nat 2%nat; [oper 3%nat 1%nat (CCmp OGt); leaf | line 2%nat; [apply L_exit; reflexivity | constructor] | constructor].
      * constructor; [key|]. line 6%nat; [a_let; oper 4%nat 1%nat (CBin OAdd); leaf | constructor].
  - apply E_next_name; [key | T_Parse.named].
  - line 18%nat; [a_while 8%nat 6%nat|constructor].
    + oper 1%nat 3%nat CAnd; [oper 3%nat 1%nat (CCmp OGt); leaf | negated; oper 3%nat 1%nat (CCmp OEq); leaf].
    + line 6%nat; [a_let; oper 4%nat 1%nat (CBin OSub); leaf | constructor].
Qed.
Definition noted (f : proc) (s : pystr) : proc := {| p_name := p_name f; p_params := p_params f; p_declared := p_declared f; p_body := KCons (KNote [s]) (p_body f) |}.

Definition functions : list proc := [noted fact (u "#n!"); gcd].
Ltac a_proc p v b e := match goal with |- says_file ?fns (_ :: _ :: ?ps) _ =>
  let pp := part 0%nat p ps in let vv := part p v ps in let i := eval cbn in (p + v)%nat in let bb := part i b ps in let j := eval cbn in (i + b)%nat in let ee := part j e ps in let k := eval cbn in (j + e)%nat in let qq := eval cbn [skipn] in (skipn k ps) in
  refine (X_cons fns _ _ pp _ vv _ bb _ ee qq _ _ _ _ _ _ _ _) end; [key | T_Parse.named | | | | |].
Lemma file_says : says_file (listed (map p_name functions)) (map snd file_source) functions.
Proof.
  unfold file_source, functions, fact, gcd, noted. cbn [map snd p_name p_params p_declared p_body]. cbn zeta.
  a_proc 4%nat 3%nat 32%nat 2%nat.
  - exact (F_given [Word (u "n")] _ None (A_one (u "n") ltac:(T_Parse.named))).
  - refine (V_line _ [Word (u "r")] _ None _ _ _); [reflexivity | apply (A_one (u "r")); T_Parse.named | vm_compute; intuition discriminate].
  - line 1%nat; [exact (L_remark _ (u " n!"))|].
    line 11%nat; [a_if 3%nat 1%nat 3%nat 0%nat|].
    + oper 3%nat 1%nat (CCmp OLe); leaf.
    + line 3%nat; [a_return; leaf | constructor].
    + constructor.
    + line 9%nat; [a_call|].
      * match goal with |- says 0 _ _ => apply (T_Parse.lift 0 9); [|lia] end. refine (Y_call (u "FACT") [Word (u "n"); sym "-"; Number (u "1") None] _ _ _); [T_Parse.named|]. apply Z_one. oper 4%nat 1%nat (CBin OSub); leaf.
      * line 6%nat; [a_let; oper 4%nat 1%nat (CBin OAdd); leaf|]. line 5%nat; [a_return; oper 6%nat 1%nat (CBin OMul); leaf|]. constructor.
  - constructor. key.
  - a_proc 6%nat 6%nat 32%nat 0%nat.
    + refine (F_line None (u "lparameters") [Word (u "a"); sym ","; Word (u "b")] _ None _ _ _ _); [reflexivity | vm_compute; tauto | apply (A_more (u "a") [Word (u "b")]); [T_Parse.named | apply (A_one (u "b")); T_Parse.named] | vm_compute; intuition discriminate].
    + refine (V_more _ [Word (u "t")] _ None _ _ _ _ _ (V_line _ [Word (u "f")] _ None _ _ _)); [reflexivity | apply (A_one (u "t")); T_Parse.named | vm_compute; intuition discriminate | reflexivity | apply (A_one (u "f")); T_Parse.named | vm_compute; intuition discriminate].
    + line 22%nat; [a_do_while 3%nat 14%nat|].
      * oper 3%nat 1%nat (CCmp ONe); leaf.
      * line 6%nat; [a_let; oper 5%nat 1%nat (CBin OMod); leaf|]. line 4%nat; [a_let; leaf|]. line 4%nat; [a_let; leaf|]. constructor.
      * line 7%nat; [a_call|].
        -- match goal with |- says 0 _ _ => apply (T_Parse.lift 0 9); [|lia] end. refine (Y_call (u "fact") [Word (u "a")] _ _ _); [T_Parse.named|]. apply Z_one. leaf.
        -- line 3%nat; [a_return; leaf|]. constructor.
    + constructor.
    + constructor.
Qed.

Lemma odd_ok : forall lib, core_ok lib odd.
Proof.
  intros lib. Ltac seen := let y := fresh in let A := fresh in let B := fresh in intros y B; split; [exact I|]; intros A; vm_compute in A, B; repeat (destruct B as [<-|B]; [(left; reflexivity) || (exfalso; repeat destruct A as [A|A]; discriminate || contradiction)|]); contradiction.
  Ltac fine := split; [reflexivity|]; cbn; repeat split; try lia; try discriminate; try exact I.
  Ltac let_fine := split; [reflexivity|split; [exact I|split; [split; [reflexivity|right; cbn; repeat split; lia]|split; [seen|split; [vm_compute; intuition discriminate|]]]]].
  Ltac note_fine := constructor; [split; [vm_compute; intuition discriminate | vm_compute; auto] | constructor].
  split; [note_fine|]. split; [let_fine; left; discriminate|]. split; [let_fine; left; discriminate|]. split; [note_fine|]. split; [|split; [|exact I]].
  - split; [reflexivity|]. split; [exact I|]. split; [apply T_Core.small; lia|]. split; [seen|]. split; [fine|]. split; [seen|]. split; [exact I|]. split; [left; reflexivity|]. split; [intros []|].
    split; [|split; [|exact I]].
    + split; [fine|]. split; [seen|]. split; [split; [reflexivity|exact I]|exact I].
    + split; [fine|]. split; [seen|]. split; [split; [reflexivity|exact I]|]. split; [exact I|]. split; [|exact I]. let_fine. right. eexists OAdd, _. split; [reflexivity|exact I].
  - split; [fine|]. split; [seen|]. split; [|exact I]. let_fine. right. eexists OSub, _. split; [reflexivity|exact I].
Qed.
Example C120_example : forall lib, laid_out odd_source [] /\ says_lines (listed []) (map snd odd_source) odd /\ core_ok lib odd /\ notss odd /\ ended (runs no_calls 20 odd (upd zero n_ (PI 9))) (u "s") = Some (PI 16).
Proof. intros lib. split; [exact odd_laid|]. split; [exact odd_says|]. split; [apply odd_ok|]. split; [cbn; repeat split; intros; discriminate | vm_compute; reflexivity]. Qed.
Example C120_example_text : forall lib printable, option_map (core_text lib printable) (read_lines (S_Lexer.text odd_source [])) = Some (
  u "#the odd numbers up to n + 2" ++ [10] ++ u "S.s = 0" ++ [10] ++ u "S.w = 'odd'" ++ [10] ++ [10] ++ u "for S.i in range(1, int(S.n + 2) + 1):" ++ [10] ++ u "    if not S.i % 2 == 1:" ++ [10] ++ u "        continue" ++ [10] ++
  u "    if S.i > 7:" ++ [10] ++ u "        break" ++ [10] ++ u "    else:" ++ [10] ++ u "        S.s += S.i" ++ [10] ++ u "while S.s > 100 and not S.w == 'all':" ++ [10] ++ u "    S.s -= 100").
Proof. intros. vm_compute. reflexivity. Qed.
(*
ok = BETW(x, 1, Max(y, 10))
d = IIF(ok, abs(x - y) + MOD(x, 7), LENC("abc" + w))
*)
Definition call_source : source := [([], Word (u "ok")); ([Blank 32], sym "="); ([Blank 32], Word (u "BETW")); ([], sym "("); ([], Word (u "x")); ([], sym ","); ([Blank 32], Number (u "1") None); ([], sym ","); ([Blank 32], Word (u "Max")); ([], sym "("); ([], Word (u "y")); ([], sym ","); ([Blank 32], Number (u "10") None); ([], sym ")"); ([], sym ")"); ([], NewLine None); ([], Word (u "d")); ([Blank 32], sym "="); ([Blank 32], Word (u "IIF")); ([], sym "("); ([], Word (u "ok")); ([], sym ","); ([Blank 32], Word (u "abs")); ([], sym "("); ([], Word (u "x")); ([Blank 32], sym "-"); ([Blank 32], Word (u "y")); ([], sym ")"); ([Blank 32], sym "+"); ([Blank 32], Word (u "MOD")); ([], sym "("); ([], Word (u "x")); ([], sym ","); ([Blank 32], Number (u "7") None); ([], sym ")"); ([], sym ","); ([Blank 32], Word (u "LENC")); ([], sym "("); ([], Quoted 34 (u "abc")); ([Blank 32], sym "+"); ([Blank 32], Word (u "w")); ([], sym ")"); ([], sym ")"); ([], NewLine None)].
Definition call_program : clines := let v (s : string) := CVar (u s) in
  KCons (KLet (u "ok") (CCall (u "between") [v "x"%string; CInt 1; CCall (u "max") [v "y"%string; CInt 10]]))
  (KCons (KLet (u "d") (CCall (u "iif") [v "ok"%string; CBin OAdd (CCall (u "abs") [CBin OSub (v "x"%string) (v "y"%string)]) (CCall (u "mod") [v "x"%string; CInt 7]); CCall (u "len") [CBin OAdd (CStr (u "abc")) (v "w"%string)]])) KNil).
Lemma call_laid : laid_out call_source [].
Proof. split; [repeat (apply Forall_cons || apply Forall_nil); piece_fine|]. split; [constructor | between]. Qed.
Ltac one_of_many k := match goal with |- says_all ?ps _ => let a := eval cbn [firstn] in (firstn k ps) in let b := eval cbn [skipn] in (skipn (S k) ps) in refine (Z_more a _ b _ _ _ _); [| | discriminate] end.
Ltac the_call w ps := match goal with |- says ?m _ _ => apply (T_Parse.lift m 9); [|lia] end; refine (Y_call w ps _ _ _); [T_Parse.named|].
Lemma call_says : says_lines (listed []) (map snd call_source) call_program.
Proof.
  unfold call_source, call_program. cbn [map snd]. cbn zeta.
  line 16%nat; [a_let | line 28%nat; [a_let | constructor]].
  - the_call (u "BETW") [Word (u "x"); sym ","; Number (u "1") None; sym ","; Word (u "Max"); sym "("; Word (u "y"); sym ","; Number (u "10") None; sym ")"].
    one_of_many 1%nat; [leaf|]. one_of_many 1%nat; [leaf|]. apply Z_one. the_call (u "Max") [Word (u "y"); sym ","; Number (u "10") None]. one_of_many 1%nat; [leaf|]. apply Z_one. leaf.
  - match goal with |- says 0 (_ :: _ :: ?ps) _ => let qs := eval cbn [removelast] in (removelast ps) in the_call (u "IIF") qs end. one_of_many 1%nat; [leaf|]. one_of_many 13%nat.
    + oper 4%nat 6%nat (CBin OAdd).
      * the_call (u "abs") [Word (u "x"); sym "-"; Word (u "y")]. apply Z_one. oper 4%nat 1%nat (CBin OSub); leaf.
      * the_call (u "MOD") [Word (u "x"); sym ","; Number (u "7") None]. one_of_many 1%nat; [leaf|]. apply Z_one. leaf.
    + apply Z_one. the_call (u "LENC") [Quoted 34 (u "abc"); sym "+"; Word (u "w")]. apply Z_one. oper 4%nat 1%nat (CBin OAdd); leaf.
Qed.
Ltac a_builtin := first [right; right; left; split; [reflexivity | eexists _, _, _; reflexivity] | right; right; right; left; split; [reflexivity | eexists _, _, _; split; [reflexivity | repeat constructor]] |
  right; right; right; right; split; [reflexivity | eexists _, _; repeat split; reflexivity] | right; left; split; [reflexivity | discriminate]].
Ltac tame_call := match goal with
  | |- (own_function _ _ \/ builtin_ok _ _) /\ _ => split; [a_builtin | tame_call]
  | |- _ /\ _ => split; tame_call
  | |- True => exact I
  | |- tame _ ?t => let x := eval hnf in t in cbn [tame core atomic]; tame_call
  | |- _ => first [exact I | discriminate | reflexivity | idtac] end.
Lemma call_ok : forall lib, core_ok lib call_program.
Proof.
  intros lib. Ltac call_fine := split; [reflexivity|split; [exact I|split; [split; [reflexivity|right; split; [cbn; repeat split; lia | tame_call]]|split; [seen|split; [vm_compute; intuition discriminate|left; discriminate]]]]].
  split; [call_fine|]. split; [call_fine|exact I].
Qed.
Example C120_example_calls : forall lib, laid_out call_source [] /\ says_lines (listed []) (map snd call_source) call_program /\ core_ok lib call_program /\ notss call_program /\
  let s := upd (upd (upd zero (u "x") (PI 20)) (u "y") (PI 30)) (u "w") (PS (u "de")) in
  ended (runs no_calls 20 call_program s) (u "d") = Some (PI 16) /\ ended (runs no_calls 20 call_program (upd s (u "y") (PI 9))) (u "d") = Some (PI 5).
Proof. intros lib. split; [exact call_laid|]. split; [exact call_says|]. split; [apply call_ok|]. split; [cbn; repeat split; intros; discriminate | split; vm_compute; reflexivity]. Qed.
Example C120_example_calls_text : forall lib printable, option_map (core_text lib printable) (read_lines (S_Lexer.text call_source [])) = Some (
  u "S.ok = (1 <= S.x <= max(S.y, 10))" ++ [10] ++ u "S.d = (abs(S.x - S.y) + (S.x % 7) if S.ok else len('abc' + S.w))").
Proof. intros. vm_compute. reflexivity. Qed.
Lemma functions_ok : forall lib, file_ok lib functions [u "calls"].
Proof.
  intros lib. destruct (C115_example lib) as ((A & B & C) & _). split; [exact A|]. split; [exact B|]. inversion C as [|? ? F C']; inversion C' as [|? ? K _]; subst.
  assert (Us : forall g f, usable [fact; gcd] g f -> usable functions g f).
  { intros g f [Cf Rf]. split; [exact Cf|]. destruct Cf as [<-|[<-|[]]]; destruct g; try exact I; eexists; (split; [reflexivity|split; reflexivity]). }
  constructor; [|constructor; [|constructor]].
  - destruct F as (F1 & F2 & F3 & F4). repeat (split; [assumption|]). apply (body_mono lib [fact; gcd] functions); [exact Us|]. destruct F4 as (F4 & F5 & F6 & F7 & F8 & F9 & F10). repeat (split; [assumption|]). split; [|exact F10]. note_fine.
  - destruct K as (K1 & K2 & K3 & K4). repeat (split; [assumption|]). apply (body_mono lib [fact; gcd] functions); [exact Us|exact K4].
Qed.
Example C121_example : forall lib, laid_out file_source [] /\ says_file (listed (map p_name functions)) (map snd file_source) functions /\ file_ok lib functions [u "calls"] /\ Forall (fun f => notss (p_body f)) functions /\
  shows [u "calls"] one_public (upd (fun _ => None) (u "calls") (PI 10)) /\ exists s1, fox_call functions [u "calls"] 9 9 (u "gcd") [PI 20; PI 15] (upd (fun _ => None) (u "calls") (PI 10)) = Value (PI 120) s1 /\ s1 (u "calls") = Some (PI 14).
Proof.
  intros lib. split; [exact file_laid|]. split; [exact file_says|]. split; [apply functions_ok|]. split; [repeat constructor|]. split; [apply (C115_example lib)|]. eexists. split; vm_compute; reflexivity.
Qed.
Example C121_example_text : forall lib printable, option_map (file_text lib printable) (read_file (S_Lexer.text file_source [])) = Some (
  u "@lparameters('n')" ++ [10] ++ u "def fact():" ++ [10] ++ u "    M.add_local('r')" ++ [10] ++ u "    #n!" ++ [10] ++ u "    if S.n <= 1:" ++ [10] ++ u "        return 1" ++ [10] ++ u "    S.r = fact(S.n - 1)" ++ [10] ++ u "    S.calls += 1" ++ [10] ++ u "    return S.n * S.r" ++ [10] ++
  u "@lparameters('a', 'b')" ++ [10] ++ u "def gcd():" ++ [10] ++ u "    M.add_local('t')" ++ [10] ++ u "    M.add_local('f')" ++ [10] ++ u "    while S.b != 0:" ++ [10] ++ u "        S.t = S.a % S.b" ++ [10] ++ u "        S.a = S.b" ++ [10] ++ u "        S.b = S.t" ++ [10] ++ u "    S.f = fact(S.a)" ++ [10] ++ u "    return S.f").
Proof. intros. vm_compute. reflexivity. Qed.
(*
FUNCTION Down(i as Integer) AS Numeric
IF i <= 0
  RETURN total
ENDIF
Tally(i)
= tally(i)
DO TALLY WITH i - 1
RETURN down(i - 1)
PROCEDURE tally
LPARAMETERS k AS Integer
total = total + k
RETURN
ENDPROC
*)
Definition down_source : source := [([], Word (u "FUNCTION")); ([Blank 32], Word (u "Down")); ([], sym "("); ([], Word (u "i")); ([Blank 32], Word (u "as")); ([Blank 32], Word (u "Integer")); ([], sym ")"); ([Blank 32], Word (u "AS")); ([Blank 32], Word (u "Numeric")); ([], NewLine None); ([], Word (u "IF")); ([Blank 32], Word (u "i")); ([Blank 32], sym "<="); ([Blank 32], Number (u "0") None); ([], NewLine None); ([Blank 32; Blank 32], Word (u "RETURN")); ([Blank 32], Word (u "total")); ([], NewLine None); ([], Word (u "ENDIF")); ([], NewLine None); ([], Word (u "Tally")); ([], sym "("); ([], Word (u "i")); ([], sym ")"); ([], NewLine None); ([], sym "="); ([Blank 32], Word (u "tally")); ([], sym "("); ([], Word (u "i")); ([], sym ")"); ([], NewLine None); ([], Word (u "DO")); ([Blank 32], Word (u "TALLY")); ([Blank 32], Word (u "WITH")); ([Blank 32], Word (u "i")); ([Blank 32], sym "-"); ([Blank 32], Number (u "1") None); ([], NewLine None); ([], Word (u "RETURN")); ([Blank 32], Word (u "down")); ([], sym "("); ([], Word (u "i")); ([Blank 32], sym "-"); ([Blank 32], Number (u "1") None); ([], sym ")"); ([], NewLine None); ([], Word (u "PROCEDURE")); ([Blank 32], Word (u "tally")); ([], NewLine None); ([], Word (u "LPARAMETERS")); ([Blank 32], Word (u "k")); ([Blank 32], Word (u "AS")); ([Blank 32], Word (u "Integer")); ([], NewLine None); ([], Word (u "total")); ([Blank 32], sym "="); ([Blank 32], Word (u "total")); ([Blank 32], sym "+"); ([Blank 32], Word (u "k")); ([], NewLine None); ([], Word (u "RETURN")); ([], NewLine None); ([], Word (u "ENDPROC")); ([], NewLine None)].
Definition down_functions : list proc := let v (s : string) := CVar (u s) in
  [{| p_name := u "down"; p_params := [u "i"]; p_declared := [];
      p_body := KCons (KIf (CCmp OLe (v "i"%string) (CInt 0)) (KCons (KReturn (v "total"%string)) KNil) KNone)
                (KCons (KCall Nowhere (u "tally") [v "i"%string])
                (KCons (KCall Nowhere (u "tally") [v "i"%string])
                (KCons (KCall Nowhere (u "tally") [CBin OSub (v "i"%string) (CInt 1)])
                (KCons (KCall Answer (u "down") [CBin OSub (v "i"%string) (CInt 1)]) KNil)))) |};
   {| p_name := u "tally"; p_params := [u "k"]; p_declared := [];
      p_body := KCons (KLet (u "total") (CBin OAdd (v "total"%string) (v "k"%string))) (KCons KLeave KNil) |}].
Lemma down_laid : laid_out down_source [].
Proof. split; [repeat (apply Forall_cons || apply Forall_nil); piece_fine|]. split; [constructor | between]. Qed.
Lemma down_says : says_file (listed (map p_name down_functions)) (map snd down_source) down_functions.
Proof.
  unfold down_source, down_functions. cbn [map snd p_name p_params p_declared p_body]. cbn zeta.
  a_proc 8%nat 0%nat 36%nat 0%nat.
  - exact (F_given_as [Word (u "i"); Word (u "as"); Word (u "Integer")] _ (u "AS") (u "Numeric") None (A_one_as (u "i") (u "as") (u "Integer") ltac:(T_Parse.named) ltac:(key) ltac:(T_Parse.named)) ltac:(key) ltac:(T_Parse.named)).
  - constructor.
  - line 10%nat; [a_if 3%nat 0%nat 3%nat 0%nat|line 5%nat; [alone|line 6%nat; [an_equals|line 7%nat; [a_do|line 8%nat; [an_answer|constructor]]]]].
    + oper 3%nat 1%nat (CCmp OLe); leaf.
    + line 3%nat; [a_return; leaf | constructor].
    + constructor.
    + apply Z_one. leaf.
    + the_call (u "tally") [Word (u "i")]. apply Z_one. leaf.
    + apply Z_one. oper 4%nat 1%nat (CBin OSub); leaf.
    + the_call (u "down") [Word (u "i"); sym "-"; Number (u "1") None]. apply Z_one. oper 4%nat 1%nat (CBin OSub); leaf.
  - constructor.
  - a_proc 6%nat 0%nat 8%nat 2%nat.
    + refine (F_line None (u "LPARAMETERS") [Word (u "k"); Word (u "AS"); Word (u "Integer")] _ None _ _ _ _); [reflexivity | vm_compute; tauto | apply (A_one_as (u "k") (u "AS") (u "Integer")); [T_Parse.named | key | T_Parse.named] | vm_compute; intuition discriminate].
    + constructor.
    + line 6%nat; [a_let; oper 4%nat 1%nat (CBin OAdd); leaf|]. line 2%nat; [apply L_leave; key|constructor].
    + constructor. key.
    + constructor.
Qed.
Lemma down_fine : forall lib, file_ok lib down_functions [u "total"].
Proof.
  intros lib. split; [repeat constructor|]. split; [repeat constructor; tell|]. constructor; [|constructor; [|constructor]].
  - split; [reflexivity|]. split; [reflexivity|]. split; [reflexivity|]. split; [repeat constructor|]. split; [repeat constructor; tell|]. split; [apart|]. split; [tell|]. split; [tell|]. split; [intros x []|].
    split; [|split; [|split; [|split; [|split; [|exact I]]]]].
    + split; [T_Funs.fine|]. split; [T_Funs.seen|]. split; [split; [split; [reflexivity|split; [T_Funs.a_value|T_Funs.seen]]|exact I]|exact I].
    + split; [exact I|]. split; [T_Funs.used|]. constructor; [split; [T_Funs.a_value|T_Funs.seen]|constructor].
    + split; [exact I|]. split; [T_Funs.used|]. constructor; [split; [T_Funs.a_value|T_Funs.seen]|constructor].
    + split; [exact I|]. split; [T_Funs.used|]. constructor; [split; [T_Funs.a_value|T_Funs.seen]|constructor].
    + split; [reflexivity|]. split; [T_Funs.used|]. constructor; [split; [T_Funs.a_value|T_Funs.seen]|constructor].
  - split; [reflexivity|]. split; [reflexivity|]. split; [reflexivity|]. split; [repeat constructor|]. split; [repeat constructor; tell|]. split; [apart|]. split; [tell|]. split; [tell|]. split; [intros x []|].
    split; [|split; [|exact I]].
    + T_Funs.let_fine. right. eexists OAdd, _. split; [reflexivity|exact I].
    + reflexivity.
Qed.
Example C121_example_calls : forall lib, laid_out down_source [] /\ says_file (listed (map p_name down_functions)) (map snd down_source) down_functions /\ file_ok lib down_functions [u "total"] /\ Forall (fun f => notss (p_body f)) down_functions /\
  exists s1, fox_call down_functions [u "total"] 9 9 (u "down") [PI 3] (upd (fun _ => None) (u "total") (PI 100)) = Value (PI 115) s1 /\ s1 (u "total") = Some (PI 115).
Proof. intros lib. split; [exact down_laid|]. split; [exact down_says|]. split; [apply down_fine|]. split; [repeat constructor|].
  assert (E : match fox_call down_functions [u "total"] 9 9 (u "down") [PI 3] (upd (fun _ => None) (u "total") (PI 100)) with Value v s => Some (v, s (u "total")) | _ => None end = Some (PI 115, Some (PI 115))) by (vm_compute; reflexivity).
  destruct (fox_call down_functions _ _ _ _ _ _) as [v s| |]; try discriminate E. injection E as -> E. exists s. split; [reflexivity | exact E].
Qed.
Example C121_example_calls_text : forall lib printable, option_map (file_text lib printable) (read_file (S_Lexer.text down_source [])) = Some (
  u "@lparameters('i')" ++ [10] ++ u "def down():" ++ [10] ++ u "    if S.i <= 0:" ++ [10] ++ u "        return S.total" ++ [10] ++ u "    tally(S.i)" ++ [10] ++ u "    tally(S.i)" ++ [10] ++ u "    tally(S.i - 1)" ++ [10] ++
  u "    return down(S.i - 1)" ++ [10] ++ u "@lparameters('k')" ++ [10] ++ u "def tally():" ++ [10] ++ u "    S.total += S.k" ++ [10] ++ u "    return").
Proof. intros. vm_compute. reflexivity. Qed.
