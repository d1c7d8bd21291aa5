(** C123: a program file from its characters on: its main program and its functions. *)
From Verif Require Import PyBase PyStr M_Memvar M_Params M_Do S_Py P_Py S_PyEval M_Lit P_Lit M_Stmt S_Stmt P_Stmt T_Stmt M_Program M_Conv S_Conv P_Conv P_Bool S_Inline P_Inline S_For M_Show M_Core P_Fuel S_Lex S_Core P_Lex P_Core1 P_Core2 P_Core3 S_Funs P_Funs1 P_Funs2 P_Funs3 T_Core T_Funs.
From Verif Require Import M_Lexer S_Lexer M_Parse S_Expr P_Parse P_Parse2 P_Parse3 P_Expr P_Expr2 M_ParseProg S_Prog P_Prog1 P_Prog2 P_Prog3 P_Prog4 M_Prg S_Prg P_Prg1 P_Prg2 P_Prg3 P_Prg4.
From Verif Require T_Parse.
From Verif Require Import T_Prog T_Prg.
From Coq Require Import Lia.
Open Scope Z_scope.

Lemma first_name : forall fns w x ps f l, says_file fns (w :: Word x :: ps) (f :: l) -> p_name f = S_Expr.small x.
Proof. intros fns w x ps f l H. inversion H; subst. reflexivity. Qed.
Lemma main_module : forall lib pr main fs G, file_ok lib fs G -> body_ok lib fs G main -> let main' := {| p_name := u "MAIN"; p_params := p_params main; p_declared := p_declared main; p_body := p_body main |} in
  Forall func_supported (map (compile_proc lib pr) (main' :: fs)) /\
  exists p fns, py_reads (file_text lib pr (main' :: fs)) p /\ (forall q, py_reads (file_text lib pr (main' :: fs)) q -> q = p) /\ py_module p = Some fns /\
    forall N k s m, shows G m s ->
      (forall args, match fox_main fs G N k main args s with
                    | Ended v s1 => exists m1, py_call fns N (S k) (u "MAIN") args m = (Ok (match v with Some v => v | None => PN end), m1) /\ same_but G m m1 /\ shows G m1 s1
                    | Not_ended => fst (py_call fns N (S k) (u "MAIN") args m) = Err unfinished
                    | Broken => True
                    end) /\
      (forall f args, In f (map p_name fs) ->
                    match fox_call fs G N k f args s with
                    | Value v s1 => exists w m1, py_call fns N k f args m = (Ok w, m1) /\ (w = v \/ ~ returning fs f /\ v = PB true /\ w = PN) /\ same_but G m m1 /\ shows G m1 s1
                    | Endless => fst (py_call fns N k f args m) = Err unfinished
                    | Failed => True
                    end).
Proof.
  intros lib pr main fs G O Om main'.
  assert (Om' : body_ok lib fs G main') by exact Om. pose proof O as (_ & ND & Hf).
  assert (Hn : Forall (fun f => name_ok (p_name f) = true) fs) by (revert Hf; apply Forall_impl; intros f F; apply F).
  assert (Sp : Forall func_supported (map (compile_proc lib pr) (main' :: fs))).
  { apply Forall_forall. intros c I. apply in_map_iff in I as (f & <- & I). destruct I as [<-|I].
    - destruct Om' as (Ho & _ & _ & _ & _ & _ & Ok0). refine (body_supported lib pr fs main' _ _ _ Hn _ Ho Ok0). vm_compute. intuition discriminate.
    - rewrite Forall_forall in Hf. exact (proc_supported lib pr fs G f Hn (Hf f I)). }
  split; [exact Sp|]. pose proof (C47_program_partial _ Sp) as R. eexists _, (map (py_of lib pr) (main' :: fs)). split; [exact R|]. split; [intros q Q; exact (py_reads_unique _ _ _ Q R)|].
  split.
  - apply module_of. constructor.
    + split; [vm_compute; reflexivity|]. split; [reflexivity|]. destruct Om' as (Ho & _). unfold own in Ho. apply Forall_app in Ho. apply Ho.
    + revert Hf. apply Forall_impl. intros f (A1 & B1 & _ & C1 & _). split; [exact (lex_head _ A1)|]. split; [exact B1|]. unfold own in C1. apply Forall_app in C1. apply C1.
  - assert (Om1 : Forall (fun q => taken (q_name q) = false) [py_of lib pr main']) by (repeat constructor).
    intros N k s m Sh. split.
    + intros args. refine (main_runs lib pr fs G O N [py_of lib pr main'] Om1 k main' args s m Om' _ Sh). unfold find_fun, fns. rewrite rev_app_distr. cbn [rev app].
      assert (No : forall q, In q (rev (map (py_of lib pr) fs)) -> pystr_eqb (q_name q) (u "MAIN") = false).
      { intros q I. apply in_rev, in_map_iff in I as (f & <- & I). cbn [py_of q_name]. destruct (pystr_eqb_spec (p_name f) (u "MAIN")) as [E|]; [|reflexivity]. rewrite Forall_forall in Hn. specialize (Hn f I). cbn beta in Hn. rewrite E in Hn. vm_compute in Hn. discriminate. }
      induction (rev (map (py_of lib pr) fs)) as [|q l IH]; [reflexivity|]. cbn [app find]. rewrite (No q (or_introl eq_refl)). apply IH. intros q' I. apply No. right. exact I.
    + intros f args I. exact (calls lib pr fs G O N [py_of lib pr main'] Om1 k f args s m I Sh).
Qed.
(** The text made of the file is one Python module, with one reading.  Its function MAIN, called from any state of the scopes that shows the variables G, which nothing in the file declares, ends as the
    FoxPro program ends: with the value of its RETURN, where there is one; it leaves the variables G with the values they have in FoxPro, and changes nothing else; and it goes on when the program goes
    on.  So do the functions. *)
Theorem C123_program_partial : forall ev lib printable src last out d main fs G,
  laid_out src last -> simple src -> expands none src out d -> S_Lexer.apart out -> says_file (listed (map p_name (main :: fs))) (map snd (main_line ++ out)) (main :: fs) ->
  file_ok lib fs G -> body_ok lib fs G main -> Forall (fun f => notss (p_body f)) (main :: fs) ->
  exists tree p fns, read_prg ev (S_Lexer.text src last) = Some tree /\ py_reads (prg_text lib printable tree) p /\ (forall q, py_reads (prg_text lib printable tree) q -> q = p) /\ py_module p = Some fns /\
    forall N k s m, shows G m s ->
      (forall args, match fox_main fs G N k main args s with
                    | Ended v s1 => exists m1, py_call fns N (S k) (u "MAIN") args m = (Ok (match v with Some v => v | None => PN end), m1) /\ same_but G m m1 /\ shows G m1 s1
                    | Not_ended => fst (py_call fns N (S k) (u "MAIN") args m) = Err unfinished
                    | Broken => True
                    end) /\
      (forall f args, In f (map p_name fs) ->
                    match fox_call fs G N k f args s with
                    | Value v s1 => exists w m1, py_call fns N k f args m = (Ok w, m1) /\ (w = v \/ ~ returning fs f /\ v = PB true /\ w = PN) /\ same_but G m m1 /\ shows G m1 s1
                    | Endless => fst (py_call fns N k f args m) = Err unfinished
                    | Failed => True
                    end).
Proof.
  intros ev lib pr src last out d main fs G H Sm X A Hs O Om Nt. exists (map regroup_proc (main :: fs)).
  set (main' := {| p_name := u "MAIN"; p_params := p_params main; p_declared := p_declared main; p_body := p_body main |}).
  assert (Nm : p_name main = u "_program_main") by exact (first_name _ _ _ _ _ _ Hs).
  assert (Ht : prg_text lib pr (map regroup_proc (main :: fs)) = file_text lib pr (main' :: fs)).
  { unfold prg_text, file_text. f_equal. pose proof O as (_ & _ & Hf). pose proof (file_text_same lib pr fs G _ _ _ Hs (Forall_cons _ Om (Forall_impl _ (fun f H => proj2 (proj2 (proj2 H))) Hf)) Nt) as E. cbn [map] in E. injection E as E1 E2.
    cbn [map main_first]. rewrite E2. f_equal. unfold compile_proc, main', regroup_proc in *. cbn [p_name p_params p_declared p_body f_name f_decorator f_body] in *. rewrite Nm. change (def_name true (u "_program_main")) with (u "MAIN"). f_equal. exact E1. }
  rewrite Ht. destruct (main_module lib pr main fs G O Om) as (_ & p & fns & R & Un & Md & Run). exists p, fns. split; [exact (C122_reads ev src last out d _ H Sm X A Hs)|]. auto.
Qed.
Print Assumptions C123_program_partial.
(** ** An example *)
(*
#DEFINE Limit 4   && how far
LOCAL n
n = LIMIT
Total = 0
* add them up
r = add_all(n)
RETURN total

FUNCTION add_all(i)
LOCAL more
IF i <= 0
   RETURN 0
ENDIF
total = total + i
more = Add_All(i - 1)
RETURN more
ENDFUNC
*)
Definition adding : source := [([], sym "#"); ([], Word (u "DEFINE")); ([Blank 32], Word (u "Limit")); ([Blank 32], Number (u "4") None); ([Blank 32; Blank 32; Blank 32], NewLine (Some (u " how far"))); ([], Word (u "LOCAL")); ([Blank 32], Word (u "n")); ([], NewLine None); ([], Word (u "n")); ([Blank 32], sym "="); ([Blank 32], Word (u "LIMIT")); ([], NewLine None); ([], Word (u "Total")); ([Blank 32], sym "="); ([Blank 32], Number (u "0") None); ([], NewLine None); ([], Remark (u " add them up")); ([], Word (u "r")); ([Blank 32], sym "="); ([Blank 32], Word (u "add_all")); ([], sym "("); ([], Word (u "n")); ([], sym ")"); ([], NewLine None); ([], Word (u "RETURN")); ([Blank 32], Word (u "total")); ([], NewLine None); ([], NewLine None); ([], Word (u "FUNCTION")); ([Blank 32], Word (u "add_all")); ([], sym "("); ([], Word (u "i")); ([], sym ")"); ([], NewLine None); ([], Word (u "LOCAL")); ([Blank 32], Word (u "more")); ([], NewLine None); ([], Word (u "IF")); ([Blank 32], Word (u "i")); ([Blank 32], sym "<="); ([Blank 32], Number (u "0") None); ([], NewLine None); ([Blank 32; Blank 32; Blank 32], Word (u "RETURN")); ([Blank 32], Number (u "0") None); ([], NewLine None); ([], Word (u "ENDIF")); ([], NewLine None); ([], Word (u "total")); ([Blank 32], sym "="); ([Blank 32], Word (u "total")); ([Blank 32], sym "+"); ([Blank 32], Word (u "i")); ([], NewLine None); ([], Word (u "more")); ([Blank 32], sym "="); ([Blank 32], Word (u "Add_All")); ([], sym "("); ([], Word (u "i")); ([Blank 32], sym "-"); ([Blank 32], Number (u "1") None); ([], sym ")"); ([], NewLine None); ([], Word (u "RETURN")); ([Blank 32], Word (u "more")); ([], NewLine None); ([], Word (u "ENDFUNC")); ([], NewLine None)].
Definition main_program : proc := let v (s : string) := CVar (u s) in
  {| p_name := u "_program_main"; p_params := []; p_declared := [[u "n"]];
     p_body := KCons (KLet (u "n") (CInt 4)) (KCons (KLet (u "total") (CInt 0)) (KCons (KNote [u "#add them up"]) (KCons (KCall (Into (u "r")) (u "add_all") [v "n"%string]) (KCons (KReturn (v "total"%string)) (KCons (KNote [[]]) KNil))))) |}.
Lemma adding_laid : laid_out adding [].
Proof. split; [repeat (apply Forall_cons || apply Forall_nil); piece_fine|]. split; [constructor | between]. Qed.
Lemma main_ok : forall lib, body_ok lib [add_all] [u "total"; u "r"] main_program /\ file_ok lib [add_all] [u "total"; u "r"].
Proof.
  Ltac seen := let y := fresh in let B := fresh in intros y B; vm_compute in B; split; [repeat (destruct B as [<-|B]; [known|]); contradiction|intros []].
  Ltac let_fine := split; [reflexivity|split; [known|split; [a_value|split; [seen|split; [intros []|]]]]].
  intros lib. split.
  - split; [repeat constructor|]. split; [repeat constructor; tell|]. split; [T_Funs.apart|]. split; [tell|]. split; [tell|]. split; [intros x []|].
    split; [|split; [|split; [|split; [|split; [|split; [|exact I]]]]]].
    + let_fine. left. discriminate.
    + let_fine. left. discriminate.
    + note_fine.
    + split; [split; [reflexivity|split; [known|intros []]]|]. split; [used|]. constructor; [split; [a_value|seen]|constructor].
    + split; [reflexivity|split; [a_value|seen]].
    + note_fine.
  - destruct (count_ok lib) as (A & B & C). split; [exact A|]. split; [repeat constructor; tell|]. constructor; [|constructor].
    split; [reflexivity|]. split; [reflexivity|]. split; [reflexivity|]. split; [repeat constructor|]. split; [repeat constructor; tell|]. split; [T_Funs.apart|]. split; [tell|]. split; [tell|]. split; [intros x []|].
    split; [|split; [|split; [|split; [|exact I]]]].
    + split; [T_Funs.fine|]. split; [seen|]. split; [split; [split; [reflexivity|split; [a_value|seen]]|exact I]|exact I].
    + let_fine. right. eexists OAdd, _. split; [reflexivity|exact I].
    + split; [split; [reflexivity|split; [known|intros []]]|]. split; [used|]. constructor; [split; [a_value|seen]|constructor].
    + split; [reflexivity|split; [a_value|seen]].
Qed.
Example C123_example : forall lib, exists out d, laid_out adding [] /\ simple adding /\ expands none adding out d /\ S_Lexer.apart out /\ says_file (listed (map p_name [main_program; add_all])) (map snd (main_line ++ out)) [main_program; add_all] /\
  file_ok lib [add_all] [u "total"; u "r"] /\ body_ok lib [add_all] [u "total"; u "r"] main_program /\ Forall (fun f => notss (p_body f)) [main_program; add_all] /\ shows [u "total"; u "r"] no_variables (fun _ => None) /\
  exists s1, fox_main [add_all] [u "total"; u "r"] 9 9 main_program [] (fun _ => None) = Ended (Some (PI 10)) s1 /\ s1 (u "total") = None.
Proof.
  intros lib. eexists _, _. split; [exact adding_laid|]. split; [repeat constructor|]. split.
  { unfold adding. x_define 1%nat. x_line 2%nat. x_line 3%nat. x_line 3%nat. refine (X_remark _ [] _ _ _ _ _ _); [untouched|]. x_line 6%nat. x_line 2%nat. x_line 0%nat. x_line 5%nat. x_line 2%nat. x_line 4%nat. x_line 2%nat. x_line 1%nat. x_line 5%nat. x_line 8%nat. x_line 2%nat. x_line 1%nat. apply X_end. }
  split; [vm_compute; repeat split; first [right; reflexivity | left; discriminate]|]. split.
  { match goal with |- says_file _ ?l _ => change l with [Word (u "procedure"); Word (u "_program_main"); NewLine None; Word (u "LOCAL"); Word (u "n"); NewLine None; Word (u "n"); sym "="; Number (u "4") None; NewLine None; Word (u "Total"); sym "="; Number (u "0") None; NewLine None; Remark (u " add them up"); Word (u "r"); sym "="; Word (u "add_all"); sym "("; Word (u "n"); sym ")"; NewLine None; Word (u "RETURN"); Word (u "total"); NewLine None; NewLine None; Word (u "FUNCTION"); Word (u "add_all"); sym "("; Word (u "i"); sym ")"; NewLine None; Word (u "LOCAL"); Word (u "more"); NewLine None; Word (u "IF"); Word (u "i"); sym "<="; Number (u "0") None; NewLine None; Word (u "RETURN"); Number (u "0") None; NewLine None; Word (u "ENDIF"); NewLine None; Word (u "total"); sym "="; Word (u "total"); sym "+"; Word (u "i"); NewLine None; Word (u "more"); sym "="; Word (u "Add_All"); sym "("; Word (u "i"); sym "-"; Number (u "1") None; sym ")"; NewLine None; Word (u "RETURN"); Word (u "more"); NewLine None; Word (u "ENDFUNC"); NewLine None] end.
    unfold main_program, add_all. cbn [map p_name p_params p_declared p_body]. cbn zeta. a_proc 1%nat 3%nat 20%nat 0%nat.
    - constructor.
    - refine (V_line _ [Word (u "n")] _ None _ _ _); [reflexivity | apply (A_one (u "n")); T_Parse.named | vm_compute; intuition discriminate].
    - line 4%nat; [a_let; leaf|]. line 4%nat; [a_let; leaf|]. line 1%nat; [exact (L_remark _ (u " add them up"))|]. line 7%nat; [a_call|].
      + match goal with |- says 0 _ _ => apply (T_Parse.lift 0 9); [|lia] end. refine (Y_call (u "add_all") [Word (u "n")] _ _ _); [T_Parse.named|]. apply Z_one. leaf.
      + line 3%nat; [a_return; leaf|]. line 1%nat; [apply L_blank|]. constructor.
    - constructor.
    - a_proc 4%nat 3%nat 28%nat 2%nat.
      + exact (F_given [Word (u "i")] _ None (A_one (u "i") ltac:(T_Parse.named))).
      + refine (V_line _ [Word (u "more")] _ None _ _ _); [reflexivity | apply (A_one (u "more")); T_Parse.named | vm_compute; intuition discriminate].
      + line 10%nat; [a_if 3%nat 0%nat 3%nat 0%nat|].
        * oper 3%nat 1%nat (CCmp OLe); leaf.
        * line 3%nat; [a_return; leaf | constructor].
        * constructor.
        * line 6%nat; [a_let; oper 4%nat 1%nat (CBin OAdd); leaf|]. line 9%nat; [a_call|].
          -- match goal with |- says 0 _ _ => apply (T_Parse.lift 0 9); [|lia] end. refine (Y_call (u "Add_All") [Word (u "i"); sym "-"; Number (u "1") None] _ _ _); [T_Parse.named|]. apply Z_one. oper 4%nat 1%nat (CBin OSub); leaf.
          -- line 3%nat; [a_return; leaf|]. constructor.
      + constructor. key.
      + constructor. }
  destruct (main_ok lib) as [A B]. split; [exact B|]. split; [exact A|]. split; [repeat constructor|]. split; [intros x _; split; [reflexivity|exact I]|]. eexists. split; vm_compute; reflexivity.
Qed.
Example C123_example_text : forall ev lib printable, option_map (prg_text lib printable) (read_prg ev (S_Lexer.text adding [])) = Some (
  u "@lparameters()" ++ [10] ++ u "def MAIN():" ++ [10] ++ u "    M.add_local('n')" ++ [10] ++ u "    S.n = 4" ++ [10] ++ u "    S.total = 0" ++ [10] ++ u "    #add them up" ++ [10] ++ u "    S.r = add_all(S.n)" ++ [10] ++ u "    return S.total" ++ [10] ++ [10] ++
  u "@lparameters('i')" ++ [10] ++ u "def add_all():" ++ [10] ++ u "    M.add_local('more')" ++ [10] ++ u "    if S.i <= 0:" ++ [10] ++ u "        return 0" ++ [10] ++ u "    S.total += S.i" ++ [10] ++ u "    S.more = add_all(S.i - 1)" ++ [10] ++ u "    return S.more").
Proof. intros. vm_compute. reflexivity. Qed.
