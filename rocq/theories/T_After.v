(** C125: remarks and empty lines between the functions of a file. *)
From Verif Require Import PyBase PyStr M_Memvar M_Params M_Do S_Py P_Py S_PyEval M_Lit P_Lit M_Stmt S_Stmt P_Stmt T_Stmt M_Program M_Conv S_Conv P_Conv P_Bool S_Inline P_Inline S_For M_Show M_Core P_Fuel S_Lex S_Core P_Lex P_Core1 P_Core2 P_Core3 S_Funs P_Funs1 P_Funs2 P_Funs3 T_Core T_Funs.
From Verif Require Import M_Lexer S_Lexer M_Parse S_Expr P_Parse P_Parse2 P_Parse3 P_Expr P_Expr2 M_ParseProg S_Prog P_Prog1 P_Prog2 P_Prog3 P_Prog4 M_Prg S_Prg P_Prg1 P_Prg2 P_Prg3 P_Prg4.
From Verif Require T_Parse.
From Verif Require M_Text M_Form M_Comment T_Comment.
From Verif Require Import T_Prog T_Prg T_Main M_After S_After P_After.
From Coq Require Import Lia.
Open Scope Z_scope.

(** Files with remarks after ENDPROC are read as those functions and those remarks, however they are laid out. *)
Theorem C125_reads : forall src last gs, laid_out src last -> says_noted (listed (map (fun g => p_name (fst g)) gs)) (map snd src) gs -> read_after (S_Lexer.text src last) = Some (map regroup_noted gs).
Proof. exact text_read_after. Qed.
Print Assumptions C125_reads.
(** The remarks are lines of the converted file, after the function they follow and before the decorator of the next. *)
Fixpoint with_after (w : pystr) (l : list (func * list pystr)) : pystr := match l with [] => w | (f, _) :: l => with_after (snd (lines w (f_body f))) l end.
Lemma visit_after_app : forall l w l', visit_after w (l ++ l') = visit_after w l ++ visit_after (with_after w l) l'.
Proof.
  induction l as [|[f c] l IH]; intros w l'; [reflexivity|]. cbn [app visit_after with_after]. destruct (lines w (f_body f)) as [b w1]. cbn [snd]. rewrite IH. cbn [app]. rewrite <- app_assoc. reflexivity.
Qed.
Lemma join_two : forall s a b, a <> [] -> b <> [] -> M_Stmt.join s (a ++ b) = M_Stmt.join s a ++ s ++ M_Stmt.join s b.
Proof.
  intros s a b. induction a as [|x a IH]; intros A B; [contradiction|]. destruct a as [|y a]; [cbn [app M_Stmt.join]; destruct b; [contradiction|reflexivity]|].
  change (M_Stmt.join s ((x :: y :: a) ++ b)) with (x ++ s ++ M_Stmt.join s ((y :: a) ++ b)). rewrite IH by (auto; discriminate). change (M_Stmt.join s (x :: y :: a)) with (x ++ s ++ M_Stmt.join s (y :: a)). rewrite <- !app_assoc. reflexivity.
Qed.
Lemma plain_lines : forall c, map (indent_item 0) (map Ln c) = c.
Proof. induction c as [|[|x l] c IH]; [reflexivity|..]; cbn [map indent_item]; rewrite IH; reflexivity. Qed.
Theorem C125_kept : forall lib printable before f c after, c <> [] ->
  exists rest, after_text lib printable (before ++ (f, c) :: after) = after_text lib printable (before ++ [(f, [])]) ++ [10] ++ M_Stmt.join [10] c ++ rest /\
    match after with [] => rest = [] | _ => exists more, rest = [10] ++ u "@lparameters(" ++ more end.
Proof.
  intros lib pr A f c B Ne. unfold after_text, add_indents. rewrite !map_app, !visit_after_app. cbn [map visit_after]. set (w := with_after [] _). destruct (lines w (f_body (compile_proc lib pr f))) as [b w1]. cbn [map app].
  set (T := visit_after w1 _). set (P := visit_after [] _). set (X := [_; _; _]).
  change (P ++ Ln _ :: Ln _ :: M_Stmt.Bl b :: map Ln c ++ T) with (P ++ X ++ map Ln c ++ T). rewrite (app_assoc P X), (map_app _ (P ++ X)). rewrite join_two; [|destruct P; discriminate|destruct c; [contradiction|discriminate]].
  rewrite (map_app _ (map Ln c) T), plain_lines. destruct B as [|[g d] B].
  - exists []. split; [|reflexivity]. cbn [map visit_after] in T. subst T. cbn [map]. rewrite !app_nil_r. reflexivity.
  - exists ([10] ++ M_Stmt.join [10] (map (indent_item 0) T)). split.
    + rewrite (join_two [10] c (map (indent_item 0) T)) by (auto; subst T; cbn [map visit_after]; destruct (lines w1 _); discriminate). reflexivity.
    + subst T. cbn [map visit_after]. destruct (lines w1 _) as [b2 w2]. cbn [map app]. match goal with |- context [M_Stmt.join [10] ?l] => set (L := l) end. assert (E : exists y, L = y :: tl L /\ exists z, y = u "@lparameters(" ++ z).
      { eexists. split; [reflexivity|]. eexists. cbn [indent_item app repeat Nat.mul Nat.add]. reflexivity. }
      destruct E as (y & -> & z & ->). cbn [M_Stmt.join]. destruct (tl L); [exists z; reflexivity|]. eexists. rewrite <- app_assoc. reflexivity.
Qed.
Print Assumptions C125_kept.
Lemma pairs : forall lib pr l, map (fun '(f, c) => (compile_proc lib pr f, c)) l = combine (map (compile_proc lib pr) (map fst l)) (map (@snd proc (list pystr)) l).
Proof. intros lib pr l. induction l as [|[f c] l IH]; [reflexivity|]. cbn [map combine fst snd]. rewrite IH. reflexivity. Qed.
Lemma read_alike : forall lib pr l p, Forall func_supported (map (compile_proc lib pr) (map fst l)) -> Forall (fun g => Forall comment_line (snd g)) l ->
  py_reads (file_text lib pr (map fst l)) p -> py_reads (after_text lib pr l) p.
Proof.
  intros lib pr l p Sp Cm R. pose proof (C47_program_partial _ Sp) as R0. rewrite (py_reads_unique _ _ _ R R0). unfold after_text.
  replace (map (compile_proc lib pr) (map fst l)) with (map fst (map (fun '(f, c) => (compile_proc lib pr f, c)) l)) by (rewrite !map_map; apply map_ext; intros [f c]; reflexivity).
  apply after_shaped. clear R R0. induction l as [|[f c] l IH]; [constructor|]. cbn [map] in Sp |- *. inversion Sp; inversion Cm; subst. constructor; [split; assumption|apply IH; assumption].
Qed.
(** Python reads the file with the remarks in one way, as the module of C121 that has none; its functions do what those of the FoxPro file do. *)
Theorem C125_calls_partial : forall lib printable src last gs G, laid_out src last -> says_noted (listed (map (fun g => p_name (fst g)) gs)) (map snd src) gs -> Forall (fun g => Forall comment_line (snd g)) gs ->
  file_ok lib (map fst gs) G -> Forall (fun g => notss (p_body (fst g))) gs ->
  exists tree p fns, read_after (S_Lexer.text src last) = Some tree /\ py_reads (after_text lib printable tree) p /\ (forall q, py_reads (after_text lib printable tree) q -> q = p) /\ py_module p = Some fns /\
    forall N k f args s m, In f (map (fun g => p_name (fst g)) gs) -> shows G m s ->
      match fox_call (map fst gs) G N k f args s with
      | Value v s1 => exists w m1, py_call fns N k f args m = (Ok w, m1) /\ (w = v \/ ~ returning (map fst gs) f /\ v = PB true /\ w = PN) /\ same_but G m m1 /\ shows G m1 s1
      | Endless => fst (py_call fns N k f args m) = Err unfinished
      | Failed => True
      end.
Proof.
  intros lib pr src last gs G H Hs Cm O N. exists (map regroup_noted gs). destruct (noted_file _ _ _ Hs) as (ps' & Hf). set (fs := map fst gs) in *.
  assert (N' : Forall (fun f => notss (p_body f)) fs) by (apply Forall_map; exact N).
  pose proof (file_text_same lib pr fs G _ _ fs Hf (Forall_impl _ (fun f H => proj2 (proj2 (proj2 H))) (proj2 (proj2 O))) N') as E.
  assert (T : after_text lib pr (map regroup_noted gs) = after_text lib pr gs).
  { unfold after_text. rewrite !pairs. f_equal. f_equal. f_equal; [|rewrite map_map; reflexivity]. replace (map fst (map regroup_noted gs)) with (map regroup_proc fs) by (unfold fs; rewrite !map_map; reflexivity). exact E. }
  rewrite T. destruct (C115_functions_partial lib pr fs G O) as (p & fns & A & B & C & D). exists p, fns. split; [apply C125_reads; auto|].
  assert (Sp : Forall func_supported (map (compile_proc lib pr) fs)).
  { pose proof O as (_ & _ & Ho). assert (Hn : Forall (fun f => name_ok (p_name f) = true) fs) by (revert Ho; apply Forall_impl; intros f F; apply F). apply Forall_map. revert Ho. apply Forall_impl. intros f. apply proc_supported. exact Hn. }
  assert (R : py_reads (after_text lib pr gs) p) by (apply read_alike; auto). split; [exact R|]. split; [intros q Q; exact (py_reads_unique _ _ _ Q R)|]. split; [exact C|].
  intros M k f args s m I Sh. apply D; auto. unfold fs. rewrite map_map. exact I.
Qed.
Print Assumptions C125_calls_partial.
(** So does a program file, from before its preprocessing on. *)
Theorem C125_program_partial : forall ev lib printable src last out d main c gs G,
  laid_out src last -> simple src -> expands none src out d -> S_Lexer.apart out -> says_noted (listed (map (fun g => p_name (fst g)) ((main, c) :: gs))) (map snd (main_line ++ out)) ((main, c) :: gs) ->
  Forall (fun g => Forall comment_line (snd g)) ((main, c) :: gs) -> file_ok lib (map fst gs) G -> body_ok lib (map fst gs) G main -> Forall (fun g => notss (p_body (fst g))) ((main, c) :: gs) ->
  exists tree p fns, read_prg_after ev (S_Lexer.text src last) = Some tree /\ py_reads (prg_after_text lib printable tree) p /\ (forall q, py_reads (prg_after_text lib printable tree) q -> q = p) /\ py_module p = Some fns /\
    forall N k s m, shows G m s ->
      (forall args, match fox_main (map fst gs) G N k main args s with
                    | Ended v s1 => exists m1, py_call fns N (S k) (u "MAIN") args m = (Ok (match v with Some v => v | None => PN end), m1) /\ same_but G m m1 /\ shows G m1 s1
                    | Not_ended => fst (py_call fns N (S k) (u "MAIN") args m) = Err unfinished
                    | Broken => True
                    end) /\
      (forall f args, In f (map p_name (map fst gs)) ->
                    match fox_call (map fst gs) G N k f args s with
                    | Value v s1 => exists w m1, py_call fns N k f args m = (Ok w, m1) /\ (w = v \/ ~ returning (map fst gs) f /\ v = PB true /\ w = PN) /\ same_but G m m1 /\ shows G m1 s1
                    | Endless => fst (py_call fns N k f args m) = Err unfinished
                    | Failed => True
                    end).
Proof.
  intros ev lib pr src last out d main c gs G H Sm X A Hs Cm O Om Nt. exists (map regroup_noted ((main, c) :: gs)). destruct (noted_file _ _ _ Hs) as (ps' & Hf). cbn [map fst] in Hf. set (fs := map fst gs) in *.
  set (main' := {| p_name := u "MAIN"; p_params := p_params main; p_declared := p_declared main; p_body := p_body main |}).
  assert (Nm : p_name main = u "_program_main") by (inversion Hs; subst; reflexivity).
  assert (N' : Forall (fun f => notss (p_body f)) (main :: fs)) by (inversion Nt; subst; constructor; [assumption|apply Forall_map; assumption]).
  assert (Ht : prg_after_text lib pr (map regroup_noted ((main, c) :: gs)) = after_text lib pr ((main', c) :: gs)).
  { pose proof O as (_ & _ & Ho). pose proof (file_text_same lib pr fs G _ _ _ Hf (Forall_cons _ Om (Forall_impl _ (fun f H => proj2 (proj2 (proj2 H))) Ho)) N') as E. cbn [map] in E. injection E as E1 E2.
    unfold prg_after_text, after_text. f_equal. f_equal. rewrite !pairs. cbn [map regroup_noted fst snd main_first combine]. f_equal.
    - f_equal. unfold compile_proc, main', regroup_proc in *. cbn [p_name p_params p_declared p_body f_name f_decorator f_body] in *. rewrite Nm. change (def_name true (u "_program_main")) with (u "MAIN"). f_equal. exact E1.
    - assert (L : forall (l : list proc) (k : list (list pystr)), length l = length k -> map fst (combine l k) = l /\ map snd (combine l k) = k).
      { induction l as [|x l IH]; intros [|y k] Q; try discriminate; [split; reflexivity|]. injection Q as Q. destruct (IH k Q) as [I1 I2]. cbn [combine map fst snd]. rewrite I1, I2. split; reflexivity. }
      destruct (L (map fst (map regroup_noted gs)) (map snd (map regroup_noted gs))) as [-> ->]; [rewrite !map_length; reflexivity|]. f_equal; [|rewrite map_map; reflexivity].
      replace (map fst (map regroup_noted gs)) with (map regroup_proc fs) by (unfold fs; rewrite !map_map; reflexivity). exact E2. }
  rewrite Ht. destruct (main_module lib pr main fs G O Om) as (Sp & p & fns & R0 & Un & Md & Run). exists p, fns. split.
  { unfold read_prg_after. rewrite (C122_preprocessed ev src last out d H Sm X). assert (L := C122_laid_out src last out d H X A). rewrite <- (text_read_after _ _ _ L Hs). f_equal. }
  assert (R : py_reads (after_text lib pr ((main', c) :: gs)) p) by (apply read_alike; [exact Sp|inversion Cm; subst; constructor; assumption|exact R0]).
  split; [exact R|]. split; [intros q Q; exact (py_reads_unique _ _ _ Q R)|]. split; [exact Md|exact Run].
Qed.
Print Assumptions C125_program_partial.

(** False without the condition on the remarks: where one of them is a line of asterisks with blanks between them, which is not turned into a comment (C91), the Python file is not a file of functions at all. *)
Definition decoration (l : pystr) : Prop := exists s, l = 42 :: s /\ (forall c, In c s -> c = 42 \/ c = 32) /\ In 32 s /\ List.last s 0 = 42.
Lemma decoration_command : forall l, decoration l -> command_line l.
Proof.
  intros l (s & -> & H & _ & E). split; [intros [I0|I0]; [discriminate|destruct (H _ I0); discriminate]|]. split; [split; discriminate|]. unfold is_head. apply Z.eqb_neq.
  destruct s as [|x s]; [discriminate|]. change (List.last (42 :: x :: s) 0 <> 58). change (List.last (42 :: x :: s) 0) with (List.last (x :: s) 0). rewrite E. discriminate.
Qed.
Lemma no_module : forall (l : list (func * list pystr)), Forall (fun g => Forall (fun l => comment_line l \/ decoration l) (snd g)) l -> Exists (fun g => Exists decoration (snd g)) l ->
  py_module (flat_map (fun g => [PSimple (u "@" ++ f_decorator (fst g)); PDef (f_name (fst g) ++ u "()") (block_of (meants [] (f_body (fst g))))] ++ said (snd g)) l) = None.
Proof.
  intros l H E. induction H as [|[f c] l H _ IH]; [inversion E|]. cbn [flat_map fst snd] in *. change (u "@" ++ f_decorator f) with (64 :: f_decorator f). cbn [app py_module].
  set (rest := said c ++ _). assert (R : py_module rest = None); [|rewrite R; destruct (read _) as [[]|]; try reflexivity; match goal with |- match ?x with _ => _ end = _ => destruct x end; try reflexivity;
    repeat match goal with |- context [match ?x with _ => _ end] => destruct x; try reflexivity end].
  subst rest. assert (D : said c = [] \/ exists s q, said c = PSimple (42 :: s) :: q).
  { clear -H. induction H as [|l c [[_ H]|(s & -> & _)] _ IH]; [left; reflexivity| |right; exists s, (said c); reflexivity]. destruct l as [|x l]; [exact IH|]. subst x. exact IH. }
  destruct D as [D|(s & q & D)]; [|rewrite D; reflexivity]. rewrite D. cbn [app]. apply IH. inversion E as [? ? X|]; subst; [|assumption]. exfalso. clear -D X. cbn [snd] in X. induction X as [l c (s & -> & _)|l c X IH]; [discriminate D|].
  unfold said in D. cbn [flat_map] in D. apply app_eq_nil in D as [_ D]. exact (IH D).
Qed.
Theorem C125_decoration_refuted : forall lib printable src last gs G, laid_out src last -> says_noted (listed (map (fun g => p_name (fst g)) gs)) (map snd src) gs ->
  Forall (fun g => Forall (fun l => comment_line l \/ decoration l) (snd g)) gs -> Exists (fun g => Exists decoration (snd g)) gs -> file_ok lib (map fst gs) G -> Forall (fun g => notss (p_body (fst g))) gs ->
  exists tree p, read_after (S_Lexer.text src last) = Some tree /\ py_reads (after_text lib printable tree) p /\ (forall q, py_reads (after_text lib printable tree) q -> q = p) /\ py_module p = None.
Proof.
  intros lib pr src last gs G H Hs Cm Ex O N. exists (map regroup_noted gs). destruct (noted_file _ _ _ Hs) as (ps' & Hf). set (fs := map fst gs) in *.
  assert (N' : Forall (fun f => notss (p_body f)) fs) by (apply Forall_map; exact N).
  pose proof (file_text_same lib pr fs G _ _ fs Hf (Forall_impl _ (fun f H => proj2 (proj2 (proj2 H))) (proj2 (proj2 O))) N') as E.
  assert (T : after_text lib pr (map regroup_noted gs) = after_text lib pr gs).
  { unfold after_text. rewrite !pairs. f_equal. f_equal. f_equal; [|rewrite map_map; reflexivity]. replace (map fst (map regroup_noted gs)) with (map regroup_proc fs) by (unfold fs; rewrite !map_map; reflexivity). exact E. }
  rewrite T. assert (Sp : Forall func_supported (map (compile_proc lib pr) fs)).
  { pose proof O as (_ & _ & Ho). assert (Hn : Forall (fun f => name_ok (p_name f) = true) fs) by (revert Ho; apply Forall_impl; intros f F; apply F). apply Forall_map. revert Ho. apply Forall_impl. intros f. apply proc_supported. exact Hn. }
  eexists. split; [apply C125_reads; auto|]. unfold after_text. set (l := map _ gs).
  assert (Cl : Forall (fun g => func_supported (fst g) /\ Forall (fun l => comment_line l \/ decoration l) (snd g)) l).
  { subst l fs. clear -Sp Cm. induction gs as [|[f c] gs IH]; [constructor|]. cbn [map fst] in *. inversion Sp; inversion Cm; subst. constructor; [split; assumption|]. apply IH; assumption. }
  assert (El : Exists (fun g => Exists decoration (snd g)) l).
  { subst l. clear -Ex. induction Ex as [[f c] gs X|[f c] gs X IH]; [left; exact X|right; exact IH]. }
  assert (R := said_reads l (Forall_impl _ (fun g (H : func_supported (fst g) /\ Forall (fun l => comment_line l \/ decoration l) (snd g)) => conj (proj1 H) (Forall_impl _ (fun x D => match D with or_introl D => or_introl D | or_intror D => or_intror (decoration_command x D) end) (proj2 H))) Cl)).
  split; [exact R|]. split; [intros q Q; exact (py_reads_unique _ _ _ Q R)|]. apply no_module; [|exact El]. revert Cl. apply Forall_impl. intros g D. apply D.
Qed.
Print Assumptions C125_decoration_refuted.
(** A remark of asterisks and blanks between asterisks is such a line. *)
Lemma decoration_code : forall s, decoration (42 :: s) -> M_Comment.comment_code (42 :: s ++ [10]) = [42 :: s].
Proof.
  intros s (s' & E & H & B & L). injection E as <-.
  assert (Sl : forall a t cur, (forall c, In c t -> c = 42 \/ c = 32) -> M_Text.split_lines (a :: cur) false (t ++ [10]) = [(a :: cur) ++ t]).
  { intros a t. induction t as [|c t IH]; intros cur Ht; [rewrite app_nil_r; reflexivity|]. destruct (Ht c (or_introl eq_refl)) as [-> | ->]; cbn [app M_Text.split_lines andb]; [change (M_Text.is_break 42) with false|change (M_Text.is_break 32) with false]; cbn [app]; rewrite IH by (intros; apply Ht; right; assumption); cbn [app]; rewrite <- app_assoc; reflexivity. }
  unfold M_Comment.comment_code. replace (M_Text.splitlines (42 :: s ++ [10])) with [42 :: s]; [|symmetry; exact (Sl 42 s [] H)]. cbn [map]. f_equal.
  assert (St : M_Form.strip (42 :: s) = 42 :: s).
  { unfold M_Form.strip. change (M_Form.drop_space (42 :: s)) with (42 :: s). destruct (@exists_last _ s) as (a & z & ->); [intros ->; contradiction|]. rewrite last_last in L. subst z. cbn [rev]. rewrite rev_app_distr. cbn [rev app]. change (M_Form.drop_space (42 :: rev a ++ [42])) with (42 :: rev a ++ [42]). cbn [rev]. rewrite rev_app_distr, rev_involutive. reflexivity. }
  rewrite St. apply (proj1 (T_Comment.C91_decoration_refuted (42 :: s) (fun c I0 => match I0 with or_introl E => or_introl (eq_sym E) | or_intror I1 => H c I1 end) (or_intror B) eq_refl (ltac:(destruct s; [contradiction|exact L])))).
Qed.

(** ** Examples *)
(** The functions of C121 with these lines between them, and an empty line at the end:
ENDFUNC

* the sum
*)
Definition noted_source : source := firstn 46 down_source ++ [([], Word (u "ENDFUNC")); ([], NewLine None); ([], NewLine None); ([], Remark (u " the sum"))] ++ skipn 46 down_source ++ [([], NewLine None)].
Definition noted_functions : list (proc * list pystr) := combine down_functions [[[]; u "#the sum"]; [[]]].
Lemma noted_laid : laid_out noted_source [].
Proof. split; [repeat (apply Forall_cons || apply Forall_nil); piece_fine|]. split; [constructor | between]. Qed.
Ltac a_noted p v b e := match goal with |- says_noted ?fns (_ :: _ :: ?ps) _ =>
  let pp := part 0%nat p ps in let vv := part p v ps in let i := eval cbn in (p + v)%nat in let bb := part i b ps in let j := eval cbn in (i + b)%nat in let ee := part j e ps in let k := eval cbn in (j + e)%nat in let qq := eval cbn [skipn] in (skipn k ps) in
  refine (Q_cons fns _ _ pp _ vv _ bb _ ee _ qq _ _ _ _ _ _ _ _) end; [key | T_Parse.named | | | | |].
Lemma noted_says : says_noted (listed (map (fun g => p_name (fst g)) noted_functions)) (map snd noted_source) noted_functions.
Proof.
  unfold noted_functions. cbn [map combine down_functions fst snd p_name p_params p_declared p_body].
  match goal with |- says_noted _ ?l _ => let l' := eval cbn [noted_source down_source firstn skipn app map snd] in l in change l with l' end. cbn zeta.
  a_noted 8%nat 0%nat 36%nat 4%nat.
  - exact (F_given_as [Word (u "i"); Word (u "as"); Word (u "Integer")] _ (u "AS") (u "Numeric") None (A_one_as (u "i") (u "as") (u "Integer") ltac:(T_Parse.named) ltac:(key) ltac:(T_Parse.named)) ltac:(key) ltac:(T_Parse.named)).
  - constructor.
  - line 10%nat; [a_if 3%nat 0%nat 3%nat 0%nat|line 5%nat; [alone|line 6%nat; [an_equals|line 7%nat; [a_do|line 8%nat; [an_answer|constructor]]]]].
    + oper 3%nat 1%nat (CCmp OLe); leaf.
    + line 3%nat; [a_return; leaf | constructor].
    + constructor.
    + apply Z_one. leaf.
    + the_call (u "tally") [Word (u "i")]. apply Z_one. leaf.
    + apply Z_one. oper 4%nat 1%nat (CBin OSub); leaf.
    + the_call (u "down") [Word (u "i"); sym "-"; Number (u "1") None]. apply Z_one. oper 4%nat 1%nat (CBin OSub); leaf.
  - refine (N_end (u "ENDFUNC") None _ _ _ _); [key|]. apply R_blank. exact (R_remark (u " the sum") [] [] R_none).
  - a_noted 6%nat 0%nat 8%nat 3%nat.
    + refine (F_line None (u "LPARAMETERS") [Word (u "k"); Word (u "AS"); Word (u "Integer")] _ None _ _ _ _); [reflexivity | vm_compute; tauto | apply (A_one_as (u "k") (u "AS") (u "Integer")); [T_Parse.named | key | T_Parse.named] | vm_compute; intuition discriminate].
    + constructor.
    + line 6%nat; [a_let; oper 4%nat 1%nat (CBin OAdd); leaf|]. line 2%nat; [apply L_leave; key|constructor].
    + refine (N_end (u "ENDPROC") None _ _ _ _); [key|]. apply R_blank. constructor.
    + constructor.
Qed.
Example C125_example : forall lib, laid_out noted_source [] /\ says_noted (listed (map (fun g => p_name (fst g)) noted_functions)) (map snd noted_source) noted_functions /\ Forall (fun g => Forall comment_line (snd g)) noted_functions /\
  file_ok lib (map fst noted_functions) [u "total"] /\ Forall (fun g => notss (p_body (fst g))) noted_functions.
Proof.
  intros lib. split; [exact noted_laid|]. split; [exact noted_says|]. split; [repeat constructor; vm_compute; intuition discriminate|]. split; [exact (down_fine lib)|]. repeat constructor.
Qed.
Example C125_example_text : forall lib printable, option_map (after_text lib printable) (read_after (S_Lexer.text noted_source [])) = Some (
  u "@lparameters('i')" ++ [10] ++ u "def down():" ++ [10] ++ u "    if S.i <= 0:" ++ [10] ++ u "        return S.total" ++ [10] ++ u "    tally(S.i)" ++ [10] ++ u "    tally(S.i)" ++ [10] ++ u "    tally(S.i - 1)" ++ [10] ++
  u "    return down(S.i - 1)" ++ [10] ++ [10] ++ u "#the sum" ++ [10] ++ u "@lparameters('k')" ++ [10] ++ u "def tally():" ++ [10] ++ u "    S.total += S.k" ++ [10] ++ u "    return" ++ [10]).
Proof. intros. vm_compute. reflexivity. Qed.
(** The same file with the remark * * *, which stays as it is and is not Python *)
Definition starred_source : source := firstn 46 down_source ++ [([], Word (u "ENDFUNC")); ([], NewLine None); ([], NewLine None); ([], Remark (u " * *"))] ++ skipn 46 down_source ++ [([], NewLine None)].
Definition starred_functions : list (proc * list pystr) := combine down_functions [[[]; u "* * *"]; [[]]].
Lemma starred_laid : laid_out starred_source [].
Proof. split; [repeat (apply Forall_cons || apply Forall_nil); piece_fine|]. split; [constructor | between]. Qed.
Lemma starred_says : says_noted (listed (map (fun g => p_name (fst g)) starred_functions)) (map snd starred_source) starred_functions.
Proof.
  unfold starred_functions. cbn [map combine down_functions fst snd p_name p_params p_declared p_body].
  match goal with |- says_noted _ ?l _ => let l' := eval cbn [starred_source down_source firstn skipn app map snd] in l in change l with l' end. cbn zeta.
  a_noted 8%nat 0%nat 36%nat 4%nat.
  - exact (F_given_as [Word (u "i"); Word (u "as"); Word (u "Integer")] _ (u "AS") (u "Numeric") None (A_one_as (u "i") (u "as") (u "Integer") ltac:(T_Parse.named) ltac:(key) ltac:(T_Parse.named)) ltac:(key) ltac:(T_Parse.named)).
  - constructor.
  - line 10%nat; [a_if 3%nat 0%nat 3%nat 0%nat|line 5%nat; [alone|line 6%nat; [an_equals|line 7%nat; [a_do|line 8%nat; [an_answer|constructor]]]]].
    + oper 3%nat 1%nat (CCmp OLe); leaf.
    + line 3%nat; [a_return; leaf | constructor].
    + constructor.
    + apply Z_one. leaf.
    + the_call (u "tally") [Word (u "i")]. apply Z_one. leaf.
    + apply Z_one. oper 4%nat 1%nat (CBin OSub); leaf.
    + the_call (u "down") [Word (u "i"); sym "-"; Number (u "1") None]. apply Z_one. oper 4%nat 1%nat (CBin OSub); leaf.
  - refine (N_end (u "ENDFUNC") None _ _ _ _); [key|]. apply R_blank. exact (R_remark (u " * *") [] [] R_none).
  - a_noted 6%nat 0%nat 8%nat 3%nat.
    + refine (F_line None (u "LPARAMETERS") [Word (u "k"); Word (u "AS"); Word (u "Integer")] _ None _ _ _ _); [reflexivity | vm_compute; tauto | apply (A_one_as (u "k") (u "AS") (u "Integer")); [T_Parse.named | key | T_Parse.named] | vm_compute; intuition discriminate].
    + constructor.
    + line 6%nat; [a_let; oper 4%nat 1%nat (CBin OAdd); leaf|]. line 2%nat; [apply L_leave; key|constructor].
    + refine (N_end (u "ENDPROC") None _ _ _ _); [key|]. apply R_blank. constructor.
    + constructor.
Qed.
Example C125_example_decoration : forall lib, laid_out starred_source [] /\ says_noted (listed (map (fun g => p_name (fst g)) starred_functions)) (map snd starred_source) starred_functions /\
  Forall (fun g => Forall (fun l => comment_line l \/ decoration l) (snd g)) starred_functions /\ Exists (fun g => Exists decoration (snd g)) starred_functions /\
  file_ok lib (map fst starred_functions) [u "total"] /\ Forall (fun g => notss (p_body (fst g))) starred_functions.
Proof.
  intros lib. assert (D : decoration (u "* * *")) by (exists (u " * *"); repeat split; [intros c; vm_compute; intuition | vm_compute; intuition]). split; [exact starred_laid|]. split; [exact starred_says|]. split; [|split; [|split; [exact (down_fine lib)|repeat constructor]]].
  - assert (E : comment_line []) by (split; [intros []|exact I]). unfold starred_functions; cbn [combine down_functions]. repeat match goal with |- Forall _ _ => constructor; cbn [snd] end; first [right; exact D | left; exact E].
  - left. right. left. exact D.
Qed.
(** The program of C123 with an empty line and a remark at its end *)
Definition added : source := adding ++ [([], NewLine None); ([], Remark (u " done"))].
Example C125_example_program : forall lib, exists out d, let gs := [(main_program, []); (add_all, [[]; u "#done"])] in
  laid_out added [] /\ simple added /\ expands none added out d /\ S_Lexer.apart out /\ says_noted (listed (map (fun g => p_name (fst g)) gs)) (map snd (main_line ++ out)) gs /\ Forall (fun g => Forall comment_line (snd g)) gs /\
  file_ok lib [add_all] [u "total"; u "r"] /\ body_ok lib [add_all] [u "total"; u "r"] main_program /\ Forall (fun g => notss (p_body (fst g))) gs.
Proof.
  intros lib. eexists _, _. split; [split; [repeat (apply Forall_cons || apply Forall_nil); piece_fine|]; split; [constructor | between]|]. split; [repeat constructor|]. split.
  { unfold added, adding. cbn [app]. x_define 1%nat. x_line 2%nat. x_line 3%nat. x_line 3%nat. refine (X_remark _ [] _ _ _ _ _ _); [untouched|]. x_line 6%nat. x_line 2%nat. x_line 0%nat. x_line 5%nat. x_line 2%nat. x_line 4%nat. x_line 2%nat. x_line 1%nat. x_line 5%nat. x_line 8%nat. x_line 2%nat. x_line 1%nat. x_line 0%nat. refine (X_remark _ [] _ _ _ _ _ _); [untouched|]. apply X_end. }
  split; [vm_compute; repeat split; first [right; reflexivity | left; discriminate]|]. split.
  { match goal with |- says_noted _ ?l _ => change l with [Word (u "procedure"); Word (u "_program_main"); NewLine None; Word (u "LOCAL"); Word (u "n"); NewLine None; Word (u "n"); sym "="; Number (u "4") None; NewLine None; Word (u "Total"); sym "="; Number (u "0") None; NewLine None; Remark (u " add them up"); Word (u "r"); sym "="; Word (u "add_all"); sym "("; Word (u "n"); sym ")"; NewLine None; Word (u "RETURN"); Word (u "total"); NewLine None; NewLine None; Word (u "FUNCTION"); Word (u "add_all"); sym "("; Word (u "i"); sym ")"; NewLine None; Word (u "LOCAL"); Word (u "more"); NewLine None; Word (u "IF"); Word (u "i"); sym "<="; Number (u "0") None; NewLine None; Word (u "RETURN"); Number (u "0") None; NewLine None; Word (u "ENDIF"); NewLine None; Word (u "total"); sym "="; Word (u "total"); sym "+"; Word (u "i"); NewLine None; Word (u "more"); sym "="; Word (u "Add_All"); sym "("; Word (u "i"); sym "-"; Number (u "1") None; sym ")"; NewLine None; Word (u "RETURN"); Word (u "more"); NewLine None; Word (u "ENDFUNC"); NewLine None; NewLine None; Remark (u " done")] end.
    unfold main_program, add_all. cbn [map fst p_name p_params p_declared p_body]. cbn zeta. a_noted 1%nat 3%nat 20%nat 0%nat.
    - constructor.
    - refine (V_line _ [Word (u "n")] _ None _ _ _); [reflexivity | apply (A_one (u "n")); T_Parse.named | vm_compute; intuition discriminate].
    - line 4%nat; [a_let; leaf|]. line 4%nat; [a_let; leaf|]. line 1%nat; [exact (L_remark _ (u " add them up"))|]. line 7%nat; [a_call|].
      + match goal with |- says 0 _ _ => apply (T_Parse.lift 0 9); [|lia] end. refine (Y_call (u "add_all") [Word (u "n")] _ _ _); [T_Parse.named|]. apply Z_one. leaf.
      + line 3%nat; [a_return; leaf|]. line 1%nat; [apply L_blank|]. constructor.
    - constructor.
    - a_noted 4%nat 3%nat 28%nat 4%nat.
      + exact (F_given [Word (u "i")] _ None (A_one (u "i") ltac:(T_Parse.named))).
      + refine (V_line _ [Word (u "more")] _ None _ _ _); [reflexivity | apply (A_one (u "more")); T_Parse.named | vm_compute; intuition discriminate].
      + line 10%nat; [a_if 3%nat 0%nat 3%nat 0%nat|].
        * oper 3%nat 1%nat (CCmp OLe); leaf.
        * line 3%nat; [a_return; leaf | constructor].
        * constructor.
        * line 6%nat; [a_let; oper 4%nat 1%nat (CBin OAdd); leaf|]. line 9%nat; [a_call|].
          -- match goal with |- says 0 _ _ => apply (T_Parse.lift 0 9); [|lia] end. refine (Y_call (u "Add_All") [Word (u "i"); sym "-"; Number (u "1") None] _ _ _); [T_Parse.named|]. apply Z_one. oper 4%nat 1%nat (CBin OSub); leaf.
          -- line 3%nat; [a_return; leaf|]. constructor.
      + refine (N_end (u "ENDFUNC") None _ _ _ _); [key|]. apply R_blank. exact (R_remark (u " done") [] [] R_none).
      + constructor. }
  destruct (main_ok lib) as [A B]. split; [repeat constructor; vm_compute; intuition discriminate|]. split; [exact B|]. split; [exact A|]. repeat constructor.
Qed.
