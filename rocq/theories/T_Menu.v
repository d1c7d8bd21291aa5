(** Property C112: menus, events, reports, forms, WAIT, CLEAR and ASSERT. *)
From Verif Require Import PyBase PyStr M_Lit M_Stmt M_Do M_Call M_Menu.
Open Scope Z_scope.

Section Menu.
Variable printable : Z -> bool.
Variable V : Type.
Variable ev : pystr -> list (pystr * V) -> res V.
Variable truth : V -> bool.
Notation exec := (exec ev truth).
Notation emit := (emit printable).

(** Sequences of commands, from the start of the program *)
Fixpoint run (l : list command) (s : state V) : res (state V) := match l with [] => Ok s | c :: l => rbind (exec (emit c) s) (run l) end.
Definition begins (s : state V) : Prop := s_hooks s = [].
Definition hooked (s : state V) : Prop := forall f c, In (f, c) (s_hooks s) -> In f [u "error_func"; u "shutdown_func"; u "escape_func"].
Lemma exec_hooked c s s' : hooked s -> exec (emit c) s = Ok s' -> hooked s'.
Proof.
  intros H E.
  assert (K : forall f args kw, M_Menu.exec ev truth (SCall f args kw) s = Ok s' -> s' = s).
  { intros f args kw X. cbn [M_Menu.exec] in X. destruct (has_attribute f s); [|discriminate]. destruct (eval_all ev _ (s_vars s)); cbn [rbind] in X; congruence. }
  assert (J : forall f code, In f [u "error_func"; u "shutdown_func"; u "escape_func"] -> M_Menu.exec ev truth (SHook f code) s = Ok s' -> hooked s').
  { intros f code I X. injection X as <-. intros g d [[= <- <-] | Y]; [exact I|exact (H g d Y)]. }
  destruct c; cbn [M_Menu.emit] in E; try (apply K in E; subst; exact H); try (eapply J; [|exact E]; cbn [In]; tauto).
  - cbn [M_Menu.exec] in E. destruct (has_attribute (u "on_key") s); [|discriminate]. injection E as <-. exact H.
  - destruct to as [t|]; [|apply K in E; subst; exact H]. cbn [M_Menu.exec] in E. destruct (has_attribute (u "do_form") s); [|discriminate].
    destruct (eval_all ev _ (s_vars s)); cbn [rbind] in E; [|discriminate]. injection E as <-. exact H.
  - cbn [M_Menu.exec] in E. destruct (ev cond (s_vars s)) as [v|]; cbn [rbind] in E; [|discriminate]. destruct (truth v); [injection E as <-; exact H|].
    destruct (eval_all ev _ (s_vars s)); cbn [rbind] in E; discriminate.
Qed.
(** The commands that use functions the run time does not have *)
Inductive absent : command -> Prop :=
| ADefineMenu n w s b l m : absent (DefineMenu n w s b l m)
| ADefinePad p m q t k s : absent (DefinePad p m q t k s)
| ADefinePopup n a b c d : absent (DefinePopup n a b c d)
| ADefineBar b m p t : absent (DefineBar b m p t)
| AActivateMenu n w p : absent (ActivateMenu n w p)
| ADeactivate m l : absent (Deactivate m l)
| AOnPad p m a : absent (OnPad p m a)
| AOnBar b m a : absent (OnBar b m a)
| AOnKey k c : absent (OnKey k c)
| AReadEvents : absent ReadEvents
| AReport n : absent (Report n)
| ADoForm f n l a s t : absent (DoForm f n l a s t).
Lemma missing f s : hooked s -> existsb (pystr_eqb f) (lib_names ++ [u "error_func"; u "shutdown_func"; u "escape_func"]) = false -> has_attribute f s = false.
Proof.
  intros H N. rewrite existsb_app in N. apply orb_false_iff in N as [N1 N2]. unfold has_attribute, one_of. rewrite N1. cbn [orb].
  destruct (existsb _ (s_hooks s)) eqn:E; [|reflexivity]. apply existsb_exists in E as ([g c] & I & E). cbn [fst] in E. exfalso. specialize (H g c I).
  rewrite (proj2 (existsb_exists _ _)) in N2; [discriminate|]. exists g. auto.
Qed.
Lemma absent_raises c s : hooked s -> absent c -> exec (emit c) s = Err AttributeError.
Proof.
  intros H A.
  assert (K : forall f args kw, existsb (pystr_eqb f) (lib_names ++ [u "error_func"; u "shutdown_func"; u "escape_func"]) = false -> M_Menu.exec ev truth (SCall f args kw) s = Err AttributeError).
  { intros f args kw N. cbn [M_Menu.exec]. rewrite (missing f s H N). reflexivity. }
  destruct A; cbn [M_Menu.emit]; try (apply K; vm_compute; reflexivity).
  - destruct m; apply K; vm_compute; reflexivity.
  - cbn [M_Menu.exec]. rewrite (missing (u "on_key") s H); [reflexivity|vm_compute; reflexivity].
  - destruct t; [|apply K; vm_compute; reflexivity]. cbn [M_Menu.exec]. rewrite (missing (u "do_form") s H); [reflexivity|vm_compute; reflexivity].
Qed.
Lemma run_hooked l : forall s s', hooked s -> run l s = Ok s' -> hooked s'.
Proof.
  induction l as [|c l IH]; intros s s' H E; [injection E as <-; exact H|]. cbn [run] in E. destruct (exec (emit c) s) as [t|] eqn:X; cbn [rbind] in E; [|discriminate].
  exact (IH t s' (exec_hooked c s t H X) E).
Qed.
(** Whatever came before, each of them raises *)
Theorem C112_missing_refuted before s s' c : begins s -> run before s = Ok s' -> absent c -> exec (emit c) s' = Err AttributeError.
Proof. intros B R A. apply absent_raises; [|exact A]. apply (run_hooked before s); [|exact R]. intros f x I. rewrite B in I. destruct I. Qed.
(** ... so that no program with one gets past it *)
Lemma run_app a : forall b s, run (a ++ b) s = rbind (run a s) (run b).
Proof. induction a as [|c a IH]; intros b s; [reflexivity|]. cbn [app run]. destruct (exec (emit c) s); cbn [rbind]; [apply IH|reflexivity]. Qed.
Theorem C112_ends_refuted before c after s : begins s -> absent c -> exists e, run (before ++ c :: after) s = Err e.
Proof.
  intros B A. rewrite run_app. destruct (run before s) as [t|e] eqn:R; cbn [rbind]; [|exists e; reflexivity].
  exists AttributeError. cbn [run]. rewrite (C112_missing_refuted before s t c B R A). reflexivity.
Qed.

(** WAIT without TO does nothing but evaluate what it is given *)
Theorem C112_wait_partial message window nowait noclear timeout s :
  (forall e, exists v, ev e (s_vars s) = Ok v) -> exec (emit (Wait message None window nowait noclear timeout)) s = Ok s.
Proof.
  intros H. assert (A : forall l, eval_all ev l (s_vars s) = Ok tt). { induction l as [|e l IH]; [reflexivity|]. cbn [eval_all]. destruct (H e) as [v ->]. exact IH. }
  cbn [M_Menu.emit M_Menu.exec]. assert (W : has_attribute (u "wait") s = true) by reflexivity. rewrite W, A. reflexivity.
Qed.
(** The variable of WAIT TO gets nothing, and has to exist *)
Theorem C112_wait_refuted message to window nowait noclear timeout s s' : exec (emit (Wait message (Some to) window nowait noclear timeout)) s = Ok s' ->
  s' = s /\ exists v, ev to (s_vars s) = Ok v.
Proof.
  cbn [M_Menu.emit M_Menu.exec]. assert (W : has_attribute (u "wait") s = true) by reflexivity. rewrite W. cbn [app map snd eval_all or_none].
  destruct (ev _ (s_vars s)) as [x|]; cbn [rbind]; [|discriminate]. destruct (ev to (s_vars s)) as [v|]; cbn [rbind]; [|discriminate].
  intros H. split; [|exists v; reflexivity]. revert H. repeat match goal with |- context [ev ?x (s_vars s)] => destruct (ev x (s_vars s)); cbn [rbind] end; congruence.
Qed.
(** CLEAR, CLEAR ALL and CLEAR MEMORY leave every variable *)
Theorem C112_clear_refuted what s : (forall e, exists v, ev e (s_vars s) = Ok v) -> exec (emit (Clear what None)) s = Ok s.
Proof.
  intros H. cbn [M_Menu.emit M_Menu.exec]. assert (W : has_attribute (u "clear") s = true) by reflexivity. rewrite W. cbn [app map snd eval_all].
  destruct (H (match what with Some w => str_repr printable w | None => u "None" end)) as [v E]. rewrite E. reflexivity.
Qed.
(** ASSERT: nothing happens when the condition holds, the message not being looked at *)
Theorem C112_assert_partial c m s v : ev c (s_vars s) = Ok v -> truth v = true -> exec (emit (Assert c m)) s = Ok s.
Proof. intros E T. cbn [M_Menu.emit M_Menu.exec]. rewrite E. cbn [rbind]. rewrite T. reflexivity. Qed.
(** ... but a condition that fails raises, though asserts are off unless SET ASSERTS ON is given *)
Theorem C112_assert_refuted c m s v : ev c (s_vars s) = Ok v -> truth v = false -> exists e, exec (emit (Assert c m)) s = Err e.
Proof.
  intros E T. cbn [M_Menu.emit M_Menu.exec]. rewrite E. cbn [rbind]. rewrite T. destruct (eval_all ev _ (s_vars s)) as [x|e]; cbn [rbind]; eexists; reflexivity.
Qed.
End Menu.
Print Assumptions C112_missing_refuted.
Print Assumptions C112_ends_refuted.
Print Assumptions C112_wait_partial.
Print Assumptions C112_wait_refuted.
Print Assumptions C112_clear_refuted.
Print Assumptions C112_assert_partial.
Print Assumptions C112_assert_refuted.

(** Numbers as values: code is a name of a variable or anything else, worth 0 *)
Definition ex_ev (e : pystr) (vars : list (pystr * Z)) : res Z :=
  if prefixb (u "S.") e then match dget pystr_eqb vars (skipn 2 e) with Some v => Ok v | None => Err NameError end else Ok 0.
Definition ex_run := run (fun _ => true) Z ex_ev (fun v => negb (v =? 0)).
Definition ex_state : state Z := St [(u "x", 1)] [].
Example C112_example :
  ex_run [OnShutdown (u "F.bye()"); Wait (Some (u "'working'")) None (Some None) true false None; Assert (u "S.x") None; Clear (Some (u "all")) None] ex_state =
    Ok (St [(u "x", 1)] [(u "shutdown_func", u "F.bye()")]) /\
  ex_run [Clear None None; DefineMenu (VStr (u "main")) None true true (Some 1) false; ReadEvents] ex_state = Err AttributeError /\
  ex_run [Wait None (Some (u "S.answer")) None false false None] ex_state = Err NameError /\
  ex_run [Assert (u "1 == 2") None] ex_state = Err (UserError 0) /\
  stmt_text (emit (fun _ => true) (DefineMenu (VStr (u "main")) None true true (Some 1) false)) = u "vfpfunc.define_menu('main', window=vfpfunc.SCREEN, bar=True, line=1)".
Proof. repeat split. Qed.
