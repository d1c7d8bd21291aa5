(** Properties C94 and C95: the ON commands; raising and reporting errors. *)
From Verif Require Import PyBase PyStr M_Lit M_Error.
Open Scope Z_scope.
Open Scope res_scope.

Scheme stmt_mut := Induction for stmt Sort Prop with stmts_mut := Induction for stmts Sort Prop.
Combined Scheme stmt_ind2 from stmt_mut, stmts_mut.
Lemma dget_dset_same {V} (d : list (pystr * V)) x v : dget pystr_eqb (dset pystr_eqb d x v) x = Some v.
Proof.
  induction d as [|[k w] d IH]; cbn [dset dget].
  - destruct (pystr_eqb_spec x x); [reflexivity|congruence].
  - destruct (pystr_eqb_spec x k) as [E|N]; cbn [dget].
    + destruct (pystr_eqb_spec x k); [reflexivity|congruence].
    + destruct (pystr_eqb_spec x k); [congruence|exact IH].
Qed.
Lemma dget_dset_other {V} (d : list (pystr * V)) x y v : y <> x -> dget pystr_eqb (dset pystr_eqb d x v) y = dget pystr_eqb d y.
Proof.
  intros N. induction d as [|[k w] d IH]; cbn [dset dget].
  - destruct (pystr_eqb_spec y x); [congruence|reflexivity].
  - destruct (pystr_eqb_spec x k) as [E|E]; cbn [dget].
    + subst k. destruct (pystr_eqb_spec y x); [congruence|reflexivity].
    + rewrite IH. reflexivity.
Qed.
Lemma lookup_set s x v y : lookup (set_var s x v) y = if pystr_eqb y x then Ok v else lookup s y.
Proof.
  unfold lookup, set_var. cbn [vars]. destruct (pystr_eqb_spec y x) as [E|N]; [subst y; now rewrite dget_dset_same|now rewrite (dget_dset_other _ _ _ _ N)].
Qed.

(** ** C94.  ON ERROR with a call installs a function that makes this call, ON ERROR with one assignment one that makes this
    assignment with the values at the time of the error; ON ERROR alone removes it.  Nothing is executed now. *)
Theorem C94_installs_partial : forall cur s,
  (forall f, exists h, exec cur (SOn (OCall f)) s = (None, mkS (vars s) (calls s) (Some h) (addr s)) /\
     forall s', call_handler h s' = (Ok tt, add_call s' f)) /\
  (forall x e, exists h, exec cur (SOn (OStore [x] e)) s = (None, mkS (vars s) (calls s) (Some h) (addr s)) /\
     forall s' v, eval s' e = Ok v -> exists s'', call_handler h s' = (Ok tt, s'') /\ lookup s'' x = Ok v /\ (forall y, y <> x -> lookup s'' y = lookup s' y) /\ calls s'' = calls s') /\
  exec cur (SOn ONone) s = (None, mkS (vars s) (calls s) None (addr s)).
Proof.
  intros cur s. split; [|split; [|reflexivity]].
  - intros f. exists (LCall f). split; reflexivity.
  - intros x e. exists (LSets [(x, e)]). split; [reflexivity|]. intros s' v E. cbn [call_handler]. rewrite E. exists (set_var s' x v). split; [reflexivity|].
    rewrite lookup_set. destruct (pystr_eqb_spec x x); [|congruence]. split; [reflexivity|]. split; [|reflexivity].
    intros y N. rewrite lookup_set. destruct (pystr_eqb_spec y x); [congruence|reflexivity].
Qed.
Print Assumptions C94_installs_partial.
(** Nothing calls the function: whatever the program, its outcome, variables and calls are the same with any handler installed. *)
Definition with_handler (h : option pyfun) (s : state) : state := mkS (vars s) (calls s) h (addr s).
Definition unseen (a b : option pyexc * state) : Prop := fst a = fst b /\ exists h, snd b = with_handler h (snd a).
Lemma eval_handler h s e : eval (with_handler h s) e = eval s e. Proof. destruct e; reflexivity. Qed.
Lemma ignored : (forall p cur h s, unseen (exec cur p s) (exec cur p (with_handler h s))) /\
  (forall p cur h s, unseen (execs cur p s) (execs cur p (with_handler h s))).
Proof.
  apply stmt_ind2; intros; cbn [exec execs]; unfold unseen.
  - rewrite eval_handler. destruct (eval s e); (split; [reflexivity|]); exists h; reflexivity.
  - split; [reflexivity|]. exists h. reflexivity.
  - split; [reflexivity|]. exists h. reflexivity.
  - destruct e as [e|]; [rewrite eval_handler; destruct (eval s e)|]; (split; [reflexivity|]); exists h; reflexivity.
  - destruct e as [e|]; [rewrite eval_handler; destruct (eval s e)|destruct cur]; (split; [reflexivity|]); exists h; reflexivity.
  - split; [reflexivity|]. exists h. reflexivity.
  - destruct (H cur h s) as [E1 [h1 E2]]. destruct (execs cur body s) as [r1 s1], (execs cur body (with_handler h s)) as [r2 s2]. cbn [fst snd] in *. subst r2 s2.
    destruct r1 as [e|]; [|split; [reflexivity|exists h1; reflexivity]].
    exact (H0 (Some e) h1 (mkS (vars (set_var s1 x (from_pyexception (addr s1) e))) (calls s1) (handler s1) (addr s1 + 1))).
  - destruct (on_event c) as [k|e|]; (split; [reflexivity|]); [exists k|exists h|exists h]; reflexivity.
  - split; [reflexivity|]. exists h. reflexivity.
  - destruct (H cur h s0) as [E1 [h1 E2]]. destruct (exec cur s s0) as [r1 s1], (exec cur s (with_handler h s0)) as [r2 s2]. cbn [fst snd] in *. subst r2 s2.
    destruct r1 as [e|]; [split; [reflexivity|exists h1; reflexivity]|]. exact (H0 cur h1 s1).
Qed.
Theorem C94_never_called_refuted : forall p cur h s,
  fst (execs cur p (mkS (vars s) (calls s) h (addr s))) = fst (execs cur p s) /\
  calls (snd (execs cur p (mkS (vars s) (calls s) h (addr s)))) = calls (snd (execs cur p s)) /\
  vars (snd (execs cur p (mkS (vars s) (calls s) h (addr s)))) = vars (snd (execs cur p s)).
Proof.
  intros p cur h s. destruct (proj2 ignored p cur h s) as [E [k K]]. unfold with_handler in *. rewrite E, K. repeat split.
Qed.
Print Assumptions C94_never_called_refuted.
(** In particular: an error after ON ERROR DO f ends the program (or is caught) and f is not called. *)
Theorem C94_error_refuted : forall f e t s r, execs None (Cons (SOn (OCall f)) (Cons (SFail e t) r)) s = (Some (Other e t), mkS (vars s) (calls s) (Some (LCall f)) (addr s)).
Proof. reflexivity. Qed.
Print Assumptions C94_error_refuted.
(** Of the variables of STORE only the first is set. *)
Theorem C94_store_refuted : forall cur s x y r e, y <> x -> exists h, snd (exec cur (SOn (OStore (x :: y :: r) e)) s) = mkS (vars s) (calls s) (Some h) (addr s) /\
  forall s', lookup (snd (call_handler h s')) y = lookup s' y.
Proof.
  intros cur s x y r e N. exists (LSets ((x, e) :: (y, e) :: map (fun z => (z, e)) r)). split; [reflexivity|]. intros s'. cbn [call_handler].
  destruct (eval s' e); [|reflexivity]. cbn [snd]. rewrite lookup_set. destruct (pystr_eqb_spec y x); [congruence|reflexivity].
Qed.
Print Assumptions C94_store_refuted.
(** A counter (ON ERROR n = n + 1) stops the conversion, a command such as RETURN gives a program that is not Python; the commands ON KEY LABEL, ON PAD
    and ON BAR fail when they are executed. *)
Theorem C94_commands_refuted : (forall x e, on_event (OAdd x e) = Crash AttributeError) /\ on_event OStatement = NotPython /\
  (forall c, on_stmt EvKey c = Fails AttributeError) /\ (forall c, on_stmt EvPadBar c = Fails AttributeError).
Proof. repeat split. Qed.
Print Assumptions C94_commands_refuted.
(** The three events that are supported go to three different attributes. *)
Theorem C94_events_partial : forall c, exists a b d, on_stmt EvError c = Runs a (on_event c) /\ on_stmt EvShutdown c = Runs b (on_event c) /\ on_stmt EvEscape c = Runs d (on_event c) /\
  a <> b /\ b <> d /\ a <> d.
Proof. intros c. do 3 eexists. split; [reflexivity|]. split; [reflexivity|]. split; [reflexivity|]. repeat split; vm_compute; congruence. Qed.
Print Assumptions C94_events_partial.
Definition st0 : state := mkS [(u "x", VInt 1); (u "y", VInt 2)] [] None 0.
Example C94_example :
  let s := snd (exec None (SOn (OStore [u "x"; u "y"] (EConst (VInt 0)))) st0) in
  match handler s with Some h => map (lookup (snd (call_handler h s))) [u "x"; u "y"] | None => [] end = [Ok (VInt 0); Ok (VInt 2)].
Proof. vm_compute. reflexivity. Qed.

(** ** C95.  ERROR (or THROW) with a text inside TRY: what precedes it has been executed, what follows it has not, and in the CATCH part the message of the caught
    error is this text; the other variables are as they were. *)
Fixpoint app_s (a b : stmts) : stmts := match a with Nil => b | Cons s r => Cons s (app_s r b) end.
Lemma execs_app cur a b : forall s, execs cur (app_s a b) s = match execs cur a s with (None, s) => execs cur b s | r => r end.
Proof. induction a as [|p a IH]; intros s; cbn [app_s execs]; [reflexivity|]. destruct (exec cur p s) as [[e|] s1]; [reflexivity|apply IH]. Qed.
Definition caught (x : pystr) (e : pyexc) (s s' : state) : Prop :=
  eval s' (EMessage x) = Ok (VStr (exc_str e)) /\ (forall y, y <> x -> lookup s' y = lookup s y) /\ calls s' = calls s.
Lemma try_fails cur body x catch s e s1 : execs cur body s = (Some e, s1) ->
  exists s2, exec cur (STry body x catch) s = execs (Some e) catch s2 /\ caught x e s1 s2 /\ eval s2 (EErrorno x) = Ok (VInt 0) /\ eval s2 (EUserValue x) = Err AttributeError /\
    exists a, lookup s2 x = Ok (VErr (exc_str e) 0 a).
Proof.
  intros E. cbn [exec]. rewrite E. eexists. split; [reflexivity|].
  set (s2 := mkS (vars (set_var s1 x (from_pyexception (addr s1) e))) (calls s1) (handler s1) (addr s1 + 1)).
  assert (L : forall y, lookup s2 y = lookup (set_var s1 x (from_pyexception (addr s1) e)) y) by reflexivity.
  assert (Lx : lookup s2 x = Ok (VErr (exc_str e) 0 (addr s1))). { rewrite L, lookup_set. destruct (pystr_eqb_spec x x); [reflexivity|congruence]. }
  split; [split; [|split; [|reflexivity]]|split; [|split; [|exists (addr s1); exact Lx]]].
  - cbn [eval]. rewrite Lx. reflexivity.
  - intros y N. rewrite L, lookup_set. destruct (pystr_eqb_spec y x); [congruence|reflexivity].
  - cbn [eval]. rewrite Lx. reflexivity.
  - cbn [eval]. rewrite Lx. reflexivity.
Qed.
Theorem C95_message_partial : forall cur pre e r x catch s s1 t, execs cur pre s = (None, s1) -> eval s1 e = Ok (VStr t) ->
  forall raise, raise = SError (Some e) \/ raise = SThrow (Some e) ->
  exists err s2, exec cur (STry (app_s pre (Cons raise r)) x catch) s = execs (Some err) catch s2 /\
    eval s2 (EMessage x) = Ok (VStr t) /\ (forall y, y <> x -> lookup s2 y = lookup s1 y) /\ calls s2 = calls s1.
Proof.
  intros cur pre e r x catch s s1 t E1 E2 raise R.
  assert (E : execs cur (app_s pre (Cons raise r)) s = (Some (Raised (VStr t)), s1)).
  { rewrite execs_app, E1. destruct R as [-> | ->]; cbn [execs exec]; rewrite E2; reflexivity. }
  destruct (try_fails cur _ x catch s _ s1 E) as (s2 & X & (C1 & C2 & C3) & _). exists (Raised (VStr t)), s2. split; [exact X|]. split; [exact C1|]. split; [exact C2|exact C3].
Qed.
Print Assumptions C95_message_partial.
(** Without an error the CATCH part is not run, whatever it is. *)
Theorem C95_success : forall cur body x catch s s1, execs cur body s = (None, s1) -> forall r, execs cur (Cons (STry body x catch) r) s = execs cur (app_s body r) s.
Proof. intros cur body x catch s s1 E r. rewrite execs_app. cbn [execs exec]. rewrite E. reflexivity. Qed.
Print Assumptions C95_success.
(** An error of Python itself is caught with its text. *)
Theorem C95_interpreter_partial : forall cur pre e t r x catch s s1, execs cur pre s = (None, s1) ->
  exists err s2, exec cur (STry (app_s pre (Cons (SFail e t) r)) x catch) s = execs (Some err) catch s2 /\
    eval s2 (EMessage x) = Ok (VStr t) /\ (forall y, y <> x -> lookup s2 y = lookup s1 y) /\ calls s2 = calls s1.
Proof.
  intros cur pre e t r x catch s s1 E1.
  assert (E : execs cur (app_s pre (Cons (SFail e t) r)) s = (Some (Other e t), s1)) by (rewrite execs_app, E1; reflexivity).
  destruct (try_fails cur _ x catch s _ s1 E) as (s2 & X & (C1 & C2 & C3) & _). exists (Other e t), s2. split; [exact X|]. split; [exact C1|]. split; [exact C2|exact C3].
Qed.
Print Assumptions C95_interpreter_partial.
(** THROW alone in a CATCH part hands the same error to the enclosing TRY. *)
Theorem C95_rethrow_partial : forall cur body x c1 r y catch s e s1, execs cur body s = (Some e, s1) ->
  (forall s2, caught x e s1 s2 -> fst (execs (Some e) c1 s2) = None) ->
  exists s3, exec cur (STry (Cons (STry body x (app_s c1 (Cons (SThrow None) r))) Nil) y catch) s = execs (Some e) catch s3 /\
    eval s3 (EMessage y) = Ok (VStr (exc_str e)).
Proof.
  intros cur body x c1 r y catch s e s1 E H. destruct (try_fails cur body x (app_s c1 (Cons (SThrow None) r)) s e s1 E) as (s2 & X & C & _).
  specialize (H s2 C). rewrite execs_app in X. destruct (execs (Some e) c1 s2) as [r2 s2'] eqn:E2. cbn [fst] in H. subst r2. cbn [execs] in X.
  assert (Y : execs cur (Cons (STry body x (app_s c1 (Cons (SThrow None) r))) Nil) s = (Some e, s2')). { cbn [execs]. rewrite X. cbn [exec]. reflexivity. }
  destruct (try_fails cur _ y catch s e s2' Y) as (s3 & Z & (C1 & _) & _). exists s3. split; [exact Z|exact C1].
Qed.
Print Assumptions C95_rethrow_partial.
(** THROW with the caught error loses its message: the text the enclosing TRY sees is the description of the object. *)
Theorem C95_throw_object_refuted : forall cur body x r y catch s e s1, execs cur body s = (Some e, s1) ->
  exists err s3 rest, exec cur (STry (Cons (STry body x (Cons (SThrow (Some (EVar x))) r)) Nil) y catch) s = execs (Some err) catch s3 /\
    eval s3 (EMessage y) = Ok (VStr (u "<vfp2py.vfpfunc.Exception object at 0x" ++ rest)).
Proof.
  intros cur body x r y catch s e s1 E. destruct (try_fails cur body x (Cons (SThrow (Some (EVar x))) r) s e s1 E) as (s2 & X & _ & _ & _ & a & L).
  set (err := Raised (VErr (exc_str e) 0 a)).
  assert (Y : execs cur (Cons (STry body x (Cons (SThrow (Some (EVar x))) r)) Nil) s = (Some err, s2)). { cbn [execs]. rewrite X. cbn [execs exec eval]. rewrite L. reflexivity. }
  destruct (try_fails cur _ y catch s err s2 Y) as (s3 & Z & (C1 & _) & _). exists err, s3, (hexa a ++ u ">"). split; [exact Z|exact C1].
Qed.
Print Assumptions C95_throw_object_refuted.
(** ERROR without a text is caught with the message "None"; the error number is 0 whatever the error was; and the value that was thrown is not available. *)
Theorem C95_no_text_refuted : forall cur r x catch s, exists err s2, exec cur (STry (Cons (SError None) r) x catch) s = execs (Some err) catch s2 /\
  eval s2 (EMessage x) = Ok (VStr (u "None")).
Proof.
  intros cur r x catch s. destruct (try_fails cur (Cons (SError None) r) x catch s _ s eq_refl) as (s2 & X & (C1 & _) & _). do 2 eexists. split; [exact X|exact C1].
Qed.
Print Assumptions C95_no_text_refuted.
Theorem C95_details_refuted : forall cur body x catch s e s1, execs cur body s = (Some e, s1) ->
  exists s2, exec cur (STry body x catch) s = execs (Some e) catch s2 /\ eval s2 (EErrorno x) = Ok (VInt 0) /\ eval s2 (EUserValue x) = Err AttributeError.
Proof. intros cur body x catch s e s1 E. destruct (try_fails cur body x catch s e s1 E) as (s2 & X & _ & N & U & _). exists s2. split; [exact X|]. split; [exact N|exact U]. Qed.
Print Assumptions C95_details_refuted.
(** MESSAGE() fails, in a CATCH part as elsewhere. *)
Theorem C95_message_function_refuted : forall cur body x y r s e s1, execs cur body s = (Some e, s1) ->
  exists t s2, exec cur (STry body x (Cons (SMessage y) r)) s = (Some (Other AttributeError t), s2).
Proof. intros cur body x y r s e s1 E. cbn [exec]. rewrite E. do 2 eexists. reflexivity. Qed.
Print Assumptions C95_message_function_refuted.
Example C95_example : (* TRY / TRY / f() / ERROR "no" / CATCH TO e / THROW / ENDTRY / CATCH TO g / x = g.message / ENDTRY *)
  lookup (snd (exec None (STry (Cons (STry (Cons (SCall (u "f")) (Cons (SError (Some (EConst (VStr (u "no"))))) Nil)) (u "e") (Cons (SThrow None) Nil)) Nil)
    (u "g") (Cons (SSet (u "x") (EMessage (u "g"))) Nil)) st0)) (u "x") = Ok (VStr (u "no")).
Proof. vm_compute. reflexivity. Qed.
