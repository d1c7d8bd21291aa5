(** Properties C108 and C109: PROGRAM() and RETURN. *)
From Verif Require Import PyBase PyStr M_Stmt S_Stmt P_Stmt P_Stmt2 P_Stmt3 T_Stmt M_Program.
Open Scope Z_scope.

(** * C108 *)
(** The active procedures, the main program first; [procs] are their frames. *)
Definition named (p : frame) : Prop := fr_name p <> u "_program_main".
Lemma zlen_stack start procs : zlen (stack start procs) = zlen start + 2 * zlen procs.
Proof.
  unfold stack. rewrite zlen_app. f_equal. induction procs as [|p l IH]; [reflexivity|]. cbn [flat_map app]. rewrite !zlen_cons, IH. unfold zlen. cbn [length]. lia.
Qed.
Lemma stack_last start procs p : py_nth (stack start (procs ++ [p])) (-1) = Ok p.
Proof.
  unfold stack. rewrite flat_map_app. cbn [flat_map app]. rewrite app_assoc.
  replace ((start ++ flat_map (fun p => [scoper; p]) procs) ++ [scoper; p]) with (((start ++ flat_map (fun p => [scoper; p]) procs) ++ [scoper]) ++ [p]) by (rewrite <- !app_assoc; reflexivity).
  set (l := (start ++ _) ++ [scoper]). unfold py_nth. cbn [Z.ltb]. change (-1 <? 0) with true. cbv iota. rewrite zlen_app. change (zlen [p]) with 1.
  assert (H : 0 <= zlen l) by (unfold zlen; lia). destruct (Z.ltb_spec (-1 + (zlen l + 1)) 0); [lia|].
  replace (Z.to_nat (-1 + (zlen l + 1))) with (length l) by (unfold zlen; lia). rewrite nth_error_app2, Nat.sub_diag by lia. cbn [orb]. destruct (Z.leb_spec (zlen l + 1) (-1 + (zlen l + 1))); [lia|reflexivity].
Qed.
(** PROGRAM() is the name of the procedure being executed. *)
Theorem C108_current_partial start procs p : named p -> program None (stack start (procs ++ [p])) = Ok (Name (map up (fr_name p))).
Proof.
  intros N. unfold program. rewrite zlen_stack, zlen_app, stack_last. pose proof (zlen_nonneg start). pose proof (zlen_nonneg procs). change (zlen [p]) with 1.
  destruct (Z.leb_spec (zlen start + 2 * (zlen procs + 1)) (-1)); [lia|]. cbn [rmap]. destruct (pystr_eqb_spec (fr_name p) (u "_program_main")); [contradiction|reflexivity].
Qed.
Print Assumptions C108_current_partial.
(** Beyond the active procedures PROGRAM(n) is empty. *)
Theorem C108_beyond_partial start procs n : 1 <= n -> zlen start + 2 * zlen procs <= n -> program (Some n) (stack start procs) = Ok (Name []).
Proof.
  intros N H. unfold program. rewrite zlen_stack. destruct (Z.ltb_spec n 0); [lia|]. destruct (Z.eqb_spec n 0); [lia|]. destruct (Z.leb_spec (zlen start + 2 * zlen procs) n); [reflexivity|lia].
Qed.
Print Assumptions C108_beyond_partial.
(** In the main program PROGRAM() is MAIN, not the name of the file: the main program is always defined as MAIN, so that the case
    of a frame called _program_main, which would give the name of the file, is never met. *)
Theorem C108_main_refuted start file name : program None (stack start [{| fr_file := file ++ u ".py"; fr_name := def_name true (u "_program_main") |}]) = Ok (Name (u "MAIN")) /\
  (map up file <> u "MAIN" -> program None (stack start [{| fr_file := file ++ u ".py"; fr_name := def_name true (u "_program_main") |}]) <> Ok (Name (map up file))) /\
  def_name true name <> u "_program_main" /\
  program None (stack start [{| fr_file := file ++ u ".py"; fr_name := u "_program_main" |}]) = Ok (Name (map up file)).
Proof.
  rewrite <- and_assoc, <- and_assoc. split; [rewrite and_assoc|].
  2:{ unfold program. rewrite zlen_stack. change [{| fr_file := file ++ u ".py"; fr_name := u "_program_main" |}] with ([] ++ [{| fr_file := file ++ u ".py"; fr_name := u "_program_main" |}]) at 2. rewrite stack_last. pose proof (zlen_nonneg start).
      unfold zlen at 2. cbn [length]. destruct (Z.leb_spec (zlen start + 2 * Z.of_nat 1) (-1)); [lia|]. cbn [rmap fr_name fr_file].
      change (pystr_eqb (u "_program_main") (u "_program_main")) with true. cbv iota. unfold without_py. rewrite rev_app_distr. cbn. rewrite rev_involutive. reflexivity. }
  set (p := {| fr_file := _; fr_name := _ |}). assert (X : program None (stack start [p]) = Ok (Name (u "MAIN"))) by (apply (C108_current_partial start [] p); discriminate).
  split; [exact X|]. split; [intros H E; rewrite X in E; injection E as E; apply H; symmetry; exact E|].
  unfold def_name. cbn [andb]. destruct (pystr_eqb_spec name (u "_program_main")); [discriminate|assumption].
Qed.
Print Assumptions C108_main_refuted.
Lemma nth_stack procs k : nth_error (flat_map (fun p => [scoper; p]) procs) (2 * k) = (if (k <? length procs)%nat then Some scoper else None) /\
  nth_error (flat_map (fun p => [scoper; p]) procs) (S (2 * k)) = nth_error procs k.
Proof.
  revert k. induction procs as [|p l IH]; intros [|k]; split; try reflexivity; cbn [flat_map app].
  - replace (2 * S k)%nat with (S (S (2 * k))) by lia. cbn [nth_error]. rewrite (proj1 (IH k)). reflexivity.
  - replace (2 * S k)%nat with (S (S (2 * k))) by lia. cbn [nth_error]. exact (proj2 (IH k)).
Qed.
(** The levels: in a program started from one frame (the module that calls MAIN()), every odd level is called SCOPER, and level 2k is that of
    the k-th procedure, for FoxPro's level k. *)
Theorem C108_levels_refuted m procs k : fr_name m <> u "_program_main" -> Forall named procs -> (k < length procs)%nat ->
  program (Some (2 * Z.of_nat k + 1)) (stack [m] procs) = Ok (Name (u "SCOPER")) /\
  (exists p, nth_error procs k = Some p /\ program (Some (2 * Z.of_nat k + 2)) (stack [m] procs) = Ok (Name (map up (fr_name p)))) /\
  program (Some 0) (stack [m] procs) = Ok (Name (u "SCOPER")).
Proof.
  intros M F K. assert (L : zlen procs = Z.of_nat (length procs)) by reflexivity.
  assert (X : forall n, 1 <= n -> n < 1 + 2 * zlen procs -> program (Some n) (stack [m] procs) =
    rmap (fun f => Name (map up (if pystr_eqb (fr_name f) (u "_program_main") then without_py (fr_file f) else fr_name f))) (py_nth (stack [m] procs) n)).
  { intros n H1 H2. unfold program. rewrite zlen_stack. change (zlen [m]) with 1. destruct (Z.ltb_spec n 0); [lia|]. destruct (Z.eqb_spec n 0); [lia|]. destruct (Z.leb_spec (1 + 2 * zlen procs) n); [lia|reflexivity]. }
  assert (Y : forall j, (j < length procs)%nat -> program (Some (2 * Z.of_nat j + 1)) (stack [m] procs) = Ok (Name (u "SCOPER"))).
  { intros j J. rewrite X by lia. rewrite py_nth_nonneg by lia. unfold stack. cbn [app]. replace (Z.to_nat (2 * Z.of_nat j + 1)) with (S (2 * j)) by lia. cbn [nth_error].
    rewrite (proj1 (nth_stack procs j)). destruct (Nat.ltb_spec j (length procs)); [reflexivity|lia]. }
  split; [exact (Y k K)|]. split.
  - destruct (nth_error procs k) as [p|] eqn:E; [|apply nth_error_None in E; lia]. exists p. split; [reflexivity|].
    rewrite X by lia. rewrite py_nth_nonneg by lia. unfold stack. cbn [app]. replace (Z.to_nat (2 * Z.of_nat k + 2)) with (S (S (2 * k))) by lia. assert (Z : forall l n, nth_error (m :: l) (S n) = nth_error l n) by reflexivity. rewrite Z.
    rewrite (proj2 (nth_stack procs k)), E. cbn [rmap]. rewrite Forall_forall in F. pose proof (F p (nth_error_In _ _ E)) as N. destruct (pystr_eqb_spec (fr_name p) (u "_program_main")); [contradiction|reflexivity].
  - exact (Y O ltac:(lia)).
Qed.
Print Assumptions C108_levels_refuted.
(** The number of active procedures comes out wrong at every depth and from every start. *)
Theorem C108_depth_refuted start procs n : n < 0 -> start <> [] -> procs <> [] ->
  exists d, program (Some n) (stack start procs) = Ok (Level d) /\ zlen procs < d.
Proof.
  intros N S P. exists (zlen start + 2 * zlen procs - 1). split; [unfold program; rewrite zlen_stack; destruct (Z.ltb_spec n 0); [reflexivity|lia]|].
  assert (0 < zlen start) by (destruct start; [contradiction|unfold zlen; cbn [length]; lia]). assert (0 < zlen procs) by (destruct procs; [contradiction|unfold zlen; cbn [length]; lia]). lia.
Qed.
Print Assumptions C108_depth_refuted.
Example C108_example :
  let m := {| fr_file := u "__main__.py"; fr_name := u "<module>" |} in
  let main := {| fr_file := u "report.py"; fr_name := def_name true (u "_program_main") |} in
  let sub := {| fr_file := u "report.py"; fr_name := def_name false (u "totals") |} in
  named sub /\ program None (stack [m] [main; sub]) = Ok (Name (u "TOTALS")) /\ program None (stack [m] [main]) = Ok (Name (u "MAIN")) /\
  program (Some 1) (stack [m] [main; sub]) = Ok (Name (u "SCOPER")) /\ program (Some 2) (stack [m] [main; sub]) = Ok (Name (u "MAIN")) /\
  program (Some (-1)) (stack [m] [main; sub]) = Ok (Level 4) /\ program (Some 7) (stack [m] [main; sub]) = Ok (Name []).
Proof. cbn zeta. split; [discriminate|]. repeat split. Qed.

(** * C109 *)
(** A machine with return values: [slot] is the value of the last return statement, if it had one; [value e st] that of the text e. *)
Record returning := { rm : machine; V : Type; slot : St rm -> option V; value : pystr -> St rm -> V + Ex rm; fox_true : V; py_none : V }.
Definition lawful_return (r : returning) : Prop :=
  lawful (rm r) /\ fox_true r <> py_none r /\
  (forall cur st, exists st', m_run (rm r) cur (u "return") st = (st', Return) /\ slot r st' = None) /\
  (forall cur e st, exists st', match value r e st with
     | inl v => m_run (rm r) cur (u "return " ++ e) st = (st', Return) /\ slot r st' = Some v
     | inr x => m_run (rm r) cur (u "return " ++ e) st = (st', Raise x)
     end).
(** The value of a call whose body ends in state st with signal s: without a value, .T. in FoxPro and None in Python. *)
Definition call_value (r : returning) (missing : V r) (x : result (rm r)) : option (V r) :=
  match x with
  | Some (st, Return) => Some (match slot r st with Some v => v | None => missing end)
  | Some (_, Normal) => Some missing
  | _ => None
  end.
Definition fox_call r N cur f st := call_value r (fox_true r) (fruns (rm r) N [] cur (f_body f) st).
Definition py_call r N cur body st := call_value r (py_none r) (pruns (rm r) N cur body st).
(** Procedures of a converted program and their Python bodies *)
Definition converted (fs : list func) (bodies : list (list pystmt)) : Prop :=
  py_reads (program_text fs) (flat_map (fun fb => [PSimple (u "@" ++ f_decorator (fst fb)); PDef (f_name (fst fb) ++ u "()") (snd fb)]) (combine fs bodies)) /\ length bodies = length fs.
Lemma bodies_run fs bodies : Forall func_supported fs -> converted fs bodies ->
  Forall (fun fb => forall m, lawful m -> forall N cur st, pruns m N cur (snd fb) st = fruns m N [] cur (f_body (fst fb)) st) (combine fs bodies).
Proof.
  intros S (R & L). destruct (C68_program_partial fs S) as (b' & R' & L' & F). assert (E : bodies = b'); [|subst; exact F].
  pose proof (py_reads_unique _ _ _ R R') as U. clear - U L L'. revert bodies b' L L' U. induction fs as [|f fs IH]; intros [|b bs] [|b' bs'] L L' U; try discriminate; [reflexivity|].
  cbn [combine flat_map fst snd app] in U. injection U as U1 U2. subst b'. f_equal. apply IH; [injection L as L; exact L|injection L' as L'; exact L'|exact U2].
Qed.
(** RETURN with a value gives that value to the caller, wherever in the procedure it is reached, and nothing else gives a value. *)
Theorem C109_value_partial fs bodies : Forall func_supported fs -> converted fs bodies -> forall f body, In (f, body) (combine fs bodies) ->
  forall r, lawful_return r -> forall N cur st st' v, fruns (rm r) N [] cur (f_body f) st = Some (st', Return) -> slot r st' = Some v ->
  py_call r N cur body st = Some v /\ fox_call r N cur f st = Some v.
Proof.
  intros S C f body I r (L & _) N cur st st' v H E. pose proof (bodies_run fs bodies S C) as F. rewrite Forall_forall in F. specialize (F _ I (rm r) L N cur st). cbn [fst snd] in F.
  unfold py_call, fox_call. rewrite F, H. cbn [call_value]. rewrite E. split; reflexivity.
Qed.
Print Assumptions C109_value_partial.
(** A procedure that ends without a value gives None where FoxPro gives .T. *)
Theorem C109_no_value_refuted fs bodies : Forall func_supported fs -> converted fs bodies -> forall f body, In (f, body) (combine fs bodies) ->
  forall r, lawful_return r -> forall N cur st st' s, fruns (rm r) N [] cur (f_body f) st = Some (st', s) -> (s = Normal \/ s = Return /\ slot r st' = None) ->
  fox_call r N cur f st = Some (fox_true r) /\ py_call r N cur body st = Some (py_none r) /\ py_call r N cur body st <> fox_call r N cur f st.
Proof.
  intros S C f body I r (L & D & _) N cur st st' s H E. pose proof (bodies_run fs bodies S C) as F. rewrite Forall_forall in F. specialize (F _ I (rm r) L N cur st). cbn [fst snd] in F.
  assert (A : forall d, call_value r d (Some (st', s)) = Some d) by (intros d; destruct E as [-> | [-> E]]; cbn [call_value]; [reflexivity|rewrite E; reflexivity]).
  unfold py_call, fox_call. rewrite F, H, !A. split; [reflexivity|]. split; [reflexivity|]. intros X. injection X as X. apply D. symmetry. exact X.
Qed.
Print Assumptions C109_no_value_refuted.
(** In particular: a procedure of RETURN e has the value of e, whatever follows; one of RETURN alone, or of nothing, None. *)
Lemma runs_return r N cur e rest st : lawful_return r ->
  exists st', match e with
    | None => fruns (rm r) N [] cur (FCons (FCmd [Txt (return_text None)]) rest) st = Some (st', Return) /\ slot r st' = None
    | Some t => match value r t st with
      | inl v => fruns (rm r) N [] cur (FCons (FCmd [Txt (return_text (Some t))]) rest) st = Some (st', Return) /\ slot r st' = Some v
      | inr x => fruns (rm r) N [] cur (FCons (FCmd [Txt (return_text (Some t))]) rest) st = Some (st', Raise x)
      end
    end.
Proof.
  intros (L & D & L1 & L2). assert (X : forall t, fox_text [] [Txt t] = t) by (intros t; unfold fox_text; cbn; apply app_nil_r).
  destruct e as [t|].
  - destruct (L2 cur t st) as (st' & H). exists st'. cbn [fruns frun]. rewrite X. unfold return_text. destruct (value r t st) as [v|x]; [destruct H as [H E]; rewrite H; split; [reflexivity|exact E]|rewrite H; reflexivity].
  - destruct (L1 cur st) as (st' & H & E). exists st'. cbn [fruns frun]. rewrite X. unfold return_text. rewrite H. split; [reflexivity|exact E].
Qed.
Theorem C109_return fs bodies : Forall func_supported fs -> converted fs bodies -> forall f body, In (f, body) (combine fs bodies) ->
  forall e rest, f_body f = FCons (FCmd [Txt (return_text e)]) rest -> forall r, lawful_return r -> forall N cur st,
  py_call r N cur body st = match e with None => Some (py_none r) | Some t => match value r t st with inl v => Some v | inr _ => None end end.
Proof.
  intros S C f body I e rest B r L N cur st. pose proof (bodies_run fs bodies S C) as F. rewrite Forall_forall in F. specialize (F _ I (rm r) (proj1 L) N cur st). cbn [fst snd] in F.
  unfold py_call. rewrite F, B. destruct (runs_return r N cur e rest st L) as (st' & H). destruct e as [t|]; [destruct (value r t st) as [v|x]|].
  - destruct H as [H E]. rewrite H. cbn [call_value]. rewrite E. reflexivity.
  - rewrite H. reflexivity.
  - destruct H as [H E]. rewrite H. cbn [call_value]. rewrite E. reflexivity.
Qed.
Print Assumptions C109_return.
(** A machine that computes nothing but return values, the texts themselves *)
Definition echo : machine := {|
  St := option pystr; Ex := unit; It := nat;
  m_run cur t st :=
    if pystr_eqb t (u "break") then (st, Break)
    else if pystr_eqb t (u "continue") then (st, Continue)
    else if pystr_eqb t (u "raise") then (st, match cur with Some e => Raise e | None => Normal end)
    else if pystr_eqb t (u "return") then (None, Return)
    else if pystr_eqb (firstn 7 t) (u "return ") then (Some (skipn 7 t), Return)
    else (st, Normal);
  m_test c st := (st, decide (S (length c)) c);
  m_start h st := (st, inl 2%nat);
  m_next n st := (st, inl match n with O => None | S n => Some n end);
  m_bind x e st := st
|}.
Definition echoing : returning := {| rm := echo; V := pystr; slot := fun st : St echo => st; value := fun e _ => inl e; fox_true := u "True"; py_none := u "None" |}.
Lemma echoing_lawful : lawful_return echoing.
Proof.
  split; [|split; [discriminate|split]].
  - destruct logger_lawful as (_ & _ & _ & _ & _ & L6 & L7). repeat split; try reflexivity. intros c st. exact (f_equal2 pair eq_refl (f_equal snd (L7 c []))).
  - intros cur st. exists None. split; reflexivity.
  - intros cur e st. exists (Some e). cbn [value echoing]. split; [|reflexivity]. cbn [rm echoing m_run echo].
    assert (X : forall w : string, pystr_eqb (u "return " ++ e) (u w) = true -> (7 <= length (u w))%nat).
    { intros w H. destruct (pystr_eqb_spec (u "return " ++ e) (u w)) as [E|]; [|discriminate H]. rewrite <- E, app_length. cbn. lia. }
    destruct (pystr_eqb (u "return " ++ e) (u "break")) eqn:E1; [apply X in E1; cbn in E1; lia|].
    destruct (pystr_eqb (u "return " ++ e) (u "continue")) eqn:E2; [discriminate E2|].
    destruct (pystr_eqb (u "return " ++ e) (u "raise")) eqn:E3; [apply X in E3; cbn in E3; lia|].
    destruct (pystr_eqb (u "return " ++ e) (u "return")) eqn:E4; [apply X in E4; cbn in E4; lia|]. reflexivity.
Qed.
(** FUNCTION f / IF t / RETURN 7 / ENDIF / RETURN ENDFUNC, and FUNCTION g / x / ENDFUNC *)
Example C109_example :
  let f := {| f_decorator := u "lparameters()"; f_name := u "f"; f_body := FCons (FIf [Txt (u "t")] (FCons (FCmd [Txt (return_text (Some (u "7")))]) FNil) FNone) (FCons (FCmd [Txt (return_text None)]) FNil) |} in
  let g := {| f_decorator := u "lparameters()"; f_name := u "g"; f_body := FCons (FCmd [Txt (u "x")]) FNil |} in
  Forall func_supported [f; g] /\ (exists bodies, converted [f; g] bodies) /\ lawful_return echoing /\
  fox_call echoing 1 None f None = Some (u "7") /\ fox_call echoing 1 None g None = Some (u "True").
Proof.
  cbn zeta. assert (S : forall f g, Forall func_supported [f; g] -> Forall func_supported [f; g] /\ (exists bodies, converted [f; g] bodies)).
  { intros f g H. split; [exact H|]. destruct (C68_program_partial _ H) as (b & R & L & _). exists b. split; [exact R|exact L]. }
  apply and_assoc. split; [|split; [exact echoing_lawful|split; reflexivity]]. apply S.
  repeat constructor; try discriminate; try (intros X; vm_compute in X; intuition discriminate).
Qed.
