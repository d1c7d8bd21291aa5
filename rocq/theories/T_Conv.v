(** Conversion of expressions: properties C36, C37, C38, C39 and C42. *)
From Verif Require Import PyBase PyStr S_Py P_Py S_PyEval M_Conv S_Conv P_Conv P_Bool S_Clean P_Clean S_Inline P_Inline S_For.
Open Scope Z_scope.

Ltac parse := apply (parses 200); intros; vm_compute; reflexivity.
Lemma not_means ts t e : py_parse ts e -> joined e <> joined (mean t) -> ~ means ts t.
Proof. intros P N [e' [P' J]]. rewrite (py_parse_det _ _ _ P' P) in J. contradiction. Qed.

(** * C36: Python parses the code of an arithmetic expression into its operator tree *)
Theorem C36_structure_partial lib t : produced t -> tame lib t -> means (code lib t) t.
Proof.
  intros P T. destruct (conv_tame lib t P T false) as (e & Pe & J & _). exists e. split; [|exact J].
  exact (Pr_parse (pl t) _ _ (pl_le t) Pe).
Qed.
Print Assumptions C36_structure_partial.
(** ... so that it has the same value. *)
Theorem C36_value_partial lib env t v : produced t -> tame lib t -> pev env (mean t) = Some v -> py_value env (code lib t) v.
Proof. intros P T V. destruct (tame_code env lib t v P T V false) as (e & Pe & Ve). exact (value_of env (pl t) _ e v (pl_le t) Pe Ve). Qed.
Print Assumptions C36_value_partial.

Definition X := CVar (u "x"). Definition Y := CVar (u "y"). Definition Z' := CVar (u "z").
(* x - (y + 2) * -z ^ 2 <= F(x % 3, "a" + "b"), with the signed base in parentheses *)
Definition big := CCmp OLe (CBin OSub X (CBin OMul (CSub (CBin OAdd Y (CInt 2))) (CBin OPow (CSub (CSign true Z')) (CInt 2))))
                           (CCall (u "myfunc") [CBin OMod X (CInt 3); CBin OAdd (CStr (u "a")) (CStr (u "b"))]).
Lemma own_myfunc : own_function (fun _ => false) (u "myfunc").
Proof. apply own_check. vm_compute. reflexivity. Qed.
Example C36_example : produced big /\ tame (fun _ => false) big /\
  code (fun _ => false) big = [Id (u "S"); Dot; Id (u "x"); Op OSub; Lp; Id (u "S"); Dot; Id (u "y"); Op OAdd; IntT 2; Rp; Op OMul; Lp; Op OSub; Id (u "S"); Dot; Id (u "z"); Rp; Op OPow; IntT 2;
    Op OLe; Id (u "F"); Dot; Id (u "myfunc"); Lp; Id (u "S"); Dot; Id (u "x"); Op OMod; IntT 3; Comma; StrT (u "ab"); Rp].
Proof.
  split; [cbn; repeat split; lia|]. split; [|vm_compute; reflexivity]. cbn. repeat split; try discriminate; auto. left. apply own_myfunc.
Qed.
(* IIF(BETWEEN(x, 1, MAX(y, 10)), ABS(x - y) + MOD(x, 7), -LEN("abc" + z)) *)
Definition calls := CCall (u "iif") [CCall (u "between") [X; CInt 1; CCall (u "max") [Y; CInt 10]]; CBin OAdd (CCall (u "abs") [CBin OSub X Y]) (CCall (u "mod") [X; CInt 7]);
                                     CSign true (CCall (u "len") [CBin OAdd (CStr (u "abc")) Z'])].
Example C36_example_calls : produced calls /\ tame (fun _ => false) calls /\
  mean calls = EIf (ECmp (EInt 1) [(OLe, mean X); (OLe, ECall (EName (u "max")) [mean Y; EInt 10])])
                   (EBin OAdd (ECall (EName (u "abs")) [EBin OSub (mean X) (mean Y)]) (EBin OMod (mean X) (EInt 7))) (EUn UNeg (ECall (EName (u "len")) [EBin OAdd (EStr (u "abc")) (mean Z')])).
Proof.
  split; [cbn; repeat split; lia|]. split; [|vm_compute; reflexivity]. cbn [tame calls X Y Z' core atomic]. unfold builtin_ok. repeat split; try discriminate; auto.
  - right. right. left. eauto.
  - right. right. right. left. split; [reflexivity|]. eexists _, _, _. split; [reflexivity|]. repeat constructor.
  - right. left. split; [reflexivity|discriminate].
  - right. left. split; [reflexivity|discriminate].
  - right. right. right. right. split; [reflexivity|]. eexists _, _. repeat split; reflexivity.
  - right. left. split; [reflexivity|discriminate].
Qed.

(** The excluded constructions are really converted wrongly, whatever the variables. *)
Theorem C36_negated_sum_refuted lib x y : let t := CSign true (CSub (CBin OAdd (CVar x) (CVar y))) in
  produced t /\ ~ means (code lib t) t /\
  forall env a b, env x = Some (PI a) -> env y = Some (PI b) -> py_value env (code lib t) (PI (- a + b)) /\ pev env (mean t) = Some (PI (- (a + b))).
Proof.
  cbn zeta. assert (P : py_parse (code lib (CSign true (CSub (CBin OAdd (CVar x) (CVar y))))) (EBin OAdd (EUn UNeg (mean (CVar x))) (mean (CVar y)))) by parse.
  split; [cbn; repeat split; lia|]. split; [apply (not_means _ _ _ P); discriminate|].
  intros env a b Hx Hy. split; [exists (EBin OAdd (EUn UNeg (mean (CVar x))) (mean (CVar y))); split; [exact P|]|]; cbn; rewrite Hx, Hy; reflexivity.
Qed.
Print Assumptions C36_negated_sum_refuted.
Theorem C36_negative_base_refuted lib x y : let t := CBin OPow (CSign true (CVar x)) (CVar y) in
  produced t /\ ~ means (code lib t) t.
Proof.
  cbn zeta. split; [cbn; repeat split; lia|]. eapply not_means; [parse|discriminate].
Qed.
Print Assumptions C36_negative_base_refuted.
(** FoxPro's % binds less tightly than * and /. *)
Theorem C36_modulo_refuted lib x y z : let t := CBin OMod (CVar x) (CBin OMul (CVar y) (CVar z)) in
  produced t /\ ~ means (code lib t) t.
Proof. cbn zeta. split; [cbn; repeat split; lia|]. eapply not_means; [parse|discriminate]. Qed.
Print Assumptions C36_modulo_refuted.
(** Comparing a comparison: Python chains the two. *)
Theorem C36_compared_comparison_refuted lib x y z : let t := CCmp OEq (CSub (CCmp OEq (CVar x) (CVar y))) (CVar z) in
  produced t /\ ~ means (code lib t) t /\ py_parse (code lib t) (ECmp (mean (CVar x)) [(OEq, mean (CVar y)); (OEq, mean (CVar z))]).
Proof. cbn zeta. split; [cbn; repeat split; lia|]. split; [eapply not_means; [parse|discriminate]|parse]. Qed.
Print Assumptions C36_compared_comparison_refuted.
(** An inlined function is not a closed expression: n * AT(x, s) multiplies before adding the 1. *)
Theorem C36_inlined_at_refuted lib n x s : let t := CBin OMul (CVar n) (call "at" [CVar x; CVar s]) in
  forall env k a b, env n = Some (PI k) -> env x = Some (PS a) -> env s = Some (PS b) ->
    py_value env (code lib (call "at" [CVar x; CVar s])) (PI (str_find b a + 1)) /\ py_value env (code lib t) (PI (k * str_find b a + 1)).
Proof.
  cbn zeta. intros env k a b Hn Hx Hs. split.
  - exists (EBin OAdd (ECall (EAttr (mean (CVar s)) (u "find")) [mean (CVar x)]) (EInt 1)). split; [parse|]. cbn. rewrite Hx, Hs. reflexivity.
  - exists (EBin OAdd (EBin OMul (mean (CVar n)) (ECall (EAttr (mean (CVar s)) (u "find")) [mean (CVar x)])) (EInt 1)). split; [parse|].
    cbn. rewrite Hn, Hx, Hs. reflexivity.
Qed.
Print Assumptions C36_inlined_at_refuted.
(** LEFT(x + y, n) cuts y only. *)
Theorem C36_inlined_left_refuted lib x y : forall env a b n, env x = Some (PS a) -> env y = Some (PS b) -> 0 <= n ->
  py_value env (code lib (call "left" [CBin OAdd (CVar x) (CVar y); CInt n])) (PS (a ++ fox_left b n)).
Proof.
  intros env a b n Hx Hy Hn. exists (EBin OAdd (mean (CVar x)) (ESlice (mean (CVar y)) None (Some (EInt n)))). split.
  - change (code lib (call "left" [CBin OAdd (CVar x) (CVar y); CInt n])) with
      ([Id (u "S"); Dot; Id x; Op OAdd; Id (u "S"); Dot; Id y] ++ Lb :: Colon :: repr_int n ++ [Rb]).
    unfold repr_int. destruct (Z.ltb_spec n 0); [lia|]. parse.
  - assert (V : pev env (EBin OAdd (mean (CVar x)) (ESlice (mean (CVar y)) None (Some (EInt n)))) = Some (PS (a ++ py_slice b None (Some n)))) by (cbn; rewrite Hx, Hy; reflexivity).
    rewrite V, py_slice_to by exact Hn. reflexivity.
Qed.
Print Assumptions C36_inlined_left_refuted.

(** * C37: AND, OR and NOT keep their truth value, for every nesting and every valuation of the operands *)
Theorem C37_truth lib t : boolean lib t -> exists e, py_parse (code lib t) e /\ forall rho, py_holds rho e = holds rho t.
Proof. exact (boolean_value lib t). Qed.
Print Assumptions C37_truth.
(* x = 1 AND (y > 2 OR NOT (z AND x < y)) OR NOT z *)
Definition cond := COr (CAnd (CCmp OEq X (CInt 1)) (CSub (COr (CCmp OGt Y (CInt 2)) (CNot (CSub (CAnd Z' (CCmp OLt X Y))))))) (CNot Z').
Example C37_example : boolean (fun _ => false) cond /\
  code (fun _ => false) cond = [Id (u "S"); Dot; Id (u "x"); Op OEq; IntT 1; Op OAnd; Lp; Id (u "S"); Dot; Id (u "y"); Op OGt; IntT 2; Op OOr;
    Not; Lp; Id (u "S"); Dot; Id (u "z"); Op OAnd; Id (u "S"); Dot; Id (u "x"); Op OLt; Id (u "S"); Dot; Id (u "y"); Rp; Rp; Op OOr; Not; Id (u "S"); Dot; Id (u "z")].
Proof. split; [cbn; repeat split; try lia; intros; discriminate|vm_compute; reflexivity]. Qed.
(** NOT a = b: the grammar reads (NOT a) = b, the emitted code negates the comparison (as FoxPro does). *)
Theorem C37_not_comparison lib o a b : cmp_op o = true -> produced a -> tame lib a -> produced b -> tame lib b ->
  (forall s, joined (mean a) <> EStr s) -> match core a with CCmp _ _ _ => False | _ => True end -> match core b with CCmp _ _ _ => False | _ => True end ->
  means (code lib (CCmp o (CNot a) b)) (CNot (CCmp o a b)).
Proof.
  intros Ho Pa Ta Pb Tb Na Ca Cb. destruct (conv_tame lib a Pa Ta false) as (ea & PPa & Ja & Oa). destruct (conv_tame lib b Pb Tb false) as (eb & PPb & Jb & Ob).
  assert (Q : forall t, produced t -> tame lib t -> match core t with CCmp _ _ _ => False | _ => True end -> (5 <= pl t)%nat).
  { clear. induction t as [s|n|s|b| |e IH|m e IH|e IH|o a b IHa IHb|o a b IHa IHb|a b IHa IHb|a b IHa IHb|f l IH] using ctx_ind'; intros P T H; cbn [pl]; try lia; try contradiction.
    - exact (IH P T H).
    - destruct m; [lia|]. destruct T as (T & C & _). pose proof (pl_core lib e T C). lia.
    - destruct P as [P _]. destruct o; try discriminate P; cbn; lia. }
  exists (ENot (ECmp ea [(o, eb)])). split.
  - change (code lib (CCmp o (CNot a) b)) with (bin_code o (repr (VNot (conv lib false (clean a)))) (repr (conv lib false (clean b)))).
    rewrite repr_not. assert (W : wrap 2 (conv lib false (clean a)) = repr (conv lib false (clean a))).
    { unfold wrap. destruct (conv lib false (clean a)) eqn:E; try reflexivity; try discriminate Oa. exfalso. apply (Na s). rewrite <- Ja.
      assert (E' : ea = EStr s) by (apply (Pr_det (pl a) [StrT s] _ _ 13); [apply pl_le|lia|exact PPa|apply Pr_str]). rewrite E'. reflexivity. }
    rewrite W. apply (Pr_parse 3); [lia|]. unfold bin_code. cbn [app]. apply Pr_not. apply (Pr_down 3 4); [lia|lia|].
    apply Pr_cmp; [destruct o; try discriminate Ho; reflexivity|exact (Pr_down 5 (pl a) _ _ (Q a Pa Ta Ca) (pl_le a) PPa)|exact (Pr_down 5 (pl b) _ _ (Q b Pb Tb Cb) (pl_le b) PPb)].
  - cbn [joined mean map fst snd]. rewrite Ja, Jb. reflexivity.
Qed.
Print Assumptions C37_not_comparison.

Example C37_not_comparison_example : code (fun _ => false) (CCmp OEq (CNot X) (CBin OAdd Y (CInt 1))) =
  [Not; Id (u "S"); Dot; Id (u "x"); Op OEq; Id (u "S"); Dot; Id (u "y"); Op OAdd; IntT 1].
Proof. vm_compute. reflexivity. Qed.

(** * C38: x = x op rest emitted as x op= rest *)
Definition target (x : pystr) : list tok := [Id (u "S"); Dot; Id x].
(** The tree of the value that a statement stores: that of its right side, or that of target op (right side) *)
Definition stored (st : stmt) (e : pe) : Prop :=
  match st with
  | SSet _ ts => py_parse ts e
  | SAug tg o ts => exists et er, py_parse tg et /\ py_parse ts er /\ e = EBin o et er
  end.
Definition stores_same (st : stmt) (t : ctx) : Prop := exists e, stored st e /\ joined e = joined (mean t).
Definition aug (o : op) : bool := match o with OAdd | OSub | OMul | ODiv => true | _ => false end.
Lemma pystr_eqb_refl s : pystr_eqb s s = true.
Proof. destruct (pystr_eqb_spec s s); [reflexivity|contradiction]. Qed.
Lemma strip_target x ts : strip (target x) (target x ++ ts) tok_eqb = Some ts.
Proof. cbn. rewrite pystr_eqb_refl. reflexivity. Qed.
Theorem C38_augmented_partial lib x o r : aug o = true -> let t := CBin o (CVar x) r in produced t -> tame lib t ->
  (exists rest, assign (target x) (convert lib t) = SAug (target x) o rest) /\ stores_same (assign (target x) (convert lib t)) t.
Proof.
  intros Ho t P T. pose proof P as (_ & _ & Lb & _ & Pr'). pose proof T as (_ & Tr & Hx).
  assert (C : convert lib t = VCode (bin_code o (target x) (repr (add_parens (clean r) (conv lib false (clean r)))))).
  { unfold convert, t. destruct o; try discriminate Ho; cbn [clean]; reflexivity. }
  assert (A : assign (target x) (convert lib t) = SAug (target x) o (repr (add_parens (clean r) (conv lib false (clean r))))).
  { rewrite C. unfold assign, bin_code. rewrite strip_target. destruct o; try discriminate Ho; reflexivity. }
  split; [eexists; exact A|]. rewrite A.
  assert (L : is_sub r = true \/ (S (level o) <= pl r)%nat).
  { destruct (is_sub r) eqn:Es; [left; reflexivity|right]. destruct (pl_tight lib r Pr' Tr Es) as (_ & T2 & T3 & _).
    unfold t in Lb. destruct o; try discriminate Ho; cbn [tight level] in *; lia. }
  destruct (operand lib false r (S (level o)) (conv_tame lib r Pr' Tr false) ltac:(destruct o; try discriminate Ho; cbn; lia) L) as (er & Per & Jr).
  exists (EBin o (mean (CVar x)) er). split; [|apply joined_bin_cong; [reflexivity|exact Jr]].
  exists (mean (CVar x)), er. split; [apply (Pr_parse 13); [lia|]; exact (Pr_attr [Id (u "S")] _ x (Pr_id _))|]. split; [|reflexivity].
  apply (Pr_parse (S (level o))); [destruct o; try discriminate Ho; cbn; lia|exact Per].
Qed.
Print Assumptions C38_augmented_partial.
(** Any other assignment that stays an assignment is right as well. *)
Theorem C38_plain_partial lib x t ts : produced t -> tame lib t -> assign (target x) (convert lib t) = SSet (target x) ts -> stores_same (SSet (target x) ts) t.
Proof.
  intros P T A. destruct (C36_structure_partial lib t P T) as (e & Pe & J). exists e. split; [|exact J].
  assert (E : ts = code lib t); [|rewrite E; exact Pe]. unfold code. unfold assign in A. destruct (convert lib t) as [n|s|b| |l|a b|a b|a]; try (injection A as <-; reflexivity).
  destruct (strip (target x) l tok_eqb) as [[|k l']|]; try (injection A as <-; reflexivity).
  destruct k; try (injection A as <-; reflexivity). destruct o; try (injection A as <-; reflexivity); discriminate A.
Qed.
Print Assumptions C38_plain_partial.
Example C38_example : assign (target (u "x")) (convert (fun _ => false) (CBin OSub X (CSub (CBin OSub Y (CInt 1))))) =
  SAug (target (u "x")) OSub [Lp; Id (u "S"); Dot; Id (u "y"); Op OSub; IntT 1; Rp].
Proof. vm_compute. reflexivity. Qed.

(** A sum of any length is right too, on integers and on strings: x = x + a + b + ... stores what x += a + b + ... stores. *)
Definition chain (x : pystr) (rs : list ctx) : ctx := fold_left (CBin OAdd) rs (CVar x).
Lemma chain_snoc x rs r : chain x (rs ++ [r]) = CBin OAdd (chain x rs) r.
Proof. unfold chain. rewrite fold_left_app. reflexivity. Qed.
Lemma chain_clean x rs : clean (chain x rs) = fold_left (CBin OAdd) (map clean rs) (CVar x).
Proof. induction rs as [|r rs IH] using rev_ind; [reflexivity|]. rewrite chain_snoc, map_app, fold_left_app. cbn [clean map fold_left]. rewrite IH. reflexivity. Qed.
Definition summand lib (r : ctx) : list tok := repr (add_parens (clean r) (conv lib false (clean r))).
Lemma chain_tokens lib x rs skip :
  conv lib skip (clean (chain x rs)) = VCode (target x ++ flat_map (fun r => Op OAdd :: repr (add_parens (clean r) (conv lib skip (clean r)))) rs).
Proof.
  revert skip. induction rs as [|r rs IH] using rev_ind; intros skip; [reflexivity|]. rewrite chain_snoc. cbn [clean].
  assert (E : extract lib (clean (chain x rs)) = None /\ is_sub (clean (chain x rs)) = false).
  { rewrite chain_clean. clear IH. destruct rs as [|r0 rs _] using rev_ind; [split; reflexivity|]. rewrite map_app, fold_left_app. split; reflexivity. }
  destruct E as [E1 E2].
  assert (Pl : operation OAdd (add_parens (clean (chain x rs)) (conv lib skip (clean (chain x rs)))) (add_parens (clean r) (conv lib skip (clean r))) =
    VCode (target x ++ flat_map (fun r => Op OAdd :: repr (add_parens (clean r) (conv lib skip (clean r)))) (rs ++ [r]))).
  { unfold add_parens at 1. rewrite E2, IH. cbn [operation]. unfold bin_code. rewrite flat_map_app. cbn [flat_map repr]. rewrite app_nil_r, app_assoc. reflexivity. }
  destruct skip; [exact Pl|].
  change (conv lib false (CBin OAdd (clean (chain x rs)) (clean r))) with
    (match extract lib (clean (chain x rs)) with
     | Some l => func_code (ospath "join") (l ++ [conv lib true (clean r)])
     | None => if is_operator (conv lib true (clean (chain x rs))) then func_code (ospath "join") [conv lib true (clean (chain x rs)); conv lib true (clean r)]
               else operation OAdd (add_parens (clean (chain x rs)) (conv lib false (clean (chain x rs)))) (add_parens (clean r) (conv lib false (clean r)))
     end).
  rewrite E1, (IH true). exact Pl.
Qed.
Lemma chain_Pr lib r0 rs : Forall (fun r => produced r /\ tame lib r /\ (is_sub r = true \/ (10 <= pl r)%nat)) (r0 :: rs) ->
  exists e0 es, Pr 9 (summand lib r0 ++ flat_map (fun r => Op OAdd :: summand lib r) rs) (fold_left (EBin OAdd) es e0) /\
    Forall2 (fun e r => joined e = joined (mean r)) (e0 :: es) (r0 :: rs).
Proof.
  intros H. assert (G : forall r, produced r /\ tame lib r /\ (is_sub r = true \/ (10 <= pl r)%nat) -> exists e, Pr 10 (summand lib r) e /\ joined e = joined (mean r)).
  { intros r (P & T & L). exact (operand lib false r 10 (conv_tame lib r P T false) ltac:(lia) L). }
  inversion H as [|? ? H0 Hs]; subst. clear H. destruct (G r0 H0) as (e0 & P0 & J0). exists e0. clear H0.
  induction rs as [|r rs IH] using rev_ind.
  - exists []. split; [|repeat constructor; exact J0]. cbn [flat_map fold_left]. rewrite app_nil_r. exact (Pr_down 9 10 _ _ ltac:(lia) ltac:(lia) P0).
  - apply Forall_app in Hs as [Hs Hr]. inversion Hr as [|? ? Hr' _]; subst. destruct (G r Hr') as (e & Pe & Je).
    destruct (IH Hs) as (es & Ps & Js). exists (es ++ [e]). split.
    + rewrite flat_map_app, fold_left_app. cbn [flat_map fold_left]. rewrite app_nil_r, app_assoc. exact (Pr_bin OAdd _ _ _ _ eq_refl Ps Pe).
    + inversion Js; subst. constructor; [exact J0|]. apply Forall2_app; [assumption|repeat constructor; exact Je].
Qed.
Lemma bin_add_assoc a b c v w : bin OAdd a b = Some v -> bin OAdd v c = Some w -> exists v', bin OAdd b c = Some v' /\ bin OAdd a v' = Some w.
Proof.
  destruct a, b; cbn; try discriminate; injection 1 as <-; destruct c; cbn; try discriminate; injection 1 as <-; eexists; (split; [reflexivity|]); cbn.
  - f_equal. f_equal. lia.
  - rewrite app_assoc. reflexivity.
Qed.
Lemma sum_assoc env es : forall x e0 w, pev env (fold_left (EBin OAdd) (e0 :: es) x) = Some w -> pev env (EBin OAdd x (fold_left (EBin OAdd) es e0)) = Some w.
Proof.
  induction es as [|e es IH] using rev_ind; intros x e0 w; [exact (fun H => H)|].
  change (e0 :: es ++ [e]) with ((e0 :: es) ++ [e]). rewrite !fold_left_app. cbn [fold_left]. cbn [pev].
  change (fold_left (EBin OAdd) es (EBin OAdd x e0)) with (fold_left (EBin OAdd) (e0 :: es) x).
  destruct (pev env (fold_left (EBin OAdd) (e0 :: es) x)) as [v|] eqn:Ev; [|discriminate]. destruct (pev env e) as [c|] eqn:Ec; [|discriminate]. intros Hw.
  specialize (IH x e0 v Ev). cbn [pev] in IH. destruct (pev env x) as [a|]; [|discriminate IH]. destruct (pev env (fold_left (EBin OAdd) es e0)) as [b|]; [|discriminate IH].
  destruct (bin_add_assoc a b c v w IH Hw) as (v' & -> & Hv). exact Hv.
Qed.
Lemma chain_value' env x : forall rs es, Forall2 (fun e r => joined e = joined (mean r)) es rs ->
  pev env (fold_left (EBin OAdd) es (mean (CVar x))) = pev env (mean (chain x rs)).
Proof.
  intros rs. induction rs as [|r rs IH] using rev_ind; intros es H; [inversion H; reflexivity|].
  apply Forall2_app_inv_r in H as (es1 & es2 & H1 & H2 & ->). inversion H2 as [|e ? ? ? He H3]; subst. inversion H3; subst.
  rewrite chain_snoc, fold_left_app. specialize (IH es1 H1). cbn [fold_left]. change (mean (CBin OAdd (chain x rs) r)) with (EBin OAdd (mean (chain x rs)) (mean r)).
  cbn [pev]. rewrite IH. rewrite <- (pev_joined env e), He, pev_joined. reflexivity.
Qed.
Theorem C38_sum_partial lib env x r rs v : let t := chain x (r :: rs) in produced t -> tame lib t -> pev env (mean t) = Some v ->
  exists rest, assign (target x) (convert lib t) = SAug (target x) OAdd rest /\ exists e, stored (SAug (target x) OAdd rest) e /\ pev env e = Some v.
Proof.
  intros t P T V. assert (F : Forall (fun r => produced r /\ tame lib r /\ (is_sub r = true \/ (10 <= pl r)%nat)) (r :: rs)).
  { unfold t in P, T. clear V t. revert P T. generalize (r :: rs) as l. clear. intros l. induction l as [|r l IH] using rev_ind; [constructor|].
    rewrite chain_snoc. intros (_ & _ & Lb & Pa & Pb) (Ta & Tb & _). apply Forall_app. split; [exact (IH Pa Ta)|]. constructor; [|constructor]. split; [exact Pb|split; [exact Tb|]].
    destruct (is_sub r) eqn:Es; [left; reflexivity|right]. destruct (pl_tight lib r Pb Tb Es) as (_ & T2 & T3 & _). cbn [tight] in *. lia. }
  destruct (chain_Pr lib r rs F) as (e0 & es & Pe & J).
  exists (summand lib r ++ flat_map (fun r => Op OAdd :: summand lib r) rs). split.
  - unfold convert, t. rewrite chain_tokens. unfold assign. rewrite strip_target. reflexivity.
  - exists (EBin OAdd (mean (CVar x)) (fold_left (EBin OAdd) es e0)). split.
    + exists (mean (CVar x)), (fold_left (EBin OAdd) es e0). split; [apply (Pr_parse 13); [lia|]; exact (Pr_attr [Id (u "S")] _ x (Pr_id _))|].
      split; [apply (Pr_parse 9); [lia|exact Pe]|reflexivity].
    + apply sum_assoc. rewrite (chain_value' env x (r :: rs) (e0 :: es) J). exact V.
Qed.
Print Assumptions C38_sum_partial.
Example C38_sum_example : let t := chain (u "x") [CStr (u "a"); CSub (CBin OAdd Y (CStr (u "b"))); Y] in
  produced t /\ tame (fun _ => false) t /\
  assign (target (u "x")) (convert (fun _ => false) t) =
    SAug (target (u "x")) OAdd [StrT (u "a"); Op OAdd; Lp; Id (u "S"); Dot; Id (u "y"); Op OAdd; StrT (u "b"); Rp; Op OAdd; Id (u "S"); Dot; Id (u "y")].
Proof. cbn zeta. split; [cbn; repeat split; lia|]. split; [cbn; tauto|vm_compute; reflexivity]. Qed.

(** x = x - a - b becomes x -= a - b, x = x * a + b becomes x *= a + b. *)
Theorem C38_chain_refuted lib x a b : let t := CBin OSub (CBin OSub (CVar x) (CVar a)) (CVar b) in
  produced t /\ tame lib t /\ ~ stores_same (assign (target x) (convert lib t)) t /\
  assign (target x) (convert lib t) = SAug (target x) OSub (target a ++ Op OSub :: target b).
Proof.
  cbn zeta. split; [cbn; repeat split; lia|]. split; [cbn; tauto|].
  assert (A : assign (target x) (convert lib (CBin OSub (CBin OSub (CVar x) (CVar a)) (CVar b))) = SAug (target x) OSub (target a ++ Op OSub :: target b)).
  { cbn. rewrite pystr_eqb_refl. reflexivity. }
  split; [|exact A]. rewrite A. intros (e & (et & er & Pt & Pr' & ->) & J).
  assert (Er : er = EBin OSub (mean (CVar a)) (mean (CVar b))) by (eapply py_parse_det; [exact Pr'|parse]).
  assert (Et : et = mean (CVar x)) by (eapply py_parse_det; [exact Pt|parse]). subst. discriminate J.
Qed.
Print Assumptions C38_chain_refuted.
Theorem C38_product_sum_refuted lib x a b : let t := CBin OAdd (CBin OMul (CVar x) (CVar a)) (CVar b) in
  produced t /\ tame lib t /\ ~ stores_same (assign (target x) (convert lib t)) t /\
  assign (target x) (convert lib t) = SAug (target x) OMul (target a ++ Op OAdd :: target b).
Proof.
  cbn zeta. split; [cbn; repeat split; lia|]. split; [cbn; tauto|].
  assert (A : assign (target x) (convert lib (CBin OAdd (CBin OMul (CVar x) (CVar a)) (CVar b))) = SAug (target x) OMul (target a ++ Op OAdd :: target b)).
  { cbn. rewrite pystr_eqb_refl. reflexivity. }
  split; [|exact A]. rewrite A. intros (e & (et & er & Pt & Pr' & ->) & J).
  assert (Er : er = EBin OAdd (mean (CVar a)) (mean (CVar b))) by (eapply py_parse_det; [exact Pr'|parse]).
  assert (Et : et = mean (CVar x)) by (eapply py_parse_det; [exact Pt|parse]). subst. discriminate J.
Qed.
Print Assumptions C38_product_sum_refuted.

(** * C42: the clean-up of the parse tree *)
(** For every meaning of the operators in which two negations cancel, the value is kept when every chain of signs in the tree amounts
    to what its innermost sign says if that is alone or follows a plus. *)
Theorem C42_value_partial V (I : interp V) t : (forall v, i_neg V I (i_neg V I v) = v) -> signs_ok false t -> value V I (clean t) = value V I t.
Proof. intros N H. apply (clean_value V I N t false H). left; reflexivity. Qed.
Print Assumptions C42_value_partial.
(** For a chain of signs the condition is exact. *)
Fixpoint signed (l : list bool) (e : ctx) : ctx := match l with [] => e | m :: l => CSign m (signed l e) end.
Definition parity (l : list bool) : bool := fold_right xorb false l.
Fixpoint last_kept (l : list bool) : bool :=
  match l with [] => false | [m] => m | [m; m'] => m' && negb m | _ :: l => last_kept l end.
Definition ints (leaf : ctx -> Z) : interp Z :=
  {| i_leaf := leaf; i_neg := Z.opp; i_not := fun v => v; i_bin := fun o a b => match o with OAdd => a + b | OSub => a - b | _ => a * b end;
     i_cmp := fun _ a b => if a =? b then 1 else 0; i_and := Z.mul; i_or := Z.max; i_call := fun _ l => fold_right Z.add 0 l |}.
Theorem C42_signs_exact l x leaf : leaf (CVar x) <> 0 ->
  (value Z (ints leaf) (clean (signed l (CVar x))) = value Z (ints leaf) (signed l (CVar x)) <-> parity l = last_kept l).
Proof.
  intros Hx. assert (M : minuses (signed l (CVar x)) = parity l) by (induction l as [|m l IH]; [reflexivity|]; cbn; rewrite IH; reflexivity).
  assert (B : base (signed l (CVar x)) = CVar x) by (clear; induction l as [|m l IH]; [reflexivity|exact IH]).
  assert (K : kept (signed l (CVar x)) = last_kept l).
  { clear. induction l as [|m [|m' [|m2 l]] IH]; [reflexivity|reflexivity|reflexivity|]. exact IH. }
  rewrite (value_chain Z (ints leaf) Z.opp_involutive (signed l (CVar x))), M, B.
  destruct l as [|m l]; [cbn; tauto|].
  destruct (chain_value Z (ints leaf) (signed (m :: l) (CVar x)) eq_refl) as [V _]. rewrite V, K, B. cbn [clean value i_neg ints i_leaf].
  destruct (last_kept (m :: l)), (parity (m :: l)); cbn [i_neg ints]; split; intros H; try reflexivity; try discriminate H; lia.
Qed.
Print Assumptions C42_signs_exact.
Example C42_example : signs_ok false (CBin OPow (CBin OPow X (CSign true (CSign true Y))) (CSub (CSub (CBin OPow X (CSign true Y))))) /\
  clean (CBin OPow (CBin OPow X (CSign true (CSign true Y))) (CSub (CSub (CBin OPow X (CSign true Y))))) =
  CBin OPow (CSub (CBin OPow X (CSign false (CSign false Y)))) (CBin OPow X (CSign true Y)).
Proof. split; [cbn; tauto|reflexivity]. Qed.
(** So - + x and - - - x lose their minus. *)
Theorem C42_signs_refuted x leaf : leaf (CVar x) <> 0 ->
  value Z (ints leaf) (clean (CSign true (CSign false (CVar x)))) <> value Z (ints leaf) (CSign true (CSign false (CVar x))) /\
  value Z (ints leaf) (clean (CSign true (CSign true (CSign true (CVar x))))) <> value Z (ints leaf) (CSign true (CSign true (CSign true (CVar x)))).
Proof. intros H. cbn. split; lia. Qed.
Print Assumptions C42_signs_refuted.

(** * C39: FOR loops *)
(** A value of the loop head: range(...) *)
Theorem C39_for_partial lib env a b s va vb vs : number lib env a va -> number lib env b vb -> number lib env s vs -> 0 < vs ->
  (exists x y z, map (fun v => repr v) (for_range (convert lib a) (convert lib b) (Some (convert lib s))) = [x; y; z] /\
     py_value env x (PI va) /\ py_value env y (PI (vb + 1)) /\ py_value env z (PI vs) /\ fox_for va vb vs (py_range va (vb + 1) vs)) /\
  (exists x y, map (fun v => repr v) (for_range (convert lib a) (convert lib b) None) = [x; y] /\
     py_value env x (PI va) /\ py_value env y (PI (vb + 1)) /\ fox_for va vb 1 (py_range va (vb + 1) 1)).
Proof.
  intros Ha Hb Hs Hp. assert (N : forall t n, number lib env t n -> py_value env (repr (int_of (convert lib t))) (PI n)).
  { intros t n H. destruct (ti_ok env lib t n H) as (e & P & V). exact (value_of env 11 _ e _ ltac:(lia) P V). }
  assert (Nb : py_value env (repr (plus (int_of (convert lib b)) (VInt 1))) (PI (vb + 1))).
  { unfold convert. destruct (int_of_ok env lib b vb Hb) as [-> | (ts & e & -> & P & V)].
    - cbn [plus repr]. destruct (repr_int_ok env (vb + 1)) as (e & P & V). exact (value_of env 11 _ e _ ltac:(lia) P V).
    - apply (value_of env 9 _ (EBin OAdd e (EInt 1))); [lia| |cbn [pev]; rewrite V; reflexivity].
      exact (Pr_bin OAdd _ _ _ _ eq_refl (Pr_down 9 13 _ _ ltac:(lia) ltac:(lia) P) (Pr_down 10 13 _ _ ltac:(lia) ltac:(lia) (Pr_intt 1))). }
  split.
  - eexists _, _, _. split; [reflexivity|]. repeat split; [exact (N a va Ha)|exact Nb|exact (N s vs Hs)|]. apply for_up; exact Hp.
  - eexists _, _. split; [reflexivity|]. repeat split; [exact (N a va Ha)|exact Nb|]. apply for_up; lia.
Qed.
Print Assumptions C39_for_partial.
(** With a negative step the loop stops too early: the last one or two passes are lost. *)
Theorem C39_negative_step_refuted va vb s : s < 0 -> forall l, fox_for va vb s l -> (exists v, In v l /\ v <= vb + 1) -> l <> py_range va (vb + 1) s.
Proof. exact (for_down va vb s). Qed.
Print Assumptions C39_negative_step_refuted.
Example C39_example : fox_for 1 10 4 [1; 5; 9] /\ py_range 1 (10 + 1) 4 = [1; 5; 9] /\ fox_for 10 7 (-1) [10; 9; 8; 7] /\ py_range 10 (7 + 1) (-1) = [10; 9].
Proof.
  repeat split; try reflexivity; repeat (apply for_step; [lia|lia|cbn]); apply for_end; lia.
Qed.
