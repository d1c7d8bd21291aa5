(** The Python text of what the parser reads is that of the program *)
From Verif Require Import PyBase PyStr M_Do S_Py P_Py M_Lit M_Conv S_Conv P_Conv M_Stmt M_Program M_Show M_Core S_Core P_Core2 S_Funs M_Lexer S_Lexer M_Parse S_Expr P_Parse P_Parse2 P_Parse3 P_Expr P_Expr2 S_Prog P_Prog2 P_Prog3.
From Coq Require Import Lia.
Open Scope Z_scope.

Lemma assign_not : forall x v r, repr v = Not :: r -> assign (var x) v = SSet (var x) (repr v).
Proof. intros x v r E. unfold assign. destruct v; try reflexivity. cbn [repr] in *. subst. reflexivity. Qed.
Lemma value_codes : forall lib t, value_ok lib t -> shaped t -> nots_ok t -> M_Conv.code lib (regrouped t) = M_Conv.code lib t.
Proof. intros lib t (_ & [B | [_ T]]) S0 N; [apply regrouped_code; auto|]. rewrite (tame_regrouped lib t T). reflexivity. Qed.
Lemma assign_regrouped : forall lib x t, boolean lib t \/ produced t /\ tame lib t -> shaped t -> nots_ok t -> assign (var x) (convert lib (regrouped t)) = assign (var x) (convert lib t).
Proof.
  intros lib x t [B | [_ T]]; [|intros _ _; rewrite (tame_regrouped lib t T); reflexivity]. induction t as [s|m|s|b| |e IH|m e IH|e IH|o a IHa b IHb|o a IHa b IHb|a IHa b IHb|a IHa b IHb|f l]; intros S0 N;
    try (cbn [boolean] in B; destruct B as (_ & T & _); rewrite (tame_regrouped lib _ T); reflexivity).
  - cbn [regrouped]. unfold convert. rewrite !conv_clean_sub. apply IH; auto.
  - pose proof (regrouped_code lib (CNot e) S0 B N) as E. change (repr (convert lib (regrouped (CNot e))) = repr (convert lib (CNot e))) in E.
    assert (X : exists r, repr (convert lib (CNot e)) = Not :: r) by (eexists; unfold convert; cbn [clean conv]; reflexivity). destruct X as [r X].
    rewrite (assign_not x _ r) by (rewrite E; exact X). rewrite (assign_not x _ r X), E. reflexivity.
  - pose proof (regrouped_code lib (CAnd a b) S0 B N) as E. unfold M_Conv.code, convert in *. cbn [regrouped clean conv assign] in *. rewrite E. reflexivity.
  - pose proof (regrouped_code lib (COr a b) S0 B N) as E. unfold M_Conv.code, convert in *. cbn [regrouped clean conv assign] in *. rewrite E. reflexivity.
Qed.
Lemma call_shaped : forall n ps t, says n ps t -> forall f l, t = CCall f l -> Forall shaped l.
Proof.
  apply (says_mut (fun n ps t _ => forall f l, t = CCall f l -> Forall shaped l) (fun ps l _ => Forall shaped l)); try discriminate; auto.
  - intros n o f a x b y B _ _ _ _ g l E. destruct B; discriminate E.
  - intros w ps l _ _ IH f l' E. injection E as _ <-. exact IH.
  - intros ps t H _. repeat constructor. apply (says_shaped _ _ _ H).
  - intros ps t qs l H _ _ IH. constructor; [apply (says_shaped _ _ _ H) | exact IH].
Qed.
Section texts.
Variable fns : pystr -> bool.
Variable lib : pystr -> bool.
Variable pr : Z -> bool.
Variable L : list pystr.
Variable W : pystr -> Prop.
Variable F : goal -> pystr -> Prop.
Variable ret : bool.
Lemma value_text : forall ps t, says 0 ps t -> value_ok lib t -> nots_ok t -> expr_text lib pr (regrouped t) = expr_text lib pr t.
Proof. intros ps t H V N. unfold expr_text. rewrite value_codes; auto. apply (says_shaped _ _ _ H). Qed.
Lemma truth_text : forall ps t, says 0 ps t -> truth_ok lib t -> nots_ok t -> expr_text lib pr (regrouped t) = expr_text lib pr t.
Proof. intros ps t H V N. apply (value_text ps); auto. destruct V as [A B]. split; auto. Qed.
Lemma call_same : forall g f l i A, Forall shaped l -> ok lib L W F ret i A (KCall g f l) -> nots (KCall g f l) -> compile lib pr (regroup (KCall g f l)) = compile lib pr (KCall g f l).
Proof.
  intros g f l i A Sh (_ & _ & V) N. cbn [nots] in N.
  assert (E : map repr (map (convert lib) (map regrouped l)) = map repr (map (convert lib) l)).
  { induction l as [|t l IH]; [reflexivity|]. inversion N; inversion V as [|? ? [V1 _] V2]; inversion Sh; subst. cbn [map]. rewrite IH by auto. f_equal. apply value_codes; auto. }
  cbn [regroup compile]. unfold call_text, func_code. rewrite E. reflexivity.
Qed.
Lemma all_shaped : forall ps l, says_all ps l -> Forall shaped l.
Proof. intros ps l H. induction H as [| ps t H | ps t qs l H _ IH]; repeat constructor; auto; eapply says_shaped; eassumption. Qed.
Lemma texts_same :
  (forall ps s, says_line fns ps s -> forall i A, ok lib L W F ret i A s -> nots s -> compile lib pr (regroup s) = compile lib pr s) /\
  (forall ps l, says_lines fns ps l -> forall i A, oks lib L W F ret i A l -> notss l -> compiles lib pr (regroups l) = compiles lib pr l) /\
  (forall k ps o, says_other fns k ps o -> forall i A, oko lib L W F ret i A o -> notso o -> compileo lib pr (regroupo o) = compileo lib pr o) /\
  (forall ps l, says_cases fns ps l -> forall i A, okc lib L W F ret i A l -> notsc l -> compilec lib pr (regroupc l) = compilec lib pr l).
Proof.
  apply says_prog_ind; try reflexivity.
  - (* let *) intros x v t r _ H _ i A (_ & _ & (_ & V) & _) N. cbn [regroup compile]. rewrite assign_regrouped; auto. apply (says_shaped _ _ _ H).
  - (* call *) intros x v f l r _ H _ i A O N. apply (call_same _ _ _ _ _ (call_shaped _ _ _ H f l eq_refl) O N).
  - (* equals *) intros v f l r H _ i A O N. apply (call_same _ _ _ _ _ (call_shaped _ _ _ H f l eq_refl) O N).
  - (* alone *) intros w ps l r _ _ H _ i A O N. apply (call_same _ _ _ _ _ (all_shaped _ _ H) O N).
  - (* do with *) intros d w k ps l r _ _ _ _ _ H _ _ i A O N. apply (call_same _ _ _ _ _ (all_shaped _ _ H) O N).
  - (* if *) intros i0 c t th r a la b lb e r' _ H _ _ IHa _ IHb _ i A (T & _ & Oa & Ob) (N & Na & Nb). change (FIf [Txt (expr_text lib pr (regrouped t))] (compiles lib pr (regroups la)) (compileo lib pr (regroupo lb)) = FIf [Txt (expr_text lib pr t)] (compiles lib pr la) (compileo lib pr lb)). rewrite (truth_text c t), (IHa i A), (IHb i A); auto.
  - (* case *) intros d k r c t la lm o lo e r' _ _ Hc IHc _ IHo _ i A (T & V & Oa & Om & Oo) (N & Na & Nm & No). change (FCase [] (compilec lib pr (regroupc (KOr t la lm))) (compileo lib pr (regroupo lo)) = FCase [] (compilec lib pr (KOr t la lm)) (compileo lib pr lo)). rewrite (IHo i A) by auto.
    specialize (IHc i A (conj T (conj V (conj Oa Om))) (conj N (conj Na Nm))). rewrite IHc. reflexivity.
  - (* while *) intros d w c t r a la e r' _ _ H _ IHa _ i A (T & _ & Oa) (N & Na). change (FWhile [Txt (expr_text lib pr (regrouped t))] (compiles lib pr (regroups la)) = FWhile [Txt (expr_text lib pr t)] (compiles lib pr la)). rewrite (truth_text c t), (IHa true A); auto.
  - (* for *) intros k x from tf m to tt st ts r a la e r' _ _ _ _ _ _ _ IHa _ i A (_ & _ & Nf & _ & Nt & _ & St & _ & _ & Oa) Na. pose (h u v w := [Txt (for_text pr (var (small x)) (for_range (convert lib u) (convert lib v) (option_map (convert lib) w)))]).
    change (FFor (h (regrouped tf) (regrouped tt) (option_map regrouped ts)) (compiles lib pr (regroups la)) = FFor (h tf tt ts) (compiles lib pr la)).
    rewrite (tame_regrouped lib tf) by apply Nf. rewrite (tame_regrouped lib tt) by apply Nt. rewrite (IHa true (small x :: A)); auto. destruct ts as [t|]; [destruct St as (n & -> & _)|]; reflexivity.
  - (* return *) intros w v t r _ H _ i A (_ & V & _) N. cbn [regroup compile]. rewrite (value_text v t); auto.
  - (* answer *) intros w v f l r _ H _ i A O N. apply (call_same _ _ _ _ _ (call_shaped _ _ _ H f l eq_refl) O N).
  - (* cons *) intros p s ps l _ IHs _ IHl i A [Os Ol] [Ns Nl]. change (FCons (compile lib pr (regroup s)) (compiles lib pr (regroups l)) = FCons (compile lib pr s) (compiles lib pr l)). rewrite (IHs i A), (IHl i A); auto.
  - (* other *) intros k w r ps l _ _ IH i A O N. change (FSome (compiles lib pr (regroups l)) = FSome (compiles lib pr l)). rewrite (IH i A); auto.
  - (* cases *) intros w c t r a la ps l _ H _ IHa _ IHl i A (T & _ & Oa & Ol) (N & Na & Nl). change (CCons [Txt (expr_text lib pr (regrouped t))] (compiles lib pr (regroups la)) (compilec lib pr (regroupc l)) = CCons [Txt (expr_text lib pr t)] (compiles lib pr la) (compilec lib pr l)). rewrite (truth_text c t), (IHa i A), (IHl i A); auto.
Qed.
End texts.

Lemma proc_text_same : forall fns lib pr fs G f ps, says_lines fns ps (p_body f) -> body_ok lib fs G f -> notss (p_body f) -> compile_proc lib pr (regroup_proc f) = compile_proc lib pr f.
Proof.
  intros fns lib pr fs G f ps H (_ & _ & _ & _ & _ & _ & O) N. unfold compile_proc, regroup_proc. cbn [p_name p_params p_declared p_body]. rewrite (proj1 (proj2 (texts_same fns lib pr _ _ _ true)) ps (p_body f) H false [] O N). reflexivity.
Qed.
Lemma file_text_same : forall lib pr fs0 G fns ps fs, says_file fns ps fs -> Forall (body_ok lib fs0 G) fs -> Forall (fun f => notss (p_body f)) fs -> map (compile_proc lib pr) (map regroup_proc fs) = map (compile_proc lib pr) fs.
Proof.
  intros lib pr fs0 G fns ps fs H. induction H as [| w x p params v locals b body e ps l K N HP HV HB HE HF IH]; intros O Nt; [reflexivity|]. inversion O; inversion Nt; subst. cbn [map]. rewrite IH by auto. f_equal.
  eapply proc_text_same; eauto.
Qed.
