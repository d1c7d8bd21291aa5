(** C114: whole programs of assignments, IF, DO CASE, DO WHILE, FOR, EXIT, LOOP and comments, from FoxPro to the text that Python reads and runs. *)
From Verif Require Import PyBase PyStr M_Do S_Py P_Py S_PyEval M_Lit P_Lit M_Stmt S_Stmt P_Stmt T_Stmt M_Conv S_Conv P_Conv P_Bool S_Inline P_Inline S_For M_Show M_Core P_Fuel S_Lex S_Core P_Lex P_Core1 P_Core2 P_Core3.
Open Scope Z_scope.

Definition any : pystr -> Prop := fun _ => True.
Definition none : goal -> pystr -> Prop := fun _ _ => False.
(** Without functions: any variable may be used, nothing may be called, and there is no RETURN. *)
Definition core_ok lib l : Prop := oks lib (loops l) any none false false [] l.
Lemma supported_core lib pr l : core_ok lib l -> supporteds true [] (compiles lib pr l).
Proof. exact (proj1 (proj2 (core_supported lib pr (loops l) any none false ltac:(contradiction))) l false []). Qed.

(** The text is a Python program, and only one; run from the same variables, it ends when the FoxPro program ends, without an error, leaving every variable
    as FoxPro leaves it, other than the loop variables; and it goes on when the FoxPro program goes on. *)
Theorem C114_core_partial : forall lib printable l, core_ok lib l ->
  exists p, py_reads (core_text lib printable l) p /\ (forall q, py_reads (core_text lib printable l) q -> q = p) /\
    forall N st, match runs no_calls N l st with
                 | Done st1 f => f = Next /\ exists st2, pruns python N None p st = Some (st2, Normal) /\ forall x, ~ In x (loops l) -> st2 x = st1 x
                 | Running => pruns python N None p st = None
                 | Wrong => True
                 end.
Proof.
  intros lib pr l O. exists (block_of (meants [] (compiles lib pr l))). pose proof (supported_core lib pr l O) as Sp. pose proof (C47_with_partial _ Sp) as R.
  split; [exact R|]. split; [intros q Q; exact (py_reads_unique _ _ _ Q R)|]. intros N st. rewrite (pruns_block python) by reflexivity.
  assert (H : Rel (loops l) any python (fun s => s) (fun _ => True) (fun _ => None) False tt [] (runs no_calls N l st) (pruns python N None (meants [] (compiles lib pr l)) st)).
  { apply (proj1 (proj2 (core_sim lib pr (loops l) any none false no_calls ltac:(contradiction) python (fun x l => (x, l)) (fun s => s) upd (fun _ => True) (fun _ => None) False tt
      ltac:(reflexivity) ltac:(reflexivity) ltac:(reflexivity) ltac:(intros t m v E; cbn; rewrite E; reflexivity) ltac:(intros t m x k E; cbn; rewrite E; reflexivity) ltac:(reflexivity) ltac:(reflexivity)
      ltac:(intros; split; [exact I|reflexivity]) ltac:(intros m x t v _ _ Nx V Hl E; exact (set_runs pr lib m x t v Nx V Hl E)) ltac:(discriminate) ltac:(discriminate) ltac:(contradiction))) l false [] O). split; [exact I|reflexivity]. }
  unfold Rel in H. destruct (runs no_calls N l st) as [s1 f| |] eqn:E; [|destruct H as [H | [[] _]]; exact H|exact I].
  pose proof (proj1 (proj2 (no_signals lib (loops l) any none false no_calls)) l [] O N st s1 f E) as Ef. destruct f; try contradiction; [|discriminate]. split; [reflexivity|].
  destruct H as (s2 & H & (_ & G) & _). exists s2. split; [exact H|]. intros x Nx. symmetry. apply G; [exact I|]. intros J. contradiction.
Qed.
Print Assumptions C114_core_partial.

(** The two runs end, and x differs. *)
Definition differ lib printable l x : Prop := exists p N st st1 st2, py_reads (core_text lib printable l) p /\ runs no_calls N l st = Done st1 Next /\ pruns python N None p st = Some (st2, Normal) /\ st1 x <> st2 x.

(** After a FOR that ran, its variable is one step further in FoxPro. *)
Lemma empty_for x j : forall n N i s s', (n < N)%nat -> n = Z.to_nat (j + 1 - i) -> i <= j + 1 -> 0 <= i -> j < 9007199254740992 -> s x = Some (PI i) -> (i = j + 1 -> s' x = Some (PI j)) ->
  exists s1 s2, do_for N x j 1 (fun s => Done s Next) s = Done s1 Next /\ passes python N (x, py_range i (j + 1) 1) (fun s => Some (s, Normal)) s' = Some (s2, Normal) /\ s1 x = Some (PI (j + 1)) /\ s2 x = Some (PI j).
Proof.
  induction n as [|n IH]; intros N i s s' HN En Hi H0 Hj X Y; (destruct N as [|N]; [lia|]); cbn [do_for passes]; rewrite X.
  - assert (i = j + 1) as -> by lia. destruct (Z.leb_spec (j + 1) j); [lia|]. rewrite py_range_nil by lia. exists s, s'. split; [reflexivity|]. split; [reflexivity|]. split; [exact X|exact (Y eq_refl)].
  - destruct (Z.leb_spec i j); [|lia]. change (1 <? 0) with false. cbn iota. rewrite py_range_cons by lia. cbn [m_next python snd fst]. unfold number53. destruct (Z.leb_spec (Z.abs (i + 1)) 9007199254740992); [|lia].
    apply IH; try lia; [apply upd_same|]. intros E. rewrite upd_same. do 2 f_equal. lia.
Qed.
Theorem C114_loop_variable_refuted : forall lib printable x i j, name_ok x = true -> 0 <= i <= j -> j < 9007199254740992 -> differ lib printable (KCons (KFor x (CInt i) (CInt j) None KNil) KNil) x.
Proof.
  intros lib pr x i j Nx Hi Hj. assert (Ni : forall n, 0 <= n -> number_ok lib (CInt n)) by (intros n Hn; split; [reflexivity|split; [exact Hn|exact I]]).
  assert (Fi : forall n s, 0 <= n < 9007199254740992 -> fox s (CInt n) = Some (PI n)) by (intros n s Hn; cbn [fox]; unfold number53; destruct (Z.leb_spec (Z.abs n) 9007199254740992); [reflexivity|lia]).
  pose (l := KCons (KFor x (CInt i) (CInt j) None KNil) KNil). assert (O : core_ok lib l).
  { split; [|exact I]. split; [exact Nx|]. split; [exact I|]. split; [exact (Ni i ltac:(lia))|]. split; [intros ? []|]. split; [exact (Ni j ltac:(lia))|]. split; [intros ? []|]. split; [exact I|].
    split; [left; reflexivity|]. split; [intros []|exact I]. }
  pose proof (C47_with_partial _ (supported_core lib pr l O)) as R. pose (st := fun _ : pystr => @None pval).
  exists (block_of (meants [] (compiles lib pr l))), (S (Z.to_nat (j + 1 - i))), st.
  destruct (for_reads pr lib x st (CInt i) (CInt j) None i j 1 Nx (Ni i ltac:(lia)) (Ni j ltac:(lia)) I (Fi i st ltac:(lia)) (Fi j st ltac:(lia)) eq_refl) as (Rf & _ & _).
  destruct (empty_for x j _ (S (Z.to_nat (j + 1 - i))) i (upd st x (PI i)) st (Nat.lt_succ_diag_r _) eq_refl ltac:(lia) ltac:(lia) Hj (upd_same _ _ _) ltac:(lia)) as (s1 & s2 & E1 & E2 & X1 & X2).
  exists s1, s2. split; [exact R|]. split; [|split].
  - change (and_then (run no_calls (S (Z.to_nat (j + 1 - i))) (KFor x (CInt i) (CInt j) None KNil) st) (fun s => Done s Next) = Done s1 Next).
    cbn [run]. rewrite !Fi by lia. change (runs no_calls (S (Z.to_nat (j + 1 - i))) KNil) with (fun s => Done s Next). rewrite E1. reflexivity.
  - rewrite (pruns_block python) by reflexivity. change (meants [] (compiles lib pr l)) with (meant [] (compile lib pr (KFor x (CInt i) (CInt j) None KNil)) ++ []). rewrite app_nil_r. cbn [compile meant]. rewrite pruns_one, fox_one, prun_for by reflexivity.
    unfold for_. cbn [m_start python]. rewrite Rf. exact E2.
  - rewrite X1, X2. intros E. injection E as E. lia.
Qed.
Print Assumptions C114_loop_variable_refuted.

Lemma aug_line p x o ts : name_ok x = true -> Good ts -> match o with OAdd | OSub | OMul | ODiv => True | _ => False end -> command_line (stmt_text p (SAug (var x) o ts)).
Proof.
  intros N G Ho. assert (Ne : ts <> []) by (intros ->; destruct (G Tight (or_introl eq_refl)) as [_ W]; discriminate). destruct (text_line p ts G Ne) as (O & La & Nn).
  pose proof (text_line p (var x) (Good_var x N) ltac:(discriminate)) as (Ov & _). cbn [stmt_text]. split; [|split].
  - unfold one_line in *. rewrite !in_app_iff. intros [X | [X | [X | [X|X]]]]; try tauto; destruct o; try contradiction; cbn in X; intuition discriminate.
  - rewrite var_text. cbn. split; discriminate.
  - unfold is_head. rewrite !app_assoc, last_app_ne by exact Nn. apply Z.eqb_neq. exact La.
Qed.
(** x = x - a - b becomes S.x -= a - b. *)
Theorem C114_subtraction_refuted : forall lib printable x a b, name_ok x = true -> 0 <= a <= 4503599627370496 -> 0 < b <= 4503599627370496 ->
  differ lib printable (KCons (KLet x (CBin OSub (CBin OSub (CVar x) (CInt a)) (CInt b))) KNil) x.
Proof.
  intros lib pr x a b Nx Ha Hb. set (t := CBin OSub (CBin OSub (CVar x) (CInt a)) (CInt b)). pose (l := KCons (KLet x t) KNil). pose (st := upd (fun _ => None) x (PI 0)).
  assert (A : assign (var x) (convert lib t) = SAug (var x) OSub [IntT a; Op OSub; IntT b]).
  { change (convert lib t) with (VCode ((var x ++ Op OSub :: repr_int a) ++ Op OSub :: repr_int b)). unfold repr_int. destruct (Z.ltb_spec a 0), (Z.ltb_spec b 0); try lia. unfold assign, var. cbn [strip app tok_eqb].
    assert (E : forall s, pystr_eqb s s = true) by (intros s; destruct (pystr_eqb_spec s s); [reflexivity|contradiction]). rewrite !E. reflexivity. }
  assert (G : Good [IntT a; Op OSub; IntT b]) by (apply (Good_bin OSub [IntT a] [IntT b]); [apply Good_one; [|exact I]; apply Z.leb_le; lia|apply Good_one; [|exact I]; apply Z.leb_le; lia|exact I]).
  assert (V : py_expr st (text pr [IntT a; Op OSub; IntT b]) = Some (PI (a - b))).
  { apply py_expr_text; [exact G|]. apply (value_of st 9 _ (EBin OSub (EInt a) (EInt b))); [lia| |reflexivity].
    exact (Pr_bin OSub _ _ _ _ eq_refl (Pr_down 9 13 _ _ ltac:(lia) ltac:(lia) (Pr_intt a)) (Pr_down 10 13 _ _ ltac:(lia) ltac:(lia) (Pr_intt b))). }
  assert (R : py_reads (core_text lib pr l) (block_of (meants [] (compiles lib pr l)))).
  { apply C47_with_partial. split; [|exact I]. split; [apply refs_one|]. rewrite fox_one, A. exact (aug_line pr x OSub _ Nx G I). }
  exists (block_of (meants [] (compiles lib pr l))), 0%nat, st, (upd st x (PI (0 - a - b))), (upd st x (PI (0 - (a - b)))). split; [exact R|]. split; [|split].
  - change (and_then (run no_calls 0 (KLet x t) st) (fun s => Done s Next) = Done (upd st x (PI (0 - a - b))) Next). cbn [run fox t].
    assert (E : st x = Some (PI 0)) by apply upd_same. rewrite E. unfold number53 at 1 2. destruct (Z.leb_spec (Z.abs a) 9007199254740992), (Z.leb_spec (Z.abs b) 9007199254740992); try lia. cbn [fox_bin]. unfold number53 at 1.
    destruct (Z.leb_spec (Z.abs (0 - a)) 9007199254740992); [|lia]. cbn [fox_bin]. unfold number53. destruct (Z.leb_spec (Z.abs (0 - a - b)) 9007199254740992); [|lia]. reflexivity.
  - rewrite (pruns_block python) by reflexivity. change (meants [] (compiles lib pr l)) with (meant [] (compile lib pr (KLet x t)) ++ []). rewrite app_nil_r. cbn [compile meant]. rewrite pruns_one, fox_one, A. cbn [prun m_run python stmt_text].
    unfold py_run. destruct (not_keyword pr x (u " " ++ u (op_text OSub) ++ u "= " ++ text pr [IntT a; Op OSub; IntT b])) as (-> & -> & ->). rewrite (read_aug pr x OSub _ Nx eq_refl), V.
    assert (E : st x = Some (PI 0)) by apply upd_same. rewrite E. reflexivity.
  - rewrite !upd_same. intros E. injection E as E. lia.
Qed.
Print Assumptions C114_subtraction_refuted.

(** The end of a run, computed *)
Definition ended (r : outcome) (x : pystr) : option pval := match r with Done s Next => s x | _ => None end.
Definition py_ended (r : result python) (x : pystr) : option pval := match r with Some (s, Normal) => s x | _ => None end.
Lemma differ_computed lib pr l x N st a b : supporteds true [] (compiles lib pr l) -> ended (runs no_calls N l st) x = Some a -> py_ended (pruns python N None (block_of (meants [] (compiles lib pr l))) st) x = Some b -> a <> b ->
  differ lib pr l x.
Proof.
  intros Sp A B Ne. exists (block_of (meants [] (compiles lib pr l))), N, st. unfold ended in A. unfold py_ended in B.
  destruct (runs no_calls N l st) as [s1 []| |]; try discriminate. destruct (pruns python N None _ st) as [[s2 []]|]; try discriminate. exists s1, s2. split; [exact (C47_with_partial _ Sp)|]. split; [reflexivity|]. split; [reflexivity|].
  intros E. change (St python) with store in *. congruence.
Qed.
Definition i_ := u "i". Definition n_ := u "n".
Definition zero : store := fun _ => Some (PI 0).
Definition counting : cstmt := KLet n_ (CBin OAdd (CVar n_) (CInt 1)).
Lemma counting_ok lib pr : supported true [] (compile lib pr counting).
Proof.
  split; [apply refs_one|]. rewrite fox_one. apply set_line; [reflexivity| |right; exists OAdd, (CInt 1); split; [reflexivity|exact I]].
  split; [reflexivity|]. right. cbn. repeat split; lia.
Qed.
Lemma small lib n : 0 <= n -> number_ok lib (CInt n).
Proof. intros Hn. split; [reflexivity|split; [exact Hn|exact I]]. Qed.
(** FOR i = 1 TO 3 / i = 3 / n = n + 1 / ENDFOR *)
Theorem C114_assigned_loop_variable_refuted : forall lib printable,
  differ lib printable (KCons (KFor i_ (CInt 1) (CInt 3) None (KCons (KLet i_ (CInt 3)) (KCons counting KNil))) KNil) n_.
Proof.
  intros lib pr. apply (differ_computed lib pr _ n_ 9 zero (PI 1) (PI 3)); [|reflexivity|vm_compute; reflexivity|discriminate].
  split; [|exact I]. split; [apply refs_one|]. rewrite fox_one. split; [apply for_line; [reflexivity|apply small; lia|apply small; lia|exact I]|].
  split; [|split; [apply counting_ok|exact I]]. split; [apply refs_one|]. rewrite fox_one. apply set_line; [reflexivity| |left; discriminate]. split; [reflexivity|]. right. cbn. split; [lia|exact I].
Qed.
Print Assumptions C114_assigned_loop_variable_refuted.
(** FOR i = 3 TO 1 STEP -1 / n = n + 1 / ENDFOR *)
Theorem C114_negative_step_refuted : forall lib printable,
  differ lib printable (KCons (KFor i_ (CInt 3) (CInt 1) (Some (CSign true (CInt 1))) (KCons counting KNil)) KNil) n_.
Proof.
  intros lib pr. apply (differ_computed lib pr _ n_ 9 zero (PI 3) (PI 1)); [|reflexivity|vm_compute; reflexivity|discriminate].
  split; [|exact I]. split; [apply refs_one|]. rewrite fox_one. split; [vm_compute; intuition discriminate|]. split; [apply counting_ok|exact I].
Qed.
Print Assumptions C114_negative_step_refuted.

Definition program : clines := let v (s : string) := CVar (u s) in
  KCons (KLet (u "s") (CInt 0)) (KCons (KLet (u "w") (CStr (u "odd")))
  (KCons (KFor i_ (CInt 1) (CBin OAdd (v "n"%string) (CInt 2)) None
    (KCons (KIf (CCmp OEq (CBin OMod (v "i"%string) (CInt 2)) (CInt 0)) (KCons KLoop KNil) KNone)
    (KCons (KCase (CAnd (CCmp OGt (v "i"%string) (CInt 6)) (CNot (CCmp OEq (v "w"%string) (CStr (u "x"))))) (KCons KExit KNil) (KOr (CCmp OEq (v "i"%string) (CInt 3)) (KCons (KLet (u "w") (CBin OAdd (v "w"%string) (CStr (u "!")))) KNil) KNo)
       (KSome (KCons (KNote [u "# others"]) KNil)))
    (KCons (KLet (u "s") (CBin OAdd (v "s"%string) (CBin OMul (v "i"%string) (v "i"%string)))) KNil))))
  (KCons (KWhile (CCmp OLt (v "s"%string) (CInt 100)) (KCons (KLet (u "s") (CBin OMul (CInt 2) (v "s"%string))) KNil)) KNil))).
Example C114_example : forall lib, core_ok lib program /\
  (let st := upd zero n_ (PI 9) in ended (runs no_calls 20 program st) (u "s") = Some (PI 140) /\ ended (runs no_calls 20 program st) (u "w") = Some (PS (u "odd!"))).
Proof.
  intros lib. split; [|split; vm_compute; reflexivity].
  Ltac seen := let y := fresh in let A := fresh in let B := fresh in intros y B; split; [exact I|]; intros A; vm_compute in A, B; repeat (destruct B as [<-|B]; [(left; reflexivity) || (exfalso; repeat destruct A as [A|A]; discriminate || contradiction)|]); contradiction.
  Ltac fine := split; [reflexivity|]; cbn; repeat split; try lia; try discriminate; try exact I.
  Ltac let_fine := split; [reflexivity|split; [exact I|split; [split; [reflexivity|right; cbn; repeat split; lia]|split; [seen|split; [vm_compute; intuition discriminate|]]]]].
  split; [let_fine; left; discriminate|]. split; [let_fine; left; discriminate|]. split; [|split; [|exact I]].
  - split; [reflexivity|]. split; [exact I|]. split; [apply small; lia|]. split; [seen|]. split; [fine|]. split; [seen|]. split; [exact I|]. split; [left; reflexivity|]. split; [intros []|].
    split; [|split; [|split; [|exact I]]].
    + split; [fine|]. split; [seen|]. split; [split; [reflexivity|exact I]|exact I].
    + split; [fine|]. split; [seen|]. split; [split; [reflexivity|exact I]|]. split; [|split; [|exact I]].
      * split; [fine|]. split; [seen|]. split; [|exact I]. split; [|exact I]. let_fine. right. exists OAdd, (CStr (u "!")). split; [reflexivity|exact I].
      * constructor; [|constructor]. split; [vm_compute; intuition discriminate|reflexivity].
    + let_fine. right. eexists OAdd, _. split; [reflexivity|exact I].
  - split; [fine|]. split; [seen|]. split; [|exact I]. let_fine. left. discriminate.
Qed.
Example C114_example_text : forall lib printable, core_text lib printable program =
  u "S.s = 0" ++ [10] ++
  u "S.w = 'odd'" ++ [10] ++
  u "for S.i in range(1, int(S.n + 2) + 1):" ++ [10] ++
  u "    if S.i % 2 == 0:" ++ [10] ++
  u "        continue" ++ [10] ++
  u "    if S.i > 6 and not S.w == 'x':" ++ [10] ++
  u "        break" ++ [10] ++
  u "    elif S.i == 3:" ++ [10] ++
  u "        S.w += '!'" ++ [10] ++
  u "    else:" ++ [10] ++
  u "        # others" ++ [10] ++
  u "        pass" ++ [10] ++
  u "    S.s += S.i * S.i" ++ [10] ++
  u "while S.s < 100:" ++ [10] ++
  u "    S.s = 2 * S.s".
Proof. intros. vm_compute. reflexivity. Qed.

