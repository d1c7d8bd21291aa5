(** How the text of a file of functions is read. *)
From Verif Require Import PyBase PyStr M_Memvar M_Params M_Do S_Py P_Py S_PyEval M_Lit P_Lit M_Stmt S_Stmt P_Stmt T_Stmt M_Program M_Conv S_Conv P_Conv P_Bool S_Inline P_Inline S_For M_Show M_Core P_Fuel S_Lex S_Core P_Lex P_Core1 P_Core2 P_Core3 S_Funs.
Open Scope Z_scope.

Lemma read_text p ts e : Good ts -> py_parse ts e -> read (text p ts) = Some e.
Proof. intros G P. unfold read, text. rewrite (lex_show p Tight ts (proj1 (G Tight (or_introl eq_refl)))). apply parse_spec, P. Qed.
Lemma Good_attr x y ts : id_ok x = true -> Good (Id y :: ts) -> Good (Id x :: Dot :: Id y :: ts).
Proof.
  intros Hx G k Hk. destruct (G Tight (or_introl eq_refl)) as [W E]. cbn [well P_Lex.ends after_tok tok_ok fits] in W, E.
  destruct Hk as [-> | ->]; cbn [well P_Lex.ends after_tok tok_ok fits]; rewrite Hx; (split; [exact W|exact E]).
Qed.
Definition str_ok (s : pystr) : bool := forallb (fun c => (0 <=? c) && (c <=? 1114111)) s.
Lemma name_str x : name_ok x = true -> str_ok x = true.
Proof.
  unfold name_ok. rewrite !andb_true_iff. intros ((((_ & H) & _) & _) & _). apply forallb_forall. rewrite forallb_forall in H. intros c I. specialize (H c I).
  unfold M_Stmt.lower, is_digit in H. rewrite !orb_true_iff, !andb_true_iff in H. apply andb_true_iff. lia.
Qed.
Lemma Good_strs l : Forall (fun x => name_ok x = true) l -> Forall Good (map repr (map VStr l)).
Proof. induction 1 as [|x l Hx _ IH]; constructor; [|exact IH]. cbn [repr]. apply Good_one; [exact (name_str x Hx)|exact I]. Qed.
Lemma Pr_strs l : Forall2 (Pr 0) (map repr (map VStr l)) (map EStr l).
Proof. induction l as [|x l IH]; constructor; [|exact IH]. apply (Pr_down 0 13); [lia|lia|]. apply Pr_str. Qed.
Lemma str_args_map l : str_args (map EStr l) = Some l.
Proof. induction l as [|x l IH]; [reflexivity|]. cbn. rewrite IH. reflexivity. Qed.
Lemma Good_dec l : Forall (fun x => name_ok x = true) l -> Good (repr (func_code [Id (u "lparameters")] (map VStr l))).
Proof. intros H. apply (Good_call0 (u "lparameters")); [reflexivity|apply Good_strs, H]. Qed.
Lemma read_dec p l : Forall (fun x => name_ok x = true) l -> read (strings_call p [Id (u "lparameters")] l) = Some (ECall (EName (u "lparameters")) (map EStr l)).
Proof.
  intros H. apply read_text; [apply Good_dec, H|]. unfold func_code. cbn [repr]. rewrite sep_commas. pose proof (Pr_call [Id (u "lparameters")] _ _ _ (Pr_id (u "lparameters")) (Pr_strs l)) as P. apply Pr_parse in P; [|lia]. exact P.
Qed.
Lemma Good_loc l : Forall (fun x => name_ok x = true) l -> Good (repr (func_code [Id (u "M"); Dot; Id (u "add_local")] (map VStr l))).
Proof. intros H. apply (Good_attr (u "M") (u "add_local")); [reflexivity|]. apply (Good_call0 (u "add_local")); [reflexivity|apply Good_strs, H]. Qed.
Lemma read_loc p l : Forall (fun x => name_ok x = true) l -> read (strings_call p [Id (u "M"); Dot; Id (u "add_local")] l) = Some (ECall (EAttr (EName (u "M")) (u "add_local")) (map EStr l)).
Proof.
  intros H. apply read_text; [apply Good_loc, H|]. unfold func_code. cbn [repr]. rewrite sep_commas.
  pose proof (Pr_call _ _ _ _ (Pr_attr [Id (u "M")] _ (u "add_local") (Pr_id (u "M"))) (Pr_strs l)) as P. apply Pr_parse in P; [|lia]. exact P.
Qed.
Lemma lex_head f : name_ok f = true -> lex (f ++ u "()") = Some [Id f; Lp; Rp].
Proof.
  intros H. pose proof (lex_show (fun _ => true) Tight [Id f; Lp; Rp] ltac:(cbn [well after_tok tok_ok fits]; rewrite (name_id f H); reflexivity)) as L. cbn [show] in L. exact L.
Qed.

Section file.
Variable lib : pystr -> bool.
Variable p : Z -> bool.
Definition py_of (f : proc) : pyfun := {| q_name := p_name f; q_params := p_params f; q_body := block_of (meants [] (f_body (compile_proc lib p f))) |}.
Lemma module_of (l : list proc) : Forall (fun f => lex (p_name f ++ u "()") = Some [Id (p_name f); Lp; Rp] /\ taken (p_name f) = false /\ Forall (fun x => name_ok x = true) (p_params f)) l ->
  py_module (flat_map (fun f => [PSimple (u "@" ++ f_decorator f); PDef (f_name f ++ u "()") (block_of (meants [] (f_body f)))]) (map (compile_proc lib p) l)) = Some (map py_of l).
Proof.
  induction 1 as [|f l (Nf & Tf & Pf) _ IH]; [reflexivity|]. cbn [map flat_map app]. change (u "@" ++ f_decorator (compile_proc lib p f)) with (64 :: strings_call p [Id (u "lparameters")] (p_params f)).
  cbn [py_module]. rewrite (read_dec p _ Pf). change (f_name (compile_proc lib p f)) with (p_name f). rewrite Nf, Tf, str_args_map. change (is_u (u "lparameters") "lparameters") with true. cbn [andb negb].
  cbn [app] in IH. rewrite IH. reflexivity.
Qed.
Lemma strings_line h l : Good (repr (func_code h (map VStr l))) -> one_line (strings_call p h l) /\ is_head (strings_call p h l) = false.
Proof.
  intros G. assert (Ne : repr (func_code h (map VStr l)) <> []) by (intros E; rewrite E in G; destruct (G Tight (or_introl eq_refl)) as [_ W]; discriminate).
  destruct (text_line p _ G Ne) as (O & La & _). split; [exact O|]. unfold is_head. apply Z.eqb_neq. exact La.
Qed.
Lemma loc_line l : Forall (fun x => name_ok x = true) l -> command_line (strings_call p [Id (u "M"); Dot; Id (u "add_local")] l).
Proof. intros H. destruct (strings_line _ l (Good_loc l H)) as [O E]. split; [exact O|]. split; [|exact E]. cbn. split; discriminate. Qed.
Lemma name_line x : name_ok x = true -> one_line x.
Proof.
  unfold name_ok. rewrite !andb_true_iff. intros ((((_ & H) & _) & _) & _) I. rewrite forallb_forall in H. specialize (H 10 I). discriminate.
Qed.
Lemma body_supported fs f L V ret : Forall (fun f => name_ok (p_name f) = true) fs -> one_line (p_name f) -> Forall (fun x => name_ok x = true) (own f) -> oks lib L V (usable fs) ret false [] (p_body f) ->
  func_supported (compile_proc lib p f).
Proof.
  intros Hn Nf Ho O. unfold own in Ho. apply Forall_app in Ho as [Hp Hl]. split.
  - destruct (strings_line _ _ (Good_dec _ Hp)) as [A B]. split; [exact A|]. split; [|exact Nf].
    change (is_head ([64] ++ strings_call p [Id (u "lparameters")] (p_params f)) = false). unfold is_head in *. rewrite last_app_ne; [exact B|]. discriminate.
  - assert (Sp : supporteds true [] (compiles lib p (p_body f))).
    { refine (proj1 (proj2 (core_supported lib p _ _ (usable fs) ret _)) _ false [] O). intros go g [I _]. unfold callable in I. apply in_map_iff in I as (h & <- & I). rewrite Forall_forall in Hn. exact (Hn h I). }
    unfold compile_proc. cbn [f_body]. unfold p_locals in Hl. induction (p_declared f) as [|l ls IH]; [exact Sp|]. cbn [concat] in Hl. apply Forall_app in Hl as [Hl Hs]. cbn [fold_right]. split; [|apply IH, Hs]. split; [apply refs_one|]. rewrite fox_one. apply loc_line, Hl.
Qed.
Lemma proc_supported fs G f : Forall (fun f => name_ok (p_name f) = true) fs -> proc_ok lib fs G f -> func_supported (compile_proc lib p f).
Proof. intros Hn (Nf & Tf & _ & Ho & _ & _ & _ & _ & _ & O). exact (body_supported fs f _ _ _ Hn (name_line _ Nf) Ho O). Qed.
End file.
