(** Proofs about files with remarks between the functions *)
From Verif Require Import PyBase PyStr M_Lexer S_Py M_Lit M_Conv M_Stmt S_Stmt P_Stmt P_Stmt2 P_Stmt3 T_Stmt M_Program M_Show M_Core S_Lexer P_Lexer P_Lexer2 P_Lexer3 P_Lexer4 M_Parse S_Expr P_Parse P_Parse2 P_Parse3 M_ParseProg S_Prog P_Prog1 P_Prog2 P_Prog3 M_Prg M_After S_After.
From Verif Require M_Comment.
From Coq Require Import Lia.
Open Scope Z_scope.

Definition regroup_noted (g : proc * list pystr) : proc * list pystr := (regroup_proc (fst g), snd g).
Lemma remarks_stop : forall n rest, file_rest rest -> (length rest <= n)%nat -> p_remarks n rest = Some ([], rest).
Proof.
  intros n [|t r] F L; [destruct n; reflexivity|]. destruct n as [|n]; [cbn in L; lia|]. destruct F as [K _]. cbn [p_remarks]. unfold one_of, is_kind. rewrite K. reflexivity.
Qed.
Lemma remarks_read : forall c l, says_remarks c l -> Forall piece_ok c -> forall ts rest n, streams c ts -> file_rest rest -> (length (ts ++ rest) <= n)%nat -> p_remarks n (ts ++ rest) = Some (l, rest).
Proof.
  intros c l H. induction H as [|r ps l H IH|s ps l H IH]; intros OK ts rest n R F L.
  - apply streams_nil in R. subst. apply remarks_stop; auto.
  - apply streams_newline in R as (t & ts' & -> & K & X & R). inversion OK; subst. destruct n as [|n]; [cbn in L; lia|]. cbn [app p_remarks]. unfold is_kind at 1. rewrite K. change (String.eqb "NL" "NL") with true. cbn iota.
    rewrite (IH ltac:(assumption) ts' rest n R F) by (cbn [app length] in L; lia). cbn [bind]. rewrite X. reflexivity.
  - inversion OK as [|? ? P OK']; subst. destruct P as (P & _). inversion R as [|p' ps' h ts' R']; subst. cbn [piece_stream] in *. destruct n as [|n]; [cbn in L; lia|]. rewrite <- app_assoc in L |- *. cbn [app p_remarks] in L |- *. unfold is_kind, one_of. cbn [kind existsb]. change (String.eqb "ASTERISK" "NL") with false. cbn iota.
    unfold is_kind. cbn [kind]. rewrite String.eqb_refl. cbn [orb]. rewrite line_text_stream by auto. cbn [bind].
    rewrite (IH OK' ts' rest n R' F) by (cbn [length] in L; rewrite app_length in L; lia). reflexivity.
Qed.
Lemma after_end : forall e c, says_after e c -> forall ts rest, streams e ts -> file_rest rest ->
  exists tc, Forall piece_ok e -> block_end (ts ++ rest) = true /\ undeclared (ts ++ rest) /\
    (forall f : proc, (if next_is "ENDPROC" (ts ++ rest) then bind (line_end (tl (ts ++ rest))) (fun r => Some (f, r)) else Some (f, ts ++ rest)) = Some (f, tc)) /\ p_remarks (length tc) tc = Some (c, rest).
Proof.
  intros e c H ts rest R F. destruct H as [|w r ps l K H].
  - apply streams_nil in R. subst. exists rest. intros _. destruct (read_end [] U_none [] rest (ltac:(constructor)) F) as (A & B & C). split; [exact A|]. split; [exact B|]. split; [exact C|]. apply remarks_stop; auto.
  - apply streams_word in R as (t & ts' & -> & Kt & _ & R). apply streams_newline in R as (n & ts2 & -> & Kn & _ & R). rewrite K in Kt. cbn [app]. exists (ts2 ++ rest). intros OK. split; [|split; [|split]].
    + cbn [block_end]. rewrite (next_other "NL" _ n) by auto. unfold one_of, is_kind. rewrite Kt. reflexivity.
    + apply kind_undeclared. rewrite Kt. cbn. intuition discriminate.
    + intros f. rewrite (next_here "ENDPROC" t) by exact Kt. cbn [tl]. rewrite (line_end_here n) by exact Kn. reflexivity.
    + inversion OK as [|? ? _ OK1]; subst. inversion OK1; subst. apply (remarks_read ps l); auto.
Qed.
Lemma noted_rest : forall fns ps l ts, says_noted fns ps l -> streams ps ts -> file_rest ts.
Proof.
  intros fns ps l ts H R. destruct H as [| w x p params v locals b body e c ps l K N]; [apply streams_nil in R; subst; exact I|].
  apply streams_word in R as (t & ts' & -> & Kt & _ & R). apply streams_word in R as (y & ts2 & -> & Ky & _ & R). split; [rewrite Kt; exact K|]. destruct (named_ident _ y N Ky) as (_ & _ & B & _). exact B.
Qed.
Lemma noted_read : forall fns ps l, says_noted fns ps l -> Forall piece_ok ps -> forall ts n, streams ps ts -> (length ts <= n)%nat -> p_funcs_after fns n ts = Some (map regroup_noted l).
Proof.
  intros fns ps l H. induction H as [| w x p params v locals b body e c ps l K N HP HV HB HE HF IH]; intros OK ts n R L; [apply streams_nil in R; subst; destruct n; reflexivity|].
  inversion OK as [|? ? _ OK1]; subst. inversion OK1 as [|? ? _ OK2]; subst. apply Forall_app in OK2 as [OKp OK2]. apply Forall_app in OK2 as [OKv OK2]. apply Forall_app in OK2 as [OKb OK2]. apply Forall_app in OK2 as [OKe OKs].
  apply streams_word in R as (t & ts1 & -> & Kt & _ & R). apply streams_word in R as (y & ts2 & -> & Ky & X & R). rewrite K in Kt.
  apply streams_app in R as (tp & ts3 & -> & Rp & R). apply streams_app in R as (tv & ts4 & -> & Rv & R). apply streams_app in R as (tb & ts5 & -> & Rb & R). apply streams_app in R as (te & tf & -> & Re & Rf).
  destruct n as [|n]; [cbn in L; lia|]. cbn [p_funcs_after]. unfold p_func_after, p_func. destruct (named_ident _ y N Ky) as (A & _ & _ & _). unfold is_kind at 1. rewrite Kt, A. cbn [String.eqb Ascii.eqb Bool.eqb andb].
  pose proof (noted_rest _ _ _ _ HF Rf) as FR. destruct (after_end e c HE te tf Re FR) as (tc & Q). destruct (Q OKe) as (B & U & E & M). pose proof (lines_undeclared fns b body tb (te ++ tf) HB Rb U) as UB. destruct (read_locals v locals HV OKv tv _ _ Rv UB (le_n _)) as [PL PU].
  pose proof (read_parameters p params HP OKp tp _ Rp PU) as PP. unfold parameters_read in PP. destruct (p_header (tp ++ tv ++ tb ++ te ++ tf)) as [[given r]|]; [|discriminate PP]. cbn [bind] in PP |- *.
  destruct (keyword "NL" r) as [r1|]; [|discriminate PP]. cbn [bind] in PP |- *. rewrite PP. cbn [bind]. rewrite PL. cbn [bind]. rewrite (whole_read fns b body tb (te ++ tf) HB OKb Rb B). cbn [bind]. rewrite E. cbn [bind]. rewrite M. cbn [bind].
  rewrite IH; auto; [|cbn [length] in L; rewrite !app_length in L; lia]. cbn [bind map]. unfold regroup_noted at 1, regroup_proc at 1. cbn [fst snd p_name p_params p_declared p_body]. rewrite X, word_small by apply N. reflexivity.
Qed.
Lemma noted_plain : forall fns ps l, says_noted fns ps l -> exists l', says_noted any_name ps l' /\ map (fun g => p_name (fst g)) l' = map (fun g => p_name (fst g)) l.
Proof.
  intros fns ps l H. induction H as [| w x p params v locals b body e c ps l K N HP HV HB HE HF (l' & I & E)]; [exists []; split; [constructor|reflexivity]|].
  destruct (proj1 (proj2 (says_plain fns)) b body HB) as (body' & B). eexists. split; [eapply Q_cons; eauto|]. cbn [map p_name fst]. rewrite E. reflexivity.
Qed.
Lemma noted_names : forall l, map (fun g => p_name (fst g)) (map regroup_noted l) = map (fun g => p_name (fst g)) l.
Proof. intros l. rewrite map_map. apply map_ext. reflexivity. Qed.
Theorem text_read_after : forall src last l, laid_out src last -> says_noted (listed (map (fun g => p_name (fst g)) l)) (map snd src) l -> read_after (text src last) = Some (map regroup_noted l).
Proof.
  intros src last l H Hs. unfold read_after, parse_after. assert (R := text_streams src last H). pose proof (pieces_ok _ _ H) as OK. destruct (noted_plain _ _ _ Hs) as (l' & Hp & E).
  change (fun _ : pystr => true) with any_name. rewrite (noted_read any_name (map snd src) l' Hp OK _ _ R) by lia. cbn [bind]. rewrite noted_names, E. apply (noted_read (listed (map (fun g => p_name (fst g)) l)) (map snd src) l Hs OK _ _ R). lia.
Qed.
(** Without the remarks *)
Lemma noted_file : forall fns ps l, says_noted fns ps l -> exists ps', says_file fns ps' (map fst l).
Proof.
  intros fns ps l H. induction H as [| w x p params v locals b body e c ps l K N HP HV HB HE HF (ps' & I)]; [exists []; constructor|].
  eexists. cbn [map fst]. eapply (X_cons fns w x p params v locals b body [] ps'); eauto. constructor.
Qed.
(** Python does not see them. *)
Lemma after_shaped : forall l, Forall (fun g => func_supported (fst g) /\ Forall comment_line (snd g)) l ->
  py_reads (add_indents (visit_after [] l) 0) (flat_map (fun f => [PSimple (u "@" ++ f_decorator f); PDef (f_name f ++ u "()") (block_of (meants [] (f_body f)))]) (map fst l)).
Proof.
  intros fs H. apply shaped_reads. assert (J : inv true [] []) by reflexivity. revert J. generalize (@nil Z) at 2 3. intros w J. revert w J.
  induction H as [|[f c] fs [[(Od & Hd & On) P] Cm] _ IH]; intros w J; [exact shaped_nil|]. cbn [fst snd] in *.
  cbn [visit_after map flat_map fst]. rewrite lines_eq. destruct (proj1 (proj2 tree_meant) _ true [] w P J) as [N T].
  pose proof (shaped_lines _ _ (proj1 (proj2 convert_tree) _ w N)) as Sb. rewrite T in Sb. pose proof (inv_lines _ _ _ _ P J) as J1. specialize (IH _ J1).
  apply (shaped_app [Ln (u "@" ++ f_decorator f)] (Ln _ :: Bl _ :: _) [PSimple (u "@" ++ f_decorator f)] (PDef _ _ :: _)).
  - apply shaped_of, shaped_cmd. split; [intros X; apply in_app_or in X as [X|X]; [vm_compute in X; intuition discriminate|exact (Od X)]|]. split; [ground|exact Hd].
  - apply (shaped_app [Ln _; Bl _] (map Ln c ++ visit_after _ fs) [PDef _ _] _); [|apply (shaped_app (map Ln c) _ [] _); [apply comment_bad, Cm|exact IH]]. apply shaped_of.
    replace (u "def " ++ f_name f ++ u "():") with (u "def " ++ (f_name f ++ u "()") ++ u ":") by (rewrite <- app_assoc; reflexivity).
    apply (shaped_head _ _ _ (PDef (f_name f ++ u "()"))); [|apply P_Stmt2.starts_app; ground|apply is_head_colon2|intros; apply clause_def|exact Sb].
    apply wf_head; [apply one_line_u|ground|]. apply one_line_app; [exact On|apply one_line_lit; reflexivity].
Qed.
(** Lines that are not comments are statements. *)
Definition said (c : list pystr) : list pystmt := flat_map (fun l => match l with [] => [] | x :: _ => if x =? 35 then [] else [PSimple l] end) c.
Lemma said_shaped : forall c, Forall (fun l => comment_line l \/ command_line l) c -> shaped (map Ln c) (said c).
Proof.
  intros c H. induction H as [|l c H _ IH]; [exact shaped_nil|]. change (map Ln (l :: c)) with ([Ln l] ++ map Ln c). unfold said. cbn [flat_map]. apply shaped_app; [|exact IH]. destruct H as [H|H].
  - replace (match l with [] => [] | x :: _ => if x =? 35 then [] else [PSimple l] end) with (@nil pystmt); [apply (comment_bad [l]); constructor; [exact H|constructor]|]. destruct H as [_ H]. destruct l as [|x l]; [reflexivity|]. subst x. reflexivity.
  - destruct H as (O & S0 & E). destruct l as [|x l]; [contradiction|]. destruct (Z.eqb_spec x 35) as [->|]; [destruct S0; contradiction|]. apply shaped_of, shaped_cmd. split; [exact O|]. split; [exact S0|exact E].
Qed.
Lemma said_reads : forall l, Forall (fun g => func_supported (fst g) /\ Forall (fun l => comment_line l \/ command_line l) (snd g)) l ->
  py_reads (add_indents (visit_after [] l) 0) (flat_map (fun g => [PSimple (u "@" ++ f_decorator (fst g)); PDef (f_name (fst g) ++ u "()") (block_of (meants [] (f_body (fst g))))] ++ said (snd g)) l).
Proof.
  intros fs H. apply shaped_reads. assert (J : inv true [] []) by reflexivity. revert J. generalize (@nil Z) at 2 3. intros w J. revert w J.
  induction H as [|[f c] fs [[(Od & Hd & On) P] Cm] _ IH]; intros w J; [exact shaped_nil|]. cbn [fst snd] in *.
  cbn [visit_after flat_map fst snd]. rewrite lines_eq. destruct (proj1 (proj2 tree_meant) _ true [] w P J) as [N T].
  pose proof (shaped_lines _ _ (proj1 (proj2 convert_tree) _ w N)) as Sb. rewrite T in Sb. pose proof (inv_lines _ _ _ _ P J) as J1. specialize (IH _ J1).
  apply (shaped_app [Ln (u "@" ++ f_decorator f)] (Ln _ :: Bl _ :: _) [PSimple (u "@" ++ f_decorator f)] (PDef _ _ :: _)).
  - apply shaped_of, shaped_cmd. split; [intros X; apply in_app_or in X as [X|X]; [vm_compute in X; intuition discriminate|exact (Od X)]|]. split; [ground|exact Hd].
  - apply (shaped_app [Ln _; Bl _] (map Ln c ++ visit_after _ fs) [PDef _ _] _); [|apply shaped_app; [apply said_shaped, Cm|exact IH]]. apply shaped_of.
    replace (u "def " ++ f_name f ++ u "():") with (u "def " ++ (f_name f ++ u "()") ++ u ":") by (rewrite <- app_assoc; reflexivity).
    apply (shaped_head _ _ _ (PDef (f_name f ++ u "()"))); [|apply P_Stmt2.starts_app; ground|apply is_head_colon2|intros; apply clause_def|exact Sb].
    apply wf_head; [apply one_line_u|ground|]. apply one_line_app; [exact On|apply one_line_lit; reflexivity].
Qed.
