(** C122: from the characters of a program to the text that is converted, and its functions *)
From Verif Require Import PyBase PyStr M_Lexer S_Lexer P_Lexer P_Lexer2 P_Lexer3 P_Lexer4 M_Prep T_Prep M_Lit M_Conv M_Stmt M_Program M_Show M_Core M_Parse M_ParseProg S_Expr.
From Verif Require Import S_Lexer P_Parse S_Prog P_Prog1 P_Prog2 P_Prog3 P_Prog4 M_Prg S_Prg P_Prg1 P_Prg2 P_Prg3 P_Prg4.
From Verif Require T_Parse.
From Coq Require Import Lia.
Open Scope Z_scope.

(** ** The text that is converted *)
(** Preprocessing gives the text that the directives say: remarks at the ends of lines in lines before them, constants put in, the selected lines; and drops carriage returns. *)
Theorem C122_preprocessed : forall ev src last out d, laid_out src last -> simple src -> expands none src out d -> prep_text ev (text src last) = Some (Ok (text out [])).
Proof. exact text_expanded. Qed.
Print Assumptions C122_preprocessed.

(** What is put in is a text of the same language. *)
Definition ok (p : list layout * piece) : Prop := Forall layout_ok (fst p) /\ piece_ok (snd p).
Definition sound (d : constants) : Prop := forall k v, d k = Some v -> Forall ok v.
Lemma plain_in : forall c s, In c (plain s) -> In c s.
Proof. intros c s I. apply filter_In in I. tauto. Qed.
Lemma plain_layout_ok : forall g, Forall layout_ok g -> Forall layout_ok (plain_layout g).
Proof.
  induction 1 as [|g gs Hg _ IH]; [constructor|]. cbn [plain_layout flat_map]. apply Forall_app. split; [|exact IH]. destruct g as [c | b r].
  - destruct (c =? 13); repeat constructor. exact Hg.
  - constructor; [|constructor]. destruct Hg as [A B]. split; [|exact B]. rewrite forallb_forall in *. intros x I. apply A, plain_in, I.
Qed.
Lemma unblank_ok : forall g, Forall layout_ok g -> Forall layout_ok (unblank g).
Proof. induction 1 as [|g gs Hg H IH]; [constructor|]. cbn [unblank]. destruct g; [exact IH|]. constructor; auto. Qed.
Lemma put_in_ok : forall d l pending, sound d -> Forall layout_ok pending -> Forall ok l -> Forall ok (put_in d pending l).
Proof.
  intros d l pending Sd Hp H. revert pending Hp. induction H as [|[g p] l [A B] _ IH]; intros pending Hp; [constructor|]. cbn [put_in fst snd] in *. assert (Pg := plain_layout_ok g A).
  assert (Own : Forall ok ((pending ++ plain_layout g, p) :: put_in d [] l)) by (constructor; [split; [apply Forall_app; auto|exact B]|apply IH; constructor]).
  destruct p as [w| | | | | |]; auto. destruct (d (small w)) as [[|[g1 q] v]|] eqn:E; auto.
  - apply IH. apply Forall_app; auto.
  - apply Sd in E. inversion E as [|? ? [E1 E2] E3]; subst. cbn [fst snd] in *. constructor; [split; [|exact E2]; cbn [fst]; repeat (apply Forall_app; split); auto using plain_layout_ok|]. apply Forall_app. split; [|apply IH; constructor].
    unfold bare. apply Forall_map. eapply Forall_impl; [|exact E3]. intros [g2 q2] [X Y]. split; [apply plain_layout_ok; exact X|exact Y].
Qed.
Lemma sound_defined : forall d x v, sound d -> Forall ok v -> sound (defined d x (Some v)).
Proof. intros d x v A B k v' E. unfold defined in E. destruct (pystr_eqb k (small x)); [injection E as <-; exact B|apply (A k v' E)]. Qed.
Lemma expands_ok : (forall d src out d', expands d src out d' -> sound d -> Forall ok src -> Forall ok out /\ sound d') /\ (forall d b ob db, else_part d b ob db -> sound d -> Forall ok b -> Forall ok ob /\ sound db).
Proof.
  apply expands_both.
  - intros d H _. split; [constructor|exact H].
  - intros d l g r src out d' Hl Hd Hr _ IH Sd P. apply Forall_app in P as [P1 P2]. inversion P2 as [|? ? [P3 P4] P5]; subst. destruct (IH Sd P5) as [A B]. split; [|exact B]. apply Forall_app. split.
    + destruct r as [r|]; [|constructor]. constructor; [|constructor]. split; [constructor|]. cbn [snd piece_ok] in *. destruct Hr as [R1 R2]. repeat split; intros I; apply plain_in in I; auto.
    + apply Forall_app. split; [|exact A]. apply put_in_ok; auto. apply Forall_app. split; [exact P1|]. constructor; [|constructor]. split; [exact P3|exact I].
  - intros d g s src out d' U _ IH Sd P. inversion P as [|? ? [P3 P4] P5]; subst. destruct (IH Sd P5) as [A B]. split; [|exact B]. constructor; [|exact A]. split; [apply plain_layout_ok; exact P3|]. cbn [snd piece_ok] in *. destruct P4 as (X & Y & Z0). repeat split; intros I; apply plain_in in I; auto.
  - intros d g0 g1 w g2 x v g r src out d' K N Hv Bl _ IH Sd P. inversion P as [|? ? _ P1]; subst. inversion P1 as [|? ? _ P2]; subst. inversion P2 as [|? ? _ P3]; subst. apply Forall_app in P3 as [P3 P4]. inversion P4; subst. apply IH; auto. apply sound_defined; auto.
    destruct P3 as [|[g3 p] v [X Y] Z0]; [constructor|]. cbn [value_of]. constructor; [split; [apply unblank_ok; exact X|exact Y]|exact Z0].
  - intros d g0 g1 w g2 x g r src out d' K N D _ IH Sd P. inversion P as [|? ? _ P1]; subst. inversion P1 as [|? ? _ P2]; subst. inversion P2 as [|? ? _ P3]; subst. inversion P3; subst. apply IH; auto. intros k v E. unfold defined in E. destruct (pystr_eqb k (small x)); [discriminate|apply (Sd k v E)].
  - intros d g0 g1 w g2 x g r d1 a oa da d2 b ob db d3 o h0 h1 e h re src out d' K N _ IHa _ IHb Ke C _ IH Sd P.
    inversion P as [|? ? _ P1]; subst. inversion P1 as [|? ? _ P2]; subst. inversion P2 as [|? ? _ P3]; subst. inversion P3 as [|? ? _ P4]; subst. apply Forall_app in P4 as [Pa P4]. apply Forall_app in P4 as [Pb P4]. inversion P4 as [|? ? _ P5]; subst. inversion P5 as [|? ? _ P6]; subst. inversion P6 as [|? ? _ P7]; subst.
    assert (X : Forall ok o /\ sound d3) by (destruct (d (small x)); destruct C as (-> & -> & ->); auto). destruct X as [X Y]. destruct (IH Y P7). split; [apply Forall_app; auto|auto].
  - intros d H _. split; [constructor|exact H].
  - intros d g0 g1 w g r b ob db K _ IH Sd P. inversion P as [|? ? _ P1]; subst. inversion P1 as [|? ? _ P2]; subst. inversion P2 as [|? ? _ P3]; subst. auto.
Qed.
Definition main_line : source := [([], Word (u "procedure")); ([Blank 32], Word (u "_program_main")); ([], NewLine None)].
Lemma apart_main : forall out, apart out -> apart (main_line ++ out).
Proof. intros out A. cbn [main_line app apart]. split; [left; discriminate|]. split; [right; reflexivity|]. destruct out as [|[g q] out]; [exact I|]. split; [right; reflexivity|exact A]. Qed.
(** Where no two pieces run on, what is put in is laid out, *)
Theorem C122_laid_out : forall src last out d, laid_out src last -> expands none src out d -> apart out -> laid_out (main_line ++ out) [].
Proof.
  intros src last out d (H & _) X A. assert (Hs : Forall ok src) by exact H. assert (Sn : sound none) by discriminate. destruct (proj1 expands_ok _ _ _ _ X Sn Hs) as [O _].
  split; [|split; [constructor|apply apart_main; exact A]]. apply Forall_app. split; [|eapply Forall_impl; [|exact O]; intros p Hp; exact Hp]. repeat (constructor; [split; [repeat constructor|cbn; try exact I; vm_compute; reflexivity]|]). constructor.
Qed.
Print Assumptions C122_laid_out.
(** and what is converted are the functions of the text with the directives done, the main program before them. *)
Theorem C122_reads : forall ev src last out d fs, laid_out src last -> simple src -> expands none src out d -> apart out -> says_file (listed (map p_name fs)) (map snd (main_line ++ out)) fs ->
  read_prg ev (text src last) = Some (map regroup_proc fs).
Proof.
  intros ev src last out d fs H Sm X A Hs. unfold read_prg. rewrite (C122_preprocessed ev src last out d H Sm X). assert (L := C122_laid_out src last out d H X A). rewrite <- (text_read_file _ _ _ L Hs). f_equal.
  
Qed.
Print Assumptions C122_reads.

(** ** What goes wrong *)
(** A line that is continued with a remark after the semicolon: when the remark begins with a name, it becomes a line with a macro. *)
Lemma avoids : forall c r, (fix go (r : rx) : bool := match r with Void | Eps => true | Cls o l => negb (xorb o (within c l)) | Cat a b | Alt a b => go a && go b | Star a => go a end) r = true -> forall t, lang r t -> ~ In c t.
Proof.
  intros c r H t L. revert H. induction L as [|o l d E|a b s t A IHA B IHB|a b s A IH|a b s A IH| |a s t A IHA B IHB]; intros H I0; try (exact I0).
  - destruct I0 as [<-|[]]. unfold within in H. rewrite E in H. discriminate.
  - apply andb_prop in H as [H1 H2]. apply in_app_or in I0 as [I0|I0]; [exact (IHA H1 I0)|exact (IHB H2 I0)].
  - apply andb_prop in H as [H1 H2]. exact (IH H1 I0).
  - apply andb_prop in H as [H1 H2]. exact (IH H2 I0).
  - apply in_app_or in I0 as [I0|I0]; [exact (IHA H I0)|exact (IHB H I0)].
Qed.
Lemma only_macro : forallb (fun p => is_macro (snd p) || match step 38 (step 42 (snd p)) with Void => true | _ => false end) rules = true.
Proof. vm_compute. reflexivity. Qed.
Lemma macro_token : forall c r s, letter c = true -> ~ In 10 r -> tokens (u "*&" ++ c :: r ++ 10 :: s) = ("MACROLINE"%string, u "*&" ++ c :: r) :: tokens (10 :: s).
Proof.
  intros c r s Hc Hr. assert (N10 : c <> 10) by (intros ->; discriminate). assert (Lm : lang R_MACROLINE (u "*&" ++ c :: r)).
  { unfold R_MACROLINE. change (u "*&" ++ c :: r) with ([42] ++ [38] ++ [c] ++ r). apply L_cat; [change [42] with ([42] ++ []); apply L_more; [constructor; reflexivity | apply L_none]|]. apply L_cat; [change (Lit [38]) with (Cls false [(38, 38)]); constructor; reflexivity|].
    apply L_cat; [unfold R_ID; rewrite <- (app_nil_r [c]); apply L_cat; [constructor|apply L_none]|].
    - assert (W := letter_start c Hc). rewrite Bool.xorb_false_l. exact W.
    - clear - Hr. induction r as [|d r IH]; [apply L_none|]. change (d :: r) with ([d] ++ r). apply L_more; [apply L_cls; cbn [existsb fst snd]; assert (d <> 10) by (intros ->; apply Hr; left; reflexivity); replace ((10 <=? d) && (d <=? 10)) with false by lia; reflexivity|apply IH; intros I; apply Hr; right; exact I]. }
  apply (reads_fun (u "*&" ++ c :: r ++ 10 :: s)); [apply tokens_reads|]. change (u "*&" ++ c :: r ++ 10 :: s) with ((u "*&" ++ c :: r) ++ 10 :: s).
  assert (One : forall k' r', In (k', r') rules -> forall y, lang r' (42 :: 38 :: y) -> r' = R_MACROLINE).
  { intros k' r' I y L. assert (V := only_macro). rewrite forallb_forall in V. apply V in I. cbn [snd] in I. unfold is_macro in I. destruct (rx_eq_dec r' R_MACROLINE) as [->|]; [reflexivity|]. cbn [orb] in I.
    apply step_iff, step_iff in L. destruct (step 38 (step 42 r')); try discriminate. destruct (lang_void _ L). }
  constructor; [|apply tokens_reads]. split; [discriminate|]. split; [eauto|]. split.
  - assert (E : exists b a, rules = b ++ ("MACROLINE"%string, R_MACROLINE) :: a /\ forallb (fun p => negb (is_macro (snd p))) b = true).
    { assert (G : forall l, existsb (fun p => String.eqb (fst p) "MACROLINE") l = true -> forallb (fun p => Bool.eqb (String.eqb (fst p) "MACROLINE") (is_macro (snd p))) l = true -> exists b a, l = b ++ ("MACROLINE"%string, R_MACROLINE) :: a /\ forallb (fun p => negb (is_macro (snd p))) b = true).
      { induction l as [|[k x] l IH]; intros E F; [discriminate|]. cbn [existsb forallb fst snd] in *. apply andb_prop in F as [F1 F2]. destruct (String.eqb_spec k "MACROLINE") as [->|Nk].
        - unfold is_macro in F1. destruct (rx_eq_dec x R_MACROLINE) as [->|]; [|discriminate]. exists [], l. split; reflexivity.
        - destruct (IH E F2) as (b & a & -> & Fb). exists ((k, x) :: b), a. split; [reflexivity|]. cbn [forallb snd]. rewrite Fb. destruct (is_macro x); [discriminate|reflexivity]. }
      apply G; vm_compute; reflexivity. }
    destruct E as (b & a & E & F). exists b, R_MACROLINE, a. split; [exact E|]. split; [exact Lm|]. intros k' r' I L. assert (I' : In (k', r') rules) by (rewrite E; apply in_or_app; auto).
    apply (One _ _ I') in L. subst r'. rewrite forallb_forall in F. apply F in I. cbn [snd] in I. unfold is_macro in I. destruct (rx_eq_dec R_MACROLINE R_MACROLINE); [discriminate|contradiction].
  - intros k' r' t' rest' I L E. destruct t' as [|c1 [|c2 t']]; [cbn; lia|cbn; lia|]. cbn [app u] in E. injection E as E1 E2 E. subst c1 c2. assert (Er := One _ _ I _ L). subst r'.
    assert (N : ~ In 10 t') by (intros J; apply (avoids 10 R_MACROLINE) with (t := 42 :: 38 :: t'); [vm_compute; reflexivity|exact L|right; right; exact J]).
    cbn [length u app]. assert (G : forall (a t' rest' : pystr), a ++ 10 :: s = t' ++ rest' -> ~ In 10 t' -> (length t' <= length a)%nat).
    { clear. induction a as [|x a IH]; intros t' rest' E N; destruct t' as [|y t']; try (cbn; lia). - injection E as <- _. destruct N. left; reflexivity. - injection E as <- E. cbn [length]. apply le_n_S. apply (IH t' rest' E). intros J. apply N. right. exact J. }
    specialize (G (c :: r) t' rest' E N). cbn [length] in G. lia.
Qed.
Lemma none_kept : forall l, Forall (fun p => in_line (snd p)) l -> Forall part l -> Forall (kept []) (tk l).
Proof.
  intros l H P. assert (A : agree none []) by (split; [reflexivity|discriminate]). induction P as [|[g p] l (P1 & P2 & P3) _ IH]; inversion H; subst; [constructor|]. cbn [fst snd] in *. rewrite tk_cons. apply Forall_app. split; [exact (layouts_kept none [] g A P1 P3)|].
  apply Forall_app. split; [|auto]. apply (piece_kept none); auto; [destruct p; try exact I; intros k t J; reflexivity | destruct p; reflexivity].
Qed.
Theorem C122_continued_remark_refuted : forall ev l g0 c r g1 p l2 g, let src := l ++ (g0 ++ Continued [] (Some (c :: r)) :: g1, p) :: l2 ++ [(g, NewLine None)] in
  laid_out src [] -> simple l -> simple l2 -> Forall unbroken g0 -> Forall unbroken g1 -> Forall unbroken g -> Forall (fun p => in_line (snd p)) (l ++ (g0, p) :: l2) -> not_directive (l ++ (g0, p) :: l2) ->
  letter c = true -> exists s, prep_text ev (text src []) = Some (Ok (u "*&" ++ c :: plain r ++ 10 :: s)) /\
    tokens (u "*&" ++ c :: plain r ++ 10 :: s) = ("MACROLINE"%string, u "*&" ++ c :: plain r) :: tokens (10 :: s).
Proof.
  intros ev l g0 c r g1 p l2 g src H Sl Sl2 U0 U1 U Hi Nd Hc. assert (H' := H). destruct H as (F & _ & _). unfold src in F. apply Forall_app in F as [F1 F2]. inversion F2 as [|? ? [F3 F4] F5]; subst. apply Forall_app in F5 as [F5 F6]. inversion F6 as [|? ? [F7 _] _]; subst. cbn [fst snd] in *.
  apply Forall_app in F3 as [F3 F8]. inversion F8 as [|? ? F9 F10]; subst. apply Forall_app in Hi as [I1 I2]. inversion I2 as [|? ? I3 I4]; subst. cbn [snd] in *.
  assert (Pp : forall l, Forall (fun p => Forall layout_ok (fst p) /\ piece_ok (snd p)) l -> simple l -> Forall part l). { clear. intros l H Sm. unfold simple in Sm. induction H as [|p l [A B] _ IH]; inversion Sm as [|? ? C D]; subst; constructor; auto. split; [exact A|]. split; [exact B|exact C]. }
  set (l' := l ++ (g0 ++ Continued [] (Some (c :: r)) :: g1, p) :: l2).
  assert (Hl' : Forall (fun p => in_line (snd p) /\ piece_ok (snd p)) l'). { unfold l'. apply Forall_app. split; [|constructor; [split; [exact I3|exact F4]|]].
    - clear - I1 F1. induction F1 as [|q l [A B] _ IH]; inversion I1; subst; constructor; auto.
    - clear - I4 F5. induction F5 as [|q l [A B] _ IH]; inversion I4; subst; constructor; auto. }
  assert (Nd' : not_directive l') by (unfold l'; destruct l as [|[gg q] l]; exact Nd). assert (Esrc : src = l' ++ (g, NewLine None) :: []) by (unfold src, l'; rewrite <- app_assoc; reflexivity).
  unfold prep_text, lines_of_text. rewrite (text_exact src [] H'). cbn [map]. rewrite app_nil_r.
  assert (E : p_plines (S (length (text src []))) (toks src) = Some (PCons (PText (map prep_token ((toks l' ++ map layout_token g ++ comment None) ++ [("NL"%string, [10])]))) PNil, [])).
  { rewrite Esrc at 2. rewrite <- (app_nil_r (toks (l' ++ _))). destruct (start_line l' g None [] [] Hl' Nd') as ((t & z & Es) & Ed). rewrite (text_step _ _ _ _ Es Ed). unfold text_line. rewrite to_end_line by auto. cbn [fst snd toks flat_map app].
    destruct (text src []) as [|x y] eqn:Et; [|reflexivity]. exfalso. rewrite Esrc in Et. rewrite P_Prg2.text_app in Et. apply app_eq_nil in Et as [_ Et]. unfold text in Et. cbn [flat_map fst snd piece_text app] in Et. rewrite app_nil_r in Et. apply app_eq_nil in Et as [Et _]. apply app_eq_nil in Et as [_ Et]. discriminate. }
  rewrite E. cbn [bind skip option_map]. unfold preprocess. cbn [preps prep rbind]. cbn [rmap fst]. rewrite app_nil_r, replace_eq, joined_app.
  assert (A : agree none []) by (split; [reflexivity|discriminate]).
  set (X := map prep_token ((toks l' ++ map layout_token g ++ comment None) ++ [("NL"%string, [10])])).
  assert (EX : X = (tk l ++ map prep_token (map layout_token g0)) ++ [Tok TComment (59 :: u "&&" ++ (c :: r) ++ [10])] ++ (map prep_token (map layout_token g1) ++ map prep_token (piece_all p) ++ tk l2 ++ map prep_token (map layout_token g) ++ [prep_token ("NL"%string, [10])])).
  { unfold X, l', tk. cbn [comment]. rewrite toks_app, toks_cons, !map_app. cbn [map]. rewrite app_nil_r, <- !app_assoc. reflexivity. }
  assert (K1 : Forall (kept []) (tk l ++ map prep_token (map layout_token g0))) by (apply Forall_app; split; [apply none_kept; auto|exact (layouts_kept none [] g0 A F3 U0)]).
  assert (K2 : Forall (kept []) (map prep_token (map layout_token g1) ++ map prep_token (piece_all p) ++ tk l2 ++ map prep_token (map layout_token g) ++ [prep_token ("NL"%string, [10])])).
  { apply Forall_app. split; [exact (layouts_kept none [] g1 A F10 U1)|]. apply Forall_app. split; [apply (piece_kept none); auto; [destruct p; try exact I; intros k t J; reflexivity|destruct p; reflexivity]|].
    apply Forall_app. split; [apply none_kept; auto|]. apply Forall_app. split; [exact (layouts_kept none [] g A F7 U)|]. constructor; [|constructor]. split; [reflexivity|discriminate]. }
  rewrite EX, (hoist_app [] (tk l ++ _)), (hoist_app [] [_]). destruct (kept_all _ _ K1) as [-> _]. destruct (kept_all _ _ K2) as [-> _]. cbn [app]. rewrite app_nil_r.
  assert (Eh : joined (hoist [] [Tok TComment (59 :: u "&&" ++ c :: r ++ [10])]) = u "*&" ++ c :: plain r ++ 10 :: [10]).
  { cbn [hoist flat_map get t_text t_type app joined]. rewrite !app_nil_r. change (u "*") with [42]. cbn [app]. change (skipn 2 (59 :: u "&&" ++ c :: r ++ [10])) with (38 :: c :: r ++ [10]). cbn [app]. rewrite <- app_assoc. cbn [app].
    change (no_cr (42 :: 38 :: c :: r ++ [10; 10])) with (42 :: 38 :: no_cr ([c] ++ r ++ [10; 10])). rewrite !no_cr_app. assert (Ec : no_cr [c] = [c]) by (cbn; destruct (Z.eqb_spec c 13) as [->|]; [discriminate|reflexivity]). rewrite Ec. reflexivity. }
  rewrite Eh. eexists. split.
  - f_equal. f_equal. rewrite <- app_assoc. cbn [app]. rewrite <- app_assoc. reflexivity.
  - apply macro_token; auto. intros J. apply plain_in in J. destruct F9 as [_ F9]. apply F9. right. exact J.
Qed.
Print Assumptions C122_continued_remark_refuted.

(** The last line of a file, when it does not end with a new line, loses the last word of its definition; a file of constants is included without it. *)
Theorem C122_last_definition_refuted : forall ev g0 g1 w g2 x g3 a, let src := [(g0, sym "#"); (g1, Word w); (g2, Word x); (map Blank g3, Number a None)] in
  laid_out src [] -> key w "DEFINE" -> named x ->
  exists ls m, lines_of_text (text src []) = Some ls /\ preps ev [] ls = Ok ([], m) /\ get m (small x) = Some [] /\
    exists ls' m', lines_of_text (text src [] ++ [10]) = Some ls' /\ preps ev [] ls' = Ok ([], m') /\ get m' (small x) = Some [Tok TOther a].
Proof.
  intros ev g0 g1 w g2 x g3 a src H K N. assert (H1 := H).
  assert (Ha : piece_ok (Number a None)) by (destruct H as (A & _); rewrite Forall_forall in A; destruct (A (map Blank g3, Number a None)) as [_ X]; [cbn; auto|exact X]).
  assert (E1 : lines_of_text (text src []) = Some (PCons (PDefine x (map prep_token (map layout_token (map Blank g3)))) PNil)).
  { unfold lines_of_text. rewrite (text_exact src [] H1). cbn [map]. rewrite app_nil_r. destruct (text src []) as [|c0 z0] eqn:Et; [exfalso; assert (Et' := f_equal (@length Z) Et); unfold src, text in Et'; cbn [flat_map fst snd piece_text] in Et'; rewrite !app_length in Et'; cbn in Et'; lia|]. cbn [length].
    rewrite <- (app_nil_r (toks src)). unfold src at 1. rewrite (directive_step _ _ _ _ (directive_toks _ _ _ _ _)). unfold key in K. rewrite K. cbn [existsb String.eqb Ascii.eqb Bool.eqb orb]. rewrite identifier_toks by auto. cbn [bind]. unfold define_line. rewrite toks_cons. cbn [piece_all piece_kind piece_text toks flat_map app]. rewrite !app_nil_r.
    assert (Te : forall l, no_nl l -> to_end l = (l, None)). { clear. induction 1 as [|t l Ht _ IH]; [reflexivity|]. cbn [to_end]. rewrite Ht, IH. reflexivity. }
    rewrite Te by (apply Forall_app; split; [apply layouts_no_nl|repeat constructor]). cbn [snd fst]. unfold seen. rewrite rev_app_distr. cbn [rev app skip hidden existsb String.eqb Ascii.eqb Bool.eqb fst orb]. rewrite rev_involutive, removelast_last. cbn. reflexivity. }
  assert (Hn : laid_out (src ++ [([], NewLine None)]) []).
  { destruct H1 as (A & B & C). split; [apply Forall_app; split; [exact A|repeat constructor]|]. split; [constructor|]. cbn [src app apart] in *. destruct C as (C1 & C2 & C3 & _). repeat split; auto. }
  assert (E2 : lines_of_text (text src [] ++ [10]) = Some (PCons (PDefine x (map prep_token (toks [(map Blank g3, Number a None)] ++ map layout_token [] ++ comment None))) PNil)).
  { replace (text src [] ++ [10]) with (text (src ++ [([], NewLine None)]) []) by (rewrite P_Prg2.text_app; reflexivity). unfold lines_of_text. rewrite (text_exact _ [] Hn). cbn [map]. rewrite app_nil_r. destruct (text (src ++ [([], NewLine None)]) []) as [|c0 [|c1 z0]] eqn:Et.
    1,2: exfalso; assert (Et' := f_equal (@length Z) Et); rewrite P_Prg2.text_app, app_length in Et'; unfold src, text in Et'; cbn [flat_map fst snd piece_text] in Et'; rewrite !app_length in Et'; cbn in Et'; lia.
    cbn [length]. rewrite <- (app_nil_r (toks (src ++ _))). unfold src at 1. cbn [app]. rewrite (directive_step _ _ _ _ (directive_toks _ _ _ _ _)). unfold key in K. rewrite K. cbn [existsb String.eqb Ascii.eqb Bool.eqb orb]. rewrite identifier_toks by auto. cbn [bind]. unfold define_line.
    change (toks [(map Blank g3, Number a None); ([], NewLine None)]) with (toks ([(map Blank g3, Number a None)] ++ ([], NewLine None) :: [])). rewrite to_end_line. 2: { constructor; [|constructor]. split; [exact I|]. exact Ha. }
    cbn [snd fst toks flat_map app p_plines skip bind]. reflexivity. }
  eexists _, _. split; [exact E1|]. cbn [preps prep rbind]. split; [reflexivity|]. rewrite get_set, lower_small. destruct (pystr_eqb_spec (small x) (small x)) as [_|Nx]; [|contradiction]. split.
  { f_equal. unfold trim. assert (D : drop_ws (map prep_token (map layout_token (map Blank g3))) = []) by (clear; induction g3 as [|c g IH]; [reflexivity|exact IH]). rewrite D. reflexivity. }
  eexists _, _. split; [exact E2|]. cbn [preps prep rbind]. split; [reflexivity|]. rewrite get_set, lower_small. destruct (pystr_eqb_spec (small x) (small x)) as [_|Nx]; [|contradiction]. f_equal.
  rewrite (trim_value [(map Blank g3, Number a None)] [] None). 3: constructor. 2: { constructor; [|constructor]. split; [exact I|]. exact Ha. }
  cbn [value_of]. assert (U : unblank (map Blank g3) = []) by (clear; induction g3; [reflexivity|exact IHg3]). rewrite U. unfold tk, toks. cbn. rewrite app_nil_r. reflexivity.
Qed.
Print Assumptions C122_last_definition_refuted.

(** ** An example *)
(*
#DEFINE Limit 10   && most
# define DEBUG
* count
x = 1
DO WHILE x < LIMIT && up
    x = x + ;
      2
ENDDO
#IFDEF debug
y = "at " + "most"
z = limit - x
#ELSE
y = "none"
#ENDIF
#UNDEFINE limit
limit = x
*)
Definition counted : source := [([], sym "#"); ([], Word (u "DEFINE")); ([Blank 32], Word (u "Limit")); ([Blank 32], Number (u "10") None); ([Blank 32; Blank 32; Blank 32], NewLine (Some (u " most"))); ([], sym "#"); ([Blank 32], Word (u "define")); ([Blank 32], Word (u "DEBUG")); ([], NewLine None); ([], Remark (u " count")); ([], Word (u "x")); ([Blank 32], sym "="); ([Blank 32], Number (u "1") None); ([], NewLine None); ([], Word (u "DO")); ([Blank 32], Word (u "WHILE")); ([Blank 32], Word (u "x")); ([Blank 32], sym "<"); ([Blank 32], Word (u "LIMIT")); ([Blank 32], NewLine (Some (u " up"))); ([Blank 32; Blank 32; Blank 32; Blank 32], Word (u "x")); ([Blank 32], sym "="); ([Blank 32], Word (u "x")); ([Blank 32], sym "+"); ([Blank 32; Continued [] None; Blank 32; Blank 32; Blank 32; Blank 32; Blank 32; Blank 32], Number (u "2") None); ([], NewLine None); ([], Word (u "ENDDO")); ([], NewLine None); ([], sym "#"); ([], Word (u "IFDEF")); ([Blank 32], Word (u "debug")); ([], NewLine None); ([], Word (u "y")); ([Blank 32], sym "="); ([Blank 32], Quoted 34 (u "at ")); ([Blank 32], sym "+"); ([Blank 32], Quoted 34 (u "most")); ([], NewLine None); ([], Word (u "z")); ([Blank 32], sym "="); ([Blank 32], Word (u "limit")); ([Blank 32], sym "-"); ([Blank 32], Word (u "x")); ([], NewLine None); ([], sym "#"); ([], Word (u "ELSE")); ([], NewLine None); ([], Word (u "y")); ([Blank 32], sym "="); ([Blank 32], Quoted 34 (u "none")); ([], NewLine None); ([], sym "#"); ([], Word (u "ENDIF")); ([], NewLine None); ([], sym "#"); ([], Word (u "UNDEFINE")); ([Blank 32], Word (u "limit")); ([], NewLine None); ([], Word (u "limit")); ([Blank 32], sym "="); ([Blank 32], Word (u "x")); ([], NewLine None)].
From Verif Require Import T_Prog.
Ltac untouched := let k := fresh in let t := fresh in let I0 := fresh in intros k t I0; vm_compute in I0; repeat (destruct I0 as [I0|I0]; [injection I0 as <- <-; vm_compute; reflexivity|]); destruct I0.
Ltac inline := repeat (apply Forall_cons || apply Forall_nil); try split; try exact I; try untouched; vm_compute; intuition discriminate.
(* a line of n pieces and its end *)
Ltac x_line n := match goal with |- expands ?d ?ps _ _ => let l := part 0%nat n ps in let e := eval cbn [skipn] in (skipn n ps) in match e with (?g, NewLine ?r) :: ?q => refine (X_line d l g r q _ _ _ _ _ _) end end; [inline | key || exact I | vm_compute; intuition discriminate |].
Ltac x_define n := match goal with |- expands ?d ((?g0, _) :: (?g1, Word ?w) :: (?g2, Word ?x) :: ?ps) _ _ => let v := part 0%nat n ps in let e := eval cbn [skipn] in (skipn n ps) in match e with (?g, NewLine ?r) :: ?q => refine (X_define d g0 g1 w g2 x v g r q _ _ _ _ _ _ _) end end; [key | T_Parse.named | inline | repeat constructor |].
Lemma counted_laid : laid_out counted [].
Proof. split; [repeat (apply Forall_cons || apply Forall_nil); piece_fine|]. split; [constructor | between]. Qed.
Example C122_example : exists out d, expands none counted out d /\ laid_out counted [] /\ simple counted /\ apart out /\
  text out [] = flat_map (fun s : string => u s ++ [10]) ["* count"; "x = 1"; "* up"; "DO WHILE x < 10 "; "    x = x + ;"; "      2"; "ENDDO"; "y = ""at "" + ""most"""; "z = 10 - x"; "limit = x"]%string /\
  forall ev, prep_text ev (text counted []) = Some (Ok (text out [])) /\ exists f, read_prg ev (text counted []) = Some [f] /\ p_name f = u "_program_main" /\ says_file (listed [p_name f]) (map snd (main_line ++ out)) [f].
Proof.
  eexists _, _. split.
  { unfold counted. x_define 1%nat. x_define 0%nat. refine (X_remark _ [] _ _ _ _ _ _); [untouched|]. x_line 3%nat. x_line 5%nat. x_line 5%nat. x_line 1%nat.
    match goal with |- expands ?d ((?g0, _) :: (?g1, Word ?w) :: (?g2, Word ?x) :: (?g, NewLine ?r) :: ?ps) _ _ => let a := part 0%nat 12%nat ps in let b := part 12%nat 7%nat ps in let q := eval cbn [skipn] in (skipn 22 ps) in
      refine (X_ifdef d g0 g1 w g2 x g r d a _ _ d b _ _ _ _ [] [] (u "ENDIF") [] None q _ _ _ _ _ _ _ _ _) end; [key | T_Parse.named | | | key | hnf; split; [reflexivity|split; reflexivity] |].
    - x_line 5%nat. x_line 5%nat. apply X_end.
    - refine (E_some _ [] [] (u "ELSE") [] None _ _ _ _ _); [key|]. x_line 3%nat. apply X_end.
    - match goal with |- expands ?d ((?g0, _) :: (?g1, Word ?w) :: (?g2, Word ?x) :: (?g, NewLine ?r) :: ?ps) _ _ => refine (X_undefine d g0 g1 w g2 x g r ps _ _ _ _ _ _) end; [key | T_Parse.named | vm_compute; discriminate|]. x_line 3%nat. apply X_end. }
  split; [exact counted_laid|]. split; [repeat constructor|]. split; [vm_compute; repeat split; first [right; reflexivity | left; discriminate]|]. split; [vm_compute; reflexivity|].
  intros ev. split; [vm_compute; reflexivity|]. eexists. split; [vm_compute; reflexivity|]. split; [reflexivity|].
  match goal with |- says_file _ (map snd (main_line ++ ?out)) _ => change (map snd (main_line ++ out)) with [Word (u "procedure"); Word (u "_program_main"); NewLine None; Remark (u " count"); Word (u "x"); sym "="; Number (u "1") None; NewLine None; Remark (u " up"); Word (u "DO"); Word (u "WHILE"); Word (u "x"); sym "<"; Number (u "10") None; NewLine None; Word (u "x"); sym "="; Word (u "x"); sym "+"; Number (u "2") None; NewLine None; Word (u "ENDDO"); NewLine None; Word (u "y"); sym "="; Quoted 34 (u "at "); sym "+"; Quoted 34 (u "most"); NewLine None; Word (u "z"); sym "="; Number (u "10") None; sym "-"; Word (u "x"); NewLine None; Word (u "limit"); sym "="; Word (u "x"); NewLine None] end.
  match goal with |- says_file ?fns (?w :: ?x :: ?e :: ?b) [{| p_name := _; p_params := _; p_declared := _; p_body := ?body |}] =>
    assert (L : says_lines fns b body); [|assert (X := X_cons fns (u "procedure") (u "_program_main") [e] [] [] [] b body [] [] [] ltac:(key) ltac:(T_Parse.named) (F_none None) V_none L U_none (X_nil fns)); rewrite app_nil_r in X; exact X] end.
  line 1%nat; [apply (L_remark _ (u " count"))|]. line 4%nat; [a_let; leaf|]. line 1%nat; [apply (L_remark _ (u " up"))|]. line 14%nat; [a_do_while 3%nat 6%nat; [oper 3%nat 1%nat (CCmp S_Py.OLt); leaf|line 6%nat; [a_let; oper 4%nat 1%nat (CBin S_Py.OAdd); leaf|apply L_nil]]|].
  line 6%nat; [a_let; oper 4%nat 1%nat (CBin S_Py.OAdd); leaf|]. line 6%nat; [a_let; oper 4%nat 1%nat (CBin S_Py.OSub); leaf|]. line 4%nat; [a_let; leaf|]. apply L_nil.
Qed.
(* x = 1 + ;&&and / 2: the remark after the semicolon becomes the line *&and, and an empty one *)
Example C122_continued_remark_example : forall ev, prep_text ev (u "x = 1 + ;&&and" ++ [10] ++ u "2" ++ [10]) = Some (Ok (u "*&and" ++ [10; 10] ++ u "x = 1 + 2" ++ [10])).
Proof. intros. vm_compute. reflexivity. Qed.
Example C122_last_definition_example : lines_of_text (u "#DEFINE max 10") = Some (PCons (PDefine (u "max") [Tok TWs [32]]) PNil) /\ laid_out [([], sym "#"); ([], Word (u "DEFINE")); ([Blank 32], Word (u "max")); (map Blank [32], Number (u "10") None)] [].
Proof. split; [vm_compute; reflexivity|]. split; [repeat (apply Forall_cons || apply Forall_nil); piece_fine|]. split; [constructor | between]. Qed.
