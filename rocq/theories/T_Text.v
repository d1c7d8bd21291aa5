(** Property C87: TEXT ... ENDTEXT. *)
From Verif Require Import PyBase PyStr S_Lit P_Lit M_Lit M_Stmt M_Form M_Text.
Open Scope Z_scope.

(** The body as written: its lines, each ended by a line feed, and the blanks in front of ENDTEXT *)
Definition body (ls : list pystr) (tail : pystr) : pystr := flat_map (fun l => l ++ [10]) ls ++ tail.
Definition one_line (l : pystr) : Prop := Forall (fun c => is_break c = false) l.
Definition indent (t : pystr) : Prop := Forall (fun c => c = 32 \/ c = 9) t.
(** What FoxPro stores: the lines with CR LF between them *)
Definition crlf (ls : list pystr) : pystr := M_Lit.join [13; 10] ls.
Definition value (b : pystr) : pystr := fst (text_fn (splitlines b) true).

(** ** Lines *)
Lemma split_line' l r : one_line l -> split_lines [] false (l ++ 10 :: r) = l :: split_lines [] false r.
Proof.
  intros H. enough (G : forall cur, split_lines cur false (l ++ 10 :: r) = (cur ++ l) :: split_lines [] false r) by (apply (G [])).
  induction H as [|c l C F IH]; intros cur; [cbn; rewrite app_nil_r; reflexivity|]. cbn [app split_lines andb]. rewrite C, IH, <- app_assoc. reflexivity.
Qed.
Lemma split_last t : one_line t -> forall cur, split_lines cur false t = match cur ++ t with [] => [] | x => [x] end.
Proof.
  induction 1 as [|c t C F IH]; intros cur; [cbn; rewrite app_nil_r; destruct cur; reflexivity|]. cbn [split_lines andb]. rewrite C, IH, <- app_assoc. reflexivity.
Qed.
Lemma indent_line t : indent t -> one_line t.
Proof. intros H. eapply Forall_impl; [|exact H]. intros c [-> | ->]; reflexivity. Qed.
Lemma splitlines_body ls t : Forall one_line ls -> one_line t -> splitlines (body ls t) = ls ++ match t with [] => [] | _ => [t] end.
Proof.
  unfold splitlines, body. induction 1 as [|l ls L F IH]; intros T; [cbn [flat_map app]; rewrite split_last by exact T; destruct t; reflexivity|].
  cbn [flat_map]. rewrite <- !app_assoc. cbn [app]. rewrite split_line' by exact L. rewrite IH by exact T. reflexivity.
Qed.
(** ** strip *)
Lemma drop_space_all s : Forall (fun c => is_space c = true) s -> drop_space s = [].
Proof. induction 1 as [|c s C F IH]; [reflexivity|]. cbn. rewrite C. exact IH. Qed.
Lemma strip_blank s : Forall (fun c => is_space c = true) s -> strip s = [].
Proof. intros H. unfold strip. rewrite (drop_space_all s) by exact H. reflexivity. Qed.
Lemma indent_blank t : indent t -> Forall (fun c => is_space c = true) t.
Proof. intros H. eapply Forall_impl; [|exact H]. intros c [-> | ->]; reflexivity. Qed.
Lemma drop_space_split s : exists p, s = p ++ drop_space s /\ Forall (fun c => is_space c = true) p.
Proof. induction s as [|c s IH]; [exists []; split; [reflexivity|constructor]|]. cbn. destruct (is_space c) eqn:E; [|exists []; split; [reflexivity|constructor]]. destruct IH as (p & H & F). exists (c :: p). split; [cbn; congruence|constructor; assumption]. Qed.
Lemma strip_split s : exists p q, s = p ++ strip s ++ q /\ Forall (fun c => is_space c = true) p /\ Forall (fun c => is_space c = true) q.
Proof.
  destruct (drop_space_split s) as (p & H & F). destruct (drop_space_split (rev (drop_space s))) as (q & H' & F'). exists p, (rev q). split; [|split; [exact F|apply Forall_rev; exact F']].
  unfold strip. rewrite H at 1. f_equal. apply (f_equal (@rev _)) in H'. rewrite rev_involutive, rev_app_distr in H'. exact H'.
Qed.
Definition ink (s : pystr) : pystr := filter (fun c => negb (is_space c)) s.
Lemma ink_app a b : ink (a ++ b) = ink a ++ ink b.
Proof. apply filter_app. Qed.
Lemma ink_blank s : Forall (fun c => is_space c = true) s -> ink s = [].
Proof. unfold ink. induction 1 as [|c s C F IH]; [reflexivity|]. cbn. rewrite C. exact IH. Qed.
Lemma ink_strip s : ink (strip s) = ink s.
Proof. destruct (strip_split s) as (p & q & E & P & Q). rewrite E at 2. rewrite !ink_app, (ink_blank p P), (ink_blank q Q), app_nil_r. reflexivity. Qed.
Lemma break_space c : is_break c = true -> is_space c = true.
Proof. unfold is_break. rewrite existsb_exists. intros (x & I & E). apply Z.eqb_eq in E. subst x. repeat (destruct I as [<- | I]; [reflexivity|]). destruct I. Qed.
Lemma ink_lines : forall s cur cr, ink (concat (map strip (split_lines cur cr s))) = ink cur ++ ink s \/ (cr = true /\ cur <> []).
Proof.
  induction s as [|c s IH]; intros cur cr.
  - left. cbn. rewrite app_nil_r. destruct cur; [reflexivity|]. cbn [map concat]. rewrite app_nil_r. apply ink_strip.
  - cbn [split_lines]. destruct (cr && (c =? 10)) eqn:E.
    + apply andb_prop in E as [-> E]. apply Z.eqb_eq in E. subst c. destruct cur; [|right; split; [reflexivity|discriminate]]. left. destruct (IH [] false) as [H|[H _]]; [exact H|discriminate].
    + left. destruct (is_break c) eqn:B.
      * cbn [map concat]. rewrite ink_app, ink_strip. replace (ink (c :: s)) with (ink s) by (unfold ink; cbn; rewrite (break_space c B); reflexivity). f_equal. destruct (IH [] (c =? 13)) as [H|[_ H]]; [exact H|congruence].
      * destruct (IH (cur ++ [c]) false) as [H|[H _]]; [|discriminate]. rewrite H, ink_app, <- app_assoc, <- ink_app. reflexivity.
Qed.

(** ** The property *)
(** The value is made of the lines without the blanks round them *)
Theorem C87_value ls t : Forall one_line ls -> indent t -> value (body ls t) = concat (map strip ls).
Proof.
  intros L T. unfold value. cbn [text_fn fst]. rewrite splitlines_body by (try exact L; apply indent_line; exact T). rewrite map_app, concat_app. replace (concat (map strip match t with [] => [] | _ => [t] end)) with (@nil Z); [apply app_nil_r|].
  destruct t as [|c t]; [reflexivity|]. cbn [map concat]. rewrite strip_blank by (apply indent_blank; exact T). reflexivity.
Qed.
(** A single line without blanks round it is stored as it is *)
Theorem C87_one_line_partial l t : one_line l -> indent t -> strip l = l -> value (body [l] t) = crlf [l].
Proof. intros L T S. rewrite C87_value by (try constructor; try assumption; constructor). cbn. rewrite S. apply app_nil_r. Qed.
(** Every character that is not a blank is kept, in order *)
Theorem C87_characters b : ink (value b) = ink b.
Proof. unfold value. cbn [text_fn fst]. destruct (ink_lines b [] false) as [H|[H _]]; [exact H|discriminate]. Qed.
(** Two or more lines never give the text written: the line ends are lost *)
Lemma strip_sub s c : In c (strip s) -> In c s.
Proof. intros I. destruct (strip_split s) as (p & q & E & _). rewrite E. apply in_or_app. right. apply in_or_app. left. exact I. Qed.
Lemma line_no_break l : one_line l -> ~ In 10 l.
Proof. intros F I. unfold one_line in F. rewrite Forall_forall in F. specialize (F 10 I). discriminate. Qed.
Theorem C87_lines_refuted ls t : Forall one_line ls -> indent t -> (2 <= length ls)%nat -> value (body ls t) <> crlf ls.
Proof.
  intros L T N E. rewrite C87_value in E by assumption. assert (I : In 10 (crlf ls)). { destruct ls as [|a [|b ls]]; [cbn in N; lia|cbn in N; lia|]. unfold crlf. cbn [M_Lit.join]. apply in_or_app. right. right. left. reflexivity. }
  rewrite <- E in I. apply in_concat in I as (x & I1 & I2). apply in_map_iff in I1 as (l & <- & I1). apply strip_sub in I2. rewrite Forall_forall in L. exact (line_no_break l (L l I1) I2).
Qed.
(** Nor does a line with blanks at either end *)
Lemma drop_space_hd s : match drop_space s with c :: _ => is_space c = false | [] => True end.
Proof. induction s as [|c s IH]; [exact I|]. cbn. destruct (is_space c) eqn:E; [exact IH|exact E]. Qed.
Theorem C87_blanks_refuted l c t : one_line l -> indent t -> is_space c = true -> one_line [c] ->
  value (body [c :: l] t) <> crlf [c :: l] /\ value (body [l ++ [c]] t) <> crlf [l ++ [c]].
Proof.
  intros L T S C. split; intros E; (rewrite C87_value in E; [|constructor; [|constructor]|exact T]); cbn [map concat crlf M_Lit.join] in E; rewrite ?app_nil_r in E.
  - unfold strip in E. pose proof (drop_space_hd (rev (drop_space (c :: l)))) as H. cbn [drop_space] in E. rewrite S in E.
    assert (X : (length (rev (drop_space (rev (drop_space l)))) <= length l)%nat).
    { rewrite rev_length. destruct (drop_space_split (rev (drop_space l))) as (p & H1 & _). apply (f_equal (@length _)) in H1. rewrite app_length, rev_length in H1. destruct (drop_space_split l) as (q & H2 & _). apply (f_equal (@length _)) in H2. rewrite app_length in H2. lia. }
    rewrite E in X. cbn in X. lia.
  - inversion C; subst. constructor; assumption.
  - assert (X : (length (strip (l ++ [c])) <= length l)%nat).
    { unfold strip. rewrite rev_length. destruct (drop_space_split (l ++ [c])) as (q & H2 & FQ). revert H2. generalize (drop_space (l ++ [c])) as w. intros w H2. destruct w as [|d w _] using rev_ind; [cbn; lia|].
      rewrite rev_app_distr. rewrite app_assoc in H2. apply app_inj_tail in H2 as [H2 <-]. cbn [rev app drop_space]. rewrite S. destruct (drop_space_split (rev w)) as (p & H1 & _). apply (f_equal (@length _)) in H1. rewrite app_length, rev_length in H1. apply (f_equal (@length _)) in H2. rewrite app_length in H2. lia. }
    rewrite E, app_length in X. cbn in X. lia.
  - apply Forall_app. split; assumption.
Qed.
(** The code passes the lines of the body, and is printed unless NOSHOW is given; nothing but the variable named changes *)
Theorem C87_code printable t b : Forall (fun c => 0 <= c <= 1114111) b -> exists reprs,
  text_code printable t b = match t_to t with Some n => n ++ u " = " | None => [] end ++ u "vfpfunc.text([" ++ M_Lit.join [44; 10] reprs ++ u "]" ++ (if t_noshow t then u ", show=False" else []) ++ u ")" /\
  Forall2 (fun r l => string_literal true r = Some l) reprs (splitlines b).
Proof.
  intros H. exists (map (str_repr printable) (splitlines b)). split.
  - unfold text_code, make_func_code, lines_code. destruct (t_noshow t), (t_to t); cbn [M_Lit.join]; rewrite <- ?app_assoc; reflexivity.
  - assert (G : forall cur cr, Forall (fun c => 0 <= c <= 1114111) cur -> Forall (Forall (fun c => 0 <= c <= 1114111)) (split_lines cur cr b)).
    { induction H as [|c s C F IH]; intros cur cr HC; cbn [split_lines]; [destruct cur; [constructor|constructor; [exact HC|constructor]]|]. destruct (cr && (c =? 10)); [apply IH; constructor|]. destruct (is_break c); [constructor; [exact HC|apply IH; constructor]|]. apply IH, Forall_app. split; [exact HC|constructor; [exact C|constructor]]. }
    specialize (G [] false ltac:(constructor)). unfold splitlines. induction G as [|l ls L F IH]; [constructor|]. cbn [map]. constructor; [|exact IH]. apply repr_reads; [exact L|left; reflexivity].
Qed.
Theorem C87_effect t b env : let (env', out) := run_text t b env in
  out = (if t_noshow t then None else Some (value b)) /\
  (forall n, t_to t = Some n -> env' n = Some (value b)) /\ (forall x, t_to t <> Some x -> env' x = env x).
Proof.
  unfold run_text, value. cbn [text_fn fst]. destruct (t_noshow t), (t_to t) as [n|]; cbn; (split; [reflexivity|split; [intros m E; try discriminate; injection E as <-; destruct (pystr_eqb_spec n n); congruence|intros x N; try reflexivity; destruct (pystr_eqb_spec x n); congruence]]).
Qed.
(** ADDITIVE: the old text is lost *)
Theorem C87_additive_refuted n noshow merge b env old : env n = Some old -> old <> [] -> fst (run_text (Clauses (Some n) true merge noshow) b env) n <> Some (old ++ value b).
Proof.
  intros E N. unfold run_text, value. cbn [text_fn fst t_to]. destruct (pystr_eqb_spec n n); [|congruence]. intros X. injection X as X. apply (f_equal (@length _)) in X. rewrite app_length in X. destruct old; [congruence|]. cbn in X. lia.
Qed.
(** TEXTMERGE: an expression in the text is not replaced by its value *)
Theorem C87_merge_refuted n additive noshow a e z v env : let l := a ++ u "<<" ++ e ++ u ">>" ++ z in
  one_line l -> strip l = l -> length v <> (length e + 4)%nat -> fst (run_text (Clauses (Some n) additive true noshow) (body [l] []) env) n <> Some (a ++ v ++ z).
Proof.
  intros l L S N. assert (V : value (body [l] []) = l) by (apply (C87_one_line_partial l []); [exact L|constructor|exact S]).
  unfold run_text. unfold value in V. cbn [text_fn fst] in V |- *. cbn [t_to]. rewrite V. cbn [fst]. destruct (pystr_eqb_spec n n); [|congruence]. intros X. injection X as X. apply (f_equal (@length _)) in X. unfold l in X. rewrite !app_length in X. cbn in X. lia.
Qed.
(** ** Where the body ends *)
(** A text as words and what is between them; & is left out as it may start a comment *)
Definition word (w : pystr) : Prop := Forall (fun c => name_char c = true) w /\ match w with c :: _ => starts_name c = true | [] => False end.
Definition stops (s : pystr) : Prop := match s with c :: _ => name_char c = false | [] => True end.
Definition gap (g : pystr) : Prop := Forall (fun c => starts_name c = false /\ c <> 38) g.
Definition between (g : pystr) : Prop := gap g /\ g <> [] /\ stops g.
Definition ends (w : pystr) : Prop := In (map lower1 w) end_words.
Lemma name_run_word w r : Forall (fun c => name_char c = true) w -> stops r -> name_run (w ++ r) = w.
Proof.
  intros F S. induction F as [|c w C F IH]; cbn [app name_run]; [destruct r as [|c r]; [reflexivity|cbn in S |- *; rewrite S; reflexivity]|]. rewrite C, IH. reflexivity.
Qed.
Lemma ends_spec w : existsb (pystr_eqb (map lower1 w)) end_words = true <-> ends w.
Proof. unfold ends. rewrite existsb_exists. split; [intros (x & I & E); destruct (pystr_eqb_spec (map lower1 w) x); [subst; exact I|discriminate]|intros I; eexists; split; [exact I|]; destruct (pystr_eqb_spec (map lower1 w) (map lower1 w)); congruence]. Qed.
Definition after (p : pystr) (o : option (pystr * pystr)) : option (pystr * pystr) := match o with Some (t, r) => Some (p ++ t, r) | None => None end.
Lemma after_app p q o : after p (after q o) = after (p ++ q) o.
Proof. destruct o as [[t r]|]; cbn; [rewrite app_assoc|]; reflexivity. Qed.
Lemma scan_skip p : forall s, chunk_end (p ++ s) (length p) false = after p (chunk_end s 0 false).
Proof. induction p as [|c p IH]; intros s; [cbn; destruct (chunk_end s 0 false) as [[t r]|]; reflexivity|]. cbn [app length chunk_end]. rewrite IH. destruct (chunk_end s 0 false) as [[t r]|]; reflexivity. Qed.
Lemma scan_gap g s : gap g -> chunk_end (g ++ s) 0 false = after g (chunk_end s 0 false).
Proof.
  induction 1 as [|c g [C N] F IH]; [cbn; destruct (chunk_end s 0 false) as [[t r]|]; reflexivity|]. cbn [app chunk_end]. rewrite C. replace (prefixb (u "&&") (c :: g ++ s)) with false.
  - rewrite IH. destruct (chunk_end s 0 false) as [[t r]|]; reflexivity.
  - symmetry. apply not_true_is_false. rewrite prefixb_spec. intros (t & E). injection E as E _. congruence.
Qed.
Lemma scan_word w s : word w -> stops s -> ~ ends w -> chunk_end (w ++ s) 0 false = after w (chunk_end s 0 false).
Proof.
  intros [F H] S N. destruct w as [|c w]; [contradiction|]. cbn [app chunk_end]. rewrite H. change (c :: w ++ s) with ((c :: w) ++ s). rewrite name_run_word by assumption.
  destruct (existsb (pystr_eqb (map lower1 (c :: w))) end_words) eqn:E; [exfalso; apply N, ends_spec; exact E|]. cbn [length]. rewrite Nat.sub_succ, Nat.sub_0_r, scan_skip. destruct (chunk_end s 0 false) as [[t r]|]; reflexivity.
Qed.
Lemma scan_end w s : word w -> stops s -> ends w -> chunk_end (w ++ s) 0 false = Some ([], s).
Proof.
  intros [F H] S N. destruct w as [|c w]; [contradiction|]. cbn [app chunk_end]. rewrite H. change (c :: w ++ s) with ((c :: w) ++ s). rewrite name_run_word by assumption. rewrite (proj2 (ends_spec _) N).
  rewrite skipn_app, skipn_all, Nat.sub_diag. reflexivity.
Qed.
(** The body ends at the first word that is ENDTEXT or an abbreviation of it *)
Theorem C87_end_partial g ps w rest : gap g -> Forall (fun '(v, h) => word v /\ ~ ends v /\ between h) ps -> word w -> ends w -> stops rest ->
  let b := g ++ flat_map (fun '(v, h) => v ++ h) ps in text_chunk (b ++ w ++ rest) = Some (b, rest).
Proof.
  intros G P W E S b. unfold text_chunk, b. rewrite <- app_assoc, scan_gap by exact G. replace (chunk_end (flat_map (fun '(v, h) => v ++ h) ps ++ w ++ rest) 0 false) with (Some (flat_map (fun '(v, h) => v ++ h) ps, rest)); [reflexivity|].
  clear G b g. induction P as [|[v h] ps (V & N & (Gh & NE & Sh)) F IH]; cbn [flat_map app]; [symmetry; apply scan_end; assumption|].
  rewrite <- !app_assoc, scan_word; [|exact V|destruct h; [congruence|exact Sh]|exact N]. rewrite scan_gap by exact Gh. rewrite after_app, <- IH. cbn [after]. rewrite <- app_assoc. reflexivity.
Qed.
(** so a line that only mentions the word ends the body there, and the rest of it is not part of the text *)
Theorem C87_end_refuted a w rest : word a -> ~ ends a -> word w -> ends w -> stops rest -> text_chunk (a ++ [32] ++ w ++ rest) = Some (a ++ [32], rest) /\ value (a ++ [32]) = strip a.
Proof.
  intros A N W E S. split.
  - pose proof (C87_end_partial [] [(a, [32])] w rest) as H. cbn [flat_map app] in H. rewrite <- !app_assoc in H. cbn [app] in H |- *. apply H; [constructor| |assumption..]. constructor; [|constructor]. split; [exact A|split; [exact N|]]. split; [constructor; [split; [reflexivity|discriminate]|constructor]|split; [discriminate|reflexivity]].
  - assert (L : one_line a). { destruct A as [F _]. eapply Forall_impl; [|exact F]. intros c C. cbn beta in C. apply not_true_is_false. intros B. unfold is_break in B. apply existsb_exists in B as (x & I & X). apply Z.eqb_eq in X. subst x. repeat (destruct I as [<- | I]; [discriminate C|]). destruct I. }
    unfold value. cbn [text_fn fst]. assert (L' : one_line (a ++ [32])) by (apply Forall_app; split; [exact L|constructor; [reflexivity|constructor]]). unfold splitlines. rewrite split_last by exact L'. cbn [app]. destruct a as [|c a]; [destruct A as [_ []]|]. cbn [app map concat]. rewrite app_nil_r.
    unfold strip. destruct A as [F H]. assert (NS : Forall (fun c => is_space c = false) (c :: a)).
    { eapply Forall_impl; [|exact F]. intros d C. cbn beta in C. apply not_true_is_false. intros B. clear -C B. unfold name_char, M_Stmt.lower, M_Stmt.upper in C. unfold is_space in B. repeat (rewrite orb_true_iff in B || rewrite andb_true_iff in B || rewrite Z.leb_le in B || rewrite Z.eqb_eq in B). repeat (rewrite orb_true_iff in C || rewrite andb_true_iff in C || rewrite Z.leb_le in C || rewrite Z.eqb_eq in C). lia. }
    inversion NS as [|? ? X Y]; subst. cbn [drop_space]. rewrite X. change (c :: a ++ [32]) with ((c :: a) ++ [32]). rewrite rev_app_distr. cbn [rev app drop_space]. reflexivity.
Qed.
Print Assumptions C87_value.
Print Assumptions C87_one_line_partial.
Print Assumptions C87_characters.
Print Assumptions C87_lines_refuted.
Print Assumptions C87_blanks_refuted.
Print Assumptions C87_code.
Print Assumptions C87_effect.
Print Assumptions C87_additive_refuted.
Print Assumptions C87_merge_refuted.
Print Assumptions C87_end_partial.
Print Assumptions C87_end_refuted.
Definition ex_body : pystr := u "   Dear friend," ++ [13; 10] ++ u "   this is the ENDTE of it." ++ [10] ++ u "ENDTEXT".
Example C87_example : text_chunk (u "  one line " ++ [10] ++ u "EndText" ++ [10]) = Some (u "  one line " ++ [10], [10]) /\ value (u "  one line " ++ [10]) = u "one line" /\
  option_map fst (text_chunk ex_body) = Some (u "   Dear friend," ++ [13; 10] ++ u "   this is the ") /\ value (u "   Dear friend," ++ [13; 10] ++ u "   this is the ") = u "Dear friend,this is the" /\
  text_code (fun c => 32 <=? c) (Clauses (Some (u "S.x")) false false true) (u "a" ++ [10] ++ u "  b") = u "S.x = vfpfunc.text(['a'," ++ [10] ++ u "'  b'], show=False)" /\
  strip (u "a b") = u "a b" /\ ends (u "ENDTEX").
Proof. do 6 (split; [vm_compute; reflexivity|]). unfold ends, end_words. right. right. left. reflexivity. Qed.
