(** Property C102: ? and ?? show their values. *)
From Verif Require Import PyBase PyStr M_Print.
Open Scope Z_scope.
Open Scope res_scope.

(** FoxPro: `?` begins a new line and shows its values with a blank between them; `??` goes on where the last one ended. *)
Definition fox_show (v : pval) : pystr := match v with PText s => s | PBool true => u ".T." | PBool false => u ".F." end.
Fixpoint spaced (l : list pystr) : pystr := match l with [] => [] | x :: r => x ++ match r with [] => [] | _ => 32 :: spaced r end end.
Definition fox_out (p : list (bool * list pval)) : pystr := flat_map (fun s : bool * list pval => (if fst s then [] else [10]) ++ spaced (map fox_show (snd s))) p.
Definition asks (p : list (bool * list pval)) : list pstmt := map (fun s : bool * list pval => Ask (fst s) (snd s)) p.
Definition texts (p : list (bool * list pval)) : Prop := Forall (fun s => Forall (fun v => exists t, v = PText t) (snd s)) p.

Lemma blanks_spaced l : blanks l = spaced l.
Proof. induction l as [|x r IH]; [reflexivity|]. destruct r as [|y r]; [cbn; now rewrite app_nil_r|]. change (blanks (x :: y :: r)) with (x ++ 32 :: blanks (y :: r)). rewrite IH. reflexivity. Qed.
Lemma show_texts vs : Forall (fun v => exists t, v = PText t) vs -> map py_show vs = map fox_show vs.
Proof. induction 1 as [|v vs [t ->] F IH]; [reflexivity|]. cbn. now rewrite IH. Qed.
Definition py_one (s : bool * list pval) : pystr := spaced (map py_show (snd s)) ++ (if fst s then [] else [10]).
Lemma run_asks p : run_print (asks p) = Ok (flat_map py_one p, []).
Proof.
  unfold run_print. assert (C : calls (asks p) = Ok (map (fun s : bool * list pval => mkCall (snd s) (if fst s then Some [] else None) false []) p)) by (induction p as [|s p IH]; [reflexivity|]; cbn [asks map calls visit_print rbind]; unfold asks in IH; now rewrite IH).
  rewrite C. cbn [rbind]. replace (forallb one_line _) with true by (symmetry; apply forallb_forall; intros c I; apply in_map_iff in I as (s & <- & _); reflexivity). f_equal. f_equal.
  - induction p as [|s p IH]; [reflexivity|]. cbn [map filter c_err negb concat flat_map]. unfold asks in *. cbn [map calls visit_print rbind] in C. rewrite IH; [|clear -s; induction p as [|x p IH]; [reflexivity|]; cbn [map calls visit_print rbind]; now rewrite IH].
    f_equal. unfold print_out, py_one. cbn [c_args c_end]. rewrite blanks_spaced. now destruct (fst s).
  - clear C. induction p as [|s p IH]; [reflexivity|]. exact IH.
Qed.
(** A program that shows texts with `?` only shows the same lines: only the line break comes behind the line instead of before it. *)
Theorem C102_lines_partial : forall p, texts p -> Forall (fun s => fst s = false) p ->
  exists out, run_print (asks p) = Ok (out, []) /\ 10 :: out = fox_out p ++ [10].
Proof.
  intros p T F. rewrite run_asks. eexists. split; [reflexivity|].
  induction p as [|s p IH]; [reflexivity|]. inversion F as [|? ? F1 F2]; subst. inversion T as [|? ? T1 T2]; subst. specialize (IH T2 F2).
  cbn [flat_map]. unfold py_one at 1, fox_out. cbn [flat_map]. rewrite F1, (show_texts _ T1). rewrite <- !app_assoc. fold (fox_out p). rewrite <- IH. reflexivity.
Qed.
(** With `??` only, the texts follow one another on one line. *)
Theorem C102_same_line_partial : forall p, texts p -> Forall (fun s => fst s = true) p -> run_print (asks p) = Ok (fox_out p, []).
Proof.
  intros p T F. rewrite run_asks. f_equal. f_equal. induction p as [|s p IH]; [reflexivity|]. inversion F as [|? ? F1 F2]; subst. inversion T as [|? ? T1 T2]; subst. cbn [flat_map fox_out]. unfold py_one at 1. rewrite F1, (show_texts _ T1), app_nil_r. unfold fox_out in IH |- *. cbn [flat_map app]. now rewrite <- IH.
Qed.
(** `??` after `?`: FoxPro shows both on one line, the converted program on two, whatever comes before. *)
Theorem C102_continue_refuted : forall p a b, texts p -> ~ In 10 a -> ~ In 10 b -> a <> [] -> b <> [] ->
  (exists before, fox_out (p ++ [(false, [PText a]); (true, [PText b])]) = before ++ 10 :: a ++ b) /\
  exists before, run_print (asks (p ++ [(false, [PText a]); (true, [PText b])])) = Ok (before ++ a ++ 10 :: b, []) /\
    forall x, before ++ a ++ 10 :: b <> x ++ a ++ b.
Proof.
  intros p a b T Na Nb Nea Ne. split.
  - exists (fox_out p). unfold fox_out. rewrite flat_map_app. cbn [flat_map fst snd map fox_show spaced app]. rewrite !app_nil_r. reflexivity.
  - exists (flat_map py_one p). rewrite run_asks, flat_map_app. cbn [flat_map]. unfold py_one at 2 3. cbn [fst snd map py_show spaced]. rewrite !app_nil_r, <- !app_assoc. split; [reflexivity|].
    intros z E. destruct a as [|x a]; [congruence|]. set (before := flat_map py_one p) in E. clearbody before. clear -E Na Nb.
    (* a suffix of … \n b that has no line break is no longer than b *)
    assert (X : forall l z, l ++ 10 :: b = z ++ (x :: a) ++ b -> False).
    { clear -Na Nb. induction l as [|y l IH]; intros [|c z] E; cbn [app] in E.
      - injection E as E1 _. apply Na. left. congruence.
      - apply (f_equal (@length Z)) in E. cbn [length] in E. rewrite !app_length in E. cbn [length] in E. rewrite app_length in E. lia.
      - assert (In 10 ((x :: a) ++ b)) as I. { cbn [app] in *. rewrite <- E. right. apply in_or_app. right. now left. } apply in_app_or in I as [I|I]; auto.
      - injection E as _ E. exact (IH z E). }
    rewrite app_assoc in E. exact (X _ _ E).
Qed.
(** Truth values are shown as Python writes them. *)
Theorem C102_logical_refuted : forall b, run_print (asks [(false, [PBool b])]) = Ok ((if b then u "True" else u "False") ++ [10], []) /\ fox_out [(false, [PBool b])] = 10 :: u (if b then ".T." else ".F.").
Proof. intros []; split; reflexivity. Qed.
(** The position of @ ... SAY has no effect, and @ ... CLEAR and @ alone add an empty line. *)
Theorem C102_position_refuted : forall pos pos' clear x src rest, ~ In 10 src ->
  run_print (AtPos pos clear [x] src :: rest) = run_print (Ask false [x] :: rest) /\ run_print (AtPos pos' clear [] src :: rest) = run_print (Ask false [] :: rest).
Proof.
  intros pos pos' clear x src rest N.
  assert (B : forallb (fun c => negb (10 =? c)) src = true) by (apply forallb_forall; intros c I; destruct (Z.eqb_spec 10 c); [subst; contradiction|reflexivity]).
  assert (O : forall vs, one_line (mkCall vs None false (u " # " ++ src)) = true).
  { intros vs. unfold one_line. cbn [c_rest]. rewrite existsb_app. cbn [existsb u map]. cbn. apply negb_true_iff. apply not_true_is_false. intros E. apply existsb_exists in E as (c & I & E). apply Z.eqb_eq in E. subst. contradiction. }
  unfold run_print. cbn [calls visit_print]. cbn [rbind]. split.
  - change (1 <? zlen [x]) with false. cbn [rbind]. destruct (calls rest) as [l|e]; [|reflexivity]. cbn [rbind forallb]. rewrite O. change (one_line (mkCall [x] None false [])) with true. cbn [andb]. destruct (forallb one_line l); reflexivity.
  - change (1 <? zlen (@nil pval)) with false. cbn [rbind]. destruct (calls rest) as [l|e]; [|reflexivity]. cbn [rbind forallb]. rewrite O. change (one_line (mkCall [] None false [])) with true. cbn [andb]. destruct (forallb one_line l); reflexivity.
Qed.
(** If @ ... SAY is written on more than one line, the program does not run at all. *)
Theorem C102_continued_at_refuted : forall before pos clear x src after, In 10 src -> exists e, run_print (before ++ AtPos pos clear [x] src :: after) = Err e.
Proof.
  intros before pos clear x src after I. unfold run_print. destruct (calls (before ++ AtPos pos clear [x] src :: after)) as [l|e] eqn:E; [|cbn; eauto]. cbn [rbind].
  assert (M : In (mkCall [x] None false (u " # " ++ src)) l).
  { revert l E. induction before as [|s before IH]; intros l E; cbn [app calls visit_print] in E.
    - change (1 <? zlen [x]) with false in E. cbn [rbind] in E. destruct (calls after); [|discriminate]. injection E as <-. now left.
    - destruct (visit_print s); [|discriminate]. cbn [rbind] in E. destruct (calls (before ++ _)) as [l'|]; [|discriminate]. injection E as <-. right. now apply IH. }
  assert (F : forallb one_line l = false).
  { apply not_true_is_false. intros F. rewrite forallb_forall in F. specialize (F _ M). unfold one_line in F. cbn [c_rest] in F. apply negb_true_iff in F. enough (existsb (Z.eqb 10) (u " # " ++ src) = true) by congruence. apply existsb_exists. exists 10. split; [apply in_or_app; now right|reflexivity]. }
  rewrite F. eauto.
Qed.
Print Assumptions C102_lines_partial.
Print Assumptions C102_same_line_partial.
Print Assumptions C102_continue_refuted.
Print Assumptions C102_logical_refuted.
Print Assumptions C102_position_refuted.
Print Assumptions C102_continued_at_refuted.
Definition C102_t (s : string) := PText (u s).
Example C102_example :
  run_print (asks [(false, [C102_t "a"; C102_t "b"]); (false, [C102_t "c"])]) = Ok (u "a b" ++ [10] ++ u "c" ++ [10], []) /\
  run_print (asks [(false, [C102_t "total: "]); (true, [C102_t "5"])]) = Ok (u "total: " ++ [10] ++ u "5", []) /\
  run_print [Ask false [C102_t "x"]; DebugOut [C102_t "log"]; Ask true [C102_t "y"]] = Ok (u "x" ++ [10] ++ u "y", u "log" ++ [10]) /\
  run_print [AtPos [5; 10] false [C102_t "low"] (u "@ 5,10 SAY 'low'"); AtPos [1; 1] false [C102_t "high"] (u "@ 1,1 SAY 'high'")] = Ok (u "low" ++ [10] ++ u "high" ++ [10], []).
Proof. repeat split; vm_compute; reflexivity. Qed.
(** DEBUGOUT shows its values too, but apart from what `?` shows: without the DEBUGOUT statements the output is the same, and without the others
    the debug output is. *)
Definition is_debug (s : pstmt) : bool := match s with DebugOut _ => true | _ => false end.
Lemma calls_filter f (g : call -> bool) : (forall s c, visit_print s = Ok c -> f s = g c) -> forall p l, calls p = Ok l -> calls (filter f p) = Ok (filter g l).
Proof.
  intros H. induction p as [|s p IH]; intros l; cbn [calls filter]; [intros [= <-]; reflexivity|]. destruct (visit_print s) as [c|e] eqn:V; cbn [rbind]; [|discriminate].
  destruct (calls p) as [l'|e] eqn:C; cbn [rbind]; [|discriminate]. intros [= <-]. cbn [filter]. rewrite (H s c V). destruct (g c); [cbn [calls]; rewrite V; cbn [rbind]; rewrite (IH _ eq_refl); reflexivity|apply IH; reflexivity].
Qed.
Lemma forallb_filter {A} (f g : A -> bool) l : forallb f l = true -> forallb f (filter g l) = true.
Proof. rewrite !forallb_forall. intros H x I. apply filter_In in I. apply H, I. Qed.
Lemma filter_twice {A} (g : A -> bool) l : filter g (filter g l) = filter g l.
Proof. induction l as [|x l IH]; [reflexivity|]. cbn [filter]. destruct (g x) eqn:E; [cbn [filter]; rewrite E, IH; reflexivity|exact IH]. Qed.
Lemma filter_none {A} (g h : A -> bool) l : (forall x, g x = negb (h x)) -> filter g (filter h l) = [].
Proof. intros H. induction l as [|x l IH]; [reflexivity|]. cbn [filter]. destruct (h x) eqn:E; [cbn [filter]; rewrite H, E; exact IH|exact IH]. Qed.
Theorem C102_debug : forall p out err, run_print p = Ok (out, err) ->
  run_print (filter (fun s => negb (is_debug s)) p) = Ok (out, []) /\ run_print (filter is_debug p) = Ok ([], err) /\
  forall vs, run_print [DebugOut vs] = Ok ([], spaced (map py_show vs) ++ [10]).
Proof.
  intros p out err. unfold run_print at 1. destruct (calls p) as [l|e] eqn:C; cbn [rbind]; [|discriminate]. destruct (forallb one_line l) eqn:F; [|discriminate]. intros [= <- <-].
  assert (D : forall s c, visit_print s = Ok c -> is_debug s = c_err c).
  { intros [t vs|vs|pos cl says src] c; cbn; [intros [= <-]; reflexivity|intros [= <-]; reflexivity|]. destruct (1 <? zlen says); [discriminate|]. intros [= <-]. reflexivity. }
  assert (D' : forall s c, visit_print s = Ok c -> negb (is_debug s) = negb (c_err c)) by (intros s c V; now rewrite (D s c V)).
  split; [|split].
  - unfold run_print. rewrite (calls_filter _ _ D' p l C). cbn [rbind]. rewrite (forallb_filter _ _ _ F), filter_twice, filter_none; [reflexivity|]. intros x. now rewrite negb_involutive.
  - unfold run_print. rewrite (calls_filter _ _ D p l C). cbn [rbind]. rewrite (forallb_filter _ _ _ F), filter_twice, filter_none; [reflexivity|]. intros x. reflexivity.
  - intros vs. unfold run_print. cbn. rewrite blanks_spaced, app_nil_r. reflexivity.
Qed.
Print Assumptions C102_debug.
Example C102_debug_example : run_print [Ask false [PText (u "a")]; DebugOut [PText (u "d"); PText (u "e")]; Ask false [PText (u "b")]] =
  Ok (u "a" ++ [10] ++ u "b" ++ [10], u "d e" ++ [10]).
Proof. reflexivity. Qed.
