(** Properties C91 (comments) and C92 (statements that cannot be converted). *)
From Verif Require Import PyBase PyStr M_Lit M_Stmt M_Form M_Text M_Comment.
Open Scope Z_scope.

(** ** Matching *)
(** [Mt r w g g']: the expression matches the text [w] *)
Inductive Mt : re -> pystr -> groups -> groups -> Prop :=
| M_Chr p c g : p c = true -> Mt (Chr p) [c] g g
| M_Many p w g : forallb p w = true -> Mt (Many p) w g g
| M_Cat a b w v g g' g'' : Mt a w g g' -> Mt b v g' g'' -> Mt (Cat a b) (w ++ v) g g''
| M_OrL a b w g g' : Mt a w g g' -> Mt (Or a b) w g g'
| M_OrR a b w g g' : Mt b w g g' -> Mt (Or a b) w g g'
| M_Yes a w g g' : Mt a w g g' -> Mt (Maybe a) w g g'
| M_No a g : Mt (Maybe a) [] g g
| M_Group n a w g g' : Mt a w g g' -> Mt (Group n a) w g (set_group n w g').
Lemma many_sound X p s (k : pystr -> option X) x : many X p s k = Some x -> exists w r, s = w ++ r /\ forallb p w = true /\ k r = Some x.
Proof.
  induction s as [|c s IH]; cbn [many]; intros H; [exists [], []; auto|]. destruct (p c) eqn:P; [|exists [], (c :: s); auto].
  destruct (many X p s k) as [y|]; [|exists [], (c :: s); auto]. destruct (IH H) as (w & r & -> & F & K). exists (c :: w), r. cbn. rewrite P. auto.
Qed.
Lemma many_complete X p w r (k : pystr -> option X) : forallb p w = true -> k r <> None -> many X p (w ++ r) k <> None.
Proof.
  induction w as [|c w IH]; cbn [app forallb]; intros F K.
  - destruct r as [|c r]; [exact K|]. cbn [many]. destruct (p c); [|exact K]. destruct (many X p r k); [discriminate|exact K].
  - cbn [many]. apply andb_prop in F as [-> F]. destruct (many X p (w ++ r) k) eqn:E; [discriminate|]. exfalso. apply (IH F K). reflexivity.
Qed.
Lemma mt_sound X r : forall s g k (x : X), mt X r s g k = Some x -> exists w s' g', s = w ++ s' /\ Mt r w g g' /\ k s' g' = Some x.
Proof.
  induction r as [p|p|a IHa b IHb|a IHa b IHb|a IHa|n a IHa]; intros s g k x H; cbn [mt] in H.
  - destruct s as [|c s]; [discriminate|]. destruct (p c) eqn:P; [|discriminate]. exists [c], s, g. repeat split; [constructor; exact P|exact H].
  - apply many_sound in H as (w & r & -> & F & K). exists w, r, g. repeat split; [constructor; exact F|exact K].
  - apply IHa in H as (w & s' & g' & -> & A & H). apply IHb in H as (v & s'' & g'' & -> & B & K). exists (w ++ v), s'', g''. rewrite app_assoc. repeat split; [econstructor; eassumption|exact K].
  - destruct (mt X a s g k) as [y|] eqn:E.
    + apply IHa in E as (w & s' & g' & -> & A & K). exists w, s', g'. repeat split; [apply M_OrL; exact A|congruence].
    + apply IHb in H as (w & s' & g' & -> & A & K). exists w, s', g'. repeat split; [apply M_OrR; exact A|exact K].
  - destruct (mt X a s g k) as [y|] eqn:E.
    + apply IHa in E as (w & s' & g' & -> & A & K). exists w, s', g'. repeat split; [apply M_Yes; exact A|congruence].
    + exists [], s, g. repeat split; [apply M_No|exact H].
  - apply IHa in H as (w & s' & g' & -> & A & K). exists w, s', (set_group n w g'). replace (firstn (length (w ++ s') - length s') (w ++ s')) with w in K.
    + repeat split; [constructor; exact A|exact K].
    + rewrite app_length. replace (length w + length s' - length s')%nat with (length w) by lia. rewrite firstn_app, Nat.sub_diag, firstn_all, firstn_O, app_nil_r. reflexivity.
Qed.
Lemma mt_complete X r w g g' : Mt r w g g' -> forall s' k, k s' g' <> (None : option X) -> mt X r (w ++ s') g k <> None.
Proof.
  induction 1 as [p c g P|p w g F|a b w v g g' g'' A IHa B IHb|a b w g g' A IH|a b w g g' A IH|a w g g' A IH|a g|n a w g g' A IH]; intros s' k K; cbn [mt].
  - cbn [app]. rewrite P. exact K.
  - apply many_complete; assumption.
  - rewrite <- app_assoc. apply IHa. apply IHb. exact K.
  - destruct (mt X a (w ++ s') g k) eqn:E; [discriminate|]. exfalso. apply (IH _ _ K E).
  - destruct (mt X a (w ++ s') g k) eqn:E; [discriminate|]. apply IH. exact K.
  - destruct (mt X a (w ++ s') g k) eqn:E; [discriminate|]. exfalso. apply (IH _ _ K E).
  - cbn [app]. destruct (mt X a s' g k) eqn:E; [discriminate|exact K].
  - apply IH. rewrite app_length. replace (length w + length s' - length s')%nat with (length w) by lia. rewrite firstn_app, Nat.sub_diag, firstn_all, firstn_O, app_nil_r. exact K.
Qed.
Lemma fixer_some s g : fixer_match s = Some g -> Mt fixer s (fun _ => None) g.
Proof. intros H. apply mt_sound in H as (w & s' & g' & -> & M & K). destruct s'; [|discriminate]. rewrite app_nil_r. injection K as <-. exact M. Qed.
Lemma fixer_none s : (forall g, ~ Mt fixer s (fun _ => None) g) -> fixer_match s = None.
Proof. intros N. destruct (fixer_match s) as [g|] eqn:E; [|reflexivity]. exfalso. apply (N g). apply fixer_some. exact E. Qed.
Lemma fixer_exists s g : Mt fixer s (fun _ => None) g -> fixer_match s <> None.
Proof. intros M. unfold fixer_match. rewrite <- (app_nil_r s). eapply mt_complete; [exact M|discriminate]. Qed.

(** ** The shape of what the expression matches *)
Definition is_lead (w : pystr) : Prop := w = u "&&" \/ w = u "*!*" \/ Forall (eq 42) w.
Definition blank (w : pystr) : Prop := forallb is_space w = true.
Definition is_middle (w : pystr) : Prop :=
  (exists a c b, w = a ++ c :: b /\ c <> 42 /\ c <> 59 /\ c <> 32 /\ blank b) \/
  (exists a c b, w = a ++ c :: 59 :: b /\ c <> 42 /\ c <> 32 /\ blank b) \/
  (exists b, w = 59 :: b /\ blank b).
Lemma all_eq x w : forallb (Z.eqb x) w = true -> Forall (eq x) w.
Proof. intros H. apply Forall_forall. intros y I. rewrite forallb_forall in H. apply Z.eqb_eq. apply H. exact I. Qed.
Lemma Mt_chr p w g g' : Mt (Chr p) w g g' -> exists c, w = [c] /\ p c = true /\ g' = g.
Proof. intros H. inversion H; subst. eauto. Qed.
Lemma Mt_char c w g g' : Mt (is_c c) w g g' -> w = [c] /\ g' = g.
Proof. intros H. apply Mt_chr in H as (d & -> & E & ->). apply Z.eqb_eq in E as ->. auto. Qed.
Lemma Mt_many p w g g' : Mt (Many p) w g g' -> forallb p w = true /\ g' = g.
Proof. intros H. inversion H; subst. auto. Qed.
Lemma Mt_cat a b s g g' : Mt (Cat a b) s g g' -> exists w v h, s = w ++ v /\ Mt a w g h /\ Mt b v h g'.
Proof. intros H. inversion H; subst. eauto 7. Qed.
Lemma Mt_or a b s g g' : Mt (Or a b) s g g' -> Mt a s g g' \/ Mt b s g g'.
Proof. intros H. inversion H; subst; auto. Qed.
Lemma Mt_maybe a s g g' : Mt (Maybe a) s g g' -> Mt a s g g' \/ s = [] /\ g' = g.
Proof. intros H. inversion H; subst; auto. Qed.
Lemma Mt_group n a s g g' : Mt (Group n a) s g g' -> exists h, Mt a s g h /\ g' = set_group n s h.
Proof. intros H. inversion H; subst. eauto. Qed.
Lemma Mt_lead w g g' : Mt lead w g g' -> is_lead w /\ g' = g.
Proof.
  unfold lead. intros H. apply Mt_or in H as [H|H].
  - apply Mt_cat in H as (x & y & h & -> & A & B). apply Mt_char in A as [-> ->], B as [-> ->]. split; [left; reflexivity|reflexivity].
  - apply Mt_or in H as [H|H].
    + apply Mt_cat in H as (x & y & h & -> & A & B). apply Mt_char in A as [-> ->]. apply Mt_cat in B as (x & z & h & -> & A & B). apply Mt_char in A as [-> ->], B as [-> ->]. split; [right; left; reflexivity|reflexivity].
    + apply Mt_many in H as [F ->]. split; [right; right; apply all_eq; exact F|reflexivity].
Qed.
Lemma Mt_middle w g g' : Mt (Or alt_text (Or alt_semi alt_only)) w g g' -> is_middle w /\ g' = g.
Proof.
  intros H. apply Mt_or in H as [H|H]; [|apply Mt_or in H as [H|H]]; apply Mt_cat in H as (x & y & h & -> & A & H).
  - apply Mt_many in A as [_ ->]. apply Mt_cat in H as (c & b & h & -> & A & B). apply Mt_chr in A as (c' & -> & P & ->). apply Mt_many in B as [B ->]. rewrite negb_true_iff, !orb_false_iff, !Z.eqb_neq in P. split; [left; exists x, c', b; cbn; tauto|reflexivity].
  - apply Mt_many in A as [_ ->]. apply Mt_cat in H as (c & b & h & -> & A & B). apply Mt_chr in A as (c' & -> & P & ->). apply Mt_cat in B as (c & b' & h & -> & A & B). apply Mt_char in A as [-> ->]. apply Mt_many in B as [B ->]. rewrite negb_true_iff, !orb_false_iff, !Z.eqb_neq in P. split; [right; left; exists x, c', b'; cbn; tauto|reflexivity].
  - apply Mt_char in A as [-> ->]. apply Mt_many in H as [B ->]. split; [right; right; exists y; auto|reflexivity].
Qed.
Definition shape (s w1 w2 w3 : pystr) : Prop := exists a b z, s = a ++ w1 ++ w2 ++ w3 ++ b ++ z /\ blank a /\ is_lead w1 /\ (w2 = [] \/ is_middle w2) /\ Forall (eq 42) w3 /\ blank b /\ Forall (eq 59) z.
Lemma fixer_shape s g : Mt fixer s (fun _ => None) g -> exists w1 w2 w3, shape s w1 w2 w3 /\ text_of (g 1%nat) = w1 /\ text_of (g 2%nat) = w2 /\ text_of (g 3%nat) = w3.
Proof.
  unfold fixer. intros H. apply Mt_cat in H as (a & r & h & -> & A & H). apply Mt_many in A as [A ->]. apply Mt_cat in H as (w1 & r1 & h & -> & L & H). apply Mt_group in L as (h1 & L & ->). apply Mt_lead in L as [L ->].
  apply Mt_cat in H as (w2 & r2 & h & -> & D & H). apply Mt_cat in H as (w3 & r3 & h3 & -> & T & H). apply Mt_group in T as (h1 & T & ->). apply Mt_many in T as [T ->]. apply all_eq in T.
  apply Mt_cat in H as (b & z & h4 & -> & B & Z'). apply Mt_many in B as [B ->], Z' as [Z' ->]. apply all_eq in Z'. exists w1, w2, w3. apply Mt_maybe in D as [D|[-> ->]].
  - apply Mt_group in D as (h1 & D & ->). apply Mt_middle in D as [D ->]. split; [|cbn; repeat split; reflexivity]. exists a, b, z. tauto.
  - split; [|cbn; repeat split; reflexivity]. exists a, b, z. tauto.
Qed.

(** ** The comment written *)
Lemma drop_space_nb c s : is_space c = false -> drop_space (c :: s) = c :: s.
Proof. intros H. cbn [drop_space]. rewrite H. reflexivity. Qed.
Lemma drop_space_last s c : is_space c = false -> exists p, drop_space (s ++ [c]) = p ++ [c].
Proof. intros H. induction s as [|d s [p IH]]; cbn [app drop_space]; [rewrite H; exists []; reflexivity|]. destruct (is_space d); [exists p; exact IH|exists (d :: s); reflexivity]. Qed.
Lemma strip_head c s : is_space c = false -> exists r, strip (c :: s) = c :: r.
Proof.
  intros H. unfold strip. rewrite drop_space_nb by exact H. cbn [rev]. destruct (drop_space_last (rev s) c H) as [p ->]. rewrite rev_app_distr. cbn. eexists. reflexivity.
Qed.
(** Whatever the comment, it becomes a Python comment, or nothing if there was nothing in it, or it stays as it is *)
Theorem C91_form s : fix_comment s = [] /\ (exists a z, s = a ++ z /\ blank a /\ Forall (eq 59) z) \/ (exists r, fix_comment s = 35 :: r) \/ fixer_match s = None /\ fix_comment s = s.
Proof.
  unfold fix_comment. destruct (fixer_match s) as [g|] eqn:E; [|right; right; auto]. apply fixer_some, fixer_shape in E as (w1 & w2 & w3 & (a & b & z & -> & A & L & D & T & B & Z') & E1 & E2 & E3).
  assert (N : forall (st m e : pystr), st <> [] -> exists r, strip (repeat 35 (length st) ++ m ++ e) = 35 :: r). { intros [|x st] m e N; [contradiction|]. apply strip_head. reflexivity. }
  unfold repl. rewrite E1, E2, E3. destruct w1 as [|x w1].
  - destruct w2 as [|y w2]; [destruct w3 as [|y w3]|].
    + left. split; [reflexivity|]. exists (a ++ b), z. cbn [app]. rewrite app_assoc. split; [reflexivity|]. split; [unfold blank in *; rewrite forallb_app, A, B; reflexivity|exact Z'].
    + right. left. apply N. discriminate.
    + right. left. apply N. discriminate.
  - right. left. destruct w2 as [|]; (destruct w3; [|]); apply N; destruct (pystr_eqb _ _ || pystr_eqb _ _); discriminate.
Qed.
(** An ordinary comment: n asterisks, the text, asterisks again and semicolons; the text and the asterisks are kept *)
Lemma firstn_pre (w s : pystr) : firstn (length (w ++ s) - length s) (w ++ s) = w.
Proof. rewrite app_length. replace (length w + length s - length s)%nat with (length w) by lia. rewrite firstn_app, Nat.sub_diag, firstn_all, firstn_O, app_nil_r. reflexivity. Qed.
Lemma many_back X p z (k : pystr -> option X) x : forall m, forallb p (m ++ z) = true -> k z = Some x -> (forall y z', z = y ++ z' -> y <> [] -> k z' = None) -> many X p (m ++ z) k = Some x.
Proof.
  assert (Z0 : forall z, forallb p z = true -> (forall y z', z = y ++ z' -> y <> [] -> k z' = None) -> many X p z k = k z).
  { clear z. induction z as [|c z IH]; intros F N; [reflexivity|]. cbn [many]. cbn [forallb] in F. apply andb_prop in F as [-> F]. rewrite IH; [|exact F|].
    - rewrite (N [c] z eq_refl); [reflexivity|discriminate].
    - intros y z' -> Y. apply (N (c :: y) z' eq_refl). discriminate. }
  induction m as [|c m IH]; cbn [app]; intros F K N; [rewrite Z0 by assumption; exact K|]. cbn [many]. cbn [forallb] in F. apply andb_prop in F as [-> F]. rewrite (IH F K N). reflexivity.
Qed.
Lemma many_stop X p w r (k : pystr -> option X) x : forallb p w = true -> match r with c :: _ => p c = false | [] => True end -> k r = Some x -> many X p (w ++ r) k = Some x.
Proof.
  intros F R K. induction w as [|c w IH]; cbn [app].
  - destruct r as [|c r]; [exact K|]. cbn [many]. rewrite R. exact K.
  - cbn [many]. cbn [forallb] in F. apply andb_prop in F as [-> F]. rewrite (IH F). reflexivity.
Qed.
Lemma forallb_repeat p (x : Z) n : p x = true -> forallb p (repeat x n) = true.
Proof. intros H. induction n; [reflexivity|]. cbn. rewrite H. exact IHn. Qed.
Definition text_char (c : Z) : Prop := c <> 42 /\ c <> 59 /\ c <> 32.
Theorem C91_kept n m c nb e j : (0 < n)%nat -> ~ In 10 m -> c <> 10 -> text_char c -> hd 0 (m ++ [c]) <> 42 -> ~ (n = 1%nat /\ exists r, m ++ [c] ++ repeat 32 nb ++ repeat 42 e = u "!*" ++ r) ->
  fix_comment (repeat 42 n ++ (m ++ [c]) ++ repeat 32 nb ++ repeat 42 e ++ repeat 59 j) =
  strip (repeat 35 n ++ (if Nat.eqb n 1 && Nat.eqb e 0 then strip (m ++ [c] ++ repeat 32 nb) else m ++ [c] ++ repeat 32 nb) ++ repeat 35 e).
Proof.
  intros Hn M10 C10 (C1 & C2 & C3) H0 NB.
  assert (K3 : forall g, mt groups (Cat (Group 3 (Many (Z.eqb 42))) (Cat (Many is_space) (Many (Z.eqb 59)))) (repeat 42 e ++ repeat 59 j) g (fun s g => match s with [] => Some g | _ => None end) = Some (set_group 3 (repeat 42 e) g)).
  { intros g. cbn [mt]. apply many_stop; [apply forallb_repeat; reflexivity|destruct j; [exact I|reflexivity]|].
    rewrite firstn_pre.
    rewrite <- (app_nil_l (repeat 59 j)). apply many_stop; [reflexivity|destruct j; [exact I|reflexivity]|]. rewrite <- (app_nil_r (repeat 59 j)). apply many_stop; [apply forallb_repeat; reflexivity|exact I|reflexivity]. }
  set (K := fun s g => mt groups (Cat (Group 3 (Many (Z.eqb 42))) (Cat (Many is_space) (Many (Z.eqb 59)))) s g (fun s g => match s with [] => Some g | _ => None end)) in *.
  set (t := (m ++ [c]) ++ repeat 32 nb ++ repeat 42 e ++ repeat 59 j).
  assert (K2 : forall g, mt groups (Maybe (Group 2 (Or alt_text (Or alt_semi alt_only)))) t g K = Some (set_group 3 (repeat 42 e) (set_group 2 (m ++ [c] ++ repeat 32 nb) g))).
  { intros g. cbn [mt]. unfold alt_text at 1. cbn [mt]. unfold t at 1. rewrite <- app_assoc. rewrite (many_back _ dot _ _ (set_group 3 (repeat 42 e) (set_group 2 (m ++ [c] ++ repeat 32 nb) g)) m).
    - reflexivity.
    - rewrite !forallb_app, !forallb_repeat by reflexivity. rewrite !andb_true_r. cbn [forallb]. rewrite andb_true_r. apply andb_true_intro. split; [|unfold dot; apply negb_true_iff, Z.eqb_neq; exact C10].
      apply forallb_forall. intros x I. unfold dot. apply negb_true_iff, Z.eqb_neq. intros ->. contradiction.
    - cbn [app]. apply Z.eqb_neq in C1, C2, C3. rewrite C1, C2, C3. cbn [orb negb].
      apply many_stop; [apply forallb_repeat; reflexivity|destruct e; [destruct j; [exact I|reflexivity]|reflexivity]|].
      replace t with ((m ++ [c] ++ repeat 32 nb) ++ repeat 42 e ++ repeat 59 j) by (unfold t; rewrite <- !app_assoc; reflexivity). rewrite firstn_pre. apply K3.
    - intros y z' E Y. destruct y as [|y0 y]; [contradiction|]. cbn [app] in E. injection E as _ E. destruct z' as [|d z']; [reflexivity|]. assert (In d (repeat 32 nb ++ repeat 42 e ++ repeat 59 j)) by (rewrite E; apply in_or_app; right; left; reflexivity).
      rewrite !in_app_iff in H. destruct H as [H|[H|H]]; apply repeat_spec in H as ->; reflexivity. }
  assert (HM : hd 0 (m ++ [c]) <> 42 /\ t <> []) by (split; [exact H0|unfold t; destruct m; discriminate]).
  assert (F : fixer_match (repeat 42 n ++ t) = Some (set_group 3 (repeat 42 e) (set_group 2 (m ++ [c] ++ repeat 32 nb) (set_group 1 (repeat 42 n) (fun _ => None))))).
  { unfold fixer_match, fixer. cbn [mt]. destruct n as [|n]; [lia|]. cbn [repeat app]. rewrite <- (app_nil_l (42 :: repeat 42 n ++ t)). apply many_stop; [reflexivity|reflexivity|]. cbn [app].
    unfold lead. cbn [mt is_c]. replace (38 =? 42) with false by reflexivity. rewrite Z.eqb_refl.
    match goal with |- match ?A with Some x => Some x | None => ?B end = Some ?R => assert (EA : A = None); [|rewrite EA; clear EA] end.
    { destruct (repeat 42 n ++ t) as [|c1 r1] eqn:E1; [reflexivity|]. destruct (33 =? c1) eqn:X1; [|reflexivity]. apply Z.eqb_eq in X1 as <-. destruct r1 as [|c2 r2]; [reflexivity|]. destruct (42 =? c2) eqn:X2; [|reflexivity]. apply Z.eqb_eq in X2 as <-. exfalso.
      destruct n as [|n]; [|discriminate E1]. cbn [repeat app] in E1. apply NB. split; [reflexivity|]. unfold t in E1. assert (E2 : (m ++ [c] ++ repeat 32 nb ++ repeat 42 e) ++ repeat 59 j = 33 :: 42 :: r2) by (rewrite <- E1, <- !app_assoc; reflexivity).
      destruct (m ++ [c] ++ repeat 32 nb ++ repeat 42 e) as [|d1 [|d2 q]] eqn:Q; [destruct m; discriminate| |].
      - cbn in E2. injection E2 as _ E2. destruct j; discriminate.
      - cbn [app] in E2. injection E2 as -> -> _. exists q. reflexivity. }
    change (42 :: repeat 42 n ++ t) with (repeat 42 (S n) ++ t). apply many_stop; [apply forallb_repeat; reflexivity|unfold t in *; destruct m as [|c0 m]; cbn [app hd] in *; apply Z.eqb_neq; lia|].
    rewrite firstn_pre. apply K2. }
  unfold fix_comment. fold t. rewrite F. unfold repl. cbn [set_group Nat.eqb text_of].
  destruct n as [|n]; [lia|]. cbn [repeat]. replace (pystr_eqb (42 :: repeat 42 n) (u "&&")) with false by reflexivity.
  replace (pystr_eqb (42 :: repeat 42 n) (u "*!*")) with false by (destruct n; reflexivity). cbn [orb].
  change (42 :: repeat 42 n) with (repeat 42 (S n)). rewrite !repeat_length. replace (match repeat 42 e with [] => true | _ :: _ => false end) with (Nat.eqb e 0) by (destruct e; reflexivity).
  destruct (m ++ [c] ++ repeat 32 nb) eqn:Q; [destruct m; discriminate|]. destruct (repeat 42 e); reflexivity.
Qed.
(** A line of asterisks with blanks between them is not turned into a comment at all *)
Lemma lead_stars w : is_lead w -> (forall c, In c w -> c = 42 \/ c = 32) -> Forall (eq 42) w.
Proof. intros [-> |[-> |F]] H; [destruct (H 38); [left; reflexivity|discriminate|discriminate]|destruct (H 33); [right; left; reflexivity|discriminate|discriminate]|exact F]. Qed.
Lemma blank_no w c : blank w -> In c w -> is_space c = true.
Proof. unfold blank. rewrite forallb_forall. auto. Qed.
Theorem C91_decoration_refuted s : (forall c, In c s -> c = 42 \/ c = 32) -> In 32 s -> hd 0 s = 42 -> last s 0 = 42 -> fix_comment s = s /\ hd 0 (fix_comment s) <> 35.
Proof.
  intros C S1 S2 S3. assert (N : fixer_match s = None).
  { apply fixer_none. intros g M. apply fixer_shape in M as (w1 & w2 & w3 & (a & b & z & E & A & L & D & T & B & Z') & _).
    assert (W : forall w, (exists p q, s = p ++ w ++ q) -> forall c, In c w -> c = 42 \/ c = 32). { intros w (p & q & ->) c I. apply C. rewrite !in_app_iff. auto. }
    assert (W1 : Forall (eq 42) w1). { apply lead_stars; [exact L|]. apply W. exists a, (w2 ++ w3 ++ b ++ z). rewrite E. reflexivity. }
    assert (W2 : w2 = []).
    { destruct D as [D|D]; [exact D|]. exfalso. assert (C2 : forall c, In c w2 -> c = 42 \/ c = 32) by (apply W; exists (a ++ w1), (w3 ++ b ++ z); rewrite E, <- !app_assoc; reflexivity). destruct D as [(x & c & y & -> & N1 & N2 & N3 & _)|[(x & c & y & -> & _)|(y & -> & _)]].
      - destruct (C2 c); [apply in_or_app; right; left; reflexivity|congruence|congruence].
      - destruct (C2 59); [apply in_or_app; right; right; left; reflexivity|discriminate|discriminate].
      - destruct (C2 59); [left; reflexivity|discriminate|discriminate]. }
    assert (Z0 : z = []). { destruct z as [|y z]; [reflexivity|]. inversion Z'; subst. destruct (C 59); [rewrite !in_app_iff; cbn; auto 8|discriminate|discriminate]. }
    assert (A0 : a = []). { destruct a as [|x a]; [reflexivity|]. rewrite E in S2. cbn in S2. rewrite S2 in A. discriminate A. }
    subst w2 z a. cbn [app] in E. rewrite app_nil_r in E.
    destruct b as [|y b'] eqn:EB; [|].
    - rewrite app_nil_r in E. rewrite E in S1. apply in_app_or in S1 as [I|I]; [rewrite Forall_forall in W1; apply W1 in I|rewrite Forall_forall in T; apply T in I]; discriminate.
    - assert (LB : In (last (y :: b') 0) (y :: b')). { destruct (exists_last (l := y :: b') ltac:(discriminate)) as (q & d & ->). rewrite last_last. apply in_or_app. right. left. reflexivity. }
      assert (last s 0 = last (y :: b') 0). { rewrite E. destruct (exists_last (l := y :: b') ltac:(discriminate)) as (q & d & ->). rewrite !app_assoc, !last_last. reflexivity. }
      rewrite H in S3. rewrite S3 in LB. apply (blank_no _ _ B) in LB. discriminate. }
  unfold fix_comment. rewrite N. split; [reflexivity|]. rewrite S2. discriminate.
Qed.
(** ** Programs *)
Definition plain (l : pystr) : Prop := ~ In 38 l.
Lemma plain_macro l : plain l -> macro_line l = false.
Proof. unfold plain. induction l as [|c l IH]; intros P; [reflexivity|]. cbn [macro_line]. destruct (Z.eqb_spec c 38) as [E|_]; [exfalso; apply P; left; congruence|]. apply IH. intros I. apply P. right. exact I. Qed.
(** A statement: lines that are continued, and one that is not *)
Definition well_formed (i : item) : Prop := exists ls l, i_code i = ls ++ [l] /\ Forall (fun l => plain l /\ continues l = true) ls /\ plain l /\ continues l = false.
Definition source (i : item) : pystr := M_Lit.join [10] (i_code i).
(** its comment does not end in a semicolon and has no & in it *)
Definition note_ok (i : item) : Prop := forall t, i_note i = Some t -> plain t /\ continues (42 :: t) = false.
Definition is_comment (s : stmt) : bool := match s with LComment _ => true | _ => false end.
Lemma logical_some ls l rest : Forall (fun l => plain l /\ continues l = true) ls -> plain l -> continues l = false -> forall t, logical (Some t) (ls ++ l :: rest) = kind (t ++ M_Lit.join [10] (ls ++ [l])) :: logical None rest.
Proof.
  intros F P C. induction F as [|x ls [X1 X2] F IH]; intros t; cbn [app logical].
  - rewrite (plain_macro _ P), C. reflexivity.
  - rewrite (plain_macro _ X1), X2. cbn [negb andb]. rewrite IH. f_equal. f_equal. rewrite <- !app_assoc. f_equal. destruct (ls ++ [l]) eqn:Q; [destruct ls; discriminate|]. reflexivity.
Qed.
Lemma logical_item i rest : well_formed i -> logical None (i_code i ++ rest) = kind (source i) :: logical None rest.
Proof.
  intros (ls & l & E & F & P & C). unfold source. rewrite E, <- app_assoc. cbn [app]. destruct F as [|x ls [X1 X2] F]; cbn [app logical].
  - rewrite (plain_macro _ P), C. reflexivity.
  - rewrite (plain_macro _ X1), X2. rewrite (logical_some ls l rest F P C). f_equal. f_equal. rewrite <- app_assoc. destruct (ls ++ [l]) eqn:Q; [destruct ls; discriminate|]. reflexivity.
Qed.
(** Comments at the ends of lines do not change which statements there are; each comes in front of its statement *)
Lemma program_exact p : Forall well_formed p -> Forall note_ok p -> program p = flat_map (fun i => match i_note i with Some t => [LComment (42 :: t)] | None => [] end ++ [kind (source i)]) p.
Proof.
  intros W N. unfold program. induction W as [|i p Wi W IH]; [reflexivity|]. inversion N as [|? ? Ni N']; subst. cbn [flat_map map]. unfold preproc at 1. rewrite <- app_assoc. destruct (i_note i) as [t|] eqn:E.
  - destruct (Ni t E) as [P C]. cbn [app logical]. rewrite plain_macro, C by (intros [I|I]; [discriminate|contradiction]). rewrite (logical_item i _ Wi), (IH N'). reflexivity.
  - cbn [app]. rewrite (logical_item i _ Wi), (IH N'). reflexivity.
Qed.
Theorem C91_statements_partial p : Forall well_formed p -> Forall note_ok p ->
  program p = flat_map (fun i => match i_note i with Some t => [LComment (42 :: t)] | None => [] end ++ [kind (source i)]) p /\
  filter (fun s => negb (is_comment s)) (program p) = filter (fun s => negb (is_comment s)) (map (fun i => kind (source i)) p).
Proof.
  intros W N. rewrite (program_exact p W N). split; [reflexivity|]. clear W N. induction p as [|i p IH]; [reflexivity|]. cbn [flat_map map]. rewrite <- app_assoc, filter_app. cbn [filter app]. rewrite IH. destruct (i_note i); reflexivity.
Qed.
(** A comment that ends in a semicolon swallows the statement it stands behind *)
Theorem C91_semicolon_refuted l t rest : plain l -> continues l = false -> plain t -> continues (42 :: t) = true ->
  program (Item [l] (Some t) :: rest) = LComment (42 :: t ++ 10 :: l) :: program rest.
Proof.
  intros P C Pt Ct. unfold program. cbn [flat_map preproc i_note i_code app logical]. rewrite plain_macro, Ct by (intros [I|I]; [discriminate|contradiction]). rewrite (plain_macro _ P), C. cbn [negb andb]. f_equal. cbn [app]. rewrite <- app_assoc. reflexivity.
Qed.
(** A comment with & and a name in it becomes a call, of a function that vfpfunc.py does not have *)
Lemma macro_some a d b : plain a -> starts_name d = true -> macro_line (a ++ 38 :: d :: b) = true.
Proof. intros P D. induction a as [|c a IH]; cbn [app macro_line]; [rewrite Z.eqb_refl; exact D|]. destruct (Z.eqb_spec c 38) as [E|_]; [exfalso; apply P; left; congruence|]. apply IH. intros I. apply P. right. exact I. Qed.
Theorem C91_ampersand_refuted printable visit code a d b rest : plain a -> starts_name d = true -> well_formed (Item code None) ->
  let t := a ++ 38 :: d :: b in
  program (Item code (Some t) :: rest) = LMacro (42 :: t) :: kind (source (Item code None)) :: program rest /\
  line_code printable visit (LMacro (42 :: t)) = [u "vfpfunc.macro_eval(" ++ str_repr printable (42 :: t) ++ u ")"].
Proof.
  intros P D W t. split; [|reflexivity]. unfold program. cbn [flat_map preproc i_note i_code app logical]. unfold t at 1. change (42 :: a ++ 38 :: d :: b) with ((42 :: a) ++ 38 :: d :: b). rewrite macro_some; [|intros [I|I]; [discriminate|contradiction]|exact D]. f_equal. rewrite <- (logical_item _ _ W). reflexivity.
Qed.

(** ** Statements that cannot be converted *)
Lemma split_join t : M_Lit.join [10] (split_nl t) = t.
Proof.
  induction t as [|c t IH]; [reflexivity|]. cbn [split_nl]. destruct (Z.eqb_spec c 10) as [-> |_].
  - destruct (split_nl t) as [|l ls] eqn:E; [destruct t as [|d t]; [discriminate|cbn in E; destruct (d =? 10); [discriminate|destruct (split_nl t); discriminate]]|]. cbn [M_Lit.join app]. rewrite <- IH. reflexivity.
  - destruct (split_nl t) as [|l ls]; [cbn in *; rewrite <- IH; reflexivity|]. rewrite <- IH. destruct ls; reflexivity.
Qed.
Lemma split_no t l : In l (split_nl t) -> ~ In 10 l /\ forall c, In c l -> In c t.
Proof.
  revert l. induction t as [|c t IH]; intros l; [intros [<- |[]]; split; [intros []|intros ? []]|]. cbn [split_nl]. destruct (Z.eqb_spec c 10) as [-> |N].
  - intros [<- |I]; [split; [intros []|intros ? []]|]. destruct (IH l I) as [A B]. split; [exact A|]. intros d D. right. apply B. exact D.
  - destruct (split_nl t) as [|m ls].
    + intros [<- |[]]. split; [intros [E|[]]; congruence|intros d [<- |[]]; left; reflexivity].
    + intros [<- |I].
      * destruct (IH m (or_introl eq_refl)) as [A B]. split; [intros [E|I]; [congruence|contradiction]|]. intros d [<- |D]; [left; reflexivity|right; apply B; exact D].
      * destruct (IH l (or_intror I)) as [A B]. split; [exact A|]. intros d D. right. apply B. exact D.
Qed.
(** Each line of the statement is there, in order, after #FIX ME:, and the result is nothing but comments *)
Theorem C92_kept printable visit t : visit t = VRaises \/ visit t = VNone -> exists ls, M_Lit.join [10] ls = t /\ Forall (fun l => ~ In 10 l) ls /\
  line_code printable visit (LStmt t) = map (fun l => u "#FIX ME: " ++ l) (filter (fun l => negb (pystr_eqb l [])) ls) /\
  forall o, In o (line_code printable visit (LStmt t)) -> hd 0 o = 35 /\ ~ In 10 o /\ (~ In 13 t -> ~ In 13 o).
Proof.
  intros V. exists (split_nl t). split; [apply split_join|]. split; [apply Forall_forall; intros l I; apply (split_no _ _ I)|].
  assert (E : line_code printable visit (LStmt t) = fix_me t) by (cbn [line_code]; destruct V as [-> | ->]; reflexivity). rewrite E. split.
  - unfold fix_me. f_equal. apply filter_ext. intros [|c l]; reflexivity.
  - unfold fix_me. intros o I. apply in_map_iff in I as (l & <- & I). apply filter_In in I as [I _]. destruct (split_no _ _ I) as [A B]. split; [reflexivity|]. split.
    + intros J. apply in_app_or in J as [J|J]; [vm_compute in J; intuition discriminate|contradiction].
    + intros N J. apply in_app_or in J as [J|J]; [vm_compute in J; intuition discriminate|]. apply N, B, J.
Qed.
(** and if it has any text it does not vanish *)
Theorem C92_not_lost printable visit t c : visit t = VRaises \/ visit t = VNone -> In c t -> c <> 10 -> exists o, In o (line_code printable visit (LStmt t)) /\ In c o.
Proof.
  intros V I N. assert (E : line_code printable visit (LStmt t) = fix_me t) by (cbn [line_code]; destruct V as [-> | ->]; reflexivity). rewrite E. unfold fix_me.
  assert (G : exists l, In l (split_nl t) /\ In c l).
  { clear E V. induction t as [|d t IH]; [destruct I|]. cbn [split_nl]. destruct (Z.eqb_spec d 10) as [-> |Nd].
    - destruct I as [I|I]; [congruence|]. destruct (IH I) as (l & A & B). exists l. split; [right; exact A|exact B].
    - destruct I as [-> |I]; [destruct (split_nl t) as [|m ls]; eexists; (split; [left; reflexivity|left; reflexivity])|]. destruct (IH I) as (l & A & B). destruct (split_nl t) as [|m ls]; [destruct A|]. destruct A as [<- |A]; [exists (d :: m); split; [left; reflexivity|right; exact B]|exists l; split; [right; exact A|exact B]]. }
  destruct G as (l & A & B). exists (u "#FIX ME: " ++ l). split; [|apply in_or_app; right; exact B]. apply (in_map (fun l => u "#FIX ME: " ++ l)). apply filter_In. split; [exact A|]. destruct l; [destruct B|reflexivity].
Qed.
(** Macro substitution: the statement becomes a call, of a function that vfpfunc.py does not have, instead of a comment *)
Theorem C92_macro_refuted printable visit a d b rest : plain a -> starts_name d = true ->
  program (Item [a ++ 38 :: d :: b] None :: rest) = LMacro (a ++ 38 :: d :: b) :: program rest /\
  line_code printable visit (LMacro (a ++ 38 :: d :: b)) = [u "vfpfunc.macro_eval(" ++ str_repr printable (a ++ 38 :: d :: b) ++ u ")"].
Proof. intros P D. split; [|reflexivity]. unfold program. cbn [flat_map preproc i_note i_code app logical]. rewrite macro_some by assumption. reflexivity. Qed.
Print Assumptions C91_form.
Print Assumptions C91_kept.
Print Assumptions C91_decoration_refuted.
Print Assumptions C91_statements_partial.
Print Assumptions C91_semicolon_refuted.
Print Assumptions C91_ampersand_refuted.
Print Assumptions C92_kept.
Print Assumptions C92_not_lost.
Print Assumptions C92_macro_refuted.
Example C91_example : comment_code (u "*** Title ***") = [u "### Title ###"] /\ comment_code (u "* a note") = [u "#a note"] /\ comment_code (u "* * * *") = [u "* * * *"] /\ comment_code (u "*!* x = 1;" ++ [10] ++ u "   y = 2") = [u "#x = 1"; u "#y = 2"] /\
  program [Item [u "x = 1"] (Some (u " one;")); Item [u "y = 2 + ;"; u " 3"] (Some (u " two"))] = [LComment (u "* one;" ++ [10] ++ u "x = 1"); LComment (u "* two"); LStmt (u "y = 2 + ;" ++ [10] ++ u " 3")] /\
  program [Item [u "x = 1"] (Some (u " AT&T"))] = [LMacro (u "* AT&T"); LStmt (u "x = 1")].
Proof. vm_compute. repeat split. Qed.
Example C92_example : line_code (fun _ => true) (fun _ => VNone) (LStmt (u "DOEVENTS;" ++ [10; 10] ++ u " FORCE")) = [u "#FIX ME: DOEVENTS;"; u "#FIX ME:  FORCE"].
Proof. reflexivity. Qed.
