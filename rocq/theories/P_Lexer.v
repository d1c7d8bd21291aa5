(** Proofs about the lexer *)
From Verif Require Import PyBase PyStr M_Lexer S_Lexer.
From Coq Require Import Lia.
Open Scope Z_scope.

(** ** Following a rule character by character reads its texts *)
Lemma lang_void : forall s, ~ lang Void s.
Proof. intros s H; inversion H. Qed.
Lemma lang_cat_inv : forall a b s, lang (Cat a b) s -> exists x y, s = x ++ y /\ lang a x /\ lang b y.
Proof. intros a b s H; inversion H; subst; eauto. Qed.
Lemma lang_alt_iff : forall a b s, lang (Alt a b) s <-> lang a s \/ lang b s.
Proof. intros; split; [intros H; inversion H; subst; auto | intros [H | H]; [apply L_left | apply L_right]; auto]. Qed.
Lemma cat_iff : forall a b s, lang (cat a b) s <-> lang (Cat a b) s.
Proof.
  intros a b s; unfold cat.
  destruct a; try (destruct b; try reflexivity; split; [intros H; inversion H | intros H; apply lang_cat_inv in H as (x & y & -> & _ & H); inversion H]).
  - split; [intros H; inversion H | intros H; apply lang_cat_inv in H as (x & y & -> & H & _); inversion H].
  - split; [intros H; apply (L_cat Eps b [] s); [constructor | exact H] | intros H; apply lang_cat_inv in H as (x & y & -> & H & ?); inversion H; subst; auto].
Qed.
Lemma alt_iff : forall a b s, lang (alt a b) s <-> lang (Alt a b) s.
Proof.
  intros a b s. unfold alt.
  assert (V1 : lang b s <-> lang (Alt Void b) s) by (rewrite lang_alt_iff; split; [auto | intros [H | H]; [inversion H | auto]]).
  assert (V2 : lang a s <-> lang (Alt a Void) s) by (rewrite lang_alt_iff; split; [auto | intros [H | H]; [auto | inversion H]]).
  destruct a; [exact V1 | | | | | ]; (destruct b; [exact V2 | | | | | ]); reflexivity.
Qed.
Lemma nullable_iff : forall r, nullable r = true <-> lang r [].
Proof.
  induction r; cbn [nullable].
  - split; [discriminate | intros H; inversion H].
  - split; constructor.
  - split; [discriminate | intros H; inversion H].
  - rewrite Bool.andb_true_iff, IHr1, IHr2. split.
    + intros [A B]; apply (L_cat _ _ [] []); auto.
    + intros H; apply lang_cat_inv in H as (x & y & E & A & B). symmetry in E; apply app_eq_nil in E as [-> ->]; auto.
  - rewrite Bool.orb_true_iff, IHr1, IHr2, lang_alt_iff; reflexivity.
  - split; constructor.
Qed.
Lemma star_inv : forall a c s, lang (Star a) (c :: s) -> exists x y, s = x ++ y /\ lang a (c :: x) /\ lang (Star a) y.
Proof.
  intros a c s H. remember (Star a) as r eqn:Er. remember (c :: s) as t eqn:Et. revert s Et.
  induction H; try discriminate; intros s0 Et; injection Er as ->.
  destruct s as [|d s]; cbn in Et.
  - apply IHlang2; auto.
  - injection Et as -> <-. eauto.
Qed.
Lemma step_iff : forall r c s, lang (step c r) s <-> lang r (c :: s).
Proof.
  induction r; intros c s; cbn [step].
  - split; intros H; inversion H.
  - split; intros H; inversion H.
  - unfold within. destruct (xorb other _) eqn:E.
    + split; [intros H; inversion H; subst; constructor; auto | intros H; inversion H; subst; constructor].
    + split; intros H; inversion H; subst. congruence.
  - assert (X : lang (cat (step c r1) r2) s <-> exists x y, s = x ++ y /\ lang r1 (c :: x) /\ lang r2 y).
    { rewrite cat_iff; split.
      - intros H; apply lang_cat_inv in H as (x & y & -> & A & B). apply IHr1 in A; eauto.
      - intros (x & y & -> & A & B). apply L_cat; auto. apply IHr1; auto. }
    assert (Y : lang (Cat r1 r2) (c :: s) <-> (exists x y, s = x ++ y /\ lang r1 (c :: x) /\ lang r2 y) \/ (lang r1 [] /\ lang r2 (c :: s))).
    { split.
      - intros H; apply lang_cat_inv in H as (x & y & E & A & B). destruct x as [|d x]; cbn in E; [subst; auto | injection E as -> ->; left; eauto].
      - intros [(x & y & -> & A & B) | [A B]]; [apply (L_cat _ _ (c :: x) y); auto | apply (L_cat _ _ [] (c :: s)); auto]. }
    rewrite Y. destruct (nullable r1) eqn:N.
    + rewrite alt_iff, lang_alt_iff, X, IHr2. apply nullable_iff in N. tauto.
    + rewrite X. split; [auto | intros [H | [H _]]; [auto | apply nullable_iff in H; congruence]].
  - rewrite alt_iff, !lang_alt_iff, IHr1, IHr2. reflexivity.
  - rewrite cat_iff; split.
    + intros H; apply lang_cat_inv in H as (x & y & -> & A & B). apply IHr in A. apply (L_more _ (c :: x) y); auto.
    + intros H; apply star_inv in H as (x & y & -> & A & B). apply L_cat; auto. apply IHr; auto.
Qed.
Definition steps (s : pystr) (r : rx) : rx := fold_left (fun r c => step c r) s r.
Lemma steps_iff : forall s r, lang r s <-> nullable (steps s r) = true.
Proof. induction s; intros r; [symmetry; apply nullable_iff | rewrite <- step_iff; apply IHs]. Qed.
Lemma steps_snoc : forall s c r, steps (s ++ [c]) r = step c (steps s r).
Proof. intros; unfold steps; rewrite fold_left_app; reflexivity. Qed.

(** ** All rules together *)
Definition after (st : state) (t : pystr) : state := filter (fun p => live (snd p)) (map (fun p => (fst p, steps t (snd p))) st).
Definition fm (st : state) (t : pystr) : option string := option_map fst (find (fun p => nullable (steps t (snd p))) st).
Lemma follow_after : forall st t c, t <> [] -> follow c (after st t) = after st (t ++ [c]).
Proof.
  intros st t c Ht. unfold follow, after. induction st as [|[k r] st IH]; [reflexivity|]. cbn [map filter fst snd]. rewrite steps_snoc.
  destruct (live (steps t r)) eqn:L.
  - cbn [map filter fst snd]. rewrite IH; reflexivity.
  - destruct (steps t r); try discriminate. cbn. exact IH.
Qed.
Lemma follow_first : forall st c, follow c st = after st [c].
Proof. reflexivity. Qed.
Lemma accepted_after : forall st t, accepted (after st t) = fm st t.
Proof.
  intros st t. unfold accepted, after, fm. induction st as [|[k r] st IH]; [reflexivity|]. cbn [map filter find fst snd].
  destruct (nullable (steps t r)) eqn:N.
  - destruct (steps t r) eqn:E; try discriminate; cbn [live filter snd]; rewrite N; reflexivity.
  - destruct (live (steps t r)); cbn [filter snd]; [rewrite N|]; exact IH.
Qed.
Fixpoint longest (st : state) (t s : pystr) (best : option (string * nat)) : option (string * nat) :=
  match s with
  | [] => best
  | c :: s => longest st (t ++ [c]) s (match fm st (t ++ [c]) with Some k => Some (k, length (t ++ [c])) | None => best end)
  end.
Lemma after_nil : forall st t c, after st t = [] -> after st (t ++ [c]) = [].
Proof.
  intros st t c H. unfold after in *. induction st as [|[k r] st IH]; [reflexivity|]. cbn [map filter fst snd] in *.
  destruct (live (steps t r)) eqn:L; [discriminate|]. rewrite steps_snoc. destruct (steps t r); try discriminate. cbn. auto.
Qed.
Lemma longest_dead : forall st s t best, after st t = [] -> longest st t s best = best.
Proof.
  induction s as [|c s IH]; intros t best H; [reflexivity|]. cbn [longest]. rewrite IH by (apply after_nil; auto).
  rewrite <- accepted_after, after_nil; auto.
Qed.
Lemma munch_longest : forall st s t best, t <> [] -> munch (after st t) (length t) best s = longest st t s best.
Proof.
  induction s as [|c s IH]; intros t best Ht; [reflexivity|]. cbn [munch longest].
  rewrite follow_after by auto. destruct (after st (t ++ [c])) eqn:E.
  - rewrite longest_dead by auto. rewrite <- accepted_after, E. reflexivity.
  - rewrite <- E, accepted_after. replace (S (length t)) with (length (t ++ [c])) by (rewrite app_length; cbn; lia). apply IH. destruct t; discriminate.
Qed.
Lemma munch_longest0 : forall st s, munch st 0%nat None s = longest st [] s None.
Proof.
  intros st [|c s]; [reflexivity|]. cbn [munch longest app]. rewrite follow_first. destruct (after st [c]) eqn:E.
  - rewrite longest_dead by auto. rewrite <- accepted_after, E. reflexivity.
  - rewrite <- E, accepted_after. apply (munch_longest st s [c]). discriminate.
Qed.
Lemma longest_none : forall st s t best, (forall x y, s = x ++ y -> x <> [] -> fm st (t ++ x) = None) -> longest st t s best = best.
Proof.
  induction s as [|c s IH]; intros t best H; [reflexivity|]. cbn [longest].
  rewrite (H [c] s eq_refl) by discriminate. apply IH. intros x y -> Hx. rewrite <- app_assoc. apply (H (c :: x) y); auto. discriminate.
Qed.
Lemma longest_app : forall st s x t best k,
  fm st (t ++ x) = Some k -> x <> [] ->
  (forall y z, s = y ++ z -> y <> [] -> fm st (t ++ x ++ y) = None) ->
  longest st t (x ++ s) best = Some (k, length (t ++ x)).
Proof.
  intros st s x. induction x as [|c x IH]; intros t best k H Hx Hn; [congruence|]. cbn [app longest]. destruct x as [|d x].
  - cbn [app]. rewrite H. apply longest_none. intros y z E Hy. rewrite <- app_assoc. apply (Hn y z); auto.
  - replace (t ++ c :: d :: x) with ((t ++ [c]) ++ d :: x) by (rewrite <- app_assoc; reflexivity).
    apply IH; [rewrite <- app_assoc; auto | discriminate |]. intros y z E Hy. rewrite <- app_assoc. apply (Hn y z); auto.
Qed.
(** the longest match *)
Lemma munch_best : forall st t s k,
  t <> [] -> fm st t = Some k -> (forall y z, s = y ++ z -> y <> [] -> fm st (t ++ y) = None) -> munch st 0%nat None (t ++ s) = Some (k, length t).
Proof. intros st t s k Ht H Hn. rewrite munch_longest0. apply (longest_app st s t [] None k); auto. Qed.
Lemma longest_some : forall st s t best k n, longest st t s best = Some (k, n) ->
  (best = Some (k, n) /\ forall x y, s = x ++ y -> x <> [] -> fm st (t ++ x) = None) \/
  (exists x y, s = x ++ y /\ x <> [] /\ n = length (t ++ x) /\ fm st (t ++ x) = Some k /\ forall z w, y = z ++ w -> z <> [] -> fm st (t ++ x ++ z) = None).
Proof.
  induction s as [|c s IH]; intros t best k n H; cbn [longest] in H.
  - left; split; auto. intros x y E Hx. symmetry in E; apply app_eq_nil in E as [-> _]; congruence.
  - destruct (fm st (t ++ [c])) as [k'|] eqn:E.
    + apply IH in H as [[H Hn] | (x & y & -> & Hx & Hl & Hf & Hn)].
      * injection H as Hk Hl; subst k' n. right. exists [c], s. repeat split; auto; try discriminate. intros z w -> Hz. specialize (Hn z w eq_refl Hz). rewrite <- app_assoc in Hn. exact Hn.
      * right. exists (c :: x), y. rewrite <- app_assoc in Hl, Hf. repeat split; auto; try discriminate.
        intros z w -> Hz. specialize (Hn z w eq_refl Hz). rewrite <- app_assoc in Hn. exact Hn.
    + apply IH in H as [[H Hn] | (x & y & -> & Hx & Hl & Hf & Hn)].
      * left; split; auto. intros x y Ex Hx. destruct x as [|d x]; [congruence|]. cbn in Ex; injection Ex as -> ->.
        destruct x as [|e x]; [exact E|]. specialize (Hn (e :: x) y eq_refl ltac:(discriminate)). rewrite <- app_assoc in Hn. exact Hn.
      * right. exists (c :: x), y. rewrite <- app_assoc in Hl, Hf. repeat split; auto; try discriminate.
        intros z w -> Hz. specialize (Hn z w eq_refl Hz). rewrite <- app_assoc in Hn. exact Hn.
Qed.
Lemma longest_is : forall st s t best, best <> None -> longest st t s best <> None.
Proof. induction s as [|c s IH]; intros t best H; cbn [longest]; auto. apply IH. destruct (fm st (t ++ [c])); [discriminate | auto]. Qed.

Lemma find_split : forall {A} (f : A -> bool) l x, find f l = Some x -> exists a b, l = a ++ x :: b /\ f x = true /\ forall y, In y a -> f y = false.
Proof.
  induction l as [|y l IH]; intros x H; [discriminate|]. cbn in H. destruct (f y) eqn:E.
  - injection H as ->. exists [], l; repeat split; auto. intros y [].
  - apply IH in H as (a & b & -> & Hf & Ha). exists (y :: a), b. repeat split; auto. intros z [<- | Hz]; auto.
Qed.
Lemma unmatched_any : forall c, fm rules [c] <> None.
Proof.
  intros c. unfold fm. destruct (find _ rules) eqn:E; [discriminate|].
  exfalso. assert (H := find_none _ _ E ("UNMATCHED"%string, R_UNMATCHED)). cbn beta in H.
  assert (I : In ("UNMATCHED"%string, R_UNMATCHED) rules) by (apply (nth_error_In rules 311); reflexivity).
  specialize (H I). cbn in H. discriminate.
Qed.
Lemma munch_some : forall c s, exists k n, munch rules 0%nat None (c :: s) = Some (k, n).
Proof.
  intros c s. rewrite munch_longest0. cbn [longest app]. destruct (fm rules [c]) as [k|] eqn:E; [|apply unmatched_any in E as []].
  destruct (longest rules [c] s (Some (k, length [c]))) as [[k' n]|] eqn:L; [eauto | apply longest_is in L as []; discriminate].
Qed.
Lemma nil_no_rule : forall k r, In (k, r) rules -> nullable r = false.
Proof.
  assert (H : forallb (fun p => negb (nullable (snd p))) rules = true) by (vm_compute; reflexivity).
  intros k r I. rewrite forallb_forall in H. specialize (H _ I). cbn [snd] in H. apply Bool.negb_true_iff in H; exact H.
Qed.
Lemma fm_none : forall st t, fm st t = None -> forall k r, In (k, r) st -> ~ lang r t.
Proof.
  intros st t H k r I L. unfold fm in H. destruct (find _ st) eqn:E; [discriminate|]. assert (X := find_none _ _ E (k, r) I). cbn [snd] in X.
  apply steps_iff in L. cbn beta in X. congruence.
Qed.
Lemma fm_some : forall st t k, fm st t = Some k -> exists a r b, st = a ++ (k, r) :: b /\ lang r t /\ forall k' r', In (k', r') a -> ~ lang r' t.
Proof.
  intros st t k H. unfold fm in H. destruct (find _ st) as [[k0 r]|] eqn:E; [|discriminate]. injection H as ->.
  apply find_split in E as (a & b & -> & Hf & Ha). exists a, r, b. repeat split; auto; [apply steps_iff; auto|].
  intros k' r' I L. apply steps_iff in L. apply Ha in I. cbn [snd] in I. congruence.
Qed.
Lemma munch_first : forall s k n, munch rules 0%nat None s = Some (k, n) ->
  first_token s k (firstn n s) /\ s = firstn n s ++ skipn n s /\ (0 < n <= length s)%nat.
Proof.
  intros s k n H. rewrite munch_longest0 in H. apply longest_some in H as [[H _] | (x & y & -> & Hx & -> & Hf & Hn)]; [discriminate|].
  cbn [app] in *. rewrite firstn_app, firstn_all, Nat.sub_diag, skipn_app, skipn_all, Nat.sub_diag. cbn [firstn skipn]. rewrite app_nil_r. cbn [app].
  split; [|split; [reflexivity | rewrite app_length; destruct x; cbn; [congruence | lia]]].
  split; [exact Hx|]. split; [eauto|]. split; [apply fm_some in Hf; auto|].
  intros k' r' t' rest' I L E.
  destruct (Nat.le_gt_cases (length t') (length x)) as [Hle | Hgt]; [auto|exfalso].
  assert (P : exists z, t' = x ++ z /\ z <> []).
  { exists (skipn (length x) t'). assert (E1 : firstn (length x) t' = x).
    { assert (F : firstn (length x) (x ++ y) = firstn (length x) (t' ++ rest')) by (rewrite E; reflexivity).
      rewrite firstn_app, firstn_all, Nat.sub_diag in F. cbn [firstn] in F. rewrite app_nil_r in F.
      rewrite firstn_app in F. replace (length x - length t')%nat with 0%nat in F by lia. cbn [firstn] in F. rewrite app_nil_r in F. auto. }
    split; [rewrite <- E1 at 1; symmetry; apply firstn_skipn|]. intros Hs. apply (f_equal (@length Z)) in Hs. rewrite skipn_length in Hs. cbn in Hs. lia. }
  destruct P as (z & -> & Hz). rewrite <- app_assoc in E. apply app_inv_head in E.
  apply (fm_none _ _ (Hn z rest' E Hz) _ _ I L).
Qed.
Lemma scan_reads : forall fuel s, (length s <= fuel)%nat -> reads s (scan fuel s).
Proof.
  induction fuel as [|fuel IH]; intros s H; destruct s as [|c s]; try (cbn in H; lia); try constructor.
  cbn [scan]. destruct (munch_some c s) as (k & n & E). rewrite E. apply munch_first in E as (F & S & L).
  rewrite S at 1. constructor; [rewrite <- S; exact F|]. apply IH. rewrite skipn_length. lia.
Qed.
Lemma tokens_reads : forall s, reads s (tokens s).
Proof. intros; apply scan_reads; auto. Qed.
Lemma first_token_fun : forall s k t k' t', first_token s k t -> first_token s k' t' -> k = k' /\ t = t'.
Proof.
  intros s k t k' t' (N & (rest & E) & (a & r & b & R & L & B) & M) (N' & (rest' & E') & (a' & r' & b' & R' & L' & B') & M').
  assert (H1 := M k' r' t' rest' ltac:(rewrite R'; apply in_elt) L' E').
  assert (H2 := M' k r t rest ltac:(rewrite R; apply in_elt) L E).
  assert (T : t = t').
  { assert (F : firstn (length t) s = t) by (rewrite E, firstn_app, firstn_all, Nat.sub_diag; cbn; apply app_nil_r).
    assert (F' : firstn (length t') s = t') by (rewrite E', firstn_app, firstn_all, Nat.sub_diag; cbn; apply app_nil_r).
    rewrite <- F, <- F'. f_equal. lia. }
  subst t'. split; [|reflexivity].
  rewrite R in R'. clear -R' L L' B B'. revert a' R' B'. induction a as [|p a IH]; intros a' R' B'.
  - destruct a' as [|p' a']; cbn in R'; [congruence|]. injection R' as <- ->. exfalso. apply (B' k r); [left; auto | auto].
  - destruct a' as [|p' a']; cbn in R'; [injection R' as -> Eb; exfalso; apply (B k' r'); [left; auto | auto]|].
    injection R' as Ep R'. apply (IH (fun k r I => B k r (or_intror I)) a' R' (fun k r I => B' k r (or_intror I))).
Qed.
Lemma reads_fun : forall s ts ts', reads s ts -> reads s ts' -> ts = ts'.
Proof.
  intros s ts ts' H. revert ts'. induction H as [| k t rest ts F R IH]; intros ts' H'.
  - inversion H' as [E | k t rest ts F R E]; [reflexivity|]. apply app_eq_nil in E as [-> _]. destruct F as [F _]; congruence.
  - inversion H' as [E | k' t' rest' ts0 F' R' E].
    + symmetry in E; apply app_eq_nil in E as [-> _]. destruct F as [F _]; congruence.
    + rewrite E in F'. destruct (first_token_fun _ _ _ _ _ F F') as [-> ->]. apply app_inv_head in E as ->. f_equal; auto.
Qed.
Lemma tokens_text : forall s, flat_map snd (tokens s) = s.
Proof. intros s. assert (H := tokens_reads s). induction H; [reflexivity|]. cbn. rewrite IHreads; reflexivity. Qed.

(** ** Letter case *)
Definition cases : list Z := map Z.of_nat (seq 65 26).
Definition cls_closed (l : list (Z * Z)) : bool := forallb (fun c => Bool.eqb (within c l) (within (c + 32) l)) cases.
Fixpoint closed (r : rx) : bool :=
  match r with Void | Eps => true | Cls _ l => cls_closed l | Cat a b | Alt a b => closed a && closed b | Star a => closed a end.
Lemma rules_closed : forallb (fun p => closed (snd p)) rules = true.
Proof. vm_compute; reflexivity. Qed.
Lemma within_case : forall l c d, cls_closed l = true -> up c = up d -> within c l = within d l.
Proof.
  assert (H : forall l c, cls_closed l = true -> 65 <= c <= 90 -> within c l = within (c + 32) l).
  { intros l c H R. unfold cls_closed in H. rewrite forallb_forall in H.
    assert (I : In c cases) by (unfold cases; replace c with (Z.of_nat (Z.to_nat c)) by lia; apply in_map, in_seq; lia).
    apply H in I. apply Bool.eqb_prop in I. exact I. }
  intros l c d C E. unfold up in E.
  destruct ((97 <=? c) && (c <=? 122)) eqn:A; destruct ((97 <=? d) && (d <=? 122)) eqn:B.
  - f_equal; lia.
  - replace c with (d + 32) by lia. symmetry. apply H; auto. lia.
  - replace d with (c + 32) by lia. apply H; auto. lia.
  - congruence.
Qed.
Lemma closed_cat : forall a b, closed a = true -> closed b = true -> closed (cat a b) = true.
Proof. intros a b A B. unfold cat. destruct a; auto; destruct b; auto; cbn [closed] in *; rewrite A; auto. Qed.
Lemma closed_alt : forall a b, closed a = true -> closed b = true -> closed (alt a b) = true.
Proof. intros a b A B. unfold alt. destruct a; auto; destruct b; auto; cbn [closed] in *; rewrite A; auto. Qed.
Lemma step_closed : forall r c, closed r = true -> closed (step c r) = true.
Proof.
  induction r; intros c H; cbn [step closed] in *; auto.
  - destruct (xorb _ _); reflexivity.
  - apply andb_prop in H as [A B]. destruct (nullable r1); [apply closed_alt; auto; apply closed_cat; auto | apply closed_cat; auto].
  - apply andb_prop in H as [A B]. apply closed_alt; auto.
  - apply closed_cat; auto.
Qed.
Lemma step_case : forall r c d, closed r = true -> up c = up d -> step c r = step d r.
Proof.
  induction r; intros c d H E; cbn [step closed] in *; auto.
  - rewrite (within_case l c d); auto.
  - apply andb_prop in H as [A B]. rewrite (IHr1 c d), (IHr2 c d); auto.
  - apply andb_prop in H as [A B]. rewrite (IHr1 c d), (IHr2 c d); auto.
  - rewrite (IHr c d); auto.
Qed.
Definition closed_state (st : state) := forallb (fun p => closed (snd p)) st.
Lemma follow_case : forall st c d, closed_state st = true -> up c = up d -> follow c st = follow d st /\ closed_state (follow c st) = true.
Proof.
  intros st c d H E. unfold follow, closed_state in *. induction st as [|[k r] st IH]; [split; reflexivity|].
  cbn [forallb map filter fst snd] in *. apply andb_prop in H as [A B]. rewrite (step_case r c d A E). destruct (IH B) as [X Y]. rewrite X in *.
  assert (S := step_closed r d A). destruct (live (step d r)); cbn [forallb snd]; [rewrite S|]; auto.
Qed.
Lemma munch_case : forall s s' st n best, closed_state st = true -> upper s = upper s' -> munch st n best s = munch st n best s'.
Proof.
  induction s as [|c s IH]; intros [|d s'] st n best H E; try discriminate; [reflexivity|]. injection E as Ec Es. cbn [munch].
  destruct (follow_case st c d H Ec) as [X Y]. rewrite <- X. destruct (follow c st); [reflexivity|]. apply IH; auto.
Qed.
Lemma scan_case : forall fuel s s', upper s = upper s' ->
  map (fun t => (fst t, upper (snd t))) (scan fuel s) = map (fun t => (fst t, upper (snd t))) (scan fuel s').
Proof.
  induction fuel as [|fuel IH]; intros s s' E; [reflexivity|]. destruct s as [|c s], s' as [|d s']; try discriminate; [reflexivity|].
  cbn [scan]. rewrite (munch_case (c :: s) (d :: s') rules 0%nat None rules_closed E). destruct (munch rules 0%nat None (d :: s')) as [[k n]|]; [|reflexivity].
  cbn [map fst snd]. unfold upper in *. rewrite <- !firstn_map, E. f_equal. apply IH. rewrite <- !skipn_map, E. reflexivity.
Qed.
Lemma tokens_case : forall s s', upper s = upper s' ->
  map (fun t => (fst t, upper (snd t))) (tokens s) = map (fun t => (fst t, upper (snd t))) (tokens s').
Proof.
  intros s s' E. unfold tokens. replace (length s') with (length s) by (apply (f_equal (@length Z)) in E; unfold upper in E; rewrite !map_length in E; exact E).
  apply scan_case; auto.
Qed.
