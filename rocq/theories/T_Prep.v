(** Properties C48 (constants), C49 (conditional compilation), C71 (#INCLUDE) of the preprocessor. *)
From Verif Require Import PyBase PyStr M_Prep S_Prep.
Open Scope Z_scope.

(** The memory after a history: it answers as [current] does *)
Definition agrees (h : list event) (m : memory) : Prop := forall n, get m (lower n) = current h n.
Lemma same_char_lower x y : same_char x y = (lower_char x =? lower_char y).
Proof.
  unfold same_char, lower_char. destruct (Z.leb_spec 65 x); destruct (Z.leb_spec x 90); destruct (Z.leb_spec 65 y); destruct (Z.leb_spec y 90); cbn [andb orb];
    repeat match goal with |- context [?a =? ?b] => destruct (Z.eqb_spec a b) end; cbn [orb]; try reflexivity; lia.
Qed.
Lemma same_name_lower a : forall b, same_name a b = pystr_eqb (lower a) (lower b).
Proof. induction a as [|x a IH]; intros [|y b]; try reflexivity. cbn [same_name lower map pystr_eqb]. rewrite same_char_lower. f_equal. apply IH. Qed.
Lemma eqb_refl a : pystr_eqb a a = true.
Proof. destruct (pystr_eqb_spec a a); congruence. Qed.
Lemma get_remove m k j : get (remove m k) j = if pystr_eqb k j then None else get m j.
Proof.
  induction m as [|[x v] m IH]; cbn [remove get]; [destruct (pystr_eqb k j); reflexivity|]. destruct (pystr_eqb_spec x k) as [->|H].
  - rewrite IH. destruct (pystr_eqb k j); reflexivity.
  - cbn [get]. rewrite IH. destruct (pystr_eqb_spec x j) as [->|_]; [|reflexivity]. destruct (pystr_eqb_spec k j); [congruence|reflexivity].
Qed.
Lemma get_set m k v j : get (set m k v) j = if pystr_eqb k j then Some v else get m j.
Proof. unfold set. cbn [get]. rewrite get_remove. destruct (pystr_eqb k j); reflexivity. Qed.
Lemma get_update m n j : get (update m n) j = match get n j with Some v => Some v | None => get m j end.
Proof. induction n as [|[k v] n IH]; [reflexivity|]. cbn [update fold_right]. fold (update m n). rewrite get_set. cbn [get]. destruct (pystr_eqb k j); [reflexivity|exact IH]. Qed.
Lemma agrees_nil : agrees [] [].
Proof. intros n. reflexivity. Qed.
Lemma agrees_def h m n v : agrees h m -> agrees (EDef n v :: h) (set m (lower n) v).
Proof. intros A k. rewrite get_set. cbn [current]. rewrite same_name_lower, A. reflexivity. Qed.
Lemma agrees_undef h m n : agrees h m -> agrees (EUndef n :: h) (remove m (lower n)).
Proof. intros A k. rewrite get_remove. cbn [current]. rewrite same_name_lower, A. reflexivity. Qed.

Lemma drop_ws_spec l : exists a, l = a ++ drop_ws l /\ Forall blank a /\ match drop_ws l with [] => True | t :: _ => ~ blank t end.
Proof.
  induction l as [|t l IH]; [exists []; repeat split; constructor|]. cbn [drop_ws]. destruct (t_type t) eqn:E.
  - destruct IH as (a & EL & F & D). exists (t :: a). repeat split; [cbn [app]; f_equal; exact EL|constructor; [exact E|exact F]|exact D].
  - exists []. repeat split; [constructor|]. unfold blank. congruence.
  - exists []. repeat split; [constructor|]. unfold blank. congruence.
Qed.
Lemma drop_tail_spec l : exists a, l = a ++ drop_tail l /\ Forall blank_or_comment a /\ match drop_tail l with [] => True | t :: _ => ~ blank_or_comment t end.
Proof.
  unfold blank_or_comment. induction l as [|t l IH]; [exists []; repeat split; constructor|]. cbn [drop_tail]. destruct (t_type t) eqn:E.
  1, 2: destruct IH as (a & EL & F & D); exists (t :: a); repeat split; [cbn [app]; f_equal; exact EL|constructor; [rewrite E; auto|exact F]|exact D].
  exists []. repeat split; [constructor|]. rewrite E. intros [|]; discriminate.
Qed.
Lemma trim_definition l : definition l (trim l).
Proof.
  unfold definition, trim. destruct (drop_ws_spec l) as (a & EL & FA & DA). destruct (drop_tail_spec (rev (drop_ws l))) as (b & EB & FB & DB).
  set (v := drop_tail (rev (drop_ws l))) in *. assert (E : drop_ws l = rev v ++ rev b) by (rewrite <- rev_app_distr, <- EB, rev_involutive; reflexivity).
  exists a, (rev b). repeat split.
  - rewrite <- E. exact EL.
  - exact FA.
  - apply Forall_rev. exact FB.
  - rewrite E in DA. destruct (rev v) as [|t w]; [exact I|exact DA].
  - intros w t EV. assert (v = t :: rev w) as X by (rewrite <- (rev_involutive v), EV, rev_app_distr; reflexivity). rewrite X in DB. exact DB.
Qed.
Lemma definition_unique l v : definition l v -> v = trim l.
Proof.
  intros (a & b & -> & FA & FB & D & T). unfold trim.
  assert (X : forall a r, Forall blank a -> match r with [] => True | t :: _ => ~ blank t end -> drop_ws (a ++ r) = drop_ws r).
  { clear. intros a r F D. induction F as [|t a H _ IH]; [reflexivity|]. cbn [app drop_ws]. rewrite H. exact IH. }
  assert (Y : forall a r, Forall blank_or_comment a -> drop_tail (a ++ r) = drop_tail r).
  { clear. intros a r F. induction F as [|t a H _ IH]; [reflexivity|]. cbn [app drop_tail]. destruct H as [-> | ->]; exact IH. }
  assert (Z0 : forall r, match r with [] => True | t :: _ => ~ blank t end -> drop_ws r = r).
  { clear. intros [|t r] H; [reflexivity|]. cbn [drop_ws]. unfold blank in H. destruct (t_type t); [congruence|reflexivity|reflexivity]. }
  assert (D0 : forall l, Forall blank_or_comment l -> drop_tail l = []).
  { clear. intros l F. induction F as [|t a H _ IH]; [reflexivity|]. cbn [drop_tail]. destruct H as [-> | ->]; exact IH. }
  destruct v as [|t v].
  - cbn [app]. symmetry. assert (F : Forall blank_or_comment (drop_ws (a ++ b))).
    { destruct (drop_ws_spec (a ++ b)) as (c & E & _ & _). assert (Forall blank_or_comment (a ++ b)) as H.
      { apply Forall_app. split; [eapply Forall_impl; [|exact FA]; intros x Hx; left; exact Hx|exact FB]. }
      rewrite E in H. apply Forall_app in H. apply H. }
    rewrite D0 by (apply Forall_rev; exact F). reflexivity.
  - rewrite X by (assumption || exact D). rewrite Z0 by exact D. rewrite rev_app_distr, Y by (apply Forall_rev; exact FB).
    assert (E : drop_tail (rev (t :: v)) = rev (t :: v)).
    { destruct (rev (t :: v)) as [|s w] eqn:R; [reflexivity|]. assert (t :: v = rev w ++ [s]) as Q by (rewrite <- (rev_involutive (t :: v)), R; reflexivity).
      specialize (T _ _ Q). cbn [drop_tail]. unfold blank_or_comment in T. destruct (t_type s); [exfalso; auto|exfalso; auto|reflexivity]. }
    rewrite E, rev_involutive. reflexivity.
Qed.

Lemma replace_out h m toks : agrees h m -> replace_define_tokens m toks = line_out h toks.
Proof.
  intros A. unfold replace_define_tokens, line_out.
  assert (G : forall hid ret, replace_loop m toks hid ret =
    (hid ++ flat_map (fun t => match t_type t, current h (t_text t) with TComment, None => [Tok TComment (42 :: skipn 2 (t_text t) ++ [10])] | _, _ => [] end) toks)
    ++ ret ++ flat_map (fun t => match current h (t_text t), t_type t with Some v, _ => v | None, TComment => [] | None, _ => [t] end) toks); [|apply G].
  induction toks as [|t toks IH]; intros hid ret; [cbn; rewrite !app_nil_r; reflexivity|]. cbn [replace_loop flat_map]. rewrite A. destruct (current h (t_text t)) as [v|].
  - rewrite IH. destruct (t_type t); cbn [app]; rewrite <- ?app_assoc; reflexivity.
  - destruct (t_type t); rewrite IH; cbn [app]; rewrite <- ?app_assoc; reflexivity.
Qed.
Lemma outputs_prep ev h ls o h' : outputs h ls o h' -> forall m, agrees h m -> exists m', preps ev m ls = Ok (o, m') /\ agrees h' m'.
Proof.
  induction 1 as [h|h toks ls o h' _ IH|h n rest v ls o h' D _ IH|h n ls o h' D _ IH]; intros m A.
  - exists m. split; [reflexivity|exact A].
  - destruct (IH m A) as (m' & E & A'). exists m'. split; [|exact A']. cbn [preps prep rbind]. rewrite E. cbn [rbind]. rewrite (replace_out h m toks A). reflexivity.
  - rewrite (definition_unique _ _ D) in IH. destruct (IH _ (agrees_def h m n _ A)) as (m' & E & A'). exists m'. split; [|exact A']. cbn [preps prep rbind]. rewrite E. reflexivity.
  - destruct (IH _ (agrees_undef h m n A)) as (m' & E & A'). exists m'. split; [|exact A']. cbn [preps prep]. rewrite A. destruct (current h n); [|congruence]. cbn [rbind]. rewrite E. reflexivity.
Qed.
Lemma straight_outputs ev h ls m : straight ls -> agrees h m ->
  (exists o h', outputs h ls o h') \/ (preps ev m ls = Err KeyError /\ forall o h', ~ outputs h ls o h').
Proof.
  revert h m. induction ls as [|l ls IH]; intros h m S A; [left; exists [], h; constructor|].
  destruct l as [toks|n rest|n| | | |]; cbn [straight] in S; try contradiction.
  - destruct (IH h m S A) as [(o & h' & H)|[E N]]; [left; do 2 eexists; constructor; exact H|right]. cbn [preps prep rbind]. rewrite E. split; [reflexivity|].
    intros o h' H. inversion H; subst. eapply N; eassumption.
  - destruct (IH _ _ S (agrees_def h m n (trim rest) A)) as [(o & h' & H)|[E N]]; [left; do 2 eexists; econstructor; [apply trim_definition|exact H]|right].
    cbn [preps prep rbind]. rewrite E. split; [reflexivity|]. intros o h' H. inversion H as [| |? ? ? v ? ? ? D H'|]; subst. apply definition_unique in D. subst v. eapply N; eassumption.
  - cbn [preps prep]. rewrite A. destruct (current h n) eqn:C.
    + destruct (IH _ _ S (agrees_undef h m n A)) as [(o & h' & H)|[E N]]; [left; do 2 eexists; constructor; [congruence|exact H]|right].
      cbn [rbind]. rewrite E. split; [reflexivity|]. intros o h' H. inversion H; subst. eapply N; eassumption.
    + right. split; [reflexivity|]. intros o h' H. inversion H; subst. congruence.
Qed.

(** * C48 *)
(** Without conditionals and #INCLUDE: the output is that of the history reading, and exists exactly when every #UNDEFINE names a constant *)
Theorem C48_constants_partial ev ls o : straight ls -> preprocess ev ls = Ok o <-> exists h, outputs [] ls o h.
Proof.
  intros S. unfold preprocess. split.
  - intros E. destruct (straight_outputs ev [] ls [] S agrees_nil) as [(o' & h & H)|[E' _]]; [|rewrite E' in E; discriminate].
    destruct (outputs_prep ev _ _ _ _ H [] agrees_nil) as (m & E' & _). rewrite E' in E. injection E as <-. eauto.
  - intros (h & H). destruct (outputs_prep ev _ _ _ _ H [] agrees_nil) as (m & E & _). rewrite E. reflexivity.
Qed.
Print Assumptions C48_constants_partial.

Lemma papp_preps ev a : forall b m, preps ev m (papp a b) = rbind (preps ev m a) (fun '(x, m) => rbind (preps ev m b) (fun '(y, m) => Ok (x ++ y, m))).
Proof.
  induction a as [|l a IH]; intros b m; cbn [papp preps].
  - cbn [rbind]. destruct (preps ev m b) as [[y m']|]; reflexivity.
  - destruct (prep ev m l) as [[x m1]|e]; [|reflexivity]. cbn [rbind]. rewrite IH. destruct (preps ev m1 a) as [[y m2]|]; [|reflexivity]. cbn [rbind].
    destruct (preps ev m2 b) as [[z m3]|]; [|reflexivity]. cbn [rbind]. rewrite app_assoc. reflexivity.
Qed.
Lemma papp_outputs h a o h1 : outputs h a o h1 -> forall b o' h2, outputs h1 b o' h2 -> outputs h (papp a b) (o ++ o') h2.
Proof.
  induction 1; intros b o' h2 HB; cbn [papp].
  - exact HB.
  - rewrite <- app_assoc. constructor. auto.
  - econstructor; eauto.
  - constructor; auto.
Qed.

(** A constant is replaced inside a string as well: '...name...' comes out as '...definition...' *)
Theorem C48_in_string_refuted ev pre o h n v q a : outputs [] pre o h -> current h (t_text n) = Some v -> q = Tok TOther (u "'") -> current h (u "'") = None ->
  Forall (fun t => t_type t = TOther /\ current h (t_text t) = None) a ->
  preprocess ev (papp pre (PCons (PText (q :: a ++ [n; q])) PNil)) = Ok (o ++ q :: a ++ v ++ [q]).
Proof.
  intros H C -> Q F. unfold preprocess. assert (E : line_out h (Tok TOther (u "'") :: a ++ [n; Tok TOther (u "'")]) = Tok TOther (u "'") :: a ++ v ++ [Tok TOther (u "'")]).
  { unfold line_out. cbn [flat_map t_type t_text]. rewrite !flat_map_app. cbn [flat_map t_type t_text]. rewrite Q, C.
    assert (E1 : forall b, Forall (fun t => t_type t = TOther /\ current h (t_text t) = None) b -> flat_map (fun t => match t_type t, current h (t_text t) with TComment, None => [Tok TComment (42 :: skipn 2 (t_text t) ++ [10])] | _, _ => [] end) b = []).
    { induction 1 as [|t b [T1 T2] _ IH]; [reflexivity|]. cbn [flat_map]. rewrite T1, IH. reflexivity. }
    assert (E2 : forall b, Forall (fun t => t_type t = TOther /\ current h (t_text t) = None) b -> flat_map (fun t => match current h (t_text t), t_type t with Some v, _ => v | None, TComment => [] | None, _ => [t] end) b = b).
    { induction 1 as [|t b [T1 T2] _ IH]; [reflexivity|]. cbn [flat_map]. rewrite T1, T2, IH. reflexivity. }
    rewrite E1, E2 by exact F. destruct (t_type n); cbn [app]; reflexivity. }
  assert (O : outputs [] (papp pre (PCons (PText (Tok TOther (u "'") :: a ++ [n; Tok TOther (u "'")])) PNil)) (o ++ Tok TOther (u "'") :: a ++ v ++ [Tok TOther (u "'")]) h).
  { eapply papp_outputs; [exact H|]. rewrite <- E. rewrite <- (app_nil_r (line_out h _)). constructor. constructor. }
  destruct (outputs_prep ev _ _ _ _ O [] agrees_nil) as (m & EM & _). rewrite EM. reflexivity.
Qed.
Print Assumptions C48_in_string_refuted.
(** A constant whose definition names another constant: that name stays in the output *)
Theorem C48_nested_refuted ev pre o h n t w : outputs [] pre o h -> current h (t_text n) = Some [t] -> current h (t_text t) = Some w -> t_type n = TOther ->
  preprocess ev (papp pre (PCons (PText [n]) PNil)) = Ok (o ++ [t]).
Proof.
  intros H C _ T. assert (O : outputs [] (papp pre (PCons (PText [n]) PNil)) (o ++ line_out h [n] ++ []) h) by (eapply papp_outputs; [exact H|]; constructor; constructor).
  destruct (outputs_prep ev _ _ _ _ O [] agrees_nil) as (m & EM & _). unfold preprocess. rewrite EM. unfold line_out. cbn [flat_map]. rewrite C, T. reflexivity.
Qed.
Print Assumptions C48_nested_refuted.
(** #UNDEFINE of a name that is no constant makes the whole conversion fail *)
Theorem C48_undefine_refuted ev pre o h n suf : outputs [] pre o h -> current h n = None -> preprocess ev (papp pre (PCons (PUndef n) suf)) = Err KeyError.
Proof.
  intros H C. destruct (outputs_prep ev _ _ _ _ H [] agrees_nil) as (m & E & A). unfold preprocess. rewrite papp_preps, E. cbn [rbind preps prep]. rewrite A, C. reflexivity.
Qed.
Print Assumptions C48_undefine_refuted.

(** * C49 *)
Lemma selects_prep ev h ls fl : selects ev h ls fl -> forall m, agrees h m -> preps ev m ls = preps ev m fl.
Proof.
  induction 1 as [h|h toks ls fl _ IH|h n rest v ls fl D _ IH|h n ls fl _ IH|h cond a b c ls fl E _ IH|h n a b ls fl _ IH]; intros m A.
  - reflexivity.
  - cbn [preps prep rbind]. rewrite (IH m A). reflexivity.
  - rewrite (definition_unique _ _ D) in IH. cbn [preps prep rbind]. rewrite (IH _ (agrees_def h m n _ A)). reflexivity.
  - cbn [preps prep]. destruct (get m (lower n)); [|reflexivity]. cbn [rbind]. rewrite (IH _ (agrees_undef h m n A)). reflexivity.
  - rewrite <- (IH m A). cbn [preps prep]. rewrite (replace_out h m cond A), E, papp_preps. cbn [rbind]. destruct c; reflexivity.
  - rewrite <- (IH m A). cbn [preps prep]. rewrite A, papp_preps. destruct (current h n); reflexivity.
Qed.
Lemma selects_straight ev h ls fl : selects ev h ls fl -> straight fl.
Proof. induction 1; cbn; auto. Qed.
(** Every conditional is replaced by exactly one of its branches; the lines of the other one take no part *)
Theorem C49_selected ev ls fl : selects ev [] ls fl -> straight fl /\ preprocess ev ls = preprocess ev fl.
Proof. intros H. split; [exact (selects_straight _ _ _ _ H)|]. unfold preprocess. rewrite (selects_prep _ _ _ _ H [] agrees_nil). reflexivity. Qed.
Print Assumptions C49_selected.

Fixpoint size (l : pline) : nat :=
  match l with PIf _ a b | PIfdef _ a b => S (sizes a + sizes b) | _ => 1 end
with sizes (ls : plines) : nat := match ls with PNil => 0 | PCons l ls => size l + sizes ls end.
Lemma sizes_papp a b : sizes (papp a b) = (sizes a + sizes b)%nat.
Proof. induction a as [|l a IH]; cbn [papp sizes]; [reflexivity|]. rewrite IH. lia. Qed.
Lemma no_includes_papp a b : no_includes a -> no_includes b -> no_includes (papp a b).
Proof. induction a as [|l a IH]; cbn [papp no_includes]; tauto. Qed.
Lemma prep_selects ev : forall k ls h m o m', (sizes ls <= k)%nat -> no_includes ls -> agrees h m -> preps ev m ls = Ok (o, m') -> exists fl, selects ev h ls fl.
Proof.
  induction k as [k IH] using lt_wf_ind. intros ls h m o m' L N A E. destruct ls as [|l ls]; [exists PNil; constructor|].
  destruct N as [N NS]. change (size l + sizes ls <= k)%nat in L. assert (G : forall x, size x <> 0%nat) by (intros []; cbn; lia). pose proof (G l) as GL.
  destruct l as [toks|n rest|n|file|cond a b|n a b|]; cbn [no_include] in N; cbn [preps prep] in E.
  - cbn [rbind] in E. destruct (preps ev m ls) as [[o1 m1]|] eqn:E1; [|discriminate]. destruct (IH (sizes ls) ltac:(lia) ls h m o1 m1 ltac:(lia) NS A E1) as (fl & S). eexists. constructor. exact S.
  - cbn [rbind] in E. destruct (preps ev (set m (lower n) (trim rest)) ls) as [[o1 m1]|] eqn:E1; [|discriminate].
    destruct (IH (sizes ls) ltac:(lia) ls _ _ o1 m1 ltac:(lia) NS (agrees_def h m n (trim rest) A) E1) as (fl & S). eexists. econstructor; [apply trim_definition|exact S].
  - destruct (get m (lower n)); [|discriminate]. cbn [rbind] in E. destruct (preps ev (remove m (lower n)) ls) as [[o1 m1]|] eqn:E1; [|discriminate].
    destruct (IH (sizes ls) ltac:(lia) ls _ _ o1 m1 ltac:(lia) NS (agrees_undef h m n A) E1) as (fl & S). eexists. constructor. exact S.
  - contradiction.
  - rewrite (replace_out h m cond A) in E. destruct (ev _) as [c|] eqn:EV; [|discriminate]. cbn [rbind] in E. destruct N as [NA NB].
    assert (E1 : preps ev m (papp (if c then a else b) ls) = Ok (o, m')) by (rewrite papp_preps; destruct c; exact E).
    change (size (PIf cond a b)) with (S (sizes a + sizes b)) in L. destruct (IH (sizes (papp (if c then a else b) ls)) ltac:(rewrite sizes_papp; destruct c; lia) (papp (if c then a else b) ls) h m o m' ltac:(lia) ltac:(apply no_includes_papp; [destruct c; assumption|exact NS]) A E1) as (fl & S).
    exists fl. econstructor; [exact EV|exact S].
  - destruct N as [NA NB]. assert (E1 : preps ev m (papp (match current h n with Some _ => a | None => b end) ls) = Ok (o, m')) by (rewrite papp_preps; rewrite A in E; destruct (current h n); exact E).
    change (size (PIfdef n a b)) with (S (sizes a + sizes b)) in L. destruct (IH (sizes (papp (match current h n with Some _ => a | None => b end) ls)) ltac:(rewrite sizes_papp; destruct (current h n); lia) (papp (match current h n with Some _ => a | None => b end) ls) h m o m' ltac:(lia) ltac:(apply no_includes_papp; [destruct (current h n); assumption|exact NS]) A E1) as (fl & S).
    exists fl. constructor. exact S.
  - discriminate.
Qed.
(** and whenever the program can be preprocessed there is such a selection *)
Theorem C49_complete_partial ev ls o : no_includes ls -> preprocess ev ls = Ok o -> exists fl h, selects ev [] ls fl /\ outputs [] fl o h.
Proof.
  intros N E. unfold preprocess in E. destruct (preps ev [] ls) as [[o' m]|] eqn:P; [|discriminate]. injection E as <-.
  destruct (prep_selects ev (sizes ls) ls [] [] o' m ltac:(lia) N agrees_nil P) as (fl & S). exists fl.
  destruct (C49_selected ev ls fl S) as [ST EQ].
  assert (Q : preprocess ev fl = Ok o') by (rewrite <- EQ; unfold preprocess; rewrite P; reflexivity). apply (C48_constants_partial ev fl o' ST) in Q. destruct Q as (h & Q). exists h. split; assumption.
Qed.
Print Assumptions C49_complete_partial.
(** The dropped branch may be anything *)
Theorem C49_dropped ev pre o h n a b b' suf : outputs [] pre o h -> current h n <> None ->
  preprocess ev (papp pre (PCons (PIfdef n a b) suf)) = preprocess ev (papp pre (PCons (PIfdef n a b') suf)).
Proof.
  intros H C. destruct (outputs_prep ev _ _ _ _ H [] agrees_nil) as (m & E & A). unfold preprocess. rewrite !papp_preps, E. cbn [rbind preps prep]. rewrite A. destruct (current h n); [reflexivity|congruence].
Qed.
Print Assumptions C49_dropped.
(** Any other directive (#IFNDEF, #ELIF, ...) makes the whole conversion fail *)
Theorem C49_other_directive_refuted ev pre o h suf : outputs [] pre o h -> preprocess ev (papp pre (PCons PJunk suf)) = Err TypeError.
Proof. intros H. destruct (outputs_prep ev _ _ _ _ H [] agrees_nil) as (m & E & A). unfold preprocess. rewrite papp_preps, E. reflexivity. Qed.
Print Assumptions C49_other_directive_refuted.

(** * C71 *)
(** m1: the memory of the file alone; m2: that of the file read in place, over m *)
Definition over (m m1 m2 : memory) : Prop := forall k, get m2 (lower k) = match get m1 (lower k) with Some v => Some v | None => get m (lower k) end.
Definition unused (m : memory) (P : pystr -> Prop) : Prop := forall n, P n -> get m (lower n) = None.
Lemma replace_same m m1 m2 toks : over m m1 m2 -> (forall n, word n toks -> get m (lower n) = None) -> replace_define_tokens m2 toks = replace_define_tokens m1 toks.
Proof.
  intros O U. unfold replace_define_tokens. generalize (@nil token) at 1 3 as hid. generalize (@nil token) as ret.
  assert (W : forall t, In t toks -> get m2 (lower (t_text t)) = get m1 (lower (t_text t))).
  { intros t I. rewrite O, (U (t_text t)); [destruct (get m1 (lower (t_text t))); reflexivity|]. exists t. split; [exact I|]. rewrite same_name_lower. apply eqb_refl. }
  clear U. induction toks as [|t toks IH]; intros ret hid; [reflexivity|]. cbn [replace_loop]. rewrite (W t (or_introl eq_refl)).
  assert (W' : forall t, In t toks -> get m2 (lower (t_text t)) = get m1 (lower (t_text t))) by (intros x I; apply W; right; exact I).
  destruct (get m1 (lower (t_text t))); [apply IH; exact W'|]. destruct (t_type t); apply IH; exact W'.
Qed.
Definition rel_res (m : memory) (r1 r2 : res (list token * memory)) : Prop :=
  match r1, r2 with Ok (o1, m1), Ok (o2, m2) => o1 = o2 /\ over m m1 m2 | Err e1, Err e2 => e1 = e2 | _, _ => False end.
Scheme pline_mind := Induction for pline Sort Prop with plines_mind := Induction for plines Sort Prop.
Combined Scheme pline_plines_ind from pline_mind, plines_mind.
Lemma over_prep ev m :
  (forall l m1 m2, over m m1 m2 -> (forall n, uses n l -> get m (lower n) = None) -> rel_res m (prep ev m1 l) (prep ev m2 l)) /\
  (forall ls m1 m2, over m m1 m2 -> (forall n, uses_in n ls -> get m (lower n) = None) -> rel_res m (preps ev m1 ls) (preps ev m2 ls)).
Proof.
  apply pline_plines_ind.
  - intros toks m1 m2 O U. cbn [prep rel_res]. split; [symmetry; apply (replace_same m); assumption|exact O].
  - intros n toks m1 m2 O U. cbn [prep rel_res]. split; [reflexivity|]. intros k. rewrite !get_set. destruct (pystr_eqb (lower n) (lower k)); [reflexivity|apply O].
  - intros n m1 m2 O U. cbn [prep]. assert (X : get m (lower n) = None) by (apply U; cbn [uses]; rewrite same_name_lower; apply eqb_refl). rewrite (O n), X. destruct (get m1 (lower n)); [|reflexivity].
    cbn [rel_res]. split; [reflexivity|]. intros k. rewrite !get_remove. destruct (pystr_eqb_spec (lower n) (lower k)) as [<-|_]; [symmetry; exact X|apply O].
  - intros file IH m1 m2 O U. cbn [prep]. destruct (preps ev [] file) as [[o m']|]; cbn [rbind rel_res]; [|reflexivity]. split; [reflexivity|]. intros k. rewrite !get_update. destruct (get m' (lower k)); [reflexivity|apply O].
  - intros cond a IHa b IHb m1 m2 O U. cbn [prep]. rewrite (replace_same m m1 m2 cond O) by (intros n W; apply U; left; exact W). destruct (ev _) as [c|]; cbn [rbind]; [|reflexivity].
    destruct c; [apply IHa|apply IHb]; try exact O; intros n W; apply U; cbn [uses]; tauto.
  - intros n a IHa b IHb m1 m2 O U. cbn [prep]. assert (X : get m (lower n) = None) by (apply U; cbn [uses]; left; rewrite same_name_lower; apply eqb_refl). rewrite (O n), X.
    destruct (get m1 (lower n)); [apply IHa|apply IHb]; try exact O; intros k W; apply U; cbn [uses]; tauto.
  - intros m1 m2 O U. reflexivity.
  - intros m1 m2 O U. cbn [preps rel_res]. split; [reflexivity|exact O].
  - intros l IHl ls IHs m1 m2 O U. cbn [preps]. specialize (IHl m1 m2 O (fun n W => U n (or_introl W))).
    destruct (prep ev m1 l) as [[o1 n1]|]; destruct (prep ev m2 l) as [[o2 n2]|]; cbn [rel_res] in IHl; try contradiction; cbn [rbind]; [|exact IHl].
    destruct IHl as [-> O']. specialize (IHs n1 n2 O' (fun n W => U n (or_intror W))).
    destruct (preps ev n1 ls) as [[o3 n3]|]; destruct (preps ev n2 ls) as [[o4 n4]|]; cbn [rel_res] in IHs; try contradiction; cbn [rbind rel_res]; [|exact IHs]. destruct IHs as [-> O'']. split; [reflexivity|exact O''].
Qed.
(** memories that answer alike give the same output *)
Lemma same_memory ev ls m1 m2 : (forall k, get m2 (lower k) = get m1 (lower k)) -> rel_res [] (preps ev m1 ls) (preps ev m2 ls).
Proof. intros H. apply (proj2 (over_prep ev [])); [|reflexivity]. intros k. rewrite H. destruct (get m1 (lower k)); reflexivity. Qed.

(** If the file uses no constant of the program that includes it, #INCLUDE is the insertion of its lines *)
Theorem C71_inserted_partial ev pre o h file suf : outputs [] pre o h -> (forall n, uses_in n file -> current h n = None) ->
  preprocess ev (papp pre (PCons (PInclude file) suf)) = preprocess ev (papp pre (papp file suf)).
Proof.
  intros H U. destruct (outputs_prep ev _ _ _ _ H [] agrees_nil) as (m & E & A). unfold preprocess. rewrite !papp_preps, E. cbn [rbind].
  rewrite papp_preps. cbn [preps prep]. pose proof (proj2 (over_prep ev m) file [] m) as R. specialize (R ltac:(intros k; reflexivity) ltac:(intros n W; rewrite A; apply U; exact W)).
  destruct (preps ev [] file) as [[o1 m1]|]; destruct (preps ev m file) as [[o2 m2]|]; cbn [rel_res] in R; try contradiction; cbn [rbind]; [|congruence].
  destruct R as [-> O]. pose proof (same_memory ev suf (update m m1) m2) as S. specialize (S ltac:(intros k; rewrite get_update; apply O)).
  destruct (preps ev (update m m1) suf) as [[o3 m3]|]; destruct (preps ev m2 suf) as [[o4 m4]|]; cbn [rel_res] in S; try contradiction; cbn [rbind rmap fst]; [destruct S as [-> _]; reflexivity|congruence].
Qed.
Print Assumptions C71_inserted_partial.
(** A constant of the program is not replaced in the text of the file *)
Theorem C71_constants_refuted ev pre o h n v : outputs [] pre o h -> t_type n = TOther -> current h (t_text n) = Some v -> v <> [n] ->
  preprocess ev (papp pre (PCons (PInclude (lines_of [PText [n]])) PNil)) = Ok (o ++ [n]) /\
  preprocess ev (papp pre (papp (lines_of [PText [n]]) PNil)) = Ok (o ++ v) /\ o ++ [n] <> o ++ v.
Proof.
  intros H T C D. destruct (outputs_prep ev _ _ _ _ H [] agrees_nil) as (m & E & A). unfold preprocess. rewrite !papp_preps, E. cbn [lines_of papp rbind preps prep]. rewrite (replace_out [] [] [n] agrees_nil), (replace_out h m [n] A).
  unfold line_out. cbn [flat_map current]. rewrite T, C. cbn. rewrite !app_nil_r. repeat split; try reflexivity. intros X. apply app_inv_head in X. congruence.
Qed.
Print Assumptions C71_constants_refuted.
(** and the file cannot test or #UNDEFINE it *)
Theorem C71_guard_refuted ev pre o h n a b v : outputs [] pre o h -> current h n = Some v ->
  preprocess ev (papp pre (PCons (PInclude (lines_of [PIfdef n a b])) PNil)) = rmap (fun x => o ++ x) (preprocess ev b) /\
  preprocess ev (papp pre (PCons (PInclude (lines_of [PUndef n])) PNil)) = Err KeyError /\
  preprocess ev (papp pre (papp (lines_of [PUndef n]) PNil)) = Ok o.
Proof.
  intros H C. destruct (outputs_prep ev _ _ _ _ H [] agrees_nil) as (m & E & A). unfold preprocess. rewrite !papp_preps, E. cbn [lines_of papp rbind preps prep get]. rewrite A, C. cbn [rbind rmap fst]. rewrite app_nil_r. repeat split.
  destruct (preps ev [] b) as [[x m']|]; [|reflexivity]. cbn [rbind rmap fst]. rewrite !app_nil_r. reflexivity.
Qed.
Print Assumptions C71_guard_refuted.

(** * An example: #DEFINE Max 10 && limit / #IFDEF MAX / x = max && c / #ELSE / #UNDEFINE other / #ENDIF / #UNDEFINE max / max *)
Definition w (s : string) : token := Tok TOther (u s).
Definition sp : token := Tok TWs (u " ").
Definition example : plines := lines_of
  [PDefine (u "Max") [sp; w "10"; sp; Tok TComment (u "&& limit")];
   PIfdef (u "MAX") (lines_of [PText [w "x"; w "="; w "max"; sp; Tok TComment (u "&& c"); Tok TOther [10]]]) (lines_of [PUndef (u "other")]);
   PUndef (u "mAx"); PText [w "max"]].
Definition flat : plines := lines_of
  [PDefine (u "Max") [sp; w "10"; sp; Tok TComment (u "&& limit")]; PText [w "x"; w "="; w "max"; sp; Tok TComment (u "&& c"); Tok TOther [10]]; PUndef (u "mAx"); PText [w "max"]].
Example C48_example ev :
  selects ev [] example flat /\ straight flat /\
  preprocess ev example = Ok [Tok TComment (u "* c" ++ [10]); w "x"; w "="; w "10"; sp; Tok TOther [10]; w "max"] /\
  exists h, outputs [] (lines_of [PDefine (u "Max") [sp; w "10"; sp; Tok TComment (u "&& limit")]]) [] h /\ current h (u "MAX") = Some [w "10"].
Proof.
  assert (D : definition [sp; w "10"; sp; Tok TComment (u "&& limit")] [w "10"]) by exact (trim_definition [sp; w "10"; sp; Tok TComment (u "&& limit")]).
  split.
  - unfold example, flat. cbn [lines_of]. eapply sel_define; [exact D|]. apply sel_ifdef. cbn. repeat constructor.
  - split; [exact I|]. split; [reflexivity|]. exists [EDef (u "Max") [w "10"]]. split; [|reflexivity]. cbn [lines_of]. eapply out_define; [exact D|]. constructor.
Qed.
