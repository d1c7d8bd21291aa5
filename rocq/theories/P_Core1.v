(** The values of expressions in a core program. *)
From Verif Require Import PyBase PyStr M_Do S_Py P_Py S_PyEval M_Stmt S_Stmt M_Conv S_Conv P_Conv P_Bool P_Inline M_Core P_Fuel S_Lex S_Core.
Open Scope Z_scope.

Lemma inside_occurs x y : inside x y = true <-> exists k, occurs_at y x k.
Proof.
  induction y as [|c y IH]; cbn [inside]; rewrite orb_true_iff, <- occurs_at_0.
  - split; [intros [H|H]; [eauto|discriminate]|]. intros [k H]. pose proof (occurs_at_nil _ _ H) as [-> ->]. auto.
  - rewrite IH. split.
    + intros [H|(k & H)]; [exists 0%nat; exact H|]. exists (S k). rewrite occurs_at_S. exact H.
    + intros (k & H). destruct k as [|k]; [auto|]. right. exists k. rewrite occurs_at_S in H. exact H.
Qed.
Lemma inside_find x y : (0 <=? str_find y x) = inside x y.
Proof.
  unfold str_find. pose proof (find_nat_spec y x) as H. apply eq_true_iff_eq. rewrite inside_occurs. destruct (find_nat y x) as [k|].
  - destruct H as [H _]. split; [intros _; exists k; exact H|]. intros _. apply Z.leb_le. cbn. lia.
  - split; [discriminate|]. intros [k X]. destruct (H k X).
Qed.
Lemma number53_some n v : number53 n = Some v -> v = PI n.
Proof. unfold number53. destruct (_ <=? _); congruence. Qed.
Lemma fox_bin_py o a b v : fox_bin o a b = Some v -> bin o a b = Some v.
Proof.
  destruct o, a, b; try discriminate; cbn [fox_bin bin]; intros H; try (apply number53_some in H; subst; reflexivity); try exact H.
  - destruct (n0 =? 0) eqn:E; [discriminate|]. apply number53_some in H. subst. rewrite Z.mod_eq by (apply Z.eqb_neq in E; exact E). reflexivity.
  - destruct (n0 <? 0); [discriminate|]. apply number53_some in H. subst. reflexivity.
Qed.
Lemma fox_cmp_py o a b v : fox_cmp o a b = Some v -> cmp o a b = Some v.
Proof.
  destruct o, a, b; try discriminate; cbn [fox_cmp cmp]; intros H; try exact H.
  - unfold fox_eq in H. destruct (pystr_eqb s s0); [exact H|]. destruct (_ || _); [discriminate|exact H].
  - unfold fox_eq in H. destruct (pystr_eqb s s0); [exact H|]. destruct (_ || _); [discriminate|exact H].
  - rewrite inside_find. destruct s; [discriminate|]. exact H.
Qed.
Lemma integers_map vs ns : integers vs = Some ns -> vs = map PI ns.
Proof.
  revert ns. induction vs as [|[n| | | |] vs IH]; intros ns H; try discriminate; [injection H as <-; reflexivity|]. cbn [integers] in H. destruct (integers vs) as [ms|]; [|discriminate].
  injection H as <-. cbn [map]. rewrite (IH ms eq_refl). reflexivity.
Qed.
Lemma extreme_max l : forall n, exists m, extreme Z.max (map PI (n :: l)) = Some m /\ In m (n :: l) /\ Forall (fun x => x <= m) (n :: l).
Proof.
  induction l as [|k l IH]; intros n; [exists n; repeat split; [left; reflexivity|repeat constructor; lia]|]. destruct (IH k) as (m & E & I & B). exists (Z.max n m).
  split; [|split]; [change (extreme Z.max (map PI (n :: k :: l))) with (match extreme Z.max (map PI (k :: l)) with Some m => Some (Z.max n m) | None => None end); rewrite E; reflexivity| |].
  - destruct (Z.max_spec n m) as [[_ ->] | [_ ->]]; [right; exact I|left; reflexivity].
  - constructor; [lia|]. eapply Forall_impl; [|exact B]. cbn. intros; lia.
Qed.
Lemma extreme_min l : forall n, exists m, extreme Z.min (map PI (n :: l)) = Some m /\ In m (n :: l) /\ Forall (fun x => m <= x) (n :: l).
Proof.
  induction l as [|k l IH]; intros n; [exists n; repeat split; [left; reflexivity|repeat constructor; lia]|]. destruct (IH k) as (m & E & I & B). exists (Z.min n m).
  split; [|split]; [change (extreme Z.min (map PI (n :: k :: l))) with (match extreme Z.min (map PI (k :: l)) with Some m => Some (Z.min n m) | None => None end); rewrite E; reflexivity| |].
  - destruct (Z.min_spec n m) as [[_ ->] | [_ ->]]; [left; reflexivity|right; exact I].
  - constructor; [lia|]. eapply Forall_impl; [|exact B]. cbn. intros; lia.
Qed.
Lemma func_many f n m l : is_u f "max" = true \/ is_u f "min" = true -> is_u f "round" = false ->
  S_PyEval.func f (map PI (n :: m :: l)) = option_map PI (extreme (if is_u f "max" then Z.max else Z.min) (map PI (n :: m :: l))).
Proof. intros H R. cbn [map]. unfold S_PyEval.func. rewrite R. destruct l; cbn [map extreme]; destruct (is_u f "max"); try reflexivity; destruct H as [H | H]; try discriminate H; rewrite H; reflexivity. Qed.
Lemma among_max vs v : among (fun x y => y <=? x) vs = Some v -> S_PyEval.func (u "max") vs = Some v.
Proof.
  unfold among. destruct (integers vs) as [[|n [|m l]]|] eqn:E; try discriminate. rewrite (integers_map _ _ E). destruct (find _ (n :: m :: l)) as [x|] eqn:Ef; [|discriminate]. intros H. injection H as <-.
  apply find_some in Ef as [I B]. rewrite func_many by (left + idtac; reflexivity). change (is_u (u "max") "max") with true. cbn iota.
  destruct (extreme_max (m :: l) n) as (k & -> & J & C). cbn [option_map]. do 2 f_equal. rewrite forallb_forall in B. rewrite Forall_forall in C. specialize (B k J). specialize (C x I). cbn beta in C. lia.
Qed.
Lemma among_min vs v : among (fun x y => x <=? y) vs = Some v -> S_PyEval.func (u "min") vs = Some v.
Proof.
  unfold among. destruct (integers vs) as [[|n [|m l]]|] eqn:E; try discriminate. rewrite (integers_map _ _ E). destruct (find _ (n :: m :: l)) as [x|] eqn:Ef; [|discriminate]. intros H. injection H as <-.
  apply find_some in Ef as [I B]. rewrite func_many by (right + idtac; reflexivity). change (is_u (u "min") "max") with false. cbn iota.
  destruct (extreme_min (m :: l) n) as (k & -> & J & C). cbn [option_map]. do 2 f_equal. rewrite forallb_forall in B. rewrite Forall_forall in C. specialize (B k J). specialize (C x I). cbn beta in C. lia.
Qed.
Lemma values_evall env l : Forall (fun t => forall v, fox env t = Some v -> pev env (mean t) = Some v) l -> forall vs, values (map (fox env) l) = Some vs -> P_Inline.evall env (map mean l) = Some vs.
Proof.
  induction 1 as [|t l H _ IH]; intros vs E; [exact E|]. cbn [map values] in E. destruct (fox env t) as [v|]; [|discriminate]. destruct (values _) as [ws|]; [|discriminate]. injection E as <-.
  cbn [map P_Inline.evall]. rewrite (H v eq_refl), (IH ws eq_refl). reflexivity.
Qed.
Lemma values_two x y vs : values [x; y] = Some vs -> exists a b, x = Some a /\ y = Some b /\ vs = [a; b].
Proof. cbn [values]. destruct x as [a|], y as [b|]; try discriminate. intros H. injection H as <-. eauto. Qed.
Lemma values_length l vs : values l = Some vs -> length l = length vs.
Proof. revert vs. induction l as [|[v|] l IH]; intros vs H; cbn [values] in H; try discriminate; [injection H as <-; reflexivity|]. destruct (values l); [|discriminate]. injection H as <-. cbn [length]. rewrite (IH _ eq_refl). reflexivity. Qed.
Lemma call_same env f l vs v : isin f same_name = true -> P_Inline.evall env l = Some vs -> S_PyEval.func f vs = Some v -> pev env (call_mean f l) = Some v.
Proof. intros N E F. unfold call_mean. rewrite N. rewrite pev_call, E. exact F. Qed.
Lemma fox_function_mean env f l : Forall (fun t => forall v, fox env t = Some v -> pev env (mean t) = Some v) l -> forall v, fox_function f (map (fox env) l) = Some v -> pev env (call_mean f (map mean l)) = Some v.
Proof.
  intros H v F. unfold fox_function, is in F. destruct (pystr_eqb_spec f (u "iif")) as [->|_].
  - destruct l as [|x [|y [|z [|]]]]; try discriminate F; cbn [map] in F; try (destruct (fox env x) as [[| | | |]|]; discriminate F).
    destruct (fox env x) as [[| |c| |]|] eqn:Ex; try discriminate F.
    inversion H as [|? ? Hx H1]; subst. inversion H1 as [|? ? Hy H2]; subst. inversion H2 as [|? ? Hz _]; subst.
    change (pev env (EIf (mean x) (mean y) (mean z)) = Some v). cbn [pev]. rewrite (Hx _ Ex). cbn [truth]. destruct c; auto.
  - destruct (values (map (fox env) l)) as [vs|] eqn:E; [|discriminate]. pose proof (values_evall env l H vs E) as A.
    destruct (pystr_eqb_spec f (u "len")) as [->|_]; [apply (call_same env _ _ vs); [reflexivity|exact A|]; destruct vs as [|[] [|]]; try discriminate F; apply number53_some in F; subst v; reflexivity|].
    destruct (pystr_eqb_spec f (u "abs")) as [->|_]; [apply (call_same env _ _ vs); [reflexivity|exact A|]; destruct vs as [|[] [|]]; try discriminate F; exact F|].
    destruct (pystr_eqb_spec f (u "max")) as [->|_]; [apply (call_same env _ _ vs); [reflexivity|exact A|exact (among_max vs v F)]|].
    destruct (pystr_eqb_spec f (u "min")) as [->|_]; [apply (call_same env _ _ vs); [reflexivity|exact A|exact (among_min vs v F)]|].
    apply values_length in E. rewrite map_length in E.
    destruct (pystr_eqb_spec f (u "between")) as [->|_].
    { destruct vs as [|[a| | | |] [|[b| | | |] [|[c| | | |] [|]]]]; try discriminate F. destruct l as [|x [|y [|z [|]]]]; try discriminate E. cbn [map P_Inline.evall] in A |- *.
      change (pev env (ECmp (mean y) [(OLe, mean x); (OLe, mean z)]) = Some v). rewrite pev_cmp. cbn [P_Inline.chain].
      destruct (pev env (mean x)); [|discriminate A]. destruct (pev env (mean y)); [|discriminate A]. destruct (pev env (mean z)); [|discriminate A]. injection A as -> -> ->.
      cbn [cmp]. destruct (b <=? a); [|exact F]. cbn [andb] in F. destruct (a <=? c); exact F. }
    destruct (pystr_eqb_spec f (u "mod")) as [->|_]; [|discriminate F].
    destruct vs as [|a [|b [|]]]; try discriminate F. destruct l as [|x [|y [|]]]; try discriminate E. cbn [map P_Inline.evall] in A |- *.
    change (pev env (EBin OMod (mean x) (mean y)) = Some v). rewrite pev_bin by reflexivity.
    destruct (pev env (mean x)); [|discriminate A]. destruct (pev env (mean y)); [|discriminate A]. injection A as -> ->. apply fox_bin_py, F.
Qed.
Lemma fox_ext s s' t : (forall x, In x (vars t) -> s x = s' x) -> fox s t = fox s' t.
Proof.
  induction t as [x|n|x|b| |e IH|m e IH|e IH|o a b IHa IHb|o a b IHa IHb|a b IHa IHb|a b IHa IHb|f l IH] using ctx_ind'; intros H; cbn [fox vars] in *; try reflexivity;
    try (rewrite IH by exact H; reflexivity); try (rewrite IHa, IHb; [reflexivity| |]; intros x I; apply H, in_or_app; auto).
  - apply H. left. reflexivity.
  - f_equal. apply map_ext_in. intros t I. rewrite Forall_forall in IH. apply (IH t I). intros x J. apply H, in_flat_map. eauto.
Qed.
Lemma fox_mean env t : produced t -> forall v, fox env t = Some v -> pev env (mean t) = Some v.
Proof.
  induction t as [x|n|x|b| |e IH|m e IH|e IH|o a b IHa IHb|o a b IHa IHb|a b IHa IHb|a b IHa IHb|f l IH] using ctx_ind'; intros P v H; cbn [fox mean] in *; try discriminate.
  - exact H.
  - apply number53_some in H. subst. reflexivity.
  - injection H as <-. reflexivity.
  - injection H as <-. destruct b; reflexivity.
  - injection H as <-. reflexivity.
  - exact (IH P v H).
  - destruct (fox env e) as [[n| | | |]|] eqn:E; try discriminate. specialize (IH (proj2 P) _ eq_refl). destruct m; injection H as <-; [cbn [pev]; rewrite IH; reflexivity|exact IH].
  - destruct (fox env e) as [[| |b| |]|] eqn:E; try discriminate. specialize (IH (proj2 P) _ eq_refl). injection H as <-. cbn [pev]. rewrite IH. reflexivity.
  - destruct P as (Ho & _ & _ & Pa & Pb). destruct (fox env a) as [x|] eqn:Ea; [|discriminate]. destruct (fox env b) as [y|] eqn:Eb; [|discriminate].
    rewrite pev_bin by (destruct o; try discriminate Ho; reflexivity). rewrite (IHa Pa _ eq_refl), (IHb Pb _ eq_refl). apply fox_bin_py, H.
  - destruct P as (Ho & _ & _ & Pa & Pb). destruct (fox env a) as [x|] eqn:Ea; [|discriminate]. destruct (fox env b) as [y|] eqn:Eb; [|discriminate].
    rewrite pev_cmp. cbn [P_Inline.chain]. rewrite (IHa Pa _ eq_refl), (IHb Pb _ eq_refl). destruct (fox_cmp o x y) as [c|] eqn:Ec; [|discriminate]. rewrite (fox_cmp_py _ _ _ _ Ec).
    injection H as <-. destruct c; reflexivity.
  - destruct P as (_ & _ & Pa & Pb). cbn [pev]. destruct (fox env a) as [[| |x| |]|] eqn:Ea; try discriminate. rewrite (IHa Pa _ eq_refl). cbn [truth].
    destruct x; [|exact H]. destruct (fox env b) as [[| |y| |]|] eqn:Eb; try discriminate. rewrite (IHb Pb _ eq_refl). exact H.
  - destruct P as (_ & _ & Pa & Pb). cbn [pev]. destruct (fox env a) as [[| |x| |]|] eqn:Ea; try discriminate. rewrite (IHa Pa _ eq_refl). cbn [truth].
    destruct x; [exact H|]. destruct (fox env b) as [[| |y| |]|] eqn:Eb; try discriminate. rewrite (IHb Pb _ eq_refl). exact H.
  - cbn [produced] in P. apply all_Forall in P. apply fox_function_mean; [|exact H]. rewrite Forall_forall in *. intros t I. exact (IH t I (P t I)).
Qed.

(** ** AND, OR, NOT *)
Section truth.
Variable env : store.
Definition TV l ts (o : option bool) := exists e, Pr l ts e /\ forall b, o = Some b -> pev env e = Some (PB b).
Definition ob o (x y : option bool) : option bool :=
  match o, x with OAnd, Some true | OOr, Some false => y | OAnd, Some false => Some false | OOr, Some true => Some true | _, _ => None end.
Inductive links (o : op) : list tok -> option bool -> Prop :=
| ln_one ts b : TV (S (level o)) ts b -> links o ts b
| ln_app x bx y b : links o x bx -> links o y b -> links o (x ++ Op o :: y) (ob o bx b).
Lemma ob_assoc o x y z : ob o x (ob o y z) = ob o (ob o x y) z.
Proof. destruct o; try (destruct x as [[]|]; reflexivity); destruct x as [[]|], y as [[]|]; reflexivity. Qed.
Lemma TV_bin o a ea oa b eb ob' : o = OAnd \/ o = OOr -> (forall x, oa = Some x -> pev env ea = Some (PB x)) -> (forall x, ob' = Some x -> pev env eb = Some (PB x)) ->
  a = ea -> b = eb -> forall x, ob o oa ob' = Some x -> pev env (EBin o ea eb) = Some (PB x).
Proof.
  intros [-> | ->] Va Vb _ _ x H; cbn [ob] in H; destruct oa as [[]|]; try discriminate H; cbn [pev]; rewrite (Va _ eq_refl); cbn [truth]; try (apply Vb, H); injection H as <-; reflexivity.
Qed.
Lemma links_right o ts b : o = OAnd \/ o = OOr -> links o ts b -> forall a ba, TV (level o) a ba -> TV (level o) (a ++ Op o :: ts) (ob o ba b).
Proof.
  intros Ho H. induction H as [ts b (e & P & V)|x bx y b Hx IHx Hy IHy]; intros a ba (ea & Pa & Va).
  - exists (EBin o ea e). split; [apply Pr_bin; [destruct Ho as [-> | ->]; reflexivity|exact Pa|exact P]|]. exact (TV_bin o ea ea ba e e b Ho Va V eq_refl eq_refl).
  - destruct (IHx a ba (ex_intro _ ea (conj Pa Va))) as (e1 & P1 & V1). destruct (IHy _ _ (ex_intro _ e1 (conj P1 V1))) as (e2 & P2 & V2).
    exists e2. replace (a ++ Op o :: x ++ Op o :: y) with ((a ++ Op o :: x) ++ Op o :: y) by (rewrite <- app_assoc; reflexivity).
    split; [exact P2|]. rewrite ob_assoc. exact V2.
Qed.
Lemma links_T o ts b : o = OAnd \/ o = OOr -> links o ts b -> TV (level o) ts b.
Proof.
  intros Ho H. induction H as [ts b (e & P & V)|x bx y b Hx IHx Hy IHy].
  - exists e. split; [|exact V]. apply (Pr_down1 (level o)); [destruct Ho as [-> | ->]; cbn; lia|exact P].
  - apply links_right; assumption.
Qed.
Lemma TV_down l l' ts b : (l <= l')%nat -> (l' <= 13)%nat -> TV l' ts b -> TV l ts b.
Proof. intros H H' (e & P & V). exists e. split; [exact (Pr_down l l' ts e H H' P)|exact V]. Qed.
Lemma TV_paren ts b : TV 0 ts b -> TV 13 (Lp :: ts ++ [Rp]) b.
Proof. intros (e & P & V). exists e. split; [exact (Pr_paren ts e P)|exact V]. Qed.
Definition opnds (v : val) (b : option bool) : Prop :=
  match v with VOr _ _ => links OOr (repr v) b | VAnd _ _ => links OAnd (repr v) b | VStr _ => False | _ => TV 3 (repr v) b end.
Lemma opnds_0 v b : opnds v b -> TV 0 (repr v) b.
Proof.
  destruct v; cbn [opnds]; intros H; try contradiction; try (apply (TV_down 0 3); [lia|lia|exact H]).
  - apply (TV_down 0 1); [lia|lia|]. exact (links_T OOr _ _ (or_intror eq_refl) H).
  - apply (TV_down 0 2); [lia|lia|]. exact (links_T OAnd _ _ (or_introl eq_refl) H).
Qed.
Lemma wrap_not' v b : opnds v b -> TV 3 (wrap 2 v) b.
Proof.
  intros H. pose proof (opnds_0 v b H) as H0. destruct v; cbn [opnds] in H; try contradiction; try exact H;
  unfold wrap; cbn [prec Nat.ltb Nat.leb]; apply (TV_down 3 13); try lia; apply TV_paren; exact H0.
Qed.
Lemma wrap_and' v b : opnds v b -> links OAnd (wrap 1 v) b.
Proof.
  intros H. pose proof (opnds_0 v b H) as H0. destruct v; cbn [opnds] in H; try contradiction; try exact H; try (apply ln_one; exact H).
  apply ln_one. unfold wrap; cbn [prec Nat.ltb Nat.leb]. apply (TV_down 3 13); [lia|lia|]. apply TV_paren; exact H0.
Qed.
Lemma wrap_or' v b : opnds v b -> links OOr (wrap 0 v) b.
Proof.
  intros H. destruct v; cbn [opnds] in H; try contradiction; try exact H; apply ln_one; try (apply (TV_down 2 3); [lia|lia|exact H]).
  exact (links_T OAnd _ _ (or_introl eq_refl) H).
Qed.
Definition foxb (t : ctx) : option bool := match fox env t with Some (PB b) => Some b | _ => None end.
Lemma leaf' lib t : produced t -> tame lib t -> (forall s, joined (mean t) <> EStr s) -> forall skip, opnds (conv lib skip (clean t)) (foxb t).
Proof.
  intros P T0 N skip. destruct (conv_tame lib t P T0 skip) as (e & Pe & J & O).
  assert (X : TV 3 (repr (conv lib skip (clean t))) (foxb t)).
  { exists e. assert (L : (4 <= pl t)%nat).
    { clear - P. induction t as [s|n|s|b| |e IH|m e IH|e IH|o a b IHa IHb|o a b IHa IHb|a b IHa IHb|a b IHa IHb|f l IH] using ctx_ind'; cbn [pl]; try lia.
      - exact (IH P). - destruct m; [lia|]. exact (IH (proj2 P)). - destruct P as [P _]. destruct o; try discriminate P; cbn; lia. }
    split; [apply (Pr_down 3 (pl t)); [lia|apply pl_le|exact Pe]|]. intros b H. rewrite <- pev_joined, J, pev_joined. apply fox_mean; [exact P|].
    unfold foxb in H. destruct (fox env t) as [[| |c| |]|]; congruence. }
  destruct (conv lib skip (clean t)) eqn:Ev; try exact X; try discriminate O.
  apply (N s). rewrite <- J. assert (e = EStr s) by (apply (Pr_det (pl t) [StrT s] _ _ 13); [apply pl_le|lia|exact Pe|apply Pr_str]). subst. reflexivity.
Qed.
Lemma conv_truth lib t : boolean lib t -> forall skip, opnds (conv lib skip (clean t)) (foxb t).
Proof.
  induction t as [s|n|s|b| |e IH|m e IH|e IH|o a b IHa IHb|o a b IHa IHb|a b IHa IHb|a b IHa IHb|f l IH] using ctx_ind'; intros H skip;
    try (destruct H as (P & T0 & N); apply (leaf' lib _ P T0 N)).
  - assert (X : conv lib skip (clean_sub (clean e)) = conv lib skip (clean e)) by (destruct (clean e); reflexivity).
    cbn [clean]. rewrite X. exact (IH H skip).
  - specialize (IH H skip). cbn [clean conv opnds]. rewrite repr_not. destruct (wrap_not' _ _ IH) as (x & P & W). exists (ENot x). split; [apply Pr_not; exact P|].
    intros b E. unfold foxb in *. cbn [fox] in E. destruct (fox env e) as [[| |c| |]|]; try discriminate. injection E as <-. cbn [pev]. rewrite (W _ eq_refl). reflexivity.
  - destruct H as [Ha Hb]. specialize (IHa Ha skip). specialize (IHb Hb skip). cbn [clean conv opnds]. rewrite repr_and.
    replace (foxb (CAnd a b)) with (ob OAnd (foxb a) (foxb b)); [apply ln_app; apply wrap_and'; assumption|].
    unfold foxb. cbn [fox]. destruct (fox env a) as [[| |[]| |]|]; try reflexivity. destruct (fox env b) as [[| |[]| |]|]; reflexivity.
  - destruct H as [Ha Hb]. specialize (IHa Ha skip). specialize (IHb Hb skip). cbn [clean conv opnds]. rewrite repr_or.
    replace (foxb (COr a b)) with (ob OOr (foxb a) (foxb b)); [apply ln_app; apply wrap_or'; assumption|].
    unfold foxb. cbn [fox]. destruct (fox env a) as [[| |[]| |]|]; try reflexivity. destruct (fox env b) as [[| |[]| |]|]; reflexivity.
Qed.
Lemma truth_code lib t b : boolean lib t -> fox env t = Some (PB b) -> py_value env (M_Conv.code lib t) (PB b).
Proof.
  intros H F. destruct (opnds_0 _ _ (conv_truth lib t H false)) as (e & P & V). exists e. split; [exact (Pr_parse 0 _ _ ltac:(lia) P)|]. apply V. unfold foxb. rewrite F. reflexivity.
Qed.
Lemma boolean_or lib t v : boolean lib t -> fox env t = Some v -> (exists b, v = PB b) \/ (produced t /\ tame lib t).
Proof.
  induction t as [s|n|s|b| |e IH|m e IH|e IH|o a b IHa IHb|o a b IHa IHb|a b IHa IHb|a b IHa IHb|f l IH] using ctx_ind'; intros H F; try (destruct H as (P & T0 & _); right; split; assumption).
  - exact (IH H F).
  - cbn [fox] in F. destruct (fox env e) as [[| |c| |]|]; try discriminate. injection F as <-. eauto.
  - cbn [fox] in F. destruct (fox env a) as [[| |[]| |]|]; try discriminate; [|injection F as <-; eauto]. destruct (fox env b) as [[| |c| |]|]; try discriminate. injection F as <-. eauto.
  - cbn [fox] in F. destruct (fox env a) as [[| |[]| |]|]; try discriminate; [injection F as <-; eauto|]. destruct (fox env b) as [[| |c| |]|]; try discriminate. injection F as <-. eauto.
Qed.
Lemma tame_value lib t v : produced t -> tame lib t -> fox env t = Some v -> py_value env (M_Conv.code lib t) v.
Proof. intros P T F. destruct (any0 env lib t v P T (fox_mean env t P v F)) as (e & Pe & V). exact (value_of env 0 _ e v ltac:(lia) Pe V). Qed.
Lemma value_code lib t v : value_ok lib t -> fox env t = Some v -> py_value env (M_Conv.code lib t) v.
Proof.
  intros [_ [B | [P T]]] F; [|exact (tame_value lib t v P T F)]. destruct (boolean_or lib t v B F) as [[b ->] | [P T]]; [exact (truth_code lib t b B F)|exact (tame_value lib t v P T F)].
Qed.
End truth.
