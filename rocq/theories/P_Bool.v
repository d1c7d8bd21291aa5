(** Proofs about the conversion of AND, OR and NOT. *)
From Verif Require Import PyBase PyStr S_Py P_Py M_Conv S_Conv P_Conv.
Open Scope nat_scope.

Definition tv := (pe -> bool) -> bool.
Definition T l ts (b : tv) := exists e, Pr l ts e /\ forall rho, py_holds rho e = b rho.
Definition bop o (x y : bool) := match o with OAnd => andb x y | _ => orb x y end.
Inductive chain (o : op) : list tok -> tv -> Prop :=
| ch_one ts b : T (S (level o)) ts b -> chain o ts b
| ch_app x bx y b : chain o x bx -> chain o y b -> chain o (x ++ Op o :: y) (fun rho => bop o (bx rho) (b rho)).
Lemma bop_assoc o x y z : o = OAnd \/ o = OOr -> bop o x (bop o y z) = bop o (bop o x y) z.
Proof. intros [-> | ->]; cbn; [apply andb_assoc|apply orb_assoc]. Qed.
Lemma py_bop o rho a b : o = OAnd \/ o = OOr -> py_holds rho (EBin o a b) = bop o (py_holds rho a) (py_holds rho b).
Proof. intros [-> | ->]; reflexivity. Qed.
Lemma chain_right o ts b : o = OAnd \/ o = OOr -> chain o ts b -> forall a ba, T (level o) a ba -> T (level o) (a ++ Op o :: ts) (fun rho => bop o (ba rho) (b rho)).
Proof.
  intros Ho H. induction H as [ts b (e & P & V)|x bx y b Hx IHx Hy IHy]; intros a ba (ea & Pa & Va).
  - exists (EBin o ea e). split; [apply Pr_bin; [destruct Ho as [-> | ->]; reflexivity|exact Pa|exact P]|]. intros rho. rewrite py_bop, Va, V by exact Ho. reflexivity.
  - destruct (IHx a ba (ex_intro _ ea (conj Pa Va))) as (e1 & P1 & V1).
    destruct (IHy _ _ (ex_intro _ e1 (conj P1 V1))) as (e2 & P2 & V2).
    exists e2. replace (a ++ Op o :: x ++ Op o :: y) with ((a ++ Op o :: x) ++ Op o :: y) by (rewrite <- app_assoc; reflexivity).
    split; [exact P2|]. intros rho. rewrite V2. symmetry. apply bop_assoc, Ho.
Qed.
Lemma chain_T o ts b : o = OAnd \/ o = OOr -> chain o ts b -> T (level o) ts b.
Proof.
  intros Ho H. induction H as [ts b (e & P & V)|x bx y b Hx IHx Hy IHy].
  - exists e. split; [|exact V]. apply (Pr_down1 (level o)); [destruct Ho as [-> | ->]; cbn; lia|exact P].
  - apply chain_right; assumption.
Qed.
Lemma T_down l l' ts b : l <= l' -> l' <= 13 -> T l' ts b -> T l ts b.
Proof. intros H H' (e & P & V). exists e. split; [exact (Pr_down l l' ts e H H' P)|exact V]. Qed.
Lemma T_paren ts b : T 0 ts b -> T 13 (Lp :: ts ++ [Rp]) b.
Proof. intros (e & P & V). exists e. split; [exact (Pr_paren ts e P)|exact V]. Qed.

Definition opers (v : val) (b : tv) : Prop :=
  match v with
  | VOr _ _ => chain OOr (repr v) b
  | VAnd _ _ => chain OAnd (repr v) b
  | VStr _ => False
  | _ => T 3 (repr v) b
  end.
Definition wrap p v :=
  match prec v with
  | Some q => if Nat.ltb q p then Lp :: repr v ++ [Rp] else repr v
  | None => match v with VStr s => [Id s] | _ => repr v end
  end.
Lemma opers_0 v b : opers v b -> T 0 (repr v) b.
Proof.
  destruct v; cbn [opers]; intros H; try contradiction; try (apply (T_down 0 3); [lia|lia|exact H]).
  - apply (T_down 0 1); [lia|lia|]. exact (chain_T OOr _ _ (or_intror eq_refl) H).
  - apply (T_down 0 2); [lia|lia|]. exact (chain_T OAnd _ _ (or_introl eq_refl) H).
Qed.
Lemma wrap_not v b : opers v b -> T 3 (wrap 2 v) b.
Proof.
  intros H. pose proof (opers_0 v b H) as H0. destruct v; cbn [opers] in H; try contradiction; try exact H;
  unfold wrap; cbn [prec Nat.ltb Nat.leb]; apply (T_down 3 13); try lia; apply T_paren; exact H0.
Qed.
Lemma wrap_and v b : opers v b -> chain OAnd (wrap 1 v) b.
Proof.
  intros H. pose proof (opers_0 v b H) as H0. destruct v; cbn [opers] in H; try contradiction; try exact H; try (apply ch_one; exact H).
  apply ch_one. unfold wrap; cbn [prec Nat.ltb Nat.leb]. apply (T_down 3 13); [lia|lia|]. apply T_paren; exact H0.
Qed.
Lemma wrap_or v b : opers v b -> chain OOr (wrap 0 v) b.
Proof.
  intros H. destruct v; cbn [opers] in H; try contradiction; try exact H; apply ch_one; try (apply (T_down 2 3); [lia|lia|exact H]).
  exact (chain_T OAnd _ _ (or_introl eq_refl) H).
Qed.
Lemma repr_or a b : repr (VOr a b) = wrap 0 a ++ Op OOr :: wrap 0 b. Proof. reflexivity. Qed.
Lemma repr_and a b : repr (VAnd a b) = wrap 1 a ++ Op OAnd :: wrap 1 b. Proof. reflexivity. Qed.
Lemma repr_not a : repr (VNot a) = Not :: wrap 2 a. Proof. reflexivity. Qed.

Lemma chain_ext o ts b b' : (forall rho, b rho = b' rho) -> chain o ts b -> exists b2, chain o ts b2 /\ forall rho, b2 rho = b' rho.
Proof. intros H C. exists b. split; assumption. Qed.

Lemma leaf lib t : produced t -> tame lib t -> (forall s, joined (mean t) <> EStr s) -> (forall rho, holds rho t = rho (joined (mean t))) ->
  forall skip, opers (conv lib skip (clean t)) (fun rho => holds rho t).
Proof.
  intros P T0 N HH skip. destruct (conv_tame lib t P T0 skip) as (e & Pe & J & O).
  assert (X : T 3 (repr (conv lib skip (clean t))) (fun rho => holds rho t)).
  { exists e. assert (L : 4 <= pl t).
    { clear - P. induction t as [s|n|s|b| |e IH|m e IH|e IH|o a b IHa IHb|o a b IHa IHb|a b IHa IHb|a b IHa IHb|f l IH] using ctx_ind'; cbn [pl]; try lia.
      - exact (IH P). - destruct m; [lia|]. exact (IH (proj2 P)). - destruct P as [P _]. destruct o; try discriminate P; cbn; lia. }
    split; [apply (Pr_down 3 (pl t)); [lia|apply pl_le|exact Pe]|]. intros rho. rewrite HH, <- J.
    assert (Y : forall a, joined (mean t) <> ENot a /\ forall b, joined (mean t) <> EBin OAnd a b /\ joined (mean t) <> EBin OOr a b).
    { clear - P T0. induction t as [s|n|s|b| |e IH|m e IH|e IH|o a b IHa IHb|o a b IHa IHb|a b IHa IHb|a b IHa IHb|f l IH] using ctx_ind'; intros x;
        cbn [mean joined]; try (split; [discriminate|intros y; split; discriminate]); try contradiction.
      - exact (IH P T0 x).
      - destruct m; [split; [discriminate|intros y; split; discriminate]|]. exact (IH (proj2 P) (proj1 T0) x).
      - destruct P as [P _]. destruct o; try discriminate P; cbn [joined]; try (split; [discriminate|intros y; split; discriminate]).
        destruct (joined (mean a)); try (split; [discriminate|intros y; split; discriminate]).
        destruct (joined (mean b)); split; try discriminate; intros y; split; discriminate.
      - apply call_mean_cases; intros; (split; [discriminate|intros ?; split; discriminate]). }
    rewrite <- J in Y. clear - Y. destruct e as [s|n|s|o e|o a b|e|a l|c a b|f l|e s|e i|e a b|l]; try reflexivity.
    - destruct o; try reflexivity; exfalso; destruct (Y (joined a)) as [_ Y1]; destruct (Y1 (joined b)) as [Y2 Y3]; [apply Y3|apply Y2]; reflexivity.
    - exfalso. destruct (Y (joined e)) as [Y1 _]. apply Y1. reflexivity. }
  destruct (conv lib skip (clean t)) eqn:Ev; try exact X; try discriminate O.
  apply (N s). rewrite <- J. assert (e = EStr s) by (apply (Pr_det (pl t) [StrT s] _ _ 13); [apply pl_le|lia|exact Pe|apply Pr_str]). subst. reflexivity.
Qed.
Lemma conv_boolean lib t : boolean lib t -> forall skip, exists b, opers (conv lib skip (clean t)) b /\ forall rho, b rho = holds rho t.
Proof.
  induction t as [s|n|s|b| |e IH|m e IH|e IH|o a b IHa IHb|o a b IHa IHb|a b IHa IHb|a b IHa IHb|f l IH] using ctx_ind'; intros H skip;
    try (destruct H as (P & T0 & N); eexists; split; [apply (leaf lib _ P T0 N); intros; reflexivity|intros; reflexivity]).
  - destruct (IH H skip) as (b & O & V). exists b. split; [|exact V].
    assert (X : conv lib skip (clean_sub (clean e)) = conv lib skip (clean e)) by (destruct (clean e); reflexivity).
    cbn [clean]. rewrite X. exact O.
  - destruct (IH H skip) as (b & O & V). exists (fun rho => negb (b rho)). split; [|intros rho; cbn [holds]; rewrite V; reflexivity].
    cbn [clean conv opers]. rewrite repr_not. destruct (wrap_not _ _ O) as (x & P & W). exists (ENot x). split; [apply Pr_not; exact P|].
    intros rho. cbn [py_holds]. rewrite W. reflexivity.
  - destruct H as [Ha Hb]. destruct (IHa Ha skip) as (ba & Oa & Va). destruct (IHb Hb skip) as (bb & Ob & Vb).
    exists (fun rho => bop OAnd (ba rho) (bb rho)). split; [|intros rho; cbn [holds bop]; rewrite Va, Vb; reflexivity].
    cbn [clean conv opers]. rewrite repr_and. apply ch_app; apply wrap_and; assumption.
  - destruct H as [Ha Hb]. destruct (IHa Ha skip) as (ba & Oa & Va). destruct (IHb Hb skip) as (bb & Ob & Vb).
    exists (fun rho => bop OOr (ba rho) (bb rho)). split; [|intros rho; cbn [holds bop]; rewrite Va, Vb; reflexivity].
    cbn [clean conv opers]. rewrite repr_or. apply ch_app; apply wrap_or; assumption.
Qed.
Theorem boolean_value lib t : boolean lib t -> exists e, py_parse (code lib t) e /\ forall rho, py_holds rho e = holds rho t.
Proof.
  intros H. destruct (conv_boolean lib t H false) as (b & O & V). destruct (opers_0 _ _ O) as (e & P & W).
  exists e. split; [exact (Pr_parse 0 _ _ ltac:(lia) P)|]. intros rho. rewrite W. apply V.
Qed.
