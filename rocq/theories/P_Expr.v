(** The code of what the parser reads *)
From Verif Require Import PyBase PyStr M_Lexer S_Lexer S_Py P_Py M_Lit M_Conv S_Conv P_Conv S_Expr P_Parse.
From Coq Require Import Lia.
Open Scope Z_scope.

Definition wrap (p : nat) (v : val) : list tok :=
  match M_Conv.prec v with
  | Some q => if Nat.ltb q p then Lp :: repr v ++ [Rp] else repr v
  | None => match v with VStr s => [Id s] | _ => repr v end
  end.
Definition alike (v w : val) : Prop := repr v = repr w /\ forall p, (p <= 2)%nat -> wrap p v = wrap p w.
Definition loose (v : val) : Prop := forall p, (p <= 2)%nat -> wrap p v = repr v.
Lemma alike_refl : forall v, alike v v. Proof. split; reflexivity. Qed.
Lemma alike_loose : forall v w, repr v = repr w -> loose v -> loose w -> alike v w.
Proof. intros v w E A B. split; auto. intros p L. rewrite A, B; auto. Qed.
Lemma loose_not : forall v, loose (VNot v).
Proof. intros v p L. unfold wrap. cbn [M_Conv.prec]. destruct (Nat.ltb_spec 2 p); [lia | reflexivity]. Qed.
Lemma loose_plain : forall v, is_operator v = false -> (forall s, v <> VStr s) -> loose v.
Proof. intros v O N p L. unfold wrap. unfold is_operator in O. destruct (M_Conv.prec v) eqn:E; [discriminate|]. destruct v; try reflexivity. destruct (N s eq_refl). Qed.
Lemma alike_not : forall v w, alike v w -> alike (VNot v) (VNot w).
Proof. intros v w [_ H]. apply alike_loose; auto using loose_not. change (Not :: wrap 2 v = Not :: wrap 2 w). rewrite H by lia. reflexivity. Qed.
Lemma alike_and : forall v w v' w', alike v w -> alike v' w' -> alike (VAnd v v') (VAnd w w').
Proof.
  intros v w v' w' [_ H] [_ H']. assert (E : repr (VAnd v v') = repr (VAnd w w')) by (change (wrap 1 v ++ Op OAnd :: wrap 1 v' = wrap 1 w ++ Op OAnd :: wrap 1 w'); rewrite H, H' by lia; reflexivity).
  split; auto. intros p L. unfold wrap. rewrite E. reflexivity.
Qed.
Lemma alike_or : forall v w v' w', alike v w -> alike v' w' -> alike (VOr v v') (VOr w w').
Proof.
  intros v w v' w' [_ H] [_ H']. assert (E : repr (VOr v v') = repr (VOr w w')) by (change (wrap 0 v ++ Op OOr :: wrap 0 v' = wrap 0 w ++ Op OOr :: wrap 0 w'); rewrite H, H' by lia; reflexivity).
  split; auto. intros p L. unfold wrap. rewrite E. reflexivity.
Qed.
Fixpoint nots (n : nat) (e : ctx) : ctx := match n with O => e | S n => CNot (nots n e) end.
Fixpoint vnots (n : nat) (v : val) : val := match n with O => v | S n => VNot (vnots n v) end.
Lemma nots_in : forall n e, nots n (CNot e) = nots (S n) e.
Proof. induction n as [|n IH]; intros e; [reflexivity|]. cbn [nots]. rewrite IH. reflexivity. Qed.
Lemma conv_nots : forall lib skip n e, conv lib skip (clean (nots n e)) = vnots n (conv lib skip (clean e)).
Proof. induction n as [|n IH]; intros e; [reflexivity|]. cbn [nots clean conv vnots]. rewrite IH. reflexivity. Qed.
Lemma alike_nots : forall n v w, alike v w -> alike (vnots n v) (vnots n w).
Proof. induction n as [|n IH]; intros v w H; [exact H|]. cbn [vnots]. apply alike_not, IH, H. Qed.
Lemma repr_nots : forall n v, loose v -> repr (vnots n v) = repeat Not n ++ repr v.
Proof.
  assert (L : forall n v, loose v -> loose (vnots n v)) by (intros [|n] v H; [exact H | apply loose_not]).
  induction n as [|n IH]; intros v H; [reflexivity|]. change (repr (vnots (S n) v)) with (Not :: wrap 2 (vnots n v)). rewrite (L n v H) by lia. rewrite IH by auto. reflexivity.
Qed.
Lemma regrouped_nots : forall n e, regrouped (nots (S n) e) = with_first (nots (S n) (first_operand (regrouped e))) (regrouped e).
Proof.
  induction n as [|n IH]; intros e; [reflexivity|]. change (regrouped (nots (S (S n)) e)) with (let x := regrouped (nots (S n) e) in with_first (CNot (first_operand x)) x). cbn zeta.
  rewrite IH. rewrite first_with by reflexivity. rewrite with_with by reflexivity. reflexivity.
Qed.

(** ** Operands without AND, OR, NOT *)
Lemma tame_regrouped : forall lib t, tame lib t -> regrouped t = t.
Proof.
  intros lib. induction t as [s|n|s|b| |e IH|m e IH|e IH|o a b IHa IHb|o a b IHa IHb|a b IHa IHb|a b IHa IHb|f l IH] using ctx_ind'; cbn [tame regrouped]; intros H; try reflexivity; try contradiction.
  - rewrite IH; auto.
  - rewrite IH; [reflexivity | apply H].
  - destruct H as (A & B & _). rewrite IHa, IHb; auto.
  - destruct H as (A & B & _). rewrite IHa, IHb; auto.
  - destruct H as [_ H]. f_equal. induction l as [|x l IHl]; [reflexivity|]. inversion IH; subst. destruct H as [Hx Hl]. cbn [map]. f_equal; auto.
Qed.
Lemma joined_first : forall t s, joined (mean t) = EStr s -> exists s', joined (mean (first_operand t)) = EStr s'.
Proof.
  induction t as [s0|n|s0|b| |e IH|m e IH|e IH|o a IHa b IHb|o a IHa b IHb|a IHa b IHb|a IHa b IHb|f l]; intros s H; cbn [first_operand]; eauto; try discriminate H.
  cbn [mean] in H. destruct o; try discriminate H. rewrite joined_add in H. destruct (joined (mean a)) eqn:E; try discriminate H. apply (IHa _ eq_refl).
Qed.
Lemma tame_conv : forall lib t skip, produced t -> tame lib t -> is_operator (conv lib skip (clean t)) = false /\ (forall s, conv lib skip (clean t) = VStr s -> joined (mean t) = EStr s).
Proof.
  intros lib t skip P T. destruct (conv_tame lib t P T skip) as (e & Pe & J & O). split; auto. intros s E. rewrite E in Pe. cbn [repr] in Pe.
  assert (X : e = EStr s) by exact (Pr_det (pl t) [StrT s] e (EStr s) 13%nat (pl_le t) (le_n 13%nat) Pe (Pr_str s)). rewrite X in J. exact (eq_sym J).
Qed.
Lemma with_first_sub : forall k t, is_sub k = false -> is_sub (with_first k t) = false.
Proof. intros k t H. destruct t; cbn [with_first is_sub]; auto. Qed.
Definition marks (lib : pystr -> bool) (k a : ctx) (pre : list tok) : Prop :=
  forall skip, (exists w, conv lib skip (clean k) = VNot w) /\ repr (conv lib skip (clean k)) = pre ++ repr (conv lib skip (clean a)).
Definition simple (t : ctx) : bool := match t with CBin _ _ _ | CCmp _ _ _ | CAnd _ _ | COr _ _ => false | _ => true end.
Lemma pow_clean_none : forall t, pow_of t = None -> wrap_pow (clean t) = clean t.
Proof.
  intros t H. assert (X := pow_of_clean t). rewrite H in X. unfold wrap_pow. destruct (clean t); try reflexivity. destruct o; try reflexivity. discriminate X.
Qed.
Lemma spine : forall lib k pre e, is_sub k = false -> pow_of k = None -> produced e -> tame lib e -> begins_ok e = true -> (forall s, joined (mean (first_operand e)) <> EStr s) -> marks lib k (first_operand e) pre ->
  forall skip, repr (conv lib skip (clean (with_first k e))) = pre ++ repr (conv lib skip (clean e))
    /\ (if simple e then exists w, conv lib skip (clean (with_first k e)) = VNot w else exists ts, conv lib skip (clean (with_first k e)) = VCode ts).
Proof.
  intros lib k pre e Sk Pk. induction e as [s|n|s|b| |e _|m e _|e _|o a IHa b _|o a IHa b _|a _ b _|a _ b _|f l]; intros P T B N M skip; cbn [with_first simple first_operand] in *;
    try (destruct (M skip) as [X Y]; split; [exact Y | exact X]); try contradiction.
  - (* arithmetic *)
    destruct P as (Ho & _ & _ & Pa & Pb). destruct T as (Ta & Tb & Tm). cbn [begins_ok] in B.
    assert (Ba : begins_ok a = true /\ is_sub a = false /\ (o = OAdd -> simple a = false /\ exists o' x y, a = CBin o' x y) /\ (o = OPow -> pow_of a = None)).
    { destruct o; try discriminate Ho; destruct a as [?|?|?|?| |?|? ?|?|o' ? ?|? ? ?|? ?|? ?|? ?]; try discriminate B; cbn [simple];
        (split; [first [exact B | destruct o'; first [discriminate B | exact B]] | split; [reflexivity | split; intros X; try discriminate X; first [split; [reflexivity | eauto] | reflexivity | destruct o'; first [discriminate B | reflexivity]]]]). }
    destruct Ba as (Ba & Sa & Ad & Pw). destruct (IHa Pa Ta Ba N M skip) as [R V]. destruct (IHa Pa Ta Ba N M true) as [_ V1].
    assert (Sc : is_sub (clean (with_first k a)) = false) by (rewrite is_sub_clean; apply with_first_sub; auto).
    assert (Ns : forall s, conv lib skip (clean a) <> VStr s).
    { intros s E. apply (proj2 (tame_conv lib a skip Pa Ta)) in E. destruct (joined_first a s E) as [s' F]. exact (N s' F). }
    assert (Nw : forall s, conv lib skip (clean (with_first k a)) <> VStr s) by (intros s E; destruct (simple a); destruct V as [x V]; rewrite V in E; discriminate E).
    assert (Fin : forall v w, (forall s, v <> VStr s) -> operation o v w = VCode (bin_code o (repr v) (repr w))) by (intros v w Hv; unfold operation; destruct o; try reflexivity; destruct v; try reflexivity; destruct (Hv s eq_refl)).
    assert (G : forall x y, is_sub x = false -> (forall s, conv lib skip x <> VStr s) -> operation o (add_parens x (conv lib skip x)) y = VCode (bin_code o (repr (conv lib skip x)) (repr y))) by (intros x y Hx Hs; unfold add_parens; rewrite Hx; apply Fin; auto).
    assert (A1 : is_sub (clean a) = false) by (rewrite is_sub_clean; auto).
    assert (Conc : exists y, conv lib skip (clean (CBin o (with_first k a) b)) = VCode (bin_code o (repr (conv lib skip (clean (with_first k a)))) (repr y)) /\ conv lib skip (clean (CBin o a b)) = VCode (bin_code o (repr (conv lib skip (clean a))) (repr y))).
    { destruct o; try discriminate Ho.
      - cbn [clean]. destruct (Ad eq_refl) as (Q & o' & x & y & ->). eexists. rewrite !conv_add.
        + split; apply G; auto.
        + apply extract_none; auto.
        + apply tame_conv; auto.
        + cbn [with_first]. clear. destruct o'; reflexivity.
        + rewrite Q in V1. destruct V1 as [ts ->]. reflexivity.
      - cbn [clean]. eexists. rewrite !conv_bin by reflexivity. split; apply G; auto.
      - cbn [clean]. eexists. rewrite !conv_bin by reflexivity. split; apply G; auto.
      - cbn [clean]. eexists. rewrite !conv_bin by reflexivity. split; apply G; auto.
      - cbn [clean]. eexists. rewrite !conv_bin by reflexivity. split; apply G; auto.
      - cbn [clean]. rewrite !clean_pow_eq. rewrite (pow_clean_none a (Pw eq_refl)). rewrite (pow_clean_none (with_first k a)).
        + eexists. rewrite !conv_bin by reflexivity. split; apply G; auto.
        + specialize (Pw eq_refl). destruct a as [?|?|?|?| |?|? ?|?|o' ? ?|? ? ?|? ?|? ?|? ?]; cbn [with_first]; auto. destruct o'; try discriminate Pw; reflexivity. }
    destruct Conc as (y & C1 & C2). rewrite C1, C2. split; [|eexists; reflexivity]. cbn [repr]. unfold bin_code. rewrite R, <- app_assoc. reflexivity.
  - (* comparison *)
    destruct P as (Ho & _ & _ & Pa & Pb). destruct T as (Ta & Tb & Tm). cbn [begins_ok] in B. destruct (IHa Pa Ta B N M skip) as [R _]. cbn [clean conv repr]. split; [|eexists; reflexivity].
    unfold bin_code. rewrite R, <- app_assoc. reflexivity.
Qed.

(** ** Conditions *)
Fixpoint shaped (t : ctx) : Prop :=
  match t with
  | CNot e => match e with CAnd _ _ | COr _ _ => False | _ => True end /\ shaped e
  | CSub e => shaped e
  | CAnd a b | COr a b => shaped a /\ shaped b
  | _ => True
  end.
Lemma shaped_nots : forall n e, shaped (nots n e) -> shaped e.
Proof. induction n as [|n IH]; intros e H; [exact H|]. apply IH. exact (proj2 H). Qed.
Lemma boolean_nots : forall lib n e, boolean lib (nots n e) -> boolean lib e.
Proof. induction n as [|n IH]; intros e H; [exact H|]. apply IH. exact H. Qed.
Lemma nots_ok_nots : forall n e, nots_ok (nots n e) -> nots_ok e.
Proof. induction n as [|n IH]; intros e H; [exact H|]. apply IH. exact (proj1 H). Qed.
Lemma nots_ok_last : forall n e, (forall x, e <> CNot x) -> nots_ok (nots (S n) e) -> begins_ok e = true /\ forall s, joined (mean (first_operand e)) <> EStr s.
Proof.
  induction n as [|n IH]; intros e N H.
  - cbn [nots nots_ok] in H. destruct H as [_ H]. destruct e; try exact H. destruct (N e eq_refl).
  - apply IH; auto. exact (proj1 H).
Qed.
Lemma leaf_alike : forall lib n e skip, (forall x, e <> CNot x) -> produced e -> tame lib e -> (forall s, joined (mean e) <> EStr s) -> nots_ok (nots n e) ->
  alike (conv lib skip (clean (regrouped (nots n e)))) (conv lib skip (clean (nots n e))).
Proof.
  intros lib n e skip N P T Js Ok. destruct n as [|n]; [cbn [nots]; rewrite (tame_regrouped lib e T); apply alike_refl|].
  destruct (nots_ok_last n e N Ok) as [B F]. rewrite regrouped_nots, (tame_regrouped lib e T).
  assert (Lo : forall x sk, produced x -> tame lib x -> (forall s, joined (mean x) <> EStr s) -> loose (conv lib sk (clean x))).
  { intros x sk Px Tx Jx. destruct (tame_conv lib x sk Px Tx) as [O S0]. apply loose_plain; auto. intros s E. apply (Jx s), S0, E. }
  assert (Pf : produced (first_operand e) /\ tame lib (first_operand e)).
  { clear - P T. induction e as [s|m|s|b| |e _|m e _|e _|o a IHa b _|o a IHa b _|a IHa b _|a IHa b _|f l]; cbn [first_operand]; auto; try contradiction; destruct P as (_ & _ & _ & Pa & _); destruct T as (Ta & _); auto. }
  destruct Pf as [Pf Tf].
  assert (M : marks lib (nots (S n) (first_operand e)) (first_operand e) (repeat Not (S n))).
  { intros sk. rewrite conv_nots. split; [eexists; reflexivity|]. apply repr_nots. apply Lo; auto. }
  destruct (spine lib (nots (S n) (first_operand e)) _ e eq_refl eq_refl P T B F M skip) as [R V].
  apply alike_loose.
  - rewrite R, conv_nots, repr_nots by (apply Lo; auto). reflexivity.
  - destruct (simple e); destruct V as [x ->]; [apply loose_not | apply loose_plain; [reflexivity | discriminate]].
  - rewrite conv_nots. apply loose_not.
Qed.
Lemma conv_clean_sub : forall lib skip e, conv lib skip (clean (CSub e)) = conv lib skip (clean e).
Proof. intros lib skip e. cbn [clean]. unfold clean_sub. destruct (clean e); reflexivity. Qed.
Lemma conditions_alike : forall lib t n, shaped (nots n t) -> boolean lib (nots n t) -> nots_ok (nots n t) -> forall skip, alike (conv lib skip (clean (regrouped (nots n t)))) (conv lib skip (clean (nots n t))).
Proof.
  intros lib. induction t as [s|m|s|b| |e IH|m e IH|e IH|o a IHa b IHb|o a IHa b IHb|a IHa b IHb|a IHa b IHb|f l]; intros n Sh Bo Ok skip;
    try (assert (X := boolean_nots _ _ _ Bo); cbn [boolean] in X; destruct X as (P & T & J); apply leaf_alike; auto; intros; discriminate).
  - (* parentheses *) assert (A : alike (conv lib skip (clean (regrouped e))) (conv lib skip (clean e))) by (apply (IH 0%nat); [exact (shaped_nots _ _ Sh) | exact (boolean_nots _ _ _ Bo) | exact (nots_ok_nots _ _ Ok)]).
    assert (R : regrouped (nots n (CSub e)) = nots n (CSub (regrouped e))) by (destruct n as [|n]; [reflexivity | rewrite regrouped_nots; reflexivity]).
    rewrite R, !conv_nots, !conv_clean_sub. apply alike_nots, A.
  - (* not *) rewrite nots_in in *. apply IH; auto.
  - (* and *) destruct n as [|n].
    + cbn [nots] in *. destruct Sh, Bo, Ok. cbn [regrouped clean conv]. apply alike_and; [apply (IHa 0%nat) | apply (IHb 0%nat)]; auto.
    + exfalso. clear - Sh. induction n as [|n IH]; [exact (proj1 Sh) | apply IH; exact (proj2 Sh)].
  - (* or *) destruct n as [|n].
    + cbn [nots] in *. destruct Sh, Bo, Ok. cbn [regrouped clean conv]. apply alike_or; [apply (IHa 0%nat) | apply (IHb 0%nat)]; auto.
    + exfalso. clear - Sh. induction n as [|n IH]; [exact (proj1 Sh) | apply IH; exact (proj2 Sh)].
Qed.
Theorem regrouped_code : forall lib t, shaped t -> boolean lib t -> nots_ok t -> code lib (regrouped t) = code lib t.
Proof. intros lib t A B C. exact (proj1 (conditions_alike lib t 0 A B C false)). Qed.
