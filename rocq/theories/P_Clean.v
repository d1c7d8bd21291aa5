(** Proofs about the parse-tree clean-up (vfp2py.py:140-187). *)
From Verif Require Import PyBase PyStr S_Py P_Py M_Conv S_Conv P_Conv S_Clean.

Section value.
Variable V : Type.
Variable I : interp V.
Hypothesis neg2 : forall v, i_neg V I (i_neg V I v) = v.
Notation value := (value V I).
Lemma value_sub e : value (clean_sub e) = value e.
Proof. destruct e; reflexivity. Qed.
Lemma value_pow a b : value (clean_pow a b) = i_bin V I OPow (value a) (value b).
Proof.
  rewrite clean_pow_eq. cbn [S_Clean.value]. f_equal.
  - destruct a; try reflexivity. destruct o; reflexivity.
  - destruct b as [| | | | |b| | | | | | |]; try reflexivity. destruct b; try reflexivity. destruct o; reflexivity.
Qed.
Definition under (e : ctx) : ctx := match e with CSign _ e => e | _ => e end.
(* the signs that clean leaves on a chain: all plus, except possibly the innermost *)
Lemma chain_value e : is_sign e = true -> value (clean e) = (if kept e then i_neg V I else fun v => v) (value (clean (base e))) /\
  (forall m e', clean e = CSign m e' -> value e' = (if match e with CSign _ (CSign _ _) => kept e | _ => false end then i_neg V I else fun v => v) (value (clean (base e)))
     /\ m = match e with CSign _ (CSign _ _) => false | _ => kept e end).
Proof.
  induction e as [| | | | | |m e IH| | | | | |]; try discriminate. intros _. destruct (is_sign e) eqn:Es.
  - destruct (IH eq_refl) as [IH1 IH2]. destruct e as [| | | | | |m' e| | | | | |]; try discriminate Es. clear IH.
    assert (X : exists n x, clean (CSign m' e) = CSign n x).
    { pose proof (is_sign_clean (CSign m' e)) as S. destruct (clean (CSign m' e)); try discriminate S. eexists _, _. reflexivity. }
    destruct X as (n & x & X). destruct (IH2 n x X) as [Y Z].
    change (clean (CSign m (CSign m' e))) with (clean_sign m (clean (CSign m' e))). rewrite X.
    change (base (CSign m (CSign m' e))) with (base (CSign m' e)).
    destruct (is_sign e) eqn:Es'.
    + assert (K : kept (CSign m (CSign m' e)) = kept (CSign m' e)) by (destruct e; try discriminate Es'; reflexivity).
      assert (Q : match CSign m' e with CSign _ (CSign _ _) => kept (CSign m' e) | _ => false end = kept (CSign m' e)) by (destruct e; try discriminate Es'; reflexivity).
      assert (Zf : n = false) by (rewrite Z; destruct e; try discriminate Es'; reflexivity). rewrite Zf in *. rewrite Q in Y. rewrite K.
      destruct m; cbn [clean_sign]; (split; [cbn [S_Clean.value]; exact Y|]); intros m0 e0 E; injection E as <- <-; cbn [S_Clean.value]; split; try reflexivity; exact Y.
    + assert (Q : match CSign m' e with CSign _ (CSign _ _) => kept (CSign m' e) | _ => false end = false) by (destruct e; try discriminate Es'; reflexivity).
      assert (Z' : n = m') by (rewrite Z; destruct e; try discriminate Es'; reflexivity). clear Z. subst n. rewrite Q in Y.
      assert (K : kept (CSign m (CSign m' e)) = m' && negb m) by (destruct e; try discriminate Es'; reflexivity). rewrite K.
      destruct m; cbn [clean_sign].
      * rewrite andb_false_r. split; [cbn [S_Clean.value]; exact Y|]. intros m0 e0 E; injection E as <- <-. cbn [S_Clean.value]. split; [exact Y|reflexivity].
      * rewrite andb_true_r. split; [cbn [S_Clean.value]; destruct m'; cbn; rewrite Y; reflexivity|].
        intros m0 e0 E; injection E as <- <-. split; [|reflexivity]. cbn [S_Clean.value]. destruct m'; cbn; rewrite Y; reflexivity.
  - assert (C : clean (CSign m e) = CSign m (clean e)).
    { cbn [clean]. destruct m; [|reflexivity]. pose proof (is_sign_clean e) as S. rewrite Es in S. unfold clean_sign. destruct (clean e); try reflexivity. discriminate S. }
    assert (K : kept (CSign m e) = m) by (destruct e; try discriminate Es; reflexivity).
    assert (B : base (CSign m e) = e) by (destruct e; try discriminate Es; reflexivity).
    rewrite C, B. split.
    + rewrite K. cbn [S_Clean.value]. destruct m; reflexivity.
    + intros m0 e0 E. injection E as <- <-. destruct e; try discriminate Es; rewrite K; split; reflexivity.
Qed.
Lemma value_chain e : value e = (if minuses e then i_neg V I else fun v => v) (value (base e)).
Proof.
  induction e as [| | | | | |m e IH| | | | | |]; try reflexivity. cbn [S_Clean.value minuses base]. rewrite IH.
  destruct m, (minuses e); cbn; try reflexivity. apply neg2.
Qed.
Lemma clean_value t : forall inside, signs_ok inside t -> (inside = true -> is_sign t = true -> value (clean (base t)) = value (base t)) /\
  ((inside = false \/ is_sign t = false) -> value (clean t) = value t).
Proof.
  induction t as [s|n|s|b| |e IH|m e IH|e IH|o a b IHa IHb|o a b IHa IHb|a b IHa IHb|a b IHa IHb|f l IH] using ctx_ind'; intros inside H;
    (split; [intros ? Hs; try discriminate Hs|intros Hc]); try reflexivity; cbn [signs_ok] in H.
  - cbn [clean]. rewrite value_sub. cbn [S_Clean.value]. apply (IH false H). left; reflexivity.
  - destruct H as [_ H]. cbn [base]. destruct (is_sign e) eqn:Es; [apply (IH true H); reflexivity|].
    replace (base e) with e by (destruct e; try discriminate Es; reflexivity). apply (IH true H). right. reflexivity.
  - destruct Hc as [-> |Hc]; [|discriminate Hc]. destruct H as [[H|H] H']; [discriminate H|].
    destruct (chain_value (CSign m e) eq_refl) as [X _]. rewrite X, (value_chain (CSign m e)), H.
    assert (Y : value (clean (base (CSign m e))) = value (base (CSign m e))).
    { cbn [base]. destruct (is_sign e) eqn:Es; [apply (IH true H'); reflexivity|].
      replace (base e) with e by (destruct e; try discriminate Es; reflexivity). apply (IH true H'). right. reflexivity. }
    rewrite Y. reflexivity.
  - cbn [clean S_Clean.value]. f_equal. apply (IH false H). left; reflexivity.
  - destruct H as [Ha Hb]. pose proof (proj2 (IHa false Ha) (or_introl eq_refl)) as A. pose proof (proj2 (IHb false Hb) (or_introl eq_refl)) as B.
    destruct o; cbn [clean]; try (cbn [S_Clean.value]; rewrite A, B; reflexivity). rewrite value_pow, A, B. reflexivity.
  - destruct H as [Ha Hb]. cbn [clean S_Clean.value]. f_equal; [apply (IHa false Ha)|apply (IHb false Hb)]; left; reflexivity.
  - destruct H as [Ha Hb]. cbn [clean S_Clean.value]. f_equal; [apply (IHa false Ha)|apply (IHb false Hb)]; left; reflexivity.
  - destruct H as [Ha Hb]. cbn [clean S_Clean.value]. f_equal; [apply (IHa false Ha)|apply (IHb false Hb)]; left; reflexivity.
  - cbn [clean S_Clean.value]. f_equal. apply all_Forall in H. clear - IH H. induction l as [|x l IHl]; [reflexivity|].
    inversion IH as [|? ? I1 I2]; subst. inversion H as [|? ? H1 H2]; subst. cbn [map]. f_equal; [|exact (IHl I2 H2)].
    apply (I1 false H1). left; reflexivity.
Qed.
End value.
