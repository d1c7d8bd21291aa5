(** Proofs about the values of converted expressions and of the inlined functions. *)
From Verif Require Import PyBase PyStr S_Py P_Py M_Conv S_Conv P_Conv S_PyEval S_Inline.
Open Scope Z_scope.

Lemma pe_ind' (P : pe -> Prop) :
  (forall s, P (EName s)) -> (forall n, P (EInt n)) -> (forall s, P (EStr s)) -> (forall o e, P e -> P (EUn o e)) ->
  (forall o a b, P a -> P b -> P (EBin o a b)) -> (forall e, P e -> P (ENot e)) -> (forall a l, P a -> Forall (fun p => P (snd p)) l -> P (ECmp a l)) ->
  (forall c a b, P c -> P a -> P b -> P (EIf c a b)) -> (forall f l, P f -> Forall P l -> P (ECall f l)) -> (forall e s, P e -> P (EAttr e s)) ->
  (forall e i, P (EIdx e i)) -> (forall e a b, P (ESlice e a b)) -> (forall l, P (ETuple l)) -> forall e, P e.
Proof.
  intros H1 H2 H3 H4 H5 H6 H7 H8 H9 H10 H11 H12 H13. fix IH 1. intros [s|n|s|o e|o a b|e|a l|c a b|f l|e s|e i|e a b|l].
  - apply H1. - apply H2. - apply H3. - apply H4, IH. - apply H5; apply IH. - apply H6, IH.
  - apply H7; [apply IH|]. induction l as [|[o x] l IHl]; constructor; [apply IH|exact IHl].
  - apply H8; apply IH.
  - apply H9; [apply IH|]. induction l as [|x l IHl]; constructor; [apply IH|exact IHl].
  - apply H10, IH. - apply H11. - apply H12. - apply H13.
Qed.

Section eval.
Variable env : pystr -> option pval.
Notation pev := (pev env).
Fixpoint chain (x : option pval) (l : list (op * pe)) : option pval :=
  match l with
  | [] => Some (PB true)
  | (o, b) :: l =>
      match x, pev b with
      | Some x, Some y => match cmp o x y with Some true => chain (Some y) l | Some false => Some (PB false) | None => None end
      | _, _ => None
      end
  end.
Fixpoint evall (l : list pe) : option (list pval) :=
  match l with [] => Some [] | e :: l => match pev e, evall l with Some v, Some vs => Some (v :: vs) | _, _ => None end end.
Lemma pev_cmp a l : pev (ECmp a l) = chain (pev a) l.
Proof. reflexivity. Qed.
Lemma pev_call f l : pev (ECall f l) = match evall l with
  | None => None
  | Some vs => match f with EName g => func g vs | EAttr o m => match pev o with Some (PS s) => meth s m vs | _ => None end | _ => None end end.
Proof. reflexivity. Qed.
Lemma pev_bin o a b : match o with OAnd | OOr => false | _ => true end = true ->
  pev (EBin o a b) = match pev a, pev b with Some x, Some y => bin o x y | _, _ => None end.
Proof. intros H. destruct o; try discriminate H; reflexivity. Qed.

Lemma joined_shape e : match e with EName s => joined e = EName s | EAttr x s => joined e = EAttr (joined x) s | EBin _ _ _ => True
  | _ => (forall s, joined e <> EName s) /\ (forall x s, joined e <> EAttr x s) end.
Proof. destruct e; cbn [joined]; try reflexivity; try exact I; split; discriminate. Qed.
Lemma joined_bin_shape o a b : (forall s, joined (EBin o a b) <> EName s) /\ (forall x s, joined (EBin o a b) <> EAttr x s).
Proof.
  destruct o; cbn [joined]; try (split; discriminate). destruct (joined a); try (split; discriminate). destruct (joined b); split; discriminate.
Qed.
Lemma pev_joined' e : pev (joined e) = pev e /\ match e with EAttr x _ => pev (joined x) = pev x | _ => True end.
Proof.
  induction e as [s|n|s|o e IH|o a b IHa IHb|e IH|a l IHa IHl|c a b IHc IHa IHb|f l IHf IHl|e s IH|e i|e a b|l] using pe_ind'; (split; [|try exact I]); try reflexivity.
  - destruct IH as [IH _]. cbn [joined S_PyEval.pev]. rewrite IH. reflexivity.
  - destruct IHa as [IHa _], IHb as [IHb _].
    assert (X : match o with OAdd => false | _ => true end = true -> joined (EBin o a b) = EBin o (joined a) (joined b)) by (intros Ho; destruct o; try discriminate Ho; reflexivity).
    destruct (match o with OAdd => false | _ => true end) eqn:Eo.
    + rewrite X by reflexivity. destruct o; cbn [S_PyEval.pev]; try rewrite IHa; try rewrite IHb; try reflexivity.
    + assert (o = OAdd) by (destruct o; try discriminate Eo; reflexivity). subst o. rewrite joined_add.
      assert (Y : forall x y, pev (EBin OAdd x y) = match pev x, pev y with Some v, Some w => bin OAdd v w | _, _ => None end) by reflexivity.
      rewrite Y, <- IHa, <- IHb. destruct (joined a) eqn:Ea; try (rewrite Y; reflexivity).
      destruct (joined b) eqn:Eb; try (rewrite Y; reflexivity). reflexivity.
  - destruct IH as [IH _]. cbn [joined S_PyEval.pev]. rewrite IH. reflexivity.
  - destruct IHa as [IHa _]. cbn [joined]. rewrite !pev_cmp, IHa. clear IHa. generalize (pev a). clear a. induction IHl as [|[o x] l Hx Hl IHl]; intros v; [reflexivity|].
    cbn [map fst snd chain]. cbn [snd] in Hx. destruct Hx as [Hx _]. rewrite Hx. destruct v as [v|]; [|reflexivity]. destruct (pev x) as [w|]; [|reflexivity].
    destruct (cmp o v w) as [[]|]; try reflexivity. apply IHl.
  - destruct IHa as [IHa _], IHb as [IHb _], IHc as [IHc _]. cbn [joined S_PyEval.pev]. rewrite IHc, IHa, IHb. reflexivity.
  - cbn [joined]. rewrite !pev_call.
    assert (X : evall (map joined l) = evall l). { clear - IHl. induction IHl as [|x l [Hx _] Hl IH]; [reflexivity|]. cbn [map evall]. rewrite Hx, IH. reflexivity. }
    rewrite X. destruct (evall l) as [vs|]; [|reflexivity]. clear - IHf. destruct IHf as [_ IHf].
    destruct f as [s|n|s|o e|o a b|e|a l|c a b|f l|e s|e i|e a b|l]; try reflexivity.
    + destruct (joined_bin_shape o a b) as [S1 S2]. destruct (joined (EBin o a b)); try reflexivity; [exfalso; exact (S1 _ eq_refl)|exfalso; exact (S2 _ _ eq_refl)].
    + cbn [joined]. rewrite IHf. reflexivity.
  - destruct IH as [IH _]. pose proof (joined_shape e) as S. destruct e as [x|n|x|o e|o a b|e|a l|c a b|f l|e x|e i|e a b|l]; cbn [joined]; try reflexivity.
    destruct (joined_bin_shape o a b) as [S1 S2]. change (pev (EAttr (joined (EBin o a b)) s) = None). destruct (joined (EBin o a b)); try reflexivity. exfalso; exact (S1 _ eq_refl).
  - exact (proj1 IH).
Qed.
Lemma pev_joined e : pev (joined e) = pev e.
Proof. exact (proj1 (pev_joined' e)). Qed.

(** A tame expression: its code has the value of its operator tree. *)
Lemma tame_code lib t v : produced t -> tame lib t -> pev (mean t) = Some v ->
  forall skip, exists e, Pr (pl t) (repr (conv lib skip (clean t))) e /\ pev e = Some v.
Proof.
  intros P T H skip. destruct (conv_tame lib t P T skip) as (e & Pe & J & _). exists e. split; [exact Pe|]. rewrite <- pev_joined, J, pev_joined. exact H.
Qed.
Lemma atomic_pl t : atomic t = true -> pl t = 13%nat.
Proof. destruct t; try discriminate; reflexivity. Qed.
Lemma atomic_clean_atomic lib t s : text lib env t s -> exists e, Pr 13 (repr (conv lib false (clean t))) e /\ pev e = Some (PS s).
Proof. intros (P & T & H & A). rewrite <- (atomic_pl t A). exact (tame_code lib t _ P T H false). Qed.
Lemma any0 lib t v : produced t -> tame lib t -> pev (mean t) = Some v -> exists e, Pr 0 (repr (conv lib false (clean t))) e /\ pev e = Some v.
Proof. intros P T H. destruct (tame_code lib t v P T H false) as (e & Pe & V). exists e. split; [apply (Pr_down 0 (pl t)); [lia|apply pl_le|exact Pe]|exact V]. Qed.
Lemma repr_int_ok n : exists e, Pr 11 (repr_int n) e /\ pev e = Some (PI n).
Proof.
  unfold repr_int. destruct (Z.ltb_spec n 0).
  - exists (EUn UNeg (EInt (- n))). split; [apply Pr_un; [reflexivity|]; apply (Pr_down 11 13); [lia|lia|apply Pr_intt]|]. cbn. rewrite Z.opp_involutive. reflexivity.
  - exists (EInt n). split; [apply (Pr_down 11 13); [lia|lia|apply Pr_intt]|reflexivity].
Qed.
Lemma int_call ts e n : Pr 0 ts e -> pev e = Some (PI n) -> exists e', Pr 13 (name "int" ++ Lp :: ts ++ [Rp]) e' /\ pev e' = Some (PI n).
Proof.
  intros P V. exists (ECall (EName (u "int")) [e]). split; [|rewrite pev_call; cbn [evall]; rewrite V; reflexivity].
  apply (Pr_call _ _ [ts] [e] (Pr_id (u "int"))). repeat constructor. exact (proj1 P). exact (proj2 P).
Qed.
(* either a constant or a call of int *)
Lemma int_of_ok lib t n : number lib env t n ->
  (int_of (conv lib false (clean t)) = VInt n \/ exists ts e, int_of (conv lib false (clean t)) = VCode ts /\ Pr 13 ts e /\ pev e = Some (PI n)).
Proof.
  intros (P & T & H). destruct (any0 lib t _ P T H) as (e & Pe & V). destruct (int_call _ e n Pe V) as (e' & Pe' & V').
  set (v := conv lib false (clean t)) in *.
  assert (X : int_of v = func_code (name "int") [v] \/ exists k, int_of v = VInt k).
  { unfold int_of. destruct v as [k|s|b| |ts|a b|a b|a]; try (left; reflexivity); try (right; eexists; reflexivity).
    destruct ts as [|[s|k|s|o| | | | | | | | | | |] ts]; try (left; reflexivity).
    - destruct ts; [right; eexists; reflexivity|left; reflexivity].
    - destruct o; try (left; reflexivity). destruct ts as [|[s|k|s|o| | | | | | | | | | |] ts]; try (left; reflexivity). destruct ts; [right; eexists; reflexivity|left; reflexivity]. }
  destruct X as [X | [k X]].
  - right. rewrite X. eexists _, e'. split; [reflexivity|]. split; [|exact V']. exact Pe'.
  - left. rewrite X. f_equal. unfold int_of in X. destruct v as [k'|s|b| |ts|a b|a b|a]; try discriminate X.
    + injection X as <-. destruct (repr_int_ok k') as (e2 & P2 & V2). assert (e = e2) by (apply (Pr_det 0 (repr_int k') _ _ 11); [lia|lia|exact Pe|exact P2]). subst. congruence.
    + assert (E : e = EName (if b then u "True" else u "False")) by (apply (Pr_det 0 [Id (if b then u "True" else u "False")] _ _ 13); [lia|lia|exact Pe|apply Pr_id]). subst.
      destruct b; discriminate V.
    + destruct ts as [|[s|m|s|o| | | | | | | | | | |] ts]; try discriminate X.
      * destruct ts; [|discriminate X]. injection X as <-.
        assert (E : e = EInt m) by (apply (Pr_det 0 [IntT m] _ _ 13); [lia|lia|exact Pe|apply Pr_intt]). subst. injection V as <-. reflexivity.
      * destruct o; try discriminate X. destruct ts as [|[s|m|s|o| | | | | | | | | | |] ts]; try discriminate X. destruct ts; [|discriminate X]. injection X as <-.
        assert (E : e = EUn UNeg (EInt m)).
        { apply (Pr_det 0 [Op OSub; IntT m] _ _ 11); [lia|lia|exact Pe|]. apply Pr_un; [reflexivity|]. apply (Pr_down 11 13); [lia|lia|apply Pr_intt]. }
        subst. injection V as <-. reflexivity.
Qed.
Lemma ti_ok lib t n : number lib env t n -> exists e, Pr 11 (repr (int_of (conv lib false (clean t)))) e /\ pev e = Some (PI n).
Proof.
  intros H. destruct (int_of_ok lib t n H) as [-> | (ts & e & -> & P & V)]; [apply repr_int_ok|].
  exists e. split; [apply (Pr_down 11 13); [lia|lia|exact P]|exact V].
Qed.
Lemma value_of l ts e v : (l <= 13)%nat -> Pr l ts e -> pev e = Some v -> py_value env ts v.
Proof. intros L P V. exists e. split; [exact (Pr_parse l ts e L P)|exact V]. Qed.
End eval.
