(** Proofs about the conversion of arithmetic. *)
From Verif Require Import PyBase PyStr S_Py P_Py M_Conv S_Conv.
From Verif Require M_Call.
Open Scope nat_scope.

Lemma ctx_ind' (P : ctx -> Prop) :
  (forall s, P (CVar s)) -> (forall n, P (CInt n)) -> (forall s, P (CStr s)) -> (forall b, P (CBool b)) -> P CNull ->
  (forall e, P e -> P (CSub e)) -> (forall m e, P e -> P (CSign m e)) -> (forall e, P e -> P (CNot e)) ->
  (forall o a b, P a -> P b -> P (CBin o a b)) -> (forall o a b, P a -> P b -> P (CCmp o a b)) ->
  (forall a b, P a -> P b -> P (CAnd a b)) -> (forall a b, P a -> P b -> P (COr a b)) ->
  (forall f l, Forall P l -> P (CCall f l)) -> forall t, P t.
Proof.
  intros H1 H2 H3 H4 H5 H6 H7 H8 H9 H10 H11 H12 H13. fix IH 1. intros [s|n|s|b| |e|m e|e|o a b|o a b|a b|a b|f l].
  - apply H1. - apply H2. - apply H3. - apply H4. - apply H5. - apply H6, IH. - apply H7, IH. - apply H8, IH.
  - apply H9; apply IH. - apply H10; apply IH. - apply H11; apply IH. - apply H12; apply IH.
  - apply H13. induction l as [|x l IHl]; constructor; [apply IH|exact IHl].
Qed.

Lemma Pr_det l ts e e' l' : l <= 13 -> l' <= 13 -> Pr l ts e -> Pr l' ts e' -> e = e'.
Proof. intros H H' P P'. exact (py_parse_det ts e e' (Pr_parse l ts e H P) (Pr_parse l' ts e' H' P')). Qed.
Lemma sep_commas l : sep l = commas l.
Proof. induction l as [|x [|y l] IH]; [reflexivity|reflexivity|]. cbn [sep commas] in *. rewrite IH. reflexivity. Qed.

(** The level at which the code of an expression is emitted *)
Fixpoint pl (t : ctx) : nat :=
  match t with CSub e => pl e | CSign true _ => 11 | CSign false e => pl e | CBin o _ _ => level o | CCmp _ _ _ => 4 | _ => 13 end.
Lemma pl_le t : pl t <= 13.
Proof. induction t using ctx_ind'; cbn [pl]; try lia; try (destruct m; lia); try exact IHt. destruct o; cbn; lia. Qed.
Lemma pl_core lib t : tame lib t -> match core t with CSign _ _ => True | x => atomic x = true end -> 11 <= pl t.
Proof.
  induction t using ctx_ind'; cbn [tame core pl atomic]; intros HT HC; try lia; try discriminate; try contradiction.
  - exact (IHt HT HC).
  - destruct m; [lia|]. destruct HT as (HT & HC' & _). exact (IHt HT HC').
Qed.
Lemma is_sub_clean t : is_sub (clean t) = is_sub t.
Proof.
  destruct t as [s|n|s|b| |e|m e|e|o a b|o a b|a b|a b|f l]; try reflexivity; cbn [clean].
  - destruct (clean e); reflexivity.
  - destruct m; cbn; [|reflexivity]. destruct (clean e); reflexivity.
  - destruct o; reflexivity.
Qed.
Definition is_sign t := match t with CSign _ _ => true | _ => false end.
Lemma is_sign_clean t : is_sign (clean t) = is_sign t.
Proof.
  destruct t as [s|n|s|b| |e|m e|e|o a b|o a b|a b|a b|f l]; try reflexivity; cbn [clean].
  - destruct (clean e); reflexivity.
  - destruct m; cbn; [|reflexivity]. destruct (clean e); reflexivity.
  - destruct o; reflexivity.
Qed.
Definition pow_of (t : ctx) := match t with CBin OPow x y => Some (x, y) | _ => None end.
Lemma pow_of_clean t : (match pow_of (clean t) with Some _ => true | None => false end) = match pow_of t with Some _ => true | None => false end.
Proof.
  destruct t as [s|n|s|b| |e|m e|e|o a b|o a b|a b|a b|f l]; try reflexivity; cbn [clean].
  - destruct (clean e); reflexivity.
  - destruct m; cbn; [|reflexivity]. destruct (clean e); reflexivity.
  - destruct o; reflexivity.
Qed.
(* the tightness of an unparenthesised tame tree is enough for Python *)
Lemma pl_tight lib t : produced t -> tame lib t -> is_sub t = false ->
  (4 <= tight t -> 9 <= pl t) /\ (5 <= tight t -> 10 <= pl t) /\ (7 <= tight t -> 11 <= pl t) /\ (8 <= tight t -> is_sign t = false -> pl t = 13) /\
  (3 <= tight t -> (forall o a b, t <> CCmp o a b) -> 5 <= pl t).
Proof.
  intros HP HT HS. destruct t as [s|n|s|b| |e|m e|e|o a b|o a b|a b|a b|f l]; cbn [pl tight is_sign tame] in *; try contradiction; try discriminate HS.
  6: { destruct HT as (HT & HC & _). pose proof (pl_core lib e HT HC) as X. destruct m; repeat split; intros; first [lia|discriminate]. }
  6: { cbn [produced] in HP. destruct HP as [Ho _]. destruct o; try discriminate Ho; cbn; repeat split; intros; first [lia|discriminate]. }
  6: { repeat split; intros; try lia. exfalso. eapply H0. reflexivity. }
  all: repeat split; intros; first [lia | discriminate].
Qed.

Lemma is_false f s : f <> u s -> is f s = false.
Proof. intros H. unfold is. destruct (pystr_eqb_spec f (u s)); [contradiction|reflexivity]. Qed.
Lemma func_call_own lib f args : own_function lib f -> func_call lib f args = func_code [Id (u "F"); Dot; Id f] args.
Proof.
  intros (Hl & Hn & _). unfold func_call.
  assert (X : forall s, In s inlined -> is f s = false) by (intros s Hs; apply is_false, Hn, Hs).
  repeat (rewrite X by (cbn; tauto); cbn [andb]).
  unfold isin. cbn [existsb].
  repeat (rewrite X by (cbn; tauto); cbn [andb orb]). rewrite Hl. reflexivity.
Qed.
Lemma own_check (lib : pystr -> bool) f :
  negb (lib f || existsb (is f) inlined || existsb (pystr_eqb f) (u "dodefault" :: M_Call.inlined_always ++ map fst M_Call.inlined_with ++ M_Call.inlined_by_value ++ M_Call.db_names)) = true -> own_function lib f.
Proof.
  intros H. apply negb_true_iff, orb_false_iff in H as [H H2]. apply orb_false_iff in H as [H H1]. split; [exact H|]. split.
  - intros s I E. assert (existsb (is f) inlined = true); [|congruence]. apply existsb_exists. exists s. split; [exact I|]. subst f. unfold is. destruct (pystr_eqb_spec (u s) (u s)); congruence.
  - intros I. assert (X : existsb (pystr_eqb f) (u "dodefault" :: M_Call.inlined_always ++ map fst M_Call.inlined_with ++ M_Call.inlined_by_value ++ M_Call.db_names) = true); [|congruence].
    apply existsb_exists. exists f. split; [exact I|]. destruct (pystr_eqb_spec f f); congruence.
Qed.
Lemma same_name_cases f : isin f same_name = true -> f = u "len" \/ f = u "abs" \/ f = u "round" \/ f = u "max" \/ f = u "min".
Proof.
  unfold isin, same_name, is. cbn [existsb]. intros H.
  repeat match type of H with (pystr_eqb ?x ?y || _) = true => destruct (pystr_eqb_spec x y); [tauto|]; cbn [orb] in H end. discriminate H.
Qed.
Lemma func_call_same lib f args : isin f same_name = true -> func_call lib f args = func_code [Id f] args.
Proof. intros H. destruct (same_name_cases f H) as [-> | [-> | [-> | [-> | ->]]]]; reflexivity. Qed.
Lemma own_mean lib f l : own_function lib f -> call_mean f l = ECall (EAttr (EName (u "F")) f) l.
Proof.
  intros (_ & Hn & _). assert (X : forall s, In s inlined -> is f s = false) by (intros s Hs; apply is_false, Hn, Hs).
  unfold call_mean. cbn zeta. unfold isin, same_name. cbn [existsb]. rewrite !X by (cbn; tauto). cbn [orb]. destruct l as [|x [|y [|z [|]]]]; reflexivity.
Qed.
Lemma call_mean_cases (P : pe -> Prop) f l : (forall g l, P (ECall g l)) -> (forall a b c, P (EIf a b c)) -> (forall a l, P (ECmp a l)) -> (forall a b, P (EBin OMod a b)) -> P (call_mean f l).
Proof.
  intros A B C D. unfold call_mean. cbn zeta. destruct (isin f same_name); [apply A|]. destruct l as [|x [|y [|z [|]]]]; try apply A.
  - destruct (is f "mod"); [apply D|apply A].
  - destruct (is f "iif"); [apply B|]. destruct (is f "between"); [apply C|apply A].
Qed.
Lemma not_addbs lib f args : own_function lib f \/ builtin_ok f args -> is f "addbs" = false.
Proof.
  intros [(_ & Hn & _) | [[H _] | [[-> _] | [[-> _] | [-> _]]]]]; try reflexivity; [apply is_false, Hn; cbn; tauto|].
  destruct (same_name_cases f H) as [-> | [-> | [-> | [-> | ->]]]]; reflexivity.
Qed.
Lemma extract_none lib t : tame lib t -> extract lib (clean t) = None.
Proof.
  intros HT. destruct t as [s|n|s|b| |e|m e|e|o a b|o a b|a b|a b|f l]; try reflexivity; cbn [clean].
  - destruct (clean e); reflexivity.
  - destruct m; cbn; [|reflexivity]. destruct (clean e); reflexivity.
  - destruct o; reflexivity.
  - destruct l as [|x l]; [reflexivity|]. cbn [map]. destruct HT as [Hf _]. change (extract lib (CCall f (clean x :: map clean l))) with
      (if is f "addbs" then match clean x with
        | CBin OAdd l r => Some (match extract lib l with Some q => q | None => [conv lib true l] end ++ [conv lib true r])
        | _ => Some [conv lib true (clean x)] end else None).
    rewrite (not_addbs _ _ _ Hf). reflexivity.
Qed.

Lemma pl_atom t : atomic (core t) = true -> pl t = 13.
Proof. induction t; cbn [core pl atomic]; intros H; try discriminate H; try reflexivity. apply IHt, H. Qed.
Lemma pl_four t : produced t -> 4 <= pl t.
Proof.
  intros P. induction t as [s|n|s|b| |e IH|m e IH|e IH|o a b IHa IHb|o a b IHa IHb|a b IHa IHb|a b IHa IHb|f l IH] using ctx_ind'; cbn [pl]; try lia.
  - exact (IH P).
  - destruct m; [lia|]. exact (IH (proj2 P)).
  - destruct P as [P _]. destruct o; try discriminate P; cbn; lia.
Qed.
Lemma pl_five lib t : produced t -> tame lib t -> match core t with CCmp _ _ _ => False | _ => True end -> 5 <= pl t.
Proof.
  induction t as [s|n|s|b| |e IH|m e IH|e IH|o a b IHa IHb|o a b IHa IHb|a b IHa IHb|a b IHa IHb|f l IH] using ctx_ind'; intros P T H; cbn [pl]; try lia; try contradiction.
  - exact (IH P T H).
  - destruct m; [lia|]. destruct T as (T & C & _). pose proof (pl_core lib e T C). lia.
  - destruct P as [P _]. destruct o; try discriminate P; cbn; lia.
Qed.
Definition good lib skip t := exists e, Pr (pl t) (repr (conv lib skip (clean t))) e /\ joined e = joined (mean t) /\ is_operator (conv lib skip (clean t)) = false.

Lemma operand lib skip t l : good lib skip t -> l <= 13 -> (is_sub t = true \/ l <= pl t) ->
  exists e, Pr l (repr (add_parens (clean t) (conv lib skip (clean t)))) e /\ joined e = joined (mean t).
Proof.
  intros (e & HP & HJ & _) Hl H. exists e. split; [|exact HJ]. unfold add_parens. rewrite is_sub_clean.
  destruct (is_sub t) eqn:Es.
  - apply (Pr_down l 13); [lia|lia|]. cbn [repr]. apply Pr_paren. apply (Pr_down 0 (pl t)); [lia|apply pl_le|exact HP].
  - destruct H as [H|H]; [discriminate|]. apply (Pr_down l (pl t)); [exact H|apply pl_le|exact HP].
Qed.
Lemma joined_add a b : joined (EBin OAdd a b) = match joined a, joined b with EStr x, EStr y => EStr (x ++ y) | a, b => EBin OAdd a b end.
Proof. reflexivity. Qed.
Lemma joined_add_cong a b a' b' : joined a = joined a' -> joined b = joined b' -> joined (EBin OAdd a b) = joined (EBin OAdd a' b').
Proof. intros H H'. rewrite !joined_add, H, H'. reflexivity. Qed.
Lemma joined_bin_cong o a b a' b' : joined a = joined a' -> joined b = joined b' -> joined (EBin o a b) = joined (EBin o a' b').
Proof. intros H H'. destruct o; try (cbn [joined]; rewrite H, H'; reflexivity). Qed.

(* operation on operands whose code is already known *)
Lemma operation_good o a b ea eb ma mb :
  arith_op o = true -> Pr (if match o with OPow => true | _ => false end then 13 else level o) (repr a) ea ->
  Pr (if match o with OPow => true | _ => false end then 11 else S (level o)) (repr b) eb ->
  joined ea = joined ma -> joined eb = joined mb ->
  exists e, Pr (level o) (repr (operation o a b)) e /\ joined e = joined (EBin o ma mb) /\ is_operator (operation o a b) = false.
Proof.
  intros Ho Pa Pb Ja Jb.
  assert (X : exists e, Pr (level o) (repr (VCode (bin_code o (repr a) (repr b)))) e /\ joined e = joined (EBin o ma mb)).
  { exists (EBin o ea eb). split; [|apply joined_bin_cong; assumption]. cbn [repr]. unfold bin_code.
    destruct o; try discriminate Ho; cbn [level] in *; try (apply Pr_bin; [reflexivity|exact Pa|exact Pb]). apply Pr_pow; assumption. }
  destruct X as (e & X & Y).
  assert (Z : operation o a b = VCode (bin_code o (repr a) (repr b)) \/ exists x y, o = OAdd /\ a = VStr x /\ b = VStr y).
  { unfold operation. destruct o; try (left; reflexivity). destruct a; try (left; reflexivity). destruct b; try (left; reflexivity). right. eexists _, _. repeat split. }
  destruct Z as [-> | (x & y & -> & -> & ->)].
  - exists e. split; [exact X|split; [exact Y|reflexivity]].
  - exists (EStr (x ++ y)). cbn [operation]. split; [|split; [|reflexivity]].
    + apply (Pr_down _ 13); [cbn; lia|lia|]. apply Pr_str.
    + assert (ea = EStr x) by (apply (Pr_det 9 [StrT x] _ _ 13); [lia|lia|exact Pa|apply Pr_str]). subst.
      assert (eb = EStr y) by (apply (Pr_det 10 [StrT y] _ _ 13); [lia|lia|exact Pb|apply Pr_str]). subst.
      rewrite joined_add, <- Ja, <- Jb. reflexivity.
Qed.

Lemma conv_bin lib skip o a b : match o with OAdd => false | _ => true end = true ->
  conv lib skip (CBin o a b) = operation o (add_parens a (conv lib skip a)) (add_parens b (conv lib skip b)).
Proof. intros H. destruct o; try reflexivity. discriminate H. Qed.
Lemma conv_add lib skip a b : extract lib a = None -> is_operator (conv lib true a) = false ->
  conv lib skip (CBin OAdd a b) = operation OAdd (add_parens a (conv lib skip a)) (add_parens b (conv lib skip b)).
Proof.
  intros H H'. destruct skip; [reflexivity|]. change (conv lib false (CBin OAdd a b)) with
   (match extract lib a with
    | Some l => func_code (ospath "join") (l ++ [conv lib true b])
    | None => if is_operator (conv lib true a) then func_code (ospath "join") [conv lib true a; conv lib true b] 
              else operation OAdd (add_parens a (conv lib false a)) (add_parens b (conv lib false b)) end).
  rewrite H, H'. reflexivity.
Qed.
Definition strip_pow (b : ctx) := match b with CSub (CBin OPow x y) => CBin OPow x y | _ => b end.
Definition wrap_pow (a : ctx) := match a with CBin OPow x y => CSub (CBin OPow x y) | _ => a end.
Lemma clean_pow_eq a b : clean_pow a b = CBin OPow (wrap_pow a) (strip_pow b).
Proof. reflexivity. Qed.
Lemma conv_wrap lib skip a : conv lib skip (wrap_pow a) = conv lib skip a.
Proof. destruct a; try reflexivity. destruct o; reflexivity. Qed.
Lemma conv_strip lib skip a : conv lib skip (strip_pow a) = conv lib skip a.
Proof. destruct a as [| | | | |a| | | | | | |]; try reflexivity. destruct a; try reflexivity. destruct o; reflexivity. Qed.

Lemma all_Forall (P : ctx -> Prop) l : (fix all l := match l with [] => True | x :: l => P x /\ all l end) l -> Forall P l.
Proof. induction l as [|x l IH]; intros H; [constructor|]. destruct H as [H H']. constructor; [exact H|exact (IH H')]. Qed.

Theorem conv_tame lib t : produced t -> tame lib t -> forall skip, good lib skip t.
Proof.
  induction t as [s|n|s|b| |e IH|m e IH|e IH|o a b IHa IHb|o a b IHa IHb|a b IHa IHb|a b IHa IHb|f l IH] using ctx_ind'; intros HP HT skip.
  - exists (EAttr (EName (u "S")) s). split; [exact (Pr_attr [Id (u "S")] _ s (Pr_id _))|split; reflexivity].
  - exists (EInt n). cbn [pl clean conv repr]. unfold repr_int. cbn in HP. destruct (Z.ltb_spec n 0); [lia|]. split; [apply Pr_intt|split; reflexivity].
  - exists (EStr s). split; [apply Pr_str|split; reflexivity].
  - exists (EName (u (if b then "True" else "False"))). split; [destruct b; apply Pr_id|split; reflexivity].
  - exists (EName (u "None")). split; [apply Pr_id|split; reflexivity].
  - cbn [produced tame] in HP, HT. destruct (IH HP HT skip) as (e' & P' & J & O). exists e'. cbn [pl clean mean].
    assert (X : conv lib skip (clean_sub (clean e)) = conv lib skip (clean e)) by (destruct (clean e); reflexivity).
    rewrite X. split; [exact P'|split; [exact J|exact O]].
  - cbn [produced tame] in HP, HT. destruct HP as [HL HP]. destruct HT as (HT & HC & HM). destruct (IH HP HT skip) as (e' & P' & J & O).
    assert (X : clean (CSign m e) = CSign m (clean e)).
    { cbn [clean]. destruct m; [|reflexivity]. specialize (HM eq_refl). pose proof (is_sign_clean e) as S.
      destruct e; try contradiction; cbn [is_sign] in S; unfold clean_sign; destruct (clean _); try reflexivity; discriminate S. }
    unfold good. rewrite X. pose proof (pl_core lib e HT HC) as L. destruct m; cbn [pl conv mean repr].
    + exists (EUn UNeg e'). split; [|split; [cbn [joined]; rewrite J; reflexivity|reflexivity]]. apply Pr_un; [reflexivity|].
      apply (Pr_down 11 (pl e)); [exact L|apply pl_le|exact P'].
    + exists e'. split; [exact P'|split; [exact J|reflexivity]].
  - contradiction.
  - cbn [produced] in HP. destruct HP as (Ho & La & Lb & Pa & Pb). cbn [tame] in HT. destruct HT as (Ta & Tb & Hx).
    pose proof (IHa Pa Ta) as Ga. pose proof (IHb Pb Tb) as Gb.
    assert (Ia : is_sub a = true \/ is_sub a = false) by (destruct (is_sub a); auto).
    assert (Ib : is_sub b = true \/ is_sub b = false) by (destruct (is_sub b); auto).
    destruct (match o with OPow => true | _ => false end) eqn:Ep.
    + assert (o = OPow) by (destruct o; try discriminate Ep; reflexivity). subst o. cbn [tight] in La, Lb.
      unfold good. cbn [clean pl]. rewrite clean_pow_eq, conv_bin by reflexivity. rewrite conv_wrap, conv_strip.
      cbn [mean]. destruct (Ga skip) as (ea & PPa & Ja & Oa). destruct (Gb skip) as (eb & PPb & Jb & Ob).
      apply (operation_good OPow _ _ ea eb); [reflexivity| | |exact Ja|exact Jb].
      * unfold add_parens. destruct (is_sub (wrap_pow (clean a))) eqn:Es.
        { cbn [repr]. apply Pr_paren. apply (Pr_down 0 (pl a)); [lia|apply pl_le|exact PPa]. }
        assert (Sa : is_sub a = false).
        { rewrite <- is_sub_clean. destruct (clean a); try reflexivity. discriminate Es. }
        assert (Na : pow_of a = None).
        { pose proof (pow_of_clean a) as S. destruct (pow_of a) as [[x y]|]; [|reflexivity]. exfalso.
          destruct (clean a); try discriminate S. destruct o; try discriminate S. discriminate Es. }
        destruct (pl_tight lib a Pa Ta Sa) as (_ & _ & _ & T4 & _). rewrite <- T4; [exact PPa| |].
        -- destruct a as [s|n|s|b'| |x|m x|x|o x y|o x y|x y|x y|f l]; cbn [tight] in *; try lia. cbn [produced] in Pa. destruct Pa as [Q _].
           destruct o; try discriminate Q; try discriminate Na; cbn in *; lia.
        -- destruct a; try reflexivity. contradiction.
      * unfold add_parens. destruct (is_sub (strip_pow (clean b))) eqn:Es.
        { cbn [repr]. apply (Pr_down 11 13); [lia|lia|]. apply Pr_paren. apply (Pr_down 0 (pl b)); [lia|apply pl_le|exact PPb]. }
        destruct Ib as [Sb|Sb].
        -- assert (Q : exists x y, clean b = CSub (CBin OPow x y)).
           { rewrite <- is_sub_clean in Sb. destruct (clean b) as [s|n|s|b'| |x|m x|x|o x y|o x y|x y|x y|f l]; try discriminate Sb.
             destruct x as [s|n|s|b'| |x|m x|x|o x y|o x y|x y|x y|f l]; try discriminate Es. destruct o; try discriminate Es. eexists _, _. reflexivity. }
           assert (PL : pl b = 12).
           { clear - Q Sb. destruct Q as (x & y & Q). destruct b as [s|n|s|b'| |b|m b|b|o c d|o c d|c d|c d|f l]; try discriminate Sb. cbn [pl]. clear Sb.
             revert x y Q. induction b as [s|n|s|b| |e IH|m e IH|e IH|o c d IHc IHd|o c d IHc IHd|c d IHc IHd|c d IHc IHd|f l IH] using ctx_ind'; intros x y Q; try discriminate Q.
             - cbn [pl]. apply (IH x y). cbn [clean] in *. destruct (clean e); cbn in *; try congruence.
             - cbn [clean] in Q. destruct m; cbn in Q; [destruct (clean e); discriminate Q|discriminate Q].
             - cbn [clean] in Q. destruct o; try discriminate Q. reflexivity. }
           rewrite PL in PPb. exact (Pr_down 11 12 _ _ ltac:(lia) ltac:(lia) PPb).
        -- destruct (pl_tight lib b Pb Tb Sb) as (_ & _ & T3 & _). apply (Pr_down 11 (pl b)); [apply T3; lia|apply pl_le|exact PPb].
    + assert (Ca : is_sub a = true \/ level o <= pl a).
      { destruct Ia as [Sa|Sa]; [left; exact Sa|right]. destruct (pl_tight lib a Pa Ta Sa) as (T1 & T2 & T3 & _).
        destruct o; try discriminate Ho; try discriminate Ep; cbn [level tight] in *; lia. }
      assert (Cb : is_sub b = true \/ S (level o) <= pl b).
      { destruct Ib as [Sb|Sb]; [left; exact Sb|right]. destruct (pl_tight lib b Pb Tb Sb) as (T1 & T2 & T3 & _).
        destruct o; try discriminate Ho; try discriminate Ep; cbn [level tight] in *; try lia.
        apply T3. destruct b as [s|n|s|b'| |x|m x|x|o x y|o x y|x y|x y|f l]; cbn [tight] in *; try lia. destruct o; try lia; contradiction. }
      destruct (operand lib skip a (level o) (Ga skip) ltac:(destruct o; cbn; lia) Ca) as (ea & PPa & Ja).
      destruct (operand lib skip b (S (level o)) (Gb skip) ltac:(destruct o; try discriminate Ep; cbn; lia) Cb) as (eb & PPb & Jb).
      assert (X : conv lib skip (clean (CBin o a b)) = operation o (add_parens (clean a) (conv lib skip (clean a))) (add_parens (clean b) (conv lib skip (clean b)))).
      { destruct o; try discriminate Ho; try discriminate Ep; cbn [clean]; try (apply conv_bin; reflexivity).
        apply conv_add; [apply extract_none; exact Ta|]. destruct (Ga true) as (_ & _ & _ & Q). exact Q. }
      unfold good. rewrite X. cbn [pl mean]. apply (operation_good o _ _ ea eb); [exact Ho|rewrite Ep; exact PPa|rewrite Ep; exact PPb|exact Ja|exact Jb].
  - cbn [produced] in HP. destruct HP as (Ho & La & Lb & Pa & Pb). cbn [tame] in HT. destruct HT as (Ta & Tb & Ha & Hb).
    destruct (IHa Pa Ta skip) as (ea & PPa & Ja & _). destruct (IHb Pb Tb skip) as (eb & PPb & Jb & _).
    assert (Y : forall t, produced t -> tame lib t -> match core t with CCmp _ _ _ => False | _ => True end -> 5 <= pl t).
    { clear. induction t as [s|n|s|b| |e IH|m e IH|e IH|o a b IHa IHb|o a b IHa IHb|a b IHa IHb|a b IHa IHb|f l IH] using ctx_ind'; intros P T H; cbn [pl]; try lia; try contradiction.
      - exact (IH P T H).
      - destruct m; [lia|]. destruct T as (T & C & _). pose proof (pl_core lib e T C). lia.
      - destruct P as [P _]. destruct o; try discriminate P; cbn; lia. }
    exists (ECmp ea [(o, eb)]). split; [|split; [|reflexivity]].
    + cbn [pl clean conv repr]. unfold bin_code. apply Pr_cmp; [destruct o; try discriminate Ho; reflexivity| |].
      * apply (Pr_down 5 (pl a)); [apply Y; assumption|apply pl_le|exact PPa].
      * apply (Pr_down 5 (pl b)); [apply Y; assumption|apply pl_le|exact PPb].
    + cbn [joined mean map fst snd]. rewrite Ja, Jb. reflexivity.
  - contradiction.
  - contradiction.
  - cbn [tame] in HT. destruct HT as [Hf HT]. apply all_Forall in HT. cbn [produced] in HP. apply all_Forall in HP.
    assert (G : Forall (good lib skip) l).
    { rewrite Forall_forall in *. intros x I. exact (IH x I (HP x I) (HT x I) skip). }
    unfold good. cbn [pl clean mean]. change (conv lib skip (CCall f (map clean l))) with (func_call lib f (map (conv lib skip) (map clean l))).
    destruct Hf as [Hf | [[Hf _] | [(-> & x & y & z & ->) | [(-> & x & y & z & -> & Hc) | (-> & x & y & -> & Ax & Ay)]]]].
    2: { assert (X : exists es, Forall2 (Pr 0) (map repr (map (conv lib skip) (map clean l))) es /\ map joined es = map joined (map mean l)).
         { clear - G. induction G as [|x l (e & P & J & _) G (es & A & B)]; [exists []; split; [constructor|reflexivity]|].
           exists (e :: es). cbn [map]. split; [constructor; [apply (Pr_down 0 (pl x)); [lia|apply pl_le|exact P]|exact A]|rewrite J, B; reflexivity]. }
         destruct X as (es & A & B). exists (ECall (EName f) es). rewrite func_call_same by exact Hf. split; [|split; [|reflexivity]].
         - unfold func_code. cbn [repr]. rewrite sep_commas. apply (Pr_call [Id f]); [apply Pr_id|exact A].
         - unfold call_mean. rewrite Hf. cbn [joined]. rewrite B. reflexivity. }
    2: { inversion G as [|? ? (ex & Px & Jx & _) G1]; subst. inversion G1 as [|? ? (ey & Py & Jy & _) G2]; subst. inversion G2 as [|? ? (ez & Pz & Jz & _) _]; subst.
         inversion HP as [|? ? P1 P2]; subst. inversion P2 as [|? ? P3 P4]; subst. exists (EIf ex ey ez). split; [|split; [|reflexivity]].
         - apply (Pr_paren (ternary _ _ _)). unfold ternary, arg. cbn [map nth]. apply Pr_if; [apply (Pr_down 1 (pl y)); [pose proof (pl_four y P3); lia|apply pl_le|exact Py]|apply (Pr_down 1 (pl x)); [pose proof (pl_four x P1); lia|apply pl_le|exact Px]|
             apply (Pr_down 0 (pl z)); [lia|apply pl_le|exact Pz]].
         - cbn [joined]. rewrite Jx, Jy, Jz. reflexivity. }
    2: { inversion G as [|? ? (ex & Px & Jx & _) G1]; subst. inversion G1 as [|? ? (ey & Py & Jy & _) G2]; subst. inversion G2 as [|? ? (ez & Pz & Jz & _) _]; subst.
         assert (L : forall t, In t [x; y; z] -> 5 <= pl t) by (rewrite Forall_forall in *; intros t I; exact (pl_five lib t (HP t I) (HT t I) (Hc t I))).
         exists (ECmp ey [(OLe, ex); (OLe, ez)]). split; [|split; [|reflexivity]].
         - apply (Pr_paren (arg _ 1 ++ Op OLe :: arg _ 0 ++ Op OLe :: arg _ 2)). unfold arg. cbn [map nth]. apply (Pr_down 0 4); [lia|lia|].
           apply Pr_cmp2; [reflexivity|reflexivity| | | ]; [apply (Pr_down 5 (pl y))|apply (Pr_down 5 (pl x))|apply (Pr_down 5 (pl z))]; try apply pl_le; try assumption; apply L; cbn; tauto.
         - cbn [joined map fst snd]. rewrite Jx, Jy, Jz. reflexivity. }
    2: { inversion G as [|? ? (ex & Px & Jx & _) G1]; subst. inversion G1 as [|? ? (ey & Py & Jy & _) _]; subst.
         rewrite (pl_atom x Ax) in Px. rewrite (pl_atom y Ay) in Py. exists (EBin OMod ex ey). split; [|split; [|reflexivity]].
         - apply (Pr_paren (bin_code OMod (arg _ 0) (arg _ 1))). unfold arg, bin_code. cbn [map nth]. apply (Pr_down 0 (level OMod)); [lia|cbn; lia|]. apply (Pr_bin OMod); [reflexivity| |]; (eapply Pr_down; [| |eassumption]; cbn; lia).
         - cbn [joined]. rewrite Jx, Jy. reflexivity. }
    assert (X : exists es, Forall2 (Pr 0) (map repr (map (conv lib skip) (map clean l))) es /\ map joined es = map joined (map mean l)).
    { clear - IH HP HT. induction l as [|x l IHl]; [exists []; split; [constructor|reflexivity]|].
      inversion IH as [|? ? I1 I2]; subst. inversion HP as [|? ? P1 P2]; subst. inversion HT as [|? ? T1 T2]; subst.
      destruct (IHl I2 P2 T2) as (es & A & B). destruct (I1 P1 T1 skip) as (e & P & J & _).
      exists (e :: es). cbn [map]. split; [constructor; [apply (Pr_down 0 (pl x)); [lia|apply pl_le|exact P]|exact A]|rewrite J, B; reflexivity]. }
    destruct X as (es & A & B). exists (ECall (EAttr (EName (u "F")) f) es). rewrite func_call_own by exact Hf. rewrite (own_mean lib) by exact Hf.
    split; [|split; [|reflexivity]].
    + unfold func_code. cbn [repr]. rewrite sep_commas. apply Pr_call; [|exact A]. exact (Pr_attr [Id (u "F")] _ f (Pr_id _)).
    + cbn [joined]. rewrite B. reflexivity.
Qed.
