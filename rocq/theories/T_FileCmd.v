(** Properties C97 and C98: commands on files; RUN. *)
From Verif Require Import PyBase PyStr M_FileCmd.
Open Scope Z_scope.
Open Scope res_scope.

Lemma at_put fs p n q : at_ (put fs p n) q = if pystr_eqb q p then Some n else at_ fs q.
Proof.
  unfold at_, put. induction fs as [|[k w] d IH]; cbn [dset dget].
  - destruct (pystr_eqb_spec q p); reflexivity.
  - destruct (pystr_eqb_spec p k) as [E|N]; cbn [dget].
    + subst k. destruct (pystr_eqb_spec q p); reflexivity.
    + rewrite IH. destruct (pystr_eqb_spec q k) as [->|]; [|reflexivity]. destruct (pystr_eqb_spec k p); [congruence|reflexivity].
Qed.
Lemma at_del fs p q : at_ (del fs p) q = if pystr_eqb q p then None else at_ fs q.
Proof.
  unfold at_. induction fs as [|[k w] d IH]; cbn [del dget].
  - destruct (pystr_eqb q p); reflexivity.
  - destruct (pystr_eqb_spec p k) as [E|N].
    + subst k. rewrite IH. destruct (pystr_eqb_spec q p); reflexivity.
    + cbn [dget]. rewrite IH. destruct (pystr_eqb_spec q k) as [->|]; [|reflexivity]. destruct (pystr_eqb_spec k p); [congruence|reflexivity].
Qed.
(** The file a command names: for a name in lower case, or an expression, the file of that name. *)
Definition names (n : fname) (p : pystr) : Prop := match n with Literal s => s = p /\ lower s = s | Value s => s = p end.
Lemma names_of n p : names n p -> name_of n = p. Proof. destruct n; cbn; [intros [-> H]; exact H|auto]. Qed.
Definition same_but (fs fs' : fsys) (ps : list pystr) : Prop := forall q, ~ In q ps -> at_ fs' q = at_ fs q.

(** ** C97.  ERASE removes the file, COPY FILE copies it, RENAME gives it the new name; everything else stays. *)
Theorem C97_erase_partial : forall fs a p s, names a p -> at_ fs p = Some (File s) ->
  exists fs', run fs (Erase a) = Ok fs' /\ at_ fs' p = None /\ same_but fs fs' [p].
Proof.
  intros fs a p s N H. cbn [run]. rewrite (names_of a p N). unfold py_remove. rewrite H. exists (del fs p). split; [reflexivity|]. rewrite at_del.
  destruct (pystr_eqb_spec p p); [|congruence]. split; [reflexivity|]. intros q Hq. rewrite at_del. destruct (pystr_eqb_spec q p) as [->|]; [exfalso; apply Hq; now left|reflexivity].
Qed.
Print Assumptions C97_erase_partial.
Theorem C97_copy_partial : forall fs a b p q s, names a p -> names b q -> p <> q -> at_ fs p = Some (File s) -> at_ fs q <> Some Dir ->
  exists fs', run fs (CopyFile a b) = Ok fs' /\ at_ fs' q = Some (File s) /\ same_but fs fs' [q].
Proof.
  intros fs a b p q s Na Nb D H HD. cbn [run]. rewrite (names_of a p Na), (names_of b q Nb). unfold py_copyfile. destruct (pystr_eqb_spec p q); [congruence|]. rewrite H.
  exists (put fs q (File s)). split; [destruct (at_ fs q) as [[]|]; [reflexivity|congruence|reflexivity]|]. rewrite at_put. destruct (pystr_eqb_spec q q); [|congruence]. split; [reflexivity|].
  intros r Hr. rewrite at_put. destruct (pystr_eqb_spec r q) as [->|]; [exfalso; apply Hr; now left|reflexivity].
Qed.
Print Assumptions C97_copy_partial.
Theorem C97_rename_partial : forall fs a b p q s, names a p -> names b q -> at_ fs p = Some (File s) -> at_ fs q = None ->
  exists fs', run fs (Rename a b) = Ok fs' /\ at_ fs' q = Some (File s) /\ at_ fs' p = None /\ same_but fs fs' [p; q].
Proof.
  intros fs a b p q s Na Nb H HQ. assert (D : p <> q) by congruence. cbn [run]. rewrite (names_of a p Na), (names_of b q Nb). unfold py_move. rewrite H, HQ.
  destruct (pystr_eqb_spec p q); [congruence|]. exists (put (del fs p) q (File s)). split; [reflexivity|]. rewrite !at_put, !at_del.
  destruct (pystr_eqb_spec q q); [|congruence]. destruct (pystr_eqb_spec p q); [congruence|]. destruct (pystr_eqb_spec p p); [|congruence]. split; [reflexivity|]. split; [reflexivity|].
  intros r Hr. rewrite at_put, at_del. destruct (pystr_eqb_spec r q) as [->|]; [exfalso; apply Hr; cbn; auto|]. destruct (pystr_eqb_spec r p) as [->|]; [exfalso; apply Hr; cbn; auto|reflexivity].
Qed.
Print Assumptions C97_rename_partial.
(** MKDIR makes a directory where nothing was, RMDIR removes an empty one; both fail otherwise. *)
Theorem C97_directories_partial : forall fs a p, names a p ->
  (at_ fs p = None -> exists fs', run fs (MkDir a) = Ok fs' /\ at_ fs' p = Some Dir /\ same_but fs fs' [p]) /\
  (at_ fs p <> None -> exists e, run fs (MkDir a) = Err e) /\
  (at_ fs p = Some Dir -> (forall r n, at_ fs (p ++ [47] ++ r) <> Some n) -> NoDup (map fst fs) -> exists fs', run fs (RmDir a) = Ok fs' /\ at_ fs' p = None /\ same_but fs fs' [p]) /\
  (forall r n, at_ fs (p ++ [47] ++ r) = Some n -> exists e, run fs (RmDir a) = Err e).
Proof.
  intros fs a p N. cbn [run]. rewrite (names_of a p N). unfold py_mkdir, py_rmdir. split; [|split; [|split]].
  - intros H. rewrite H. exists (put fs p Dir). split; [reflexivity|]. rewrite at_put. destruct (pystr_eqb_spec p p); [|congruence]. split; [reflexivity|].
    intros r Hr. rewrite at_put. destruct (pystr_eqb_spec r p) as [->|]; [exfalso; apply Hr; now left|reflexivity].
  - intros H. destruct (at_ fs p); [|congruence]. eexists. reflexivity.
  - intros H E ND. rewrite H. destruct (existsb _ fs) eqn:X.
    + exfalso. apply existsb_exists in X as ([k v] & I & P). cbn [fst] in P. unfold inside in P.
      assert (P' : exists r, k = p ++ [47] ++ r).
      { clear -P. revert k P. induction (p ++ [47]) as [|c l IH] eqn:L in p |- *; intros k P; [destruct p; discriminate|]. 
        destruct k as [|d k]; [discriminate|]. cbn [prefixb] in P. apply andb_prop in P as [Pc P]. apply Z.eqb_eq in Pc. subst d.
        destruct p as [|c' p]; cbn [app] in L; injection L as -> L.
        - subst l. exists k. reflexivity.
        - destruct (IH p L k P) as [r ->]. exists r. reflexivity. }
      destruct P' as [r ->]. apply (E r v). clear -I ND. unfold at_. induction fs as [|[k w] fs IH]; [contradiction|]. cbn [dget]. cbn [map fst] in ND. inversion ND as [|? ? NI ND']; subst.
      destruct I as [I|I]; [injection I as -> ->; destruct (pystr_eqb_spec (p ++ 47 :: r) (p ++ 47 :: r)); [|congruence]; change (p ++ [47] ++ r) with (p ++ 47 :: r); destruct (pystr_eqb_spec (p ++ 47 :: r) (p ++ 47 :: r)); [reflexivity|congruence]|].
      destruct (pystr_eqb_spec (p ++ [47] ++ r) k) as [<-|]; [exfalso; apply NI; apply in_map_iff; exists (p ++ [47] ++ r, v); auto|apply IH; assumption].
    + exists (del fs p). split; [reflexivity|]. rewrite at_del. destruct (pystr_eqb_spec p p); [|congruence]. split; [reflexivity|].
      intros r Hr. rewrite at_del. destruct (pystr_eqb_spec r p) as [->|]; [exfalso; apply Hr; now left|reflexivity].
  - intros r n H. destruct (at_ fs p) as [[s|]|]; try (eexists; reflexivity).
    assert (X : existsb (fun e => inside p (fst e)) fs = true).
    { apply existsb_exists. unfold at_ in H. clear -H. induction fs as [|[k w] fs IH]; [discriminate|]. cbn [dget] in H.
      destruct (pystr_eqb_spec (p ++ [47] ++ r) k) as [<-|].
      - exists (p ++ [47] ++ r, w). split; [now left|]. cbn [fst]. unfold inside. rewrite app_assoc. clear. induction (p ++ [47]) as [|c l IH]; [reflexivity|]. cbn [app prefixb]. now rewrite Z.eqb_refl, IH.
      - destruct (IH H) as (e & I & P). exists e. split; [now right|exact P]. }
    rewrite X. eexists. reflexivity.
Qed.
Print Assumptions C97_directories_partial.
Example C97_example : let fs := [(u "a.txt", File (u "x")); (u "d", Dir); (u "d/b", File [])] in
  (do fs <- run fs (CopyFile (Literal (u "a.txt")) (Value (u "B.txt"))); do fs <- run fs (Erase (Literal (u "d/b"))); do fs <- run fs (RmDir (Literal (u "d"))); run fs (Rename (Literal (u "a.txt")) (Literal (u "c"))))
  = Ok [(u "B.txt", File (u "x")); (u "c", File (u "x"))] /\ run fs (RmDir (Literal (u "d"))) = Err GenericException.
Proof. split; reflexivity. Qed.
(** A name with a capital letter is not the file that is meant: ERASE never removes it; RENAME and COPY FILE do not make it. *)
Lemma dget_del_keep fs p q n : at_ fs q = Some n -> q <> p -> at_ (del fs p) q = Some n.
Proof. intros H N. rewrite at_del. destruct (pystr_eqb_spec q p); [congruence|exact H]. Qed.
Theorem C97_case_refuted : forall fs s p n, lower s <> s -> at_ fs s = Some n ->
  (forall fs', run fs (Erase (Literal s)) = Ok fs' -> at_ fs' s = Some n /\ at_ fs (lower s) <> None) /\
  (at_ fs (lower s) = None -> exists e, run fs (Erase (Literal s)) = Err e /\ run fs (CopyFile (Literal s) p) = Err e /\ run fs (Rename (Literal s) p) = Err e).
Proof.
  intros fs s p n L H. cbn [run name_of]. split.
  - intros fs'. unfold py_remove. destruct (at_ fs (lower s)) as [[t|]|] eqn:E; try discriminate. intros [= <-]. split; [apply dget_del_keep; [exact H|congruence]|congruence].
  - intros E. exists GenericException. unfold py_remove, py_copyfile, py_move. rewrite E. split; [reflexivity|]. split; [|reflexivity]. destruct (pystr_eqb _ _); reflexivity.
Qed.
Print Assumptions C97_case_refuted.
(** RENAME to a file that exists replaces it: its contents are lost (FoxPro refuses). *)
Theorem C97_rename_replaces_refuted : forall fs a b p q s t, names a p -> names b q -> p <> q -> at_ fs p = Some (File s) -> at_ fs q = Some (File t) ->
  exists fs', run fs (Rename a b) = Ok fs' /\ at_ fs' q = Some (File s) /\ at_ fs' p = None.
Proof.
  intros fs a b p q s t Na Nb D H HQ. cbn [run]. rewrite (names_of a p Na), (names_of b q Nb). unfold py_move. rewrite H, HQ.
  destruct (pystr_eqb_spec p q); [congruence|]. exists (put (del fs p) q (File s)). split; [reflexivity|]. rewrite !at_put, !at_del.
  destruct (pystr_eqb_spec q q); [|congruence]. destruct (pystr_eqb_spec p q); [congruence|]. destruct (pystr_eqb_spec p p); [|congruence]. split; reflexivity.
Qed.
Print Assumptions C97_rename_replaces_refuted.
(** Wildcards are not expanded: a pattern that is not itself the name of a file removes and copies nothing. *)
Theorem C97_wildcard_refuted : forall fs a p b, names a p -> In 42 p -> at_ fs p = None ->
  exists e, run fs (Erase a) = Err e /\ run fs (CopyFile a b) = Err e /\ run fs (Rename a b) = Err e.
Proof.
  intros fs a p b N _ H. cbn [run]. rewrite (names_of a p N). exists GenericException. unfold py_remove, py_copyfile, py_move. rewrite H. split; [reflexivity|]. split; [|reflexivity].
  destruct (pystr_eqb _ _); reflexivity.
Qed.
Print Assumptions C97_wildcard_refuted.

(** ** C98.  The words behind RUN are the program and its arguments. *)
Definition word (w : pystr) : Prop := w <> [] /\ Forall (fun c => is_space c = false) w /\ hd 0 w <> 38.
Fixpoint spaced (ws : list (pystr * pystr)) : pystr := match ws with [] => [] | (sp, w) :: r => sp ++ w ++ spaced r end.
Lemma split_spaces sp : Forall (fun c => is_space c = true) sp -> forall r, split_ws [] (sp ++ r) = split_ws [] r.
Proof. induction 1 as [|c sp H F IH]; intros r; [reflexivity|]. cbn [app split_ws]. rewrite H. apply IH. Qed.
Lemma split_word w : Forall (fun c => is_space c = false) w -> forall cur r, split_ws cur (w ++ r) = split_ws (rev w ++ cur) r.
Proof. induction 1 as [|c w H F IH]; intros cur r; [reflexivity|]. cbn [app split_ws]. rewrite H, IH. cbn [rev]. now rewrite <- app_assoc. Qed.
Lemma split_spaced tail : Forall (fun c => is_space c = true) tail -> forall ws, Forall (fun p => fst p <> [] /\ Forall (fun c => is_space c = true) (fst p) /\ snd p <> [] /\ Forall (fun c => is_space c = false) (snd p)) ws ->
  forall cur, split_ws cur (spaced ws ++ tail) = match cur with [] => [] | _ => [rev cur] end ++ map snd ws.
Proof.
  intros HT. induction 1 as [|[sp w] ws (N1 & S1 & N2 & S2) F IH]; intros cur.
  - cbn [spaced app map]. rewrite app_nil_r. destruct cur as [|c cur].
    + rewrite <- (app_nil_r tail), (split_spaces tail HT). reflexivity.
    + destruct tail as [|t tail]; [reflexivity|]. inversion HT as [|? ? Ht HT']; subst. cbn [split_ws]. rewrite Ht. rewrite <- (app_nil_r tail), (split_spaces tail HT'). reflexivity.
  - cbn [fst snd] in *. cbn [spaced map snd]. rewrite <- !app_assoc.
    assert (X : split_ws [] (w ++ spaced ws ++ tail) = w :: map snd ws).
    { rewrite (split_word w S2). rewrite app_nil_r, IH, rev_involutive. destruct (rev w) eqn:E; [|reflexivity]. exfalso. apply N2. rewrite <- (rev_involutive w), E. reflexivity. }
    destruct cur as [|c cur].
    + rewrite (split_spaces sp S1), X. reflexivity.
    + destruct sp as [|p sp]; [congruence|]. inversion S1 as [|? ? Hp S1']; subst. cbn [app split_ws]. rewrite Hp, (split_spaces sp S1'), X. reflexivity.
Qed.
Theorem C98_words_partial : forall ws tail, Forall (fun p => fst p <> [] /\ Forall (fun c => is_space c = true) (fst p) /\ word (snd p)) ws -> Forall (fun c => is_space c = true) tail ->
  run_args (spaced ws ++ tail) = map (fun p => AText (snd p)) ws.
Proof.
  intros ws tail F HT. unfold run_args. rewrite (split_spaced tail HT ws); [|eapply Forall_impl; [|exact F]; intros [sp w] (A & B & C & D & _); auto]. cbn [app]. rewrite map_map. apply map_ext_in.
  intros [sp w] I. rewrite Forall_forall in F. destruct (F _ I) as (_ & _ & _ & _ & H). cbn [snd hd] in *. destruct w as [|c w]; [reflexivity|]. cbn [hd] in H. 
  destruct c as [|p|p]; try reflexivity. repeat (destruct p as [p|p|]; try reflexivity; try congruence).
Qed.
Print Assumptions C98_words_partial.
Example C98_example : run_args (u " cp  a.txt b.txt ") = [AText (u "cp"); AText (u "a.txt"); AText (u "b.txt")].
Proof. reflexivity. Qed.
(** Quotation marks do not keep a name with a space together: no argument ever contains a space. *)
Theorem C98_quotes_refuted : forall text s, In (AText s) (run_args text) -> Forall (fun c => is_space c = false) s.
Proof.
  intros text s H. unfold run_args in H. apply in_map_iff in H as (w & E & I).
  assert (X : forall t cur, Forall (fun c => is_space c = false) cur -> forall w, In w (split_ws cur t) -> Forall (fun c => is_space c = false) w).
  { induction t as [|c t IH]; intros cur HC v Iv; cbn [split_ws] in Iv.
    - destruct cur; [contradiction|]. destruct Iv as [<-|[]]. apply Forall_rev, HC.
    - destruct (is_space c) eqn:Ec; [|apply (IH (c :: cur)); [constructor; assumption|exact Iv]]. destruct cur as [|d cur]; [apply (IH []); [constructor|exact Iv]|].
      destruct Iv as [<-|Iv]; [apply Forall_rev, HC|apply (IH []); [constructor|exact Iv]]. }
  assert (W : w = s). { destruct w as [|c w]; [injection E as <-; reflexivity|]. destruct (Z.eq_dec c 38) as [->|N]; [discriminate|].
    assert (E' : AText (c :: w) = AText s) by (rewrite <- E; destruct c as [|p|p]; try reflexivity; repeat (destruct p as [p|p|]; try reflexivity; try congruence)). congruence. }
  subst w. apply (X text []); [constructor|exact I].
Qed.
Print Assumptions C98_quotes_refuted.
Example C98_quotes_example : run_args (u " type ""my file""") = [AText (u "type"); AText (u """my"); AText (u "file""")].
Proof. reflexivity. Qed.
