From Verif Require Import PyBase M_Memvar S_Memvar P_Memvar M_Params S_Params.
Open Scope res_scope.

Section P.
  Context {V : Type} (pyfalse : V).
  Notation rtv := (rt V).
  Notation sc := (@scope V).

  (** Both scope stacks and PCOUNTS grow and shrink together. *)
  Definition balanced3 (s s' : rtv) (n : nat) : Prop :=
    length (public_scopes (mem s')) = (length (public_scopes (mem s)) + n)%nat /\
    length (local_scopes (mem s')) = (length (local_scopes (mem s)) + n)%nat /\
    length (pcounts s') = (length (pcounts s) + n)%nat.

  Lemma upd_first_length (l : list sc) k f : length (upd_first l k f) = length l.
  Proof. induction l as [|d l IH]; [reflexivity|]. cbn [upd_first]. destruct (shas d k); cbn; auto. Qed.

  (** Shape of the effect of one user operation: local scopes below the innermost are untouched; public scopes other
      than the innermost and the outermost only lose or keep names. *)
  Lemma upd_last_shape (l l' : list sc) f : upd_last l f = Ok l' -> exists i t, l = i ++ [t] /\ l' = i ++ [f t].
  Proof.
    unfold upd_last. destruct (rev l) as [|d r] eqn:E; [discriminate|]. intros H.
    apply (f_equal (fun x => match x with Ok y => y | Err _ => [] end)) in H; cbv beta iota in H. subst l'.
    exists (rev r), d. split; [|reflexivity].
    rewrite <- (rev_involutive l), E. reflexivity.
  Qed.

  Definition same_below (l l' : list sc) : Prop :=
    l = l' \/ exists i t t', l = i ++ [t] /\ l' = i ++ [t'].

  Lemma same_below_refl l : same_below l l. Proof. left; reflexivity. Qed.
  Lemma same_below_trans l1 l2 l3 : same_below l1 l2 -> same_below l2 l3 -> same_below l1 l3.
  Proof.
    intros [->|(i & t & t' & -> & ->)] [<-|(j & x & x' & H & ->)].
    - left; reflexivity.
    - right; exists j, x, x'; auto.
    - right; exists i, t, t'; auto.
    - apply app_inj_tail in H. destruct H as [-> ->]. right; exists j, t, x'; auto.
  Qed.
  Lemma same_below_length l l' : same_below l l' -> length l' = length l.
  Proof. intros [->|(i & t & t' & -> & ->)]; [reflexivity|]. rewrite !app_length; reflexivity. Qed.

  Lemma mutate_local_below (m : memvar V) b k f : same_below (local_scopes m) (local_scopes (mutate m b k f)).
  Proof.
    unfold mutate. destruct b; [|apply same_below_refl].
    destruct (upd_last (local_scopes m) f) as [l|] eqn:E; [|apply same_below_refl]. cbn.
    apply upd_last_shape in E. destruct E as (i & t & -> & ->). right; exists i, t, (f t); auto.
  Qed.
  Lemma del_local_below (m : memvar V) k : same_below (local_scopes m) (local_scopes (mem_del m k)).
  Proof.
    unfold mem_del. destruct (get_scope m k) as [[b [|x d]]|]; try apply same_below_refl. apply mutate_local_below.
  Qed.

  Lemma uop_local_below (m : memvar V) o :
    same_below (local_scopes m) (local_scopes (snd (mem_step pyfalse m (op_of o)))).
  Proof.
    destruct o; cbn [op_of mem_step snd]; try apply same_below_refl.
    - unfold mem_set.
      assert (same_below (local_scopes m) (local_scopes (snd (upd_state m
        (do p <- upd_last (public_scopes m) (fun d : sc => sset d k v); Ok (mkMem p (local_scopes m))))))) as H.
      { destruct (upd_last _ _); cbn; apply same_below_refl. }
      destruct (get_scope m k) as [[b [|x d]]|]; try exact H. cbn. apply mutate_local_below.
    - apply del_local_below.
    - unfold add_local. destruct (upd_last _ _) as [l|] eqn:E; cbn [rbind]; [|apply same_below_refl].
      destruct (bad_keyword kw); cbn; [apply same_below_refl|].
      apply upd_last_shape in E. destruct E as (i & t & -> & ->). right; eauto 6.
    - unfold add_private. destruct (upd_last _ _) as [l|] eqn:E; cbn [rbind]; [|apply same_below_refl].
      destruct (bad_keyword kw); cbn; apply same_below_refl.
    - unfold add_public. destruct (upd_head _ _) as [l|] eqn:E; cbn [rbind]; [|apply same_below_refl].
      destruct (bad_keyword kw); cbn; apply same_below_refl.
    - unfold mem_release. destruct (rev (local_scopes m)); cbn; [apply same_below_refl|].
      destruct (rev (public_scopes m)); cbn; [apply same_below_refl|].
      generalize (map fst s ++ map fst s0). intros ks. revert m.
      induction ks as [|k ks IH]; cbn [fold_left]; intros m; [apply same_below_refl|].
      eapply same_below_trans; [apply del_local_below|apply IH].
  Qed.

  (** Public scopes: for a fixed name x, which frames may gain a binding of x. *)
  Definition gains (x : name) (d d' : sc) : Prop := sget d' x <> None -> sget d x <> None.
  Definition pub_rel (x : name) (l l' : list sc) : Prop :=
    length l' = length l /\
    forall n d d', (S n < length l)%nat -> nth_error l n = Some d -> nth_error l' n = Some d' -> gains x d d'.
  Lemma pub_refl x l : pub_rel x l l.
  Proof. split; [reflexivity|]. intros n d d' _ -> [= ->] H. exact H. Qed.
  Lemma pub_trans x l1 l2 l3 : pub_rel x l1 l2 -> pub_rel x l2 l3 -> pub_rel x l1 l3.
  Proof.
    intros [H1 G1] [H2 G2]. split; [congruence|]. intros n d d' Hn E1 E3.
    destruct (nth_error l2 n) as [d2|] eqn:E2.
    - intros Hx. eapply G1; eauto. eapply G2; eauto. lia.
    - apply nth_error_None in E2. lia.
  Qed.

  Lemma pub_upd_last x l l' f : upd_last l f = Ok l' -> pub_rel x l l'.
  Proof.
    intros E. apply upd_last_shape in E. destruct E as (i & t & -> & ->). split; [rewrite !app_length; reflexivity|].
    intros n d d' Hn E1 E2. rewrite app_length in Hn; cbn in Hn.
    rewrite nth_error_app1 in E1, E2 by lia. intros H. congruence.
  Qed.
  Lemma upd_first_gains x l k f : (forall d, shas d k = true -> gains x d (f d)) ->
    forall n d d', nth_error l n = Some d -> nth_error (upd_first l k f) n = Some d' -> gains x d d'.
  Proof.
    intros Hf. induction l as [|e l IH]; intros n d d' E1 E2.
    - destruct n; discriminate.
    - cbn [upd_first] in E2. destruct (shas e k) eqn:Ek.
      + destruct n as [|n]; cbn in E1, E2; [injection E1 as <-; injection E2 as <-; auto|intros H; congruence].
      + destruct n as [|n]; cbn in E1, E2; [intros H; congruence|eauto].
  Qed.
  Lemma nth_error_rev {A} (l : list A) n : (n < length l)%nat -> nth_error (rev l) n = nth_error l (length l - S n).
  Proof.
    intros H. destruct (nth_error l (length l - S n)) as [a|] eqn:E.
    - rewrite (nth_error_nth' _ a) by (rewrite rev_length; assumption). f_equal.
      rewrite rev_nth by assumption. apply nth_error_nth with (d := a) in E. exact E.
    - apply nth_error_None in E. lia.
  Qed.
  Lemma pub_mutate x (m : memvar V) b k f : (forall d, shas d k = true -> gains x d (f d)) ->
    pub_rel x (public_scopes m) (public_scopes (mutate m b k f)).
  Proof.
    intros Hf. unfold mutate. destruct b.
    - destruct (upd_last (local_scopes m) f); apply pub_refl.
    - cbn. split; [rewrite rev_length, upd_first_length, rev_length; reflexivity|].
      intros n d d' Hn E1 E2.
      rewrite nth_error_rev in E2 by (rewrite upd_first_length, rev_length; lia).
      rewrite upd_first_length, rev_length in E2.
      eapply upd_first_gains; [exact Hf| |exact E2].
      rewrite nth_error_rev by lia. rewrite <- E1. f_equal. lia.
  Qed.
  Lemma gains_set x (d : sc) k v : shas d k = true -> gains x d (sset d k v).
  Proof.
    intros Hk. unfold gains. rewrite sget_sset. destruct (String.eqb_spec x k) as [->|]; [|auto].
    intros _. rewrite shas_sget in Hk. destruct (sget d k); congruence.
  Qed.
  Lemma gains_del x (d : sc) k : gains x d (sdel d k).
  Proof. unfold gains. rewrite sget_sdel. destruct (String.eqb x k); [congruence|auto]. Qed.
  Lemma pub_del x (m : memvar V) k : pub_rel x (public_scopes m) (public_scopes (mem_del m k)).
  Proof.
    unfold mem_del. destruct (get_scope m k) as [[b [|y d]]|]; try apply pub_refl. apply pub_mutate.
    intros; apply gains_del.
  Qed.
  Lemma sget_add_other x args kw (d : sc) : ~ In x args -> ~ In x (map fst kw) ->
    sget (add_to_scope pyfalse args kw d) x = sget d x.
  Proof.
    intros Ha Hk. unfold add_to_scope.
    assert (forall e : sc, sget (fold_left (fun d kv => sset d (fst kv) (snd kv)) kw e) x = sget e x) as H1.
    { revert Hk. clear. induction kw as [|[k v] kw IH]; cbn [fold_left map fst snd]; intros Hk e; [reflexivity|].
      rewrite IH by (intros H; apply Hk; right; assumption). rewrite sget_sset.
      destruct (String.eqb_spec x k) as [->|]; [exfalso; apply Hk; left; reflexivity|reflexivity]. }
    rewrite H1. revert d Ha. clear. induction args as [|k args IH]; cbn [fold_left]; intros d Ha; [reflexivity|].
    rewrite IH by (intros H; apply Ha; right; assumption). rewrite sget_sset.
    destruct (String.eqb_spec x k) as [->|]; [exfalso; apply Ha; left; reflexivity|reflexivity].
  Qed.

  Lemma uop_pub x (m : memvar V) o : (forall a kw, o = UPublic a kw -> ~ In x a /\ ~ In x (map fst kw)) ->
    pub_rel x (public_scopes m) (public_scopes (snd (mem_step pyfalse m (op_of o)))).
  Proof.
    intros Hnp. destruct o; cbn [op_of mem_step snd]; try apply pub_refl.
    - unfold mem_set.
      assert (pub_rel x (public_scopes m) (public_scopes (snd (upd_state m
        (do p <- upd_last (public_scopes m) (fun d : sc => sset d k v); Ok (mkMem p (local_scopes m))))))) as H.
      { destruct (upd_last _ _) eqn:E; cbn; [eapply pub_upd_last; eauto|apply pub_refl]. }
      destruct (get_scope m k) as [[b [|y d]]|]; try exact H. cbn. apply pub_mutate. intros; apply gains_set; assumption.
    - apply pub_del.
    - unfold add_local. destruct (upd_last _ _) as [l|] eqn:E; cbn [rbind]; [|apply pub_refl].
      destruct (bad_keyword kw); cbn; apply pub_refl.
    - unfold add_private. destruct (upd_last _ _) as [l|] eqn:E; cbn [rbind]; [|apply pub_refl].
      destruct (bad_keyword kw); cbn; [apply pub_refl|]. eapply pub_upd_last; eauto.
    - unfold add_public. destruct (public_scopes m) as [|d0 p0] eqn:E; cbn [upd_head rbind upd_state snd].
      { rewrite E. apply pub_refl. }
      destruct (bad_keyword kw); cbn [upd_state snd public_scopes].
      { rewrite E. apply pub_refl. }
      destruct (Hnp args kw eq_refl) as [Ha Hk].
      split; [reflexivity|]. intros [|n] d d' Hn E1 E2; cbn in E1, E2.
      + injection E1 as <-; injection E2 as <-. unfold gains. rewrite sget_add_other by assumption. auto.
      + unfold gains. intros; congruence.
    - unfold mem_release. destruct (rev (local_scopes m)); cbn; [apply pub_refl|].
      destruct (rev (public_scopes m)); cbn; [apply pub_refl|].
      generalize (map fst s ++ map fst s0). intros ks. revert m.
      induction ks as [|k ks IH]; cbn [fold_left]; intros m; [apply pub_refl|].
      eapply pub_trans; [apply pub_del|apply IH].
  Qed.

  Lemma pub_len_any (m : memvar V) o :
    length (public_scopes (snd (mem_step pyfalse m (op_of o)))) = length (public_scopes m).
  Proof.
    destruct o; cbn [op_of].
    1: reflexivity.
    1: reflexivity.
    - apply (uop_pub ""%string m (USet k v)). intros; discriminate.
    - apply (uop_pub ""%string m (UDel k)). intros; discriminate.
    - apply (uop_pub ""%string m (ULocal args kw)). intros; discriminate.
    - apply (uop_pub ""%string m (UPrivate args kw)). intros; discriminate.
    - cbn [mem_step snd]. unfold add_public. destruct (public_scopes m) as [|d0 p0] eqn:E; cbn [upd_head rbind upd_state snd]; [rewrite E; reflexivity|].
      destruct (bad_keyword kw); cbn; [rewrite E|]; reflexivity.
    - apply (uop_pub ""%string m URelease). intros; discriminate.
  Qed.

  (** Frame lemma for whole programs.  [below s s' n]: s' extends s by n leaked frames and leaves everything below
      s's innermost frame alone. *)
  Definition below (s s' : rtv) (n : nat) : Prop :=
    (local_scopes (mem s) = [] -> length (local_scopes (mem s')) = n) /\
    (forall i t, local_scopes (mem s) = i ++ [t] ->
       exists ts, local_scopes (mem s') = i ++ ts /\ length ts = S n) /\
    (exists l, pcounts s' = pcounts s ++ l /\ length l = n) /\
    length (public_scopes (mem s')) = (length (public_scopes (mem s)) + n)%nat.

  Lemma below_refl s : below s s 0.
  Proof.
    repeat split.
    - intros ->. reflexivity.
    - intros i t ->. exists [t]. auto.
    - exists []. rewrite app_nil_r. auto.
    - lia.
  Qed.

  Lemma below_local_length s s' n : below s s' n ->
    length (local_scopes (mem s')) = (length (local_scopes (mem s)) + n)%nat.
  Proof.
    intros (H0 & H1 & _). destruct (local_scopes (mem s)) as [|a r] using rev_ind.
    - rewrite H0; reflexivity.
    - destruct (H1 _ _ eq_refl) as (ts & -> & Hl). rewrite !app_length. cbn. lia.
  Qed.

  Lemma below_trans s1 s2 s3 n m : below s1 s2 n -> below s2 s3 m -> below s1 s3 (n + m).
  Proof.
    intros Hb1 Hb2. pose proof (below_local_length _ _ _ Hb1) as L1. pose proof (below_local_length _ _ _ Hb2) as L2.
    destruct Hb1 as (A0 & A1 & A2 & A3). destruct Hb2 as (B0 & B1 & B2 & B3).
    repeat split.
    - intros E. rewrite L2, L1, E. reflexivity.
    - intros i t E. destruct (A1 i t E) as (ts & E2 & Hl).
      destruct ts as [|y ts] using rev_ind; [discriminate|].
      rewrite app_assoc in E2. destruct (B1 _ _ E2) as (ts' & E3 & Hl'). rewrite <- app_assoc in E3.
      exists (ts ++ ts'). split; [exact E3|]. rewrite app_length in *. cbn in Hl. lia.
    - destruct A2 as (l & E & Hl). destruct B2 as (l' & E' & Hl').
      exists (l ++ l'). rewrite E', E, app_assoc, app_length. split; [reflexivity|lia].
    - lia.
  Qed.

  Lemma uop_below s o :
    let m := snd (mem_step pyfalse (mem s) (op_of o)) in below s (mkRt m (pcounts s) (nparams s)) 0.
  Proof.
    intros m. pose proof (uop_local_below (mem s) o) as H. pose proof (pub_len_any (mem s) o) as Hp. fold m in H, Hp.
    repeat split; cbn [mem pcounts nparams].
    - intros E. rewrite (same_below_length _ _ H), E. reflexivity.
    - intros i t E. destruct H as [H|(i' & x & x' & H1 & H2)].
      + exists [t]. rewrite <- H. auto.
      + rewrite E in H1. apply app_inj_tail in H1. destruct H1 as [-> ->]. exists [x']. auto.
    - exists []. rewrite app_nil_r. auto.
    - lia.
  Qed.

  (** entering a procedure *)
  Lemma push_below s n : below s (push_frame s n) 1.
  Proof.
    unfold push_frame, pushscope. repeat split; cbn.
    - intros ->. reflexivity.
    - intros i t ->. exists [t; []]. rewrite <- app_assoc. auto.
    - exists [n]. auto.
    - rewrite app_length. cbn. lia.
  Qed.

  Lemma bind_params_shape kind vs args passed s s1 e :
    bind_params pyfalse kind vs args passed s = (s1, e) ->
    exists d1 d2, mem s1 = mkMem (public_scopes (mem s) ++ [d1]) (local_scopes (mem s) ++ [d2]) /\
      pcounts s1 = pcounts s ++ [zlen args].
  Proof.
    unfold bind_params. destruct kind.
    - unfold add_local. cbn [push_frame mem pushscope local_scopes public_scopes].
      rewrite upd_last_rev, rev_app_distr. cbn [rev app rbind].
      destruct (bad_keyword _).
      + intros [= <- <-]. do 2 eexists. split; reflexivity.
      + intros [= <- <-]. cbn. rewrite rev_involutive. do 2 eexists. split; reflexivity.
    - unfold add_private. cbn [push_frame mem pushscope local_scopes public_scopes].
      rewrite upd_last_rev, rev_app_distr. cbn [rev app rbind].
      destruct (bad_keyword _).
      + intros [= <- <-]. do 2 eexists. split; reflexivity.
      + intros [= <- <-]. cbn. rewrite rev_involutive. do 2 eexists. split; reflexivity.
  Qed.

  Definition entered (vs : list name) (fn : fnobj) (args : list V) : bool :=
    match vs, is_method fn, args with _ :: _, true, [] => false | _, _, _ => true end.

  Lemma enter_shape kind vs fn args s s1 e : enter pyfalse kind vs fn args s = (s1, e) ->
    if entered vs fn args
    then exists d1 d2 n, mem s1 = mkMem (public_scopes (mem s) ++ [d1]) (local_scopes (mem s) ++ [d2]) /\
      pcounts s1 = pcounts s ++ [n]
    else s1 = s /\ e = Err TypeError.
  Proof.
    unfold enter, entered. destruct vs as [|x vs].
    - intros [= <- <-]. do 3 eexists. split; reflexivity.
    - destruct (is_method fn).
      + destruct args as [|a args]; [intros [= <- <-]; auto|]. intros H.
        apply bind_params_shape in H. destruct H as (d1 & d2 & H1 & H2). cbv iota. exists d1, d2, (zlen args). auto.
      + intros H. apply bind_params_shape in H. destruct H as (d1 & d2 & H1 & H2).
        cbv iota. exists d1, d2, (zlen args). auto.
  Qed.

  Lemma shape_below s s1 d1 d2 n :
    mem s1 = mkMem (public_scopes (mem s) ++ [d1]) (local_scopes (mem s) ++ [d2]) -> pcounts s1 = pcounts s ++ [n] ->
    below s s1 1.
  Proof.
    intros E1 E2. unfold below. rewrite E1, E2. cbn. repeat split.
    - intros ->. reflexivity.
    - intros i t ->. exists [t; d2]. rewrite <- app_assoc. auto.
    - exists [n]. auto.
    - rewrite app_length. reflexivity.
  Qed.

  (** leaving after a body that started in s1 and leaked n frames: the innermost n+1 .. *)
  Lemma leave_below s s1 s2 d1 d2 n0 n :
    mem s1 = mkMem (public_scopes (mem s) ++ [d1]) (local_scopes (mem s) ++ [d2]) -> pcounts s1 = pcounts s ++ [n0] ->
    below s1 s2 n ->
    exists s3, leave s2 = Ok s3 /\ below s s3 n /\
      (n = 0%nat -> local_scopes (mem s3) = local_scopes (mem s) /\ pcounts s3 = pcounts s) /\
      public_scopes (mem s3) = removelast (public_scopes (mem s2)).
  Proof.
    intros E1 E2 (B0 & B1 & (l & B2 & Bl) & B3). rewrite E1 in B1, B3. cbn in B1, B3. rewrite E2 in B2.
    destruct (B1 _ _ eq_refl) as (ts & Hts & Hlen).
    rewrite app_length in B3. cbn in B3.
    destruct (public_scopes (mem s2)) as [|pt pr] eqn:Ep using rev_ind; [cbn in B3; lia|]. clear IHpr.
    destruct ts as [|lt lr] using rev_ind; [discriminate|]. clear IHlr.
    destruct ((([n0] : list Z) ++ l)) as [|pc pcs] eqn:Epc using rev_ind; [destruct l; discriminate|]. clear IHpcs.
    rewrite <- app_assoc, Epc in B2. rewrite app_assoc in B2.
    unfold leave, popscope. rewrite B2, Ep, Hts, app_assoc, !rev_app_distr. cbn [rev app rbind].
    eexists; split; [reflexivity|]. cbn [mem pcounts nparams public_scopes local_scopes].
    rewrite !app_length in *. cbn in Hlen, B3.
    assert (length pcs = n) as Hpcs.
    { apply (f_equal (@length Z)) in Epc. rewrite !app_length in Epc. cbn in Epc. lia. }
    split; [|split].
    - unfold below; cbn. rewrite <- !rev_app_distr, !rev_involutive. repeat split.
      + intros E. rewrite E. rewrite app_nil_l. lia.
      + intros i t E. rewrite E. exists (t :: lr). split; [rewrite <- app_assoc; reflexivity|cbn; lia].
      + exists pcs. auto.
      + lia.
    - intros ->. rewrite <- !rev_app_distr, !rev_involutive.
      destruct lr; [|cbn in Hlen; lia]. destruct pcs; [|cbn in Hpcs; lia]. rewrite !app_nil_r. auto.
    - rewrite rev_involutive, removelast_last. reflexivity.
  Qed.

  Lemma scoper_unfold kind vs fn args body s s1 e :
    enter pyfalse kind vs fn args s = (s1, e) ->
    scoper pyfalse kind vs fn args body s =
    match e with
    | Err e => (Err e, s1)
    | Ok passed => if Nat.eqb (length passed) (co_argcount fn)
                   then match body s1 with
                        | (Err e, s2) => (Err e, s2)
                        | (Ok v, s2) => match leave s2 with Ok s3 => (Ok v, s3) | Err e => (Err e, s2) end
                        end
                   else (Err TypeError, s1)
    end.
  Proof. intros E. unfold scoper. rewrite E. destruct e; reflexivity. Qed.

  Lemma abnormal_here vs fn (args : list V) :
    match vs, is_method fn, args with _ :: _, true, [] => 0%nat | _, _, _ => 1%nat end =
    if entered vs fn args then 1%nat else 0%nat.
  Proof. unfold entered. destruct vs, (is_method fn), args; reflexivity. Qed.

  Lemma exec_below p : forall s, below s (snd (exec pyfalse p s)) (abnormal_exits pyfalse p s).
  Proof.
    induction p as [v|e|o k IH|k IH|kind vs fn args body IHb k IHk]; intros s; cbn [exec abnormal_exits].
    - apply below_refl.
    - apply below_refl.
    - pose proof (uop_below s o) as H. cbv zeta in H.
      destruct (mem_step pyfalse (mem s) (op_of o)) as [r m]. cbn [snd] in H.
      apply (below_trans _ _ _ 0 _ H). apply IH.
    - apply IH.
    - destruct (enter pyfalse kind vs fn args s) as [s1 e] eqn:En.
      pose proof (enter_shape _ _ _ _ _ _ _ En) as Hsh.
      pose proof (scoper_unfold kind vs fn args (exec pyfalse body) s s1 e En) as Hsc. rewrite Hsc. clear Hsc.
      rewrite abnormal_here. destruct (entered vs fn args).
      + destruct Hsh as (d1 & d2 & n0 & E1 & E2). pose proof (shape_below _ _ _ _ _ E1 E2) as Hb1.
        destruct e as [passed|e].
        * destruct (Nat.eqb (length passed) (co_argcount fn)).
          -- pose proof (IHb s1) as Hb2. destruct (exec pyfalse body s1) as [[v|e] s2]; cbn [snd] in Hb2.
             ++ destruct (leave_below _ _ _ _ _ _ _ E1 E2 Hb2) as (s3 & -> & Hb3 & _).
                replace (abnormal_exits pyfalse body s1 + 0 + abnormal_exits pyfalse (k (Ok v)) s3)%nat
                  with (abnormal_exits pyfalse body s1 + abnormal_exits pyfalse (k (Ok v)) s3)%nat by lia.
                eapply below_trans; [exact Hb3|apply IHk].
             ++ eapply below_trans; [|apply IHk].
                rewrite (Nat.add_comm _ 1). eapply below_trans; [exact Hb1|exact Hb2].
          -- cbn [Nat.add]. change (S (abnormal_exits pyfalse (k (Err TypeError)) s1)) with (1 + abnormal_exits pyfalse (k (Err TypeError)) s1)%nat.
             eapply below_trans; [exact Hb1|apply IHk].
        * cbn [Nat.add]. change (S (abnormal_exits pyfalse (k (Err e)) s1)) with (1 + abnormal_exits pyfalse (k (Err e)) s1)%nat.
          eapply below_trans; [exact Hb1|apply IHk].
      + destruct Hsh as [-> ->]. cbn [Nat.add]. apply (below_trans _ _ _ 0 _ (below_refl s)). apply IHk.
  Qed.

  (** C07 *)
  Lemma exec_balance p s : let s' := snd (exec pyfalse p s) in let n := abnormal_exits pyfalse p s in
    length (public_scopes (mem s')) = (length (public_scopes (mem s)) + n)%nat /\
    length (local_scopes (mem s')) = (length (local_scopes (mem s)) + n)%nat /\
    length (pcounts s') = (length (pcounts s) + n)%nat.
  Proof.
    intros s' n. pose proof (exec_below p s) as H. fold s' in H. fold n in H.
    pose proof (below_local_length _ _ _ H) as H1. destruct H as (_ & _ & (l & E & Hl) & H2).
    repeat split; auto. rewrite E, app_length, Hl. reflexivity.
  Qed.

  Lemma exec_pcounts p s : abnormal_exits pyfalse p s = 0%nat -> pcounts (snd (exec pyfalse p s)) = pcounts s.
  Proof.
    intros E. pose proof (exec_below p s) as (_ & _ & (l & Hl & Hn) & _). rewrite E in Hn.
    destruct l; [|discriminate]. rewrite Hl, app_nil_r. reflexivity.
  Qed.

  (** C06, private part: frames below the innermost never gain a binding of x. *)
  Definition pubx (x : name) (s s' : rtv) : Prop :=
    (length (public_scopes (mem s)) <= length (public_scopes (mem s')))%nat /\
    forall n d d', (S n < length (public_scopes (mem s)))%nat ->
      nth_error (public_scopes (mem s)) n = Some d -> nth_error (public_scopes (mem s')) n = Some d' -> gains x d d'.
  Lemma pubx_refl x s : pubx x s s.
  Proof. split; [lia|]. intros n d d' _ -> [= ->] H. exact H. Qed.
  Lemma pubx_trans x s1 s2 s3 : pubx x s1 s2 -> pubx x s2 s3 -> pubx x s1 s3.
  Proof.
    intros [H1 G1] [H2 G2]. split; [lia|]. intros n d d' Hn E1 E3.
    destruct (nth_error (public_scopes (mem s2)) n) as [d2|] eqn:E2.
    - intros Hx. eapply G1; eauto. eapply G2; eauto. lia.
    - apply nth_error_None in E2. lia.
  Qed.
  Lemma pubx_shape x s s1 d1 l : mem s1 = mkMem (public_scopes (mem s) ++ [d1]) l -> pubx x s s1.
  Proof.
    intros E. unfold pubx. rewrite E; cbn [public_scopes]. rewrite app_length. split; [lia|].
    intros n d d' Hn E1 E2. rewrite nth_error_app1 in E2 by lia. intros H. congruence.
  Qed.

  Lemma nth_error_removelast {A} (l : list A) n : (S n < length l)%nat -> nth_error (removelast l) n = nth_error l n.
  Proof.
    destruct l as [|a l] using rev_ind; [reflexivity|]. rewrite removelast_last, app_length; cbn.
    intros H. rewrite nth_error_app1 by lia. reflexivity.
  Qed.

  Lemma exec_pubx x p : never_public x p -> forall s, pubx x s (snd (exec pyfalse p s)).
  Proof.
    induction 1 as [v|e|o k Ho Hk IH|k Hk IH|kind vs fn args body k Hbody IHb Hk IHk]; intros s; cbn [exec].
    - apply pubx_refl.
    - apply pubx_refl.
    - pose proof (uop_pub x (mem s) o Ho) as H. destruct (mem_step pyfalse (mem s) (op_of o)) as [r m]. cbn [snd] in H.
      eapply pubx_trans; [|apply IH]. destruct H as [H1 H2]. split; cbn [mem]; [lia|]. exact H2.
    - apply IH.
    - destruct (enter pyfalse kind vs fn args s) as [s1 e] eqn:En.
      pose proof (enter_shape _ _ _ _ _ _ _ En) as Hsh.
      rewrite (scoper_unfold kind vs fn args (exec pyfalse body) s s1 e En).
      destruct (entered vs fn args).
      + destruct Hsh as (d1 & d2 & n0 & E1 & E2). pose proof (pubx_shape x _ _ _ _ E1) as Hb1.
        destruct e as [passed|e].
        * destruct (Nat.eqb (length passed) (co_argcount fn)).
          -- pose proof (IHb s1) as Hb2. pose proof (exec_below body s1) as Hbel.
             destruct (exec pyfalse body s1) as [[v|e] s2]; cbn [snd] in Hb2, Hbel.
             ++ destruct (leave_below _ _ _ _ _ _ _ E1 E2 Hbel) as (s3 & -> & _ & _ & Ep).
                eapply pubx_trans; [|apply IHk].
                destruct Hbel as (_ & _ & _ & Hlen). rewrite E1 in Hlen. cbn in Hlen. rewrite app_length in Hlen. cbn in Hlen.
                destruct Hb2 as [_ Hb2]. rewrite E1 in Hb2. cbn in Hb2.
                split.
                ** rewrite Ep. destruct (public_scopes (mem s2)) as [|a r] using rev_ind; [cbn in Hlen; lia|].
                   rewrite removelast_last. rewrite app_length in Hlen. cbn in Hlen. lia.
                ** intros n d d' Hn F1 F2. rewrite Ep in F2. rewrite nth_error_removelast in F2 by lia.
                   apply (Hb2 n d d'); auto; [rewrite app_length; cbn; lia|]. rewrite nth_error_app1 by lia. exact F1.
             ++ eapply pubx_trans; [|apply IHk]. eapply pubx_trans; eassumption.
          -- eapply pubx_trans; [exact Hb1|apply IHk].
        * eapply pubx_trans; [exact Hb1|apply IHk].
      + destruct Hsh as [-> ->]. apply IHk.
  Qed.

  (** C06: one call that returns normally, with no exception escaping any activation inside it. *)
  Lemma call_restores kind vs fn args body s v s' :
    scoper pyfalse kind vs fn args (exec pyfalse body) s = (Ok v, s') ->
    abnormal_exits pyfalse (PCall kind vs fn args body (fun _ => PRet v)) s = 0%nat ->
    local_scopes (mem s') = local_scopes (mem s) /\ pcounts s' = pcounts s /\
    length (public_scopes (mem s')) = length (public_scopes (mem s)) /\
    (forall x, never_public x body -> forall n d d',
       nth_error (public_scopes (mem s)) n = Some d -> nth_error (public_scopes (mem s')) n = Some d' ->
       sget d' x <> None -> sget d x <> None).
  Proof.
    intros Hsc Hab. cbn [abnormal_exits] in Hab. rewrite Hsc in Hab.
    destruct (enter pyfalse kind vs fn args s) as [s1 e] eqn:En.
    pose proof (enter_shape _ _ _ _ _ _ _ En) as Hsh.
    rewrite (scoper_unfold kind vs fn args (exec pyfalse body) s s1 e En) in Hsc.
    destruct e as [passed|e]; [|discriminate].
    destruct (Nat.eqb (length passed) (co_argcount fn)); [|discriminate].
    destruct (entered vs fn args); [|destruct Hsh; discriminate].
    destruct Hsh as (d1 & d2 & n0 & E1 & E2).
    pose proof (exec_below body s1) as Hbel.
    assert (abnormal_exits pyfalse body s1 = 0%nat) as Hz by lia. rewrite Hz in Hbel.
    assert (forall x, never_public x body -> pubx x s1 (snd (exec pyfalse body s1))) as Hpx.
    { intros x Hx. apply exec_pubx, Hx. }
    destruct (exec pyfalse body s1) as [[w|e] s2]; [|discriminate]. cbn [snd] in *.
    destruct (leave_below _ _ _ _ _ _ _ E1 E2 Hbel) as (s3 & El & Hb3 & Hr & Ep). rewrite El in Hsc.
    injection Hsc as <- <-. destruct (Hr eq_refl) as [Hl Hc].
    destruct Hbel as (_ & _ & _ & Hlen). rewrite E1 in Hlen. cbn in Hlen. rewrite app_length in Hlen. cbn in Hlen.
    assert (length (public_scopes (mem s3)) = length (public_scopes (mem s))) as Hlp.
    { destruct Hb3 as (_ & _ & _ & H). lia. }
    repeat split; auto.
    intros x Hx n d d' F1 F2. specialize (Hpx x Hx). destruct Hpx as [_ Hpx]. rewrite E1 in Hpx. cbn in Hpx.
    assert (n < length (public_scopes (mem s)))%nat as Hn by (apply nth_error_Some; congruence).
    rewrite Ep in F2. rewrite nth_error_removelast in F2 by lia.
    apply (Hpx n d d'); auto; [rewrite app_length; cbn; lia|]. rewrite nth_error_app1 by lia. exact F1.
  Qed.

  (** C08 *)
  Lemma zip_dict_get vs : forall (args : list V) i x a,
    NoDup vs -> nth_error vs i = Some x -> nth_error args i = Some a ->
    dget String.eqb (zip_dict vs args) x = Some a.
  Proof.
    unfold zip_dict. intros args i x a Hnd Hx Ha.
    assert (forall (l : list (name * V)) (d : list (name * V)), NoDup (map fst l) -> In (x, a) l ->
      dget String.eqb (fold_left (fun d kv => dset String.eqb d (fst kv) (snd kv)) l d) x = Some a) as H.
    { clear. induction l as [|[k v] l IH]; intros d Hnd Hin; [destruct Hin|].
      cbn [fold_left fst snd]. inversion Hnd as [|? ? Hni Hnd']; subst. destruct Hin as [[= -> ->]|Hin]; [|auto].
      assert (forall (l : list (name * V)) (d : list (name * V)), ~ In x (map fst l) ->
        dget String.eqb (fold_left (fun d kv => dset String.eqb d (fst kv) (snd kv)) l d) x = dget String.eqb d x) as Hk.
      { clear. induction l as [|[k v] l IH]; intros d Hni; [reflexivity|]. cbn [fold_left fst snd].
        rewrite IH by (intros H; apply Hni; right; assumption).
        rewrite (dget_dset String.eqb String.eqb_spec). destruct (String.eqb_spec x k) as [->|]; [|reflexivity].
        exfalso; apply Hni; left; reflexivity. }
      rewrite Hk by assumption. rewrite (dget_dset String.eqb String.eqb_spec), String.eqb_refl. reflexivity. }
    apply H.
    - clear - Hnd. revert args. induction Hnd as [|k vs Hni Hnd IH]; intros [|a args]; cbn; try constructor; auto.
      intros Hi. apply Hni. apply in_map_iff in Hi. destruct Hi as ([k' v'] & E & Hi). cbn in E; subst.
      eapply in_combine_l; eauto.
    - clear - Hx Ha. revert vs i Hx Ha. induction args as [|b args IH]; intros [|k vs] [|i] Hx Ha; try discriminate.
      + injection Hx as ->; injection Ha as ->. left; reflexivity.
      + right. eapply IH; eauto.
  Qed.

  Lemma zip_dict_keys vs (args : list V) x : In x (map fst (zip_dict vs args)) -> In x (firstn (length args) vs).
  Proof.
    unfold zip_dict. intros H.
    assert (forall l d, In x (map fst (fold_left (fun d kv => dset String.eqb d (fst kv) (snd kv)) l d)) ->
       In x (map fst l) \/ In x (map fst (d : list (name * V)))) as G.
    { clear. induction l as [|[k v] l IH]; intros d Hin; [right; exact Hin|].
      cbn [fold_left fst snd map] in *. destruct (IH _ Hin) as [Hl|Hd]; [left; right; exact Hl|].
      apply sget_in in Hd. change (dset String.eqb d k v) with (sset d k v) in Hd. rewrite sget_sset in Hd.
      destruct (String.eqb_spec x k) as [->|]; [left; left; reflexivity|]. right. apply sget_in. exact Hd. }
    destruct (G _ _ H) as [Hl|[]]. apply in_map_iff in Hl. destruct Hl as ([k v] & E & Hin). cbn in E; subst.
    clear - Hin. revert vs Hin. induction args as [|a args IH]; intros [|y vs] Hin; cbn in *; try contradiction.
    destruct Hin as [[= -> _]|Hin]; [left; reflexivity|right; auto].
  Qed.

  Lemma sget_add_args args (d : sc) x : In x args -> sget (fold_left (fun d k => sset d k pyfalse) args d) x = Some pyfalse.
  Proof.
    revert d. induction args as [|k args IH]; intros d []; cbn [fold_left].
    - subst. destruct (in_dec string_dec x args) as [Hi|Hi]; [apply IH, Hi|].
      clear IH. revert d. assert (forall e : sc, sget e x = Some pyfalse -> sget (fold_left (fun d k => sset d k pyfalse) args e) x = Some pyfalse) as H.
      { clear Hi. induction args as [|k args IH]; intros e E; [exact E|]. cbn [fold_left]. apply IH. rewrite sget_sset.
        destruct (String.eqb x k); auto. }
      intros d. apply H. rewrite sget_sset, String.eqb_refl. reflexivity.
    - apply IH. assumption.
  Qed.
  Lemma sget_add_kw kw : forall (d : sc) x, NoDup (map fst kw) ->
    sget (fold_left (fun d kv => sset d (fst kv) (snd kv)) kw d) x =
    match dget String.eqb kw x with Some v => Some v | None => sget d x end.
  Proof.
    induction kw as [|[k v] kw IH]; intros d x Hnd; [reflexivity|]. inversion Hnd as [|? ? Hni Hnd']; subst.
    cbn [fold_left fst snd dget]. rewrite IH by assumption. rewrite sget_sset.
    destruct (String.eqb_spec x k) as [->|]; [|reflexivity].
    destruct (dget String.eqb kw k) eqn:E; [|reflexivity].
    exfalso. apply Hni. apply (sget_in (V := V)). unfold sget. rewrite E. discriminate.
  Qed.

  Lemma zip_dict_wf vs (args : list V) : NoDup (map fst (zip_dict vs args)).
  Proof.
    unfold zip_dict. assert (forall l d, wfd (d : sc) -> wfd (fold_left (fun d kv => dset String.eqb d (fst kv) (snd kv)) l d)) as H.
    { clear. induction l as [|[k v] l IH]; intros d Hd; [exact Hd|]. cbn [fold_left]. apply IH. apply (wfd_set d k v Hd). }
    apply H. constructor.
  Qed.

  Lemma bound_value vs (args : list V) i x : NoDup vs -> nth_error vs i = Some x ->
    sget (add_to_scope pyfalse (skipn (length args) vs) (zip_dict vs args) []) x = Some (nth i args pyfalse).
  Proof.
    intros Hnd Hx. unfold add_to_scope. rewrite sget_add_kw by apply zip_dict_wf.
    destruct (nth_error args i) as [a|] eqn:Ea.
    - rewrite (zip_dict_get vs args i x a) by assumption. f_equal. symmetry. apply nth_error_nth. exact Ea.
    - apply nth_error_None in Ea. rewrite nth_overflow by assumption.
      destruct (dget String.eqb (zip_dict vs args) x) eqn:E.
      + exfalso. assert (In x (map fst (zip_dict vs args))) as Hi by (apply sget_in; unfold sget; rewrite E; discriminate).
        apply zip_dict_keys in Hi. apply In_nth_error in Hi. destruct Hi as (j & Hj).
        assert (j < length (firstn (length args) vs))%nat as Hlt by (apply nth_error_Some; congruence).
        rewrite firstn_length in Hlt.
        assert (nth_error vs j = Some x) as Hj'.
        { rewrite <- (firstn_skipn (length args) vs). rewrite nth_error_app1 by (rewrite firstn_length; lia). exact Hj. }
        assert (i = j) by (eapply (proj1 (NoDup_nth_error vs) Hnd); [apply nth_error_Some; congruence|congruence]). lia.
      + apply sget_add_args.
        apply nth_error_In with (n := (i - length args)%nat).
        rewrite <- (firstn_skipn (length args) vs) in Hx.
        destruct (Nat.le_gt_cases (length vs) (length args)) as [Hle|Hgt].
        * rewrite nth_error_app2 in Hx by (rewrite firstn_length; lia).
          rewrite skipn_all2 in Hx by lia. destruct (i - _)%nat; discriminate.
        * rewrite nth_error_app2 in Hx by (rewrite firstn_length; lia). rewrite firstn_length in Hx.
          replace (i - length args)%nat with (i - Nat.min (length args) (length vs))%nat by lia. exact Hx.
  Qed.

  Lemma not_reserved vs (args : list V) : ~ In "self"%string vs -> ~ In "scope"%string vs -> bad_keyword (zip_dict vs args) = false.
  Proof.
    intros H1 H2. unfold bad_keyword. apply not_true_is_false. intros H. apply existsb_exists in H.
    destruct H as ([k v] & Hin & Hk). cbn in Hk. apply (in_map fst) in Hin. cbn in Hin. apply zip_dict_keys in Hin.
    assert (In k vs) as Hv.
    { rewrite <- (firstn_skipn (length args) vs). apply in_or_app. left; exact Hin. }
    apply orb_true_iff in Hk. destruct Hk as [Hk|Hk]; apply String.eqb_eq in Hk; subst; contradiction.
  Qed.

  Lemma bind_params_ok kind vs args passed s : NoDup vs -> ~ In "self"%string vs -> ~ In "scope"%string vs ->
    exists s1, bind_params pyfalse kind vs args passed s = (s1, Ok passed) /\
      pcounts s1 = pcounts s ++ [zlen args] /\
      forall i x, nth_error vs i = Some x -> mem_get (mem s1) x = Ok (nth i args pyfalse).
  Proof.
    intros Hnd H1 H2. pose proof (not_reserved vs args H1 H2) as Hr.
    unfold bind_params. destruct kind.
    - unfold add_local. cbn [push_frame mem pushscope local_scopes public_scopes pcounts nparams].
      rewrite upd_last_rev, rev_app_distr. cbn [rev app rbind]. rewrite Hr.
      eexists; split; [reflexivity|]. split; [reflexivity|]. cbn [mem]. intros i x Hx.
      unfold mem_get, get_scope; cbn [local_scopes public_scopes]. rewrite rev_involutive, rev_app_distr. cbn [rev app].
      rewrite shas_sget, !(bound_value vs args i x) by assumption. reflexivity.
    - unfold add_private. cbn [push_frame mem pushscope local_scopes public_scopes pcounts nparams].
      rewrite upd_last_rev, rev_app_distr. cbn [rev app rbind]. rewrite Hr.
      eexists; split; [reflexivity|]. split; [reflexivity|]. cbn [mem]. intros i x Hx.
      unfold mem_get, get_scope; cbn [local_scopes public_scopes].
      rewrite rev_involutive, !rev_app_distr. cbn [rev app].
      unfold shas at 1. cbn [dmem dget]. unfold first_with. cbn [find].
      rewrite shas_sget, (bound_value vs args i x) by assumption. cbn [option_map].
      rewrite (bound_value vs args i x) by assumption. reflexivity.
  Qed.

  Lemma leave_after_read (s s1 : rtv) d1 d2 n :
    mem s1 = mkMem (public_scopes (mem s) ++ [d1]) (local_scopes (mem s) ++ [d2]) -> pcounts s1 = pcounts s ++ [n] ->
    exists s3, leave s1 = Ok s3.
  Proof.
    intros E1 E2. destruct (leave_below s s1 s1 d1 d2 n 0 E1 E2 (below_refl s1)) as (s3 & E & _). eauto.
  Qed.

  (** Parameter i of a procedure (or of a method) called with args. *)
  Definition read_param (x : name) : prog V :=
    POp (UGet x) (fun r => match r with Ok (RVal v) => PRet v | Ok _ => PRaise TypeError | Err e => PRaise e end).

  Lemma call_reads_param kind vs fn args s i x :
    NoDup vs -> ~ In "self"%string vs -> ~ In "scope"%string vs ->
    co_varnames fn <> ["self"%string] -> co_argcount fn = 0%nat ->
    nth_error vs i = Some x ->
    fst (exec pyfalse (PCall kind vs fn args (read_param x) (fun r => match r with Ok v => PRet v | Err e => PRaise e end)) s)
    = Ok (nth i args pyfalse).
  Proof.
    intros Hnd H1 H2 Hm Ha Hx. cbn [exec]. unfold scoper, enter.
    destruct vs as [|v0 vs]; [destruct i; discriminate|].
    assert (is_method fn = false) as ->.
    { unfold is_method. revert Hm. destruct (co_varnames fn) as [|y [|]]; auto. intros Hm. apply String.eqb_neq. intros ->. apply Hm. reflexivity. }
    destruct (bind_params_ok kind (v0 :: vs) args [] s Hnd H1 H2) as (s1 & Hb & Hpc & Hget).
    pose proof (bind_params_shape _ _ _ _ _ _ _ Hb) as (d1 & d2 & E1 & E2).
    rewrite Hb. rewrite Ha. cbn [length Nat.eqb]. cbn [read_param exec op_of mem_step].
    rewrite (Hget i x Hx). cbn [rmap exec].
    destruct (leave_after_read s (mkRt (mem s1) (pcounts s1) (nparams s1)) d1 d2 (zlen args)) as (s3 & ->); auto.
  Qed.

  Lemma call_pcount kind vs fn args s (g : res Z -> V) :
    NoDup vs -> vs <> [] -> ~ In "self"%string vs -> ~ In "scope"%string vs ->
    co_varnames fn <> ["self"%string] -> co_argcount fn = 0%nat ->
    fst (exec pyfalse (PCall kind vs fn args (PPcount (fun r => PRet (g r))) (fun r => match r with Ok v => PRet v | Err e => PRaise e end)) s)
    = Ok (g (Ok (zlen args))).
  Proof.
    intros Hnd Hne H1 H2 Hm Ha. cbn [exec]. unfold scoper, enter.
    destruct vs as [|v0 vs]; [congruence|].
    assert (is_method fn = false) as ->.
    { unfold is_method. revert Hm. destruct (co_varnames fn) as [|y [|]]; auto. intros Hm. apply String.eqb_neq. intros ->. apply Hm. reflexivity. }
    destruct (bind_params_ok kind (v0 :: vs) args [] s Hnd H1 H2) as (s1 & Hb & Hpc & Hget).
    pose proof (bind_params_shape _ _ _ _ _ _ _ Hb) as (d1 & d2 & E1 & E2).
    rewrite Hb, Ha. cbn [length Nat.eqb]. cbn [exec].
    destruct (leave_after_read s s1 d1 d2 (zlen args) E1 E2) as (s3 & ->). cbn [fst].
    f_equal. f_equal. unfold pcount. rewrite Hpc. unfold py_nth. rewrite zlen_app.
    change (zlen [zlen args]) with 1. pose proof (zlen_nonneg (pcounts s)) as Hz.
    change (-1 <? 0) with true. cbv iota.
    destruct (Z.ltb_spec (-1 + (zlen (pcounts s) + 1)) 0); [lia|].
    destruct (Z.leb_spec (zlen (pcounts s) + 1) (-1 + (zlen (pcounts s) + 1))); [lia|]. cbn [orb].
    replace (Z.to_nat (-1 + (zlen (pcounts s) + 1))) with (length (pcounts s) + 0)%nat by (unfold zlen; lia).
    rewrite nth_error_app2 by lia. replace (length (pcounts s) + 0 - length (pcounts s))%nat with 0%nat by lia. reflexivity.
  Qed.

  (** The same for methods whose only Python local is self. *)
  Lemma method_reads_param kind vs fn self args s i x :
    NoDup vs -> ~ In "self"%string vs -> ~ In "scope"%string vs ->
    co_varnames fn = ["self"%string] -> co_argcount fn = 1%nat ->
    nth_error vs i = Some x ->
    fst (exec pyfalse (PCall kind vs fn (self :: args) (read_param x) (fun r => match r with Ok v => PRet v | Err e => PRaise e end)) s)
    = Ok (nth i args pyfalse).
  Proof.
    intros Hnd H1 H2 Hm Ha Hx. cbn [exec]. unfold scoper, enter.
    destruct vs as [|v0 vs]; [destruct i; discriminate|].
    assert (is_method fn = true) as -> by (unfold is_method; rewrite Hm; reflexivity).
    destruct (bind_params_ok kind (v0 :: vs) args [self] s Hnd H1 H2) as (s1 & Hb & Hpc & Hget).
    pose proof (bind_params_shape _ _ _ _ _ _ _ Hb) as (d1 & d2 & E1 & E2).
    rewrite Hb. rewrite Ha. cbn [length Nat.eqb]. cbn [read_param exec op_of mem_step].
    rewrite (Hget i x Hx). cbn [rmap exec].
    destruct (leave_after_read s (mkRt (mem s1) (pcounts s1) (nparams s1)) d1 d2 (zlen args)) as (s3 & ->); auto.
  Qed.
End P.

Section P2.
  Context {V : Type} (pyfalse : V).
  Notation rtv := (rt V).
  Notation sc := (@scope V).

  (** The state in which the body of a plain procedure starts. *)
  Lemma enter_plain kind vs fn args (s : rtv) :
    NoDup vs -> vs <> [] -> ~ In "self"%string vs -> ~ In "scope"%string vs ->
    co_varnames fn <> ["self"%string] ->
    exists d1 d2 s1, enter pyfalse kind vs fn args s = (s1, Ok []) /\
      mem s1 = mkMem (public_scopes (mem s) ++ [d1]) (local_scopes (mem s) ++ [d2]) /\
      pcounts s1 = pcounts s ++ [zlen args] /\
      (forall x, ~ In x vs -> sget d1 x = None /\ sget d2 x = None) /\
      wfd d1 /\ wfd d2.
  Proof.
    intros Hnd Hne H1 H2 Hm. pose proof (not_reserved vs args H1 H2) as Hr. unfold enter.
    destruct vs as [|v0 vs]; [congruence|].
    assert (is_method fn = false) as ->.
    { unfold is_method. revert Hm. destruct (co_varnames fn) as [|y [|]]; auto. intros Hm. apply String.eqb_neq.
      intros ->. apply Hm. reflexivity. }
    remember (v0 :: vs) as ws eqn:Ews. clear Ews Hne Hm v0 vs.
    set (d := add_to_scope pyfalse (skipn (length args) ws) (zip_dict ws args) []).
    assert (forall x, ~ In x ws -> sget d x = None) as Hd.
    { intros x Hx. unfold d. rewrite sget_add_other; [reflexivity| |].
      - intros Hi. apply Hx. rewrite <- (firstn_skipn (length args) ws). apply in_or_app; right; exact Hi.
      - intros Hi. apply Hx. apply zip_dict_keys in Hi. rewrite <- (firstn_skipn (length args) ws).
        apply in_or_app; left; exact Hi. }
    assert (wfd d) as Hwd by (apply wfd_add; constructor).
    unfold bind_params. destruct kind.
    - unfold add_local. cbn [push_frame mem pushscope local_scopes public_scopes pcounts nparams].
      rewrite upd_last_rev, rev_app_distr. cbn [rev app rbind]. rewrite Hr, rev_involutive. fold d.
      exists [], d. eexists. split; [reflexivity|]. cbn [mem pcounts]. split; [reflexivity|]. split; [reflexivity|].
      split; [intros x Hx; split; [reflexivity|auto]|]. split; [constructor|exact Hwd].
    - unfold add_private. cbn [push_frame mem pushscope local_scopes public_scopes pcounts nparams].
      rewrite upd_last_rev, rev_app_distr. cbn [rev app rbind]. rewrite Hr, rev_involutive. fold d.
      exists d, []. eexists. split; [reflexivity|]. cbn [mem pcounts]. split; [reflexivity|]. split; [reflexivity|].
      split; [intros x Hx; split; [auto|reflexivity]|]. split; [exact Hwd|constructor].
  Qed.

  Lemma mem_get_pushed (m : memvar V) d1 d2 x : sget d1 x = None -> sget d2 x = None ->
    mem_get (mkMem (public_scopes m ++ [d1]) (local_scopes m ++ [d2])) x = mem_get (mkMem (public_scopes m) []) x.
  Proof.
    intros E1 E2. unfold mem_get, get_scope. cbn [public_scopes local_scopes]. rewrite !rev_app_distr. cbn [rev app].
    rewrite shas_sget, E2. unfold first_with. cbn [find]. rewrite shas_sget, E1. reflexivity.
  Qed.

  (** C06: what a callee sees of a name that is not one of its parameters. *)
  Lemma callee_sees kind vs fn args (s : rtv) x :
    NoDup vs -> vs <> [] -> ~ In "self"%string vs -> ~ In "scope"%string vs ->
    co_varnames fn <> ["self"%string] -> co_argcount fn = 0%nat -> ~ In x vs ->
    fst (exec pyfalse (PCall kind vs fn args (read_param x) (fun r => match r with Ok v => PRet v | Err e => PRaise e end)) s)
    = mem_get (mkMem (public_scopes (mem s)) []) x.
  Proof.
    intros Hnd Hne H1 H2 Hm Ha Hx.
    destruct (enter_plain kind vs fn args s Hnd Hne H1 H2 Hm) as (d1 & d2 & s1 & He & Em & Ep & Hd & _).
    destruct (Hd x Hx) as [E1 E2].
    cbn [exec]. rewrite (scoper_unfold pyfalse kind vs fn args _ s s1 _ He), Ha. cbn [length Nat.eqb].
    cbn [read_param exec op_of mem_step]. rewrite Em, (mem_get_pushed (mem s) d1 d2 x E1 E2), <- Em.
    destruct (mem_get (mkMem (public_scopes (mem s)) []) x) as [v|e]; cbn [rmap exec].
    - destruct (leave_after_read s (mkRt (mem s1) (pcounts s1) (nparams s1)) d1 d2 (zlen args)) as (s3 & ->); auto.
    - reflexivity.
  Qed.

  Definition write_var (x : name) (v : V) : prog V :=
    POp (USet x v) (fun r => match r with Ok _ => PRet v | Err e => PRaise e end).

  Lemma first_with_rev_app x l (d1 : sc) : sget d1 x = None -> first_with (rev (l ++ [d1])) x = first_with (rev l) x.
  Proof. intros E. rewrite rev_app_distr. unfold first_with. cbn [rev app find]. rewrite shas_sget, E. reflexivity. Qed.

  Lemma upd_first_get x v l : (exists d, first_with l x = Some d) ->
    exists d', first_with (upd_first l x (fun d : sc => sset d x v)) x = Some d' /\ sget d' x = Some v.
  Proof.
    unfold first_with. induction l as [|d l IH]; intros (e & E); [discriminate|]. cbn [find upd_first] in *.
    destruct (shas d x) eqn:Ed.
    - exists (sset d x v). cbn [find]. rewrite shas_sget, sget_sset, String.eqb_refl. split; reflexivity.
    - cbn [find]. rewrite Ed. apply IH. eauto.
  Qed.
  Lemma first_with_has l x (d : sc) : first_with l x = Some d -> exists w, sget d x = Some w.
  Proof.
    unfold first_with. intros H. apply find_some in H. destruct H as [_ H]. rewrite shas_sget in H.
    destruct (sget d x); [eauto|discriminate].
  Qed.

  (** C06: a callee's write to a variable of an outer frame is what the caller reads afterwards. *)
  Lemma callee_write_persists kind vs fn args (s : rtv) x v old :
    NoDup vs -> vs <> [] -> ~ In "self"%string vs -> ~ In "scope"%string vs ->
    co_varnames fn <> ["self"%string] -> co_argcount fn = 0%nat -> ~ In x vs ->
    mem_get (mkMem (public_scopes (mem s)) []) x = Ok old ->
    (forall d, In d (local_scopes (mem s)) -> sget d x = None) ->
    fst (exec pyfalse (PCall kind vs fn args (write_var x v)
            (fun r => match r with Ok _ => read_param x | Err e => PRaise e end)) s) = Ok v.
  Proof.
    intros Hnd Hne H1 H2 Hm Ha Hx Hold Hloc.
    destruct (enter_plain kind vs fn args s Hnd Hne H1 H2 Hm) as (d1 & d2 & s1 & He & Em & Ep & Hd & _).
    destruct (Hd x Hx) as [E1 E2].
    assert (exists d, first_with (rev (public_scopes (mem s))) x = Some d) as (d & Hd0).
    { unfold mem_get, get_scope in Hold. cbn [public_scopes local_scopes rev] in Hold.
      destruct (first_with (rev (public_scopes (mem s))) x) as [d|]; [eauto|discriminate]. }
    destruct (first_with_has _ _ _ Hd0) as (w & Hw).
    cbn [exec]. rewrite (scoper_unfold pyfalse kind vs fn args _ s s1 _ He), Ha. cbn [length Nat.eqb].
    cbn [write_var exec op_of mem_step].
    assert (mem_set (mem s1) x v = Ok (mkMem (rev (upd_first (rev (public_scopes (mem s))) x (fun d => sset d x v)) ++ [d1])
                                            (local_scopes (mem s) ++ [d2]))) as Hset.
    { rewrite Em. unfold mem_set, get_scope. cbn [public_scopes local_scopes].
      rewrite (rev_app_distr (local_scopes _)). cbn [rev app].
      rewrite shas_sget, E2, (first_with_rev_app x _ d1 E1), Hd0. cbn [option_map].
      destruct d as [|kv d]; [discriminate|]. unfold mutate. cbn [public_scopes local_scopes].
      rewrite rev_app_distr. cbn [rev app upd_first]. rewrite shas_sget, E1. cbn [rev]. reflexivity. }
    rewrite Hset. cbn [upd_state exec].
    unfold leave, popscope. cbn [mem pcounts nparams public_scopes local_scopes].
    rewrite Ep, !rev_app_distr. cbn [rev app rbind]. rewrite !rev_involutive.
    cbn [read_param exec op_of mem_step mem]. unfold mem_get, get_scope. cbn [public_scopes local_scopes].
    rewrite !rev_involutive.
    destruct (upd_first_get x v (rev (public_scopes (mem s))) (ex_intro _ d Hd0)) as (d' & Hf & Hv).
    rewrite Hf.
    assert (match rev (local_scopes (mem s)) with
      | [] => option_map (pair false) (Some d')
      | e :: _ => if shas e x then Some (true, e) else option_map (pair false) (Some d')
      end = Some (false, d')) as ->.
    { destruct (rev (local_scopes (mem s))) as [|e r] eqn:Er; [reflexivity|].
      rewrite shas_sget, Hloc; [reflexivity|]. apply in_rev. rewrite Er. left; reflexivity. }
    rewrite Hv. reflexivity.
  Qed.
End P2.
