From Verif Require Import PyBase M_Memvar S_Memvar.
Open Scope res_scope.

Section P.
  Context {V : Type} (pyfalse : V).
  Notation mem := (memvar V).
  Notation sc := (@scope V).

  Definition agrees (d : sc) (b : @bindings V) : Prop := forall k, sget d k = b k.

  (** Representation relation, lists innermost first. *)
  Definition Rl (ps ls : list sc) (c : @chain V) : Prop :=
    Forall2 (fun d f => agrees d (priv f)) ps c /\ Forall2 (fun d f => agrees d (loc f)) ls c.
  Definition R (m : mem) (c : chain) : Prop := Rl (rev (public_scopes m)) (rev (local_scopes m)) c.

  Lemma sget_sset (d : sc) k v k' : sget (sset d k v) k' = if String.eqb k' k then Some v else sget d k'.
  Proof. apply dget_dset. intros; apply String.eqb_spec. Qed.
  Lemma sget_sdel (d : sc) k k' : sget (sdel d k) k' = if String.eqb k' k then None else sget d k'.
  Proof. apply dget_ddel. intros; apply String.eqb_spec. Qed.
  Lemma shas_sget (d : sc) k : shas d k = match sget d k with Some _ => true | None => false end.
  Proof. reflexivity. Qed.

  Lemma agrees_set d b k v : agrees d b -> agrees (sset d k v) (bind b k (Some v)).
  Proof. intros H x. rewrite sget_sset. unfold bind. destruct (String.eqb x k); auto. Qed.
  Lemma agrees_del d b k : agrees d b -> agrees (sdel d k) (bind b k None).
  Proof. intros H x. rewrite sget_sdel. unfold bind. destruct (String.eqb x k); auto. Qed.
  Lemma agrees_empty : agrees [] no_bindings.
  Proof. intros x. reflexivity. Qed.

  Lemma agrees_declare args kw d b : agrees d b ->
    agrees (add_to_scope pyfalse args kw d) (declare pyfalse args kw b).
  Proof.
    unfold add_to_scope, declare. intros H.
    assert (agrees (fold_left (fun d k => sset d k pyfalse) args d)
                   (fold_left (fun b k => bind b k (Some pyfalse)) args b)) as H1.
    { revert d b H. induction args as [|a args IH]; cbn [fold_left]; intros d b H; [exact H|].
      apply IH. apply agrees_set, H. }
    revert H1. generalize (fold_left (fun d k => sset d k pyfalse) args d).
    generalize (fold_left (fun b k => bind b k (Some pyfalse)) args b).
    clear. induction kw as [|[k v] kw IH]; cbn [fold_left fst snd]; intros b d H; [exact H|].
    apply IH. apply agrees_set, H.
  Qed.

  Lemma first_with_spec ps c k : Forall2 (fun d f => agrees d (@priv V f)) ps c ->
    match first_with ps k with
    | Some d => d <> [] /\ sget d k = priv_lookup c k /\ priv_lookup c k <> None
    | None => priv_lookup c k = None
    end.
  Proof.
    induction 1 as [|d f ps c Hd Hf IH]; [reflexivity|].
    unfold first_with in *; cbn [find priv_lookup]. rewrite shas_sget, (Hd k).
    destruct (priv f k) as [v|] eqn:E.
    - split; [|split; [rewrite (Hd k); assumption|discriminate]].
      intros ->. specialize (Hd k). rewrite E in Hd. discriminate.
    - exact IH.
  Qed.

  Lemma upd_first_R ps c k g v :
    Forall2 (fun d f => agrees d (@priv V f)) ps c ->
    (forall d b, agrees d b -> agrees (g d) (bind b k v)) ->
    Forall2 (fun d f => agrees d (priv f)) (upd_first ps k g) (priv_rebind c k v).
  Proof.
    intros H Hg. induction H as [|d f ps c Hd Hf IH]; [constructor|].
    cbn [upd_first priv_rebind]. rewrite shas_sget, (Hd k).
    destruct (priv f k) as [x|]; constructor; auto. apply Hg. exact Hd.
  Qed.
  Lemma priv_rebind_loc ls c k v : Forall2 (fun d f => agrees d (@loc V f)) ls c ->
    Forall2 (fun d f => agrees d (loc f)) ls (priv_rebind c k v).
  Proof.
    induction 1 as [|d f ls c Hd Hf IH]; [constructor|]. cbn [priv_rebind].
    destruct (priv f k); constructor; auto.
  Qed.

  (** get_scope against lookup *)
  Lemma get_scope_spec m c k : R m c ->
    match get_scope m k with
    | Some (true, d) => exists f r, c = f :: r /\ d <> [] /\ sget d k = loc f k /\ loc f k <> None /\ lookup c k = loc f k
    | Some (false, d) => exists f r, c = f :: r /\ d <> [] /\ loc f k = None /\ sget d k = priv_lookup c k /\
                                     priv_lookup c k <> None /\ lookup c k = priv_lookup c k
    | None => lookup c k = None /\ (forall f r, c = f :: r -> loc f k = None)
    end.
  Proof.
    intros [Hp Hl]. unfold get_scope.
    pose proof (first_with_spec _ _ k Hp) as Hfw.
    destruct Hl as [|d f ls c' Hd Hl].
    - inversion Hp as [Hp1|]; subst. cbn. split; [reflexivity|]. intros; discriminate.
    - rewrite shas_sget, (Hd k). destruct (loc f k) as [v|] eqn:E.
      + exists f, c'. split; [reflexivity|]. split.
        { intros ->. specialize (Hd k). rewrite E in Hd. discriminate. }
        split; [rewrite (Hd k), E; reflexivity|]. split; [congruence|]. unfold lookup. rewrite E. reflexivity.
      + destruct (first_with _ k) as [d'|]; cbn [option_map].
        * destruct Hfw as (H1 & H2 & H3). exists f, c'.
          repeat (split; [assumption || reflexivity|]). unfold lookup. rewrite E. reflexivity.
        * split; [unfold lookup; rewrite E; exact Hfw|].
          intros f0 r0 [= <- <-]. exact E.
  Qed.

  Lemma get_refines m c k : R m c ->
    mem_get m k = match lookup c k with Some v => Ok v | None => Err NameError end.
  Proof.
    intros HR. pose proof (get_scope_spec m c k HR) as H. unfold mem_get.
    destruct (get_scope m k) as [[[|] d]|].
    - destruct H as (f & r & -> & _ & H1 & H2 & H3). rewrite H3, H1. destruct (loc f k); congruence.
    - destruct H as (f & r & -> & _ & _ & H1 & H2 & H3). rewrite H3, H1. destruct (priv_lookup _ k); congruence.
    - destruct H as [-> _]. reflexivity.
  Qed.

  Lemma upd_last_rev (l : list sc) f : upd_last l f = match rev l with [] => Err IndexError | d :: r => Ok (rev (f d :: r)) end.
  Proof. reflexivity. Qed.

  Lemma mutate_R m c k g v loc_ d : R m c ->
    (forall d b, agrees d b -> agrees (g d) (bind b k v)) ->
    get_scope m k = Some (loc_, d) -> R (mutate m loc_ k g) (rebind c k v).
  Proof.
    intros HR Hg E. pose proof (get_scope_spec m c k HR) as H. rewrite E in H.
    destruct HR as [Hp Hl]. destruct loc_.
    - destruct H as (f & r & -> & _ & _ & H2 & _).
      inversion Hl as [|d0 f0 ls c' Hd0 Hl0 E0 E1]; subst.
      unfold mutate. rewrite upd_last_rev, <- E0. unfold R, Rl; cbn [public_scopes local_scopes].
      rewrite rev_involutive. unfold rebind. destruct (loc f k) as [x|] eqn:Ex; [|congruence].
      split.
      + inversion Hp as [|d1 f1 ps c1 Hd1 Hp1 E2 E3]; subst. constructor; assumption.
      + constructor; [|assumption]. cbn [loc set_loc]. apply Hg, Hd0.
    - destruct H as (f & r & -> & _ & H2 & _).
      unfold mutate, R, Rl; cbn [public_scopes local_scopes]. rewrite rev_involutive.
      unfold rebind. rewrite H2. split; [apply upd_first_R; assumption|apply priv_rebind_loc; assumption].
  Qed.

  Lemma lookup_loc_priv (c : @chain V) k : lookup c k = None -> rebind c k None = c.
  Proof.
    destruct c as [|f r]; [reflexivity|]. unfold lookup, rebind. destruct (loc f k); [discriminate|].
    generalize (f :: r) as c. induction c as [|g c IH]; [reflexivity|].
    cbn [priv_lookup priv_rebind]. destruct (priv g k); [discriminate|]. intros H. rewrite IH; auto.
  Qed.

  Lemma del_R m c k : R m c -> R (mem_del m k) (rebind c k None).
  Proof.
    intros HR. pose proof (get_scope_spec m c k HR) as H. unfold mem_del.
    destruct (get_scope m k) as [[l d]|] eqn:E.
    - assert (d <> []) as Hd by (destruct l; destruct H as (f & r & _ & Hd & _); exact Hd).
      destruct d as [|x d']; [congruence|].
      apply (mutate_R m c k _ None l (x :: d')); auto. intros; apply agrees_del; assumption.
    - destruct H as [H _]. rewrite lookup_loc_priv by assumption. exact HR.
  Qed.

  Lemma set_R m f r k v : R m (f :: r) ->
    exists m', mem_set m k v = Ok m' /\
      R m' (match lookup (f :: r) k with
            | Some _ => rebind (f :: r) k (Some v)
            | None => set_priv f (bind (priv f) k (Some v)) :: r
            end).
  Proof.
    intros HR. pose proof (get_scope_spec m _ k HR) as H. unfold mem_set.
    destruct (get_scope m k) as [[l d]|] eqn:E.
    - assert (d <> [] /\ lookup (f :: r) k <> None) as [Hd Hlk].
      { destruct l.
        - destruct H as (f0 & r0 & [= <- <-] & Hd & _ & Hx & ->). auto.
        - destruct H as (f0 & r0 & [= <- <-] & Hd & _ & _ & Hx & ->). auto. }
      destruct d as [|x d']; [congruence|].
      destruct (lookup (f :: r) k); [|congruence].
      eexists; split; [reflexivity|]. apply (mutate_R m _ k _ (Some v) l (x :: d')); auto.
      intros; apply agrees_set; assumption.
    - destruct H as [-> _]. destruct HR as [Hp Hl].
      inversion Hp as [|d0 f0 ps c0 Hd0 Hp0 E0 E1]; subst.
      rewrite upd_last_rev, <- E0. cbn [rbind]. eexists; split; [reflexivity|].
      unfold R, Rl; cbn [public_scopes local_scopes]. rewrite rev_involutive. split.
      + constructor; [|assumption]. cbn [priv set_priv]. apply agrees_set, Hd0.
      + inversion Hl as [|d1 f1 ls c1 Hd1 Hl1 E2 E3]; subst. constructor; assumption.
  Qed.

  Lemma add_local_R m f r a kw : R m (f :: r) ->
    (reserved kw = true -> add_local pyfalse m a kw = Err TypeError) /\
    (reserved kw = false -> exists m', add_local pyfalse m a kw = Ok m' /\ R m' (set_loc f (declare pyfalse a kw (loc f)) :: r)).
  Proof.
    intros [Hp Hl]. unfold add_local. inversion Hl as [|d0 f0 ls c0 Hd0 Hl0 E0 E1]; subst.
    rewrite upd_last_rev, <- E0. cbn [rbind]. change (bad_keyword kw) with (reserved kw).
    split; intros ->; [reflexivity|]. eexists; split; [reflexivity|].
    unfold R, Rl; cbn [public_scopes local_scopes]. rewrite rev_involutive. split.
    - inversion Hp as [|d1 f1 ps c1 Hd1 Hp1 E2 E3]; subst. constructor; assumption.
    - constructor; [|assumption]. cbn [loc set_loc]. apply agrees_declare, Hd0.
  Qed.

  Lemma add_private_R m f r a kw : R m (f :: r) ->
    (reserved kw = true -> add_private pyfalse m a kw = Err TypeError) /\
    (reserved kw = false -> exists m', add_private pyfalse m a kw = Ok m' /\ R m' (set_priv f (declare pyfalse a kw (priv f)) :: r)).
  Proof.
    intros [Hp Hl]. unfold add_private. inversion Hp as [|d0 f0 ls c0 Hd0 Hl0 E0 E1]; subst.
    rewrite upd_last_rev, <- E0. cbn [rbind]. change (bad_keyword kw) with (reserved kw).
    split; intros ->; [reflexivity|]. eexists; split; [reflexivity|].
    unfold R, Rl; cbn [public_scopes local_scopes]. rewrite rev_involutive. split.
    - constructor; [|assumption]. cbn [priv set_priv]. apply agrees_declare, Hd0.
    - inversion Hl as [|d1 f1 ps c1 Hd1 Hp1 E2 E3]; subst. constructor; assumption.
  Qed.

  Lemma on_outermost_snoc (c : @chain V) x g : on_outermost (c ++ [x]) g = c ++ [g x].
  Proof.
    induction c as [|y c IH]; [reflexivity|]. cbn [app on_outermost]. rewrite IH.
    destruct (c ++ [x]) eqn:E; [destruct c; discriminate|reflexivity].
  Qed.

  Lemma add_public_R m f r a kw : R m (f :: r) ->
    (reserved kw = true -> add_public pyfalse m a kw = Err TypeError) /\
    (reserved kw = false -> exists m', add_public pyfalse m a kw = Ok m' /\
       R m' (on_outermost (f :: r) (fun g => set_priv g (declare pyfalse a kw (priv g))))).
  Proof.
    intros [Hp Hl]. unfold add_public.
    destruct (public_scopes m) as [|d0 ps] eqn:Eps; [inversion Hp|].
    cbn [upd_head rbind]. change (bad_keyword kw) with (reserved kw).
    split; intros ->; [reflexivity|]. eexists; split; [reflexivity|].
    unfold R, Rl; cbn [public_scopes local_scopes]. cbn [rev] in *.
    apply Forall2_app_inv_l in Hp. destruct Hp as (c1 & c2 & H1 & H2 & Ec).
    inversion H2 as [|d1 f1 l1 c3 Hd1 H3 E1 E2]; subst. inversion H3; subst.
    rewrite Ec in *. rewrite on_outermost_snoc. split.
    - apply Forall2_app; [assumption|]. constructor; [|constructor]. cbn [priv set_priv]. apply agrees_declare, Hd1.
    - apply Forall2_app_inv_r in Hl. destruct Hl as (l1 & l2 & G1 & G2 & El). rewrite El.
      apply Forall2_app; [assumption|]. inversion G2 as [|x y l3 l4 Hxy G3]; subst. inversion G3; subst.
      constructor; [exact Hxy|constructor].
  Qed.

  Lemma push_R m c : R m c -> R (pushscope m) (mkFrame no_bindings no_bindings :: c).
  Proof.
    intros [Hp Hl]. unfold pushscope, R, Rl; cbn [public_scopes local_scopes].
    rewrite !rev_app_distr. cbn [rev app]. split; constructor; auto; apply agrees_empty.
  Qed.

  Lemma pop_R m f r : R m (f :: r) -> exists m', popscope m = Ok m' /\ R m' r.
  Proof.
    intros [Hp Hl]. unfold popscope.
    inversion Hp as [|d0 f0 ps c0 Hd0 Hp0 E0 E1]; subst. inversion Hl as [|d1 f1 ls c1 Hd1 Hl1 E2 E3]; subst.
    eexists; split; [reflexivity|]. unfold R, Rl; cbn [public_scopes local_scopes]. rewrite !rev_involutive. auto.
  Qed.

  (** release: repeatedly deleting every name of the two innermost dicts empties both. *)
  Lemma dels_R ks : forall m c, R m c -> R (fold_left mem_del ks m) (fold_left (fun c k => rebind c k None) ks c).
  Proof. induction ks as [|k ks IH]; cbn [fold_left]; intros m c H; [exact H|]. apply IH, del_R, H. Qed.

  Definition eqf (f g : @frame V) := (forall k, loc f k = loc g k) /\ (forall k, priv f k = priv g k).

  Lemma fold_rebind_local ks : forall f r, (forall k, In k ks -> loc f k <> None \/ priv f k <> None \/ True) ->
    NoDup ks -> (forall k, In k ks -> loc f k <> None) ->
    exists f', fold_left (fun c k => @rebind V c k None) ks (f :: r) = f' :: r /\ priv f' = priv f /\
      forall k, loc f' k = if in_dec string_dec k ks then None else loc f k.
  Proof.
    induction ks as [|k ks IH]; intros f r _ Hnd Hin.
    - exists f. cbn. auto.
    - inversion Hnd as [|? ? Hni Hnd']; subst. cbn [fold_left]. unfold rebind at 2.
      destruct (loc f k) as [v|] eqn:E; [|exfalso; apply (Hin k); [left; reflexivity|exact E]].
      destruct (IH (set_loc f (bind (loc f) k None)) r) as (f' & E1 & E2 & E3); auto.
      + intros k' Hk'. cbn [loc set_loc]. unfold bind. destruct (String.eqb_spec k' k) as [->|]; [contradiction|].
        apply Hin. right; assumption.
      + exists f'. split; [exact E1|]. split; [exact E2|]. intros k'. rewrite E3. cbn [loc set_loc]. unfold bind.
        destruct (in_dec string_dec k' ks) as [Hi|Hi].
        * destruct (in_dec string_dec k' (k :: ks)) as [|Hx]; [reflexivity|exfalso; apply Hx; right; assumption].
        * destruct (String.eqb_spec k' k) as [->|Hne].
          -- destruct (in_dec string_dec k (k :: ks)) as [|Hx]; [reflexivity|exfalso; apply Hx; left; reflexivity].
          -- destruct (in_dec string_dec k' (k :: ks)) as [[|]|]; [congruence|contradiction|reflexivity].
  Qed.

  Lemma fold_rebind_priv ks : forall f r, (forall k, loc f k = None) ->
    NoDup ks -> (forall k, In k ks -> priv f k <> None) ->
    exists f', fold_left (fun c k => @rebind V c k None) ks (f :: r) = f' :: r /\ loc f' = loc f /\
      forall k, priv f' k = if in_dec string_dec k ks then None else priv f k.
  Proof.
    induction ks as [|k ks IH]; intros f r Hloc Hnd Hin.
    - exists f. cbn. auto.
    - inversion Hnd as [|? ? Hni Hnd']; subst. cbn [fold_left]. unfold rebind at 2. rewrite Hloc. cbn [priv_rebind].
      destruct (priv f k) as [v|] eqn:E; [|exfalso; apply (Hin k); [left; reflexivity|exact E]].
      destruct (IH (set_priv f (bind (priv f) k None)) r) as (f' & E1 & E2 & E3); auto.
      + intros k' Hk'. cbn [priv set_priv]. unfold bind. destruct (String.eqb_spec k' k) as [->|]; [contradiction|].
        apply Hin. right; assumption.
      + exists f'. split; [exact E1|]. split; [exact E2|]. intros k'. rewrite E3. cbn [priv set_priv]. unfold bind.
        destruct (in_dec string_dec k' ks) as [Hi|Hi].
        * destruct (in_dec string_dec k' (k :: ks)) as [|Hx]; [reflexivity|exfalso; apply Hx; right; assumption].
        * destruct (String.eqb_spec k' k) as [->|Hne].
          -- destruct (in_dec string_dec k (k :: ks)) as [|Hx]; [reflexivity|exfalso; apply Hx; left; reflexivity].
          -- destruct (in_dec string_dec k' (k :: ks)) as [[|]|]; [congruence|contradiction|reflexivity].
  Qed.

  (** dicts built by the code never hold a key twice *)
  Definition wfd (d : sc) := NoDup (map fst d).
  Lemma sget_in (d : sc) k : In k (map fst d) <-> sget d k <> None.
  Proof.
    unfold sget. induction d as [|[a b] d IH]; cbn [map dget fst].
    - split; [intros []|congruence].
    - destruct (String.eqb_spec k a) as [->|Hn].
      + split; [discriminate|left; reflexivity].
      + rewrite <- IH. split; [intros [->|]; [congruence|assumption]|right; assumption].
  Qed.
  Lemma sset_keys (d : sc) k v : map fst (sset d k v) = if shas d k then map fst d else map fst d ++ [k].
  Proof.
    unfold shas, dmem. induction d as [|[a b] d IH]; cbn [sset dset dget map fst]; [reflexivity|].
    destruct (String.eqb_spec k a) as [->|]; cbn [map fst]; [reflexivity|].
    unfold sset in IH. rewrite IH. destruct (dget String.eqb d k); reflexivity.
  Qed.
  Lemma wfd_set d k v : wfd d -> wfd (sset d k v).
  Proof.
    unfold wfd. intros H. rewrite sset_keys. destruct (shas d k) eqn:E; [exact H|].
    apply NoDup_rev in H. rewrite <- (rev_involutive (map fst d ++ [k])). apply NoDup_rev.
    rewrite rev_app_distr. cbn. constructor; [|assumption].
    rewrite <- in_rev, sget_in. rewrite shas_sget in E. destruct (sget d k); congruence.
  Qed.
  Lemma wfd_del d k : wfd d -> wfd (sdel d k).
  Proof.
    unfold wfd, sdel. induction d as [|[a b] d IH]; cbn [ddel map fst]; intros H; [exact H|].
    inversion H as [|? ? Hni Hnd]; subst. destruct (String.eqb_spec k a) as [->|Hn]; [auto|].
    cbn [map fst]. constructor; [|auto]. intros Hi. apply Hni.
    apply sget_in. apply sget_in in Hi. change (ddel String.eqb d k) with (sdel d k) in Hi.
    rewrite sget_sdel in Hi. destruct (String.eqb a k); [congruence|assumption].
  Qed.
  Lemma wfd_add args kw d : wfd d -> wfd (add_to_scope pyfalse args kw d).
  Proof.
    unfold add_to_scope. intros H.
    assert (wfd (fold_left (fun d k => sset d k pyfalse) args d)) as H1.
    { revert d H. induction args as [|a args IH]; cbn [fold_left]; intros d H; [exact H|]. apply IH, wfd_set, H. }
    revert H1. generalize (fold_left (fun d k => sset d k pyfalse) args d). clear.
    induction kw as [|[k v] kw IH]; cbn [fold_left]; intros d H; [exact H|]. apply IH, wfd_set, H.
  Qed.

  Definition wfm (m : mem) := Forall wfd (public_scopes m) /\ Forall wfd (local_scopes m).

  Lemma Forall_rev' {A} (P : A -> Prop) l : Forall P l <-> Forall P (rev l).
  Proof.
    rewrite !Forall_forall. split; intros H x Hx; apply H; [apply in_rev in Hx; assumption|apply -> in_rev; assumption].
  Qed.
  Lemma wf_upd_last l f l' : (forall d, wfd d -> wfd (f d)) -> Forall wfd l -> upd_last l f = Ok l' -> Forall wfd l'.
  Proof.
    intros Hf Hl. unfold upd_last. apply Forall_rev' in Hl. destruct (rev l) as [|d r]; [discriminate|].
    intros E; apply (f_equal (fun x => match x with Ok y => y | Err _ => [] end)) in E; cbv beta iota in E; subst l'. inversion Hl; subst. apply -> (Forall_rev' wfd (f d :: r)). constructor; auto.
  Qed.
  Lemma wf_upd_first l k f : (forall d, wfd d -> wfd (f d)) -> Forall wfd l -> Forall wfd (upd_first l k f).
  Proof. intros Hf. induction 1 as [|d l Hd Hl IH]; cbn [upd_first]; [constructor|]. destruct (shas d k); constructor; auto. Qed.
  Lemma wf_mutate m b k f : (forall d, wfd d -> wfd (f d)) -> wfm m -> wfm (mutate m b k f).
  Proof.
    intros Hf [Hp Hl]. unfold mutate. destruct b.
    - destruct (upd_last (local_scopes m) f) as [l'|] eqn:E; split; cbn; auto. eapply wf_upd_last; eauto.
    - split; cbn; auto. rewrite <- Forall_rev'. apply wf_upd_first; auto. rewrite <- Forall_rev'. assumption.
  Qed.
  Lemma wf_del m k : wfm m -> wfm (mem_del m k).
  Proof.
    intros H. unfold mem_del. destruct (get_scope m k) as [[l [|x d]]|]; auto. apply wf_mutate; auto.
    intros; apply wfd_del; assumption.
  Qed.
  Lemma wf_step m o : wfm m -> wfm (snd (mem_step pyfalse m o)).
  Proof.
    intros H. destruct o; cbn [mem_step snd]; auto.
    - assert (forall m' : mem, match (do p <- upd_last (public_scopes m) (fun d : sc => sset d k v);
                Ok (mkMem p (local_scopes m))) with Ok m' => wfm m' | Err _ => True end) as Hfb.
      { intros _. destruct (upd_last (public_scopes m) _) as [p|] eqn:E; cbn [rbind]; [|exact I].
        destruct H as [Hp Hl]. split; cbn; auto. exact (wf_upd_last _ _ _ (fun d Hd => wfd_set d k v Hd) Hp E). }
      unfold mem_set. destruct (get_scope m k) as [[l [|x d]]|]; cbn [upd_state snd].
      + specialize (Hfb m). destruct (rbind _ _); cbn; auto.
      + apply wf_mutate; auto. intros; apply wfd_set; assumption.
      + specialize (Hfb m). destruct (rbind _ _); cbn; auto.
    - apply wf_del, H.
    - unfold add_local. destruct (upd_last _ _) as [l|] eqn:E; cbn [rbind upd_state snd]; auto.
      destruct (bad_keyword kw); cbn; auto. destruct H as [Hp Hl]. split; cbn; auto.
      refine (wf_upd_last _ _ _ (fun d Hd => wfd_add args kw d Hd) _ E); assumption.
    - unfold add_private. destruct (upd_last _ _) as [l|] eqn:E; cbn [rbind upd_state snd]; auto.
      destruct (bad_keyword kw); cbn; auto. destruct H as [Hp Hl]. split; cbn; auto.
      refine (wf_upd_last _ _ _ (fun d Hd => wfd_add args kw d Hd) _ E); assumption.
    - unfold add_public. destruct (public_scopes m) as [|d0 p0] eqn:E; cbn [upd_head rbind upd_state snd]; auto.
      destruct (bad_keyword kw); cbn; auto. destruct H as [Hp Hl]. rewrite E in Hp. inversion Hp; subst.
      split; cbn; auto. constructor; auto. apply wfd_add; assumption.
    - unfold mem_release. destruct (rev (local_scopes m)) as [|l ls]; cbn; auto.
      destruct (rev (public_scopes m)) as [|p ps]; cbn; auto.
      generalize (map fst l ++ map fst p). intros ks. revert m H. induction ks as [|k ks IH]; cbn [fold_left]; auto.
      intros m H. apply IH, wf_del, H.
    - destruct H. split; cbn; rewrite Forall_app; split; auto; constructor; auto; constructor.
    - unfold popscope. destruct H as [Hp Hl]. apply Forall_rev' in Hp. apply Forall_rev' in Hl.
      destruct (rev (public_scopes m)) eqn:E1; cbn.
      { split; apply Forall_rev'; rewrite ?E1; assumption. }
      destruct (rev (local_scopes m)) eqn:E2; cbn.
      { split; apply Forall_rev'; rewrite ?E1, ?E2; assumption. }
      inversion Hp; inversion Hl; subst. split; cbn; rewrite <- Forall_rev'; assumption.
  Qed.

  Lemma fold_rebind_ext ks : forall c c', Forall2 eqf c c' ->
    Forall2 eqf (fold_left (fun c k => @rebind V c k None) ks c) (fold_left (fun c k => rebind c k None) ks c').
  Proof.
    assert (forall k c c', Forall2 eqf c c' -> Forall2 eqf (priv_rebind c k None) (priv_rebind c' k None)) as Hp.
    { intros k c c'. induction 1 as [|f g c c' [H1 H2] Hc IH]; [constructor|]. cbn [priv_rebind].
      rewrite <- H2. destruct (priv f k); constructor; auto; [|split; assumption].
      split; cbn; auto. intros x. unfold bind. destruct (String.eqb x k); auto. }
    induction ks as [|k ks IH]; cbn [fold_left]; auto. intros c c' H. apply IH.
    destruct H as [|f g c c' [H1 H2] Hc]; [constructor|]. unfold rebind. rewrite <- H1.
    destruct (loc f k).
    - constructor; auto. split; cbn; auto. intros x. unfold bind. destruct (String.eqb x k); auto.
    - apply Hp. constructor; auto. split; assumption.
  Qed.

  Lemma R_ext m c c' : R m c -> Forall2 eqf c c' -> R m c'.
  Proof.
    intros [Hp Hl] H. split.
    - clear Hl. revert c' H. induction Hp as [|d f ps c Hd Hp IH]; intros c' H; inversion H as [|? g ? ? [H1 H2] Hc]; subst; constructor; auto.
      intros k. rewrite Hd. apply H2.
    - clear Hp. revert c' H. induction Hl as [|d f ps c Hd Hp IH]; intros c' H; inversion H as [|? g ? ? [H1 H2] Hc]; subst; constructor; auto.
      intros k. rewrite Hd. apply H1.
  Qed.

  Lemma release_R m f r : wfm m -> R m (f :: r) ->
    exists m', mem_release m = Ok m' /\ R m' (mkFrame no_bindings no_bindings :: r).
  Proof.
    intros [Wp Wl] HR. pose proof HR as [Hp Hl]. unfold mem_release.
    apply Forall_rev' in Wp. apply Forall_rev' in Wl.
    inversion Hp as [|p f0 ps c0 Hd0 Hp0 E0 E1]; subst. inversion Hl as [|l f1 ls c1 Hd1 Hl1 E2 E3]; subst.
    rewrite <- E0 in Wp. rewrite <- E2 in Wl. inversion Wp; inversion Wl; subst.
    eexists; split; [reflexivity|].
    pose proof (dels_R (map fst l ++ map fst p) m (f :: r) HR) as H. rewrite !fold_left_app in H.
    destruct (fold_rebind_local (map fst l) f r) as (f' & F1 & F2 & F3); auto.
    { intros k Hk. apply sget_in in Hk. rewrite <- (Hd1 k). exact Hk. }
    rewrite F1 in H.
    assert (forall k, loc f' k = None) as Hn.
    { intros k. rewrite F3. destruct (in_dec string_dec k (map fst l)) as [|Hi]; [reflexivity|].
      rewrite sget_in in Hi. rewrite <- (Hd1 k). destruct (sget l k); [exfalso; apply Hi; discriminate|reflexivity]. }
    destruct (fold_rebind_priv (map fst p) f' r) as (f2 & G1 & G2 & G3); auto.
    { intros k Hk. apply sget_in in Hk. rewrite F2, <- (Hd0 k). exact Hk. }
    rewrite G1 in H. rewrite fold_left_app. eapply R_ext; [exact H|]. constructor.
    - split; intros k; cbn [loc priv].
      + rewrite G2. apply Hn.
      + rewrite G3, F2. destruct (in_dec string_dec k (map fst p)) as [|Hi]; [reflexivity|].
        rewrite sget_in in Hi. rewrite <- (Hd0 k). destruct (sget p k); [exfalso; apply Hi; discriminate|reflexivity].
    - clear. induction r as [|x r IH]; constructor; auto. split; reflexivity.
  Qed.

  Lemma step_refines m c o : wfm m -> R m c ->
    fst (mem_step pyfalse m o) = fst (spec_step pyfalse c o) /\ R (snd (mem_step pyfalse m o)) (snd (spec_step pyfalse c o)).
  Proof.
    intros Hw HR. destruct c as [|f r].
    - assert (rev (public_scopes m) = [] /\ rev (local_scopes m) = []) as [E1 E2].
      { destruct HR as [Hp Hl]. inversion Hp; inversion Hl; auto. }
      assert (public_scopes m = []) as E3 by (rewrite <- (rev_involutive (public_scopes m)), E1; reflexivity).
      assert (local_scopes m = []) as E4 by (rewrite <- (rev_involutive (local_scopes m)), E2; reflexivity).
      destruct m as [pp ll]; cbn in E3, E4; subst. destruct o; cbn; split; try reflexivity; try exact HR.
      split; cbn; constructor; constructor.
    - destruct o; cbn [mem_step spec_step fst snd].
      + rewrite (get_refines m (f :: r)) by assumption. split; [|exact HR]. destruct (lookup (f :: r) k); reflexivity.
      + unfold mem_contains. rewrite (get_refines m (f :: r)) by assumption. split; [|exact HR]. destruct (lookup (f :: r) k); reflexivity.
      + destruct (set_R m f r k v HR) as (m' & E & H). rewrite E. cbn. split; [reflexivity|exact H].
      + split; [reflexivity|]. apply del_R, HR.
      + destruct (add_local_R m f r args kw HR) as [H1 H2]. destruct (reserved kw).
        * rewrite H1 by reflexivity. split; [reflexivity|exact HR].
        * destruct (H2 eq_refl) as (m' & E & H). rewrite E. split; [reflexivity|exact H].
      + destruct (add_private_R m f r args kw HR) as [H1 H2]. destruct (reserved kw).
        * rewrite H1 by reflexivity. split; [reflexivity|exact HR].
        * destruct (H2 eq_refl) as (m' & E & H). rewrite E. split; [reflexivity|exact H].
      + destruct (add_public_R m f r args kw HR) as [H1 H2]. destruct (reserved kw).
        * rewrite H1 by reflexivity. split; [reflexivity|exact HR].
        * destruct (H2 eq_refl) as (m' & E & H). rewrite E. split; [reflexivity|exact H].
      + destruct (release_R m f r Hw HR) as (m' & E & H). rewrite E. split; [reflexivity|exact H].
      + split; [reflexivity|]. apply push_R, HR.
      + destruct (pop_R m f r HR) as (m' & E & H). rewrite E. split; [reflexivity|exact H].
  Qed.

  Lemma run_refines os : forall m c, wfm m -> R m c ->
    fst (mem_run pyfalse m os) = fst (spec_run pyfalse c os) /\ R (snd (mem_run pyfalse m os)) (snd (spec_run pyfalse c os)).
  Proof.
    induction os as [|o os IH]; intros m c Hw HR; [split; [reflexivity|exact HR]|].
    cbn [mem_run spec_run]. pose proof (step_refines m c o Hw HR) as [H1 H2].
    pose proof (wf_step m o Hw) as Hw1.
    destruct (mem_step pyfalse m o) as [x m1]. destruct (spec_step pyfalse c o) as [y c1]. cbn [fst snd] in *. subst.
    specialize (IH m1 c1 Hw1 H2). destruct (mem_run pyfalse m1 os) as [xs m2]. destruct (spec_run pyfalse c1 os) as [ys c2].
    cbn [fst snd] in *. destruct IH as [-> H]. auto.
  Qed.

  Lemma init_R : R mem_init [].
  Proof. split; constructor. Qed.
  Lemma init_wf : wfm mem_init.
  Proof. split; constructor. Qed.
End P.
