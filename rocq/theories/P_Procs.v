From Verif Require Import PyBase M_Memvar M_Procs S_Procs S_Memvar P_Memvar.
Open Scope res_scope.

Lemma pyobj_eqb_spec a b : reflect (a = b) (pyobj_eqb a b).
Proof.
  destruct a as [x|x], b as [y|y]; cbn; try (constructor; congruence);
    destruct (String.eqb_spec x y); constructor; congruence.
Qed.
Lemma pyobj_eqb_refl a : pyobj_eqb a a = true.
Proof. destruct (pyobj_eqb_spec a a); congruence. Qed.

Lemma py_remove_in l x : In x l -> exists l', py_remove l x = Ok l'.
Proof.
  induction l as [|y l IH]; intros []; cbn [py_remove].
  - subst. rewrite pyobj_eqb_refl. eauto.
  - destruct (pyobj_eqb y x); [eauto|]. destruct IH as (l' & ->); auto. cbn. eauto.
Qed.
Lemma py_remove_notin l x : ~ In x l -> py_remove l x = Err ValueError.
Proof.
  induction l as [|y l IH]; intros H; [reflexivity|]. cbn [py_remove].
  destruct (pyobj_eqb_spec y x) as [->|]; [exfalso; apply H; left; reflexivity|].
  rewrite IH; [reflexivity|]. intros Hi; apply H; right; exact Hi.
Qed.
Lemma filter_notin l x : ~ In x l -> filter (fun y => negb (pyobj_eqb x y)) l = l.
Proof.
  induction l as [|y l IH]; intros H; [reflexivity|]. cbn [filter].
  destruct (pyobj_eqb_spec x y) as [->|]; [exfalso; apply H; left; reflexivity|]. cbn.
  rewrite IH; [reflexivity|]. intros Hi; apply H; right; exact Hi.
Qed.
Lemma py_remove_filter l x l' : NoDup l -> py_remove l x = Ok l' -> l' = filter (fun y => negb (pyobj_eqb x y)) l.
Proof.
  intros Hnd. revert l'. induction Hnd as [|y l Hni Hnd IH]; intros l'; cbn [py_remove]; [discriminate|].
  destruct (pyobj_eqb_spec y x) as [->|Hne].
  - intros [= <-]. cbn [filter]. rewrite pyobj_eqb_refl. cbn. symmetry. apply filter_notin, Hni.
  - destruct (py_remove l x) as [r|]; cbn; [|discriminate]. intros [= <-]. cbn [filter].
    destruct (pyobj_eqb_spec x y) as [->|]; [congruence|]. cbn. rewrite <- (IH r eq_refl). reflexivity.
Qed.
Lemma NoDup_filter' {A} (f : A -> bool) l : NoDup l -> NoDup (filter f l).
Proof. apply NoDup_filter. Qed.

Lemma set_procedure_filter l m a : NoDup l ->
  set_procedure l m a = m :: if a then filter (fun y => negb (pyobj_eqb m y)) l else [].
Proof.
  intros Hnd. unfold set_procedure. destruct a; [|reflexivity]. cbn [negb]. f_equal.
  destruct (existsb (pyobj_eqb m) l) eqn:E.
  - apply existsb_exists in E. destruct E as (y & Hy & E). destruct (pyobj_eqb_spec m y); [subst y|discriminate].
    destruct (py_remove_in l m Hy) as (l' & Hl). rewrite Hl. eapply py_remove_filter; eauto.
  - symmetry. apply filter_notin. intros Hi. apply not_true_iff_false in E. apply E. apply existsb_exists.
    exists m. split; [exact Hi|apply pyobj_eqb_refl].
Qed.
Lemma set_procedure_NoDup l m a : NoDup l -> NoDup (set_procedure l m a).
Proof.
  intros H. rewrite set_procedure_filter by assumption. constructor.
  - destruct a; [|intros []]. intros Hi. apply filter_In in Hi. destruct Hi as [_ Hi]. rewrite pyobj_eqb_refl in Hi. discriminate.
  - destruct a; [|constructor]. apply NoDup_filter', H.
Qed.
Lemma release_NoDup ms : forall l, NoDup l -> NoDup (snd (release_procedure l ms)).
Proof.
  induction ms as [|m ms IH]; intros l H; cbn [release_procedure]; [exact H|].
  destruct (py_remove l m) as [l'|] eqn:E; [|exact H]. apply IH.
  rewrite (py_remove_filter l m l' H E). apply NoDup_filter', H.
Qed.
Lemma run_NoDup cs : forall l, NoDup l -> NoDup (pcall_run l cs).
Proof.
  unfold pcall_run. induction cs as [|c cs IH]; intros l H; cbn [fold_left]; [exact H|]. apply IH.
  destruct c; cbn [pcall_step]; [apply set_procedure_NoDup|apply release_NoDup]; assumption.
Qed.

Lemma keep_first_NoDup l : NoDup (keep_first l).
Proof.
  induction l as [|x l IH]; cbn [keep_first]; constructor.
  - intros Hi. apply filter_In in Hi. destruct Hi as [_ Hi]. rewrite pyobj_eqb_refl in Hi. discriminate.
  - apply NoDup_filter', IH.
Qed.

Lemma search_order_run h : pcall_run [] (map (fun p => PSet (fst p) (snd p)) h) = search_order h.
Proof.
  unfold search_order, pcall_run. induction h as [|[m a] h IH] using rev_ind; [reflexivity|].
  rewrite map_app, fold_left_app, rev_app_distr. cbn [map fold_left rev app pcall_step fst snd in_force keep_first].
  rewrite IH, set_procedure_filter by apply keep_first_NoDup. f_equal.
  destruct a; reflexivity.
Qed.

Lemma release_in ms : forall l, NoDup l -> NoDup ms -> (forall m, In m ms -> In m l) ->
  release_procedure l ms = (Ok tt, filter (fun y => negb (existsb (pyobj_eqb y) ms)) l).
Proof.
  induction ms as [|m ms IH]; intros l Hl Hms Hin; cbn [release_procedure].
  - f_equal. cbn. clear. induction l; cbn; congruence.
  - inversion Hms as [|? ? Hni Hms']; subst.
    destruct (py_remove_in l m (Hin m (or_introl eq_refl))) as (l' & E). rewrite E.
    pose proof (py_remove_filter l m l' Hl E) as ->.
    rewrite IH; [|apply NoDup_filter', Hl|assumption|].
    + f_equal. clear. induction l as [|y l IH]; [reflexivity|]. cbn [filter existsb].
      destruct (pyobj_eqb_spec m y) as [->|Hne]; cbn [negb].
      * rewrite pyobj_eqb_refl. cbn. exact IH.
      * cbn [filter]. destruct (pyobj_eqb_spec y m); [congruence|]. cbn [orb]. rewrite IH. reflexivity.
    + intros x Hx. apply filter_In. split; [apply Hin; right; exact Hx|].
      destruct (pyobj_eqb_spec m x) as [->|]; [contradiction|reflexivity].
Qed.

Section L.
  Context {F : Type} (attr : pyobj -> name -> option F) (oth cls : pyobj -> name -> bool).
  Lemma module_lookup_first mods key f :
    module_lookup attr oth cls mods key = Some f <-> first_provider (module_provides attr oth cls) mods key f.
  Proof.
    split.
    - induction mods as [|m mods IH]; cbn [module_lookup]; [discriminate|].
      destruct (module_provides attr oth cls m key) as [g|] eqn:E.
      + intros [= ->]. exists [], m, mods. repeat split; auto. intros m' [].
      + intros H. destruct (IH H) as (b & x & a & -> & Hx & Hb). exists (m :: b), x, a. repeat split; auto.
        intros m' [<-|Hi]; auto.
    - intros (b & x & a & -> & Hx & Hb). induction b as [|y b IH]; cbn [app module_lookup].
      + rewrite Hx. reflexivity.
      + rewrite (Hb y (or_introl eq_refl)). apply IH. intros m' Hm. apply Hb. right; exact Hm.
  Qed.
  Lemma module_lookup_none mods key :
    module_lookup attr oth cls mods key = None <-> forall m, In m mods -> module_provides attr oth cls m key = None.
  Proof.
    split.
    - induction mods as [|m mods IH]; cbn [module_lookup]; [intros _ m []|].
      destruct (module_provides attr oth cls m key) eqn:E; [discriminate|]. intros H x [<-|Hi]; auto.
    - induction mods as [|m mods IH]; cbn [module_lookup]; [reflexivity|]. intros H.
      rewrite (H m (or_introl eq_refl)). apply IH. intros x Hx. apply H. right; exact Hx.
  Qed.
End L.

Lemma release_strings_noop l names : (forall o, In o l -> exists n, o = Mod n) -> names <> [] ->
  release_procedure l (map Str names) = (Err ValueError, l).
Proof.
  intros H Hn. destruct names as [|n names]; [congruence|]. cbn [map release_procedure].
  rewrite py_remove_notin; [reflexivity|]. intros Hi. destruct (H _ Hi) as (k & E). discriminate.
Qed.

(** Arrays through call syntax: with a single frame binding the name the same array is found. *)
Lemma array_lookup_single {V F} (as_array : V -> option F) (m : memvar V) key v f :
  as_array v = Some f ->
  (exists a d b, public_scopes m = a ++ d :: b /\ sget d key = Some v /\
     (forall e, In e (a ++ b) -> sget e key = None)) ->
  (forall d, In d (local_scopes m) -> sget d key = None) ->
  array_lookup as_array (public_scopes m) key = Some f /\ mem_get m key = Ok v.
Proof.
  intros Hv (a & d & b & E & Hd & Hab) Hl. split.
  - rewrite E. assert (forall e, In e a -> sget e key = None) as Ha by (intros; apply Hab, in_or_app; left; assumption).
    clear - Hd Hv Ha. induction a as [|e a IH]; cbn [app array_lookup].
    + rewrite Hd, Hv. reflexivity.
    + rewrite (Ha e (or_introl eq_refl)). apply IH. intros; apply Ha; right; assumption.
  - assert (first_with (rev (public_scopes m)) key = Some d) as Hf.
    { rewrite E, rev_app_distr. cbn [rev]. rewrite <- app_assoc. cbn [app].
      assert (forall e, In e (rev b) -> sget e key = None) as Hb.
      { intros e He. apply in_rev in He. apply Hab, in_or_app; right; assumption. }
      revert Hb. generalize (rev b). clear - Hd. intros r Hb. unfold first_with. induction r as [|e r IH]; cbn [app find].
      - rewrite shas_sget, Hd. reflexivity.
      - rewrite shas_sget, (Hb e (or_introl eq_refl)). apply IH. intros; apply Hb; right; assumption. }
    unfold mem_get, get_scope. rewrite Hf.
    destruct (rev (local_scopes m)) as [|e r] eqn:Er; cbn [option_map].
    + rewrite Hd. reflexivity.
    + rewrite shas_sget, Hl by (apply in_rev; rewrite Er; left; reflexivity). rewrite Hd. reflexivity.
Qed.
