(** The scopes while functions call each other. *)
From Verif Require Import PyBase PyStr M_Memvar S_Memvar P_Memvar M_Params S_Params P_Params M_Do S_Py S_PyEval M_Lit M_Stmt S_Stmt M_Conv S_Conv M_Show M_Core P_Fuel S_Lex S_Core S_Funs.
Open Scope Z_scope.

(** ** Names *)
Definition byte_name (x : pystr) : Prop := Forall (fun c => 0 <= c < 256) x.
Lemma nm_inj x y : byte_name x -> byte_name y -> nm x = nm y -> x = y.
Proof.
  intros Hx Hy E. apply (f_equal list_ascii_of_string) in E. unfold nm in E. rewrite !list_ascii_of_string_of_list_ascii in E. revert y Hy E.
  induction Hx as [|a x Ha _ IH]; intros [|b y] Hy E; try discriminate; [reflexivity|]. inversion Hy as [|? ? Hb Hy']; subst. cbn [map] in E. injection E as Ec E. rewrite (IH y Hy' E). f_equal.
  apply (f_equal Ascii.N_of_ascii) in Ec. rewrite !Ascii.N_ascii_embedding in Ec by lia. apply (f_equal Z.of_N) in Ec. rewrite !Z2N.id in Ec by lia. exact Ec.
Qed.
Lemma name_bytes x : name_ok x = true -> byte_name x.
Proof.
  unfold name_ok. rewrite !andb_true_iff. intros ((((_ & H) & _) & _) & _). apply Forall_forall. rewrite forallb_forall in H. intros c I. specialize (H c I).
  unfold M_Stmt.lower, is_digit in H. rewrite !orb_true_iff, !andb_true_iff in H. lia.
Qed.
Lemma nm_ok x y : name_ok x = true -> name_ok y = true -> nm x = nm y -> x = y.
Proof. intros Hx Hy. apply nm_inj; apply name_bytes; assumption. Qed.

(** ** Lookup *)
Notation dict := (@M_Memvar.scope pval).
Definition look1 (l : list dict) (k : M_Memvar.name) : option pval := match first_with l k with Some d => sget d k | None => None end.
Lemma look1_cons d l k : look1 (d :: l) k = if shas d k then sget d k else look1 l k.
Proof. unfold look1, first_with. cbn [find]. destruct (shas d k); reflexivity. Qed.
Lemma look1_found l k d : first_with l k = Some d -> exists v, look1 l k = Some v.
Proof.
  intros H. unfold look1. rewrite H. apply find_some in H as [_ H]. unfold shas, dmem in H. unfold sget. destruct (dget String.eqb d k) as [v|]; [exists v; reflexivity|discriminate].
Qed.
Lemma first_look l k : look1 l k <> None -> first_with l k <> None.
Proof. unfold look1. destruct (first_with l k); [discriminate|tauto]. Qed.
Lemma keys_sset (d : dict) k v : shas d k = true -> map fst (sset d k v) = map fst d.
Proof.
  unfold shas, dmem, sset. induction d as [|[a b] d IH]; [discriminate|]. cbn [dget dset]. destruct (String.eqb_spec k a) as [->|Ne]; [reflexivity|]. intros H. cbn [map fst]. rewrite IH by exact H. reflexivity.
Qed.
Lemma shas_keys (d d1 : dict) k : map fst d1 = map fst d -> shas d1 k = shas d k.
Proof.
  intros E. rewrite !shas_sget. destruct (sget d1 k) eqn:A, (sget d k) eqn:B; try reflexivity.
  - assert (X : In k (map fst d1)) by (apply sget_in; congruence). rewrite E in X. apply sget_in in X. congruence.
  - assert (X : In k (map fst d)) by (apply sget_in; congruence). rewrite <- E in X. apply sget_in in X. congruence.
Qed.
Lemma look1_set l k v k' : first_with l k <> None -> look1 (upd_first l k (fun d => sset d k v)) k' = if String.eqb k' k then Some v else look1 l k'.
Proof.
  induction l as [|d l IH]; intros H; [contradiction|]. cbn [upd_first]. unfold first_with in H. cbn [find] in H. destruct (shas d k) eqn:Hd.
  - rewrite !look1_cons, (shas_keys d _ k' (keys_sset d k v Hd)), sget_sset. destruct (String.eqb_spec k' k) as [E|Ne]; [rewrite E, Hd; reflexivity|reflexivity].
  - rewrite !look1_cons, (IH H). destruct (String.eqb_spec k' k) as [E|Ne]; [rewrite E, Hd; reflexivity|reflexivity].
Qed.
Lemma get_at (ps ls : list dict) (d : dict) k : mem_get (mkMem ps (ls ++ [d])) k = if shas d k then match sget d k with Some v => Ok v | None => Err KeyError end else match look1 (rev ps) k with Some v => Ok v | None => Err NameError end.
Proof.
  unfold mem_get, get_scope. cbn [local_scopes public_scopes]. rewrite rev_app_distr. cbn [rev app]. destruct (shas d k); [reflexivity|]. unfold look1. destruct (first_with (rev ps) k) as [e|] eqn:E; [|reflexivity].
  cbn [option_map]. apply find_some in E as [_ E]. rewrite shas_sget in E. destruct (sget e k); [reflexivity|discriminate].
Qed.
Lemma set_local (ps ls : list dict) (d : dict) k v : shas d k = true -> mem_set (mkMem ps (ls ++ [d])) k v = Ok (mkMem ps (ls ++ [sset d k v])).
Proof.
  intros H. unfold mem_set, get_scope. cbn [local_scopes public_scopes]. rewrite rev_app_distr. cbn [rev app]. rewrite H. destruct d as [|e d]; [discriminate|]. unfold mutate, upd_last. cbn [local_scopes public_scopes].
  rewrite rev_app_distr. cbn [rev app]. rewrite rev_involutive. reflexivity.
Qed.
Lemma set_public (ps ls : list dict) (d : dict) k v : shas d k = false -> first_with (rev ps) k <> None -> mem_set (mkMem ps (ls ++ [d])) k v = Ok (mkMem (rev (upd_first (rev ps) k (fun d => sset d k v))) (ls ++ [d])).
Proof.
  intros H Hf. unfold mem_set, get_scope. cbn [local_scopes public_scopes]. rewrite rev_app_distr. cbn [rev app]. rewrite H. destruct (first_with (rev ps) k) as [e|] eqn:E; [|contradiction]. cbn [option_map].
  apply find_some in E as [_ E]. destruct e; [discriminate|]. reflexivity.
Qed.
Lemma set_new (ps ls : list dict) (e d : dict) k v : shas d k = false -> look1 (rev (ps ++ [e])) k = None -> mem_set (mkMem (ps ++ [e]) (ls ++ [d])) k v = Ok (mkMem (ps ++ [sset e k v]) (ls ++ [d])).
Proof.
  intros H Hf. unfold mem_set, get_scope. cbn [local_scopes public_scopes]. rewrite (rev_app_distr ls). cbn [rev app]. rewrite H. unfold look1 in Hf. destruct (first_with (rev (ps ++ [e])) k) as [e'|] eqn:E.
  - apply find_some in E as [_ E]. rewrite shas_sget, Hf in E. discriminate.
  - cbn [option_map]. unfold upd_last. rewrite (rev_app_distr ps). cbn [rev app]. rewrite rev_involutive. reflexivity.
Qed.
Lemma shas_sset (d : dict) k v k' : shas (sset d k v) k' = String.eqb k' k || shas d k'.
Proof. rewrite !shas_sget, sget_sset. destruct (String.eqb k' k); reflexivity. Qed.
Lemma rev_pushed {A} (ps : list A) x : rev (ps ++ [x]) = x :: rev ps.
Proof. apply rev_app_distr. Qed.
Lemma look1_nil l k : look1 ([] :: l) k = look1 l k.
Proof. reflexivity. Qed.
Lemma first_nil l k : @first_with pval ([] :: l) k = first_with l k.
Proof. reflexivity. Qed.

(** ** Changes of public variables only *)
Section change.
Variable G : list pystr.
Definition only_values (d d1 : dict) : Prop := map fst d1 = map fst d /\ forall k, (forall x, In x G -> k <> nm x) -> sget d1 k = sget d k.
Lemma only_refl l : Forall2 only_values l l.
Proof. induction l; constructor; [split; reflexivity|assumption]. Qed.
Lemma only_trans : forall a b c, Forall2 only_values a b -> Forall2 only_values b c -> Forall2 only_values a c.
Proof.
  intros a b c H. revert c. induction H as [|x y a b [K V] _ IH]; intros c H2; inversion H2 as [|? z ? c' [K2 V2] H3]; subst; constructor; [|exact (IH _ H3)].
  split; [congruence|]. intros k Hk. rewrite (V2 k Hk). exact (V k Hk).
Qed.
Lemma only_set l x v : In x G -> Forall2 only_values l (upd_first l (nm x) (fun d => sset d (nm x) v)).
Proof.
  intros I. induction l as [|d l IH]; [constructor|]. cbn [upd_first]. destruct (shas d (nm x)) eqn:E; [|constructor; [split; reflexivity|exact IH]].
  constructor; [|apply only_refl]. split; [apply keys_sset, E|]. intros k Hk. rewrite sget_sset. destruct (String.eqb_spec k (nm x)) as [->|]; [destruct (Hk x I eq_refl)|reflexivity].
Qed.
Lemma only_rev a b : Forall2 only_values a b -> Forall2 only_values (rev a) (rev b).
Proof. induction 1; [constructor|]. cbn [rev]. apply Forall2_app; [assumption|constructor; [assumption|constructor]]. Qed.
End change.

Lemma only_look1 G a b k : Forall2 (only_values G) a b -> (look1 a k = None <-> look1 b k = None).
Proof.
  induction 1 as [|x y a b [K _] _ IH]; [reflexivity|]. rewrite !look1_cons, (shas_keys x y k K). destruct (shas x k) eqn:E; [|exact IH]. pose proof (shas_keys x y k K) as E1. rewrite E in E1. rewrite shas_sget in E, E1.
  destruct (sget x k), (sget y k); try discriminate; split; discriminate.
Qed.

(** ** Entering a function *)
Lemma sget_args (names : list M_Memvar.name) (d : dict) k : sget (fold_left (fun d k => sset d k (PB false)) names d) k = if existsb (String.eqb k) names then Some (PB false) else sget d k.
Proof.
  revert d. induction names as [|a names IH]; intros d; [reflexivity|]. cbn [fold_left existsb]. rewrite IH, sget_sset. destruct (existsb (String.eqb k) names), (String.eqb k a); reflexivity.
Qed.
Lemma existsb_in k l : existsb (String.eqb k) l = true <-> In k l.
Proof. rewrite existsb_exists. split; [intros (y & I & E); apply String.eqb_eq in E; subst; exact I|intros I; exists k; split; [exact I|apply String.eqb_refl]]. Qed.
Lemma argument_nth params : forall args x i, NoDup params -> nth_error params i = Some x -> argument params args x = Some (nth i args (PB false)).
Proof.
  induction params as [|y params IH]; intros args x i ND E; [destruct i; discriminate|]. inversion ND as [|? ? Ni ND']; subst. cbn [argument]. destruct i as [|i]; cbn [nth_error] in E.
  - injection E as ->. destruct (pystr_eqb_spec x x); [|contradiction]. destruct args; reflexivity.
  - destruct (pystr_eqb_spec x y) as [->|Ne]; [apply nth_error_In in E; contradiction|]. rewrite (IH (tl args) x i ND' E). destruct args; [destruct i; reflexivity|reflexivity].
Qed.
Lemma argument_none params : forall args x, ~ In x params -> argument params args x = None.
Proof.
  induction params as [|y params IH]; intros args x Ni; [reflexivity|]. cbn [argument]. destruct (pystr_eqb_spec x y) as [->|Ne]; [destruct Ni; left; reflexivity|]. apply IH. intros I. apply Ni. right. exact I.
Qed.
Lemma NoDup_nm l : Forall (fun x => name_ok x = true) l -> NoDup l -> NoDup (map nm l).
Proof.
  intros H ND. induction ND as [|x l Ni ND IH]; [constructor|]. inversion H as [|? ? Hx Hl]; subst. cbn [map]. constructor; [|exact (IH Hl)].
  intros I. apply in_map_iff in I as (y & E & I). rewrite Forall_forall in Hl. rewrite (nm_ok y x (Hl y I) Hx E) in I. contradiction.
Qed.
(** the local scope of a call, after its LOCAL line *)
Definition entered (f : proc) (args : list pval) : dict :=
  fold_left (fun d k => sset d k (PB false)) (map nm (p_locals f)) (add_to_scope (PB false) (skipn (length args) (map nm (p_params f))) (zip_dict (map nm (p_params f)) args) []).
Lemma in_nm x l : name_ok x = true -> Forall (fun x => name_ok x = true) l -> In (nm x) (map nm l) -> In x l.
Proof. intros Hx Hl I. apply in_map_iff in I as (y & E & I). rewrite Forall_forall in Hl. rewrite <- (nm_ok y x (Hl y I) Hx E). exact I. Qed.
Lemma entered_get f args x : name_ok x = true -> Forall (fun x => name_ok x = true) (own f) -> NoDup (own f) ->
  sget (entered f args) (nm x) = match argument (p_params f) args x with Some v => Some v | None => if inb x (p_locals f) then Some (PB false) else None end.
Proof.
  intros Hx Ho ND. unfold own in Ho, ND. apply Forall_app in Ho as [Hp Hl]. unfold entered. rewrite sget_args.
  assert (NDp : NoDup (p_params f)) by (clear - ND; induction (p_params f) as [|a l IH]; [constructor|]; inversion ND as [|? ? Ni N']; subst; constructor; [intros I; apply Ni, in_or_app; left; exact I|exact (IH N')]).
  assert (Dj : forall y, In y (p_params f) -> In y (p_locals f) -> False).
  { clear - ND. induction (p_params f) as [|a l IH]; intros y []; inversion ND as [|? ? Ni N']; subst; intros J; [apply Ni, in_or_app; right; exact J|exact (IH N' y H J)]. }
  assert (El : existsb (String.eqb (nm x)) (map nm (p_locals f)) = inb x (p_locals f)).
  { apply eq_true_iff_eq. rewrite existsb_in. unfold inb. rewrite existsb_exists. split.
    - intros I. exists x. split; [exact (in_nm x _ Hx Hl I)|]. destruct (pystr_eqb_spec x x); [reflexivity|contradiction].
    - intros (y & I & E). destruct (pystr_eqb_spec x y) as [->|]; [|discriminate]. apply in_map, I. }
  rewrite El. destruct (in_dec (list_eq_dec Z.eq_dec) x (p_params f)) as [I|Ni].
  - destruct (In_nth_error _ _ I) as (i & Ei). rewrite (argument_nth _ args x i NDp Ei).
    assert (inb x (p_locals f) = false) as ->.
    { unfold inb. destruct (existsb (pystr_eqb x) (p_locals f)) eqn:E; [|reflexivity]. apply existsb_exists in E as (y & J & E). destruct (pystr_eqb_spec x y) as [->|]; [|discriminate]. destruct (Dj y I J). }
    apply bound_value; [apply NoDup_nm; assumption|]. exact (map_nth_error nm i (p_params f) Ei).
  - rewrite (argument_none _ args x Ni). destruct (inb x (p_locals f)); [reflexivity|].
    destruct (sget (add_to_scope (PB false) (skipn (length args) (map nm (p_params f))) (zip_dict (map nm (p_params f)) args) []) (nm x)) eqn:E; [|reflexivity]. exfalso. unfold add_to_scope in E.
    rewrite sget_add_kw in E by apply zip_dict_wf. destruct (dget String.eqb (zip_dict (map nm (p_params f)) args) (nm x)) eqn:E1.
    + apply Ni, (in_nm x _ Hx Hp). assert (J : In (nm x) (map fst (zip_dict (map nm (p_params f)) args))) by (apply (sget_in (V := pval)); unfold sget; rewrite E1; discriminate).
      apply zip_dict_keys in J. rewrite <- (firstn_skipn (length args)). apply in_or_app. left. exact J.
    + rewrite sget_args in E. destruct (existsb (String.eqb (nm x)) (skipn (length args) (map nm (p_params f)))) eqn:E2; [|discriminate]. apply existsb_in in E2.
      apply Ni, (in_nm x _ Hx Hp). rewrite <- (firstn_skipn (length args)). apply in_or_app. right. exact E2.
Qed.
