(** Properties C88 (declarations) and C89 (RELEASE). *)
From Verif Require Import PyBase PyStr S_Lit P_Lit M_Memvar S_Memvar P_Memvar M_Lit M_Stmt M_Do M_Decl.
Open Scope Z_scope.
Open Scope res_scope.

Section C88.
Variable V : Type.
Variable pyfalse : V.
Variable array : list pystr -> res V.
Notation exec_all := (exec_all V pyfalse array).
(** A state of the variables a program can be in, within a procedure *)
Definition reachable (m : memvar V) : Prop := exists os, m = snd (mem_run pyfalse mem_init os) /\ local_scopes m <> [].
Lemma reachable_R m : reachable m -> wfm m /\ exists f r, R m (f :: r).
Proof.
  intros (os & -> & N). destruct (run_refines pyfalse os mem_init [] (init_wf (V := V)) init_R) as (_ & HR). split.
  - assert (H : wfm (V := V) mem_init) by apply init_wf. clear N HR. revert H. generalize (@mem_init V). induction os as [|o os IH]; intros m0 H0; [exact H0|].
    cbn [mem_run]. pose proof (wf_step pyfalse m0 o H0) as H1. destruct (mem_step pyfalse m0 o) as [x m1]. specialize (IH m1 H1). destruct (mem_run pyfalse m1 os). exact IH.
  - destruct (snd (spec_run pyfalse [] os)) as [|f r]; [|eauto]. exfalso. apply N. destruct HR as [_ H]. inversion H as [E|]. destruct (local_scopes _) as [|x l] using rev_ind; [reflexivity|]. rewrite rev_app_distr in E. discriminate.
Qed.

(** What a list of declared names means: plain names are .F., arrays are arrays; the last declaration of a name counts, arrays after plain names *)
Definition declared (items : list item) (vals : item -> V) (k : string) : option V :=
  match find (fun i : item => is_array (i_dims i) && String.eqb (i_name i) k) (rev items) with
  | Some i => Some (vals i)
  | None => if existsb (fun i => String.eqb (i_name i) k) items then Some pyfalse else None
  end.
Definition dims_ok (items : list item) (vals : item -> V) : Prop := Forall (fun i => is_array (i_dims i) = true -> array (i_dims i) = Ok (vals i)) items.
Definition allowed (items : list item) : Prop := Forall (fun i => is_array (i_dims i) = true -> i_name i <> "self"%string /\ i_name i <> "scope"%string) items.
Definition decl (s : scope_word) (items : list item) (m : memvar V) : res (memvar V) := rmap (s_mem V) (exec_all (State V m []) (declaration (Some s) false items)).

(** ** Lemmas *)
Lemma dims_same i : dims_of false i = i_dims i. Proof. unfold dims_of. destruct (i_dims i); reflexivity. Qed.
Lemma inds_same items : map (fun i => (i_name i, dims_of false i)) items = map (fun i => (i_name i, i_dims i)) items.
Proof. apply map_ext. intros i. rewrite dims_same. reflexivity. Qed.
Definition arrs (items : list item) := filter (fun i => is_array (i_dims i)) items.
Definition plains (items : list item) := filter (fun i => negb (is_array (i_dims i))) items.
Lemma filter_map {A B} (f : A -> B) (p : B -> bool) l : filter p (map f l) = map f (filter (fun x => p (f x)) l).
Proof. induction l as [|x l IH]; [reflexivity|]. cbn. destruct (p (f x)); cbn; rewrite IH; reflexivity. Qed.
Definition dict_of (l : list item) : list (string * list pystr) := fold_left (fun d p => dset String.eqb d (fst p) (snd p)) (map (fun i => (i_name i, i_dims i)) l) [].
Lemma decl_stmt s items : s = Local \/ s = Private \/ s = Public -> declaration (Some s) false items = [SAdd s (map i_name (plains items)) (dict_of (arrs items))].
Proof.
  intros H. unfold declaration, dict_of, plains, arrs. rewrite inds_same, !filter_map, !map_map. cbn [fst snd]. destruct H as [-> | [-> | ->]]; reflexivity.
Qed.
(* the dictionary evaluated *)
Lemma dset_vals (vals : item -> V) (l : list (string * list pystr)) l' k d v : arrays_of V array l = Ok l' -> array d = Ok v -> arrays_of V array (dset String.eqb l k d) = Ok (dset String.eqb l' k v).
Proof.
  revert l'. induction l as [|[n x] l IH]; intros l' H A; cbn [arrays_of dset] in *.
  - injection H as <-. cbn. rewrite A. reflexivity.
  - destruct (array x) as [w|e] eqn:X; [|discriminate]. cbn [rbind] in H. destruct (arrays_of V array l) as [ws|e] eqn:L; [|discriminate]. cbn [rbind] in H. injection H as <-.
    destruct (String.eqb k n) eqn:E; cbn [arrays_of dset]; rewrite E.
    + rewrite A. cbn [rbind]. rewrite L. reflexivity.
    + rewrite X. cbn [rbind]. rewrite (IH ws eq_refl A). reflexivity.
Qed.
Definition vd (vals : item -> V) (l : list item) : list (string * V) := fold_left (fun d i => sset d (i_name i) (vals i)) l [].
Lemma dict_vals vals l : Forall (fun i => array (i_dims i) = Ok (vals i)) l -> arrays_of V array (dict_of l) = Ok (vd vals l).
Proof.
  intros H. unfold dict_of. assert (G : forall d d', arrays_of V array d = Ok d' -> arrays_of V array (fold_left (fun d p => dset String.eqb d (fst p) (snd p)) (map (fun i => (i_name i, i_dims i)) l) d) = Ok (fold_left (fun d i => sset d (i_name i) (vals i)) l d')).
  { induction H as [|i l A F IH]; intros d d' E; [exact E|]. cbn [map fold_left fst snd]. apply IH. apply (dset_vals vals); assumption. }
  apply G. reflexivity.
Qed.
Lemma vals_get vals l k : sget (vd vals l) k = option_map vals (find (fun i : item => String.eqb (i_name i) k) (rev l)).
Proof.
  unfold vd. induction l as [|i l IH] using rev_ind; [reflexivity|]. rewrite fold_left_app, rev_app_distr. cbn [fold_left rev app find]. rewrite sget_sset, String.eqb_sym. destruct (String.eqb (i_name i) k); [reflexivity|exact IH].
Qed.
Lemma vals_wfd vals l : wfd (vd vals l).
Proof. unfold vd. induction l as [|i l IH] using rev_ind; [constructor|]. rewrite fold_left_app. cbn [fold_left]. apply wfd_set. exact IH. Qed.
Lemma declare_get names (kw : list (string * V)) b k : wfd kw -> declare pyfalse names kw b k = match sget kw k with Some v => Some v | None => if existsb (String.eqb k) names then Some pyfalse else b k end.
Proof.
  unfold declare. intros ND. set (b1 := fold_left (fun b k => bind b k (Some pyfalse)) names b).
  assert (H1 : b1 k = if existsb (String.eqb k) names then Some pyfalse else b k).
  { unfold b1. clear. revert b. induction names as [|n names IH]; intros b; [reflexivity|]. cbn [fold_left existsb]. rewrite IH. unfold bind. destruct (existsb (String.eqb k) names), (String.eqb k n); reflexivity. }
  rewrite <- H1. clear H1. clearbody b1. revert b1. induction kw as [|[n v] kw IH]; intros b1; [reflexivity|]. cbn [fold_left fst snd]. unfold wfd in ND. cbn [map fst] in ND. inversion ND as [|? ? N1 N2]; subst. rewrite IH by exact N2.
  unfold bind, sget. cbn [dget]. destruct (String.eqb_spec k n) as [->|N]; [|reflexivity]. destruct (dget String.eqb kw n) eqn:E; [|reflexivity]. exfalso. apply N1. apply sget_in. unfold sget. congruence.
Qed.
Lemma find_filter {A} (p q : A -> bool) l : find q (filter p l) = find (fun x => p x && q x) l.
Proof. induction l as [|x l IH]; [reflexivity|]. cbn. destruct (p x); cbn; [destruct (q x); [reflexivity|exact IH]|exact IH]. Qed.
Lemma filter_rev' {A} (p : A -> bool) l : filter p (rev l) = rev (filter p l).
Proof. induction l as [|x l IH]; [reflexivity|]. cbn. rewrite filter_app, IH. cbn. destruct (p x); [reflexivity|apply app_nil_r]. Qed.
Lemma declared_spec vals items k b : declare pyfalse (map i_name (plains items)) (vd vals (arrs items)) b k = match declared items vals k with Some v => Some v | None => b k end.
Proof.
  rewrite declare_get by apply vals_wfd. rewrite vals_get. unfold declared, arrs. rewrite <- filter_rev', find_filter. destruct (find (fun i : item => is_array (i_dims i) && String.eqb (i_name i) k) (rev items)) as [i|] eqn:F; [reflexivity|]. cbn [option_map].
  replace (existsb (String.eqb k) (map i_name (plains items))) with (existsb (fun i => String.eqb (i_name i) k) items); [destruct (existsb _ items); reflexivity|].
  apply eq_true_iff_eq. rewrite !existsb_exists. split.
  - intros (i & I & E). exists (i_name i). split; [|rewrite String.eqb_sym; exact E]. apply in_map. unfold plains. apply filter_In. split; [exact I|]. pose proof (find_none _ _ F i ltac:(apply in_rev; rewrite rev_involutive; exact I)) as N. cbn beta in N. rewrite E, andb_true_r in N. rewrite N. reflexivity.
  - intros (x & I & E). apply in_map_iff in I as (i & <- & I). apply filter_In in I as [I _]. exists i. split; [exact I|rewrite String.eqb_sym; exact E].
Qed.
Lemma allowed_kw vals items : allowed items -> bad_keyword (vd vals (arrs items)) = false.
Proof.
  intros H. apply not_true_is_false. unfold bad_keyword. rewrite existsb_exists. intros ((n & v) & I & E). cbn [fst] in E. apply (in_map fst) in I. cbn in I. apply sget_in in I. rewrite vals_get in I. destruct (find (fun i : item => String.eqb (i_name i) n) (rev (arrs items))) as [i|] eqn:F; [|cbn in I; congruence].
  apply find_some in F as [F X]. apply in_rev in F. apply filter_In in F as [F A]. apply String.eqb_eq in X. unfold allowed in H. rewrite Forall_forall in H. destruct (H i F A) as [N1 N2]. rewrite X in N1, N2. apply orb_prop in E as [E|E]; apply String.eqb_eq in E; congruence.
Qed.
Lemma dims_arrs vals items : dims_ok items vals -> Forall (fun i => array (i_dims i) = Ok (vals i)) (arrs items).
Proof. intros H. unfold dims_ok in H. rewrite Forall_forall in *. intros i I. apply filter_In in I as [I A]. apply H; assumption. Qed.
Lemma get_lookup (m : memvar V) c k : R m c -> mem_get m k = match lookup c k with Some v => Ok v | None => Err NameError end.
Proof. apply get_refines. Qed.

(** ** The property *)
(** LOCAL: every name declared is the new variable, every other name is what it was *)
Theorem C88_local m items vals : reachable m -> dims_ok items vals -> allowed items -> exists m', decl Local items m = Ok m' /\
  forall k, mem_get m' k = match declared items vals k with Some v => Ok v | None => mem_get m k end.
Proof.
  intros H D A. destruct (reachable_R m H) as (_ & f & r & HR). unfold decl. rewrite decl_stmt by auto. cbn [M_Decl.exec_all M_Decl.exec s_mem]. rewrite (dict_vals vals _ (dims_arrs vals items D)). cbn [rbind].
  destruct (add_local_R pyfalse m f r (map i_name (plains items)) (vd vals (arrs items)) HR) as [_ X]. destruct (X (allowed_kw vals items A)) as (m' & -> & R'). cbn [rbind rmap s_mem]. exists m'. split; [reflexivity|]. intros k.
  rewrite (get_lookup m' _ k R'), (get_lookup m _ k HR). cbn [lookup set_loc loc priv]. rewrite declared_spec. destruct (declared items vals k); reflexivity.
Qed.
(** PRIVATE: the same, but a LOCAL of the procedure stays visible *)
Definition is_local (m : memvar V) (k : string) : bool := shas (last (local_scopes m) []) k.
Lemma is_local_R m (f : @frame V) (r : @chain V) k : R m (f :: r) -> is_local m k = match loc f k with Some _ => true | None => false end.
Proof.
  intros [_ Hl]. unfold is_local. inversion Hl as [|d0 f0 ls c0 Hd0 Hl0 E0 E1]; subst. apply (f_equal (@rev _)) in E0. rewrite rev_involutive in E0. cbn [rev] in E0. rewrite <- E0, last_last, shas_sget, Hd0. reflexivity.
Qed.
Theorem C88_private m items vals : reachable m -> dims_ok items vals -> allowed items -> exists m', decl Private items m = Ok m' /\
  forall k, mem_get m' k = if is_local m k then mem_get m k else match declared items vals k with Some v => Ok v | None => mem_get m k end.
Proof.
  intros H D A. destruct (reachable_R m H) as (_ & f & r & HR). unfold decl. rewrite decl_stmt by auto. cbn [M_Decl.exec_all M_Decl.exec s_mem]. rewrite (dict_vals vals _ (dims_arrs vals items D)). cbn [rbind].
  destruct (add_private_R pyfalse m f r (map i_name (plains items)) (vd vals (arrs items)) HR) as [_ X]. destruct (X (allowed_kw vals items A)) as (m' & -> & R'). cbn [rbind rmap s_mem]. exists m'. split; [reflexivity|]. intros k.
  rewrite (get_lookup m' _ k R'), (get_lookup m _ k HR), (is_local_R m f r k HR). cbn [lookup set_priv loc priv priv_lookup]. rewrite declared_spec. destruct (loc f k); [reflexivity|]. destruct (declared items vals k); reflexivity.
Qed.
(** PUBLIC: a name not in use before becomes the new variable; names not declared are what they were *)
Lemma priv_outermost (c : @chain V) (g : @frame V -> @frame V) k : (forall f, loc (g f) = loc f) -> c <> [] -> priv_lookup c k = None -> exists f, priv_lookup (on_outermost c g) k = priv (g f) k /\ priv f k = None.
Proof.
  intros L N H. induction c as [|x c IH]; [congruence|]. cbn [priv_lookup] in H. destruct (priv x k) eqn:P; [discriminate|]. destruct c as [|y c].
  - exists x. cbn. split; [destruct (priv (g x) k); reflexivity|exact P].
  - destruct (IH ltac:(discriminate) H) as (f & E & F). exists f. split; [|exact F]. cbn [on_outermost priv_lookup] in E |- *. rewrite P. exact E.
Qed.
Lemma priv_outermost_same (c : @chain V) g k : (forall f : @frame V, priv (g f) k = priv f k) -> priv_lookup (on_outermost c g) k = priv_lookup c k.
Proof. intros H. induction c as [|x c IH]; [reflexivity|]. destruct c as [|y c]; [cbn; rewrite H; reflexivity|]. cbn [on_outermost priv_lookup] in IH |- *. rewrite IH. reflexivity. Qed.
Theorem C88_public_partial m items vals : reachable m -> dims_ok items vals -> allowed items -> exists m', decl Public items m = Ok m' /\
  forall k, (declared items vals k = None -> mem_get m' k = mem_get m k) /\ (forall v, declared items vals k = Some v -> mem_contains m k = false -> mem_get m' k = Ok v).
Proof.
  intros H D A. destruct (reachable_R m H) as (_ & f & r & HR). unfold decl. rewrite decl_stmt by auto. cbn [M_Decl.exec_all M_Decl.exec s_mem]. rewrite (dict_vals vals _ (dims_arrs vals items D)). cbn [rbind].
  destruct (add_public_R pyfalse m f r (map i_name (plains items)) (vd vals (arrs items)) HR) as [_ X]. destruct (X (allowed_kw vals items A)) as (m' & -> & R'). cbn [rbind rmap s_mem]. exists m'. split; [reflexivity|]. intros k.
  unfold mem_contains. rewrite (get_lookup m' _ k R'), (get_lookup m _ k HR). set (g := fun g0 : @frame V => set_priv g0 _).
  assert (LL : lookup (on_outermost (f :: r) g) k = match loc f k with Some w => Some w | None => priv_lookup (on_outermost (f :: r) g) k end) by (destruct r; reflexivity). rewrite LL. split.
  - intros N. rewrite priv_outermost_same; [reflexivity|]. intros x. unfold g. cbn [priv set_priv]. rewrite declared_spec, N. reflexivity.
  - intros v E U. cbn [lookup] in U. destruct (loc f k); [discriminate|]. destruct (priv_lookup (f :: r) k) eqn:P; [discriminate|]. destruct (priv_outermost (f :: r) g k) as (x & Q & _); [reflexivity|discriminate|exact P|]. rewrite Q. unfold g. cbn [priv set_priv]. rewrite declared_spec, E. reflexivity.
Qed.
(** An array called self or scope cannot be declared *)
Theorem C88_reserved_refuted s m items vals i : reachable m -> dims_ok items vals -> s = Local \/ s = Private \/ s = Public -> In i items -> is_array (i_dims i) = true -> i_name i = "self"%string \/ i_name i = "scope"%string ->
  decl s items m = Err TypeError.
Proof.
  intros H D S I A N. destruct (reachable_R m H) as (_ & f & r & HR). unfold decl. rewrite decl_stmt by exact S. cbn [M_Decl.exec_all M_Decl.exec s_mem]. rewrite (dict_vals vals _ (dims_arrs vals items D)). cbn [rbind].
  assert (B : reserved (vd vals (arrs items)) = true).
  { unfold reserved. apply existsb_exists. assert (K : In (i_name i) (map fst (vd vals (arrs items)))).
    { apply sget_in. rewrite vals_get. destruct (find (fun j : item => String.eqb (i_name j) (i_name i)) (rev (arrs items))) eqn:F; [discriminate|]. exfalso. pose proof (find_none _ _ F i) as X. cbn beta in X. rewrite String.eqb_refl in X. discriminate X. apply in_rev. rewrite rev_involutive. apply filter_In. auto. }
    apply in_map_iff in K as (kv & K & J). exists kv. split; [exact J|]. destruct N as [N|N]; rewrite K, N; reflexivity. }
  destruct S as [-> | [-> | ->]].
  - rewrite (proj1 (add_local_R pyfalse m f r _ _ HR) B). reflexivity.
  - rewrite (proj1 (add_private_R pyfalse m f r _ _ HR) B). reflexivity.
  - rewrite (proj1 (add_public_R pyfalse m f r _ _ HR) B). reflexivity.
Qed.
(** DIMENSION and DECLARE never give the program the array: no variable of the program changes *)
Theorem C88_dimension_refuted m py items st : M_Decl.exec_all V pyfalse array (State V m py) (declaration None true items) = Ok st -> s_mem V st = m.
Proof.
  unfold declaration. set (inds := map _ items). replace (filter (fun p => negb (is_array (snd p))) inds) with (@nil (string * list pystr)).
  - generalize (filter (fun p => is_array (snd p)) inds) as l. intros l. revert py. induction l as [|p l IH]; intros py E; cbn [map M_Decl.exec_all M_Decl.exec] in E; [injection E as <-; reflexivity|].
    destruct (array (snd p)) as [v|e]; cbn [rbind s_mem s_py] in E; [|discriminate]. exact (IH _ E).
  - symmetry. unfold inds. rewrite filter_map. cbn [snd]. assert (F : filter (fun i => negb (is_array (dims_of true i))) items = []) by (induction items as [|i l IH]; [reflexivity|]; cbn [filter]; unfold dims_of at 1; destruct (i_dims i); cbn; exact IH). rewrite F. reflexivity.
Qed.
(** HIDDEN and PROTECTED: an array declared together with a plain name is forgotten *)
Theorem C88_hidden_refuted s i items : s = Hidden \/ s = Protected -> In i items -> i_dims i = [] -> exists ts, declaration (Some s) false items = [SFalse ts] /\ length ts = length (filter (fun i => negb (is_array (i_dims i))) items).
Proof.
  intros S I D. exists (map (fun p => self_name (u (fst p))) (filter (fun p => negb (is_array (snd p))) (map (fun i => (i_name i, i_dims i)) items))). unfold declaration. rewrite inds_same. set (l := filter (fun p => negb (is_array (snd p))) _).
  assert (N : l <> []). { unfold l. rewrite filter_map. intros E. apply map_eq_nil in E. assert (X : In i []) by (rewrite <- E; apply filter_In; split; [exact I|cbn [snd]; rewrite D; reflexivity]). destruct X. }
  split; [destruct S as [-> | ->]; destruct l; try congruence; reflexivity|]. rewrite map_length. unfold l. rewrite filter_map, map_length. reflexivity.
Qed.
End C88.
(** The text: the names as string constants, then the arrays by name *)
Theorem C88_text printable s names arrays : s = Local \/ s = Private \/ s = Public -> (forall n, In n (names ++ map fst arrays) -> Forall (fun c => 0 <= c <= 1114111) (u n)) -> exists reprs args,
  stmt_code printable (SAdd s names arrays) = match s with Local => u "M.add_local" | Private => u "M.add_private" | _ => u "M.add_public" end ++ u "(" ++ M_Lit.join (u ", ") (reprs ++ args) ++ u ")" /\
  Forall2 (fun r n => string_literal true r = Some (u n)) reprs names /\
  (Forall (fun p => valid_name (u (fst p)) = true) arrays /\ args = map (fun p => u (fst p) ++ u "=Array(" ++ M_Lit.join (u ", ") (snd p) ++ u ")") arrays \/
   ~ Forall (fun p => valid_name (u (fst p)) = true) arrays /\ exists keys, args = [u "**{" ++ M_Lit.join (u ", ") (map (fun p => fst p ++ u ": Array(" ++ M_Lit.join (u ", ") (snd (snd p)) ++ u ")") (combine keys arrays)) ++ u "}"] /\ Forall2 (fun r p => string_literal true r = Some (u (fst p))) keys arrays).
Proof.
  intros S H. exists (map (repr printable) names), (keyword_args printable arrays). split; [destruct S as [-> | [-> | ->]]; reflexivity|]. split.
  - assert (G : forall n, In n names -> string_literal true (repr printable n) = Some (u n)) by (intros n I; apply repr_reads; [apply H, in_or_app; left; exact I|left; reflexivity]). clear H. induction names as [|n l IH]; cbn; constructor; [apply G; left; reflexivity|apply IH; intros; apply G; right; assumption].
  - unfold keyword_args. destruct (forallb (fun p => valid_name (u (fst p))) arrays) eqn:E.
    + left. split; [apply Forall_forall; apply forallb_forall; exact E|]. apply map_ext. intros p. unfold array_code, make_func_code. reflexivity.
    + right. split; [intros X; rewrite Forall_forall in X; apply forallb_forall in X; congruence|]. exists (map (fun p => repr printable (fst p)) arrays). split.
      * f_equal. f_equal. f_equal. f_equal. clear. induction arrays as [|p l IH]; [reflexivity|]. cbn [map combine fst snd]. f_equal. exact IH.
      * assert (G : forall p, In p arrays -> string_literal true (repr printable (fst p)) = Some (u (fst p))) by (intros p I; apply repr_reads; [apply H, in_or_app; right; apply in_map; exact I|left; reflexivity]). clear -G. induction arrays as [|p l IH]; cbn; constructor; [apply G; left; reflexivity|apply IH; intros; apply G; right; assumption].
Qed.
(** HIDDEN and PROTECTED: for a name that is a keyword of Python the statement has an open parenthesis *)
Definition count (c : Z) (s : pystr) : nat := length (filter (Z.eqb c) s).
Theorem C88_keyword_refuted printable s n : s = Hidden \/ s = Protected -> valid_name (u n) = false -> valid_identifier (u n) = true ->
  exists t, declaration (Some s) false [Item n []] = [t] /\ count 40 (stmt_code printable t) = S (count 41 (stmt_code printable t)).
Proof.
  intros S V I. exists (SFalse [u "getattr(self, " ++ u n]). split.
  - unfold declaration. cbn [map dims_of i_name i_dims filter snd fst is_array negb]. unfold self_name. rewrite V. destruct S as [-> | ->]; reflexivity.
  - cbn [stmt_code M_Lit.join app]. unfold count. rewrite !filter_app, !app_length. assert (G : forall c, name_char c = false -> filter (Z.eqb c) (u n) = []).
    { intros c C. unfold valid_identifier in I. destruct (u n) as [|d l]; [reflexivity|]. rewrite forallb_forall in I. destruct (filter (Z.eqb c) (d :: l)) as [|x q] eqn:F; [reflexivity|]. assert (X : In x (filter (Z.eqb c) (d :: l))) by (rewrite F; left; reflexivity). apply filter_In in X as [X E]. apply Z.eqb_eq in E. subst x. specialize (I c X). congruence. }
    rewrite (G 40 eq_refl), (G 41 eq_refl). reflexivity.
Qed.
Print Assumptions C88_local.
Print Assumptions C88_private.
Print Assumptions C88_public_partial.
Print Assumptions C88_reserved_refuted.
Print Assumptions C88_dimension_refuted.
Print Assumptions C88_hidden_refuted.
Print Assumptions C88_text.
Print Assumptions C88_keyword_refuted.
(** the declarations of the project's own tests *)
Open Scope string_scope.
Example C88_example : let t s l := map (stmt_code (fun _ => true)) (declaration s false l) in
  t (Some Private) [Item "test" []; Item "somearray" [u "2"; u "5"]] = [u "M.add_private('test', somearray=Array(2, 5))"] /\
  t (Some Public) [Item "def" [u "10"]] = [u "M.add_public(**{'def': Array(10)})"] /\
  t None [Item "a" [u "3"]; Item "b" [u "2"; u "2"]] = [u "a = Array(3)"; u "b = Array(2, 2)"] /\
  t (Some Hidden) [Item "a" []; Item "b" [u "2"]] = [u "self.a = False"] /\
  t (Some Hidden) [Item "def" []] = [u "getattr(self, def = False"].
Proof. vm_compute. repeat split. Qed.
Example C88_run : let m := snd (mem_run 0 mem_init [OPush; OAddPublic ["g"] []; OPush; OSet "x" 7]) in let arr d := Ok (100 + Z.of_nat (length d)) in let get r k := match r with Ok m' => mem_get m' k | Err e => Err e end in
  let l := [Item "a" []; Item "x" [u "2"; u "3"]] in
  (exists os, m = snd (mem_run 0 mem_init os) /\ local_scopes m <> []) /\ get (decl Z 0 arr Local l m) "a" = Ok 0 /\ get (decl Z 0 arr Local l m) "x" = Ok 102 /\ get (decl Z 0 arr Local l m) "g" = Ok 0 /\ get (decl Z 0 arr Private l m) "x" = Ok 102 /\
  get (decl Z 0 arr Public l m) "x" = Ok 7 /\ get (decl Z 0 arr Public [Item "y" []] m) "y" = Ok 0 /\
  match exec_all Z 0 arr (State Z m []) (declaration None true [Item "z" [u "3"]]) with Ok st => mem_get (s_mem Z st) "z" | Err e => Ok 1 end = Err NameError.
Proof. cbv zeta. split; [eexists; split; [reflexivity|vm_compute; discriminate]|]. vm_compute. repeat split. Qed.

(** ** RELEASE *)
Section C89.
Context {V : Type}.
Variable pyfalse : V.
Variable popups : option (memvar V -> res (memvar V)).
Notation rexec_all := (rexec_all V popups).
(** All the variables of a name, the visible one first: the LOCAL of the procedure, and those of the procedures from the innermost *)
Definition opt_list {A} (o : option A) : list A := match o with Some x => [x] | None => [] end.
Definition stack (m : memvar V) (k : string) : list V := opt_list (sget (last (local_scopes m) []) k) ++ flat_map (fun d => opt_list (sget d k)) (rev (public_scopes m)).
Definition cstack (c : @chain V) (k : string) : list V := match c with [] => [] | f :: _ => opt_list (loc f k) ++ flat_map (fun f => opt_list (priv f k)) c end.
Lemma stack_R m f r k : R m (f :: r) -> stack m k = cstack (f :: r) k.
Proof.
  intros [Hp Hl]. unfold stack, cstack. f_equal.
  - inversion Hl as [|d0 f0 ls c0 Hd0 Hl0 E0 E1]; subst. apply (f_equal (@rev _)) in E0. rewrite rev_involutive in E0. cbn [rev] in E0. rewrite <- E0, last_last, Hd0. reflexivity.
  - clear Hl. induction Hp as [|d x l c A F IH]; [reflexivity|]. cbn [flat_map]. rewrite (A k), IH. reflexivity.
Qed.
Lemma priv_del (c : @chain V) k k' : flat_map (fun f => opt_list (priv f k')) (priv_rebind c k None) = let l := flat_map (fun f => opt_list (priv f k')) c in if String.eqb k' k then tl l else l.
Proof.
  induction c as [|f c IH]; [cbn; destruct (String.eqb k' k); reflexivity|]. cbn [priv_rebind]. destruct (priv f k) eqn:P; cbn [flat_map priv set_priv].
  - unfold bind. destruct (String.eqb_spec k' k) as [E|N]; [subst k'; rewrite P|]; reflexivity.
  - rewrite IH. cbv zeta. clear IH. destruct (String.eqb_spec k' k) as [E|N]; [subst k'; rewrite P|]; reflexivity.
Qed.
Lemma rebind_cons (f : @frame V) r k : exists f' r', rebind (f :: r) k None = f' :: r'.
Proof. unfold rebind, priv_rebind. destruct (loc f k); [eauto|]. destruct (priv f k); eauto. Qed.
Lemma cstack_del (f : @frame V) r k k' : cstack (rebind (f :: r) k None) k' = if String.eqb k' k then tl (cstack (f :: r) k') else cstack (f :: r) k'.
Proof.
  unfold rebind. destruct (loc f k) eqn:L.
  - cbn [cstack set_loc loc flat_map priv]. unfold bind. destruct (String.eqb_spec k' k) as [E|N]; [subst k'; rewrite L|]; reflexivity.
  - pose proof (priv_del (f :: r) k k') as P. cbv zeta in P. assert (X : cstack (priv_rebind (f :: r) k None) k' = (opt_list (loc f k') ++ flat_map (fun f => opt_list (priv f k')) (priv_rebind (f :: r) k None))%list) by (cbn [priv_rebind]; destruct (priv f k); reflexivity).
    rewrite X, P. unfold cstack. destruct (String.eqb_spec k' k) as [E|N]; [subst k'; rewrite L|]; reflexivity.
Qed.
Lemma dels_stack l : forall m f r, NoDup l -> R m (f :: r) -> (exists f' r', R (fold_left mem_del l m) (f' :: r')) /\ forall k, stack (fold_left mem_del l m) k = if existsb (String.eqb k) l then tl (stack m k) else stack m k.
Proof.
  induction l as [|n l IH]; intros m f r ND HR; [split; [eauto|reflexivity]|]. inversion ND as [|? ? N1 N2]; subst. cbn [fold_left existsb]. pose proof (del_R m _ n HR) as R1. destruct (rebind_cons f r n) as (f' & r' & E). rewrite E in R1. destruct (IH _ _ _ N2 R1) as [A B]. split; [exact A|]. intros k. rewrite B.
  rewrite (stack_R _ _ _ k R1), (stack_R _ _ _ k HR), <- E, cstack_del. destruct (String.eqb_spec k n) as [->|N]; [|destruct (existsb (String.eqb k) l); reflexivity]. cbn [orb].
  replace (existsb (String.eqb n) l) with false; [reflexivity|]. symmetry. apply not_true_is_false. rewrite existsb_exists. intros (x & I & X). apply String.eqb_eq in X. subst x. contradiction.
Qed.
Lemma get_stack m f r k : R m (f :: r) -> mem_get m k = match stack m k with v :: _ => Ok v | [] => Err NameError end.
Proof.
  intros HR. rewrite (get_refines m _ k HR), (stack_R m f r k HR). unfold cstack. cbn [lookup]. destruct (loc f k); [reflexivity|]. cbn [opt_list app]. generalize (f :: r) as c. induction c as [|x c IH]; [reflexivity|]. cbn [priv_lookup flat_map]. destruct (priv x k); [reflexivity|exact IH].
Qed.
Definition not_this (l : list string) : Prop := Forall (fun n => n <> "this" /\ n <> "thisform") l.
Lemma rest_same l : not_this l -> filter (fun a => negb ((String.eqb a "this" || String.eqb a "thisform"))) l = l /\ filter (fun a => (String.eqb a "this" || String.eqb a "thisform")) l = [].
Proof.
  induction 1 as [|n l [A B] F [IH1 IH2]]; [split; reflexivity|]. cbn [filter]. destruct (String.eqb_spec n "this"); [congruence|]. destruct (String.eqb_spec n "thisform"); [congruence|]. cbn [orb negb]. rewrite IH1, IH2. split; reflexivity.
Qed.
Lemma release_vars w ext l m : w <> RPopup -> not_this l -> l <> [] -> rexec_all m (release w ext l) = (Ok tt, fold_left mem_del l m).
Proof.
  intros W N NE. destruct (rest_same l N) as [A B]. destruct w; [| |congruence]; unfold release; rewrite A, B; cbn [map app]; (destruct l as [|x l]; [congruence|]); reflexivity.
Qed.
(** RELEASE a, b: of each name the visible variable goes and the next one, if any, becomes visible; no other variable changes *)
Theorem C89_variables m l : reachable V pyfalse m -> not_this l -> NoDup l -> l <> [] -> exists m', rexec_all m (release RVars false l) = (Ok tt, m') /\
  (forall k, stack m' k = if existsb (String.eqb k) l then tl (stack m k) else stack m k) /\ (forall k, mem_get m' k = match stack m' k with v :: _ => Ok v | [] => Err NameError end).
Proof.
  intros H N ND NE. destruct (reachable_R V pyfalse m H) as (_ & f & r & HR). exists (fold_left mem_del l m). split; [apply release_vars; [discriminate|exact N|exact NE]|]. destruct (dels_stack l m f r ND HR) as [(f' & r' & R') B]. split; [exact B|]. intros k. apply (get_stack _ _ _ _ R').
Qed.
(** RELEASE ALL: the variables of the procedure go, those of the calling procedures stay *)
Theorem C89_all m : reachable V pyfalse m -> exists m', rexec_all m release_all = (Ok tt, m') /\ (forall k, stack m' k = flat_map (fun d => opt_list (sget d k)) (tl (rev (public_scopes m)))) /\ (forall k, mem_get m' k = match stack m' k with v :: _ => Ok v | [] => Err NameError end).
Proof.
  intros H. destruct (reachable_R V pyfalse m H) as (W & f & r & HR). destruct (release_R m f r W HR) as (m' & E & R'). exists m'. split; [cbn; rewrite E; reflexivity|]. split; [|intros k; apply (get_stack _ _ _ _ R')].
  intros k. rewrite (stack_R _ _ _ k R'). unfold cstack. cbn [loc no_bindings opt_list app flat_map priv]. destruct HR as [Hp _]. inversion Hp as [|d0 f0 ls c0 Hd0 Hl0 E0 E1]; subst. cbn [tl]. clear -Hl0. induction Hl0 as [|d x l c A F IH]; [reflexivity|]. cbn [flat_map]. rewrite (A k), IH. reflexivity.
Qed.
(** RELEASE CLASSLIB releases the variables of those names *)
Theorem C89_classlib_refuted m n v st : reachable V pyfalse m -> not_this [n] -> stack m n = v :: st -> stack (snd (rexec_all m (release RClasslib false [n]))) n = st.
Proof.
  intros H N S. destruct (reachable_R V pyfalse m H) as (_ & f & r & HR). rewrite release_vars by (try discriminate; exact N). cbn [snd]. destruct (dels_stack [n] m f r ltac:(constructor; [intros []|constructor]) HR) as [_ B]. rewrite B. cbn [existsb]. rewrite String.eqb_refl, S. reflexivity.
Qed.
(** RELEASE THIS and RELEASE THISFORM always fail, and the variables named with them are not released *)
Theorem C89_this_refuted m w ext l : w <> RPopup -> In "this" l \/ In "thisform" l -> rexec_all m (release w ext l) = (Err TypeError, m).
Proof.
  intros W H. assert (G : exists a q, filter (fun a => (String.eqb a "this" || String.eqb a "thisform")) l = a :: q).
  { assert (X : exists n, In n (filter (fun a => (String.eqb a "this" || String.eqb a "thisform")) l)) by (destruct H as [H|H]; eexists; apply filter_In; split; try exact H; reflexivity). destruct (filter _ l) as [|a q]; [destruct X as (? & [])|eauto]. }
  destruct G as (a & q & G). destruct w; [| |congruence]; unfold release; rewrite G; cbn [map app M_Decl.rexec_all]; destruct (String.eqb a "this"); reflexivity.
Qed.
(** RELEASE POPUP always fails *)
Theorem C89_popup_refuted m ext l : popups = None -> rexec_all m (release RPopup ext l) = (Err GenericException, m).
Proof. intros E. cbn. rewrite E. reflexivity. Qed.
End C89.
Print Assumptions C89_variables.
Print Assumptions C89_all.
Print Assumptions C89_classlib_refuted.
Print Assumptions C89_this_refuted.
Print Assumptions C89_popup_refuted.
Example C89_example : map (rstmt_code (fun _ => true)) (release RVars false ["w"; "this"; "x"]) = [u "self.release()()"; u "del M.w, M.x"] /\
  map (rstmt_code (fun _ => true)) (release RPopup true ["p"]) = [u "F.release_popups('p', extended=True)"] /\
  let m := snd (mem_run 0 mem_init [OPush; OSet "x" 1; OPush; OAddPrivate ["x"] []; OSet "x" 2; OAddLocal ["x"] []; OSet "x" 3]) in
  stack m "x" = [3; 2; 1] /\ stack (snd (rexec_all Z None m (release RVars false ["x"; "y"]))) "x" = [2; 1] /\ stack (snd (rexec_all Z None m release_all)) "x" = [1].
Proof. vm_compute. repeat split. Qed.
