(** Inlined functions on numbers, logical values and NULL (vfp2py_convert_visitor.py, func_call): property C107. *)
From Verif Require Import PyBase PyStr S_Py P_Py S_PyEval M_Conv S_Conv P_Conv S_Inline P_Inline S_Logic.
Open Scope Z_scope.

(** ** The levels at which arguments are emitted *)
Lemma pl_not_comparison lib t : produced t -> tame lib t -> not_comparison t -> (9 <= pl t)%nat.
Proof.
  unfold not_comparison. induction t as [s|n|s|b| |e IH|m e IH|e IH|o a b IHa IHb|o a b IHa IHb|a b IHa IHb|a b IHa IHb|f l IH] using ctx_ind'; intros P T H; cbn [pl]; try lia; try contradiction.
  - exact (IH P T H).
  - destruct m; [lia|]. destruct T as (T & C & _). pose proof (pl_core lib e T C). lia.
  - destruct P as [P _]. destruct o; try discriminate P; cbn; lia.
Qed.
Lemma pl_no_sum lib t : produced t -> tame lib t -> no_sum t -> (10 <= pl t)%nat.
Proof.
  unfold no_sum. induction t as [s|n|s|b| |e IH|m e IH|e IH|o a b IHa IHb|o a b IHa IHb|a b IHa IHb|a b IHa IHb|f l IH] using ctx_ind'; intros P T H; cbn [pl]; try lia; try contradiction.
  - exact (IH P T H).
  - destruct m; [lia|]. destruct T as (T & C & _). pose proof (pl_core lib e T C). lia.
  - destruct P as [P _]. cbn [core] in H. destruct o; try discriminate P; cbn; try lia; contradiction.
Qed.
Lemma pl_no_product lib t : produced t -> tame lib t -> no_product t -> (11 <= pl t)%nat.
Proof.
  unfold no_product. induction t as [s|n|s|b| |e IH|m e IH|e IH|o a b IHa IHb|o a b IHa IHb|a b IHa IHb|a b IHa IHb|f l IH] using ctx_ind'; intros P T H; cbn [pl]; try lia; try contradiction.
  - exact (IH P T H).
  - destruct m; [lia|]. destruct T as (T & C & _). pose proof (pl_core lib e T C). lia.
  - destruct P as [P _]. cbn [core] in H. destruct o; try discriminate P; cbn; try lia; contradiction.
Qed.
(* only a comparison has a logical value other than a variable or constant *)
Lemma core_mean t : mean (core t) = mean t.
Proof. induction t; try reflexivity. exact IHt. Qed.
Lemma chain_PB env l : forall x v, chain env x l = Some v -> exists b, v = PB b.
Proof.
  induction l as [|[o b] l IH]; intros x v H; cbn [chain] in H; [injection H as <-; eexists; reflexivity|].
  destruct x as [x|]; [|discriminate H]. destruct (pev env b) as [y|]; [|discriminate H]. destruct (cmp o x y) as [[]|]; [exact (IH _ _ H)|injection H as <-; eexists; reflexivity|discriminate H].
Qed.
Lemma value_not_comparison env t v : pev env (mean t) = Some v -> (forall b, v <> PB b) -> not_comparison t.
Proof.
  intros H N. unfold not_comparison. rewrite <- core_mean in H. destruct (core t); try exact I. cbn [mean] in H. rewrite pev_cmp in H.
  destruct (chain_PB _ _ _ _ H) as [c ->]. exact (N c eq_refl).
Qed.
Lemma at_level lib env t v l : valued lib env t v -> (l <= pl t)%nat -> exists e, Pr l (repr (conv lib false (clean t))) e /\ pev env e = Some v.
Proof. intros (P & T & H) L. destruct (tame_code env lib t v P T H false) as (e & Pe & V). exists e. split; [exact (Pr_down l (pl t) _ _ L (pl_le t) Pe)|exact V]. Qed.
Lemma num9 lib env t n : number lib env t n -> exists e, Pr 9 (repr (conv lib false (clean t))) e /\ pev env e = Some (PI n).
Proof. intros (P & T & H). apply (at_level lib env t (PI n)); [exact (conj P (conj T H))|]. apply (pl_not_comparison lib); [exact P|exact T|]. apply (value_not_comparison env t (PI n) H). discriminate. Qed.
Lemma val9 lib env t v : valued lib env t v -> not_comparison t -> exists e, Pr 9 (repr (conv lib false (clean t))) e /\ pev env e = Some v.
Proof. intros (P & T & H) N. apply (at_level lib env t v); [exact (conj P (conj T H))|]. exact (pl_not_comparison lib t P T N). Qed.
Lemma unique env ts v w : py_value env ts v -> py_value env ts w -> v = w.
Proof. intros (e & P & V) (e' & P' & V'). rewrite (py_parse_det _ _ _ P P') in V. rewrite V in V'. injection V' as <-. reflexivity. Qed.

(** ** MOD *)
Theorem C107_mod_partial lib env a b x y : number lib env a x -> number lib env b y -> y <> 0 -> no_sum a -> no_product b ->
  exists r, py_value env (code lib (call "mod" [a; b])) (PI r) /\ fox_mod x y r.
Proof.
  intros Ha Hb Hy Na Nb. exists (x mod y).
  destruct (at_level lib env a (PI x) 10 Ha (pl_no_sum lib a (proj1 Ha) (proj1 (proj2 Ha)) Na)) as (ea & Pa & Va).
  destruct (at_level lib env b (PI y) 11 Hb (pl_no_product lib b (proj1 Hb) (proj1 (proj2 Hb)) Nb)) as (eb & Pb & Vb).
  split.
  - apply (value_of env 13 _ (EBin OMod ea eb)); [lia| |].
    + apply Pr_paren. apply (Pr_down 0 10); [lia|lia|]. exact (Pr_bin OMod _ _ _ _ eq_refl Pa Pb).
    + cbn [pev]. rewrite Va, Vb. cbn [bin]. destruct (Z.eqb_spec y 0); [contradiction|reflexivity].
  - split; [exists (x / y); rewrite (Z.mul_comm (x / y)); apply Z.div_mod; exact Hy|].
    destruct (Z.lt_ge_cases 0 y); [left; apply Z.mod_pos_bound; lia|right; apply Z.mod_neg_bound; lia].
Qed.
Print Assumptions C107_mod_partial.
Lemma fox_mod_unique x y r : fox_mod x y r -> r = x mod y.
Proof.
  intros [[q ->] [H | H]]; [apply (Z.mod_unique_pos (q * y + r) y q r); [exact H|lia]|apply (Z.mod_unique_neg (q * y + r) y q r); [exact H|lia]].
Qed.
Ltac parse := apply (parses 100); intros m; vm_compute; reflexivity.
(** The code puts no parentheses around the arguments: MOD(x + y, z) computes x + (y mod z), MOD(x, y * z) computes (x mod y) * z. *)
Theorem C107_mod_sum_refuted lib env a b c x y z : env a = Some (PI x) -> env b = Some (PI y) -> env c = Some (PI z) -> 0 < z ->
  let code := code lib (call "mod" [CSub (CBin OAdd (CVar a) (CVar b)); CVar c]) in
  py_value env code (PI (x + y mod z)) /\ (z <= Z.abs x -> forall r, fox_mod (x + y) z r -> ~ py_value env code (PI r)).
Proof.
  intros Ha Hb Hc Hz ts.
  assert (X : py_value env ts (PI (x + y mod z))).
  { exists (EBin OAdd (EAttr (EName (u "S")) a) (EBin OMod (EAttr (EName (u "S")) b) (EAttr (EName (u "S")) c))). split; [parse|].
    cbn [pev]. change (is_u (u "S") "S") with true. cbv iota. rewrite Ha, Hb, Hc. cbn [bin]. destruct (Z.eqb_spec z 0); [lia|reflexivity]. }
  split; [exact X|]. intros Hx r Hr V. pose proof (unique _ _ _ _ X V) as E. injection E as E. pose proof (fox_mod_unique _ _ _ Hr) as R.
  pose proof (Z.mod_pos_bound y z Hz). pose proof (Z.mod_pos_bound (x + y) z Hz). lia.
Qed.
Print Assumptions C107_mod_sum_refuted.
Theorem C107_mod_product_refuted lib env a b c x y z : env a = Some (PI x) -> env b = Some (PI y) -> env c = Some (PI z) -> 0 < y -> 0 < z ->
  let code := code lib (call "mod" [CVar a; CSub (CBin OMul (CVar b) (CVar c))]) in
  py_value env code (PI (x mod y * z)) /\ (x mod z <> 0 -> forall r, fox_mod x (y * z) r -> ~ py_value env code (PI r)).
Proof.
  intros Ha Hb Hc Hy Hz ts.
  assert (X : py_value env ts (PI (x mod y * z))).
  { exists (EBin OMul (EBin OMod (EAttr (EName (u "S")) a) (EAttr (EName (u "S")) b)) (EAttr (EName (u "S")) c)). split; [parse|].
    cbn [pev]. change (is_u (u "S") "S") with true. cbv iota. rewrite Ha, Hb, Hc. cbn [bin]. destruct (Z.eqb_spec y 0); [lia|reflexivity]. }
  split; [exact X|]. intros Hx r Hr V. pose proof (unique _ _ _ _ X V) as E. injection E as E. destruct Hr as [[q Q] _]. apply Hx.
  rewrite Q, <- E. replace (q * (y * z) + x mod y * z) with ((q * y + x mod y) * z) by ring. apply Z.mod_mul. lia.
Qed.
Print Assumptions C107_mod_product_refuted.

(** ** BETWEEN, INLIST *)
Theorem C107_between lib env a b c x lo hi : number lib env a x -> number lib env b lo -> number lib env c hi ->
  exists r, py_value env (code lib (call "between" [a; b; c])) (PB r) /\ (r = true <-> lo <= x <= hi).
Proof.
  intros Ha Hb Hc. exists ((lo <=? x) && (x <=? hi))%bool. destruct (num9 _ _ _ _ Ha) as (ea & Pa & Va). destruct (num9 _ _ _ _ Hb) as (eb & Pb & Vb). destruct (num9 _ _ _ _ Hc) as (ec & Pc & Vc).
  split; [|rewrite andb_true_iff, !Z.leb_le; reflexivity].
  apply (value_of env 13 _ (ECmp eb [(OLe, ea); (OLe, ec)])); [lia| |].
  - apply Pr_paren. apply (Pr_down 0 4); [lia|lia|].
    exact (Pr_cmp2 OLe OLe _ _ _ _ _ _ eq_refl eq_refl (Pr_down 5 9 _ _ ltac:(lia) ltac:(lia) Pb) (Pr_down 5 9 _ _ ltac:(lia) ltac:(lia) Pa) (Pr_down 5 9 _ _ ltac:(lia) ltac:(lia) Pc)).
  - rewrite pev_cmp. cbn [chain]. rewrite Va, Vb, Vc. cbn [cmp]. destruct (lo <=? x); [|reflexivity]. destruct (x <=? hi); reflexivity.
Qed.
Print Assumptions C107_between.

Lemma all0 lib env l vs : Forall2 (valued lib env) l vs -> exists es, Forall2 (Pr 0) (map repr (map (conv lib false) (map clean l))) es /\ evall env es = Some vs.
Proof.
  induction 1 as [|t v l vs (P & T & H) F (es & Q & V)]; [exists []; split; [constructor|reflexivity]|].
  destruct (any0 env lib t v P T H) as (e & Pe & Ve). exists (e :: es). split; [constructor; assumption|]. cbn [evall]. rewrite Ve, V. reflexivity.
Qed.
Lemma pev_tuple env l : pev env (ETuple l) = option_map PT (evall env l).
Proof. reflexivity. Qed.
Lemma inlist_code lib env a l v vs : valued lib env a v -> not_comparison a -> Forall2 (valued lib env) l vs -> l <> [] ->
  py_value env (code lib (call "inlist" (a :: l))) (PB (existsb (veq v) vs)).
Proof.
  intros Ha Na F Nl. destruct (val9 _ _ _ _ Ha Na) as (ea & Pa & Va). destruct (all0 _ _ _ _ F) as (es & Q & V).
  assert (X : Pr 13 (match map (conv lib false) (map clean l) with [x] => Lp :: repr x ++ [Comma; Rp] | l => Lp :: sep (map repr l) ++ [Rp] end) (ETuple es)).
  { destruct l as [|t1 [|t2 l]]; [contradiction| |].
    - cbn [map] in *. inversion Q as [|? e1 ? ? P1 N]; subst. inversion N; subst. apply Pr_tuple1. exact P1.
    - cbn [map] in *. inversion Q as [|? e1 ? es1 P1 N]; subst. rewrite sep_commas. cbn [commas].
      match goal with |- Pr 13 (Lp :: (?p ++ Comma :: ?q) ++ ?r) _ => replace (Lp :: (p ++ Comma :: q) ++ r) with (Lp :: p ++ Comma :: q ++ r) by (rewrite <- app_assoc; reflexivity) end.
      apply (Pr_tuple _ _ _ _ P1 N). discriminate. }
  apply (value_of env 13 _ (ECmp ea [(OIn, ETuple es)])); [lia| |].
  - change (code lib (call "inlist" (a :: l))) with (paren (repr (conv lib false (clean a)) ++ Op OIn :: match map (conv lib false) (map clean l) with [x] => Lp :: repr x ++ [Comma; Rp] | l => Lp :: sep (map repr l) ++ [Rp] end)).
    apply Pr_paren. apply (Pr_down 0 4); [lia|lia|]. exact (Pr_cmp OIn _ _ _ _ eq_refl (Pr_down 5 9 _ _ ltac:(lia) ltac:(lia) Pa) (Pr_down 5 13 _ _ ltac:(lia) ltac:(lia) X)).
  - rewrite pev_cmp. cbn [chain]. rewrite Va, pev_tuple, V. cbn [option_map cmp]. assert (C : cmp OIn v (PT vs) = Some (existsb (veq v) vs)) by (destruct v; reflexivity). rewrite C. destruct (existsb (veq v) vs); reflexivity.
Qed.
Lemma Forall2_map_r {A B C} (R : A -> C -> Prop) (f : B -> C) l m : Forall2 (fun x y => R x (f y)) l m -> Forall2 R l (map f m).
Proof. induction 1; constructor; assumption. Qed.
Theorem C107_inlist_numbers lib env a l x ns : number lib env a x -> Forall2 (number lib env) l ns -> l <> [] ->
  exists r, py_value env (code lib (call "inlist" (a :: l))) (PB r) /\ (r = true <-> In x ns).
Proof.
  intros Ha F Nl. eexists. split.
  - apply (inlist_code lib env a l (PI x) (map PI ns)); [exact Ha|apply (value_not_comparison env a (PI x) (proj2 (proj2 Ha))); discriminate|apply Forall2_map_r; exact F|exact Nl].
  - rewrite existsb_exists. setoid_rewrite in_map_iff. split.
    + intros (w & (n & <- & I) & E). cbn in E. apply Z.eqb_eq in E. subst. exact I.
    + intros I. exists (PI x). split; [exists x; split; [reflexivity|exact I]|apply Z.eqb_refl].
Qed.
Print Assumptions C107_inlist_numbers.
Theorem C107_inlist_strings lib env a l x ss : string_ lib env a x -> Forall2 (string_ lib env) l ss -> l <> [] ->
  exists r, py_value env (code lib (call "inlist" (a :: l))) (PB r) /\ (r = true <-> In x ss).
Proof.
  intros Ha F Nl. eexists. split.
  - apply (inlist_code lib env a l (PS x) (map PS ss)); [exact Ha|apply (value_not_comparison env a (PS x) (proj2 (proj2 Ha))); discriminate|apply Forall2_map_r; exact F|exact Nl].
  - rewrite existsb_exists. setoid_rewrite in_map_iff. split.
    + intros (w & (n & <- & I) & E). cbn in E. destruct (pystr_eqb_spec x n); [subst; exact I|discriminate E].
    + intros I. exists (PS x). split; [exists x; split; [reflexivity|exact I]|]. cbn. destruct (pystr_eqb_spec x x); [reflexivity|contradiction].
Qed.
Print Assumptions C107_inlist_strings.

(** ** EMPTY, EVL, NVL, ISNULL *)
Definition scalar (v : pval) : Prop := match v with PT _ => False | _ => True end.
Lemma is_not_none env ea v : pev env ea = Some v -> scalar v -> pev env (ECmp ea [(OIsNot, EName (u "None"))]) = Some (PB (match v with PN => false | _ => true end)).
Proof. intros V S. rewrite pev_cmp. cbn [chain]. rewrite V. destruct v; try contradiction; reflexivity. Qed.
Lemma not_none_Pr lib env a v : valued lib env a v -> not_comparison a -> scalar v -> exists ea, Pr 9 (repr (conv lib false (clean a))) ea /\ pev env ea = Some v /\
  Pr 4 (repr (conv lib false (clean a)) ++ Op OIsNot :: name "None") (ECmp ea [(OIsNot, EName (u "None"))]) /\
  pev env (ECmp ea [(OIsNot, EName (u "None"))]) = Some (PB (match v with PN => false | _ => true end)).
Proof.
  intros Ha Na S. destruct (val9 _ _ _ _ Ha Na) as (ea & Pa & Va). exists ea. split; [exact Pa|]. split; [exact Va|]. split; [|exact (is_not_none env ea v Va S)].
  exact (Pr_cmp OIsNot _ _ _ _ eq_refl (Pr_down 5 9 _ _ ltac:(lia) ltac:(lia) Pa) (Pr_down 5 13 _ _ ltac:(lia) ltac:(lia) (Pr_id (u "None")))).
Qed.
Theorem C107_nvl_partial lib env a b v w : valued lib env a v -> not_comparison a -> scalar v -> valued lib env b w ->
  py_value env (code lib (call "nvl" [a; b])) (fox_nvl v w).
Proof.
  intros Ha Na S Hb. destruct (not_none_Pr _ _ _ _ Ha Na S) as (ea & Pa & Va & Pc & Vc). destruct Hb as (P & T & H). destruct (any0 env lib b w P T H) as (eb & Pb & Vb).
  apply (value_of env 13 _ (EIf (ECmp ea [(OIsNot, EName (u "None"))]) ea eb)); [lia| |].
  - apply Pr_paren. exact (Pr_if _ _ _ _ _ _ (Pr_down 1 9 _ _ ltac:(lia) ltac:(lia) Pa) (Pr_down 1 4 _ _ ltac:(lia) ltac:(lia) Pc) Pb).
  - assert (X : forall c x y, pev env (EIf c x y) = match pev env c with Some v => if truth v then pev env x else pev env y | None => None end) by reflexivity.
    rewrite X, Vc. destruct v; try exact Va. exact Vb.
Qed.
Print Assumptions C107_nvl_partial.
(** NVL of a comparison: its code tests x == y is not None, and an untrue comparison is taken for NULL. *)
Theorem C107_nvl_comparison_refuted lib env a b c x y w : env a = Some (PI x) -> env b = Some (PI y) -> env c = Some w -> x <> y ->
  py_value env (code lib (call "nvl" [CCmp OEq (CVar a) (CVar b); CVar c])) w.
Proof.
  intros Ha Hb Hc N. set (V s := EAttr (EName (u "S")) s). assert (X : forall s, pev env (V s) = env s) by reflexivity.
  exists (EIf (ECmp (V a) [(OEq, V b); (OIsNot, EName (u "None"))]) (ECmp (V a) [(OEq, V b)]) (V c)). split; [parse|].
  assert (Y : forall c x y, pev env (EIf c x y) = match pev env c with Some v => if truth v then pev env x else pev env y | None => None end) by reflexivity.
  rewrite Y, pev_cmp. cbn [chain]. rewrite !X, Ha, Hb, Hc. cbn [cmp]. destruct (Z.eqb_spec x y); [contradiction|reflexivity].
Qed.
Print Assumptions C107_nvl_comparison_refuted.

Definition not_blank (v : pval) : Prop := match v with PS s => s = [] \/ forallb is_blank s = false | _ => True end.
Lemma empty_truth v : scalar v -> not_blank v -> match v with PN => false | _ => negb (truth v) end = fox_empty v.
Proof. destruct v as [n|s|b| |l]; intros S N; try reflexivity; [apply negb_involutive| |contradiction]. cbn in *. destruct N as [-> | N]; [reflexivity|]. rewrite N. destruct s; [discriminate N|reflexivity]. Qed.
Lemma empty_code lib env a v : valued lib env a v -> not_comparison a -> scalar v ->
  py_value env (code lib (call "empty" [a])) (PB (match v with PN => false | _ => negb (truth v) end)).
Proof.
  intros Ha Na S. destruct (not_none_Pr _ _ _ _ Ha Na S) as (ea & Pa & Va & Pc & Vc).
  apply (value_of env 13 _ (EIf (ECmp ea [(OIsNot, EName (u "None"))]) (ENot ea) (EName (u "False")))); [lia| |].
  - apply Pr_paren. refine (Pr_if (Not :: _) _ _ _ _ _ (Pr_down 1 3 _ _ ltac:(lia) ltac:(lia) (Pr_not _ _ (Pr_down 3 9 _ _ ltac:(lia) ltac:(lia) Pa))) (Pr_down 1 4 _ _ ltac:(lia) ltac:(lia) Pc) (Pr_down 0 13 _ _ ltac:(lia) ltac:(lia) (Pr_id (u "False")))).
  - assert (Y : forall c x y, pev env (EIf c x y) = match pev env c with Some v => if truth v then pev env x else pev env y | None => None end) by reflexivity.
    assert (Z : forall e, pev env (ENot e) = match pev env e with Some v => Some (PB (negb (truth v))) | None => None end) by reflexivity.
    rewrite Y, Vc. destruct v; cbn [truth]; rewrite ?Z, ?Va; reflexivity.
Qed.
Theorem C107_empty_partial lib env a v : valued lib env a v -> not_comparison a -> scalar v -> not_blank v ->
  py_value env (code lib (call "empty" [a])) (PB (fox_empty v)).
Proof. intros Ha Na S N. rewrite <- (empty_truth v S N). exact (empty_code lib env a v Ha Na S). Qed.
Print Assumptions C107_empty_partial.
(** A string of blanks is empty in FoxPro. *)
Theorem C107_empty_blanks_refuted lib env a s : string_ lib env a s -> s <> [] -> forallb is_blank s = true ->
  fox_empty (PS s) = true /\ py_value env (code lib (call "empty" [a])) (PB false).
Proof.
  intros Ha N B. split; [exact B|]. assert (X := empty_code lib env a (PS s) Ha (value_not_comparison env a (PS s) (proj2 (proj2 Ha)) ltac:(discriminate)) I).
  destruct s; [contradiction|exact X].
Qed.
Print Assumptions C107_empty_blanks_refuted.
(** EMPTY of a comparison: never true. *)
Theorem C107_empty_comparison_refuted lib env a b x y : env a = Some (PI x) -> env b = Some (PI y) ->
  py_value env (code lib (call "empty" [CCmp OEq (CVar a) (CVar b)])) (PB false).
Proof.
  intros Ha Hb. set (V s := EAttr (EName (u "S")) s). assert (X : forall s, pev env (V s) = env s) by reflexivity.
  exists (EIf (ECmp (V a) [(OEq, V b); (OIsNot, EName (u "None"))]) (ENot (ECmp (V a) [(OEq, V b)])) (EName (u "False"))). split; [parse|].
  assert (Y : forall c x y, pev env (EIf c x y) = match pev env c with Some v => if truth v then pev env x else pev env y | None => None end) by reflexivity.
  assert (Z : forall e, pev env (ENot e) = match pev env e with Some v => Some (PB (negb (truth v))) | None => None end) by reflexivity.
  rewrite Y, Z, !pev_cmp. cbn [chain]. rewrite !X, Ha, Hb. cbn [cmp]. destruct (Z.eqb_spec x y); reflexivity.
Qed.
Print Assumptions C107_empty_comparison_refuted.

Lemma pl_ge4 t : produced t -> (4 <= pl t)%nat.
Proof.
  induction t as [s|n|s|b| |e IH|m e IH|e IH|o a b IHa IHb|o a b IHa IHb|a b IHa IHb|a b IHa IHb|f l IH] using ctx_ind'; intros P; cbn [pl]; try lia.
  - exact (IH P).
  - destruct m; [lia|]. exact (IH (proj2 P)).
  - destruct P as [P _]. destruct o; try discriminate P; cbn; lia.
Qed.
Lemma evl_code lib env a b v w : valued lib env a v -> valued lib env b w -> py_value env (code lib (call "evl" [a; b])) (if truth v then v else w).
Proof.
  intros Ha Hb. destruct (at_level lib env a v 4 Ha (pl_ge4 a (proj1 Ha))) as (ea & Pa & Va). destruct (at_level lib env b w 4 Hb (pl_ge4 b (proj1 Hb))) as (eb & Pb & Vb).
  apply (value_of env 13 _ (EBin OOr ea eb)); [lia| |].
  - apply Pr_paren. apply (Pr_down 0 1); [lia|lia|]. exact (Pr_bin OOr _ _ _ _ eq_refl (Pr_down 1 4 _ _ ltac:(lia) ltac:(lia) Pa) (Pr_down 2 4 _ _ ltac:(lia) ltac:(lia) Pb)).
  - cbn [pev]. rewrite Va, Vb. destruct (truth v); reflexivity.
Qed.
Theorem C107_evl_partial lib env a b v w : valued lib env a v -> valued lib env b w -> scalar v -> not_blank v -> v <> PN ->
  py_value env (code lib (call "evl" [a; b])) (fox_evl v w).
Proof.
  intros Ha Hb S N NN. unfold fox_evl. rewrite <- (empty_truth v S N). pose proof (evl_code _ _ _ _ _ _ Ha Hb) as X.
  destruct v; try contradiction; cbn [negb] in *; destruct (truth _); exact X.
Qed.
Print Assumptions C107_evl_partial.
(** EVL keeps a string of blanks and replaces NULL: FoxPro does it the other way round. *)
Theorem C107_evl_blanks_refuted lib env a b s w : valued lib env a (PS s) -> valued lib env b w -> s <> [] -> forallb is_blank s = true ->
  fox_evl (PS s) w = w /\ py_value env (code lib (call "evl" [a; b])) (PS s).
Proof. intros Ha Hb N B. split; [unfold fox_evl; cbn; rewrite B; reflexivity|]. pose proof (evl_code _ _ _ _ _ _ Ha Hb) as X. destruct s; [contradiction|exact X]. Qed.
Print Assumptions C107_evl_blanks_refuted.
Theorem C107_evl_null_refuted lib env a b w : valued lib env a PN -> valued lib env b w -> fox_evl PN w = PN /\ py_value env (code lib (call "evl" [a; b])) w.
Proof. intros Ha Hb. split; [reflexivity|]. exact (evl_code _ _ _ _ _ _ Ha Hb). Qed.
Print Assumptions C107_evl_null_refuted.

Theorem C107_isnull lib env a v : valued lib env a v -> not_comparison a -> scalar v ->
  exists r, py_value env (code lib (call "isnull" [a])) (PB r) /\ (r = true <-> v = PN).
Proof.
  intros Ha Na S. destruct (val9 _ _ _ _ Ha Na) as (ea & Pa & Va). exists (match v with PN => true | _ => false end). split; [|destruct v; split; try discriminate; reflexivity].
  apply (value_of env 4 _ (ECmp ea [(OEq, EName (u "None"))])); [lia| |].
  - exact (Pr_cmp OEq _ _ _ _ eq_refl (Pr_down 5 9 _ _ ltac:(lia) ltac:(lia) Pa) (Pr_down 5 13 _ _ ltac:(lia) ltac:(lia) (Pr_id (u "None")))).
  - rewrite pev_cmp. cbn [chain]. rewrite Va. destruct v; try contradiction; reflexivity.
Qed.
Print Assumptions C107_isnull.
(** ISNULL(x) = y becomes the chain x == None == y, which is never true for a logical y. *)
Theorem C107_isnull_compared_refuted lib env a b v r : env a = Some v -> scalar v -> env b = Some (PB r) ->
  py_value env (code lib (CCmp OEq (call "isnull" [CVar a]) (CVar b))) (PB false).
Proof.
  intros Ha S Hb. set (V s := EAttr (EName (u "S")) s). assert (X : forall s, pev env (V s) = env s) by reflexivity.
  exists (ECmp (V a) [(OEq, EName (u "None")); (OEq, V b)]). split; [parse|]. rewrite pev_cmp. cbn [chain]. rewrite !X, Ha, Hb. destruct v; try contradiction; reflexivity.
Qed.
Print Assumptions C107_isnull_compared_refuted.

(** ** IIF *)
Theorem C107_iif lib env c a b r v : valued lib env c (PB r) -> produced a -> tame lib a -> produced b -> tame lib b ->
  pev env (mean (if r then a else b)) = Some v -> py_value env (code lib (call "iif" [c; a; b])) v.
Proof.
  intros Hc Pa Ta Pb Tb H. destruct (at_level lib env c _ 4 Hc (pl_ge4 c (proj1 Hc))) as (ec & Pc & Vc).
  destruct (conv_tame lib a Pa Ta false) as (ea & PPa & Ja & _). destruct (conv_tame lib b Pb Tb false) as (eb & PPb & Jb & _).
  apply (value_of env 13 _ (EIf ec ea eb)); [lia| |].
  - apply Pr_paren. pose proof (pl_ge4 a Pa).
    exact (Pr_if _ _ _ _ _ _ (Pr_down 1 (pl a) _ _ ltac:(lia) (pl_le a) PPa) (Pr_down 1 4 _ _ ltac:(lia) ltac:(lia) Pc) (Pr_down 0 (pl b) _ _ ltac:(lia) (pl_le b) PPb)).
  - assert (Y : forall c x y, pev env (EIf c x y) = match pev env c with Some v => if truth v then pev env x else pev env y | None => None end) by reflexivity.
    rewrite Y, Vc. cbn [truth]. destruct r; [rewrite <- pev_joined, Ja, pev_joined; exact H|rewrite <- pev_joined, Jb, pev_joined; exact H].
Qed.
Print Assumptions C107_iif.

(** ** SIGN, ABS, MAX, MIN, ROUND *)
Theorem C107_sign lib env a x : number lib env a x -> py_value env (code lib (call "sign" [a])) (PI (Z.sgn x)).
Proof.
  intros Ha. destruct (num9 _ _ _ _ Ha) as (ea & Pa & Va).
  assert (C : forall o, level o = 4%nat -> Pr 1 (repr (conv lib false (clean a)) ++ Op o :: [IntT 0]) (ECmp ea [(o, EInt 0)])).
  { intros o Lo. apply (Pr_down 1 4); [lia|lia|]. exact (Pr_cmp o _ _ _ _ Lo (Pr_down 5 9 _ _ ltac:(lia) ltac:(lia) Pa) (Pr_down 5 13 _ _ ltac:(lia) ltac:(lia) (Pr_intt 0))). }
  apply (value_of env 0 _ (EIf (ECmp ea [(OGt, EInt 0)]) (EInt 1) (EIf (ECmp ea [(OLt, EInt 0)]) (EUn UNeg (EInt 1)) (EInt 0)))); [lia| |].
  - refine (Pr_if [IntT 1] _ _ _ _ _ (Pr_down 1 13 _ _ ltac:(lia) ltac:(lia) (Pr_intt 1)) (C OGt eq_refl) _).
    apply (Pr_down 0 13); [lia|lia|]. apply Pr_paren.
    refine (Pr_if [Op OSub; IntT 1] _ _ _ _ _ (Pr_down 1 11 _ _ ltac:(lia) ltac:(lia) (Pr_un (Op OSub) UNeg [IntT 1] _ eq_refl (Pr_down 11 13 _ _ ltac:(lia) ltac:(lia) (Pr_intt 1)))) (C OLt eq_refl) _).
    exact (Pr_down 0 13 _ _ ltac:(lia) ltac:(lia) (Pr_intt 0)).
  - assert (Y : forall c x y, pev env (EIf c x y) = match pev env c with Some v => if truth v then pev env x else pev env y | None => None end) by reflexivity.
    rewrite !Y, !pev_cmp. cbn [chain]. rewrite Va. cbn [pev cmp]. destruct (Z.ltb_spec 0 x); cbn [truth]; [rewrite Z.sgn_pos by exact H; reflexivity|].
    destruct (Z.ltb_spec x 0); cbn [truth]; [rewrite Z.sgn_neg by exact H0; reflexivity|]. replace x with 0 by lia. reflexivity.
Qed.
Print Assumptions C107_sign.
(** The code of SIGN is not parenthesised: in a product the factor goes to one of its branches only. *)
Theorem C107_sign_factor_refuted lib env a b x y : env a = Some (PI x) -> env b = Some (PI y) ->
  (0 < x -> py_value env (code lib (CBin OMul (call "sign" [CVar a]) (CVar b))) (PI 1)) /\
  (x < 0 -> py_value env (code lib (CBin OMul (CVar b) (call "sign" [CVar a]))) (PI (-1))).
Proof.
  intros Ha Hb. set (V s := EAttr (EName (u "S")) s). assert (X : forall s, pev env (V s) = env s) by reflexivity.
  assert (Y : forall c x y, pev env (EIf c x y) = match pev env c with Some v => if truth v then pev env x else pev env y | None => None end) by reflexivity.
  split; intros Hx.
  - exists (EIf (ECmp (V a) [(OGt, EInt 0)]) (EInt 1) (EBin OMul (EIf (ECmp (V a) [(OLt, EInt 0)]) (EUn UNeg (EInt 1)) (EInt 0)) (V b))). split; [parse|].
    rewrite Y, pev_cmp. cbn [chain]. rewrite X, Ha. cbn [pev cmp]. destruct (Z.ltb_spec 0 x); [reflexivity|lia].
  - exists (EIf (ECmp (V a) [(OGt, EInt 0)]) (EBin OMul (V b) (EInt 1)) (EIf (ECmp (V a) [(OLt, EInt 0)]) (EUn UNeg (EInt 1)) (EInt 0))). split; [parse|].
    rewrite !Y, !pev_cmp. cbn [chain]. rewrite X, Ha. cbn [pev cmp]. destruct (Z.ltb_spec 0 x); [lia|]. destruct (Z.ltb_spec x 0); [reflexivity|lia].
Qed.
Print Assumptions C107_sign_factor_refuted.

Lemma call_code lib env f l vs v : Forall2 (valued lib env) l vs -> code lib (call f l) = repr (func_code [Id (u f)] (map (conv lib false) (map clean l))) ->
  func (u f) vs = Some v -> py_value env (code lib (call f l)) v.
Proof.
  intros F C H. destruct (all0 _ _ _ _ F) as (es & Q & V). rewrite C. apply (value_of env 13 _ (ECall (EName (u f)) es)); [lia| |rewrite pev_call, V; exact H].
  unfold func_code. cbn [repr]. rewrite sep_commas. exact (Pr_call [Id (u f)] _ _ _ (Pr_id (u f)) Q).
Qed.
Theorem C107_abs lib env a x : number lib env a x -> py_value env (code lib (call "abs" [a])) (PI (Z.abs x)).
Proof. intros Ha. apply (call_code lib env "abs" [a] [PI x]); [repeat constructor; apply Ha|reflexivity|reflexivity]. Qed.
Print Assumptions C107_abs.
Lemma extreme_spec pick (le : Z -> Z -> Prop) : (forall a b, pick a b = a \/ pick a b = b) -> (forall a b, le a (pick a b)) -> (forall a b c, le c b -> le c (pick a b)) -> (forall a, le a a) ->
  forall l, l <> [] -> exists m, extreme pick (map PI l) = Some m /\ In m l /\ forall x, In x l -> le x m.
Proof.
  intros H1 H2 H3 H4. induction l as [|n [|k l] IH]; intros N; [contradiction| |].
  - exists n. split; [reflexivity|]. split; [left; reflexivity|]. intros x [<- | []]. apply H4.
  - destruct (IH ltac:(discriminate)) as (m & E & I & M). exists (pick n m). split; [|split].
    + change (extreme pick (map PI (n :: k :: l))) with (match extreme pick (map PI (k :: l)) with Some m => Some (pick n m) | None => None end). rewrite E. reflexivity.
    + destruct (H1 n m) as [-> | ->]; [left; reflexivity|right; exact I].
    + intros x [<- | Hx]; [apply H2|apply H3, M, Hx].
Qed.
Lemma func_extreme (f : string) pick l : (f = "max"%string /\ pick = Z.max \/ f = "min"%string /\ pick = Z.min) -> (2 <= length l)%nat ->
  func (u f) (map PI l) = option_map PI (extreme pick (map PI l)).
Proof. intros [[-> ->] | [-> ->]] L; destruct l as [|a [|b [|c l]]]; cbn in L; try lia; reflexivity. Qed.
Lemma numbers_valued lib env l ns : Forall2 (number lib env) l ns -> Forall2 (valued lib env) l (map PI ns).
Proof. intros F. apply Forall2_map_r. exact F. Qed.
Theorem C107_max lib env l ns : Forall2 (number lib env) l ns -> (2 <= length ns)%nat ->
  exists m, py_value env (code lib (call "max" l)) (PI m) /\ In m ns /\ forall x, In x ns -> x <= m.
Proof.
  intros F L. destruct (extreme_spec Z.max Z.le ltac:(lia) ltac:(lia) ltac:(lia) ltac:(lia) ns) as (m & E & I & M); [destruct ns; [cbn in L; lia|discriminate]|].
  exists m. split; [|split; assumption]. apply (call_code lib env "max" l (map PI ns)); [apply numbers_valued; exact F|reflexivity|].
  rewrite (func_extreme "max" Z.max ns) by (auto; exact L). rewrite E. reflexivity.
Qed.
Print Assumptions C107_max.
Theorem C107_min lib env l ns : Forall2 (number lib env) l ns -> (2 <= length ns)%nat ->
  exists m, py_value env (code lib (call "min" l)) (PI m) /\ In m ns /\ forall x, In x ns -> m <= x.
Proof.
  intros F L. destruct (extreme_spec Z.min Z.ge ltac:(lia) ltac:(lia) ltac:(lia) ltac:(lia) ns) as (m & E & I & M); [destruct ns; [cbn in L; lia|discriminate]|].
  exists m. split; [|split; [exact I|intros x Hx; specialize (M x Hx); lia]]. apply (call_code lib env "min" l (map PI ns)); [apply numbers_valued; exact F|reflexivity|].
  rewrite (func_extreme "min" Z.min ns) by (auto; exact L). rewrite E. reflexivity.
Qed.
Print Assumptions C107_min.

Theorem C107_round_partial lib env a b n d : number lib env a n -> number lib env b d -> ~ halfway n d ->
  exists v, py_value env (code lib (call "round" [a; b])) (PI v) /\ fox_round n d v.
Proof.
  intros Ha Hb N. exists (py_round n d). split; [apply (call_code lib env "round" [a; b] [PI n; PI d]); [repeat constructor; first [apply Ha|apply Hb]|reflexivity|reflexivity]|].
  unfold fox_round, py_round. destruct (Z.leb_spec 0 d); [reflexivity|]. cbn zeta. unfold halfway in N. set (p := 10 ^ (- d)) in *.
  assert (Hp : 0 < p) by (apply Z.pow_pos_nonneg; lia). pose proof (Z.mod_pos_bound n p Hp) as B. pose proof (Z.div_mod n p ltac:(lia)) as D.
  set (q := n / p) in *. set (r := n mod p) in *. clearbody q r p.
  destruct (Z.compare_spec (2 * r) p) as [E | E | E].
  - exfalso. apply N. split; [exact H|exact E].
  - assert (X : n - q * p = r) by lia. split; [exists q; reflexivity|]. rewrite X, Z.abs_eq by lia. split; lia.
  - assert (X : n - (q + 1) * p = r - p) by lia. split; [exists (q + 1); reflexivity|]. rewrite X, Z.abs_neq by lia. split; lia.
Qed.
Print Assumptions C107_round_partial.
(** Half of the numbers half way between two multiples are rounded towards zero. *)
Theorem C107_round_halfway_refuted lib env a b n d : number lib env a n -> number lib env b d -> halfway n d ->
  let q := n / 10 ^ (- d) in (0 <= n /\ Z.even q = true \/ n < 0 /\ Z.even q = false) ->
  forall v, fox_round n d v -> ~ py_value env (code lib (call "round" [a; b])) (PI v).
Proof.
  intros Ha Hb [Hd E] q C v Hv V.
  assert (W : py_value env (code lib (call "round" [a; b])) (PI (py_round n d))) by (apply (call_code lib env "round" [a; b] [PI n; PI d]); [repeat constructor; first [apply Ha|apply Hb]|reflexivity|reflexivity]).
  pose proof (unique _ _ _ _ V W) as Q. injection Q as Q. clear V W. unfold fox_round, py_round in *. destruct (Z.leb_spec 0 d); [lia|]. cbn zeta in *. fold q in Q. set (p := 10 ^ (- d)) in *.
  assert (Hp : 0 < p) by (apply Z.pow_pos_nonneg; lia). pose proof (Z.div_mod n p ltac:(lia)) as D. fold q in D. set (r := n mod p) in *.
  rewrite (proj2 (Z.compare_eq_iff _ _) E) in Q. destruct Hv as (_ & _ & T).
  assert (Hq : 0 <= n -> 0 <= q) by (intros; apply Z.div_pos; lia). assert (Hq' : n < 0 -> q < 0) by (intros; apply Z.div_lt_upper_bound; lia).
  clearbody q r p. destruct C as [[C1 C2] | [C1 C2]]; rewrite C2 in Q; subst v.
  - specialize (Hq C1). assert (X : n - q * p = r) by lia. rewrite X, Z.abs_eq in T by lia. specialize (T E). assert (0 <= q * p) by (apply Z.mul_nonneg_nonneg; lia). rewrite !Z.abs_eq in T by lia. lia.
  - specialize (Hq' C1). assert (X : n - (q + 1) * p = r - p) by lia. rewrite X, Z.abs_neq in T by lia. specialize (T ltac:(lia)).
    assert ((q + 1) * p <= 0) by (apply Z.mul_nonpos_nonneg; lia). rewrite !Z.abs_neq in T by lia. lia.
Qed.
Print Assumptions C107_round_halfway_refuted.

(** ** Instances *)
Definition no_lib : pystr -> bool := fun _ => false.
Definition an_env : pystr -> option pval := fun x =>
  if pystr_eqb x (u "n") then Some (PI 25) else if pystr_eqb x (u "m") then Some (PI (-7)) else if pystr_eqb x (u "s") then Some (PS (u "  ")) else if pystr_eqb x (u "z") then Some PN
  else if pystr_eqb x (u "b") then Some (PB true) else None.
Example C107_example :
  number no_lib an_env (CBin OMul (CVar (u "n")) (CInt 2)) 50 /\ no_sum (CBin OMul (CVar (u "n")) (CInt 2)) /\ no_product (CVar (u "m")) /\ string_ no_lib an_env (CVar (u "s")) (u "  ") /\
  valued no_lib an_env (CVar (u "z")) PN /\ not_comparison (CVar (u "z")) /\ valued no_lib an_env (CCmp OLt (CVar (u "m")) (CVar (u "n"))) (PB true) /\ halfway 25 (-1) /\
  fox_mod 50 (-7) (-6) /\ fox_round 25 (-1) 30 /\ fox_round 26 (-1) 30.
Proof.
  split; [split; [cbn; lia|split; [cbn; tauto|reflexivity]]|]. split; [exact I|]. split; [exact I|]. split; [split; [exact I|split; [exact I|reflexivity]]|].
  split; [split; [exact I|split; [exact I|reflexivity]]|]. split; [exact I|]. split; [split; [cbn; repeat split; lia|split; [cbn; tauto|reflexivity]]|].
  split; [split; [lia|reflexivity]|]. split; [split; [exists (-8); reflexivity|right; lia]|].
  split; (split; [exists 3; reflexivity|]); vm_compute; split; intros; first [discriminate|reflexivity].
Qed.
Example C107_code_example :
  py_value an_env (code no_lib (call "mod" [CBin OMul (CVar (u "n")) (CInt 2); CVar (u "m")])) (PI (-6)) /\
  py_value an_env (code no_lib (call "mod" [CBin OAdd (CVar (u "n")) (CInt 2); CInt 10])) (PI 27) /\
  py_value an_env (code no_lib (call "inlist" [CVar (u "n"); CInt 1; CInt 25])) (PB true) /\
  py_value an_env (code no_lib (call "empty" [CVar (u "s")])) (PB false) /\
  py_value an_env (code no_lib (call "round" [CVar (u "n"); CSign true (CInt 1)])) (PI 20).
Proof. repeat (split; [eexists; (split; [apply (parses 200); intros m; vm_compute; reflexivity|vm_compute; reflexivity])|]). eexists; (split; [apply (parses 200); intros m; vm_compute; reflexivity|vm_compute; reflexivity]). Qed.
