(** The text of a core program: its tokens, and how assignments and loop heads come out. *)
From Verif Require Import PyBase PyStr M_Do S_Py P_Py S_PyEval M_Lit P_Lit M_Stmt S_Stmt M_Conv S_Conv P_Conv P_Bool P_Inline M_Show M_Core P_Fuel S_Lex S_Core P_Lex P_Core1.
Open Scope Z_scope.

(** ** Tokens *)
Definition Good (ts : list tok) : Prop := forall k, k = Tight \/ k = Word -> well k ts = true /\ is_value (ends k ts) = true.
Lemma Good_one t : tok_ok t = true -> match t with Id _ | IntT _ | StrT _ => True | _ => False end -> Good [t].
Proof. intros T H k [-> | ->]; cbn [well ends]; rewrite T; destruct t; try contradiction; split; reflexivity. Qed.
Lemma Good_bin o a b : Good a -> Good b -> match o with OIs | OIsNot => False | _ => True end -> Good (a ++ Op o :: b).
Proof.
  intros Ha Hb Ho k Hk. destruct (Ha k Hk) as [Wa Ea]. destruct (Hb Word (or_intror eq_refl)) as [Wb Eb]. rewrite well_app, ends_app, Wa. cbn [well ends after_tok andb].
  rewrite Ea. split; [|exact Eb]. rewrite Wb, andb_true_r. destruct (ends k a); try discriminate Ea; destruct o; try contradiction; reflexivity.
Qed.
Lemma Good_paren a : Good a -> Good (paren a).
Proof.
  intros Ha k Hk. destruct (Ha Tight (or_introl eq_refl)) as [W E]. unfold paren. change (Lp :: a ++ [Rp]) with ([Lp] ++ a ++ [Rp]). rewrite !well_app, !ends_app.
  destruct Hk as [-> | ->]; cbn [well ends after_tok]; rewrite W; destruct (ends Tight a); try discriminate E; split; reflexivity.
Qed.
Lemma Good_minus a : Good a -> Good (Op OSub :: a).
Proof. intros Ha k Hk. destruct (Ha Tight (or_introl eq_refl)) as [W E]. destruct Hk as [-> | ->]; cbn [well ends after_tok is_value]; rewrite W; split; try exact E; reflexivity. Qed.
Lemma Good_not a : Good a -> Good (Not :: a).
Proof. intros Ha k Hk. destruct (Ha Word (or_intror eq_refl)) as [W E]. destruct Hk as [-> | ->]; cbn [well ends after_tok is_value]; rewrite W; split; try exact E; reflexivity. Qed.
Lemma word_keyword w : word w = None -> one_of keywords w = true.
Proof. unfold word. repeat match goal with |- context [if ?b then _ else _] => destruct b eqn:? end; congruence. Qed.
Lemma name_word x : name_ok x = true -> word x = Some (Id x).
Proof.
  unfold name_ok. rewrite !andb_true_iff, !negb_true_iff. intros [[[_ _] K] _]. unfold word.
  assert (N : forall s, one_of keywords (u s) = true -> is_w x s = false).
  { intros s H. unfold is_w. destruct (pystr_eqb_spec x (u s)) as [->|]; [congruence|reflexivity]. }
  rewrite !N by (vm_compute; reflexivity). cbn [orb]. rewrite K. reflexivity.
Qed.
Lemma name_id x : name_ok x = true -> id_ok x = true.
Proof.
  intros H. unfold id_ok. rewrite (name_word x H), andb_true_r. unfold name_ok in H. rewrite !andb_true_iff in H. destruct H as [[[[H1 H2] _] _] _].
  assert (A : forall c, M_Stmt.lower c || is_digit c || (c =? 95) = true -> word_char c = true /\ (is_digit c = false -> letter_ c = true)).
  { intros c H. unfold word_char, letter_. unfold M_Stmt.lower in H. destruct (is_digit c); [rewrite orb_true_r; split; [reflexivity|discriminate]|]. rewrite orb_false_r in H |- *.
    destruct ((97 <=? c) && (c <=? 122)); [split; reflexivity|]. cbn [orb] in *. rewrite H, orb_true_r. auto. }
  destruct x as [|c x]; [discriminate|]. apply negb_true_iff in H1. cbn [forallb] in *. rewrite andb_true_iff in H2. destruct H2 as [Hc Hx]. destruct (A c Hc) as [Ac Lc].
  rewrite (Lc H1), Ac. cbn [andb]. rewrite forallb_forall in *. intros d Hd. exact (proj1 (A d (Hx d Hd))).
Qed.
Lemma Good_var x : name_ok x = true -> Good (var x).
Proof. intros H k Hk. pose proof (name_id x H) as I. destruct Hk as [-> | ->]; cbn [var well ends after_tok tok_ok fits]; rewrite I; split; reflexivity. Qed.
Lemma Good_int n : Good (repr_int n).
Proof.
  unfold repr_int. destruct (Z.ltb_spec n 0).
  - apply Good_minus, Good_one; [cbn; apply Z.leb_le; lia|exact I].
  - apply Good_one; [cbn; apply Z.leb_le; lia|exact I].
Qed.
Lemma Good_str s : Good [StrT s] -> forallb (fun c => (0 <=? c) && (c <=? 1114111)) s = true.
Proof. intros H. destruct (H Tight (or_introl eq_refl)) as [W _]. cbn [well tok_ok] in W. rewrite !andb_true_iff in W. apply W. Qed.
Lemma Good_wrap p v : Good (repr v) -> (forall s, v <> VStr s) -> Good (wrap p v).
Proof.
  intros G N. unfold wrap. destruct (prec v) as [q|]; [destruct (Nat.ltb q p); [exact (Good_paren _ G)|exact G]|]. destruct v; try exact G. destruct (N s eq_refl).
Qed.
Lemma Good_parens a v : Good (repr v) -> Good (repr (add_parens a v)).
Proof. intros G. unfold add_parens. destruct (is_sub a); [exact (Good_paren _ G)|exact G]. Qed.
Lemma Good_operation o a b : Good (repr a) -> Good (repr b) -> arith_op o = true -> Good (repr (operation o a b)).
Proof.
  intros Ga Gb Ho. assert (X : Good (bin_code o (repr a) (repr b))) by (apply Good_bin; try assumption; destruct o; try discriminate Ho; exact I).
  assert (Z : operation o a b = VCode (bin_code o (repr a) (repr b)) \/ exists x y, o = OAdd /\ a = VStr x /\ b = VStr y).
  { unfold operation. destruct o; try (left; reflexivity). destruct a; try (left; reflexivity). destruct b; try (left; reflexivity). right. eexists _, _. repeat split. }
  destruct Z as [-> | (x & y & -> & -> & ->)]; [exact X|]. cbn [operation repr] in *. apply Good_one; [|exact I]. cbn [tok_ok]. rewrite forallb_app, (Good_str x Ga), (Good_str y Gb). reflexivity.
Qed.
Lemma conv_cbin lib skip o a b : tame lib a -> produced a -> arith_op o = true -> exists a' b', conv lib skip (clean (CBin o a b)) = operation o (add_parens a' (conv lib skip (clean a))) (add_parens b' (conv lib skip (clean b))) /\ (is_sub a = true -> is_sub a' = true) /\ (o <> OPow -> a' = clean a).
Proof.
  intros T P Ho. destruct (conv_tame lib a P T true) as (_ & _ & _ & O). destruct o; try discriminate Ho; cbn [clean].
  1: exists (clean a), (clean b); rewrite conv_add by (exact O || apply extract_none, T); rewrite is_sub_clean; auto.
  5: { rewrite clean_pow_eq, conv_bin, conv_wrap, conv_strip by reflexivity. exists (wrap_pow (clean a)), (strip_pow (clean b)). split; [reflexivity|]. split; [|contradiction].
       intros S. rewrite <- (is_sub_clean a) in S. destruct (clean a); try discriminate S. reflexivity. }
  all: exists (clean a), (clean b); rewrite conv_bin by reflexivity; rewrite is_sub_clean; auto.
Qed.
Lemma conv_csign lib skip e : match e with CSign _ _ => False | _ => True end -> conv lib skip (clean (CSign true e)) = VCode (Op OSub :: repr (conv lib skip (clean e))).
Proof.
  intros H. cbn [clean]. assert (is_sign (clean e) = false) by (rewrite is_sign_clean; destruct e; try reflexivity; contradiction). unfold clean_sign. destruct (clean e); try reflexivity. discriminate.
Qed.
Lemma conv_csub lib skip e : conv lib skip (clean (CSub e)) = conv lib skip (clean e).
Proof. cbn [clean]. destruct (clean e); reflexivity. Qed.
Lemma Good_sep l : l <> [] -> Forall Good l -> Good (sep l).
Proof.
  intros N H. induction H as [|x l Hx Hl IH]; [contradiction|]. destruct l as [|y l]; [exact Hx|]. specialize (IH ltac:(discriminate)). intros k Hk.
  destruct (Hx k Hk) as [W E], (IH Word (or_intror eq_refl)) as [W' E']. change (sep (x :: y :: l)) with (x ++ [Comma] ++ sep (y :: l)). rewrite !well_app, !ends_app, W. cbn [andb ends well after_tok].
  rewrite W', E'. destruct (ends k x); try discriminate E; split; reflexivity.
Qed.
Lemma Good_call f l : id_ok f = true -> l <> [] -> Forall Good l -> Good (Id f :: Lp :: sep l ++ [Rp]).
Proof.
  intros Hf N H k Hk. destruct (Good_sep l N H Tight (or_introl eq_refl)) as [W E]. change (Id f :: Lp :: sep l ++ [Rp]) with ([Id f] ++ [Lp] ++ sep l ++ [Rp]). rewrite !well_app, !ends_app.
  destruct Hk as [-> | ->]; cbn [well ends after_tok tok_ok fits]; rewrite Hf, W; destruct (ends Tight (sep l)); try discriminate E; split; reflexivity.
Qed.
Lemma Good_ternary a b c : Good a -> Good b -> Good c -> Good (ternary a b c).
Proof.
  intros Ha Hb Hc k Hk. destruct (Ha k Hk) as [Wa Ea], (Hb Word (or_intror eq_refl)) as [Wb Eb], (Hc Word (or_intror eq_refl)) as [Wc Ec]. unfold ternary.
  change (a ++ S_Py.If :: b ++ S_Py.Else :: c) with (a ++ [S_Py.If] ++ b ++ [S_Py.Else] ++ c). rewrite !well_app, !ends_app. cbn [well ends after_tok tok_ok]. rewrite Wa, Wb, Wc. split; [|exact Ec].
  destruct (ends k a); try discriminate Ea; destruct (ends Word b); try discriminate Eb; reflexivity.
Qed.
Lemma plain_call f args : plain_expr (CCall f args) = true -> (f = u "iif" \/ f = u "between" \/ f = u "mod" \/ isin f same_name = true) /\ Forall (fun t => plain_expr t = true) args.
Proof.
  cbn [plain_expr]. unfold isin, is, functions_followed. cbn [existsb app]. rewrite andb_true_iff. intros [H A]. split; [|apply Forall_forall; rewrite forallb_forall in A; exact A].
  destruct (pystr_eqb_spec f (u "iif")); [auto|]. destruct (pystr_eqb_spec f (u "between")); [auto|]. destruct (pystr_eqb_spec f (u "mod")); [auto|]. auto.
Qed.
Lemma plain_builtin lib f args : plain_expr (CCall f args) = true -> own_function lib f \/ builtin_ok f args -> builtin_ok f args.
Proof.
  intros H [(_ & N & _) | B]; [|exact B]. exfalso. apply plain_call in H as [H _].
  destruct H as [-> | [-> | [-> | H]]]; try (eapply N; [|reflexivity]; cbn; tauto). destruct (same_name_cases f H) as [-> | [-> | [-> | [-> | ->]]]]; (eapply N; [|reflexivity]; cbn; tauto).
Qed.
Lemma tame_good lib t : produced t -> tame lib t -> plain_expr t = true -> forall skip, Good (repr (conv lib skip (clean t))).
Proof.
  induction t as [s|n|s|b| |e IH|m e IH|e IH|o a b IHa IHb|o a b IHa IHb|a b IHa IHb|a b IHa IHb|f l IH] using ctx_ind'; intros P T H skip; try contradiction; try discriminate.
  - exact (Good_var s H).
  - apply Good_int.
  - apply Good_one; [exact H|exact I].
  - apply Good_one; [destruct b; reflexivity|exact I].
  - apply Good_one; [reflexivity|exact I].
  - rewrite conv_csub. exact (IH P T H skip).
  - destruct m; [|exact (IH (proj2 P) (proj1 T) H skip)]. rewrite conv_csign by (apply T; reflexivity). apply Good_minus. exact (IH (proj2 P) (proj1 T) H skip).
  - destruct P as (Ho & _ & _ & Pa & Pb). destruct T as (Ta & Tb & _). cbn [plain_expr] in H. rewrite andb_true_iff in H. destruct H as [Ha Hb].
    destruct (conv_cbin lib skip o a b Ta Pa Ho) as (a' & b' & -> & _). apply Good_operation; [| |exact Ho]; apply Good_parens; [exact (IHa Pa Ta Ha skip)|exact (IHb Pb Tb Hb skip)].
  - destruct P as (Ho & _ & _ & Pa & Pb). destruct T as (Ta & Tb & _). cbn [plain_expr] in H. rewrite andb_true_iff in H. destruct H as [Ha Hb].
    cbn [clean conv repr]. apply Good_bin; [exact (IHa Pa Ta Ha skip)|exact (IHb Pb Tb Hb skip)|]. destruct o; try discriminate Ho; exact I.
  - destruct T as [B T]. apply (plain_builtin lib f l H) in B. apply plain_call in H as [_ H]. apply all_Forall in T. cbn [produced] in P. apply all_Forall in P.
    assert (G : Forall (fun t => Good (repr (conv lib skip (clean t)))) l) by (rewrite Forall_forall in *; intros t I; exact (IH t I (P t I) (T t I) (H t I) skip)). clear IH P T H.
    cbn [clean]. change (conv lib skip (CCall f (map clean l))) with (func_call lib f (map (conv lib skip) (map clean l))).
    destruct B as [[Hf N] | [(-> & x & y & z & ->) | [(-> & x & y & z & -> & _) | (-> & x & y & -> & _)]]].
    + rewrite func_call_same by exact Hf. unfold func_code. cbn [repr]. apply Good_call; [destruct (same_name_cases f Hf) as [-> | [-> | [-> | [-> | ->]]]]; reflexivity|destruct l; [contradiction|discriminate]|].
      rewrite !map_map. apply Forall_map. exact G.
    + inversion G as [|? ? Gx G1]; subst. inversion G1 as [|? ? Gy G2]; subst. inversion G2 as [|? ? Gz _]; subst. apply (Good_paren (ternary _ _ _)), Good_ternary; assumption.
    + inversion G as [|? ? Gx G1]; subst. inversion G1 as [|? ? Gy G2]; subst. inversion G2 as [|? ? Gz _]; subst. apply (Good_paren (_ ++ Op OLe :: _ ++ Op OLe :: _)).
      apply Good_bin; [exact Gy| |exact I]. apply Good_bin; [exact Gx|exact Gz|exact I].
    + inversion G as [|? ? Gx G1]; subst. inversion G1 as [|? ? Gy _]; subst. apply (Good_paren (bin_code OMod _ _)). apply Good_bin; [exact Gx|exact Gy|exact I].
Qed.
Lemma boolean_good lib t : boolean lib t -> plain_expr t = true -> forall skip, Good (repr (conv lib skip (clean t))).
Proof.
  induction t as [s|n|s|b| |e IH|m e IH|e IH|o a b IHa IHb|o a b IHa IHb|a b IHa IHb|a b IHa IHb|f l IH] using ctx_ind'; intros B H skip;
    try (destruct B as (P & T & _); exact (tame_good lib _ P T H skip)).
  - rewrite conv_csub. exact (IH B H skip).
  - cbn [clean conv]. rewrite repr_not. apply Good_not, Good_wrap; [exact (IH B H skip)|]. intros s E. pose proof (conv_truth (fun _ => None) lib e B skip) as O. rewrite E in O. exact O.
  - cbn [plain_expr] in H. rewrite andb_true_iff in H. destruct H as [Ha Hb], B as [Ba Bb]. cbn [clean conv]. rewrite repr_and. apply Good_bin; [| |exact I].
    + apply Good_wrap; [exact (IHa Ba Ha skip)|]. intros s E. pose proof (conv_truth (fun _ => None) lib a Ba skip) as O. rewrite E in O. exact O.
    + apply Good_wrap; [exact (IHb Bb Hb skip)|]. intros s E. pose proof (conv_truth (fun _ => None) lib b Bb skip) as O. rewrite E in O. exact O.
  - cbn [plain_expr] in H. rewrite andb_true_iff in H. destruct H as [Ha Hb], B as [Ba Bb]. cbn [clean conv]. rewrite repr_or. apply Good_bin; [| |exact I].
    + apply Good_wrap; [exact (IHa Ba Ha skip)|]. intros s E. pose proof (conv_truth (fun _ => None) lib a Ba skip) as O. rewrite E in O. exact O.
    + apply Good_wrap; [exact (IHb Bb Hb skip)|]. intros s E. pose proof (conv_truth (fun _ => None) lib b Bb skip) as O. rewrite E in O. exact O.
Qed.
Lemma value_good lib t : value_ok lib t -> Good (M_Conv.code lib t).
Proof. intros [H [B | [P T]]]; [exact (boolean_good lib t B H false)|exact (tame_good lib t P T H false)]. Qed.

(** ** Text *)
Lemma py_expr_text p env ts v : Good ts -> py_value env ts v -> py_expr env (text p ts) = Some v.
Proof.
  intros G (e & Pe & V). unfold py_expr, text. rewrite (lex_show p Tight ts (proj1 (G Tight (or_introl eq_refl)))). apply parse_spec in Pe. rewrite Pe. exact V.
Qed.
Lemma text_no_newline p ts : forall k, well k ts = true -> ~ In 10 (show p k ts).
Proof.
  induction ts as [|t ts IH]; intros k W; [auto|]. cbn [well] in W. rewrite !andb_true_iff in W. destruct W as [[T F] W]. cbn [show]. rewrite !in_app_iff. intros [H|[H|H]].
  - destruct (blank_before k t); [destruct H as [H|[]]; discriminate|destruct H].
  - assert (D : forall n, forallb is_digit n = true -> ~ In 10 n).
    { intros n A I. rewrite forallb_forall in A. specialize (A 10 I). discriminate. }
    destruct t; cbn [tok_text tok_ok] in *; try (destruct o); try (vm_compute in H; intuition discriminate).
    + unfold id_ok in T. rewrite andb_true_iff in T. destruct T as [T _]. destruct s as [|c s]; [discriminate|]. rewrite andb_true_iff in T. destruct T as [_ T]. rewrite forallb_forall in T. specialize (T 10 H). discriminate.
    + apply Z.leb_le in T. rewrite dec_spec in H by exact T. destruct (dec_nat_spec n T) as (_ & A & _). exact (D _ A H).
    + unfold str_repr in H. pose proof (quote_cases s) as Q. destruct H as [H|H]; [lia|]. rewrite in_app_iff in H. destruct H as [H|[H|[]]]; [|lia].
      apply in_concat in H as (l & Hl & I). apply in_map_iff in Hl as (c & <- & _). unfold repr_char in I.
      assert (X : forall n, ~ In 10 (hex_n n c)).
      { intros n J. pose proof (hex_plain n c) as A. rewrite forallb_forall in A. specialize (A 10 J). discriminate. }
      repeat match type of I with context [if ?b then _ else _] => destruct b eqn:? end; rewrite ?in_app_iff in I; cbn [u map In] in I;
        try (destruct I as [I|I]; [cbn in I; intuition discriminate|exact (X _ I)]).
      all: try (cbn in I; intuition discriminate).
      * rewrite orb_true_iff, !Z.eqb_eq in *. cbn [In] in I. destruct I as [I|[I|[]]]; try discriminate. lia.
      * cbn [In] in I. destruct I as [I|[]]. rewrite Z.eqb_neq in *. congruence.
      * cbn [In] in I. destruct I as [I|[]]. rewrite Z.eqb_neq in *. congruence.
  - exact (IH _ W H).
Qed.
Lemma last_app_ne {A} (a b : list A) d : b <> [] -> last (a ++ b) d = last b d.
Proof. intros N. induction a as [|x a IH]; [reflexivity|]. cbn [app]. rewrite <- IH. destruct a; [destruct b; [contradiction|reflexivity]|reflexivity]. Qed.
Lemma last_in (c : Z) r d : In (last (c :: r) d) (c :: r).
Proof. revert c. induction r as [|e r IH]; intros c; [left; reflexivity|]. right. apply IH. Qed.
Lemma last_ok p ts : forall k, well k ts = true -> is_value (ends k ts) = true -> ts <> [] -> last (show p k ts) 0 <> 58 /\ show p k ts <> [].
Proof.
  induction ts as [|t ts IH]; intros k W E N; [contradiction|]. cbn [well ends] in *. rewrite !andb_true_iff in W. destruct W as [[T F] W]. cbn [show].
  destruct ts as [|t' ts'].
  - cbn [show ends] in *. rewrite app_nil_r. destruct (tok_first p k t T F) as (c & r & Et & _). split; [|rewrite Et; destruct (blank_before k t); discriminate].
    rewrite last_app_ne by (rewrite Et; discriminate). destruct t; cbn [after_tok is_value tok_text tok_ok] in *; try discriminate E; try (destruct k; discriminate E).
    + intros L. unfold id_ok in T. rewrite andb_true_iff in T. destruct T as [T _]. destruct s as [|d s]; [discriminate|]. rewrite andb_true_iff in T. destruct T as [_ T]. rewrite forallb_forall in T.
      assert (I : In 58 (d :: s)) by (rewrite <- L; apply last_in). specialize (T 58 I). discriminate.
    + apply Z.leb_le in T. rewrite dec_spec in * by exact T. destruct (dec_nat_spec n T) as (_ & A & _). intros L. rewrite forallb_forall in A.
      assert (I : In 58 (dec_nat n)). { rewrite <- L, Et. apply last_in. }
      specialize (A 58 I). discriminate.
    + unfold str_repr. rewrite app_comm_cons, last_app_ne by discriminate. cbn [last]. pose proof (quote_cases s). lia.
    + cbn. discriminate.
    + cbn. discriminate.
  - destruct (IH (after_tok k t) W E ltac:(discriminate)) as [A B]. rewrite app_assoc, last_app_ne by exact B. split; [exact A|]. intros X. apply app_eq_nil in X. apply B, X.
Qed.
Lemma text_line p ts : Good ts -> ts <> [] -> one_line (text p ts) /\ last (text p ts) 0 <> 58 /\ text p ts <> [].
Proof. intros G N. destruct (G Tight (or_introl eq_refl)) as [W E]. split; [exact (text_no_newline p ts Tight W)|exact (last_ok p ts Tight W E N)]. Qed.

(** ** Assignments *)
Definition aug (o : op) : bool := match o with OAdd | OSub | OMul | ODiv => true | _ => false end.
Definition head_aug (ts : list tok) : option pystr :=
  match ts with Id s :: Dot :: Id x :: Op o :: _ => if is_u s "S" && aug o then Some x else None | _ => None end.
Definition only_var (ts : list tok) : option pystr := match ts with [Id s; Dot; Id x] => if is_u s "S" then Some x else None | _ => None end.
Definition shape (ts : list tok) : Prop := match ts with [] => False | Id s :: r => s <> u "S" \/ exists x r', r = Dot :: Id x :: r' | _ => True end.
Lemma head_bin o a b : shape a -> only_var a = None -> head_aug (a ++ Op o :: b) = head_aug a.
Proof.
  intros S N. destruct a as [|t a]; [contradiction|]. destruct t; try reflexivity. cbn [shape] in S. destruct S as [S | (x & r & ->)].
  - assert (E : is_u s "S" = false) by (unfold is_u; destruct (pystr_eqb_spec s (u "S")); [contradiction|reflexivity]).
    assert (X : forall l, head_aug (Id s :: l) = None) by (intros [|[] [|[] [|[] l]]]; try reflexivity; cbn [head_aug]; rewrite E; reflexivity). cbn [app]. rewrite !X. reflexivity.
  - destruct r as [|t r]; [|reflexivity]. cbn [only_var] in N. cbn [app head_aug]. destruct (is_u s "S"); [discriminate|reflexivity].
Qed.
Lemma only_spec a x : only_var a = Some x -> a = var x.
Proof.
  unfold only_var. destruct a as [|[] [|[] [|[] [|]]]]; try discriminate. unfold is_u. destruct (pystr_eqb_spec s (u "S")) as [->|]; [|discriminate]. intros [= ->]. reflexivity.
Qed.
Lemma shape_bin o a b : shape a -> shape (a ++ Op o :: b).
Proof. destruct a as [|[] a]; try exact (fun H => H); cbn [shape app]; [contradiction|]. intros [H|(x & r & ->)]; [left; exact H|right]. cbn [app]. eauto. Qed.
Lemma only_bin o a b : shape a -> only_var (a ++ Op o :: b) = None.
Proof. destruct a as [|[] a]; try contradiction; try reflexivity. intros S. destruct a as [|[] [|[] [|]]]; try reflexivity; cbn [app only_var]; destruct a; reflexivity || (destruct a; reflexivity). Qed.
Lemma bare_code lib skip t x : bare t = Some x -> conv lib skip (clean t) = VCode (var x).
Proof.
  induction t as [s|n|s|b| |e IH|m e IH|e IH|o a b IHa IHb|o a b IHa IHb|a b IHa IHb|a b IHa IHb|f l IH] using ctx_ind'; cbn [bare]; intros H; try discriminate.
  - injection H as <-. reflexivity.
  - rewrite conv_csub. exact (IH H).
  - destruct m; [discriminate|]. cbn [clean clean_sign conv]. rewrite (IH H). reflexivity.
Qed.
Lemma tame_head lib t : produced t -> tame lib t -> plain_expr t = true -> forall skip, let ts := repr (conv lib skip (clean t)) in
  shape ts /\ (forall x, head_aug ts = Some x -> begins t = Some x) /\ (forall x, only_var ts = Some x -> bare t = Some x).
Proof.
  induction t as [s|n|s|b| |e IH|m e IH|e IH|o a b IHa IHb|o a b IHa IHb|a b IHa IHb|a b IHa IHb|f l IH] using ctx_ind'; intros P T H skip; try contradiction; try discriminate.
  - cbn. split; [right; eauto|]. split; [discriminate|]. intros x [= ->]. reflexivity.
  - cbn [clean conv repr]. unfold repr_int. destruct (n <? 0); cbn; repeat split; discriminate.
  - cbn. repeat split; discriminate.
  - destruct b; cbn; repeat split; try discriminate; left; discriminate.
  - cbn. repeat split; try discriminate; left; discriminate.
  - rewrite conv_csub. exact (IH P T H skip).
  - destruct m; [|exact (IH (proj2 P) (proj1 T) H skip)]. rewrite conv_csign by (apply T; reflexivity). cbn. repeat split; discriminate.
  - destruct P as (Ho & La & _ & Pa & Pb). pose proof T as (Ta & Tb & To). cbn [plain_expr] in H. rewrite andb_true_iff in H. destruct H as [Ha Hb].
    destruct (conv_cbin lib skip o a b Ta Pa Ho) as (a' & b' & -> & S1 & S2). destruct (IHa Pa Ta Ha skip) as (Sh & Hd & On). set (va := conv lib skip (clean a)) in *.
    set (vb := add_parens b' (conv lib skip (clean b))). assert (Z : operation o (add_parens a' va) vb = VCode (bin_code o (repr (add_parens a' va)) (repr vb)) \/ exists x y, operation o (add_parens a' va) vb = VStr (x ++ y)).
    { unfold operation. destruct o; try (left; reflexivity). destruct (add_parens a' va); try (left; reflexivity). destruct vb; try (left; reflexivity). right. eexists _, _. reflexivity. }
    destruct Z as [-> | (x & y & ->)]; [|cbn; repeat split; discriminate]. cbn [repr]. unfold bin_code.
    assert (ShA : shape (repr (add_parens a' va))) by (unfold add_parens; destruct (is_sub a'); [exact I|exact Sh]).
    split; [exact (shape_bin _ _ _ ShA)|]. rewrite only_bin by exact ShA. split; [|discriminate]. intros x Hx. cbn [begins].
    destruct (is_sub a') eqn:Es; [unfold add_parens in Hx; rewrite Es in Hx; cbn in Hx; discriminate Hx|].
    assert (Ea : is_sub a = false) by (destruct (is_sub a); [specialize (S1 eq_refl); congruence|reflexivity]). rewrite Ea. unfold add_parens in Hx, ShA. rewrite Es in Hx, ShA.
    destruct (bare a) as [y|] eqn:By.
    + unfold va in Hx. rewrite (bare_code lib skip a y By) in Hx. cbn in Hx. unfold aug in Hx. destruct o; try discriminate Hx; exact Hx.
    + apply Hd. rewrite <- Hx. symmetry. apply head_bin; [exact Sh|]. destruct (only_var (repr va)) as [y|] eqn:Oy; [|reflexivity]. exfalso. specialize (On y eq_refl). congruence.
  - destruct P as (Ho & La & _ & Pa & Pb). pose proof T as (Ta & Tb & To). cbn [plain_expr] in H. rewrite andb_true_iff in H. destruct H as [Ha Hb].
    cbn [clean conv repr]. unfold bin_code. destruct (IHa Pa Ta Ha skip) as (Sh & Hd & On). set (va := repr (conv lib skip (clean a))) in *.
    split; [exact (shape_bin _ _ _ Sh)|]. rewrite only_bin by exact Sh. split; [|discriminate]. intros x Hx. cbn [begins]. destruct (only_var va) as [y|] eqn:Oy.
    + apply only_spec in Oy. rewrite Oy in Hx. cbn in Hx. destruct o; discriminate.
    + apply Hd. rewrite <- Hx. symmetry. apply head_bin; assumption.
  - destruct T as [B _]. apply (plain_builtin lib f l H) in B. cbn [clean]. change (conv lib skip (CCall f (map clean l))) with (func_call lib f (map (conv lib skip) (map clean l))). cbn zeta.
    destruct B as [[Hf _] | [(-> & x & y & z & ->) | [(-> & x & y & z & -> & _) | (-> & x & y & -> & _)]]].
    + rewrite func_call_same by exact Hf. unfold func_code. cbn [repr app shape head_aug only_var]. split; [left|split; discriminate].
      destruct (same_name_cases f Hf) as [-> | [-> | [-> | [-> | ->]]]]; discriminate.
    + split; [exact I|split; discriminate].
    + split; [exact I|split; discriminate].
    + split; [exact I|split; discriminate].
Qed.
Lemma strip_head x ts o rest : strip (var x) ts tok_eqb = Some (Op o :: rest) -> aug o = true -> head_aug ts = Some x.
Proof.
  unfold var. destruct ts as [|t1 [|t2 [|t3 ts]]]; try discriminate.
  - destruct t1; try discriminate. cbn [strip tok_eqb]. destruct (pystr_eqb _ _); discriminate.
  - destruct t1; try discriminate. cbn [strip tok_eqb]. destruct (pystr_eqb _ _); [|discriminate]. destruct t2; discriminate.
  - destruct t1; try discriminate. cbn [strip tok_eqb]. destruct (pystr_eqb_spec (u "S") s) as [<-|]; [|discriminate]. destruct t2; try discriminate. destruct t3; try discriminate.
    destruct (pystr_eqb_spec x s) as [<-|]; [|discriminate]. intros E A. cbn [strip] in E. injection E as ->. cbn [head_aug]. rewrite A. reflexivity.
Qed.
Lemma assign_plain x v ts : v = VCode ts -> head_aug ts <> Some x -> assign (var x) v = SSet (var x) ts.
Proof.
  intros -> N. unfold assign. destruct (strip (var x) ts tok_eqb) as [[|[] r]|] eqn:E; try reflexivity. destruct (aug o) eqn:A; [destruct (N (strip_head _ _ _ _ E A))|]. destruct o; try reflexivity; discriminate.
Qed.
Lemma assign_const x v : (forall ts, v <> VCode ts) -> assign (var x) v = SSet (var x) (repr v).
Proof. destruct v; intros H; try reflexivity. destruct (H ts eq_refl). Qed.
Lemma tame_set lib x t : produced t -> tame lib t -> plain_expr t = true -> begins t <> Some x -> assign (var x) (convert lib t) = SSet (var x) (M_Conv.code lib t).
Proof.
  intros P T H B. destruct (tame_head lib t P T H false) as (_ & Hd & _). unfold M_Conv.code, convert. destruct (conv lib false (clean t)) as [n|s|b| |ts|a b|a b|a] eqn:E;
    try (apply assign_const; discriminate). apply assign_plain; [reflexivity|]. intros X. apply B, Hd. exact X.
Qed.
Lemma value_set lib x t : value_ok lib t -> begins t <> Some x -> assign (var x) (convert lib t) = SSet (var x) (M_Conv.code lib t).
Proof.
  intros [H [B | [P T]]] N; [|exact (tame_set lib x t P T H N)]. revert H N.
  induction t as [s|n|s|b| |e IH|m e IH|e IH|o a b IHa IHb|o a b IHa IHb|a b IHa IHb|a b IHa IHb|f l IH] using ctx_ind'; intros H N; try (destruct B as (P & T & _); exact (tame_set lib x _ P T H N)); try reflexivity.
  unfold M_Conv.code, convert in *. rewrite conv_csub. exact (IH B H N).
Qed.
Lemma value_aug lib x o r env v : aug o = true -> let t := CBin o (CVar x) r in value_ok lib t -> fox env t = Some v ->
  exists rest a b, assign (var x) (convert lib t) = SAug (var x) o rest /\ Good rest /\ env x = Some a /\ py_value env rest b /\ bin o a b = Some v.
Proof.
  intros Ho t [H K] F. assert (X : produced t /\ tame lib t) by (destruct K as [(P & T & _) | PT]; [split; assumption|exact PT]). destruct X as [P T]. pose proof P as (_ & _ & Lb & _ & Pr'). pose proof T as (_ & Tr & Hx).
  assert (C : convert lib t = VCode (bin_code o (var x) (repr (add_parens (clean r) (conv lib false (clean r)))))).
  { unfold convert, t. destruct o; try discriminate Ho; cbn [clean]; reflexivity. }
  assert (A : assign (var x) (convert lib t) = SAug (var x) o (repr (add_parens (clean r) (conv lib false (clean r))))).
  { rewrite C. unfold assign, bin_code, var. cbn [strip app tok_eqb]. assert (R : forall s, pystr_eqb s s = true) by (intros s; destruct (pystr_eqb_spec s s); [reflexivity|contradiction]). rewrite !R. destruct o; try discriminate Ho; reflexivity. }
  assert (L : is_sub r = true \/ (S (level o) <= pl r)%nat).
  { destruct (is_sub r) eqn:Es; [left; reflexivity|right]. destruct (pl_tight lib r Pr' Tr Es) as (_ & T2 & T3 & _).
    unfold t in Lb. destruct o; try discriminate Ho; cbn [tight level] in *; lia. }
  destruct (operand lib false r (S (level o)) (conv_tame lib r Pr' Tr false) ltac:(destruct o; try discriminate Ho; cbn; lia) L) as (er & Per & Jr).
  unfold t in F. cbn [fox] in F. destruct (env x) as [a|] eqn:Ea; [|discriminate]. destruct (fox env r) as [b|] eqn:Eb; [|discriminate].
  exists (repr (add_parens (clean r) (conv lib false (clean r)))), a, b. split; [exact A|]. cbn [plain_expr t] in H. rewrite andb_true_iff in H. split; [apply Good_parens, tame_good; try assumption; apply H|].
  split; [reflexivity|]. split; [|apply fox_bin_py, F]. apply (value_of env (S (level o)) _ er); [destruct o; try discriminate Ho; cbn; lia|exact Per|]. rewrite <- pev_joined, Jr, pev_joined. exact (fox_mean env r Pr' b Eb).
Qed.

(** ** Python reads an assignment *)
Lemma var_text p x : text p (var x) = u "S." ++ x.
Proof. unfold text, var. cbn [show blank_before after_tok app tok_text u map]. rewrite app_nil_r. reflexivity. Qed.
Lemma prefix_skip p s : strip_prefix p (p ++ s) = Some s.
Proof. unfold strip_prefix. rewrite prefixb_app. f_equal. induction p; [reflexivity|exact IHp]. Qed.
Lemma name_span x r : name_ok x = true -> match r with [] => True | c :: _ => word_char c = false end -> span word_char (x ++ r) = (x, r).
Proof. intros H N. pose proof (name_id x H) as I. unfold id_ok in I. rewrite andb_true_iff in I. destruct I as [I _]. destruct x as [|c x]; [discriminate|]. rewrite andb_true_iff in I. apply span_app; [apply I|exact N]. Qed.
Lemma read_set p x e : name_ok x = true -> py_assign (text p (var x) ++ u " = " ++ e) = Some (x, None, e).
Proof.
  intros H. rewrite var_text. unfold py_assign. rewrite <- app_assoc, prefix_skip, name_span, (name_word x H), prefix_skip by (exact H || reflexivity). reflexivity.
Qed.
Lemma read_aug p x o e : name_ok x = true -> aug o = true -> py_assign (text p (var x) ++ u " " ++ u (op_text o) ++ u "= " ++ e) = Some (x, Some o, e).
Proof.
  intros H Ho. rewrite var_text. unfold py_assign. rewrite <- app_assoc, prefix_skip, name_span, (name_word x H) by (exact H || reflexivity). destruct o; try discriminate Ho; reflexivity.
Qed.
Lemma not_keyword p x r : let t := text p (var x) ++ r in pystr_eqb t (u "pass") = false /\ pystr_eqb t (u "break") = false /\ pystr_eqb t (u "continue") = false.
Proof. rewrite var_text. repeat split. Qed.
Lemma set_runs p lib s x t v : name_ok x = true -> value_ok lib t -> let_ok x t -> fox s t = Some v -> py_run (stmt_text p (assign (var x) (convert lib t))) s = (upd s x v, Normal).
Proof.
  intros N V L F. destruct L as [L | (o & r & -> & Ho)].
  - rewrite (value_set lib x t V L). cbn [stmt_text]. unfold py_run. destruct (not_keyword p x (u " = " ++ text p (M_Conv.code lib t))) as (-> & -> & ->). rewrite (read_set p x _ N).
    rewrite (py_expr_text p s _ v (value_good lib t V) (value_code s lib t v V F)). reflexivity.
  - assert (Ao : aug o = true) by (destruct o; try contradiction; reflexivity). destruct (value_aug lib x o r s v Ao V F) as (rest & a & b & -> & G & Ea & Vb & B). cbn [stmt_text]. unfold py_run.
    destruct (not_keyword p x (u " " ++ u (op_text o) ++ u "= " ++ text p rest)) as (-> & -> & ->). rewrite (read_aug p x o _ N Ao), Ea, (py_expr_text p s _ b G Vb), B. reflexivity.
Qed.
Lemma set_line p lib x t : name_ok x = true -> value_ok lib t -> let_ok x t -> command_line (stmt_text p (assign (var x) (convert lib t))).
Proof.
  intros N V L.
  assert (X : exists mid ts, stmt_text p (assign (var x) (convert lib t)) = text p (var x) ++ mid ++ text p ts /\ Good ts /\ ts <> [] /\ ~ In 10 mid).
  { destruct L as [L | (o & r & -> & Ho)].
    - rewrite (value_set lib x t V L). exists (u " = "), (M_Conv.code lib t). split; [reflexivity|]. split; [exact (value_good lib t V)|]. split; [|cbn; intuition discriminate].
      intros E. destruct (value_good lib t V Tight (or_introl eq_refl)) as [_ W]. rewrite E in W. discriminate.
    - assert (Ao : aug o = true) by (destruct o; try contradiction; reflexivity). destruct V as [H K].
      assert (X : produced (CBin o (CVar x) r) /\ tame lib (CBin o (CVar x) r)) by (destruct K as [(P & T & _) | PT]; [split; assumption|exact PT]). destruct X as [P T].
      pose proof P as (_ & _ & _ & _ & Pr'). pose proof T as (_ & Tr & _). cbn [plain_expr] in H. rewrite andb_true_iff in H.
      assert (A : assign (var x) (convert lib (CBin o (CVar x) r)) = SAug (var x) o (repr (add_parens (clean r) (conv lib false (clean r))))).
      { assert (C : convert lib (CBin o (CVar x) r) = VCode (bin_code o (var x) (repr (add_parens (clean r) (conv lib false (clean r)))))).
        { unfold convert. destruct o; try discriminate Ao; cbn [clean]; reflexivity. }
        rewrite C. unfold assign, bin_code, var. cbn [strip app tok_eqb]. assert (R : forall s, pystr_eqb s s = true) by (intros s; destruct (pystr_eqb_spec s s); [reflexivity|contradiction]). rewrite !R. destruct o; try discriminate Ao; reflexivity. }
      rewrite A. assert (G : Good (repr (add_parens (clean r) (conv lib false (clean r))))) by (apply Good_parens, tame_good; try assumption; apply H).
      exists (u " " ++ u (op_text o) ++ u "= "), (repr (add_parens (clean r) (conv lib false (clean r)))). split; [cbn [stmt_text]; rewrite <- !app_assoc; reflexivity|]. split; [exact G|].
      split; [|destruct o; try discriminate Ao; cbn; intuition discriminate]. intros E. destruct (G Tight (or_introl eq_refl)) as [_ W]. rewrite E in W. discriminate. }
  destruct X as (mid & ts & -> & G & Ne & M). destruct (text_line p ts G Ne) as (O & La & Nn). pose proof (text_line p (var x) (Good_var x N) ltac:(discriminate)) as (Ov & _).
  split; [|split].
  - unfold one_line in *. rewrite !in_app_iff. tauto.
  - rewrite var_text. cbn. split; discriminate.
  - unfold is_head. rewrite app_assoc, last_app_ne by exact Nn. apply Z.eqb_neq. exact La.
Qed.
Lemma expr_line p lib t : value_ok lib t -> one_line (expr_text lib p t).
Proof. intros V. exact (text_no_newline p _ Tight (proj1 (value_good lib t V Tight (or_introl eq_refl)))). Qed.
Lemma truth_value lib t : truth_ok lib t -> value_ok lib t.
Proof. intros [H B]. split; [exact H|left; exact B]. Qed.
