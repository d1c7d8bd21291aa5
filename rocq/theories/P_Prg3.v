(** Proofs about preprocessing: the lines, the directives, and the whole text *)
From Verif Require Import PyBase PyStr M_Lexer S_Lexer P_Lexer P_Lexer2 P_Lexer3 P_Lexer4 M_Prep T_Prep M_Lit M_Conv M_Stmt M_Program M_Show M_Core M_Parse M_ParseProg S_Expr.
From Verif Require Import S_Lexer P_Parse S_Prog P_Prog1 M_Prg S_Prg P_Prg1 P_Prg2.
From Coq Require Import Lia.
Open Scope Z_scope.

Lemma skip_layouts : forall g r, skip (map layout_token g ++ r) = skip r.
Proof. induction g as [|g gs IH]; intros r; [reflexivity|]. cbn [map app skip]. rewrite layout_hidden. apply IH. Qed.
Lemma skip_visible : forall k t r, hidden k = false -> skip ((k, t) :: r) = (k, t) :: r.
Proof. intros k t r H. cbn [skip fst]. rewrite H. reflexivity. Qed.
Definition comment (r : option pystr) : list pair := match r with Some r => [("COMMENT"%string, u "&&" ++ r)] | None => [] end.
Lemma newline_all : forall r, piece_all (NewLine r) = comment r ++ [("NL"%string, [10])].
Proof. intros [r|]; reflexivity. Qed.
Lemma skip_newline : forall r rest, skip (piece_all (NewLine r) ++ rest) = ("NL"%string, [10]) :: rest.
Proof. intros [r|] rest; reflexivity. Qed.
Lemma newline_toks : forall g r l rest, newline (toks ((g, NewLine r) :: l) ++ rest) = Some (toks l ++ rest) /\ ends_line (toks ((g, NewLine r) :: l) ++ rest) = Some (toks l ++ rest).
Proof. intros g r l rest. unfold newline, ends_line. rewrite toks_cons, <- !app_assoc, skip_layouts, skip_newline. split; reflexivity. Qed.
Lemma directive_toks : forall g0 g1 w l rest, directive (toks ((g0, sym "#") :: (g1, Word w) :: l) ++ rest) = Some (word_kind w, toks l ++ rest).
Proof.
  intros g0 g1 w l rest. unfold directive. rewrite !toks_cons, <- !app_assoc, skip_layouts. change (piece_all (sym "#")) with [("HASH"%string, u "#")]. cbn [app]. rewrite skip_visible by reflexivity.
  change (is "HASH" ("HASH"%string, u "#")) with true. cbn iota. rewrite skip_layouts. cbn [piece_all piece_kind piece_text app]. rewrite skip_visible by apply word_not_hidden. reflexivity.
Qed.
Lemma identifier_toks : forall g x l rest, named x -> identifier (toks ((g, Word x) :: l) ++ rest) = Some (x, toks l ++ rest).
Proof.
  intros g x l rest H. unfold identifier. rewrite toks_cons, <- !app_assoc, skip_layouts. cbn [piece_all piece_kind piece_text app]. rewrite skip_visible by apply word_not_hidden.
  destruct (named_ident x {| kind := word_kind x; txt := []; before := [] |} H eq_refl) as (A & _). unfold one_of, is_kind in A. cbn [kind] in A. 
  change (existsb (fun k => String.eqb (word_kind x) k) identifiers = true) in A. change (existsb (String.eqb (word_kind x)) identifiers) with (existsb (fun k => String.eqb (word_kind x) k) identifiers). rewrite A. reflexivity.
Qed.
(** ** The end of a line *)
Definition no_nl (l : list pair) : Prop := Forall (fun t => is "NL" t = false) l.
Lemma to_end_app : forall l rest, no_nl l -> to_end (l ++ ("NL"%string, [10]) :: rest) = (l, Some rest).
Proof. induction 1 as [|t l H _ IH]; [reflexivity|]. cbn [app to_end]. rewrite H, IH. reflexivity. Qed.
Lemma layouts_no_nl : forall g, no_nl (map layout_token g).
Proof. induction g as [|[c | b [r|]] g IH]; constructor; auto. Qed.
Lemma word_kind_in : forall w, In (word_kind w) ("ID" :: "T__0" :: map snd spellings)%string.
Proof.
  intros w. unfold word_kind. assert (F : forall l k, find_word l (upper w) = Some k -> In k (map snd l)).
  { induction l as [|[x k'] l IH]; intros k E; [discriminate|]. cbn [find_word] in E. destruct (pystr_eqb x (upper w)); [injection E as <-; left; reflexivity|right; auto]. }
  destruct (find_word spellings (upper w)) as [k|] eqn:E; [right; right; exact (F _ _ E)|]. destruct (pystr_eqb w (u "_")); cbn; auto.
Qed.
Lemma word_kinds_ok : forallb (fun k => negb (String.eqb k "NL") && negb (String.eqb k "HASH")) ("ID" :: "T__0" :: map snd spellings)%string = true.
Proof. vm_compute. reflexivity. Qed.
Lemma word_kind_ok : forall w, String.eqb (word_kind w) "NL" = false /\ String.eqb (word_kind w) "HASH" = false.
Proof. intros w. assert (V := word_kinds_ok). rewrite forallb_forall in V. specialize (V _ (word_kind_in w)). rewrite andb_true_iff, !negb_true_iff in V. exact V. Qed.
Lemma inner_no_nl : forall s, ~ In 10 s -> no_nl (tokens s).
Proof.
  intros s N. apply Forall_forall. intros [k t] I. unfold is. cbn [fst]. destruct (String.eqb_spec k "NL") as [->|]; [|reflexivity]. exfalso. destruct (token_kinds _ _ _ I) as (r & J & L).
  assert (E : r = Lit [10]) by (apply (rule_of "NL" r [10] J); cbn; auto). subst r. apply lit_lang in L. subst t. apply N. rewrite <- (tokens_text s). apply in_flat_map. exists ("NL"%string, [10]). split; [exact I|left; reflexivity].
Qed.
Lemma symbols_not_nl : forallb (fun p => negb (String.eqb (fst p) "NL")) symbols = true.
Proof. vm_compute. reflexivity. Qed.
Lemma piece_no_nl : forall p, in_line p -> piece_ok p -> no_nl (piece_all p).
Proof.
  intros [w | a b | k t | k w | q s | r | s] H OK; cbn [in_line piece_ok piece_all piece_kind] in *; try contradiction.
  - constructor; [apply word_kind_ok|constructor].
  - repeat constructor.
  - constructor; [|constructor]. assert (V := symbols_not_nl). rewrite forallb_forall in V. apply V in OK. apply negb_true_iff in OK. exact OK.
  - constructor; [|constructor]. destruct OK as (t & I & _). cbn in I. unfold is. cbn [fst]. destruct I as [I|[I|[I|[]]]]; injection I as <- _; reflexivity.
  - destruct OK as (Hq & _ & N & _). assert (K : is "NL" (quote_kind q, [q]) = false) by (destruct Hq as [-> | ->]; reflexivity). constructor; [exact K|]. apply Forall_app. split; [exact (inner_no_nl s N)|]. constructor; [exact K|constructor].
Qed.
Lemma toks_no_nl : forall l, Forall (fun p => in_line (snd p) /\ piece_ok (snd p)) l -> no_nl (toks l).
Proof. induction 1 as [|[g p] l [A B] _ IH]; [constructor|]. rewrite toks_cons. apply Forall_app. split; [apply layouts_no_nl|]. apply Forall_app. split; [apply piece_no_nl; auto|exact IH]. Qed.
Lemma to_end_line : forall l g r src rest, Forall (fun p => in_line (snd p) /\ piece_ok (snd p)) l ->
  to_end (toks (l ++ (g, NewLine r) :: src) ++ rest) = (toks l ++ map layout_token g ++ comment r, Some (toks src ++ rest)).
Proof.
  intros l g r src rest H. rewrite toks_app, toks_cons, newline_all. transitivity (to_end ((toks l ++ map layout_token g ++ comment r) ++ ("NL"%string, [10]) :: toks src ++ rest)); [f_equal; rewrite <- !app_assoc; reflexivity|].
  apply to_end_app. apply Forall_app. split; [apply toks_no_nl; auto|]. apply Forall_app. split; [apply layouts_no_nl|]. destruct r; repeat constructor.
Qed.
Lemma piece_start : forall p, exists k t r, piece_all p = (k, t) :: r /\ k = match p with NewLine (Some _) => "COMMENT"%string | _ => piece_kind p end.
Proof. intros [w | a b | k t | k w | q s | [r|] | s]; do 3 eexists; (split; [reflexivity|reflexivity]). Qed.
Lemma start_line : forall l g r src rest, Forall (fun p => in_line (snd p) /\ piece_ok (snd p)) l -> not_directive l ->
  (exists t z, skip (toks (l ++ (g, NewLine r) :: src) ++ rest) = t :: z) /\ directive (toks (l ++ (g, NewLine r) :: src) ++ rest) = None.
Proof.
  intros l g r src rest H N. unfold directive. destruct l as [|[g0 p] l].
  - cbn [app]. rewrite toks_cons, <- !app_assoc, skip_layouts, skip_newline. split; [eauto|reflexivity].
  - cbn [app]. inversion H as [|? ? [A B] _]; subst. cbn [snd] in *. rewrite toks_cons, <- !app_assoc, skip_layouts. destruct (piece_start p) as (k & t & z & -> & E). cbn [app].
    assert (Ek : k = piece_kind p) by (rewrite E; destruct p as [| | | | |[r0|]|]; try reflexivity; contradiction). subst k. rewrite Ek, skip_visible by (apply piece_not_hidden; auto). split; [eauto|].
    assert (K : is "HASH" (piece_kind p, t) = false); [|rewrite K; reflexivity]. unfold is. cbn [fst]. cbn [not_directive hash] in N. destruct p as [w | a b | k0 t0 | k0 w | q s | r0 | s]; cbn [piece_kind hash] in *; auto.
    + apply word_kind_ok.
    + destruct B as (t0 & I & _). cbn in I. destruct I as [I|[I|[I|[]]]]; injection I as <- _; reflexivity.
    + unfold quote_kind. destruct (q =? 34); reflexivity.
Qed.
(** ** Definitions *)
Lemma drop_ws_layouts : forall g r, drop_ws (map prep_token (map layout_token g) ++ r) = match unblank g with [] => drop_ws r | g' => map prep_token (map layout_token g') ++ r end.
Proof. induction g as [|[c | b [s|]] g IH]; intros r; try reflexivity. cbn [map app unblank]. rewrite <- IH. reflexivity. Qed.
Definition cut (t : token) : bool := match t_type t with TOther => false | _ => true end.
Lemma drop_tail_app : forall a b, forallb cut a = true -> drop_tail (a ++ b) = drop_tail b.
Proof. induction a as [|t a IH]; intros b H; [reflexivity|]. cbn [forallb] in H. apply andb_prop in H as [A B]. cbn [app drop_tail]. unfold cut in A. destruct (t_type t); [apply IH; auto|apply IH; auto|discriminate]. Qed.
Lemma piece_ends : forall p, in_line p -> piece_ok p -> exists l t, map prep_token (piece_all p) = l ++ [t] /\ t_type t = TOther /\ exists t0 l0, map prep_token (piece_all p) = t0 :: l0 /\ t_type t0 = TOther.
Proof.
  assert (V : forallb (fun k => negb (String.eqb k "WS") && negb (String.eqb k "COMMENT")) ("ID" :: "T__0" :: map snd spellings ++ map fst symbols)%string = true) by (vm_compute; reflexivity). rewrite forallb_forall in V.
  assert (K : forall k t, In k ("ID" :: "T__0" :: map snd spellings ++ map fst symbols)%string -> t_type (prep_token (k, t)) = TOther).
  { intros k t I. apply V in I. rewrite andb_true_iff, !negb_true_iff in I. destruct I as [I1 I2]. cbn [prep_token t_type]. unfold is. cbn [fst]. rewrite I1, I2. reflexivity. }
  intros [w | a b | k t | k w | q s | r | s] H OK; cbn [in_line piece_ok piece_all piece_kind map] in *; try contradiction.
  - assert (E : t_type (prep_token (word_kind w, piece_text (Word w))) = TOther). { apply K. destruct (word_kind_in w) as [I|[I|I]]; [left; exact I|right; left; exact I|right; right; apply in_or_app; left; exact I]. }
    exists [], (prep_token (word_kind w, piece_text (Word w))). split; [reflexivity|]. split; [exact E|]. eauto.
  - exists [], (prep_token ("NUMBER_LITERAL"%string, piece_text (Number a b))). split; [reflexivity|]. split; [reflexivity|]. do 2 eexists. split; reflexivity.
  - assert (E : t_type (prep_token (k, piece_text (Sym k t))) = TOther). { apply K. right. right. apply in_or_app. right. apply in_map_iff. exists (k, t). auto. } exists [], (prep_token (k, piece_text (Sym k t))). split; [reflexivity|]. split; [exact E|]. eauto.
  - assert (E : t_type (prep_token (k, piece_text (Dotted k w))) = TOther). { destruct OK as (t & I & _). cbn in I. destruct I as [I|[I|[I|[]]]]; injection I as <- _; reflexivity. }
    exists [], (prep_token (k, piece_text (Dotted k w))). split; [reflexivity|]. split; [exact E|]. eauto.
  - destruct OK as (Hq & _). assert (E : t_type (prep_token (quote_kind q, [q])) = TOther) by (destruct Hq as [-> | ->]; reflexivity).
    rewrite map_app. cbn [map]. exists (prep_token (quote_kind q, [q]) :: map prep_token (tokens s)), (prep_token (quote_kind q, [q])). split; [reflexivity|]. split; [exact E|]. eauto.
Qed.
Lemma tk_ends : forall v p, in_line p -> piece_ok p -> Forall (fun p => in_line (snd p) /\ piece_ok (snd p)) v -> exists a t, map prep_token (piece_all p) ++ tk v = a ++ [t] /\ t_type t = TOther.
Proof.
  induction v as [|[g q] v IH]; intros p A OK H.
  - destruct (piece_ends p A OK) as (l & t & E & Ht & _). cbn [tk toks flat_map map]. rewrite app_nil_r, E. eauto.
  - inversion H as [|? ? [A2 OK2] H2]; subst. destruct (IH q A2 OK2 H2) as (a & t & E & Ht). rewrite tk_cons, E, !app_assoc. eauto.
Qed.
Lemma trim_value : forall v g r, Forall (fun p => in_line (snd p) /\ piece_ok (snd p)) v -> blanks g -> trim (map prep_token (toks v ++ map layout_token g ++ comment r)) = tk (value_of v).
Proof.
  intros v g r H B. rewrite map_app. fold (tk v). set (e := map prep_token (map layout_token g ++ comment r)).
  assert (E : forallb cut e = true). { unfold e. rewrite map_app, forallb_app. apply andb_true_intro. split; [|destruct r; reflexivity]. induction B as [|g0 g Hg _ IH]; [reflexivity|]. cbn [map forallb]. rewrite IH. destruct g0; [reflexivity|contradiction]. }
  assert (T : forall z, z = [] \/ (exists a t, z = a ++ [t] /\ t_type t = TOther) -> rev (drop_tail (rev (z ++ e))) = z).
  { intros z Hz. rewrite rev_app_distr, drop_tail_app.
    - destruct Hz as [-> | (a & t & -> & Ht)]; [reflexivity|]. rewrite rev_unit. cbn [drop_tail]. rewrite Ht. cbn [rev]. rewrite rev_involutive. reflexivity.
    - rewrite forallb_forall in *. intros x I. apply E. apply in_rev. exact I. }
  unfold trim. destruct v as [|[g1 p] v].
  - cbn [tk toks flat_map map app value_of]. assert (D : forall l, forallb cut l = true -> forallb cut (drop_ws l) = true). { induction l as [|t l IH]; intros F; [reflexivity|]. cbn [drop_ws]. cbn [forallb] in F. apply andb_prop in F as [F1 F2]. destruct (t_type t) eqn:Et; [auto| |]; cbn [forallb]; rewrite F1, F2; reflexivity. }
    apply D in E. rewrite <- (app_nil_r (rev (drop_ws e))), drop_tail_app; [reflexivity|]. rewrite forallb_forall in *. intros x I. apply E, in_rev, I.
  - cbn [value_of]. rewrite !tk_cons, <- !app_assoc. rewrite drop_ws_layouts. inversion H as [|? ? [A OK] H']; subst. cbn [snd] in *. destruct (piece_ends p A OK) as (l & t & E1 & Ht & t0 & l0 & E0 & Ht0).
    assert (X : match unblank g1 with [] => drop_ws (map prep_token (piece_all p) ++ tk v ++ e) | g' => map prep_token (map layout_token g') ++ map prep_token (piece_all p) ++ tk v ++ e end = (map prep_token (map layout_token (unblank g1)) ++ map prep_token (piece_all p) ++ tk v) ++ e).
    { destruct (unblank g1); [|rewrite <- !app_assoc; reflexivity]. rewrite E0. cbn [app map drop_ws]. rewrite Ht0, <- app_assoc. reflexivity. }
    rewrite X. apply T. right. destruct (tk_ends v p A OK H') as (a & x & -> & Hx). rewrite app_assoc. eauto.
Qed.
