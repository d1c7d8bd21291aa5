(** Properties C78 (class libraries) and C79 (forms): the FoxPro source made of a .vcx or .scx table. *)
From Verif Require Import PyBase PyStr M_Form.
Open Scope Z_scope.

Lemma mapm_ok {A B} (f : A -> res B) (P : A -> B -> Prop) l : Forall (fun x => exists y, f x = Ok y /\ P x y) l -> exists ys, mapm f l = Ok ys /\ Forall2 P l ys.
Proof.
  induction 1 as [|x l (y & E & H) F (ys & IH & G)]; [exists []; split; [reflexivity|constructor]|]. exists (y :: ys). cbn [mapm]. rewrite E. cbn [rbind]. rewrite IH. split; [reflexivity|constructor; assumption].
Qed.
Lemma mapm_err {A B} (f : A -> res B) l x e : In x l -> f x = Err e -> exists e, mapm f l = Err e.
Proof.
  intros I E. induction l as [|y l IH]; [contradiction|]. cbn [mapm]. destruct I as [->|I]; [exists e; rewrite E; reflexivity|]. destruct (f y) as [z|e']; [|exists e'; reflexivity]. cbn [rbind].
  destruct (IH I) as (e' & ->). exists e'. reflexivity.
Qed.
Lemma blank_spec s : blank s = true <-> s = []. Proof. destruct s; split; congruence || discriminate || reflexivity. Qed.
Lemma has_in c s : has c s = true <-> In c s.
Proof. unfold has. rewrite existsb_exists. split; [intros (d & I & E); apply Z.eqb_eq in E; subst d; exact I|intros I; exists c; split; [exact I|apply Z.eqb_refl]]. Qed.

(** * C78 *)
(** Three numbers with commas are a colour; what is in parentheses or starts like a constant is an expression; anything else is the text itself *)
Definition numeral (s : pystr) : Prop := Forall (fun c => 48 <= c <= 57) s.
Definition colour (v : pystr) : Prop := exists a b c, numeral a /\ numeral b /\ numeral c /\ v = a ++ 44 :: b ++ 44 :: c.
Definition expression (const : pystr -> bool) (v : pystr) : Prop :=
  (exists r, v = 40 :: r ++ [41]) \/ (exists r, v = 45 :: r /\ const r = true) \/ (hd 0 v <> 45 /\ const v = true).
Inductive means (const : pystr -> bool) : pystr -> pystr -> Prop :=
| m_colour v : colour v -> means const v (u "RGB(" ++ v ++ u ")")
| m_expr v : v <> [] -> ~ colour v -> expression const v -> means const v v
| m_text v q q' : ~ colour v -> v = [] \/ ~ expression const v -> In (q, q') [(34, 34); (39, 39); (91, 93)] -> ~ In q' v -> means const v (q :: v ++ [q']).

Lemma drop_digits_app a c r : numeral a -> is_digit c = false -> drop_digits (a ++ c :: r) = c :: r.
Proof.
  induction 1 as [|d a H F IH]; intros N; cbn [app drop_digits]; [rewrite N; reflexivity|]. replace (is_digit d) with true by (symmetry; unfold is_digit; apply andb_true_intro; split; apply Z.leb_le; lia). exact (IH N).
Qed.
Lemma drop_digits_all a : numeral a -> drop_digits a = [].
Proof. induction 1 as [|d a H F IH]; [reflexivity|]. cbn [drop_digits]. replace (is_digit d) with true by (symmetry; unfold is_digit; apply andb_true_intro; split; apply Z.leb_le; lia). exact IH. Qed.
Lemma drop_digits_split s : exists a, numeral a /\ s = a ++ drop_digits s.
Proof.
  induction s as [|c s (a & F & E)]; [exists []; split; [constructor|reflexivity]|]. cbn [drop_digits]. destruct (is_digit c) eqn:D; [|exists []; split; [constructor|reflexivity]].
  exists (c :: a). split; [constructor; [unfold is_digit in D; apply andb_prop in D as [D1 D2]; apply Z.leb_le in D1, D2; lia|exact F]|]. cbn [app]. rewrite <- E. reflexivity.
Qed.
Lemma rgb_like_spec v : rgb_like v = true <-> colour v.
Proof.
  unfold rgb_like, colour. split.
  - intros H. destruct (drop_digits_split v) as (a & Fa & Ea). destruct (drop_digits v) as [|c r]; [discriminate|]. destruct (Z.eq_dec c 44) as [->|N]; [|destruct c as [|c|c]; try discriminate; destruct c as [c|c|]; try discriminate; repeat (destruct c as [c|c|]; try discriminate; try congruence)].
    destruct (drop_digits_split r) as (b & Fb & Eb). destruct (drop_digits r) as [|d t]; [discriminate|]. destruct (Z.eq_dec d 44) as [->|N]; [|destruct d as [|d|d]; try discriminate; destruct d as [d|d|]; try discriminate; repeat (destruct d as [d|d|]; try discriminate; try congruence)].
    destruct (drop_digits_split t) as (g & Fg & Eg). apply blank_spec in H. rewrite H, app_nil_r in Eg. subst t. exists a, b, g. rewrite Ea, Eb. repeat split; assumption.
  - intros (a & b & c & Fa & Fb & Fc & ->). rewrite drop_digits_app by (assumption || reflexivity). rewrite drop_digits_app by (assumption || reflexivity). rewrite drop_digits_all by assumption. reflexivity.
Qed.
Lemma match_char (A : Type) (s : pystr) (k : Z) (f : pystr -> A) (d : A) : 0 <= k < 128 ->
  (match s with c :: r => if c =? k then f r else d | [] => d end) = match s with [] => d | c :: r => if c =? k then f r else d end.
Proof. reflexivity. Qed.
Lemma in_parens_spec v : in_parens v = true <-> exists r, v = 40 :: r ++ [41].
Proof.
  unfold in_parens. split.
  - destruct v as [|c v]; [discriminate|]. destruct (Z.eq_dec c 40) as [->|N]; [|destruct c as [|c|c]; try discriminate; repeat (destruct c as [c|c|]; try discriminate; try congruence)].
    destruct (rev v) as [|d t] eqn:E; [discriminate|]. destruct (Z.eq_dec d 41) as [->|N]; [|destruct d as [|d|d]; try discriminate; repeat (destruct d as [d|d|]; try discriminate; try congruence)].
    intros _. exists (rev t). rewrite <- (rev_involutive v), E. reflexivity.
  - intros (r & ->). cbn [app]. rewrite rev_app_distr. reflexivity.
Qed.
Lemma minus_case const v : const (match v with 45 :: r => r | _ => v end) = true <-> (exists r, v = 45 :: r /\ const r = true) \/ (hd 0 v <> 45 /\ const v = true).
Proof.
  destruct v as [|c v].
  - split; [intros H; right; split; [discriminate|exact H]|]. intros [(r & E & _)|[_ H]]; [discriminate|exact H].
  - destruct (Z.eq_dec c 45) as [->|N].
    + split; [intros H; left; exists v; split; [reflexivity|exact H]|]. intros [(r & E & H)|[H _]]; [injection E as ->; exact H|cbn [hd] in H; congruence].
    + replace (match c :: v with 45 :: r => r | _ => c :: v end) with (c :: v) by (destruct c as [|c|c]; try reflexivity; repeat (destruct c as [c|c|]; try reflexivity; try congruence)).
      split; [intros H; right; split; [exact N|exact H]|]. intros [(r & E & _)|[_ H]]; [injection E as ->; congruence|exact H].
Qed.
(** A value with both quotes and a bracket in it cannot be written as a FoxPro string *)
Definition quotable (v : pystr) : Prop := ~ In 34 v \/ ~ In 39 v \/ (~ In 91 v /\ ~ In 93 v).
Definition unquotable (const : pystr -> bool) (v : pystr) : Prop := In 34 v /\ In 39 v /\ (In 91 v \/ In 93 v) /\ ~ colour v /\ ~ expression const v.
(** Every property value is written as what it means, unless it has both quotes and a bracket; then the bare text is written *)
Theorem C78_value_partial const v : ~ unquotable const v -> means const v (vcx_value const v).
Proof.
  intros Q. unfold vcx_value. destruct (blank v) eqn:B.
  - apply blank_spec in B. subst v. change (u """""") with (34 :: [] ++ [34]). apply m_text; [intros (a & b & c & _ & _ & _ & E); destruct a; discriminate|left; reflexivity|left; reflexivity|intros []].
  - assert (NE : v <> []) by (intros ->; discriminate). destruct (rgb_like v) eqn:R; [apply rgb_like_spec in R; apply m_colour; exact R|].
    assert (NC : ~ colour v) by (rewrite <- rgb_like_spec; congruence). destruct (in_parens v) eqn:P; [apply m_expr; [exact NE|exact NC|left; apply in_parens_spec; exact P]|].
    destruct (const _) eqn:K; [apply m_expr; [exact NE|exact NC|right; apply minus_case; exact K]|].
    assert (NX : ~ expression const v) by (intros [X|X]; [apply in_parens_spec in X; congruence|apply minus_case in X; exact (eq_true_false_abs _ X K)]).
    destruct (has 34 v) eqn:H1; cbn [negb]; [|change ([34] ++ v ++ [34]) with (34 :: v ++ [34]); apply m_text; [exact NC|right; exact NX|left; reflexivity|rewrite <- has_in; congruence]].
    destruct (has 39 v) eqn:H2; cbn [negb]; [|change ([39] ++ v ++ [39]) with (39 :: v ++ [39]); apply m_text; [exact NC|right; exact NX|right; left; reflexivity|rewrite <- has_in; congruence]].
    destruct (has 91 v) eqn:H3; cbn [negb andb]; [exfalso; apply Q; unfold unquotable; rewrite <- !has_in; split; [exact H1|split; [exact H2|split; [tauto|split; [exact NC|exact NX]]]]|].
    destruct (has 93 v) eqn:H4; cbn [negb andb]; [exfalso; apply Q; unfold unquotable; rewrite <- !has_in; split; [exact H1|split; [exact H2|split; [tauto|split; [exact NC|exact NX]]]]|].
    change ([91] ++ v ++ [93]) with (91 :: v ++ [93]). apply m_text; [exact NC|right; exact NX|right; right; left; reflexivity|rewrite <- has_in; congruence].
Qed.
Theorem C78_quotes_refuted const v : unquotable const v -> vcx_value const v = v /\ ~ means const v (vcx_value const v).
Proof.
  intros (Q1 & Q2 & Q3 & NC & NX).
  assert (E : vcx_value const v = v).
  { unfold vcx_value. destruct (blank v) eqn:B; [apply blank_spec in B; subst v; contradiction|]. destruct (rgb_like v) eqn:R; [apply rgb_like_spec in R; contradiction|].
    destruct (in_parens v) eqn:P; [reflexivity|]. destruct (const _) eqn:K; [reflexivity|]. rewrite (proj2 (has_in 34 v) Q1), (proj2 (has_in 39 v) Q2). cbn [negb].
    destruct Q3 as [Q3|Q3]; rewrite (proj2 (has_in _ v) Q3); [reflexivity|destruct (has 91 v); reflexivity]. }
  split; [exact E|]. rewrite E. intros M. assert (L : forall w, means const v w -> w <> v); [|exact (L v M eq_refl)]. clear M. intros w M. destruct M as [v C|v _ _ X|v q q' _ _ _ _]; [contradiction|contradiction|].
  intros X. apply (f_equal (@length Z)) in X. cbn [length] in X. rewrite app_length in X. cbn [length] in X. lia.
Qed.
Print Assumptions C78_value_partial.
Print Assumptions C78_quotes_refuted.

Definition spaces (s : pystr) : Prop := Forall (fun c => is_space c = true) s.
(** [trimmed p q]: q is p without the white space around it *)
Definition trimmed (p q : pystr) : Prop := exists a b, p = a ++ q ++ b /\ spaces a /\ spaces b /\ (q = [] \/ is_space (hd 0 q) = false /\ is_space (last q 0) = false).
Definition first_eq (line p v : pystr) : Prop := line = p ++ u " = " ++ v /\ forall a b, p ++ u " =" <> a ++ u " = " ++ b.
Lemma drop_space_spec s : exists a, s = a ++ drop_space s /\ spaces a /\ (drop_space s = [] \/ is_space (hd 0 (drop_space s)) = false).
Proof.
  induction s as [|c s (a & E & F & H)]; [exists []; repeat split; [constructor|left; reflexivity]|]. cbn [drop_space]. destruct (is_space c) eqn:D.
  - exists (c :: a). split; [cbn [app]; rewrite <- E; reflexivity|]. split; [constructor; assumption|exact H].
  - exists []. split; [reflexivity|]. split; [constructor|right; exact D].
Qed.
Lemma strip_trimmed p : trimmed p (strip p).
Proof.
  unfold strip. destruct (drop_space_spec p) as (a & E & F & H). destruct (drop_space_spec (rev (drop_space p))) as (b & E2 & F2 & H2). set (q := drop_space (rev (drop_space p))) in *.
  exists a, (rev b). assert (EQ : drop_space p = rev q ++ rev b) by (rewrite <- rev_app_distr, <- E2, rev_involutive; reflexivity). split; [rewrite <- EQ; exact E|]. split; [exact F|]. split; [apply Forall_rev; exact F2|].
  destruct q as [|c t] eqn:Q; [left; reflexivity|]. right. destruct H2 as [H2|H2]; [discriminate|]. cbn [hd] in H2. cbn [rev]. split.
  - rewrite EQ in H. cbn [rev] in H. destruct H as [H|H]; [destruct (rev t); discriminate|]. destruct (rev t); exact H.
  - rewrite last_last. exact H2.
Qed.
Lemma split1_some line p v : split1 line = Some (p, v) -> first_eq line p v.
Proof.
  unfold split1. pose proof (find_nat_spec line (u " = ")) as H. destruct (find_nat line (u " = ")) as [k|]; [|discriminate]. intros E. injection E as <- <-. destruct H as [(a & b & -> & L) H]. subst k.
  rewrite firstn_app, Nat.sub_diag, firstn_all. cbn [firstn]. rewrite app_nil_r. rewrite skipn_app. replace (skipn (length a + 3) a) with (@nil Z) by (symmetry; apply skipn_all2; lia). replace (length a + 3 - length a)%nat with 3%nat by lia. cbn [app].
  split; [reflexivity|]. intros c d X. apply (H (length c)).
  - apply (f_equal (@length Z)) in X. rewrite !app_length in X. cbn in X. lia.
  - exists c, (d ++ [32] ++ b). split; [|reflexivity]. change (u " = ") with (u " =" ++ [32]). rewrite <- (app_assoc (u " =")). rewrite (app_assoc a (u " =")), X. rewrite <- !app_assoc. reflexivity.
Qed.
Lemma split1_first line p v : first_eq line p v -> split1 line = Some (p, v).
Proof.
  intros [-> N]. unfold split1. pose proof (find_nat_spec (p ++ u " = " ++ v) (u " = ")) as H. destruct (find_nat _ _) as [k|].
  - destruct H as [(a & b & E & L) H]. assert (K : length a = length p).
    { destruct (Nat.lt_total (length a) (length p)) as [C|[C|C]]; [|exact C|exfalso; apply (H (length p)); [lia|exists p, v; split; reflexivity]].
      exfalso. apply (N a (firstn (length p + 2 - (length a + 3)) b)). apply (f_equal (firstn (length p + 2))) in E. rewrite firstn_app in E. rewrite firstn_all2 in E by lia. replace (length p + 2 - length p)%nat with 2%nat in E by lia.
      change (firstn 2 (u " = " ++ v)) with (u " =") in E. rewrite E. rewrite firstn_app. rewrite firstn_all2 by lia. f_equal. rewrite firstn_app. rewrite firstn_all2 by (change (length (u " = ")) with 3%nat; lia). f_equal. f_equal. change (length (u " = ")) with 3%nat. lia. }
    subst k. rewrite K. rewrite firstn_app, Nat.sub_diag, firstn_all. cbn [firstn]. rewrite app_nil_r. rewrite skipn_app. replace (skipn (length p + 3) p) with (@nil Z) by (symmetry; apply skipn_all2; lia). replace (length p + 3 - length p)%nat with 3%nat by lia. reflexivity.
  - exfalso. apply (H (length p)). exists p, v. split; reflexivity.
Qed.
Lemma split1_none line : split1 line = None <-> forall a b, line <> a ++ u " = " ++ b.
Proof.
  unfold split1. pose proof (find_nat_spec line (u " = ")) as H. destruct (find_nat line (u " = ")) as [k|].
  - split; [discriminate|]. intros N. destruct H as [(a & b & E & _) _]. exfalso. exact (N a b E).
  - split; [|reflexivity]. intros _ a b E. apply (H (length a)). exists a, b. split; [exact E|reflexivity].
Qed.
(** the class made of a record *)
Definition prop_text (const : pystr -> bool) (line out : pystr) : Prop :=
  (line = [] /\ out = []) \/ exists p v q w, first_eq line p v /\ trimmed p q /\ out = q ++ u " = " ++ w /\ (means const v w \/ unquotable const v /\ w = v).
Definition class_text (const : pystr -> bool) (r : rec) (code : pystr) : Prop := exists props, Forall2 (prop_text const) (r_props r) props /\
  code = join [10] (map (fun x => u "#include """ ++ x ++ [34]) (r_incl r)) ++ [10] ++ u "DEFINE CLASS " ++ r_name r ++ u " AS " ++ r_class r ++ [10]
         ++ join [10] props ++ [10; 10] ++ join [10] (r_methods r) ++ [10] ++ u "ENDDEFINE" ++ [10; 10].
Definition named (r : rec) : Prop := r_name r <> [] /\ r_class r <> [].
Definition has_value (line : pystr) : Prop := line = [] \/ exists a b, line = a ++ u " = " ++ b.
Lemma means_dec const v : {unquotable const v} + {~ unquotable const v}.
Proof.
  destruct (has 34 v) eqn:H1; [|right; intros (Q & _); apply has_in in Q; congruence]. destruct (has 39 v) eqn:H2; [|right; intros (_ & Q & _); apply has_in in Q; congruence].
  destruct (has 91 v || has 93 v) eqn:H3; [|right; intros (_ & _ & Q & _); rewrite <- !has_in in Q; apply orb_false_elim in H3 as [? ?]; intuition congruence].
  destruct (rgb_like v) eqn:R; [right; intros (_ & _ & _ & N & _); apply N, rgb_like_spec, R|].
  destruct (in_parens v) eqn:P; [right; intros (_ & _ & _ & _ & N); apply N; left; apply in_parens_spec, P|].
  destruct (const (match v with 45 :: r => r | _ => v end)) eqn:K; [right; intros (_ & _ & _ & _ & N); apply N; right; apply minus_case, K|].
  left. unfold unquotable. rewrite <- !has_in, <- rgb_like_spec. apply orb_true_iff in H3. split; [exact H1|]. split; [exact H2|]. split; [exact H3|]. split; [congruence|].
  intros [X|X]; [apply in_parens_spec in X; congruence|apply minus_case in X; exact (eq_true_false_abs _ X K)].
Qed.
(** There is one class per named record, in order, with its properties, values and methods *)
Theorem C78_library_partial const table : Forall (fun r => named r -> Forall has_value (r_props r)) table ->
  exists codes named_recs, convert_vcx const table = Ok codes /\ Forall2 (class_text const) named_recs codes /\ named_recs = filter is_named table /\ forall r, In r named_recs <-> In r table /\ named r.
Proof.
  intros F. assert (N : forall r, is_named r = true <-> named r).
  { intros r. unfold is_named, named. rewrite andb_true_iff, !negb_true_iff. rewrite <- !(not_true_iff_false (blank _)), !blank_spec. reflexivity. }
  destruct (mapm_ok (vcx_code const) (class_text const) (filter is_named table)) as (codes & E & G).
  - apply Forall_forall. intros r I. apply filter_In in I as [I Nr]. rewrite Forall_forall in F. specialize (F r I (proj1 (N r) Nr)).
    destruct (mapm_ok (vcx_prop const) (prop_text const) (r_props r)) as (props & E & G).
    { eapply Forall_impl; [|exact F]. intros line H. unfold vcx_prop. destruct (blank line) eqn:B; [apply blank_spec in B; exists []; split; [reflexivity|left; split; [exact B|reflexivity]]|].
      destruct H as [-> | (a & b & E)]; [discriminate|]. destruct (split1 line) as [[p v]|] eqn:S; [|exfalso; exact (proj1 (split1_none line) S a b E)].
      eexists. split; [reflexivity|]. right. exists p, v, (strip p), (vcx_value const v). split; [apply split1_some; exact S|]. split; [apply strip_trimmed|]. split; [reflexivity|].
      destruct (means_dec const v) as [U|U]; [right; split; [exact U|apply C78_quotes_refuted; exact U]|left; apply C78_value_partial; exact U]. }
    unfold vcx_code. rewrite E. cbn [rbind]. eexists. split; [reflexivity|]. exists props. split; [exact G|]. rewrite <- !app_assoc. reflexivity.
  - exists codes, (filter is_named table). split; [exact E|]. split; [exact G|]. split; [reflexivity|]. intros r. rewrite filter_In, N. reflexivity.
Qed.
(** One line without " = " in any class (a value of several lines has such lines) and nothing is converted *)
Theorem C78_fails_refuted const table r line : In r table -> named r -> In line (r_props r) -> ~ has_value line -> exists e, convert_vcx const table = Err e.
Proof.
  intros I [N1 N2] L H. unfold convert_vcx. assert (E : exists e, vcx_code const r = Err e).
  { destruct (mapm_err (vcx_prop const) (r_props r) line ValueError L) as (e & E).
    - unfold vcx_prop. destruct (blank line) eqn:B; [apply blank_spec in B; exfalso; apply H; left; exact B|]. rewrite (proj2 (split1_none line)); [reflexivity|]. intros a b E. apply H. right. exists a, b. exact E.
    - exists e. unfold vcx_code. rewrite E. reflexivity. }
  destruct E as (e & E). eapply mapm_err; [|exact E]. apply filter_In. split; [exact I|]. unfold is_named. destruct (r_name r); [congruence|]. destruct (r_class r); [congruence|]. reflexivity.
Qed.
Print Assumptions C78_library_partial.
Print Assumptions C78_fails_refuted.
Example C78_example : let const := fun s => forallb is_digit s in
  vcx_value const (u "255,0,0") = u "RGB(255,0,0)" /\ vcx_value const (u "-12") = u "-12" /\ vcx_value const (u "say ""no""") = u "'say ""no""'" /\
  vcx_value const (u "a'b""c[1]") = u "a'b""c[1]" /\ unquotable const (u "a'b""c[1]") /\
  convert_vcx const [Rec (u "btn") (u "commandbutton") [] [u "Height = 20"; u " Caption = Say hi"] [u "PROCEDURE Click"; u "ENDPROC"] []; Rec [] (u "x") [] [u "bad"] [] []] =
    Ok [[10] ++ u "DEFINE CLASS btn AS commandbutton" ++ [10] ++ u "Height = 20" ++ [10] ++ u "Caption = ""Say hi""" ++ [10; 10] ++ u "PROCEDURE Click" ++ [10] ++ u "ENDPROC" ++ [10] ++ u "ENDDEFINE" ++ [10; 10]].
Proof.
  do 4 (split; [reflexivity|]). split; [|reflexivity]. unfold unquotable. rewrite <- !has_in, <- rgb_like_spec. do 2 (split; [reflexivity|]). split; [left; reflexivity|]. split; [discriminate|].
  intros [X|X]; [apply in_parens_spec in X; discriminate X|apply minus_case in X; discriminate X].
Qed.

(** * C79 *)
Lemma index_in names x : In x names -> exists k, index names x = Ok k.
Proof. induction names as [|y l IH]; intros I; [contradiction|]. cbn [index]. destruct (pystr_eqb_spec y x); [exists 0%nat; reflexivity|]. destruct I as [->|I]; [congruence|]. destruct (IH I) as (k & ->). exists (S k). reflexivity. Qed.
Lemma index_out names x : ~ In x names -> index names x = Err ValueError.
Proof. induction names as [|y l IH]; intros I; [reflexivity|]. cbn [index]. destruct (pystr_eqb_spec y x) as [->|]; [exfalso; apply I; left; reflexivity|]. rewrite IH; [reflexivity|]. intros X. apply I. right. exact X. Qed.
(** names that occur once, apart from the empty one *)
Definition distinct (names : list pystr) : Prop := NoDup (filter (fun n => negb (blank n)) names).
Lemma append_at_name names (f : pystr -> list rec) p k r : distinct names -> p <> [] -> index names p = Ok k ->
  append_at (map f names) k r = map (fun n => if pystr_eqb n p then f n ++ [r] else f n) names.
Proof.
  revert k. induction names as [|n names IH]; intros k D NE E; [discriminate|]. cbn [index] in E. cbn [map]. destruct (pystr_eqb_spec n p) as [->|N].
  - injection E as <-. cbn [append_at]. f_equal. apply map_ext_in. intros x I. destruct (pystr_eqb_spec x p) as [->|]; [|reflexivity]. exfalso.
    unfold distinct in D. cbn [filter] in D. destruct p as [|c p]; [congruence|]. cbn [blank negb] in D. inversion D as [|? ? N1 _]; subst. apply N1. apply filter_In. split; [exact I|reflexivity].
  - destruct (index names p) as [j|] eqn:J; [|discriminate]. injection E as <-. cbn [append_at]. f_equal. apply IH; [|exact NE|reflexivity]. unfold distinct in *. cbn [filter] in D. destruct (negb (blank n)); [inversion D; assumption|exact D].
Qed.
Definition child_of (n : pystr) (r : rec) : bool := negb (blank (r_parent r)) && pystr_eqb (r_parent r) n.
Definition the_form (table : list rec) (form : option pystr) : option pystr := fold_left (fun f r => if pystr_eqb (lower (r_class r)) (u "form") then Some (r_name r) else f) table form.
Lemma collect_ok names table : distinct names -> Forall (fun r => r_parent r = [] \/ In (r_parent r) names) table -> forall f form,
  collect names table (map f names) form = Ok (map (fun n => f n ++ filter (child_of n) table) names, the_form table form).
Proof.
  intros D F. induction F as [|r table H F IH]; intros f form; [cbn; do 2 f_equal; apply map_ext; intros n; rewrite app_nil_r; reflexivity|]. cbn [collect the_form fold_left]. fold (the_form table). unfold child_of at 1. cbn [filter].
  destruct (blank (r_parent r)) eqn:B; [exact (IH f _)|]. destruct H as [H|H]; [rewrite H in B; discriminate|]. destruct (index_in names (r_parent r) H) as (k & K). rewrite K. cbn [rbind].
  rewrite (append_at_name names f (r_parent r) k r D) by (assumption || (intros X; rewrite X in B; discriminate)). rewrite IH. unfold the_form. do 2 f_equal. apply map_ext. intros n. cbn [negb andb].
  destruct (pystr_eqb_spec n (r_parent r)) as [E1|E1], (pystr_eqb_spec (r_parent r) n) as [E2|E2]; [|congruence|congruence|reflexivity]. rewrite <- app_assoc. reflexivity.
Qed.
Lemma combine_map {A B} (g : A -> B) l : combine l (map g l) = map (fun x => (x, g x)) l.
Proof. induction l as [|x l IH]; [reflexivity|]. cbn [map combine]. rewrite IH. reflexivity. Qed.
Lemma mapm_map {A B C} (g : A -> B) (f : B -> res C) l : mapm f (map g l) = mapm (fun x => f (g x)) l.
Proof. induction l as [|x l IH]; [reflexivity|]. cbn [map mapm]. rewrite IH. reflexivity. Qed.
Lemma scx_eq table : distinct (map r_name table) -> Forall (fun r => r_parent r = [] \/ In (r_parent r) (map r_name table)) table ->
  convert_scx table = match the_form table None with None => Err NameError | Some form =>
    rmap (fun classes => (form, classes)) (mapm (fun r => scx_class r (filter (child_of (r_name r)) table)) (filter is_top table)) end.
Proof.
  intros D F. unfold convert_scx. replace (map (fun _ => []) table) with (map (fun _ : pystr => @nil rec) (map r_name table)) by (rewrite map_map; reflexivity).
  rewrite (collect_ok (map r_name table) table D F). cbn [rbind]. destruct (the_form table None) as [form|]; [|reflexivity]. rewrite map_map, combine_map.
  assert (G : forall l (g : rec -> list rec), filter (fun '(r, _) => is_top r) (map (fun x => (x, g x)) l) = map (fun x => (x, g x)) (filter is_top l)).
  { induction l as [|x l IH]; intros g; [reflexivity|]. cbn [map filter]. rewrite IH. destruct (is_top x); reflexivity. }
  rewrite G, mapm_map. cbn [app]. destruct (mapm _ _); reflexivity.
Qed.

(** What a control needs: each line of its properties is blank or has one " = " in it *)
Definition one_eq (line : pystr) : Prop := spaces line \/ exists q p v, trimmed line q /\ first_eq q p v /\ forall a b, v <> a ++ u " = " ++ b.
(** how a property of the control obj is written *)
Definition control_prop (obj line : pystr) (out : list pystr) : Prop :=
  (spaces line /\ out = []) \/ exists q p v w, trimmed line q /\ first_eq q p v /\ out = [obj ++ u "." ++ p ++ u " = " ++ w] /\
    (p = u "Picture" /\ w = 34 :: v ++ [34] \/ (exists n, p = n ++ u "Color") /\ w = u "RGB(" ++ v ++ u ")" \/ p <> u "Picture" /\ (forall n, p <> n ++ u "Color") /\ w = v).
Definition control_lines (c : rec) (lines : list pystr) : Prop := exists props, Forall2 (control_prop (r_name c)) (r_props c) props /\
  lines = (u "ADD OBJECT " ++ r_name c ++ u " AS " ++ r_class c) :: concat props ++ [[]].
Lemma strip_spaces s : spaces s <-> strip s = [].
Proof.
  split.
  - intros F. unfold strip. assert (E : drop_space s = []) by (induction F as [|c s H F IH]; [reflexivity|cbn [drop_space]; rewrite H; exact IH]). rewrite E. reflexivity.
  - intros E. destruct (strip_trimmed s) as (a & b & Es & Fa & Fb & _). rewrite E in Es. subst s. apply Forall_app. split; assumption.
Qed.
Lemma hd_app_ne (a b : pystr) : a <> [] -> hd 0 (a ++ b) = hd 0 a. Proof. destruct a; [congruence|reflexivity]. Qed.
Lemma drop_space_app a b : spaces a -> drop_space (a ++ b) = drop_space b.
Proof. induction 1 as [|c a H F IH]; [reflexivity|]. cbn [app drop_space]. rewrite H. exact IH. Qed.
Lemma drop_space_id q : q = [] \/ is_space (hd 0 q) = false -> drop_space q = q.
Proof. destruct q as [|c q]; [reflexivity|]. intros [H|H]; [discriminate|]. cbn [hd] in H. cbn [drop_space]. rewrite H. reflexivity. Qed.
Lemma trimmed_strip p q : trimmed p q -> strip p = q.
Proof.
  intros (a & b & -> & Fa & Fb & H). unfold strip. rewrite drop_space_app by exact Fa. destruct q as [|c q].
  - cbn [app]. assert (E : drop_space b = []) by (induction Fb as [|c s K F IH]; [reflexivity|cbn [drop_space]; rewrite K; exact IH]). rewrite E. reflexivity.
  - destruct H as [H|[H1 H2]]; [discriminate|]. rewrite (drop_space_id ((c :: q) ++ b)) by (right; exact H1). rewrite rev_app_distr, drop_space_app by (apply Forall_rev; exact Fb). rewrite drop_space_id; [apply rev_involutive|]. right.
    destruct (@exists_last _ (c :: q) ltac:(discriminate)) as (l & x & E). rewrite E in *. rewrite last_last in H2. rewrite rev_app_distr. exact H2.
Qed.
Lemma ends_with_spec s e : ends_with s e = true <-> exists n, s = n ++ e.
Proof.
  unfold ends_with. rewrite prefixb_spec. split.
  - intros (t & E). exists (rev t). rewrite <- (rev_involutive s), E, rev_app_distr, rev_involutive. reflexivity.
  - intros (n & ->). exists (rev n). apply rev_app_distr.
Qed.
Lemma scx_prop_ok obj line : one_eq line -> exists out, scx_prop obj line = Ok out /\ control_prop obj line out.
Proof.
  intros H. unfold scx_prop. destruct (blank (strip line)) eqn:B.
  - apply blank_spec in B. exists []. split; [reflexivity|]. left. split; [apply strip_spaces; exact B|reflexivity].
  - destruct H as [H|(q & p & v & T & E & N)]; [apply strip_spaces in H; rewrite H in B; discriminate|]. rewrite (trimmed_strip _ _ T) in *. unfold split2. rewrite (split1_first _ _ _ E).
    pose proof (find_nat_spec v (u " = ")) as X. destruct (find_nat v (u " = ")) as [k|]; [destruct X as [(a & b & Ev & _) _]; exfalso; exact (N a b Ev)|]. cbn [rbind].
    eexists. split; [reflexivity|]. right. exists q, p, v. eexists. split; [exact T|]. split; [exact E|]. split; [reflexivity|].
    destruct (pystr_eqb_spec p (u "Picture")) as [->|NP]; [left; split; reflexivity|]. right. destruct (ends_with p (u "Color")) eqn:EC; [left; split; [apply ends_with_spec; exact EC|reflexivity]|]. right. split; [exact NP|]. split; [|reflexivity].
    intros n En. assert (Y : ends_with p (u "Color") = true) by (apply ends_with_spec; exists n; exact En). congruence.
Qed.
Definition class_lines (table : list rec) (r : rec) (c : pystr * list pystr) : Prop :=
  fst c = u "DEFINE CLASS " ++ r_name r ++ u " AS " ++ r_class r /\
  exists objs, Forall2 control_lines (filter (child_of (r_name r)) table) objs /\
    snd c = r_props r ++ concat objs ++ r_methods r ++ [[]] ++ flat_map scx_methods (filter (child_of (r_name r)) table).
(** A form whose controls are all directly on it comes out complete: one class per object without parent, its controls in order with their properties *)
Theorem C79_controls_partial table f : distinct (map r_name table) -> Forall (fun r => r_parent r = [] \/ In (r_parent r) (map r_name table)) table ->
  Forall (fun r => r_parent r <> [] -> Forall one_eq (r_props r)) table -> In f table -> lower (r_class f) = u "form" ->
  exists form classes, convert_scx table = Ok (form, classes) /\ Forall2 (class_lines table) (filter is_top table) classes /\ In form (map r_name table).
Proof.
  intros D F L If Cf. rewrite scx_eq by assumption.
  assert (G : forall form, (exists n, form = Some n /\ In n (map r_name table)) \/ In f table -> exists n, the_form table form = Some n /\ In n (map r_name table)).
  { assert (G : forall l form, incl l table -> (exists n, form = Some n /\ In n (map r_name table)) \/ In f l -> exists n, the_form l form = Some n /\ In n (map r_name table)).
    { induction l as [|r l IH]; intros form S [H|H]; [exact H|contradiction| |]; unfold the_form; cbn [fold_left]; fold (the_form l); apply IH; try (intros x Ix; apply S; right; exact Ix).
      - left. destruct (pystr_eqb _ _); [|exact H]. exists (r_name r). split; [reflexivity|apply in_map, S; left; reflexivity].
      - destruct H as [->|H]; [|right; exact H]. left. rewrite Cf. destruct (pystr_eqb_spec (u "form") (u "form")); [|congruence]. exists (r_name f). split; [reflexivity|apply in_map; exact If]. }
    intros form H. apply G; [intros x Ix; exact Ix|exact H]. }
  destruct (G None (or_intror If)) as (form & -> & Ifm).
  destruct (mapm_ok (fun r => scx_class r (filter (child_of (r_name r)) table)) (class_lines table) (filter is_top table)) as (classes & E & K).
  - apply Forall_forall. intros r _. destruct (mapm_ok scx_child control_lines (filter (child_of (r_name r)) table)) as (objs & E & K).
    + apply Forall_forall. intros c Ic. apply filter_In in Ic as [Ic Cc]. unfold child_of in Cc. apply andb_prop in Cc as [Cc _]. rewrite Forall_forall in L. specialize (L c Ic). rewrite negb_true_iff in Cc.
      destruct (mapm_ok (scx_prop (r_name c)) (control_prop (r_name c)) (r_props c)) as (props & E & K).
      * eapply Forall_impl; [|apply L; intros X; rewrite X in Cc; discriminate]. intros line H. apply scx_prop_ok. exact H.
      * unfold scx_child. rewrite E. cbn [rbind]. eexists. split; [reflexivity|]. exists props. split; [exact K|reflexivity].
    + unfold scx_class. rewrite E. cbn [rbind]. eexists. split; [reflexivity|]. split; [reflexivity|]. exists objs. split; [exact K|reflexivity].
  - rewrite E. exists form, classes. split; [reflexivity|]. split; [exact K|exact Ifm].
Qed.
Print Assumptions C79_controls_partial.
(** the objects that become classes: those with a name and without parent, other than the data environment *)
Theorem C79_classes :
  forall table r, In r (filter is_top table) <->
    In r table /\ r_parent r = [] /\ r_name r <> [] /\ lower (r_class r) <> u "dataenvironment".
Proof.
  intros table r. rewrite filter_In. unfold is_top. rewrite !andb_true_iff, !negb_true_iff.
  assert (B : forall s, blank s = true <-> s = []) by (intros [|c s]; cbn; split; congruence).
  assert (NB : forall s, blank s = false <-> s <> []) by (intros [|c s]; cbn; split; congruence).
  rewrite B, NB. destruct (pystr_eqb_spec (lower (r_class r)) (u "dataenvironment")) as [E|E]; split; intros H; (split; [tauto|]); [exfalso|exfalso|tauto|tauto].
  - destruct H as [_ [_ H]]. discriminate.
  - destruct H as (_ & _ & _ & H). congruence.
Qed.
Print Assumptions C79_classes.

(** A control in a container of the form has the path of the container as its parent (Form1.Pageframe1): no form with such a control can be converted *)
Theorem C79_path_refuted table c : In c table -> r_parent c <> [] -> ~ In (r_parent c) (map r_name table) -> convert_scx table = Err ValueError.
Proof.
  intros I NE N. unfold convert_scx. generalize (map (fun _ : rec => @nil rec) table) as ch, (@None pystr) as form. remember (map r_name table) as names eqn:En. clear En. intros ch form.
  assert (G : collect names table ch form = Err ValueError); [|rewrite G; reflexivity]. revert ch form. induction table as [|r table IH]; intros ch form; [contradiction|]. cbn [collect]. destruct I as [->|I].
  - destruct (r_parent c) as [|x p] eqn:E; [congruence|]. cbn [blank]. rewrite index_out by exact N. reflexivity.
  - destruct (blank (r_parent r)); [apply IH; exact I|]. destruct (index names (r_parent r)) as [k|e] eqn:K; [cbn [rbind]; apply IH; exact I|]. cbn [rbind]. assert (Ee : e = ValueError); [|rewrite Ee; reflexivity].
    clear -K. revert e K. induction names as [|y l IHl]; intros e K; cbn [index] in K; [congruence|]. destruct (pystr_eqb y (r_parent r)); [discriminate|]. destruct (index l (r_parent r)); [discriminate|]. cbn [rmap] in K. apply IHl. congruence.
Qed.
Print Assumptions C79_path_refuted.

(** What a control in a container is and does makes no difference to the converted form *)
Theorem C79_nested_refuted a b name cls parent props methods incl props' methods' incl' p :
  let t := a ++ Rec name cls parent props methods incl :: b in let t' := a ++ Rec name cls parent props' methods' incl' :: b in
  distinct (map r_name t) -> Forall (fun r => r_parent r = [] \/ In (r_parent r) (map r_name t)) t ->
  parent <> [] -> In p t -> r_name p = parent -> r_parent p <> [] -> convert_scx t = convert_scx t'.
Proof.
  intros t t' D F NE Ip Np Pp. set (c := Rec name cls parent props methods incl) in *. set (c' := Rec name cls parent props' methods' incl') in *.
  assert (En : map r_name t = map r_name t') by (unfold t, t'; rewrite !map_app; reflexivity).
  assert (F' : Forall (fun r => r_parent r = [] \/ In (r_parent r) (map r_name t')) t').
  { rewrite <- En. unfold t, t' in *. rewrite Forall_app in *. destruct F as [F1 F2]. split; [exact F1|]. inversion F2 as [|? ? H F3]; subst. constructor; [exact H|exact F3]. }
  assert (D' : distinct (map r_name t')) by (rewrite <- En; exact D). rewrite (scx_eq t D F), (scx_eq t' D' F').
  assert (Ef : the_form t None = the_form t' None) by (unfold t, t', the_form; rewrite !fold_left_app; reflexivity).
  assert (Et : filter is_top t = filter is_top t').
  { assert (X : forall x, r_parent x = parent -> is_top x = false) by (intros x Hx; unfold is_top; rewrite Hx; destruct parent; [congruence|]; cbn [blank]; rewrite andb_false_r; reflexivity).
    unfold t, t'. rewrite !filter_app. cbn [filter]. rewrite (X c eq_refl), (X c' eq_refl). reflexivity. }
  rewrite Ef, <- Et. destruct (the_form t' None) as [form|]; [|reflexivity]. f_equal.
  assert (G : Forall (fun r => filter (child_of (r_name r)) t = filter (child_of (r_name r)) t') (filter is_top t)).
  { apply Forall_forall. intros r Ir. apply filter_In in Ir as [Ir Tr]. unfold t, t'. rewrite !filter_app. cbn [filter]. f_equal.
    assert (Y : child_of (r_name r) c' = child_of (r_name r) c) by reflexivity. rewrite Y. destruct (child_of (r_name r) c) eqn:Z; [|reflexivity]. exfalso. apply andb_prop in Z as [_ Z]. cbn [r_parent c] in Z. destruct (pystr_eqb_spec parent (r_name r)) as [E|_]; [|discriminate].
    assert (X : r = p); [|subst r; unfold is_top in Tr; destruct (r_parent p); [congruence|]; cbn [blank] in Tr; rewrite andb_false_r in Tr; discriminate].
    unfold distinct in D. rewrite <- Np in E. rewrite <- Np in NE. clear -D E Ip Ir NE. induction t as [|x l IH]; [contradiction|]. cbn [map filter] in D.
    destruct (negb (blank (r_name x))) eqn:B.
    - inversion D as [|? ? N1 N2]; subst. destruct Ip as [->|Ip]; destruct Ir as [->|Ir]; [reflexivity| | |apply IH; assumption]; exfalso; apply N1; apply filter_In; (split; [|exact B]); [rewrite E|rewrite <- E]; apply in_map; assumption.
    - apply negb_false_iff, blank_spec in B. destruct Ip as [->|Ip]; [congruence|]. destruct Ir as [->|Ir]; [congruence|]. apply IH; assumption. }
  clear Et. induction G as [|r l Hr G IH]; [reflexivity|]. cbn [mapm]. rewrite Hr, IH. reflexivity.
Qed.
Print Assumptions C79_nested_refuted.

(** A property value with " = " in it, and nothing is converted *)
Theorem C79_value_refuted table r c line p v : distinct (map r_name table) -> Forall (fun r => r_parent r = [] \/ In (r_parent r) (map r_name table)) table ->
  In r table -> is_top r = true -> In c table -> r_parent c = r_name r -> In line (r_props c) -> first_eq (strip line) p v -> (exists a b, v = a ++ u " = " ++ b) -> exists e, convert_scx table = Err e.
Proof.
  intros D F Ir Tr Ic Pc L E (x & y & Ev). rewrite scx_eq by assumption. destruct (the_form table None); [|eexists; reflexivity].
  assert (X : exists e, mapm (fun r => scx_class r (filter (child_of (r_name r)) table)) (filter is_top table) = Err e); [|destruct X as (e & ->); exists e; reflexivity].
  assert (Y : exists e, mapm scx_child (filter (child_of (r_name r)) table) = Err e).
  { assert (Z : exists e, scx_child c = Err e).
    { destruct (mapm_err (scx_prop (r_name c)) (r_props c) line ValueError L) as (e & E2).
      - unfold scx_prop. destruct (blank (strip line)) eqn:B; [apply blank_spec in B; rewrite B in E; destruct E as [E _]; destruct p; discriminate|]. unfold split2. rewrite (split1_first _ _ _ E).
        pose proof (find_nat_spec v (u " = ")) as H. destruct (find_nat v (u " = ")); [reflexivity|]. exfalso. apply (H (length x)). exists x, y. split; [exact Ev|reflexivity].
      - exists e. unfold scx_child. rewrite E2. reflexivity. }
    destruct Z as (e & Z). eapply mapm_err; [|exact Z]. apply filter_In. split; [exact Ic|]. unfold child_of. rewrite Pc. unfold is_top in Tr. apply andb_prop in Tr as [Tr _]. apply andb_prop in Tr as [Tr _]. rewrite Tr. destruct (pystr_eqb_spec (r_name r) (r_name r)); [reflexivity|congruence]. }
  destruct Y as (e & Y). eapply mapm_err; [apply filter_In; split; [exact Ir|exact Tr]|]. unfold scx_class. rewrite Y. reflexivity.
Qed.
Print Assumptions C79_value_refuted.

(** The methods of a control: PROCEDURE name becomes PROCEDURE control.name; other lines stay as they are unless "PROCEDURE " occurs in them *)
Definition mentions (line : pystr) : Prop := exists a b, line = a ++ u "PROCEDURE " ++ b.
Lemma replace_none s old new : old <> [] -> (forall a b, s <> a ++ old ++ b) -> replace_from 0 None s old new = s.
Proof.
  intros NE. induction s as [|c s IH]; intros N; [reflexivity|]. cbn [replace_from]. destruct (prefixb old (c :: s)) eqn:P.
  - exfalso. apply prefixb_spec in P as (t & E). exact (N [] t E).
  - f_equal. apply IH. intros a b E. apply (N (c :: a) b). rewrite E. reflexivity.
Qed.
Lemma replace_skip k s old new : (k <= length s)%nat -> replace_from k None s old new = replace_from 0 None (skipn k s) old new.
Proof. revert s. induction k as [|k IH]; intros s H; [reflexivity|]. destruct s as [|c s]; [cbn in H; lia|]. cbn [replace_from skipn]. apply IH. cbn in H. lia. Qed.
Lemma replace_first old new t : old <> [] -> replace_from 0 None (old ++ t) old new = new ++ replace_from 0 None t old new.
Proof.
  destruct old as [|c o]; [congruence|]. intros _. pose proof (prefixb_app (c :: o) t) as P. cbn [app] in *. cbn [replace_from]. rewrite P. cbn [length]. rewrite replace_skip by (rewrite app_length; lia).
  replace (S (length o) - 1)%nat with (length o) by lia. rewrite skipn_app, Nat.sub_diag, skipn_all. reflexivity.
Qed.
Theorem C79_methods_partial obj n line : (~ mentions n -> scx_method obj (u "PROCEDURE " ++ n) = [u "PROCEDURE " ++ obj ++ u "." ++ n]) /\
  (line <> [] -> ~ mentions line -> scx_method obj line = [line]) /\ scx_method obj [] = [].
Proof.
  split; [|split; [|reflexivity]].
  - intros N. unfold scx_method, str_replace. change (blank (u "PROCEDURE " ++ n)) with false. cbv iota. f_equal.
    transitivity (replace_from 0 None (u "PROCEDURE " ++ n) (u "PROCEDURE ") (u "PROCEDURE " ++ obj ++ u ".")); [reflexivity|].
    rewrite replace_first by discriminate. rewrite replace_none; [|discriminate|intros a b E; apply N; exists a, b; exact E]. rewrite <- !app_assoc. reflexivity.
  - intros NE N. unfold scx_method. destruct line as [|c l]; [congruence|]. cbn [blank]. f_equal. unfold str_replace. cbn [u]. apply replace_none; [discriminate|]. intros a b E. apply N. exists a, b. exact E.
Qed.
Print Assumptions C79_methods_partial.
(** so a statement or comment of a control that mentions "PROCEDURE " is changed *)
Theorem C79_text_refuted obj line : obj <> [] -> mentions line -> scx_method obj line <> [line].
Proof.
  intros NE (a & b & ->). unfold scx_method. destruct (blank _) eqn:B; [discriminate|]. intros E. injection E as E. apply (f_equal (@length Z)) in E. revert E. unfold str_replace. cbn [u].
  assert (G : forall s k, (length s <= k + length (replace_from k None s (u "PROCEDURE ") (u "PROCEDURE " ++ obj ++ u ".")))%nat).
  { induction s as [|c s IH]; intros k; [cbn; lia|]. destruct k as [|k]; cbn [replace_from].
    - destruct (prefixb _ _); [|cbn [length]; specialize (IH 0%nat); lia]. rewrite app_length. specialize (IH 9%nat). change (length (u "PROCEDURE ") - 1)%nat with 9%nat. rewrite app_length. change (length (u "PROCEDURE ")) with 10%nat. cbn [length]. match goal with |- context [replace_from ?k ?a ?b ?c ?d] => change (replace_from k a b c d) with (replace_from 9 None s (u "PROCEDURE ") (u "PROCEDURE " ++ obj ++ u ".")) end. lia.
    - specialize (IH k). cbn [length]. lia. }
  assert (K : (length (a ++ u "PROCEDURE " ++ b) < length (replace_from 0 None (a ++ u "PROCEDURE " ++ b) (u "PROCEDURE ") (u "PROCEDURE " ++ obj ++ u ".")))%nat); [|intros X; refine (Nat.lt_irrefl _ (Nat.lt_le_trans _ _ _ K _)); apply Nat.eq_le_incl; exact X].
  clear B. assert (Q : forall c s, prefixb (u "PROCEDURE ") (c :: s) = true -> (length (c :: s) < length (replace_from 0 None (c :: s) (u "PROCEDURE ") (u "PROCEDURE " ++ obj ++ u ".")))%nat).
  { intros c s P. cbn [replace_from]. rewrite P. rewrite app_length. specialize (G s 9%nat). change (length (u "PROCEDURE ") - 1)%nat with 9%nat. rewrite !app_length. change (length (u "PROCEDURE ")) with 10%nat. change (length (u ".")) with 1%nat. cbn [length]. match goal with |- context [replace_from ?k ?a ?b ?c ?d] => change (replace_from k a b c d) with (replace_from 9 None s (u "PROCEDURE ") (u "PROCEDURE " ++ obj ++ u ".")) end. lia. }
  induction a as [|c a IH].
  - apply (Q 80 (u "ROCEDURE " ++ b)). apply (prefixb_app (u "PROCEDURE ")).
  - cbn [app]. destruct (prefixb (u "PROCEDURE ") (c :: a ++ u "PROCEDURE " ++ b)) eqn:P; [apply Q; exact P|]. cbn [replace_from]. rewrite P. cbn [length]. lia.
Qed.
Print Assumptions C79_text_refuted.
Example C79_example :
  convert_scx [Rec (u "Dataenvironment") (u "dataenvironment") [] [] [] []; Rec (u "Form1") (u "form") [] [u "Caption = ""F"""] [u "PROCEDURE Init"; u "ENDPROC"] [];
               Rec (u "Button1") (u "commandbutton") (u "Form1") [u "Caption = ""a"""; u "BackColor = 1,2,3"; u "  "] [u "PROCEDURE Click"; u "? [IN PROCEDURE Click]"; u "ENDPROC"] []] =
  Ok (u "Form1", [(u "DEFINE CLASS Form1 AS form",
    [u "Caption = ""F"""; u "ADD OBJECT Button1 AS commandbutton"; u "Button1.Caption = ""a"""; u "Button1.BackColor = RGB(1,2,3)"; []; u "PROCEDURE Init"; u "ENDPROC"; []; u "PROCEDURE Button1.Click"; u "? [IN PROCEDURE Button1.Click]"; u "ENDPROC"; []])]) /\
  convert_scx [Rec (u "Form1") (u "form") [] [] [] []; Rec (u "Page1") (u "page") (u "Form1") [] [] []; Rec (u "Button1") (u "commandbutton") (u "Form1.Page1") [] [] []] = Err ValueError.
Proof. split; reflexivity. Qed.
