(** Reading what an expression says *)
From Verif Require Import PyBase PyStr M_Lexer S_Lexer P_Lexer P_Lexer2 P_Lexer3 P_Lexer4 S_Py M_Lit M_Conv M_Parse S_Expr P_Parse.
From Coq Require Import Lia.
Open Scope Z_scope.

(** ** Names and constants *)
Lemma find_word_in : forall l w k, find_word l w = Some k -> In (w, k) l.
Proof.
  induction l as [|[x k'] l IH]; intros w k H; [discriminate|]. cbn [find_word] in H. destruct (pystr_eqb_spec x w) as [-> | _]; [injection H as ->; left; auto | right; auto].
Qed.
Definition name_kind (k : string) : bool :=
  existsb (fun x => String.eqb k x) identifiers && negb (existsb (String.eqb k)
    ["LEFTPAREN"; "RIGHTPAREN"; "PLUS_SIGN"; "MINUS_SIGN"; "EXCLAMATION"; "NOT"; "OTHERNOT"; "NUMBER_LITERAL"; "PERIOD"; "NULL"; "SINGLEQUOTE"; "DOUBLEQUOTE"; "ASTERISK"]%string).
Lemma named_kind : forall w, named w -> name_kind (word_kind w) = true.
Proof.
  intros w [W N]. unfold word_kind. destruct (find_word spellings (upper w)) as [k|] eqn:E.
  - apply find_word_in in E. assert (V : forallb (fun p => name_kind (snd p) || existsb (pystr_eqb (fst p)) (map u ["AND"; "OR"; "NOT"; "NULL"; "DB4"; "_"; "CLASS"]%string)) spellings = true) by (vm_compute; reflexivity).
    apply (proj1 (forallb_forall _ _) V) in E. cbn [fst snd] in E. apply orb_prop in E as [E | E]; [exact E|]. exfalso. apply existsb_exists in E as (x & I & Q).
    apply N. destruct (pystr_eqb_spec (upper w) x) as [-> | _]; [exact I | discriminate Q].
  - destruct (pystr_eqb_spec w (u "_")) as [-> | _]; [|vm_compute; reflexivity]. exfalso. apply N. vm_compute. tauto.
Qed.
Lemma word_text : forall w, word w = true -> lower_text w = small w.
Proof.
  intros w H. apply map_ext_in. intros c I. assert (A : 0 <= c < 128).
  { destruct w as [|d w]; [destruct I|]. cbn [word] in H. apply andb_prop in H as [A B]. rewrite forallb_forall in B.
    unfold name_char, letter, digit in *. destruct I as [<- | I]; [clear B | apply B in I; clear A]; rewrite ?Bool.orb_true_iff, ?Bool.andb_true_iff, ?Z.leb_le, ?Z.eqb_eq in *; lia. }
  unfold down, lower_char. destruct ((65 <=? c) && (c <=? 90)) eqn:E; lia || reflexivity.
Qed.
Lemma word_small : forall w, named w -> lower_name w = small w.
Proof.
  intros w [W N]. unfold lower_name. rewrite word_text by auto. destruct (pystr_eqb_spec (small w) (u "class")) as [E | _]; [|reflexivity]. exfalso. apply N.
  assert (U : upper w = upper (small w)).
  { unfold upper, small. rewrite map_map. apply map_ext. intros c. unfold up, down. destruct ((65 <=? c) && (c <=? 90)) eqn:A; [|reflexivity].
    apply andb_prop in A as [A B]. apply Z.leb_le in A, B. replace (97 <=? c) with false by (symmetry; apply Z.leb_gt; lia). cbn [andb].
    replace (97 <=? c + 32) with true by (symmetry; apply Z.leb_le; lia). replace (c + 32 <=? 122) with true by (symmetry; apply Z.leb_le; lia). cbn [andb]. lia. }
  rewrite U, E. vm_compute. tauto.
Qed.
Lemma name_kind_not : forall k x, name_kind k = true -> In x ["LEFTPAREN"; "RIGHTPAREN"; "PLUS_SIGN"; "MINUS_SIGN"; "EXCLAMATION"; "NOT"; "OTHERNOT"; "NUMBER_LITERAL"; "PERIOD"; "NULL"; "SINGLEQUOTE"; "DOUBLEQUOTE"; "ASTERISK"]%string -> String.eqb k x = false.
Proof.
  intros k x H I. unfold name_kind in H. apply andb_prop in H as [_ H]. apply Bool.negb_true_iff in H. destruct (String.eqb k x) eqn:E; [|reflexivity].
  assert (T : existsb (String.eqb k) ["LEFTPAREN"; "RIGHTPAREN"; "PLUS_SIGN"; "MINUS_SIGN"; "EXCLAMATION"; "NOT"; "OTHERNOT"; "NUMBER_LITERAL"; "PERIOD"; "NULL"; "SINGLEQUOTE"; "DOUBLEQUOTE"; "ASTERISK"]%string = true) by (apply existsb_exists; eauto).
  rewrite T in H. discriminate H.
Qed.
Definition after_name (expr_args : list ptok -> option (list ctx * list ptok)) (t : ptok) (r : list ptok) : option (ctx * list ptok) :=
  match r with
  | c :: r' =>
      if is_kind c "LEFTPAREN" then
        match r' with
        | d :: r'' => if is_kind d "RIGHTPAREN" then Some (CCall (M_Call.resolve (lower_name (txt t))) [], r'')
                      else match expr_args r' with Some (l, r) => Some (CCall (M_Call.resolve (lower_name (txt t))) l, r) | None => None end
        | [] => None
        end
      else if one_of c ["LEFTBRACKET"; "PERIOD"]%string then None
      else Some (CVar (lower_name (txt t)), r)
  | [] => Some (CVar (lower_name (txt t)), r)
  end.
Lemma primary_name : forall expr args t r, name_kind (kind t) = true -> primary expr args (t :: r) = after_name args t r.
Proof.
  intros expr args t r H. assert (N := name_kind_not (kind t)). unfold primary, is_kind, one_of. cbn [existsb]. unfold is_kind.
  rewrite !N by (first [exact H | cbn [In]; tauto]). cbn [orb]. unfold name_kind in H. apply andb_prop in H as [H _].
  change (existsb (fun k => String.eqb (kind t) k) identifiers) with (existsb (fun x => String.eqb (kind t) x) identifiers). rewrite H. reflexivity.
Qed.
(** ** How expressions begin *)
Definition starts (ts : list ptok) : Prop := match ts with t :: _ => is_kind t "ASTERISK" = false /\ is_kind t "RIGHTPAREN" = false | [] => False end.
Lemma starts_app : forall a b, starts a -> starts (a ++ b).
Proof. intros [|t a] b H; [destruct H | exact H]. Qed.
Scheme says_mut := Induction for says Sort Prop with says_all_mut := Induction for says_all Sort Prop.
Lemma says_starts : forall n ps t, says n ps t -> Forall piece_ok ps -> forall ts, streams ps ts -> starts ts.
Proof.
  intros n ps t H. induction H as [n ps t _ IH | n o f a x b y B _ IHa _ _ | p a x N _ _ | m a x _ _ | a x _ _ | ds | q s | w c b E I | w E | w E | w N | w ps l N A]; intros OK ts R.
  - apply IH; auto.
  - apply streams_app in R as (ta & tb & -> & Ra & _). apply Forall_app in OK as [O _]. apply starts_app, IHa; auto.
  - destruct N; (apply streams_single in R as (h & ts' & -> & _); [|reflexivity]); try (split; reflexivity). unfold starts, is_kind. cbn [kind piece_kind]. rewrite (kind_upper w _ _ H eq_refl). split; reflexivity.
  - apply streams_single in R as (h & ts' & -> & _); [|reflexivity]. destruct m; split; reflexivity.
  - apply streams_single in R as (h & ts' & -> & _); [|reflexivity]. split; reflexivity.
  - apply streams_single in R as (h & ts' & -> & _); [|reflexivity]. split; reflexivity.
  - inversion R; subst. cbn [piece_stream app starts]. unfold is_kind. cbn [kind]. unfold quote_kind. destruct (q =? 34); split; reflexivity.
  - apply streams_single in R as (h & ts' & -> & _); [|reflexivity]. split; reflexivity.
  - apply streams_single in R as (h & ts' & -> & _); [|reflexivity]. unfold starts, is_kind. cbn [kind piece_kind]. rewrite (kind_upper w _ _ E eq_refl). split; reflexivity.
  - apply streams_single in R as (h & ts' & -> & _); [|reflexivity]. split; reflexivity.
  - apply streams_single in R as (h & ts' & -> & _); [|reflexivity]. unfold starts, is_kind. cbn [kind piece_kind]. apply named_kind in N. split; apply (name_kind_not _ _ N); cbn [In]; tauto.
  - apply streams_single in R as (h & ts' & -> & _); [|reflexivity]. unfold starts, is_kind. cbn [kind piece_kind]. apply named_kind in N. split; apply (name_kind_not _ _ N); cbn [In]; tauto.
Qed.
Lemma starts_no_star : forall ts rest, starts ts -> no_star (ts ++ rest).
Proof. intros [|t ts] rest H; [destruct H | destruct H as [H _]; exact H]. Qed.

(** ** The parser *)
Definition read_as (n : nat) (t : ctx) (ts : list ptok) : Prop :=
  exists tl, (forall rest, stops n rest -> prims (ts ++ rest) (first_operand (regrouped t), tl ++ rest))
    /\ (forall rest p h r, stops n rest -> (p <= prec n)%nat -> loops p (with_first h (regrouped t)) rest r -> loops p h (tl ++ rest) r).
Definition closing (ts : list ptok) : Prop := match ts with t :: _ => kind t = "RIGHTPAREN"%string | [] => False end.
Definition all_read (l : list ctx) (ts : list ptok) : Prop :=
  match l with [] => ts = [] | _ => starts ts /\ forall c rest, kind c = "RIGHTPAREN"%string -> lists (ts ++ c :: rest) (map regrouped l, rest) end.
Lemma read_parses : forall n t ts rest p r, read_as n t ts -> stops n rest -> (p <= prec n)%nat -> loops p (regrouped t) rest r -> parses p (ts ++ rest) r.
Proof.
  intros n t ts rest p r (tl & A & B) H L K. apply (parses_intro _ _ _ _ _ (A rest H)). apply B; auto. rewrite with_own. exact K.
Qed.
Lemma loops_above : forall p h ts, (10 < p)%nat -> loops p h ts (h, ts).
Proof. intros p h ts L. apply loops_stop. destruct (binop ts) as [[[l f] r]|] eqn:E; auto. apply binop_le in E. lia. Qed.
Lemma plain_read : forall n t ts, first_operand (regrouped t) = regrouped t -> (forall h, with_first h (regrouped t) = h) ->
  (forall rest, stops n rest -> prims (ts ++ rest) (regrouped t, rest)) -> read_as n t ts.
Proof.
  intros n t ts F W P. exists []. split; [intros rest H; rewrite F; apply P; auto|]. intros rest p h r H L K. rewrite W in K. exact K.
Qed.
Lemma closing_stops : forall n c rest, kind c = "RIGHTPAREN"%string \/ kind c = "COMMA"%string -> stops n (c :: rest) /\ binop (c :: rest) = None.
Proof.
  intros n c rest H. assert (B : binop (c :: rest) = None) by (rewrite binop_single by (right; unfold is_kind; destruct H as [-> | ->]; reflexivity); destruct H as [-> | ->]; reflexivity).
  split; [|exact B]. split; [|rewrite B; exact I]. unfold follows, one_of, is_kind. cbn [existsb]. destruct H as [-> | ->]; reflexivity.
Qed.
Theorem says_read : forall n ps t, says n ps t -> Forall piece_ok ps -> forall ts, streams ps ts -> read_as n t ts.
Proof.
  apply (says_mut (fun n ps t _ => Forall piece_ok ps -> forall ts, streams ps ts -> read_as n t ts)
                  (fun ps l _ => Forall piece_ok ps -> forall ts, streams ps ts -> all_read l ts)).
  - (* up *) intros n ps t _ IH OK ts R. destruct (IH OK ts R) as (tl & A & B). exists tl. split; intros; [apply A, stops_up; auto|]. apply B; auto using stops_up. assert (P := prec_up n). lia.
  - (* binary *) intros n o f a x b y Bi Sa IHa Sb IHb OK ts R. apply Forall_app in OK as [Oa O]. apply Forall_app in O as [Oo Ob].
    apply streams_app in R as (ta & tr & -> & Ra & R). apply streams_app in R as (to & tb & -> & Ro & Rb).
    destruct (binary_shape n o f Bi) as (G & Fi & Wi). destruct (IHa Oa ta Ra) as (tla & A1 & A2). assert (IB := IHb Ob tb Rb).
    assert (St : starts tb) by (apply (says_starts _ _ _ Sb Ob); auto).
    assert (Ne : S (prec n) <> prec n /\ (S (prec n) <= prec (S n))%nat) by (inversion Bi; subst; cbn; lia).
    assert (Sto : forall rest, stops n (to ++ tb ++ rest)).
    { intros rest. destruct (binary_binop n o f to (tb ++ rest) Bi Ro (starts_no_star _ _ St)) as [E F]. split; [exact F|]. rewrite E. lia. }
    exists (tla ++ to ++ tb). split.
    + intros rest H. rewrite G, Fi, <- !app_assoc. apply A1. apply Sto.
    + intros rest p h r H L K. rewrite <- !app_assoc. apply A2; auto. rewrite G, Wi in K.
      destruct (binary_binop n o f to (tb ++ rest) Bi Ro (starts_no_star _ _ St)) as [E F].
      apply (loops_step _ _ _ _ _ _ (regrouped y) rest _ E L); [|exact K].
      apply (read_parses (S n) y tb); auto using stops_up; [apply Ne|]. apply loops_stop. destruct H as [_ H]. destruct (binop rest) as [[[l ?] ?]|]; auto. lia.
  - (* not *) intros p a x N Sa IHa OK ts R. inversion OK as [|? ? Op Oa]; subst. assert (exists t0 ts', ts = t0 :: ts' /\ streams a ts' /\ one_of t0 ["EXCLAMATION"; "NOT"; "OTHERNOT"]%string = true /\ is_kind t0 "LEFTPAREN" = false /\ one_of t0 ["PLUS_SIGN"; "MINUS_SIGN"]%string = false) as (t0 & ts' & -> & R' & K1 & K2 & K3).
    { destruct N; (apply streams_single in R as (h & ts' & -> & R'); [|reflexivity]); eexists; exists ts'; (split; [reflexivity|]); (split; [exact R'|]); unfold one_of, is_kind; cbn [existsb kind piece_kind];
        rewrite ?(kind_upper w _ _ H eq_refl); repeat split; reflexivity. }
    destruct (IHa Oa ts' R') as (tl & A & B). exists tl. cbn [regrouped]. split.
    + intros rest H. rewrite first_with by reflexivity. cbn [app].
      assert (P : parses 11 (ts' ++ rest) (first_operand (regrouped x), tl ++ rest)) by (apply (parses_intro _ _ _ _ _ (A rest H)), loops_above; lia).
      destruct P as [F P]. exists F. intros f L. unfold primary. rewrite K2, K3, K1. rewrite P by lia. reflexivity.
    + intros rest q h r H L K. rewrite with_with in K by reflexivity. apply B; auto.
  - (* sign *) intros m a x Sa IHa OK ts R. inversion OK as [|? ? Op Oa]; subst. apply streams_single in R as (h & ts' & -> & R'); [|reflexivity].
    apply plain_read; [reflexivity | reflexivity|]. intros rest H. cbn [app].
    assert (P : parses 12 (ts' ++ rest) (regrouped x, rest)) by (apply (read_parses 8 x); [auto | split; [apply H | destruct H as [_ H]; exact H] | cbn; lia | apply loops_above; lia]).
    destruct P as [F P]. exists F. intros f L. destruct m; unfold primary, is_kind, one_of; cbn [existsb kind piece_kind sym is_kind]; cbn [find symbols snd fst String.eqb Ascii.eqb Bool.eqb orb]; rewrite P by lia; reflexivity.
  - (* parentheses *) intros a x Sa IHa OK ts R. inversion OK as [|? ? Op Oa]; subst. apply streams_single in R as (h & ts' & -> & R); [|reflexivity].
    apply Forall_app in Oa as [Oa _]. apply streams_app in R as (ta & tc & -> & Ra & Rc). apply streams_single in Rc as (h2 & ts2 & -> & Rc); [|reflexivity]. apply streams_nil in Rc. subst ts2.
    apply plain_read; [reflexivity | reflexivity|]. intros rest H. cbn [app]. rewrite <- app_assoc. cbn [app].
    match goal with |- prims (_ :: ta ++ ?c :: rest) _ => destruct (closing_stops 0 c rest (or_introl eq_refl)) as [St Bn]; assert (P : parses 0 (ta ++ c :: rest) (regrouped x, c :: rest)) end.
    { apply (read_parses 0 x); [auto | auto | cbn; lia |]. apply loops_stop. rewrite Bn. exact I. }
    destruct P as [F P]. exists F. intros f L. unfold primary. cbn [is_kind kind piece_kind sym find symbols snd fst String.eqb Ascii.eqb Bool.eqb].
    cbn [piece_kind sym find symbols snd fst String.eqb Ascii.eqb Bool.eqb] in P. rewrite P by lia. reflexivity.
  - (* number *) intros ds OK ts R. apply streams_single in R as (h & ts' & -> & R); [|reflexivity]. apply streams_nil in R. subst ts'. inversion OK as [|? ? Hn _]; subst. cbn [piece_ok] in Hn. destruct Hn as (N & D & _).
    apply plain_read; [reflexivity | reflexivity|]. intros rest H. exists 0%nat. intros f L. unfold primary. cbn [app is_kind one_of existsb kind txt piece_kind piece_text String.eqb Ascii.eqb Bool.eqb orb].
    rewrite app_nil_r. unfold int_text. change is_digit with digit. rewrite D. destruct ds; [congruence | reflexivity].
  - (* text *) intros q s OK ts R. inversion R as [|p' ps' h ts' R' E]; subst. apply streams_nil in R'. subst ts'. inversion OK as [|? ? Ok _]; subst.
    apply plain_read; [reflexivity | reflexivity|]. intros rest H. exists 0%nat. intros f L. cbn [piece_stream]. rewrite app_nil_r. cbn [app]. unfold primary.
    assert (U := quoted_until q s rest Ok). cbn [kind]. unfold one_of, is_kind. cbn [existsb kind]. unfold is_kind. cbn [kind]. revert U. unfold quote_kind. destruct Ok as [[-> | ->] _]; cbn [Z.eqb Pos.eqb]; intros ->; reflexivity.
  - (* bool *) intros w c b E I0 OK ts R. apply streams_single in R as (h1 & ts1 & -> & R); [|reflexivity]. apply streams_single in R as (h2 & ts2 & -> & R); [|reflexivity]. apply streams_single in R as (h3 & ts3 & -> & R); [|reflexivity].
    apply streams_nil in R. subst ts3. inversion OK as [|? ? _ OK']; subst. inversion OK' as [|? ? W _]; subst. cbn [piece_ok] in W.
    apply plain_read; [reflexivity | reflexivity|]. intros rest H. exists 0%nat. intros f L. cbn [app]. unfold primary, visit_bool. cbn [txt piece_text]. fold (lower_text w). rewrite (word_text w W).
    assert (V : exists d, small w = [d] /\ word_kind w = "BOOLEANCHAR"%string /\ has d (u "fnty") = true /\ has d (u "ty") = b).
    { assert (exists d0, w = [d0]) as [d0 ->]. { destruct w as [|d0 [|]]; [|eauto|]; cbn [In] in I0; repeat (destruct I0 as [I0 | I0]; [injection I0 as <- <-; discriminate E|]); destruct I0. }
      exists (down d0). split; [reflexivity|]. cbn [In] in I0. repeat (destruct I0 as [I0 | I0]; [injection I0 as <- <-; split; [apply (kind_upper _ _ _ E eq_refl)|];
        cbn [upper map u] in E; injection E as E; unfold up in E; unfold down; cbn in E;
        assert (Q : d0 = 84 \/ d0 = 116 \/ d0 = 89 \/ d0 = 121 \/ d0 = 70 \/ d0 = 102 \/ d0 = 78 \/ d0 = 110) by (destruct ((97 <=? d0) && (d0 <=? 122)); lia);
        repeat (destruct Q as [-> | Q]; [try discriminate E; split; reflexivity|]); subst d0; try discriminate E; split; reflexivity|]). destruct I0. }
    destruct V as (d & -> & K & V1 & V2). unfold is_kind, one_of. cbn [kind piece_kind existsb]. rewrite K, V1, V2. reflexivity.
  - (* null *) intros w E OK ts R. apply streams_single in R as (h & ts' & -> & R); [|reflexivity]. apply streams_nil in R. subst ts'.
    apply plain_read; [reflexivity | reflexivity|]. intros rest H. exists 0%nat. intros f L. unfold primary, is_kind, one_of. cbn [app kind piece_kind existsb]. unfold is_kind. cbn [kind]. rewrite (kind_upper w _ _ E eq_refl). reflexivity.
  - (* .null. *) intros w E OK ts R. apply streams_single in R as (h1 & ts1 & -> & R); [|reflexivity]. apply streams_single in R as (h2 & ts2 & -> & R); [|reflexivity]. apply streams_single in R as (h3 & ts3 & -> & R); [|reflexivity].
    apply streams_nil in R. subst ts3. apply plain_read; [reflexivity | reflexivity|]. intros rest H. exists 0%nat. intros f L. unfold primary, is_kind, one_of. cbn [app kind piece_kind existsb]. unfold is_kind. cbn [kind piece_kind]. rewrite (kind_upper w _ _ E eq_refl). reflexivity.
  - (* name *) intros w N OK ts R. apply streams_single in R as (h & ts' & -> & R); [|reflexivity]. apply streams_nil in R. subst ts'.
    apply plain_read; [reflexivity | reflexivity|]. intros rest [H _]. exists 0%nat. intros f L. cbn [app]. rewrite primary_name by (apply named_kind; auto). unfold after_name. cbn [txt piece_text].
    rewrite (word_small w N). destruct rest as [|c rest]; [reflexivity|]. unfold follows, one_of in H. cbn [existsb] in H. apply Bool.orb_false_iff in H as [-> H]. unfold one_of. cbn [existsb]. rewrite H. reflexivity.
  - (* call *) intros w ps l N Sl IHl OK ts R. inversion OK as [|? ? _ OK']; subst. inversion OK' as [|? ? _ Ol]; subst. apply Forall_app in Ol as [Ol _].
    apply streams_single in R as (h1 & ts1 & -> & R); [|reflexivity]. apply streams_single in R as (h2 & ts2 & -> & R); [|reflexivity].
    apply streams_app in R as (tl & tc & -> & Rl & Rc). apply streams_single in Rc as (h3 & ts3 & -> & Rc); [|reflexivity]. apply streams_nil in Rc. subst ts3.
    apply plain_read; [reflexivity | reflexivity|]. intros rest H. cbn [app regrouped]. rewrite <- app_assoc. cbn [app]. assert (A := IHl Ol tl Rl).
    destruct l as [|e l].
    + cbn [all_read] in A. subst tl. exists 0%nat. intros f L. cbn [app]. rewrite primary_name by (apply named_kind; auto). unfold after_name. cbn [txt piece_text]. rewrite (word_small w N). reflexivity.
    + destruct A as [St A]. match goal with |- prims (_ :: _ :: tl ++ ?c :: rest) _ => destruct (A c rest eq_refl) as [F P] end. exists F. intros f L. rewrite primary_name by (apply named_kind; auto). unfold after_name.
      specialize (P f L). destruct tl as [|d tl]; [destruct St|]. destruct St as [_ St]. cbn [app] in *. rewrite St, P. cbn [txt piece_text]. rewrite (word_small w N). reflexivity.
  - (* no arguments *) intros OK ts R. apply streams_nil in R. exact R.
  - (* one *) intros ps t Sp IH OK ts R. split; [apply (says_starts _ _ _ Sp OK); auto|]. intros c rest K. destruct (closing_stops 0 c rest (or_introl K)) as [St Bn].
    assert (P : parses 0 (ts ++ c :: rest) (regrouped t, c :: rest)) by (apply (read_parses 0 t); [auto | auto | cbn; lia | apply loops_stop; rewrite Bn; exact I]).
    destruct P as [F P]. exists (S F). intros [|f] L; [lia|]. cbn [parse_args]. rewrite P by lia. unfold is_kind. rewrite K. reflexivity.
  - (* more *) intros ps t qs l Sp IHp Sq IHq Nl OK ts R. apply Forall_app in OK as [Op Oq]. inversion Oq as [|? ? _ Oq']; subst. apply streams_app in R as (ta & tr & -> & Ra & R).
    apply streams_single in R as (h & tb & -> & Rb); [|reflexivity]. split; [apply starts_app; apply (says_starts _ _ _ Sp Op); auto|]. intros c rest K. rewrite <- app_assoc. cbn [app].
    assert (B := IHq Oq' tb Rb). destruct l as [|e l]; [congruence|]. destruct B as [_ B]. destruct (B c rest K) as [G Q].
    match goal with |- lists (ta ++ ?m :: _) _ => destruct (closing_stops 0 m (tb ++ c :: rest) (or_intror eq_refl)) as [St Bn]; assert (P : parses 0 (ta ++ m :: tb ++ c :: rest) (regrouped t, m :: tb ++ c :: rest)) end.
    { apply (read_parses 0 t); [auto | auto | cbn; lia | apply loops_stop; rewrite Bn; exact I]. }
    destruct P as [F P]. exists (S (F + G)). intros [|f] L; [lia|]. cbn [parse_args]. rewrite P by lia. unfold is_kind. cbn [kind piece_kind sym find symbols snd fst String.eqb Ascii.eqb Bool.eqb]. rewrite Q by lia. reflexivity.
Qed.
