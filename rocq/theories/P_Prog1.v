(** Proofs about reading programs: the lines *)
From Verif Require Import PyBase PyStr M_Lexer S_Py M_Lit M_Conv M_Stmt M_Program M_Show M_Core S_Lexer P_Lexer P_Lexer2 P_Lexer3 P_Lexer4 M_Parse S_Expr P_Parse P_Parse2 P_Parse3 M_ParseProg S_Prog.
From Verif Require M_Comment.
From Coq Require Import Lia.
Open Scope Z_scope.

Lemma streams_word : forall w ps ts, streams (Word w :: ps) ts -> exists t ts', ts = t :: ts' /\ kind t = word_kind w /\ txt t = w /\ streams ps ts'.
Proof. intros w ps ts H. apply streams_single in H as (h & ts' & -> & H); [|reflexivity]. eexists _, ts'. repeat split; auto. Qed.
Lemma streams_newline : forall r ps ts, streams (NewLine r :: ps) ts -> exists t ts', ts = t :: ts' /\ kind t = "NL"%string /\ txt t = [10] /\ streams ps ts'.
Proof. intros r ps ts H. inversion H as [|p' ps' h ts' I]; subst. eexists _, ts'. cbn [piece_stream app]. repeat split; auto. Qed.
Lemma streams_sym : forall s ps ts, streams (sym s :: ps) ts -> exists t ts', ts = t :: ts' /\ kind t = piece_kind (sym s) /\ streams ps ts'.
Proof. intros s ps ts H. apply streams_single in H as (h & ts' & -> & H); [|reflexivity]. eexists _, ts'. repeat split; auto. Qed.
(* an expression does not begin with = *)
Lemma says_head : forall n ps t, says n ps t -> forall ts, streams ps ts -> ts <> [] /\ forall rest, next_is "EQUALS" (ts ++ rest) = false.
Proof.
  intros n ps t H. induction H as [n ps t _ IH | n o f a x b y B _ IHa _ _ | p a x N _ _ | m a x _ _ | a x _ _ | ds | q s | w c b E I | w E | w E | w N | w ps l N A]; intros ts R.
  - apply IH; auto.
  - apply streams_app in R as (ta & tb & -> & Ra & _). destruct (IHa ta Ra) as [A C]. split; [destruct ta; [congruence | discriminate]|]. intros rest. rewrite <- app_assoc. apply C.
  - destruct N as [w E | w E |]; apply streams_single in R as (h & ts' & -> & R); try reflexivity; (split; [discriminate|]); intros rest; cbn [app next_is]; unfold is_kind; cbn [kind piece_kind]; [rewrite (kind_upper w _ _ E eq_refl)|..]; reflexivity.
  - apply streams_single in R as (h & ts' & -> & R); [|reflexivity]. split; [discriminate|]. intros rest. destruct m; reflexivity.
  - apply streams_single in R as (h & ts' & -> & R); [|reflexivity]. split; [discriminate|]. reflexivity.
  - apply streams_single in R as (h & ts' & -> & R); [|reflexivity]. split; [discriminate|]. reflexivity.
  - inversion R as [|p' ps' h ts' I]; subst. split; [discriminate|]. intros rest. cbn [piece_stream app next_is]. unfold is_kind. cbn [kind]. unfold quote_kind. destruct (q =? 34); reflexivity.
  - apply streams_single in R as (h & ts' & -> & R); [|reflexivity]. split; [discriminate|]. reflexivity.
  - apply streams_single in R as (h & ts' & -> & R); [|reflexivity]. split; [discriminate|]. intros rest. cbn [app next_is]. unfold is_kind. cbn [kind piece_kind]. rewrite (kind_upper w _ _ E eq_refl). reflexivity.
  - apply streams_single in R as (h & ts' & -> & R); [|reflexivity]. split; [discriminate|]. reflexivity.
  - apply streams_single in R as (h & ts' & -> & R); [|reflexivity]. split; [discriminate|]. intros rest. cbn [app next_is]. unfold is_kind. cbn [kind piece_kind]. apply named_kind in N.
    destruct (String.eqb_spec (word_kind w) "EQUALS") as [E | _]; [|reflexivity]. rewrite E in N. vm_compute in N. discriminate.
  - apply streams_single in R as (h & ts' & -> & R); [|reflexivity]. split; [discriminate|]. intros rest. cbn [app next_is]. unfold is_kind. cbn [kind piece_kind]. apply named_kind in N.
    destruct (String.eqb_spec (word_kind w) "EQUALS") as [E | _]; [|reflexivity]. rewrite E in N. vm_compute in N. discriminate.
Qed.
Ltac kinds K :=
  match type of K with
  | kind ?t = ?k =>
      repeat match goal with
             | |- context [is_kind t ?x] => let b := eval vm_compute in (String.eqb k x) in replace (is_kind t x) with b by (unfold is_kind; rewrite K; reflexivity)
             | |- context [one_of t ?l] => let b := eval vm_compute in (existsb (String.eqb k) l) in replace (one_of t l) with b by (unfold one_of, is_kind; rewrite K; vm_compute; reflexivity)
             end
  end.
Lemma no_expression t r : kind t = "NL"%string -> expression (t :: r) = None.
Proof. intros K. unfold expression. cbn [length Nat.mul Nat.add parse_expr primary]. kinds K. reflexivity. Qed.
(* an expression and what follows it in a statement *)
Lemma expr_before : forall ps t ts k rest, says 0 ps t -> Forall piece_ok ps -> streams ps ts -> In (kind k) ["NL"; "THEN"; "TO"; "STEP"; "COMMA"]%string -> expression (ts ++ k :: rest) = Some (regrouped t, k :: rest).
Proof.
  intros ps t ts k rest S0 OK R I. apply (expression_read ps); auto.
  - unfold follows, one_of, is_kind. cbn [In] in I. destruct I as [E | [E | [E | [E | [E | []]]]]]; rewrite <- E; reflexivity.
  - rewrite binop_single.
    + cbn [In] in I. destruct I as [E | [E | [E | [E | [E | []]]]]]; rewrite <- E; reflexivity.
    + right. unfold is_kind. cbn [In] in I. destruct I as [E | [E | [E | [E | [E | []]]]]]; rewrite <- E; reflexivity.
Qed.
Lemma target_kind : forall w t, target w -> kind t = word_kind w ->
  is_kind t "NL" = false /\ one_of t ["ASTERISK"; "NOTE"]%string = false /\ one_of t identifiers = true /\ is_kind t "DO" = false.
Proof.
  intros w t (N & A & B) K. apply named_kind in N. unfold one_of, is_kind. cbn [existsb]. rewrite K.
  assert (E := name_kind_not _ "ASTERISK" N). rewrite E by (cbn [In]; tauto). unfold name_kind in N. apply andb_prop in N as [N _].
  destruct (String.eqb_spec (word_kind w) "NL") as [E0 | _]; [rewrite E0 in N; vm_compute in N; discriminate|].
  destruct (String.eqb_spec (word_kind w) "NOTE") as [E0 | _]; [congruence|]. destruct (String.eqb_spec (word_kind w) "DO") as [E0 | _]; [congruence|]. repeat split; auto.
Qed.
Lemma named_ident : forall w t, named w -> kind t = word_kind w -> one_of t identifiers = true /\ is_kind t "NL" = false /\ is_kind t "EQUALS" = false /\ is_kind t "COMMA" = false /\ is_kind t "RIGHTPAREN" = false.
Proof.
  intros w t N K. apply named_kind in N. unfold one_of, is_kind. rewrite K. assert (E := name_kind_not _ "RIGHTPAREN" N). rewrite E by (cbn [In]; tauto).
  unfold name_kind in N. apply andb_prop in N as [N _].
  destruct (String.eqb_spec (word_kind w) "NL") as [E0 | _]; [rewrite E0 in N; vm_compute in N; discriminate|].
  destruct (String.eqb_spec (word_kind w) "EQUALS") as [E0 | _]; [rewrite E0 in N; vm_compute in N; discriminate|].
  destruct (String.eqb_spec (word_kind w) "COMMA") as [E0 | _]; [rewrite E0 in N; vm_compute in N; discriminate|]. repeat split; auto.
Qed.
Lemma line_text_list : forall l h rest, (forall k t, In (k, t) l -> k = "NL"%string -> In 10 t) -> ~ In 10 (flat_map snd l) ->
  line_text (stream h (l ++ [("NL"%string, [10])]) ++ rest) = Some (h ++ flat_map snd l ++ [10], rest).
Proof.
  induction l as [|[k t] l IH]; intros h rest K N; cbn [app flat_map snd]; [reflexivity|]. cbn [flat_map snd] in N. cbn [stream].
  assert (K' : forall k t, In (k, t) l -> k = "NL"%string -> In 10 t) by (intros; eapply K; [right; eassumption | auto]). assert (N' : ~ In 10 (flat_map snd l)) by (intros J; apply N; apply in_or_app; auto).
  destruct (hidden k) eqn:H; [rewrite IH by auto; rewrite <- !app_assoc; reflexivity|]. cbn [app line_text]. unfold is_kind. cbn [kind before txt]. destruct (String.eqb_spec k "NL") as [E | _].
  - exfalso. apply N. apply in_or_app; left. apply (K k t); [left; auto | exact E].
  - rewrite IH by auto. cbn [app]. rewrite <- !app_assoc. reflexivity.
Qed.
Lemma line_text_stream : forall s h rest, ~ In 10 s -> line_text (stream h (tokens s ++ [("NL"%string, [10])]) ++ rest) = Some (h ++ s ++ [10], rest).
Proof.
  intros s h rest N. assert (T := tokens_text s). rewrite line_text_list; rewrite ?T; auto.
  intros k t I E. subst k. destruct (token_kinds _ _ _ I) as (r & J & L). assert (V : forallb (fun p => negb (String.eqb (fst p) "NL") || if rx_eq_dec (snd p) (Lit [10]) then true else false) rules = true) by (vm_compute; reflexivity).
  apply (proj1 (forallb_forall _ _) V) in J. cbn [fst snd] in J. rewrite String.eqb_refl in J. cbn [negb orb] in J. destruct (rx_eq_dec r (Lit [10])) as [-> | _]; [|discriminate]. apply lit_lang in L. subst t. left; reflexivity.
Qed.
