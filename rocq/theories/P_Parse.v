(** Proofs about reading expressions *)
From Verif Require Import PyBase PyStr M_Lexer S_Lexer P_Lexer P_Lexer2 P_Lexer3 P_Lexer4 S_Py M_Lit M_Conv M_Parse S_Expr.
From Coq Require Import Lia.
Open Scope Z_scope.

(** ** From pieces to the tokens of the parser *)
Definition piece_stream (h : pystr) (p : piece) : list ptok :=
  match p with
  | Quoted q s => {| kind := quote_kind q; txt := [q]; before := h |} :: stream [] (tokens s ++ [(quote_kind q, [q])])
  | NewLine _ => [{| kind := "NL"; txt := [10]; before := h |}]
  | Remark s => {| kind := "ASTERISK"; txt := [42]; before := h |} :: stream [] (tokens s ++ [("NL"%string, [10])])
  | _ => [{| kind := piece_kind p; txt := piece_text p; before := h |}]
  end.
Inductive streams : list piece -> list ptok -> Prop :=
| SS_nil : streams [] []
| SS_cons p ps h ts : streams ps ts -> streams (p :: ps) (piece_stream h p ++ ts).
Lemma stream_hidden : forall hs pre l, forallb (fun t : string * pystr => hidden (fst t)) hs = true -> stream pre (hs ++ l) = stream (pre ++ flat_map snd hs) l.
Proof.
  induction hs as [|[k t] hs IH]; intros pre l H; cbn [app flat_map snd]; [rewrite app_nil_r; reflexivity|]. cbn [forallb fst] in H. apply andb_prop in H as [A B].
  cbn [stream]. rewrite A, IH by auto. rewrite app_assoc. reflexivity.
Qed.
Lemma stream_split : forall a pre k t b, hidden k = false -> stream pre (a ++ (k, t) :: b) = stream pre (a ++ [(k, t)]) ++ stream [] b.
Proof.
  induction a as [|[k' t'] a IH]; intros pre k t b H; cbn [app stream].
  - rewrite H. reflexivity.
  - destruct (hidden k'); [apply IH; auto|]. cbn [app]. rewrite IH by auto. reflexivity.
Qed.
Lemma piece_stream_ok : forall p pre ts, piece_ok p -> exists h, stream pre (piece_all p ++ ts) = piece_stream h p ++ stream [] ts.
Proof.
  intros p pre ts H. assert (K := piece_not_hidden p H).
  destruct p as [w | a b | k t | k w | q s | [r|] | s]; cbn [piece_all piece_kind piece_text app stream piece_stream] in *; try (rewrite K; eexists; reflexivity).
  - rewrite K. exists pre. f_equal. rewrite <- app_assoc. cbn [app]. apply stream_split. exact K.
  - exists pre. change (hidden "ASTERISK") with false. cbn iota. f_equal. rewrite <- app_assoc. cbn [app]. apply stream_split. reflexivity.
Qed.
Lemma text_streams : forall src last, laid_out src last -> streams (map snd src) (stream [] (tokens (text src last))).
Proof.
  intros src last H. assert (R := text_read src last H). destruct H as (H & _). revert R. generalize (tokens (text src last)) as ts. intros ts R.
  assert (G : forall pre, streams (map snd src) (stream pre ts)); [|apply G]. revert ts R.
  induction src as [|[g p] src IH]; intros ts R pre; cbn [map snd] in *; inversion R as [hs B E | p' ps hs ts' B I E1 E2]; subst.
  - rewrite <- (app_nil_r ts), stream_hidden by auto. constructor.
  - inversion H as [|? ? [_ Hp] H']; subst. rewrite stream_hidden by auto. destruct (piece_stream_ok p (pre ++ flat_map snd hs) ts' Hp) as [h ->]. constructor. apply IH; auto.
Qed.
Lemma streams_app : forall a b ts, streams (a ++ b) ts -> exists ta tb, ts = ta ++ tb /\ streams a ta /\ streams b tb.
Proof.
  induction a as [|p a IH]; intros b ts H; cbn [app] in H; [exists [], ts; repeat split; auto; constructor|].
  inversion H as [|p' ps h ts' I]; subst. destruct (IH b ts' I) as (ta & tb & -> & A & B). exists (piece_stream h p ++ ta), tb. rewrite app_assoc. repeat split; auto. constructor; auto.
Qed.
(* pieces that are one token *)
Definition single (p : piece) : bool := match p with Quoted _ _ | NewLine _ | Remark _ => false | _ => true end.
Lemma streams_single : forall p ps ts, single p = true -> streams (p :: ps) ts ->
  exists h ts', ts = {| kind := piece_kind p; txt := piece_text p; before := h |} :: ts' /\ streams ps ts'.
Proof. intros p ps ts S0 H. inversion H as [|p' ps' h ts' I]; subst. exists h, ts'. split; auto. destruct p; try discriminate; reflexivity. Qed.
Lemma streams_nil : forall ts, streams [] ts -> ts = [].
Proof. intros ts H. inversion H; reflexivity. Qed.
Lemma sym_in : forall t, existsb (fun p => String.eqb (snd p) t) symbols = true -> piece_kind (sym t) = match find (fun p => String.eqb (snd p) t) symbols with Some p => fst p | None => ""%string end.
Proof. reflexivity. Qed.

(** ** Texts in quotes *)
Lemma token_kinds : forall s k t, In (k, t) (tokens s) -> exists r, In (k, r) rules /\ lang r t.
Proof.
  intros s. assert (R := tokens_reads s). induction R as [|k t rest ts F R IH]; intros k' t' I; [destruct I|]. destruct I as [E | I]; [|auto].
  injection E as <- <-. destruct F as (_ & _ & (bf & r & af & E & L & _) & _). exists r. split; auto. rewrite E. apply in_or_app. right. left. auto.
Qed.
Lemma rule_of : forall k r l, In (k, r) rules -> In (k, l) [("SINGLEQUOTE"%string, [39]); ("DOUBLEQUOTE"%string, [34]); ("NL"%string, [10])] -> r = Lit l.
Proof.
  assert (V : forallb (fun p => forallb (fun q => negb (String.eqb (fst p) (fst q)) || if rx_eq_dec (snd p) (Lit (snd q)) then true else false)
    [("SINGLEQUOTE"%string, [39]); ("DOUBLEQUOTE"%string, [34]); ("NL"%string, [10])]) rules = true) by (vm_compute; reflexivity).
  intros k r l I J. apply (proj1 (forallb_forall _ _) V) in I. rewrite forallb_forall in I. apply I in J. cbn [fst snd] in J. rewrite String.eqb_refl in J. cbn [negb orb] in J.
  destruct (rx_eq_dec r (Lit l)); [auto | discriminate].
Qed.
Lemma until_stream : forall ts pre q rest, hidden q = false -> (forall k t, In (k, t) ts -> k <> q /\ k <> "NL"%string) ->
  until q (stream pre (ts ++ [(q, rest)]) ++ []) = Some (pre ++ flat_map snd ts, []) /\
  forall more, until q (stream pre (ts ++ [(q, rest)]) ++ more) = Some (pre ++ flat_map snd ts, more).
Proof.
  intros ts pre q rest Hq H. assert (G : forall more, until q (stream pre (ts ++ [(q, rest)]) ++ more) = Some (pre ++ flat_map snd ts, more)); [|split; [apply G | exact G]].
  revert pre H. induction ts as [|[k t] ts IH]; intros pre H more; cbn [app stream flat_map snd].
  - rewrite Hq. cbn [app until]. unfold is_kind. cbn [kind before]. rewrite String.eqb_refl, app_nil_r. reflexivity.
  - destruct (hidden k) eqn:Hk.
    + rewrite IH by (intros k' t' I; apply (H k' t'); right; auto). rewrite <- app_assoc. reflexivity.
    + cbn [app until]. unfold is_kind. cbn [kind before txt]. destruct (H k t (or_introl eq_refl)) as [A B]. apply String.eqb_neq in A, B. rewrite A, B.
      rewrite IH by (intros k' t' I; apply (H k' t'); right; auto). reflexivity.
Qed.
Lemma quoted_until : forall q s more, piece_ok (Quoted q s) -> until (quote_kind q) (stream [] (tokens s ++ [(quote_kind q, [q])]) ++ more) = Some (s, more).
Proof.
  intros q s more (Hq & Nq & N10 & _). assert (T := tokens_text s).
  destruct (until_stream (tokens s) [] (quote_kind q) [q]) as [_ G].
  - unfold quote_kind. destruct (q =? 34); reflexivity.
  - intros k t I. assert (K := token_kinds s k t I). destruct K as (r & J & L). assert (Sub : forall c, In c t -> In c s).
    { intros c Hc. rewrite <- T. apply in_flat_map. exists (k, t). auto. }
    split; intros ->.
    + assert (E : r = Lit [q]). { apply (rule_of (quote_kind q) r [q] J). unfold quote_kind. destruct Hq as [-> | ->]; cbn; auto. }
      subst r. apply lit_lang in L. subst t. apply Nq, Sub. left; auto.
    + assert (E : r = Lit [10]) by (apply (rule_of "NL" r [10] J); cbn; auto). subst r. apply lit_lang in L. subst t. apply N10, Sub. left; auto.
  - rewrite G. cbn [app]. rewrite T. reflexivity.
Qed.

(** ** Enough fuel *)
Definition parses (p : nat) (ts : list ptok) (r : ctx * list ptok) : Prop := exists F, forall f, (F <= f)%nat -> parse_expr f p ts = Some r.
Definition loops (p : nat) (h : ctx) (ts : list ptok) (r : ctx * list ptok) : Prop := exists F, forall f, (F <= f)%nat -> parse_ops f p h ts = Some r.
Definition prims (ts : list ptok) (r : ctx * list ptok) : Prop := exists F, forall f, (F <= f)%nat -> primary (parse_expr f) (parse_args f) ts = Some r.
Definition lists (ts : list ptok) (r : list ctx * list ptok) : Prop := exists F, forall f, (F <= f)%nat -> parse_args f ts = Some r.
Lemma parses_intro : forall p ts h r1 r, prims ts (h, r1) -> loops p h r1 r -> parses p ts r.
Proof.
  intros p ts h r1 r [F A] [G B]. exists (S (F + G))%nat. intros [|f] L; [lia|]. cbn [parse_expr]. rewrite A by lia. apply B. lia.
Qed.
Lemma loops_stop : forall p h ts, match binop ts with Some (l, _, _) => (l < p)%nat | None => True end -> loops p h ts (h, ts).
Proof.
  intros p h ts H. exists 1%nat. intros [|f] L; [lia|]. cbn [parse_ops]. destruct (binop ts) as [[[l node] r]|]; [|reflexivity].
  destruct (Nat.leb_spec p l); [lia | reflexivity].
Qed.
Lemma loops_step : forall p h ts l node r1 e r2 r, binop ts = Some (l, node, r1) -> (p <= l)%nat -> parses (S l) r1 (e, r2) -> loops p (node h e) r2 r -> loops p h ts r.
Proof.
  intros p h ts l node r1 e r2 r E L [F A] [G B]. exists (S (F + G))%nat. intros [|f] Lf; [lia|]. cbn [parse_ops]. rewrite E.
  destruct (Nat.leb_spec p l); [|lia]. rewrite A by lia. apply B. lia.
Qed.
Lemma binop_le : forall ts l node r, binop ts = Some (l, node, r) -> (l <= 10)%nat.
Proof.
  assert (V : forall k p, lookup k operators = Some p -> (fst p <= 10)%nat).
  { intros k p. unfold operators. cbn [lookup]. repeat (destruct (String.eqb _ k); [intros E; injection E as <-; cbn; lia|]). discriminate. }
  intros [|t ts] l node r H; [discriminate|]. cbn [binop] in H.
  assert (W : forall x : list ptok, option_map (fun p => (p, x)) (lookup (kind t) operators) = Some (l, node, r) -> (l <= 10)%nat).
  { intros x E. destruct (lookup (kind t) operators) as [p|] eqn:Q; [|discriminate]. apply V in Q. cbn [option_map] in E. injection E as -> _. exact Q. }
  destruct ts as [|t2 ts]; [apply (W _ H)|]. destruct (is_kind t "ASTERISK" && is_kind t2 "ASTERISK"); [injection H as <- _ _; lia | apply (W _ H)].
Qed.

(** ** What may follow an expression *)
Definition prec (n : nat) : nat := match n with 0 => 4 | 1 => 5 | 2 => 6 | 3 => 6 | 4 => 7 | 5 => 8 | 6 => 9 | 7 => 10 | _ => 12 end%nat.
Definition follows (rest : list ptok) : Prop := match rest with t :: _ => one_of t ["LEFTPAREN"; "LEFTBRACKET"; "PERIOD"]%string = false | [] => True end.
Definition stops (n : nat) (rest : list ptok) : Prop := follows rest /\ match binop rest with Some (l, _, _) => (l <= prec n)%nat | None => True end.
Lemma prec_up : forall n, (prec n <= prec (S n))%nat.
Proof. intros n. do 9 (destruct n as [|n]; [cbn; lia|]). cbn. lia. Qed.
Lemma stops_up : forall n rest, stops n rest -> stops (S n) rest.
Proof. intros n rest [A B]. split; auto. destruct (binop rest) as [[[l ?] ?]|]; auto. assert (P := prec_up n). lia. Qed.

(** ** Regrouping *)
Lemma first_with : forall h t, first_operand h = h -> first_operand (with_first h t) = h.
Proof. intros h t H. induction t; cbn [with_first first_operand]; auto. Qed.
Lemma with_with : forall h k t, (forall x, with_first x k = x) -> with_first h (with_first k t) = with_first h t.
Proof. intros h k t H. induction t; cbn [with_first]; try apply H; rewrite IHt1; reflexivity. Qed.
Lemma with_own : forall t, with_first (first_operand t) t = t.
Proof. induction t; cbn [with_first first_operand]; auto; rewrite IHt1; reflexivity. Qed.
Lemma binary_shape : forall n o f, binary n o f ->
  (forall x y, regrouped (f x y) = f (regrouped x) (regrouped y)) /\ (forall x y, first_operand (f x y) = first_operand x) /\ (forall h x y, with_first h (f x y) = f (with_first h x) y).
Proof. intros n o f H. destruct H; repeat split; intros; reflexivity. Qed.

(** ** Operators *)
Definition no_star (ts : list ptok) : Prop := match ts with t :: _ => is_kind t "ASTERISK" = false | [] => True end.
Lemma kind_upper : forall w x k, upper w = u x -> find_word spellings (u x) = Some k -> word_kind w = k.
Proof. intros w x k E F. unfold word_kind. rewrite E, F. reflexivity. Qed.
Lemma binop_single : forall t ts, no_star ts \/ is_kind t "ASTERISK" = false -> binop (t :: ts) = option_map (fun p => (p, ts)) (lookup (kind t) operators).
Proof.
  intros t ts H. cbn [binop]. destruct ts as [|t2 ts]; [reflexivity|]. destruct H as [H | H]; [cbn in H; rewrite H, Bool.andb_false_r; reflexivity|].
  rewrite H. reflexivity.
Qed.
Lemma binary_binop : forall n o f ts rest, binary n o f -> streams o ts -> no_star rest ->
  binop (ts ++ rest) = Some (prec n, f, rest) /\ follows (ts ++ rest).
Proof.
  intros n o f ts rest B H N. destruct B as [w E | w E | w E | w E | t o I | t o I | | t o I | |];
    try (apply streams_single in H as (h & ts' & -> & H); [|reflexivity]).
  1-4: apply streams_nil in H; subst ts'; cbn [app piece_kind].
  1,3: rewrite (kind_upper w _ _ E eq_refl).
  1-4: split; [rewrite binop_single by (right; reflexivity); reflexivity | reflexivity].
  1-5: try (apply streams_nil in H; subst ts'; cbn [app]).
  - cbn [In] in I. repeat (destruct I as [I | I]; [injection I as <- <-; split; [rewrite binop_single by (right; reflexivity); reflexivity | reflexivity]|]). destruct I.
  - cbn [In] in I. repeat (destruct I as [I | I]; [injection I as <- <-; split; [rewrite binop_single by (right; reflexivity); reflexivity | reflexivity]|]). destruct I.
  - split; [rewrite binop_single by (right; reflexivity); reflexivity | reflexivity].
  - cbn [In] in I. repeat (destruct I as [I | I]; [injection I as <- <-; split; [rewrite binop_single by (left; exact N); reflexivity | reflexivity]|]). destruct I.
  - split; [rewrite binop_single by (right; reflexivity); reflexivity | reflexivity].
  - apply streams_single in H as (h2 & ts2 & -> & H); [|reflexivity]. apply streams_nil in H. subst ts2. split; reflexivity.
Qed.
