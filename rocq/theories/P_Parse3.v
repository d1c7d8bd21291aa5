(** The fuel of the parser is enough *)
From Verif Require Import PyBase PyStr M_Lexer S_Lexer P_Lexer P_Lexer2 P_Lexer3 P_Lexer4 S_Py M_Lit M_Conv M_Parse S_Expr P_Parse P_Parse2.
From Coq Require Import Lia.
Open Scope nat_scope.

Lemma binop_shorter : forall ts l f r, binop ts = Some (l, f, r) -> length r < length ts.
Proof.
  intros [|t [|t2 ts]] l f r H; cbn [binop] in H; [discriminate H | |].
  - destruct (lookup (kind t) operators); [|discriminate H]. cbn [option_map] in H. injection H as _ <-. cbn; lia.
  - destruct (is_kind t "ASTERISK" && is_kind t2 "ASTERISK"); [injection H as _ _ <-; cbn; lia|]. destruct (lookup (kind t) operators); [|discriminate H]. cbn [option_map] in H. injection H as _ <-. cbn; lia.
Qed.
Lemma until_shorter : forall q ts s r, until q ts = Some (s, r) -> length r < length ts.
Proof.
  intros q. induction ts as [|t ts IH]; intros s r H; [discriminate H|]. cbn [until] in H. destruct (is_kind t q); [injection H as _ <-; cbn; lia|].
  destruct (is_kind t "NL"); [discriminate H|]. destruct (until q ts) as [[s' r']|]; [|discriminate H]. injection H as _ <-. assert (X := IH _ _ eq_refl). cbn; lia.
Qed.
Definition shorter {A} (f : list ptok -> option (A * list ptok)) : Prop := forall ts e r, f ts = Some (e, r) -> length r < length ts.
Lemma primary_shorter : forall expr args, (forall p, shorter (expr p)) -> shorter args -> shorter (primary expr args).
Proof.
  intros expr args He Ha ts e r H. destruct ts as [|t ts]; [discriminate H|]. unfold primary in H. cbn [length].
  destruct (is_kind t "LEFTPAREN").
  { destruct (expr 0 ts) as [[x [|c r1]]|] eqn:E; try discriminate H. apply He in E. destruct (is_kind c "RIGHTPAREN"); [|discriminate H]. injection H as _ <-. cbn in E. lia. }
  destruct (one_of t ["PLUS_SIGN"; "MINUS_SIGN"]%string).
  { destruct (expr 12 ts) as [[x r1]|] eqn:E; [|discriminate H]. apply He in E. injection H as _ <-. lia. }
  destruct (one_of t ["EXCLAMATION"; "NOT"; "OTHERNOT"]%string).
  { destruct (expr 11 ts) as [[x r1]|] eqn:E; [|discriminate H]. apply He in E. injection H as _ <-. lia. }
  destruct (is_kind t "NUMBER_LITERAL"). { destruct (int_text (txt t)); [|discriminate H]. injection H as _ <-. lia. }
  destruct (is_kind t "PERIOD").
  { destruct ts as [|b [|c r1]]; try discriminate H. destruct (is_kind c "PERIOD"); [|discriminate H]. destruct (is_kind b "NULL"); [injection H as _ <-; cbn; lia|].
    destruct (is_kind b "BOOLEANCHAR"); [|discriminate H]. destruct (visit_bool (Some (txt b))) as [[v|]|]; try discriminate H. injection H as _ <-. cbn; lia. }
  destruct (is_kind t "NULL"); [injection H as _ <-; lia|].
  destruct (one_of t ["SINGLEQUOTE"; "DOUBLEQUOTE"]%string).
  { destruct (until (kind t) ts) as [[s r1]|] eqn:E; [|discriminate H]. apply until_shorter in E. injection H as _ <-. lia. }
  destruct (one_of t identifiers); [|discriminate H]. destruct ts as [|c r1]; [injection H as _ <-; cbn; lia|].
  destruct (is_kind c "LEFTPAREN").
  - destruct r1 as [|d r2]; [discriminate H|]. destruct (is_kind d "RIGHTPAREN"); [injection H as _ <-; cbn; lia|]. destruct (args (d :: r2)) as [[l r3]|] eqn:E; [|discriminate H]. apply Ha in E. injection H as _ <-. cbn in *; lia.
  - destruct (one_of c ["LEFTBRACKET"; "PERIOD"]%string); [discriminate H|]. injection H as _ <-. cbn; lia.
Qed.
Lemma parse_shorter : forall f, (forall p, shorter (parse_expr f p)) /\ (forall p h ts e r, parse_ops f p h ts = Some (e, r) -> length r <= length ts) /\ shorter (parse_args f).
Proof.
  induction f as [|f (IE & IO & IA)]; [repeat split; unfold shorter; intros; discriminate|]. assert (P := primary_shorter _ _ IE IA). split; [|split].
  - intros p ts e r H. cbn [parse_expr] in H. destruct (primary (parse_expr f) (parse_args f) ts) as [[t ts']|] eqn:E; [|discriminate H]. apply P in E. apply IO in H. lia.
  - intros p h ts e r H. cbn [parse_ops] in H. destruct (binop ts) as [[[l node] r1]|] eqn:B; [|injection H as _ <-; lia]. apply binop_shorter in B.
    destruct (p <=? l); [|injection H as _ <-; lia]. destruct (parse_expr f (S l) r1) as [[x r2]|] eqn:E; [|discriminate H]. apply IE in E. apply IO in H. lia.
  - intros ts e r H. cbn [parse_args] in H. destruct (parse_expr f 0 ts) as [[x [|c r1]]|] eqn:E; try discriminate H. apply IE in E. cbn in E. destruct (is_kind c "COMMA").
    + destruct (parse_args f r1) as [[l r2]|] eqn:A; [|discriminate H]. apply IA in A. injection H as _ <-. lia.
    + destruct (is_kind c "RIGHTPAREN"); [|discriminate H]. injection H as _ <-. lia.
Qed.
Lemma primary_same : forall expr expr' args args' ts, (forall p r, length r < length ts -> expr p r = expr' p r) -> (forall r, length r < length ts -> S (length r) < length ts -> args r = args' r) ->
  primary expr args ts = primary expr' args' ts.
Proof.
  intros expr expr' args args' [|t ts] He Ha; [reflexivity|]. unfold primary. rewrite !He by (cbn; lia).
  destruct ts as [|c [|d r]]; try reflexivity. rewrite Ha by (cbn; lia). reflexivity.
Qed.
Lemma fuel_enough : forall n f f' ts, length ts <= n ->
  (2 * length ts + 2 <= f -> 2 * length ts + 2 <= f' -> forall p, parse_expr f p ts = parse_expr f' p ts) /\
  (2 * length ts + 1 <= f -> 2 * length ts + 1 <= f' -> forall p h, parse_ops f p h ts = parse_ops f' p h ts) /\
  (2 * length ts + 3 <= f -> 2 * length ts + 3 <= f' -> parse_args f ts = parse_args f' ts).
Proof.
  induction n as [n IH] using lt_wf_ind. intros f f' ts L.
  assert (Eo : forall g g' r, length r < length ts -> 2 * length r + 2 <= g -> 2 * length r + 2 <= g' -> forall p, parse_expr g p r = parse_expr g' p r) by (intros g g' r Hr A B p; destruct (IH (length r) ltac:(lia) g g' r ltac:(lia)) as (X & _ & _); apply X; auto).
  assert (Oo : forall g g' r, length r < length ts -> 2 * length r + 1 <= g -> 2 * length r + 1 <= g' -> forall p h, parse_ops g p h r = parse_ops g' p h r) by (intros g g' r Hr A B p h; destruct (IH (length r) ltac:(lia) g g' r ltac:(lia)) as (_ & X & _); apply X; auto).
  assert (Ao : forall g g' r, length r < length ts -> 2 * length r + 3 <= g -> 2 * length r + 3 <= g' -> parse_args g r = parse_args g' r) by (intros g g' r Hr A B; destruct (IH (length r) ltac:(lia) g g' r ltac:(lia)) as (_ & _ & X); apply X; auto).
  assert (E : forall f f', 2 * length ts + 2 <= f -> 2 * length ts + 2 <= f' -> forall p, parse_expr f p ts = parse_expr f' p ts).
  { clear f f'. intros f f' A B p. destruct f as [|f]; [lia|]. destruct f' as [|f']; [lia|]. cbn [parse_expr].
    rewrite (primary_same (parse_expr f) (parse_expr f') (parse_args f) (parse_args f') ts) by (intros; first [apply Eo; lia | apply Ao; lia]).
    destruct (primary (parse_expr f') (parse_args f') ts) as [[t ts']|] eqn:P; [|reflexivity]. destruct (parse_shorter f') as (X & _ & Y). apply (primary_shorter _ _ X Y) in P. apply Oo; lia. }
  split; [apply E|]. split.
  - intros A B p h. destruct f as [|f]; [lia|]. destruct f' as [|f']; [lia|]. cbn [parse_ops]. destruct (binop ts) as [[[l node] r1]|] eqn:Bn; [|reflexivity]. apply binop_shorter in Bn.
    destruct (p <=? l); [|reflexivity]. rewrite (Eo f f') by lia. destruct (parse_expr f' (S l) r1) as [[x r2]|] eqn:P; [|reflexivity]. destruct (parse_shorter f') as (X & _). apply X in P. apply Oo; lia.
  - intros A B. destruct f as [|f]; [lia|]. destruct f' as [|f']; [lia|]. cbn [parse_args]. rewrite (E f f') by lia. destruct (parse_expr f' 0 ts) as [[x [|c r1]]|] eqn:P; try reflexivity.
    destruct (parse_shorter f') as (X & _). apply X in P. cbn in P. destruct (is_kind c "COMMA"); [|reflexivity]. rewrite (Ao f f') by lia. reflexivity.
Qed.
Lemma parses_fuel : forall ts r, parses 0 ts r -> expression ts = Some r.
Proof.
  intros ts r [F P]. unfold expression. rewrite <- (P (F + (2 * length ts + 2))) by lia. apply (fuel_enough (length ts)); lia.
Qed.
(** An expression, and what follows it *)
Theorem expression_read : forall ps t ts rest, says 0 ps t -> Forall piece_ok ps -> streams ps ts -> follows rest -> binop rest = None -> expression (ts ++ rest) = Some (regrouped t, rest).
Proof.
  intros ps t ts rest H OK R Fo Bn. apply parses_fuel. apply (read_parses 0 t).
  - apply (says_read 0 ps); auto.
  - split; auto. rewrite Bn. exact I.
  - cbn. lia.
  - apply loops_stop. rewrite Bn. exact I.
Qed.
Theorem text_read_expr : forall src last t, laid_out src last -> says 0 (map snd src) t -> read_expr (text src last) = Some (regrouped t).
Proof.
  intros src last t H Hs. unfold read_expr. assert (R := text_streams src last H).
  assert (E : expression (stream [] (tokens (text src last)) ++ []) = Some (regrouped t, [])).
  { apply (expression_read (map snd src)); auto; [|exact I]. destruct H as (H & _). apply Forall_map. eapply Forall_impl; [|exact H]. cbn. tauto. }
  rewrite app_nil_r in E. rewrite E. reflexivity.
Qed.
