(** Proofs about reading programs: statements and blocks *)
From Verif Require Import PyBase PyStr M_Lexer S_Py M_Lit M_Conv M_Stmt M_Program M_Show M_Core S_Lexer P_Lexer P_Lexer2 P_Lexer3 P_Lexer4 M_Parse S_Expr P_Parse P_Parse2 P_Parse3 M_ParseProg S_Prog P_Prog1.
From Verif Require M_Comment.
From Coq Require Import Lia.
Open Scope Z_scope.

Lemma own_regrouped : forall fns t, own_call fns (regrouped t) = own_call fns t.
Proof. intros fns t. destruct t; try reflexivity. cbn [regrouped own_call]. destruct (regrouped t); reflexivity. Qed.
Lemma call_of_none : forall fns t, own_call fns t = false -> call_of fns (regrouped t) = None.
Proof. intros fns t H. rewrite <- own_regrouped in H. unfold call_of. destruct (regrouped t); try reflexivity. cbn [own_call] in H. rewrite Bool.andb_comm in H. rewrite H. reflexivity. Qed.
Lemma call_of_own : forall fns f l, own_call fns (CCall f l) = true -> call_of fns (regrouped (CCall f l)) = Some (f, map regrouped l).
Proof. intros fns f l H. cbn [own_call] in H. rewrite Bool.andb_comm in H. unfold call_of. cbn [regrouped]. rewrite H. reflexivity. Qed.
Lemma assignment_let : forall fns x t, own_call fns t = false -> assignment fns x (regrouped t) = KLet x (regrouped t).
Proof. intros fns x t H. unfold assignment. rewrite call_of_none by auto. reflexivity. Qed.
Lemma assignment_call : forall fns x f l, own_call fns (CCall f l) = true -> assignment fns x (regrouped (CCall f l)) = KCall (Into x) f (map regrouped l).
Proof. intros fns x f l H. unfold assignment. rewrite call_of_own by auto. reflexivity. Qed.
(* the pieces of a list of pieces that is a concatenation *)
Lemma OK_app : forall (P : piece -> Prop) a b, Forall P (a ++ b) -> Forall P a /\ Forall P b.
Proof. intros P a b. apply Forall_app. Qed.
Lemma OK_cons : forall (P : piece -> Prop) a b, Forall P (a :: b) -> Forall P b.
Proof. intros P a b H. inversion H; auto. Qed.
Section read.
Variable fns : pystr -> bool.
Definition line_read (ps : list piece) (s : cstmt) : Prop := Forall piece_ok ps -> forall ts, streams ps ts ->
  ts <> [] /\ (forall rest, block_end (ts ++ rest) = false) /\ forall f rest, (2 * length ts <= f)%nat -> p_line fns f (ts ++ rest) = Some (regroup s, rest).
Definition lines_read (ps : list piece) (l : clines) : Prop := Forall piece_ok ps -> forall ts, streams ps ts ->
  forall f rest, (2 * length ts + 1 <= f)%nat -> block_end rest = true -> p_lines fns f (ts ++ rest) = Some (regroups l, rest).
Definition other_read (k : string) (ps : list piece) (o : copt) : Prop := In k ["ELSE"; "OTHERWISE"]%string -> Forall piece_ok ps -> forall ts, streams ps ts ->
  (forall rest, block_end rest = true -> block_end (ts ++ rest) = true) /\
  match o with
  | KNone => ts = []
  | KSome l => exists t nl ts', ts = t :: nl :: ts' /\ kind t = k /\ kind nl = "NL"%string /\
      forall f rest, (2 * length ts' + 1 <= f)%nat -> block_end rest = true -> p_lines fns f (ts' ++ rest) = Some (regroups l, rest)
  end.
Definition cases_read (ps : list piece) (l : ccases) : Prop := Forall piece_ok ps -> forall ts, streams ps ts ->
  (forall rest, block_end rest = true -> block_end (ts ++ rest) = true) /\
  forall f rest, (2 * length ts + 1 <= f)%nat -> block_end rest = true -> next_is "CASE" rest = false -> p_cases fns f (ts ++ rest) = Some (regroupc l, rest).
Lemma end_here : forall t r, In (kind t) block_ends -> next_is "EQUALS" r = false -> block_end (t :: r) = true.
Proof. intros t r I E. unfold block_end. rewrite E. cbn [negb]. rewrite Bool.andb_true_r. unfold one_of. apply existsb_exists. exists (kind t). split; auto. unfold is_kind. apply String.eqb_refl. Qed.
Lemma nl_not_equals : forall t r, kind t = "NL"%string -> next_is "EQUALS" (t :: r) = false.
Proof. intros t r K. unfold next_is, is_kind. rewrite K. reflexivity. Qed.
Lemma keyword_here : forall k t r, kind t = k -> keyword k (t :: r) = Some r.
Proof. intros k t r K. unfold keyword, is_kind. rewrite K, String.eqb_refl. reflexivity. Qed.
Lemma line_end_here : forall t r, kind t = "NL"%string -> line_end (t :: r) = Some r.
Proof. intros t r K. unfold line_end, is_kind. rewrite K. reflexivity. Qed.
Lemma next_here : forall k t r, kind t = k -> next_is k (t :: r) = true.
Proof. intros k t r K. unfold next_is, is_kind. rewrite K, String.eqb_refl. reflexivity. Qed.
Lemma next_other : forall k x t r, kind t = k -> String.eqb k x = false -> next_is x (t :: r) = false.
Proof. intros k x t r K E. unfold next_is, is_kind. rewrite K. exact E. Qed.
Lemma small_upper : forall w, small w = small (upper w).
Proof. intros w. unfold small, upper. rewrite map_map. apply map_ext. intros c. unfold down, up. destruct ((97 <=? c) && (c <=? 122)) eqn:E; [|reflexivity]. destruct ((65 <=? c) && (c <=? 90)) eqn:F; [lia|]. destruct ((65 <=? c - 32) && (c - 32 <=? 90)) eqn:G; lia. Qed.
Lemma key_text : forall w t, word w = true -> txt t = w -> lower_text (txt t) = small (upper w).
Proof. intros w t H ->. rewrite word_text by auto. apply small_upper. Qed.
Scheme says_line_mut := Minimality for says_line Sort Prop with says_lines_mut := Minimality for says_lines Sort Prop
  with says_other_mut := Minimality for says_other Sort Prop with says_cases_mut := Minimality for says_cases Sort Prop.
Combined Scheme says_prog_ind from says_line_mut, says_lines_mut, says_other_mut, says_cases_mut.
Ltac oks := repeat match goal with
  | H : Forall piece_ok (_ :: _) |- _ => let A := fresh "OK" in inversion H as [|? ? _ A]; subst; clear H
  | H : Forall piece_ok (_ ++ _) |- _ => let A := fresh "OK" in let B := fresh "OK" in apply Forall_app in H as [A B]
  end.
Ltac split_streams := repeat match goal with
  | H : streams [] ?ts |- _ => apply streams_nil in H; rewrite H in *; clear H
  | H : streams (Word ?w :: _) ?ts |- _ => let t := fresh "t" in let ts' := fresh "ts" in let K := fresh "K" in let X := fresh "X" in let R := fresh "R" in apply streams_word in H as (t & ts' & -> & K & X & R)
  | H : streams (NewLine _ :: _) ?ts |- _ => let t := fresh "nl" in let ts' := fresh "ts" in let K := fresh "K" in let X := fresh "X" in let R := fresh "R" in apply streams_newline in H as (t & ts' & -> & K & X & R)
  | H : streams (sym _ :: _) ?ts |- _ => let t := fresh "s" in let ts' := fresh "ts" in let K := fresh "K" in let R := fresh "R" in apply streams_sym in H as (t & ts' & -> & K & R)
  | H : streams (_ ++ _) ?ts |- _ => let a := fresh "ta" in let b := fresh "tb" in let A := fresh "R" in let B := fresh "R" in apply streams_app in H as (a & b & -> & A & B)
  end.
Ltac lens := repeat (progress (cbn [length] in *; rewrite ?app_length in *)); lia.
Lemma do_name : forall w t, named w -> ~ In (word_kind w) ["CASE"; "WHILE"; "FORM"]%string -> kind t = word_kind w ->
  one_of t identifiers = true /\ is_kind t "CASE" = false /\ is_kind t "WHILE" = false /\ one_of t ["FORM"; "NOT"; "NULL"]%string = false.
Proof.
  intros w t Hw Nw K. destruct (named_ident w t Hw K) as (A & _). apply named_kind in Hw. unfold one_of at 2, is_kind. cbn [existsb]. rewrite K. cbn [In] in Nw.
  split; [exact A|]. split; [destruct (String.eqb_spec (word_kind w) "CASE"); [exfalso; apply Nw; auto|reflexivity]|]. split; [destruct (String.eqb_spec (word_kind w) "WHILE"); [exfalso; apply Nw; auto|reflexivity]|].
  rewrite (name_kind_not _ "NOT" Hw), (name_kind_not _ "NULL" Hw) by (cbn [In]; tauto). destruct (String.eqb_spec (word_kind w) "FORM"); [exfalso; apply Nw; auto|reflexivity].
Qed.
Lemma exprs_read : forall l ps ts n k rest, says_all ps l -> l <> [] -> Forall piece_ok ps -> streams ps ts -> kind k = "NL"%string -> (length ts < n)%nat -> p_exprs n (ts ++ k :: rest) = Some (map regrouped l, k :: rest).
Proof.
  induction l as [|t l IH]; intros ps ts n k rest H Ne OK R K L; [congruence|]. destruct n as [|n]; [lia|]. cbn [p_exprs]. inversion H as [| ? ? H0 | ? ? qs ? H0 Hl Nl]; subst.
  - rewrite (expr_before ps t) by (auto; rewrite K; cbn; auto). cbn [bind]. rewrite (next_other "NL" "COMMA") by (exact K || reflexivity). reflexivity.
  - apply OK_app in OK as [OK0 OK1]. apply OK_cons in OK1. apply streams_app in R as (ta & tb & -> & R0 & R). apply streams_sym in R as (c & tc & -> & Kc & R). change (piece_kind (sym ",")) with "COMMA"%string in Kc.
    rewrite <- app_assoc. cbn [app]. rewrite (expr_before ps0 t) by (auto; rewrite Kc; cbn; auto 6). cbn [bind]. rewrite (next_here "COMMA" c) by exact Kc. cbn [tl]. rewrite (IH qs tc) by (auto; lens). reflexivity.
Qed.
Theorem reads : (forall ps s, says_line fns ps s -> line_read ps s) /\ (forall ps l, says_lines fns ps l -> lines_read ps l) /\
  (forall k ps o, says_other fns k ps o -> other_read k ps o) /\ (forall ps l, says_cases fns ps l -> cases_read ps l).
Proof.
  apply (says_prog_ind fns line_read lines_read other_read cases_read).
  - (* blank *) intros r OK ts R. split_streams. split; [discriminate|]. split.
    + intros rest. cbn [app block_end]. kinds K. reflexivity.
    + intros [|f] rest L; [cbn in L; lia|]. cbn [app p_line]. kinds K. rewrite X. reflexivity.
  - (* remark *) intros s OK ts R. inversion OK as [|? ? P _]; subst. destruct P as (P & _). inversion R as [|p' ps' h ts' R']; subst. apply streams_nil in R'. subst ts'. rewrite app_nil_r in *. cbn [piece_stream] in *. split; [discriminate|]. split; [reflexivity|].
    intros [|f] rest L; [cbn in L; lia|]. cbn [app p_line]. unfold is_kind, one_of. cbn [kind existsb]. change (String.eqb "ASTERISK" "NL") with false. cbn iota. unfold is_kind. cbn [kind]. rewrite String.eqb_refl. cbn [orb]. rewrite line_text_stream by auto. reflexivity.
  - (* let *) intros x v t r Hx Hv Ho OK ts R. oks. split_streams. change (piece_kind (sym "=")) with "EQUALS"%string in K0. split; [discriminate|]. split.
    + intros rest. cbn [app block_end]. rewrite (next_here _ _ _ K0). apply Bool.andb_false_r.
    + intros [|f] rest L; [cbn in L; lia|]. cbn [app p_line]. destruct (target_kind x t0 Hx K) as (A & B & C & D). rewrite A, B, C, D. rewrite (next_here "EQUALS" s) by exact K0. cbn [negb andb tl]. rewrite <- app_assoc. cbn [app].
      rewrite (expr_before v t) by (auto; rewrite K1; cbn; auto). cbn [bind]. rewrite (line_end_here _ _ K1). cbn [bind]. rewrite assignment_let by auto. rewrite X, word_small by (apply Hx). reflexivity.
  - (* call *) intros x v f0 l r Hx Hv Ho OK ts R. oks. split_streams. change (piece_kind (sym "=")) with "EQUALS"%string in K0. split; [discriminate|]. split.
    + intros rest. cbn [app block_end]. rewrite (next_here _ _ _ K0). apply Bool.andb_false_r.
    + intros [|f] rest L; [cbn in L; lia|]. cbn [app p_line]. destruct (target_kind x t Hx K) as (A & B & C & D). rewrite A, B, C, D. rewrite (next_here "EQUALS" s) by exact K0. cbn [negb andb tl]. rewrite <- app_assoc. cbn [app].
      rewrite (expr_before v (CCall f0 l)) by (auto; rewrite K1; cbn; auto). cbn [bind]. rewrite (line_end_here _ _ K1). cbn [bind]. rewrite assignment_call by auto. rewrite X, word_small by (apply Hx). reflexivity.
  - (* equals *) intros v f0 l r Hv Ho OK ts R. apply OK_cons in OK. apply OK_app in OK as [OK _]. apply streams_sym in R as (t0 & tst0 & -> & K & R). change (piece_kind (sym "=")) with "EQUALS"%string in K.
    apply streams_app in R as (ta & tsta & -> & R0 & R). apply streams_newline in R as (nl & tsnl & -> & K0 & _ & R). apply streams_nil in R. subst. split; [discriminate|]. split.
    + intros rest. cbn [app block_end]. kinds K. reflexivity.
    + intros [|f] rest L; [cbn in L; lia|]. cbn [app p_line]. kinds K. cbn [andb orb negb]. rewrite <- app_assoc. cbn [app]. rewrite (expr_before v (CCall f0 l)) by (auto; rewrite K0; cbn; auto). cbn [bind].
      rewrite (line_end_here nl) by auto. cbn [bind]. rewrite call_of_own by auto. reflexivity.
  - (* alone *) intros w ps l r Hw Kw Hl Ho OK ts R.
    replace (Word w :: sym "(" :: ps ++ [sym ")"; NewLine r]) with ((Word w :: sym "(" :: ps ++ [sym ")"]) ++ [NewLine r]) in * by (cbn [app]; rewrite <- app_assoc; reflexivity).
    assert (Hv : says 0 (Word w :: sym "(" :: ps ++ [sym ")"]) (CCall (called w) l)) by (do 9 apply Y_up; apply Y_call; auto).
    apply OK_app in OK as [OK _]. apply streams_app in R as (ta & tsta & -> & R0 & R). apply streams_newline in R as (nl & tsnl & -> & K0 & _ & R). apply streams_nil in R. subst.
    assert (H : exists t0 s ts', ta = t0 :: s :: ts' /\ kind t0 = "ID"%string /\ kind s = "LEFTPAREN"%string).
    { pose proof R0 as R1. apply streams_word in R1 as (t0 & ts1 & -> & K & _ & R1). apply streams_sym in R1 as (s & ts2 & -> & K1 & _). unfold key in Kw. rewrite Kw in K. exists t0, s, ts2. auto. }
    destruct H as (t0 & s & ts' & -> & K & K1). split; [discriminate|]. split.
    + intros rest. cbn [app block_end]. kinds K. reflexivity.
    + intros [|f] rest L; [cbn in L; lia|]. rewrite <- app_assoc. pose proof (expr_before _ _ (t0 :: s :: ts') nl rest Hv OK R0) as E. cbn [app] in E |- *. cbn [p_line]. kinds K.
      rewrite (next_other "LEFTPAREN" "EQUALS") by (exact K1 || reflexivity). rewrite (next_here "LEFTPAREN" s) by exact K1. cbn [andb orb negb]. rewrite E by (rewrite K0; cbn; auto). cbn [bind].
      rewrite (line_end_here nl) by auto. cbn [bind]. rewrite call_of_own by auto. reflexivity.
  - (* do *) intros d w r Kd Hw Nw Hf OK ts R. split_streams. unfold key in Kd. rewrite Kd in K. destruct (do_name w t0 Hw Nw K0) as (A1 & A2 & A3 & A4). split; [discriminate|]. split.
    + intros rest. cbn [app block_end]. kinds K. reflexivity.
    + intros [|f] rest L; [cbn in L; lia|]. cbn [app p_line]. kinds K. assert (E1 : forall z, next_is "CASE" (t0 :: z) = false) by (intros; exact A2). assert (E2 : forall z, next_is "WHILE" (t0 :: z) = false) by (intros; exact A3).
      rewrite E1, E2. cbn [andb orb negb]. rewrite A1, A4.
      rewrite X0, word_text, Hf by apply Hw. cbn [andb negb]. rewrite (next_other "NL" "WITH") by (exact K1 || reflexivity). cbn [bind]. rewrite (line_end_here nl) by auto. reflexivity.
  - (* do with *) intros d w k ps l r Kd Hw Nw Hf Kk Hl Ne Hb OK ts R. do 3 apply OK_cons in OK. apply OK_app in OK as [OK _]. apply streams_word in R as (t & ts1 & -> & K & X & R). apply streams_word in R as (t0 & ts2 & -> & K0 & X0 & R).
    apply streams_word in R as (t1 & ts3 & -> & K1 & X1 & R). apply streams_app in R as (ta & tsta & -> & R0 & R). apply streams_newline in R as (nl & tsnl & -> & Kn & _ & R). apply streams_nil in R. subst tsnl.
    unfold key in Kd, Kk. rewrite Kd in K. rewrite Kk in K1. destruct (do_name w t0 Hw Nw K0) as (A1 & A2 & A3 & A4). split; [discriminate|]. split.
    + intros rest. cbn [app block_end]. kinds K. reflexivity.
    + intros [|f] rest L; [cbn in L; lia|]. cbn [app p_line]. kinds K. assert (E1 : forall z, next_is "CASE" (t0 :: z) = false) by (intros; exact A2). assert (E2 : forall z, next_is "WHILE" (t0 :: z) = false) by (intros; exact A3).
      rewrite E1, E2. cbn [andb orb negb]. rewrite A1, A4.
      rewrite X0, word_text, Hf by apply Hw. cbn [andb negb]. rewrite (next_here "WITH" t1) by exact K1. cbn [tl]. rewrite <- app_assoc. cbn [app]. rewrite (exprs_read l ps ta _ nl rest) by (auto; cbn [length]; rewrite ?app_length; cbn [length]; lia).
      cbn [bind]. rewrite (line_end_here nl) by auto. reflexivity.
  - (* if *) intros i c t th r a la b lb e r' Ki Hc Ht Ha IHa Hb IHb Ke OK ts R. inversion OK as [|? ? _ OK1]; subst. clear OK. apply OK_app in OK1 as [OKc OK1]. apply OK_app in OK1 as [OKt OK1]. apply OK_cons in OK1. apply OK_app in OK1 as [OKa OK1]. apply OK_app in OK1 as [OKb _]. cbn [app] in R.
    apply streams_word in R as (t0 & tst0 & -> & K & X & R). apply streams_app in R as (tc & tstc & -> & Rc & R). apply streams_app in R as (th0 & tsth & -> & Rt & R). apply streams_newline in R as (nl & tsnl & -> & K0 & _ & R). apply streams_app in R as (ta & tsta & -> & Ra & R). apply streams_app in R as (tb & tstb & -> & Rb & R). apply streams_word in R as (t1 & tst1 & -> & K1 & X1 & R). apply streams_newline in R as (nl0 & tsnl0 & -> & K2 & _ & R). apply streams_nil in R. subst.
    unfold key in Ki, Ke. rewrite Ki in K. rewrite Ke in K1. destruct (says_head 0 c t Hc tc Rc) as [_ Hd]. split; [discriminate|]. split.
    + intros rest. cbn [app block_end]. kinds K. reflexivity.
    + intros [|f] rest L; [cbn in L; lia|]. cbn [app p_line]. kinds K. rewrite <- app_assoc. rewrite Hd. cbn [andb orb negb].
      assert (E : exists r1, expression (tc ++ (th0 ++ nl :: ta ++ tb ++ [t1; nl0]) ++ rest) = Some (regrouped t, r1) /\ (if next_is "THEN" r1 then tl r1 else r1) = nl :: ta ++ tb ++ t1 :: nl0 :: rest).
      { destruct Ht as [| w Kw].
        - apply streams_nil in Rt. subst. cbn [app]. eexists. split; [apply (expr_before c); auto; rewrite K0; cbn; auto|]. rewrite (next_other "NL" "THEN") by (exact K0 || reflexivity). rewrite <- !app_assoc. reflexivity.
        - apply streams_word in Rt as (tt & ts' & -> & Kt & _ & Rt). apply streams_nil in Rt. subst. unfold key in Kw. rewrite Kw in Kt. cbn [app]. eexists. split; [apply (expr_before c); auto; rewrite Kt; cbn; auto|].
          rewrite (next_here "THEN" tt) by auto. cbn [tl app]. rewrite <- !app_assoc. reflexivity. }
      destruct E as (r1 & E1 & E2). rewrite E1. cbn [bind]. rewrite E2. rewrite (keyword_here "NL" nl) by auto. cbn [bind].
      assert (B1 : block_end (t1 :: nl0 :: rest) = true) by (apply end_here; [rewrite K1; cbn; auto | apply nl_not_equals; auto]).
      destruct (IHb (or_introl eq_refl) OKb tb Rb) as [Be Bo]. rewrite (IHa OKa ta Ra) by (auto; lens). cbn [bind].
      destruct lb as [|lb]; cbn [regroup regroupo].
      * subst tb. cbn [app]. rewrite (next_other "ENDIF" "ELSE") by (exact K1 || reflexivity). rewrite (keyword_here "ENDIF" t1) by auto. cbn [bind]. rewrite (line_end_here nl0) by auto. reflexivity.
      * destruct Bo as (w & n & ts' & -> & Kw & Kn & Bo). cbn [app]. rewrite (next_here "ELSE" w) by auto. cbn [tl]. rewrite (keyword_here "NL" n) by auto. cbn [bind]. rewrite Bo by (auto; lens). cbn [bind].
        rewrite (keyword_here "ENDIF" t1) by auto. cbn [bind]. rewrite (line_end_here nl0) by auto. reflexivity.
  - (* do case *) intros d k r c t la lm o lo e r' Kd Kk Hc IHc Ho IHo Ke OK ts R. apply OK_app in OK as [_ OK]. apply OK_app in OK as [OKc OK]. apply OK_app in OK as [OKo _]. cbn [app] in R.
    apply streams_word in R as (t0 & tst0 & -> & K & X & R). apply streams_word in R as (t1 & tst1 & -> & K1 & X1 & R). apply streams_newline in R as (nl & tsnl & -> & K0 & _ & R). apply streams_app in R as (tc & tstc & -> & Rc & R). apply streams_app in R as (tb & tstb & -> & Rb & R). apply streams_word in R as (t2 & tst2 & -> & K2 & X2 & R). apply streams_newline in R as (nl0 & tsnl0 & -> & K3 & _ & R). apply streams_nil in R. subst.
    unfold key in Kd, Kk, Ke. rewrite Kd in K. rewrite Kk in K1. rewrite Ke in K2. split; [discriminate|]. split.
    + intros rest. cbn [app block_end]. kinds K. reflexivity.
    + intros [|f] rest L; [cbn in L; lia|]. cbn [app p_line]. kinds K. rewrite (next_here "CASE" t1) by auto. cbn [andb orb negb tl]. rewrite (keyword_here "NL" nl) by auto. cbn [bind].
      assert (B1 : block_end (t2 :: nl0 :: rest) = true) by (apply end_here; [rewrite K2; cbn; auto 12 | apply nl_not_equals; auto]).
      destruct (IHo (or_intror (or_introl eq_refl)) OKo tb Rb) as [Be Bo]. destruct (IHc OKc tc Rc) as [_ Pc]. rewrite <- !app_assoc. cbn [app]. rewrite Pc; [| lens | apply Be; exact B1 |].
      2: { destruct lo as [|lo]; [subst tb; apply (next_other "ENDCASE"); auto | destruct Bo as (w & n & ts' & -> & Kw & Kn & Bo); apply (next_other "OTHERWISE"); auto]. }
      cbn [bind regroupc]. destruct lo as [|lo]; cbn [regroup regroupo].
      * subst tb. cbn [app]. rewrite (next_other "ENDCASE" "OTHERWISE") by (exact K2 || reflexivity). rewrite (keyword_here "ENDCASE" t2) by auto. cbn [bind]. rewrite (line_end_here nl0) by auto. reflexivity.
      * destruct Bo as (w & n & ts' & -> & Kw & Kn & Bo). cbn [app]. rewrite (next_here "OTHERWISE" w) by auto. cbn [tl]. rewrite (keyword_here "NL" n) by auto. cbn [bind]. rewrite Bo by (auto; lens). cbn [bind].
        rewrite (keyword_here "ENDCASE" t2) by auto. cbn [bind]. rewrite (line_end_here nl0) by auto. reflexivity.
  - (* while *) intros d w c t r a la e r' Hd Kw Hc Ha IHa Ke OK ts R. apply OK_app in OK as [_ OK]. inversion OK as [|? ? _ OK1]; subst. apply OK_app in OK1 as [OKc OK1]. apply OK_cons in OK1. apply OK_app in OK1 as [OKa _]. cbn [app] in R.
    apply streams_app in R as (td & tstd & -> & Rd & R). apply streams_word in R as (t0 & tst0 & -> & K & X & R). apply streams_app in R as (tc & tstc & -> & Rc & R). apply streams_newline in R as (nl & tsnl & -> & K0 & _ & R). apply streams_app in R as (ta & tsta & -> & Ra & R). apply streams_word in R as (t1 & tst1 & -> & K1 & X1 & R). apply streams_newline in R as (nl0 & tsnl0 & -> & K2 & _ & R). apply streams_nil in R. subst.
    unfold key in Kw, Ke. rewrite Kw in K. rewrite Ke in K1. destruct (says_head 0 c t Hc tc Rc) as [_ He].
    assert (P : forall f rest, (2 * length (t0 :: tc ++ nl :: ta ++ [t1; nl0]) <= S f)%nat ->
      bind (expression (tc ++ nl :: ta ++ t1 :: nl0 :: rest)) (fun '(c, r) => bind (keyword "NL" r) (fun r => bind (p_lines fns f r) (fun '(b, r) => bind (keyword "ENDDO" r) (fun r => bind (line_end r) (fun r => Some (KWhile c b, r)))))) = Some (regroup (KWhile t la), rest)).
    { intros f rest L. rewrite (expr_before c t) by (auto; rewrite K0; cbn; auto). cbn [bind]. rewrite (keyword_here "NL" nl) by auto. cbn [bind].
      rewrite (IHa OKa ta Ra); [| lens | apply end_here; [rewrite K1; cbn; auto 12 | apply nl_not_equals; auto]]. cbn [bind]. rewrite (keyword_here "ENDDO" t1) by auto. cbn [bind]. rewrite (line_end_here nl0) by auto. reflexivity. }
    destruct Hd as [| wd Kd].
    + apply streams_nil in Rd. subst. cbn [app]. split; [discriminate|]. split.
      * intros rest. cbn [app block_end]. kinds K. reflexivity.
      * intros [|f] rest L; [cbn in L; lia|]. cbn [app p_line]. kinds K. rewrite <- app_assoc, He. cbn [andb orb negb app]. rewrite <- app_assoc. apply P. exact L.
    + apply streams_word in Rd as (t2 & ts' & -> & Kt & _ & Rd). apply streams_nil in Rd. subst. unfold key in Kd. rewrite Kd in Kt. cbn [app]. split; [discriminate|]. split.
      * intros rest. cbn [app block_end]. kinds Kt. reflexivity.
      * intros [|f] rest L; [cbn in L; lia|]. cbn [app p_line]. kinds Kt. rewrite (next_other "WHILE" "CASE"), (next_here "WHILE" t0) by (exact K || reflexivity). cbn [andb orb negb tl]. rewrite <- app_assoc. cbn [app]. rewrite <- app_assoc. apply P. lens.
  - (* for *) intros k x from tf m to tt st tst r a la e r' Kk Hx Hf Km Ht Hs Ha IHa He OK ts R.
    inversion OK as [|? ? _ OK1]; subst. inversion OK1 as [|? ? _ OK2]; subst. inversion OK2 as [|? ? _ OK3]; subst. clear OK OK1 OK2. apply OK_app in OK3 as [OKf OK]. inversion OK as [|? ? _ OK1]; subst. clear OK.
    apply OK_app in OK1 as [OKt OK1]. apply OK_app in OK1 as [OKs OK1]. apply OK_cons in OK1. apply OK_app in OK1 as [OKa OK1]. apply OK_app in OK1 as [OKe _]. cbn [app] in R.
    apply streams_word in R as (t0 & tst0 & -> & K & X & R). apply streams_word in R as (t1 & tst1 & -> & K1 & X1 & R). apply streams_sym in R as (eq & tseq & -> & Keq & R). apply streams_app in R as (tfr & tstfr & -> & Rf & R). apply streams_word in R as (t2 & tst2 & -> & K2 & X2 & R). apply streams_app in R as (tto & tstto & -> & Rt & R). apply streams_app in R as (tst0 & tstst0 & -> & Rs & R). apply streams_newline in R as (nl & tsnl & -> & K0 & _ & R). apply streams_app in R as (ta & tsta & -> & Ra & R). apply streams_app in R as (te & tste & -> & Re & R). apply streams_newline in R as (nl0 & tsnl0 & -> & K3 & _ & R). apply streams_nil in R. subst.
    unfold key in Kk, Km. rewrite Kk in K. rewrite Km in K2. change (piece_kind (sym "=")) with "EQUALS"%string in Keq. destruct (named_ident _ t1 Hx K1) as (I1 & I2 & I3 & _). split; [discriminate|]. split.
    + intros rest. cbn [app block_end]. kinds K. reflexivity.
    + intros [|f] rest L; [cbn in L; lia|]. cbn [app p_line]. kinds K. assert (NE : forall r, next_is "EQUALS" (t1 :: r) = false) by (intros; exact I3). rewrite NE. cbn [andb orb negb]. rewrite I1, (next_here "EQUALS" eq) by auto. cbn [andb tl]. rewrite <- app_assoc. cbn [app].
      rewrite (expr_before from tf) by (auto; rewrite K2; cbn; auto). cbn [bind]. rewrite (keyword_here "TO" t2) by auto. cbn [bind]. rewrite <- !app_assoc.
      assert (Q : exists r1, expression (tto ++ tst0 ++ (nl :: ta ++ te ++ [nl0]) ++ rest) = Some (regrouped tt, r1) /\
        (if next_is "STEP" r1 then bind (expression (tl r1)) (fun '(e, r) => Some (Some e, r)) else Some (None, r1)) = Some (option_map regrouped tst, nl :: ta ++ te ++ nl0 :: rest)).
      { destruct Hs as [| w v t Kw Hv].
        - apply streams_nil in Rs. subst. cbn [app]. eexists. split; [apply (expr_before to); auto; rewrite K0; cbn; auto|]. rewrite (next_other "NL" "STEP") by (exact K0 || reflexivity). rewrite <- !app_assoc. reflexivity.
        - inversion OKs as [|? ? _ OKv]; subst. apply streams_word in Rs as (t3 & ts' & -> & Kt & _ & Rs). unfold key in Kw. rewrite Kw in Kt. cbn [app]. eexists. split; [apply (expr_before to); auto; rewrite Kt; cbn; auto|].
          rewrite (next_here "STEP" t3) by auto. cbn [tl]. rewrite (expr_before v t) by (auto; rewrite K0; cbn; auto). cbn [bind option_map]. rewrite <- !app_assoc. reflexivity. }
      destruct Q as (r1 & Q1 & Q2). cbn [app] in Q1. rewrite <- !app_assoc in Q1. cbn [app] in Q1. repeat (progress (rewrite <- ?app_assoc; cbn [app])). rewrite Q1. cbn [bind]. rewrite Q2. cbn [bind]. rewrite (keyword_here "NL" nl) by auto. cbn [bind].
      assert (B : block_end (te ++ nl0 :: rest) = true /\
        (if next_is "NEXT" (te ++ nl0 :: rest) then match tl (te ++ nl0 :: rest) with y :: r => if one_of y identifiers then Some r else Some (y :: r) | [] => Some [] end else keyword "ENDFOR" (te ++ nl0 :: rest)) = Some (nl0 :: rest)).
      { destruct He as [w Kw | w Kw | w y Kw Hy]; apply streams_word in Re as (t3 & ts' & -> & Kt & _ & Re); unfold key in Kw; rewrite Kw in Kt.
        - apply streams_nil in Re. subst. cbn [app]. split; [apply end_here; [rewrite Kt; cbn; auto 12 | apply nl_not_equals; auto]|]. rewrite (next_other "ENDFOR" "NEXT") by (exact Kt || reflexivity). apply keyword_here; auto.
        - apply streams_nil in Re. subst. cbn [app]. split; [apply end_here; [rewrite Kt; cbn; auto 12 | apply nl_not_equals; auto]|]. rewrite (next_here "NEXT" t3) by auto. cbn [tl]. kinds K3. reflexivity.
        - apply streams_word in Re as (t4 & ts2 & -> & Kt4 & _ & Re). apply streams_nil in Re. subst. cbn [app]. destruct (named_ident y t4 Hy Kt4) as (J1 & J2 & J3 & _). split; [apply end_here; [rewrite Kt; cbn; auto 12 | cbn [next_is]; exact J3]|].
          rewrite (next_here "NEXT" t3) by auto. cbn [tl]. rewrite J1. reflexivity. }
      destruct B as [B1 B2]. rewrite (IHa OKa ta Ra) by (auto; lens). cbn [bind]. rewrite B2. cbn [bind]. rewrite (line_end_here nl0) by auto. cbn [bind]. rewrite word_small by apply Hx. reflexivity.
  - (* exit *) intros w r E OK ts R. inversion OK as [|? ? W _]; subst. split_streams. rewrite (kind_upper w _ _ E eq_refl) in K. split; [discriminate|]. split.
    + intros rest. cbn [app block_end]. kinds K. reflexivity.
    + intros [|f] rest L; [cbn in L; lia|]. cbn [app p_line]. kinds K. rewrite (next_other "NL" "EQUALS") by (exact K0 || reflexivity). cbn [andb orb negb]. rewrite (line_end_here nl) by auto. cbn [bind].
      rewrite (key_text w t W X), E. reflexivity.
  - (* loop *) intros w r E OK ts R. inversion OK as [|? ? W _]; subst. split_streams. rewrite (kind_upper w _ _ E eq_refl) in K. split; [discriminate|]. split.
    + intros rest. cbn [app block_end]. kinds K. reflexivity.
    + intros [|f] rest L; [cbn in L; lia|]. cbn [app p_line]. kinds K. rewrite (next_other "NL" "EQUALS") by (exact K0 || reflexivity). cbn [andb orb negb]. rewrite (line_end_here nl) by auto. cbn [bind].
      rewrite (key_text w t W X), E. reflexivity.
  - (* return *) intros w v t r Kw Hv Ho OK ts R. apply OK_cons in OK. apply OK_app in OK as [OK _]. apply streams_word in R as (t0 & tst0 & -> & K & X & R). apply streams_app in R as (ta & tsta & -> & R0 & R). apply streams_newline in R as (nl & tsnl & -> & K0 & _ & R). apply streams_nil in R. subst. unfold key in Kw. rewrite Kw in K. destruct (says_head 0 v t Hv ta R0) as [_ Hd]. split; [discriminate|]. split.
    + intros rest. cbn [app block_end]. kinds K. reflexivity.
    + intros [|f] rest L; [cbn in L; lia|]. cbn [app p_line]. kinds K. rewrite <- app_assoc. rewrite Hd. cbn [andb orb negb app]. rewrite (expr_before v t) by (auto; rewrite K0; cbn; auto). cbn [bind]. rewrite (line_end_here nl) by auto. cbn [bind]. unfold answer. rewrite call_of_none by auto. reflexivity.
  - (* answer *) intros w v f0 l r Kw Hv Ho OK ts R. apply OK_cons in OK. apply OK_app in OK as [OK _]. apply streams_word in R as (t0 & tst0 & -> & K & X & R). apply streams_app in R as (ta & tsta & -> & R0 & R). apply streams_newline in R as (nl & tsnl & -> & K0 & _ & R). apply streams_nil in R. subst. unfold key in Kw. rewrite Kw in K. destruct (says_head 0 v (CCall f0 l) Hv ta R0) as [_ Hd]. split; [discriminate|]. split.
    + intros rest. cbn [app block_end]. kinds K. reflexivity.
    + intros [|f] rest L; [cbn in L; lia|]. cbn [app p_line]. kinds K. rewrite <- app_assoc. rewrite Hd. cbn [andb orb negb app]. rewrite (expr_before v (CCall f0 l)) by (auto; rewrite K0; cbn; auto). cbn [bind]. rewrite (line_end_here nl) by auto. cbn [bind]. unfold answer. rewrite call_of_own by auto. reflexivity.
  - (* leave *) intros w r Kw OK ts R. split_streams. unfold key in Kw. rewrite Kw in K. split; [discriminate|]. split.
    + intros rest. cbn [app block_end]. kinds K. reflexivity.
    + intros [|f] rest L; [cbn in L; lia|]. cbn [app p_line]. kinds K. rewrite (next_other "NL" "EQUALS") by (exact K0 || reflexivity). cbn [andb orb negb]. rewrite no_expression by exact K0. rewrite (line_end_here nl) by auto. reflexivity.
  - (* nil *) intros OK ts R [|f] rest L B; [lia|]. split_streams. cbn [app p_lines]. rewrite B. reflexivity.
  - (* cons *) intros p s ps l Hp IHp Hl IHl OK ts R [|f] rest L B; [lia|]. apply OK_app in OK as [OK0 OK1]. apply streams_app in R as (ta & tb & -> & R0 & R1). destruct (IHp OK0 ta R0) as (N & E & P). cbn [p_lines]. rewrite <- app_assoc, E. rewrite P by lens. cbn [bind].
    assert (length ta <> 0)%nat by (destruct ta; [congruence | discriminate]). rewrite (IHl OK1 tb R1) by (auto; lens). reflexivity.
  - (* no other *) intros k Ik OK ts R. split_streams. split; [auto | reflexivity].
  - (* other *) intros k w r ps l Kw Hl IHl Ik OK ts R. oks. split_streams. unfold key in Kw. rewrite Kw in K. split.
    + intros rest B. cbn [app]. apply end_here; [|apply nl_not_equals; auto]. rewrite K. cbn [In] in Ik. destruct Ik as [<- | [<- | []]]; cbn; auto 12.
    + eexists _, _, _. split; [reflexivity|]. split; [exact K|]. split; [exact K0|]. intros f rest L B. apply IHl; auto.
  - (* no cases *) intros OK ts R. split_streams. split; [auto|]. intros [|f] rest L B N; [lia|]. cbn [app p_cases]. rewrite N. reflexivity.
  - (* case *) intros w c t r a la ps l Kw Hc Ha IHa Hl IHl OK ts R. apply OK_cons in OK. apply OK_app in OK as [OK1 OK]. cbn [app] in OK. apply OK_cons in OK. apply OK_app in OK as [OK2 OK3]. cbn [app] in R. apply streams_word in R as (t0 & tst0 & -> & K & X & R). apply streams_app in R as (ta & tsta & -> & R0 & R). apply streams_newline in R as (nl & tsnl & -> & K0 & _ & R). apply streams_app in R as (ta0 & tb & -> & R2 & R3). subst. unfold key in Kw. rewrite Kw in K. destruct (says_head 0 c t Hc ta R0) as [_ Hd]. split.
    + intros rest B. cbn [app]. apply end_here; [rewrite K; cbn; auto 12|]. rewrite <- app_assoc. apply Hd.
    + intros [|f] rest L B N; [lia|]. cbn [app p_cases]. rewrite (next_here "CASE" t0) by auto. cbn [tl]. rewrite <- app_assoc. cbn [app]. rewrite (expr_before c t) by (auto; rewrite K0; cbn; auto). cbn [bind].
      rewrite (keyword_here "NL" nl) by auto. cbn [bind]. rewrite <- app_assoc. destruct (IHl OK3 tb R3) as [Be Pc]. rewrite (IHa OK2 ta0 R2) by (auto; lens). cbn [bind]. rewrite Pc by (auto; lens). reflexivity.
Qed.
End read.
