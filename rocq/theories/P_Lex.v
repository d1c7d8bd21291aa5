(** Python reads the tokens that the converter wrote. *)
From Verif Require Import PyBase PyStr S_Py M_Lit S_Lit P_Lit M_Do M_Conv M_Show S_Lex.
Open Scope Z_scope.

(** Names that are no keywords, but for the constants *)
Definition id_ok (w : pystr) : bool := match w with [] => false | c :: _ => letter_ c && forallb word_char w end && match word w with Some (Id _) => true | _ => false end.
Definition tok_ok (t : tok) : bool :=
  match t with
  | Id w => id_ok w
  | IntT n => 0 <=? n
  | StrT s => forallb (fun c => (0 <=? c) && (c <=? 1114111)) s
  | Op (OIs | OIsNot) => false
  | _ => true
  end.
Definition fits (k : kind) (t : tok) : bool :=
  match k, t with
  | Number, Dot => false
  | AfterDot, Id _ => true
  | AfterDot, _ => false
  | (Tight | Word), Op (OAdd | OSub) => true
  | (Tight | Word), Op _ => false
  | _, _ => true
  end.
Fixpoint well (k : kind) (ts : list tok) : bool := match ts with [] => true | t :: ts => tok_ok t && fits k t && well (after_tok k t) ts end.
Fixpoint ends (k : kind) (ts : list tok) : kind := match ts with [] => k | t :: ts => ends (after_tok k t) ts end.
Lemma well_app ts : forall k us, well k (ts ++ us) = well k ts && well (ends k ts) us.
Proof. induction ts as [|t ts IH]; intros k us; [reflexivity|]. cbn [app well ends]. rewrite IH. destruct (tok_ok t), (fits k t); reflexivity. Qed.
Lemma ends_app ts : forall k us, ends k (ts ++ us) = ends (ends k ts) us.
Proof. induction ts as [|t ts IH]; intros k us; [reflexivity|]. cbn [app ends]. apply IH. Qed.
Lemma show_app p ts : forall k us, show p k (ts ++ us) = show p k ts ++ show p (ends k ts) us.
Proof. induction ts as [|t ts IH]; intros k us; [reflexivity|]. cbn [app show ends]. rewrite IH, !app_assoc. reflexivity. Qed.

(** ** What the first character after a token can be *)
Definition closer (c : Z) : bool := (c =? 41) || (c =? 93) || (c =? 44) || (c =? 58) || (c =? 46).
Definition calm (k : kind) (s : pystr) : Prop :=
  match s with
  | [] => True
  | c :: _ =>
      match k with
      | Value => c = 32 \/ closer c = true \/ c = 40 \/ c = 91
      | Number => c = 32 \/ (closer c = true /\ c <> 46) \/ c = 40 \/ c = 91
      | Word => c = 32 \/ closer c = true
      | AfterDot => letter_ c = true
      | Tight => c <> 61
      end
  end.
Lemma id_first w : id_ok w = true -> exists c r, w = c :: r /\ letter_ c = true /\ forallb word_char r = true.
Proof.
  unfold id_ok. intros H. apply andb_prop in H as [H _]. destruct w as [|c r]; [discriminate|]. apply andb_prop in H as [H1 H2]. cbn [forallb] in H2. apply andb_prop in H2 as [_ H2]. eauto.
Qed.
Lemma dec_spec n : 0 <= n -> dec n = dec_nat n.
Proof. intros H. unfold dec. destruct (Z.ltb_spec n 0); [lia|reflexivity]. Qed.
Lemma repr_starts p s : exists q r, str_repr p s = q :: r /\ (q = 39 \/ q = 34).
Proof. unfold str_repr. exists (quote_of s). eexists. split; [reflexivity|]. apply quote_cases. Qed.
Lemma tok_first p k t : tok_ok t = true -> fits k t = true -> exists c r, tok_text p t = c :: r /\ c <> 32 /\
  (k = AfterDot -> letter_ c = true) /\ (is_value k = false -> c <> 61) /\
  match t with Rp | Rb | Comma | Colon | Dot => closer c = true | Lp => c = 40 | Lb => c = 91 | _ => True end /\ (match t with Dot => False | _ => True end -> closer c = true -> c <> 46).
Proof.
  intros T F. destruct t; cbn [tok_text tok_ok] in *.
  - destruct (id_first s T) as (c & r & -> & L & _). exists c, r. split; [reflexivity|].
    assert (R : c <> 32 /\ c <> 61 /\ c <> 46) by (unfold letter_ in L; repeat split; intros ->; discriminate L). tauto.
  - apply Z.leb_le in T. rewrite dec_spec by exact T. destruct (dec_nat_spec n T) as (_ & D & N). destruct (dec_nat n) as [|c r]; [contradiction|]. cbn [forallb] in D. apply andb_prop in D as [D _].
    exists c, r. split; [reflexivity|]. unfold is_digit in D. apply andb_prop in D as [D1 D2]. apply Z.leb_le in D1, D2. repeat split; try lia; destruct k; discriminate || lia.
  - destruct (repr_starts p s) as (q & r & E & Q). exists q, r. split; [exact E|]. repeat split; try lia; destruct k; discriminate || lia.
  - destruct o, k; try discriminate; cbn; eexists; eexists; split; try reflexivity; repeat split; try lia; discriminate.
  - destruct k; try discriminate; cbn; eexists; eexists; split; try reflexivity; repeat split; try lia; discriminate.
  - destruct k; try discriminate; cbn; eexists; eexists; split; try reflexivity; repeat split; try lia; discriminate.
  - destruct k; try discriminate; cbn; eexists; eexists; split; try reflexivity; repeat split; try lia; discriminate.
  - destruct k; try discriminate; cbn; eexists; eexists; split; try reflexivity; repeat split; try lia; discriminate.
  - destruct k; try discriminate; cbn; eexists; eexists; split; try reflexivity; repeat split; try lia; discriminate.
  - destruct k; try discriminate; cbn; eexists; eexists; split; try reflexivity; repeat split; try lia; discriminate.
  - destruct k; try discriminate; cbn; eexists; eexists; split; try reflexivity; repeat split; try lia; discriminate.
  - destruct k; try discriminate; cbn; eexists; eexists; split; try reflexivity; repeat split; try lia; discriminate.
  - destruct k; try discriminate; cbn; eexists; eexists; split; try reflexivity; repeat split; try lia; discriminate.
  - destruct k; try discriminate; cbn; eexists; eexists; split; try reflexivity; repeat split; try lia; discriminate.
  - destruct k; try discriminate; cbn; eexists; eexists; split; try reflexivity; repeat split; try lia; try discriminate; contradiction.
Qed.
Lemma show_calm p k ts : well k ts = true -> calm k (show p k ts).
Proof.
  destruct ts as [|t ts]; intros W; [exact I|]. cbn [well] in W. apply andb_prop in W as [W _]. apply andb_prop in W as [T F]. destruct (tok_first p k t T F) as (c & r & E & N & A & Q & C & D).
  cbn [show]. rewrite E. destruct k, t; cbn [blank_before app calm is_value] in *; try discriminate F; auto; try (apply Q; reflexivity); try (apply A; reflexivity).
  all: right; left; split; [exact C|apply D; auto].
Qed.

(** ** One token *)
Lemma span_app f a : forall b, forallb f a = true -> match b with [] => True | c :: _ => f c = false end -> span f (a ++ b) = (a, b).
Proof.
  induction a as [|c a IH]; intros b H N.
  - destruct b as [|c b]; [reflexivity|]. cbn [app span]. rewrite N. reflexivity.
  - cbn [forallb] in H. apply andb_prop in H as [H1 H2]. cbn [app span]. rewrite H1, IH by assumption. reflexivity.
Qed.
Lemma calm_word s : calm Value s \/ calm Word s -> match s with [] => True | c :: _ => word_char c = false /\ c <> 39 /\ c <> 34 end.
Proof.
  destruct s as [|c s]; [auto|]. cbn [calm]. intros H. assert (C : In c [32; 41; 93; 44; 58; 46; 40; 91]).
  { unfold closer in H. cbn [In]. rewrite !orb_true_iff, !Z.eqb_eq in H. intuition auto. }
  cbn [In] in C. repeat destruct C as [<- | C]; try (repeat split; discriminate); destruct C.
Qed.
Lemma next_not c s : match s with [] => True | d :: _ => d <> c end -> next_is c s = false.
Proof. destruct s as [|d s]; [reflexivity|]. intros N. cbn [next_is]. apply Z.eqb_neq. congruence. Qed.
Lemma token_word w t s : w <> [] -> forallb word_char w = true -> letter_ (hd 0 w) = true -> word w = Some t -> calm Value s \/ calm Word s -> token (w ++ s) = Some (t, s).
Proof.
  intros N A L E C. apply calm_word in C. destruct w as [|c w]; [contradiction|]. cbn [hd] in L.
  assert (X : span word_char ((c :: w) ++ s) = (c :: w, s)) by (apply span_app; [exact A|destruct s; [exact I|apply C]]).
  cbn [app token] in *. rewrite L. cbn [span] in X |- *. destruct (word_char c); [|discriminate X]. destruct (span word_char (w ++ s)) as [a b]. injection X as -> ->.
  rewrite !next_not, E by (destruct s; [exact I|destruct C as (_ & C1 & C2); congruence]). reflexivity.
Qed.
Lemma hex_plain k c : forallb (fun d => (48 <=? d) && (d <=? 102) && negb (d =? 92)) (hex_n k c) = true.
Proof.
  revert c. induction k as [|k IH]; intros c; [reflexivity|]. cbn [hex_n]. rewrite forallb_app, IH. cbn [forallb andb]. rewrite andb_true_r. unfold hex_digit.
  pose proof (Z.mod_pos_bound c 16 ltac:(lia)). destruct (Z.ltb_spec (c mod 16) 10); apply andb_true_intro; split; [apply andb_true_intro; split; apply Z.leb_le; lia| |apply andb_true_intro; split; apply Z.leb_le; lia|];
    apply negb_true_iff, Z.eqb_neq; lia.
Qed.
Lemma plain_end q l r : (q = 39 \/ q = 34) -> forallb (fun d => (48 <=? d) && (d <=? 102) && negb (d =? 92)) l = true ->
  literal_end q (l ++ r) = option_map (fun p => (l ++ fst p, snd p)) (literal_end q r).
Proof.
  intros Q. induction l as [|d l IH]; intros H; [cbn [app]; destruct (literal_end q r) as [[? ?]|]; reflexivity|]. cbn [forallb] in H. apply andb_prop in H as [H1 H2].
  apply andb_prop in H1 as [H1 N]. apply andb_prop in H1 as [A B]. apply Z.leb_le in A, B. apply negb_true_iff in N. cbn [app literal_end]. rewrite N. destruct (Z.eqb_spec d q); [lia|].
  rewrite IH by exact H2. destruct (literal_end q r) as [[? ?]|]; reflexivity.
Qed.
Lemma char_end p q c r : (q = 39 \/ q = 34) -> literal_end q (repr_char p q c ++ r) = option_map (fun x => (repr_char p q c ++ fst x, snd x)) (literal_end q r).
Proof.
  intros Q. unfold repr_char. destruct (Z.eqb_spec c q) as [->|NQ]; [cbn [orb app literal_end]; reflexivity|].
  destruct (Z.eqb_spec c 92) as [->|N92]; [reflexivity|]. cbn [orb].
  assert (HX : forall x k, literal_end q ((92 :: x :: hex_n k c) ++ r) = option_map (fun y => ((92 :: x :: hex_n k c) ++ fst y, snd y)) (literal_end q r)).
  { intros x k. cbn [app literal_end]. rewrite Z.eqb_refl, plain_end by (exact Q || apply hex_plain). destruct (literal_end q r) as [[? ?]|]; reflexivity. }
  assert (HP : literal_end q ([c] ++ r) = option_map (fun y => ([c] ++ fst y, snd y)) (literal_end q r)).
  { cbn [app literal_end]. rewrite (proj2 (Z.eqb_neq c 92) N92), (proj2 (Z.eqb_neq c q) NQ). reflexivity. }
  repeat match goal with |- context [if ?b then _ else _] => destruct b end; try exact HP; try apply HX; reflexivity.
Qed.
Lemma repr_end p s r : literal_end (quote_of s) (concat (map (repr_char p (quote_of s)) s) ++ quote_of s :: r) = Some (concat (map (repr_char p (quote_of s)) s) ++ [quote_of s], r).
Proof.
  pose proof (quote_cases s) as Q. set (q := quote_of s) in *. clearbody q. induction s as [|c s IH].
  - cbn [map concat app literal_end]. rewrite (Z.eqb_refl q). destruct Q as [-> | ->]; reflexivity.
  - cbn [map concat]. rewrite <- !app_assoc, char_end, IH by exact Q. reflexivity.
Qed.
Lemma digits_first f : forall m c r, 0 < m -> Z.log2 m < Z.of_nat f -> digits f m = c :: r -> 48 < c.
Proof.
  induction f as [|f IH]; intros m c r M L H; [discriminate|]. cbn [digits] in H. destruct (Z.ltb_spec m 10); [assert (c = 48 + m) by congruence; lia|].
  destruct (digits f (m / 10)) as [|x y] eqn:X.
  - exfalso. destruct (digits_spec f (m / 10)) as (_ & _ & X'); [apply Z.div_pos; lia|pose proof (log2_div10 m ltac:(lia)); lia|]. contradiction.
  - cbn [app] in H. assert (x = c) by congruence; subst x. apply (IH (m / 10) c y); [apply Z.div_str_pos; lia|pose proof (log2_div10 m ltac:(lia)); lia|exact X].
Qed.
Lemma token_text p k t s : tok_ok t = true -> fits k t = true -> calm (after_tok k t) s -> token (tok_text p t ++ s) = Some (t, s).
Proof.
  intros T F C.
  assert (W : forall w t', t = t' -> after_tok k t = Word \/ after_tok k t = Value -> tok_text p t = u w -> forallb word_char (u w) = true -> u w <> [] -> letter_ (hd 0 (u w)) = true -> word (u w) = Some t' ->
    token (tok_text p t ++ s) = Some (t, s)).
  { intros w t' <- K -> A N L X. apply token_word; try assumption. destruct K as [K|K]; rewrite K in C; [right|left]; exact C. }
  destruct t.
  - (* Id *) cbn [tok_text]. pose proof (id_first _ T) as (c & r & E & L & A). cbn [tok_ok] in T. unfold id_ok in T. apply andb_prop in T as [T1 T2].
    apply token_word; [rewrite E; discriminate|destruct s0; [discriminate|apply andb_prop in T1; apply T1]|rewrite E; exact L| |left; exact C].
    unfold word in *. repeat match type of T2 with context [if ?b then _ else _] => destruct b; try discriminate T2 end; reflexivity.
  - (* IntT *) cbn [tok_text tok_ok] in *. apply Z.leb_le in T. rewrite dec_spec by exact T. destruct (dec_nat_spec n T) as (V & D & N).
    assert (Cn : match s with [] => True | c :: _ => is_digit c = false /\ word_char c || (c =? 46) = false end).
    { cbn [after_tok] in C. destruct s as [|c s]; [exact I|]. cbn [calm] in C. assert (X : In c [32; 41; 93; 44; 58; 40; 91]).
      { unfold closer in C. cbn [In]. rewrite !orb_true_iff, !Z.eqb_eq in C. intuition auto. }
      cbn [In] in X. repeat destruct X as [<- | X]; try (split; reflexivity); destruct X. }
    assert (Z0 : integer (dec_nat n) = Some n).
    { unfold integer. destruct (dec_nat n) as [|c r] eqn:E; [contradiction|]. rewrite <- V, <- E. destruct r as [|d r]; [destruct c as [|c|c]; try reflexivity; repeat (destruct c; try reflexivity)|].
      assert (G : c <> 48).
      { destruct (Z.eq_dec n 0) as [-> | N0]; [discriminate E|]. unfold dec_nat in E. apply digits_first in E; [lia|lia|pose proof (Z.log2_nonneg n); lia]. }
      destruct c as [|c|c]; try reflexivity. repeat (destruct c; try reflexivity). exfalso; apply G; reflexivity. }
    destruct (dec_nat n) as [|c r] eqn:E; [contradiction|].
    assert (X : span is_digit ((c :: r) ++ s) = (c :: r, s)) by (apply span_app; [exact D|destruct s; [exact I|apply Cn]]).
    cbn [forallb] in D. apply andb_prop in D as [D1 D2]. assert (L : letter_ c = false).
    { unfold is_digit in D1. apply andb_prop in D1 as [A B]. apply Z.leb_le in A, B. unfold letter_. repeat rewrite ?orb_false_iff, ?andb_false_iff, ?Z.leb_gt, ?Z.eqb_neq. lia. }
    cbn [app token] in *. rewrite L, D1. cbn [span] in X |- *. rewrite D1 in X |- *. destruct (span is_digit (r ++ s)) as [a b]. injection X as -> ->.
    destruct s as [|x s]; [rewrite Z0; reflexivity|]. destruct Cn as [_ ->]. rewrite Z0. reflexivity.
  - (* StrT *) cbn [tok_text tok_ok] in *. assert (R : Forall (fun c => 0 <= c <= 1114111) s0).
    { apply Forall_forall. rewrite forallb_forall in T. intros c I. specialize (T c I). apply andb_prop in T as [A B]. apply Z.leb_le in A, B. lia. }
    pose proof (repr_reads true p s0 R (or_introl eq_refl)) as V. pose proof (quote_cases s0) as Q. unfold str_repr in *. cbn [app token].
    assert (L : letter_ (quote_of s0) = false /\ is_digit (quote_of s0) = false /\ ((quote_of s0 =? 39) || (quote_of s0 =? 34)) = true) by (destruct Q as [-> | ->]; repeat split).
    destruct L as (-> & -> & ->). rewrite <- app_assoc. cbn [app]. rewrite repr_end, V.
    assert (X : next_is (quote_of s0) s = false).
    { apply next_not. pose proof (calm_word s (or_introl C)) as Y0. destruct s; [exact I|]. destruct Y0 as (_ & Y1 & Y2). destruct Q as [-> | ->]; assumption. }
    rewrite X, andb_false_r. reflexivity.
  - (* Op *) assert (K : after_tok k (Op o) = Word \/ (after_tok k (Op o) = Tight /\ (o = OAdd \/ o = OSub))).
    { cbn [after_tok]. destruct k; cbn [is_value]; auto; destruct o; try discriminate F; auto. }
    destruct K as [K | [K Ho]].
    + assert (Cc : calm Word s) by (rewrite <- K; exact C).
      assert (D : match s with [] => True | d :: _ => In d [32; 41; 93; 44; 58; 46] end).
      { destruct s as [|d s]; [exact I|]. cbn [calm] in Cc. unfold closer in Cc. rewrite !orb_true_iff, !Z.eqb_eq in Cc. cbn [In]. intuition auto. }
      destruct o; try discriminate T; try (apply (W _ _ eq_refl (or_introl K) eq_refl); vm_compute; congruence).
      all: destruct s as [|d s]; [reflexivity|]; cbn [In] in D; repeat destruct D as [<- | D]; try reflexivity; destruct D.
    + assert (N61 : next_is 61 s = false) by (apply next_not; rewrite K in C; destruct s; [exact I|exact C]).
      destruct Ho as [-> | ->]; cbn; rewrite N61; reflexivity.
  - apply (W "not"%string Not eq_refl (or_introl eq_refl) eq_refl); vm_compute; congruence.
  - cbn [after_tok] in C. assert (N61 : next_is 61 s = false) by (apply next_not; destruct s; [exact I|exact C]). cbn. rewrite N61. reflexivity.
  - apply (W "if"%string If eq_refl (or_introl eq_refl) eq_refl); vm_compute; congruence.
  - apply (W "else"%string Else eq_refl (or_introl eq_refl) eq_refl); vm_compute; congruence.
  - cbn [after_tok] in C. assert (N61 : next_is 61 s = false) by (apply next_not; destruct s; [exact I|exact C]). cbn. rewrite N61. reflexivity.
  - cbn [after_tok] in C. assert (N61 : next_is 61 s = false) by (apply next_not; destruct s as [|d s]; [exact I|]; intros ->; cbn [calm] in C; intuition discriminate). cbn. rewrite N61. reflexivity.
  - cbn [after_tok] in C. assert (N61 : next_is 61 s = false) by (apply next_not; destruct s; [exact I|exact C]). cbn. rewrite N61. reflexivity.
  - cbn [after_tok] in C. assert (N61 : next_is 61 s = false) by (apply next_not; destruct s as [|d s]; [exact I|]; intros ->; cbn [calm] in C; intuition discriminate). cbn. rewrite N61. reflexivity.
  - cbn [after_tok] in C. assert (N61 : next_is 61 s = false) by (apply next_not; destruct s; [exact I|exact C]). cbn. rewrite N61. reflexivity.
  - cbn [after_tok] in C. assert (N61 : next_is 61 s = false) by (apply next_not; destruct s as [|d s]; [exact I|]; intros ->; cbn [calm] in C; intuition discriminate). cbn. rewrite N61. reflexivity.
  - cbn [after_tok] in C. assert (N61 : next_is 61 s = false) by (apply next_not; destruct s as [|d s]; [exact I|]; intros ->; cbn [calm] in C; discriminate). cbn. rewrite N61.
    destruct s as [|d s]; [reflexivity|]. cbn [calm] in C. replace (is_digit d) with false; [reflexivity|]. symmetry. unfold letter_ in C. unfold is_digit.
    rewrite !orb_true_iff, !andb_true_iff, !Z.leb_le, Z.eqb_eq in C. apply andb_false_iff. rewrite !Z.leb_gt. lia.
Qed.

(** ** All of them *)
Lemma lex_show_n p ts : forall k fuel, well k ts = true -> (length (show p k ts) < fuel)%nat -> lex_n fuel (show p k ts) = Some ts.
Proof.
  induction ts as [|t ts IH]; intros k fuel W L; [destruct fuel; [lia|reflexivity]|]. cbn [well] in W. apply andb_prop in W as [TF W]. apply andb_prop in TF as [T F].
  destruct (tok_first p k t T F) as (c & r & E & N & _). pose proof (token_text p k t (show p (after_tok k t) ts) T F (show_calm p _ ts W)) as X.
  cbn [show] in *. assert (G : forall fuel, (length (tok_text p t ++ show p (after_tok k t) ts) < fuel)%nat -> lex_n fuel (tok_text p t ++ show p (after_tok k t) ts) = Some (t :: ts)).
  { intros f Lf. destruct f as [|f]; [lia|]. rewrite E in *. cbn [app lex_n] in *. destruct (Z.eqb_spec c 32); [contradiction|]. rewrite X. rewrite IH; [reflexivity|exact W|].
    rewrite app_comm_cons, app_length in Lf. cbn [length] in Lf. lia. }
  destruct (blank_before k t); [|apply G; exact L]. destruct fuel as [|f]; [cbn in L; lia|]. cbn [app lex_n]. apply G. cbn [app length] in L. lia.
Qed.
Theorem lex_show p k ts : well k ts = true -> lex (show p k ts) = Some ts.
Proof. intros W. apply lex_show_n; [exact W|lia]. Qed.
