(** Proofs about preprocessing: the text of a line with its constants put in *)
From Verif Require Import PyBase PyStr M_Lexer S_Lexer P_Lexer P_Lexer2 P_Lexer3 P_Lexer4 M_Prep M_Parse P_Parse S_Expr S_Prog M_Prg S_Prg P_Prg1.
From Coq Require Import Lia.
Open Scope Z_scope.

Lemma lower_small : forall s, M_Prep.lower s = small s.
Proof. reflexivity. Qed.
Definition tk (src : source) : list token := map prep_token (toks src).
Lemma tk_app : forall a b, tk (a ++ b) = tk a ++ tk b.
Proof. intros. unfold tk. rewrite toks_app, map_app. reflexivity. Qed.
Lemma tk_cons : forall g p l, tk ((g, p) :: l) = map prep_token (map layout_token g) ++ map prep_token (piece_all p) ++ tk l.
Proof. intros. unfold tk. rewrite toks_cons, !map_app. reflexivity. Qed.
Lemma joined_app : forall a b, joined (a ++ b) = joined a ++ joined b.
Proof. intros. apply flat_map_app. Qed.
Definition good (p : list layout * piece) : Prop := in_line (snd p) /\ piece_ok (snd p) /\ Forall (fun g => match g with Continued _ (Some _) => False | _ => True end) (fst p).
Definition agree (d : constants) (m : memory) : Prop := (forall k, get m k = option_map tk (d k)) /\ (forall k v, d k = Some v -> S_Lexer.word k = true /\ Forall good v).

(** ** Without carriage returns *)
Lemma no_cr_app : forall a b, no_cr (a ++ b) = no_cr a ++ no_cr b.
Proof. intros. unfold no_cr. apply filter_app. Qed.
Lemma no_cr_none : forall s, ~ In 13 s -> no_cr s = s.
Proof. induction s as [|c s IH]; intros H; [reflexivity|]. cbn [no_cr filter]. destruct (Z.eqb_spec c 13) as [->|]; [destruct H; left; reflexivity|]. cbn [negb]. f_equal. apply IH. intros I. apply H. right. exact I. Qed.
Lemma no_cr_in : forall s c, In c (no_cr s) -> In c s.
Proof. intros s c H. apply filter_In in H. tauto. Qed.
Lemma name_no_cr : forall w, forallb name_char w = true -> ~ In 13 w.
Proof. intros w H I. rewrite forallb_forall in H. apply H in I. discriminate. Qed.
Lemma joined_texts : forall l, joined (map prep_token l) = no_cr (flat_map snd l).
Proof. induction l as [|t l IH]; [reflexivity|]. cbn [map flat_map]. unfold joined in *. cbn [flat_map prep_token t_text]. rewrite IH, no_cr_app. reflexivity. Qed.
Lemma piece_all_text : forall p, flat_map snd (piece_all p) = piece_text p.
Proof.
  intros [w | a b | k t | k w | q s | [r|] | s]; cbn [piece_all flat_map snd piece_text piece_kind]; rewrite ?app_nil_r; try reflexivity.
  - rewrite flat_map_app, tokens_text. cbn [flat_map snd app]. reflexivity.
  - rewrite flat_map_app, tokens_text. cbn [flat_map snd app]. reflexivity.
Qed.
Lemma symbols_no_cr : forallb (fun p => negb (existsb (Z.eqb 13) (u (snd p)))) symbols = true.
Proof. vm_compute. reflexivity. Qed.
Lemma piece_no_cr : forall p, in_line p -> piece_ok p -> ~ In 13 (piece_text p).
Proof.
  intros [w | a b | k t | k w | q s | r | s] H OK; cbn [in_line piece_ok piece_text] in *; try contradiction.
  - apply name_no_cr, word_names, OK.
  - destruct OK as (_ & A & B). intros I. apply in_app_or in I as [I|I]; [apply digits_names in A; exact (name_no_cr _ A I)|]. destruct b as [b|]; [|destruct I]. destruct I as [I|I]; [discriminate|]. destruct B as [_ B]. apply digits_names in B. exact (name_no_cr _ B I).
  - assert (V := symbols_no_cr). rewrite forallb_forall in V. apply V in OK. cbn [snd] in OK. intros I. apply negb_true_iff in OK. assert (X : existsb (Z.eqb 13) (u t) = true) by (apply existsb_exists; exists 13; split; [exact I|reflexivity]). congruence.
  - destruct OK as (t & It & E). assert (Hw := dotted_word (k, t) w It E). intros I. destruct I as [I|I]; [discriminate|]. apply in_app_or in I as [I|[I|[]]]; [|discriminate]. exact (name_no_cr _ (word_names _ Hw) I).
  - destruct OK as (Hq & _). intros [I|I]; [subst q; destruct Hq; discriminate|]. apply in_app_or in I as [I|[I|[]]]; [exact (H I)|subst q; destruct Hq; discriminate].
Qed.
Lemma piece_joined : forall p, in_line p -> piece_ok p -> joined (map prep_token (piece_all p)) = piece_text p.
Proof. intros p H OK. rewrite joined_texts, piece_all_text. apply no_cr_none, piece_no_cr; auto. Qed.
Lemma layouts_text : forall gs, flat_map snd (map layout_token gs) = flat_map layout_text gs.
Proof. induction gs as [|g gs IH]; [reflexivity|]. cbn [map flat_map]. rewrite IH. destruct g as [c | b [r|]]; reflexivity. Qed.
Lemma layout_joined : forall gs, Forall (fun g => match g with Continued _ (Some _) => False | _ => True end) gs -> joined (map prep_token (map layout_token gs)) = flat_map layout_text (plain_layout gs).
Proof.
  intros gs H. rewrite joined_texts, layouts_text. induction H as [|g gs Hg _ IH]; [reflexivity|]. cbn [flat_map plain_layout]. rewrite no_cr_app, IH, flat_map_app. f_equal.
  destruct g as [c | b [r|]]; [|contradiction|].
  - cbn [layout_text no_cr filter]. destruct (Z.eqb_spec c 13); reflexivity.
  - cbn [layout_text flat_map app no_cr filter]. change (negb (59 =? 13)) with true. cbn iota. rewrite app_nil_r. f_equal. exact (no_cr_app b [10]).
Qed.
Lemma bare_joined : forall v, Forall good v -> joined (tk v) = text (bare v) [].
Proof.
  induction 1 as [|[g p] v (A & B & C) _ IH]; [reflexivity|]. cbn [fst snd] in *. rewrite tk_cons, !joined_app, layout_joined, piece_joined, IH by auto. unfold bare. cbn [map fst snd]. rewrite text_cons. reflexivity.
Qed.

(** ** What is put in *)
Definition hoist (m : memory) (l : list token) : list token :=
  flat_map (fun t => match get m (M_Prep.lower (t_text t)), t_type t with None, TComment => [Tok TComment (u "*" ++ skipn 2 (t_text t) ++ [10])] | _, _ => [] end) l.
Definition repl (m : memory) (l : list token) : list token :=
  flat_map (fun t => match get m (M_Prep.lower (t_text t)), t_type t with Some v, _ => v | None, TComment => [] | None, _ => [t] end) l.
Lemma replace_eq : forall m l, replace_define_tokens m l = hoist m l ++ repl m l.
Proof.
  intros m l. unfold replace_define_tokens. assert (G : forall h r, replace_loop m l h r = (h ++ hoist m l) ++ r ++ repl m l).
  { induction l as [|t l IH]; intros h r; cbn [replace_loop hoist repl flat_map]; [rewrite !app_nil_r; reflexivity|].
    destruct (get m (M_Prep.lower (t_text t))); [|destruct (t_type t)]; rewrite IH; fold (hoist m l) (repl m l); cbn [app]; rewrite <- ?app_assoc; reflexivity. }
  rewrite G. reflexivity.
Qed.
Lemma hoist_app : forall m a b, hoist m (a ++ b) = hoist m a ++ hoist m b.
Proof. intros. apply flat_map_app. Qed.
Lemma repl_app : forall m a b, repl m (a ++ b) = repl m a ++ repl m b.
Proof. intros. apply flat_map_app. Qed.
Definition kept (m : memory) (t : token) : Prop := get m (M_Prep.lower (t_text t)) = None /\ t_type t <> TComment.
Lemma kept_all : forall m l, Forall (kept m) l -> hoist m l = [] /\ repl m l = l.
Proof.
  induction 1 as [|t l [A B] _ [IH1 IH2]]; [split; reflexivity|]. unfold hoist, repl in *. cbn [flat_map]. rewrite IH1, IH2, A. destruct (t_type t); try contradiction; split; reflexivity.
Qed.
Lemma down_letter : forall c, letter (down c) = letter c.
Proof. intros c. unfold letter, down. destruct (Z.leb_spec 65 c), (Z.leb_spec c 90); cbn [andb]; repeat match goal with |- context [?a <=? ?b] => destruct (Z.leb_spec a b) end; repeat match goal with |- context [?a =? ?b] => destruct (Z.eqb_spec a b) end; cbn; try lia; reflexivity. Qed.
Lemma not_word : forall d m t, agree d m -> match t with c :: _ => letter c = false | [] => True end -> get m (M_Prep.lower t) = None.
Proof.
  intros d m t [A B] H. rewrite A, lower_small. destruct (d (small t)) as [v|] eqn:E; [|reflexivity]. apply B in E as [E _]. destruct t as [|c t]; [discriminate|]. cbn [small map S_Lexer.word] in E. rewrite down_letter, H in E. discriminate.
Qed.
Lemma layouts_kept : forall d m gs, agree d m -> Forall layout_ok gs -> Forall (fun g => match g with Continued _ (Some _) => False | _ => True end) gs -> Forall (kept m) (map prep_token (map layout_token gs)).
Proof.
  intros d m gs A H1 H2. induction H1 as [|g gs Hg _ IH]; [constructor|]. inversion H2; subst. cbn [map]. constructor; [|auto]. destruct g as [c | b [r|]]; [|contradiction|].
  - split; [|discriminate]. cbn [prep_token t_text snd layout_token]. apply (not_word d); auto. cbn [layout_ok] in Hg. unfold blank in Hg. unfold letter. destruct (Z.eqb_spec c 32) as [->|]; [reflexivity|]. destruct (Z.eqb_spec c 9) as [->|]; [reflexivity|].
    destruct (Z.eqb_spec c 13) as [->|]; [reflexivity|discriminate].
  - split; [|discriminate]. cbn [prep_token t_text snd layout_token layout_text]. apply (not_word d); auto.
Qed.
Lemma inner_not_comment : forall s k t, ~ In 38 s -> In (k, t) (tokens s) -> k <> "COMMENT"%string /\ forall c, In c t -> In c s.
Proof.
  intros s k t N I. assert (Sub : forall c, In c t -> In c s). { intros c Hc. rewrite <- (tokens_text s). apply in_flat_map. exists (k, t). auto. } split; [|exact Sub].
  intros ->. destruct (token_kinds _ _ _ I) as (x & Ix & L).
  assert (V : forallb (fun p => negb (String.eqb (fst p) "COMMENT") || if rx_eq_dec (snd p) R_COMMENT then true else false) rules = true) by (vm_compute; reflexivity).
  rewrite forallb_forall in V. apply V in Ix. cbn [fst snd negb orb String.eqb Ascii.eqb Bool.eqb] in Ix. destruct (rx_eq_dec x R_COMMENT) as [->|]; [|discriminate]. apply N, Sub. revert L. clear. intros Lx.
  unfold R_COMMENT in Lx. inversion Lx as [| | |? ? ? L1|? ? ? L1| |]; subst.
  - inversion L1 as [| |? ? s1 t1 L2 L3 E1| | | |]; subst. apply (lit_lang [38; 38]) in L2. subst. left; reflexivity.
  - inversion L1 as [| |? ? s1 t1 L2 L3 E1| | | |]; subst. inversion L3 as [| |? ? s2 t2 L4 L5 E2| | | |]; subst. inversion L5 as [| |? ? s3 t3 L6 L7 E3| | | |]; subst. apply (lit_lang [38; 38]) in L6. subst.
    apply in_or_app. right. apply in_or_app. right. left; reflexivity.
Qed.
Lemma type_of : forall k t, k <> "COMMENT"%string -> t_type (prep_token (k, t)) <> TComment.
Proof. intros k t H. cbn [prep_token t_type]. unfold is. cbn [fst]. destruct (String.eqb k "WS"); [discriminate|]. destruct (String.eqb_spec k "COMMENT"); [contradiction|discriminate]. Qed.
Lemma inner_kept : forall d m s, agree d m -> ~ In 38 s -> untouched d s -> Forall (kept m) (map prep_token (tokens s)).
Proof.
  intros d m s [A B] N U. apply Forall_forall. intros x I. apply in_map_iff in I as ([k t] & <- & I). split; [|apply type_of, (inner_not_comment s k t N I)]. cbn [prep_token t_text snd]. rewrite A, lower_small, (U k t I). reflexivity.
Qed.
Lemma word_kind_not_comment : forall w, word_kind w <> "COMMENT"%string.
Proof. intros w E. assert (H := word_not_hidden w). rewrite E in H. discriminate. Qed.
Lemma symbols_heads : forallb (fun p => negb (String.eqb (fst p) "COMMENT") && match u (snd p) with c :: _ => negb (letter c) | [] => true end) symbols = true.
Proof. vm_compute. reflexivity. Qed.
Definition constant_of (d : constants) (p : piece) : option source := match p with Word w => d (small w) | _ => None end.
Lemma piece_kept : forall d m p, agree d m -> in_line p -> usable d p -> piece_ok p -> constant_of d p = None -> Forall (kept m) (map prep_token (piece_all p)).
Proof.
  intros d m [w | a b | k t | k w | q s | r | s] A H U OK C; cbn [in_line usable piece_ok piece_all piece_kind piece_text constant_of map] in *; try contradiction.
  - constructor; [|constructor]. split; [|apply type_of, word_kind_not_comment]. cbn [prep_token t_text snd]. rewrite (proj1 A), lower_small, C. reflexivity.
  - constructor; [|constructor]. split; [|discriminate]. cbn [prep_token t_text snd]. apply (not_word d); auto. destruct OK as (Ne & Da & _). destruct a as [|c a]; [contradiction|]. cbn [app]. cbn [forallb] in Da. apply andb_prop in Da as [Da _].
    unfold digit in Da. unfold letter. repeat match goal with |- context [?a <=? ?b] => destruct (Z.leb_spec a b) end; repeat match goal with |- context [?a =? ?b] => destruct (Z.eqb_spec a b) end; cbn; try lia; reflexivity.
  - assert (V := symbols_heads). rewrite forallb_forall in V. apply V in OK. cbn [fst snd] in OK. apply andb_prop in OK as [O1 O2]. constructor; [|constructor]. split.
    + cbn [prep_token t_text snd]. apply (not_word d); auto. destruct (u t) as [|c z]; [exact I|]. apply negb_true_iff. exact O2.
    + apply type_of. intros ->. discriminate.
  - constructor; [|constructor]. split; [cbn [prep_token t_text snd]; apply (not_word d); auto|]. apply type_of. intros ->. destruct OK as (t & I & _). cbn in I. intuition discriminate.
  - destruct OK as (Hq & _ & _ & N). assert (K : kept m (prep_token (quote_kind q, [q]))). { split; [cbn [prep_token t_text snd]; apply (not_word d); auto; destruct Hq as [-> | ->]; reflexivity|]. destruct Hq as [-> | ->]; discriminate. }
    constructor; [exact K|]. rewrite map_app. apply Forall_app. split; [eapply inner_kept; eauto|]. constructor; [exact K|constructor].
Qed.
Lemma word_repl : forall d m w, agree d m -> word w = true ->
  match d (small w) with
  | Some v => hoist m (map prep_token (piece_all (Word w))) = [] /\ repl m (map prep_token (piece_all (Word w))) = tk v
  | None => True
  end.
Proof.
  intros d m w [A B] H. destruct (d (small w)) as [v|] eqn:E; [|exact I]. assert (X : get m (M_Prep.lower w) = Some (tk v)) by (rewrite A, lower_small, E; reflexivity). cbn [piece_all map]. unfold hoist, repl. cbn [flat_map prep_token t_text snd piece_text]. rewrite X. cbn [option_map]. rewrite !app_nil_r. split; reflexivity.
Qed.
Lemma layouts_app : forall a b, flat_map layout_text (a ++ b) = flat_map layout_text a ++ flat_map layout_text b.
Proof. intros. apply flat_map_app. Qed.
Lemma text_app : forall a b, text (a ++ b) [] = text a [] ++ text b [].
Proof. intros. unfold text. cbn [flat_map]. rewrite !app_nil_r. apply flat_map_app. Qed.
Definition fine (p : list layout * piece) : Prop := good p /\ Forall layout_ok (fst p).
(** A line, with its new line at the end *)
Lemma line_put : forall d m l g, agree d m -> Forall (fun p => fine p /\ usable d (snd p)) l -> Forall layout_ok g -> Forall (fun g => match g with Continued _ (Some _) => False | _ => True end) g ->
  hoist m (tk l ++ map prep_token (map layout_token g)) = [] /\
  forall pending, flat_map layout_text pending ++ joined (repl m (tk l ++ map prep_token (map layout_token g))) ++ [10] = text (put_in d pending (l ++ [(g, NewLine None)])) [].
Proof.
  intros d m l g A H G1 G2. destruct (kept_all _ _ (layouts_kept d m g A G1 G2)) as [Hg Rg]. induction H as [|[g0 p] l (((F1 & F2 & F3) & F4) & U) _ [IH1 IH2]].
  - cbn [tk toks flat_map map app]. split; [exact Hg|]. intros pending. rewrite Rg, layout_joined by auto. cbn [put_in]. rewrite text_cons, layouts_app, <- app_assoc. unfold text. cbn [flat_map app piece_text]. reflexivity.
  - cbn [fst snd] in *. rewrite tk_cons, <- !app_assoc, !hoist_app. destruct (kept_all _ _ (layouts_kept d m g0 A F4 F3)) as [H0 R0].
    cbn [app put_in]. change (match p with Word w => d (small w) | _ => None end) with (constant_of d p). destruct (constant_of d p) as [v|] eqn:C.
    + destruct p as [w| | | | | |]; try discriminate. cbn [constant_of] in C. assert (W := word_repl d m w A F2). rewrite C in W. destruct W as [Hw Rw].
      rewrite <- hoist_app, H0, Hw, IH1. split; [reflexivity|]. intros pending. rewrite !repl_app, R0, Rw, <- repl_app, !joined_app, layout_joined by auto. destruct A as [A B]. destruct (B _ _ C) as [_ Gv].
      destruct v as [|[g1 q] v].
      * cbn [tk toks flat_map map joined app]. rewrite <- IH2, layouts_app, <- !app_assoc. reflexivity.
      * rewrite (bare_joined _ Gv). unfold bare at 1. cbn [map fst snd]. rewrite !text_cons, !layouts_app, <- !app_assoc. do 4 f_equal. fold (bare v). rewrite text_app, <- (IH2 []). reflexivity.
    + destruct (kept_all _ _ (piece_kept d m p A F1 U F2 C)) as [Hp Rp]. rewrite <- hoist_app, H0, Hp, IH1. split; [reflexivity|]. intros pending.
      rewrite !repl_app, R0, Rp, <- repl_app, !joined_app, layout_joined, piece_joined by auto. rewrite text_cons, layouts_app, <- (IH2 []), <- !app_assoc. reflexivity.
Qed.
