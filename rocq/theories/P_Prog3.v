(** Proofs about reading programs: whole texts, functions and files *)
From Verif Require Import PyBase PyStr M_Lexer S_Py M_Lit M_Conv M_Stmt M_Program M_Show M_Core S_Lexer P_Lexer P_Lexer2 P_Lexer3 P_Lexer4 M_Parse S_Expr P_Parse P_Parse2 P_Parse3 M_ParseProg S_Prog P_Prog1 P_Prog2.
From Coq Require Import Lia.
Open Scope Z_scope.

Definition regroup_proc (f : proc) : proc := {| p_name := p_name f; p_params := p_params f; p_declared := p_declared f; p_body := regroups (p_body f) |}.
Lemma pieces_ok : forall src last, laid_out src last -> Forall piece_ok (map snd src).
Proof. intros src last (H & _). apply Forall_map. eapply Forall_impl; [|exact H]. cbn. tauto. Qed.
Lemma whole_read : forall fns ps l ts rest, says_lines fns ps l -> Forall piece_ok ps -> streams ps ts -> block_end rest = true -> whole_lines fns (ts ++ rest) = Some (regroups l, rest).
Proof. intros fns ps l ts rest H OK R B. unfold whole_lines. apply (proj1 (proj2 (reads fns)) ps l H OK ts R); auto. rewrite app_length. lia. Qed.
Theorem text_read_lines : forall src last l, laid_out src last -> says_lines (listed []) (map snd src) l -> read_lines (text src last) = Some (regroups l).
Proof.
  intros src last l H Hs. unfold read_lines. change (fun _ : pystr => false) with (listed []). assert (R := text_streams src last H). rewrite <- (app_nil_r (stream [] (tokens (text src last)))).
  rewrite (whole_read (listed []) (map snd src) l); auto. apply (pieces_ok _ _ H).
Qed.
Lemma names_read : forall ps l, says_names ps l -> forall ts rest, streams ps ts -> rest <> [] -> next_is "COMMA" rest = false -> next_is "AS" rest = false -> p_names (ts ++ rest) = Some (l, rest) /\ next_is "EQUALS" (ts ++ rest) = false /\ next_is "RIGHTPAREN" (ts ++ rest) = false.
Proof.
  intros ps l H. induction H as [w N | w ps l N H IH | w a y N Ha Ny | w a y ps l N Ha Ny H IH]; intros ts rest R NE C CA.
  - apply streams_word in R as (t & ts' & -> & K & X & R). apply streams_nil in R. subst. destruct (named_ident _ t N K) as (A & _ & B & _ & D). cbn [app p_names next_is]. rewrite A, B, D. split; [|auto].
    rewrite word_small by apply N. destruct rest as [|c rest]; [reflexivity|]. cbn [next_is] in C, CA. rewrite C, CA. reflexivity.
  - apply streams_word in R as (t & ts' & -> & K & X & R). apply streams_sym in R as (c & ts2 & -> & Kc & R). change (piece_kind (sym ",")) with "COMMA"%string in Kc. destruct (named_ident _ t N K) as (A & _ & B & _ & D).
    cbn [app p_names next_is]. rewrite A, B, D. split; [|auto]. kinds Kc. destruct (IH ts2 rest R NE C CA) as (-> & _). cbn [bind]. rewrite X, word_small by apply N. reflexivity.
  - apply streams_word in R as (t & ts' & -> & K & X & R). apply streams_word in R as (t1 & ts1 & -> & K1 & _ & R). apply streams_word in R as (t2 & ts2 & -> & K2 & _ & R). apply streams_nil in R. subst. unfold key in Ha. rewrite Ha in K1.
    destruct (named_ident _ t N K) as (A & _ & B & _ & D). destruct (named_ident _ t2 Ny K2) as (A2 & _). cbn [app p_names next_is]. rewrite A, B, D. split; [|auto]. kinds K1. rewrite word_small by apply N.
    destruct rest as [|c rest]; [contradiction|]. rewrite A2. cbn [next_is] in C. rewrite C. reflexivity.
  - apply streams_word in R as (t & ts' & -> & K & X & R). apply streams_word in R as (t1 & ts1 & -> & K1 & _ & R). apply streams_word in R as (t2 & ts2 & -> & K2 & _ & R). unfold key in Ha. rewrite Ha in K1.
    apply streams_sym in R as (c & ts3 & -> & Kc & R). change (piece_kind (sym ",")) with "COMMA"%string in Kc. destruct (named_ident _ t N K) as (A & _ & B & _ & D). destruct (named_ident _ t2 Ny K2) as (A2 & _).
    cbn [app p_names next_is]. rewrite A, B, D. split; [|auto]. kinds K1. rewrite A2. kinds Kc. destruct (IH ts3 rest R NE C CA) as (-> & _). cbn [bind]. rewrite X, word_small by apply N. reflexivity.
Qed.
Lemma not_comma : forall k t r, kind t = k -> String.eqb k "COMMA" = false -> next_is "COMMA" (t :: r) = false.
Proof. intros k t r K E. apply (next_other k); auto. Qed.
(* what a line of names after a keyword gives *)
Lemma declaration_read : forall k (f : pystr -> bool) w ps l r ts rest, word_kind w = k -> word w = true -> f (small (upper w)) = true -> says_names ps l -> not_array ps -> streams (Word w :: ps ++ [NewLine r]) ts ->
  p_declaration k f (ts ++ rest) = Some (l, rest).
Proof.
  intros k f w ps l r ts rest K W F H NA R. apply streams_word in R as (t & ts' & -> & Kt & X & R). apply streams_app in R as (tn & ts2 & -> & Rn & R). apply streams_newline in R as (nl & ts3 & -> & Kn & _ & R). apply streams_nil in R. subst ts3.
  rewrite K in Kt. cbn [app p_declaration]. rewrite <- app_assoc. cbn [app]. destruct (names_read ps l H tn (nl :: rest) Rn) as (P & Q & _); [discriminate|apply (next_other "NL"); auto..|]. rewrite Q. cbn [negb]. rewrite Bool.andb_true_r.
  unfold is_kind at 1. rewrite Kt, String.eqb_refl. rewrite (key_text w t W X), F. cbn [andb].
  assert (E : match tn ++ nl :: rest with x :: _ => one_of x ["ARRAY"; "DIMENSION"; "DECLARE"]%string | [] => true end = false).
  { destruct H as [w' N | w' ps l N H | w' a0 y0 N Ha0 Ny0 | w' a0 y0 ps l N Ha0 Ny0 H]; apply streams_word in Rn as (t' & ts' & -> & Kt' & _ & _); cbn [app not_array] in *; unfold one_of, is_kind; cbn [existsb]; rewrite Kt'; cbn [In] in NA;
      repeat match goal with |- context [String.eqb (word_kind w') ?s] => destruct (String.eqb_spec (word_kind w') s); [exfalso; apply NA; auto|] end; reflexivity. }
  rewrite E. cbn [negb]. rewrite P. cbn [bind]. rewrite (line_end_here nl) by auto. reflexivity.
Qed.
(* a line that is no declaration *)
Definition undeclared (ts : list ptok) : Prop := match ts with t :: r => one_of t ["PARAMETER"; "SCOPE"]%string && negb (next_is "EQUALS" r) = false | [] => True end.
Lemma undeclared_read : forall k f ts, In k ["PARAMETER"; "SCOPE"]%string -> undeclared ts -> p_declaration k f ts = Some ([], ts).
Proof.
  intros k f [|t r] I U; [reflexivity|]. cbn [p_declaration undeclared] in *. destruct (is_kind t k) eqn:E; [|reflexivity]. destruct (negb (next_is "EQUALS" r)); [|reflexivity].
  unfold one_of in U. cbn [existsb] in U. cbn [In] in I. destruct I as [<- | [<- | []]]; rewrite E in U; cbn in U; rewrite ?Bool.orb_true_r in U; discriminate.
Qed.
Lemma kind_undeclared : forall t r, ~ In (kind t) ["PARAMETER"; "SCOPE"]%string -> undeclared (t :: r).
Proof.
  intros t r N. cbn [undeclared]. assert (E : one_of t ["PARAMETER"; "SCOPE"]%string = false); [|rewrite E; reflexivity]. unfold one_of, is_kind. cbn [existsb In] in *.
  destruct (String.eqb_spec (kind t) "PARAMETER"); [exfalso; apply N; auto|]. destruct (String.eqb_spec (kind t) "SCOPE"); [exfalso; apply N; auto|]. reflexivity.
Qed.
Lemma line_undeclared : forall fns ps s, says_line fns ps s -> forall ts rest, streams ps ts -> undeclared (ts ++ rest).
Proof.
  assert (W : forall w k ps ts rest, word_kind w = k -> ~ In k ["PARAMETER"; "SCOPE"]%string -> streams (Word w :: ps) ts -> undeclared (ts ++ rest)).
  { intros w k ps ts rest K N R. apply streams_word in R as (t & ts' & -> & Kt & _). cbn [app]. apply kind_undeclared. rewrite Kt, K. exact N. }
  assert (D : forall x ps ts rest, streams (Word x :: sym "=" :: ps) ts -> undeclared (ts ++ rest)).
  { intros x ps ts rest R. apply streams_word in R as (t & ts' & -> & _ & _ & R). apply streams_sym in R as (e & ts2 & -> & K & _). cbn [app undeclared]. rewrite (next_here "EQUALS" e) by exact K. apply Bool.andb_false_r. }
  intros fns ps s H ts rest R. destruct H as [r | s | x v t r _ _ _ | x v f l r _ _ _ | v f l r _ _ | w ps l r _ Kw _ _ | d w r Kd _ _ _ | d w k ps l r Kd _ _ _ _ _ _ _ | i c t th r a la b lb e r' Ki _ _ _ _ _ | d k r c t la lm o lo e r' Kd _ _ _ _ | d w c t r a la e r' Hd Kw _ _ _ | k x from tf m to tt st tst r a la e r' Kk _ _ _ _ _ _ _ | w r E | w r E | w v t r Kw _ _ | w v f l r Kw _ _ | w r Kw].
  - apply streams_newline in R as (t & ts' & -> & K & _). cbn [app]. apply kind_undeclared. rewrite K. cbn. intuition discriminate.
  - inversion R as [|p' ps' h ts' R']; subst. cbn [piece_stream app]. apply kind_undeclared. cbn. intuition discriminate.
  - eapply D; eassumption.
  - eapply D; eassumption.
  - apply streams_sym in R as (t & ts' & -> & K & _). cbn [app]. apply kind_undeclared. rewrite K. cbn. intuition discriminate.
  - eapply W; [exact Kw | | exact R]. cbn. intuition discriminate.
  - eapply W; [exact Kd | | exact R]. cbn. intuition discriminate.
  - eapply W; [exact Kd | | exact R]. cbn. intuition discriminate.
  - eapply W; [exact Ki | | exact R]. cbn. intuition discriminate.
  - eapply W; [exact Kd | | exact R]. cbn. intuition discriminate.
  - destruct Hd as [| wd Kd]; cbn [app] in R; [eapply W; [exact Kw | | exact R] | eapply W; [exact Kd | | exact R]]; cbn; intuition discriminate.
  - eapply W; [exact Kk | | exact R]. cbn. intuition discriminate.
  - eapply W; [apply (kind_upper w _ _ E eq_refl) | | exact R]. cbn. intuition discriminate.
  - eapply W; [apply (kind_upper w _ _ E eq_refl) | | exact R]. cbn. intuition discriminate.
  - eapply W; [exact Kw | | exact R]. cbn. intuition discriminate.
  - eapply W; [exact Kw | | exact R]. cbn. intuition discriminate.
  - eapply W; [exact Kw | | exact R]. cbn. intuition discriminate.
Qed.
Lemma lines_undeclared : forall fns ps l ts rest, says_lines fns ps l -> streams ps ts -> undeclared rest -> undeclared (ts ++ rest).
Proof.
  intros fns ps l ts rest H R U. destruct H as [|p s ps l Hp Hl]; [apply streams_nil in R; subst; exact U|]. apply streams_app in R as (ta & tb & -> & Ra & _). rewrite <- app_assoc. apply (line_undeclared fns p s); auto.
Qed.

(** ** Functions *)
Lemma no_type : forall n rest, kind n = "NL"%string -> p_type (n :: rest) = Some (n :: rest).
Proof. intros n rest K. unfold p_type. rewrite (next_other "NL" _ n) by auto. reflexivity. Qed.
Lemma a_type : forall a y t1 t2 rest, key a "AS" -> named y -> kind t1 = word_kind a -> kind t2 = word_kind y -> p_type (t1 :: t2 :: rest) = Some rest.
Proof. intros a y t1 t2 rest Ka Ny K1 K2. unfold key in Ka. rewrite Ka in K1. unfold p_type. rewrite (next_here "AS" t1) by exact K1. cbn [tl]. destruct (named_ident _ t2 Ny K2) as (-> & _). reflexivity. Qed.
Lemma given_read : forall ps l tn p n rest, says_names ps l -> streams ps tn -> kind p = "LEFTPAREN"%string -> kind n = "RIGHTPAREN"%string -> p_given (p :: tn ++ n :: rest) = Some (l, rest).
Proof.
  intros ps l tn p n rest H R Kp Kn. unfold p_given. rewrite (next_here "LEFTPAREN" p) by exact Kp. cbn [tl]. destruct (names_read ps l H tn (n :: rest) R) as (P & _ & Q); [discriminate|apply (next_other "RIGHTPAREN"); auto..|]. rewrite Q, P. cbn [bind].
  rewrite (keyword_here "RIGHTPAREN" n) by exact Kn. reflexivity.
Qed.
Lemma empty_read : forall p n rest, kind p = "LEFTPAREN"%string -> kind n = "RIGHTPAREN"%string -> p_given (p :: n :: rest) = Some ([], rest).
Proof. intros p n rest Kp Kn. unfold p_given. rewrite (next_here "LEFTPAREN" p) by exact Kp. cbn [tl]. rewrite (next_here "RIGHTPAREN" n) by exact Kn. reflexivity. Qed.
Lemma not_paren : forall n rest, kind n = "NL"%string \/ kind n = "AS"%string -> p_given (n :: rest) = Some ([], n :: rest).
Proof. intros n rest [K | K]; unfold p_given; [rewrite (next_other "NL" _ n) by auto | rewrite (next_other "AS" _ n) by auto]; reflexivity. Qed.
Lemma first_small : forall w, word w = true -> In (hd 0 w) [76; 108] -> first_l (small (upper w)) = true.
Proof. intros [|c w] W I; [cbn in I; intuition discriminate|]. cbn [hd In] in I. destruct I as [<- | [<- | []]]; reflexivity. Qed.
Lemma local_small : forall w, upper w = u "LOCAL" -> pystr_eqb (small (upper w)) (u "local") = true.
Proof. intros w E. rewrite E. reflexivity. Qed.
Definition parameters_read (ts rest : list ptok) (l : list pystr) : Prop :=
  bind (p_header (ts ++ rest)) (fun '(given, r) => bind (keyword "NL" r) (fun r => match given with [] => p_declaration "PARAMETER" first_l r | _ => if next_is "PARAMETER" r && negb (next_is "EQUALS" (tl r)) then None else Some (given, r) end)) = Some (l, rest).
Definition unparameters (ts : list ptok) : Prop := match ts with t :: r => is_kind t "PARAMETER" && negb (next_is "EQUALS" r) = false | [] => True end.
Lemma unparameters_read : forall f ts, unparameters ts -> p_declaration "PARAMETER" f ts = Some ([], ts).
Proof. intros f [|t r] U; [reflexivity|]. cbn [p_declaration unparameters] in *. rewrite U. reflexivity. Qed.
Lemma undeclared_parameters : forall ts, undeclared ts -> unparameters ts.
Proof. intros [|t r] U; [exact I|]. cbn [undeclared unparameters] in *. unfold one_of in U. cbn [existsb] in U. destruct (is_kind t "PARAMETER"); [|reflexivity]. exact U. Qed.
Lemma read_parameters : forall p l, says_parameters p l -> Forall piece_ok p -> forall ts rest, streams p ts -> unparameters rest -> parameters_read ts rest l.
Proof.
  intros p l H OK ts rest R U. unfold parameters_read, p_header.
  assert (G : forall n rest', kind n = "NL"%string -> forall given rest, rest' = rest -> (given = [] -> p_declaration "PARAMETER" first_l rest' = Some (l, rest)) -> (given <> [] -> given = l /\ unparameters rest) ->
    bind (keyword "NL" (n :: rest')) (fun r => match given with [] => p_declaration "PARAMETER" first_l r | _ => if next_is "PARAMETER" r && negb (next_is "EQUALS" (tl r)) then None else Some (given, r) end) = Some (l, rest)).
  { intros n rest' Kn given rest0 -> He Hg. rewrite (keyword_here "NL" n) by exact Kn. cbn [bind]. destruct given as [|x given]; [apply He; reflexivity|]. destruct (Hg ltac:(discriminate)) as [<- U0].
    replace (next_is "PARAMETER" rest0 && negb (next_is "EQUALS" (tl rest0))) with false; [reflexivity|]. destruct rest0; [reflexivity|]. symmetry. exact U0. }
  assert (Un : p_declaration "PARAMETER" first_l rest = Some ([], rest)) by (apply unparameters_read, U).
  destruct H as [r | r | ps l r H | r w ps l r' K I H NA | a y r Ka Ny | a y r Ka Ny | ps l a y r H Ka Ny | a y r w ps l r' Ka Ny K I H NA].
  - apply streams_newline in R as (n & ts' & -> & Kn & _ & R). apply streams_nil in R. subst. cbn [app]. rewrite not_paren by auto. cbn [bind]. rewrite no_type by exact Kn. cbn [bind]. apply (G n rest Kn [] rest eq_refl); [auto|congruence].
  - apply streams_sym in R as (a & ts' & -> & Ka & R). apply streams_sym in R as (b & ts2 & -> & Kb & R). apply streams_newline in R as (n & ts3 & -> & Kn & _ & R). apply streams_nil in R. subst. cbn [app].
    rewrite empty_read by auto. cbn [bind]. rewrite no_type by exact Kn. cbn [bind]. apply (G n rest Kn [] rest eq_refl); [auto|congruence].
  - apply streams_sym in R as (a & ts' & -> & Ka & R). apply streams_app in R as (tn & ts2 & -> & Rn & R). apply streams_sym in R as (b & ts3 & -> & Kb & R). apply streams_newline in R as (n & ts4 & -> & Kn & _ & R). apply streams_nil in R. subst.
    cbn [app]. rewrite <- app_assoc. cbn [app]. rewrite (given_read ps l tn a b) by auto. cbn [bind]. rewrite no_type by exact Kn. cbn [bind]. apply (G n rest Kn l rest eq_refl); [intros ->; inversion H|auto].
  - apply streams_newline in R as (n & ts' & -> & Kn & _ & R). cbn [app]. rewrite not_paren by auto. cbn [bind]. rewrite no_type by exact Kn. cbn [bind]. rewrite (keyword_here "NL" n) by exact Kn. cbn [bind].
    inversion OK as [|? ? _ OK']; subst. inversion OK' as [|? ? W _]; subst. apply (declaration_read "PARAMETER" first_l w ps l r'); auto; apply first_small; auto.
  - apply streams_word in R as (t1 & ts1 & -> & K1 & _ & R). apply streams_word in R as (t2 & ts2 & -> & K2 & _ & R). apply streams_newline in R as (n & ts' & -> & Kn & _ & R). apply streams_nil in R. subst. cbn [app].
    rewrite not_paren by (right; rewrite K1; exact Ka). cbn [bind]. rewrite (a_type a y) by auto. cbn [bind]. apply (G n rest Kn [] rest eq_refl); [auto|congruence].
  - apply streams_sym in R as (p & ts' & -> & Kp & R). apply streams_sym in R as (b & ts2 & -> & Kb & R). apply streams_word in R as (t1 & ts1 & -> & K1 & _ & R). apply streams_word in R as (t2 & ts3 & -> & K2 & _ & R).
    apply streams_newline in R as (n & ts4 & -> & Kn & _ & R). apply streams_nil in R. subst. cbn [app]. rewrite empty_read by auto. cbn [bind]. rewrite (a_type a y) by auto. cbn [bind]. apply (G n rest Kn [] rest eq_refl); [auto|congruence].
  - apply streams_sym in R as (p & ts' & -> & Kp & R). apply streams_app in R as (tn & ts2 & -> & Rn & R). apply streams_sym in R as (b & ts3 & -> & Kb & R). apply streams_word in R as (t1 & ts1 & -> & K1 & _ & R).
    apply streams_word in R as (t2 & ts5 & -> & K2 & _ & R). apply streams_newline in R as (n & ts4 & -> & Kn & _ & R). apply streams_nil in R. subst.
    cbn [app]. rewrite <- app_assoc. cbn [app]. rewrite (given_read ps l tn p b) by auto. cbn [bind]. rewrite (a_type a y) by auto. cbn [bind]. apply (G n rest Kn l rest eq_refl); [intros ->; inversion H|auto].
  - apply streams_word in R as (t1 & ts1 & -> & K1 & _ & R). apply streams_word in R as (t2 & ts2 & -> & K2 & _ & R). apply streams_newline in R as (n & ts' & -> & Kn & _ & R). cbn [app].
    rewrite not_paren by (right; rewrite K1; exact Ka). cbn [bind]. rewrite (a_type a y) by auto. cbn [bind]. rewrite (keyword_here "NL" n) by exact Kn. cbn [bind].
    inversion OK as [|? ? _ OK']; subst. inversion OK' as [|? ? _ OK2]; subst. inversion OK2 as [|? ? _ OK3]; subst. inversion OK3 as [|? ? W _]; subst. apply (declaration_read "PARAMETER" first_l w ps l r'); auto; apply first_small; auto.
Qed.
Lemma declares_stop : forall n ts, undeclared ts -> p_declares n ts = Some ([], ts).
Proof.
  intros n ts U. assert (E : next_is "SCOPE" ts && negb (next_is "EQUALS" (tl ts)) = false); [|destruct n; cbn [p_declares]; rewrite E; reflexivity].
  destruct ts as [|t r]; [reflexivity|]. cbn [undeclared next_is tl] in *. unfold one_of in U. cbn [existsb] in U. destruct (is_kind t "SCOPE"); [|reflexivity]. rewrite orb_true_r in U. exact U.
Qed.
Lemma local_first : forall w ps l r ts, upper w = u "LOCAL" -> word w = true -> says_names ps l -> not_array ps -> streams (Word w :: ps ++ [NewLine r]) ts ->
  forall rest n, (length (ts ++ rest) <= n)%nat -> (exists m, n = S m /\ (length rest <= m)%nat /\ p_declares n (ts ++ rest) = bind (p_declares m rest) (fun '(ls, r) => Some (l :: ls, r))) /\ unparameters (ts ++ rest).
Proof.
  intros w ps l r ts E W H NA R rest n L. pose proof (kind_upper w _ "SCOPE" E eq_refl) as K. pose proof (declaration_read "SCOPE" (fun s => pystr_eqb s (u "local")) w ps l r ts rest K W (local_small w E) H NA R) as P.
  apply streams_word in R as (t & ts' & -> & Kt & _ & R). apply streams_app in R as (tn & ts2 & -> & Rn & R). apply streams_newline in R as (nl & ts3 & -> & Kn & _ & R). apply streams_nil in R. subst ts3.
  assert (Q : next_is "EQUALS" ((tn ++ [nl]) ++ rest) = false) by (rewrite <- app_assoc; cbn [app]; apply (names_read ps l H tn (nl :: rest) Rn); [discriminate|apply (next_other "NL"); auto..]).
  split.
  - destruct n as [|m]; [cbn in L; lia|]. exists m. split; [reflexivity|]. split; [cbn [app length] in L; rewrite !app_length in L; lia|]. cbn [p_declares]. rewrite P. cbn [app next_is tl]. rewrite Q. unfold is_kind. rewrite Kt, K. reflexivity.
  - cbn [app unparameters]. unfold is_kind. rewrite Kt, K. reflexivity.
Qed.
Lemma read_locals : forall v l, says_locals v l -> Forall piece_ok v -> forall ts rest n, streams v ts -> undeclared rest -> (length (ts ++ rest) <= n)%nat -> p_declares n (ts ++ rest) = Some (l, rest) /\ unparameters (ts ++ rest).
Proof.
  intros v l H. induction H as [|w ps l r E H NA|w ps l r vs ls E H NA Hv IH]; intros OK ts rest n R U L.
  - apply streams_nil in R. subst. cbn [app]. split; [apply declares_stop, U|]. apply undeclared_parameters, U.
  - inversion OK as [|? ? W _]; subst. destruct (local_first w ps l r ts E W H NA R rest n L) as [(m & -> & _ & ->) Q]. split; [|exact Q]. rewrite declares_stop by exact U. reflexivity.
  - inversion OK as [|? ? W OK']; subst. apply Forall_app in OK' as [_ OK']. inversion OK' as [|? ? _ OK2]; subst. replace (Word w :: ps ++ NewLine r :: vs) with ((Word w :: ps ++ [NewLine r]) ++ vs) in R by (cbn [app]; rewrite <- app_assoc; reflexivity).
    apply streams_app in R as (ta & tb & -> & Ra & Rb). rewrite <- app_assoc in L |- *. destruct (local_first w ps l r ta E W H NA Ra (tb ++ rest) n L) as [(m & -> & Lm & ->) Q]. split; [|exact Q]. destruct (IH OK2 tb rest m Rb U Lm) as [-> _]. reflexivity.
Qed.
(* what follows the body of a function *)
Definition file_rest (ts : list ptok) : Prop := match ts with [] => True | t :: r => kind t = "PROCEDURE"%string /\ next_is "EQUALS" r = false end.
Lemma file_rest_streams : forall fns ps l ts, says_file fns ps l -> streams ps ts -> file_rest ts.
Proof.
  intros fns ps l ts H R. destruct H as [| w x p params v locals b body e ps l K N]; [apply streams_nil in R; subst; exact I|].
  apply streams_word in R as (t & ts' & -> & Kt & _ & R). apply streams_word in R as (y & ts2 & -> & Ky & _ & R). split; [rewrite Kt; exact K|]. destruct (named_ident _ y N Ky) as (_ & _ & B & _). exact B.
Qed.
Lemma read_end : forall e, says_end e -> forall ts rest, streams e ts -> file_rest rest ->
  block_end (ts ++ rest) = true /\ undeclared (ts ++ rest) /\ forall f : proc, (if next_is "ENDPROC" (ts ++ rest) then bind (line_end (tl (ts ++ rest))) (fun r => Some (f, r)) else Some (f, ts ++ rest)) = Some (f, rest).
Proof.
  intros e H ts rest R F. destruct H as [|w r K].
  - apply streams_nil in R. subst. cbn [app]. destruct rest as [|t r]; [repeat split; reflexivity|]. destruct F as [K Q]. split; [|split].
    + cbn [block_end]. unfold one_of, is_kind. rewrite K, Q. reflexivity.
    + apply kind_undeclared. rewrite K. cbn. intuition discriminate.
    + intros f. rewrite (next_other "PROCEDURE" _ t) by auto. reflexivity.
  - apply streams_word in R as (t & ts' & -> & Kt & _ & R). apply streams_newline in R as (n & ts2 & -> & Kn & _ & R). apply streams_nil in R. subst. rewrite K in Kt. cbn [app]. split; [|split].
    + cbn [block_end]. rewrite (next_other "NL" _ n) by auto. unfold one_of, is_kind. rewrite Kt. reflexivity.
    + apply kind_undeclared. rewrite Kt. cbn. intuition discriminate.
    + intros f. rewrite (next_here "ENDPROC" t) by exact Kt. cbn [tl]. rewrite (line_end_here n) by exact Kn. reflexivity.
Qed.
Lemma file_read : forall fns ps l, says_file fns ps l -> Forall piece_ok ps -> forall ts n, streams ps ts -> (length ts <= n)%nat -> p_funcs fns n ts = Some (map regroup_proc l).
Proof.
  intros fns ps l H. induction H as [| w x p params v locals b body e ps l K N HP HV HB HE HF IH]; intros OK ts n R L; [apply streams_nil in R; subst; destruct n; reflexivity|].
  inversion OK as [|? ? _ OK1]; subst. inversion OK1 as [|? ? _ OK2]; subst. apply Forall_app in OK2 as [OKp OK2]. apply Forall_app in OK2 as [OKv OK2]. apply Forall_app in OK2 as [OKb OK2]. apply Forall_app in OK2 as [OKe OKs].
  apply streams_word in R as (t & ts1 & -> & Kt & _ & R). apply streams_word in R as (y & ts2 & -> & Ky & X & R). rewrite K in Kt.
  apply streams_app in R as (tp & ts3 & -> & Rp & R). apply streams_app in R as (tv & ts4 & -> & Rv & R). apply streams_app in R as (tb & ts5 & -> & Rb & R). apply streams_app in R as (te & tf & -> & Re & Rf).
  destruct n as [|n]; [cbn in L; lia|]. cbn [p_funcs]. unfold p_func. destruct (named_ident _ y N Ky) as (A & _ & _ & _). unfold is_kind at 1. rewrite Kt, A. cbn [String.eqb Ascii.eqb Bool.eqb andb].
  pose proof (file_rest_streams _ _ _ _ HF Rf) as FR. destruct (read_end e HE te tf Re FR) as (B & U & E). pose proof (lines_undeclared fns b body tb (te ++ tf) HB Rb U) as UB. destruct (read_locals v locals HV OKv tv _ _ Rv UB (le_n _)) as [PL PU].
  pose proof (read_parameters p params HP OKp tp _ Rp PU) as PP. unfold parameters_read in PP. destruct (p_header (tp ++ tv ++ tb ++ te ++ tf)) as [[given r]|]; [|discriminate PP]. cbn [bind] in PP |- *.
  destruct (keyword "NL" r) as [r1|]; [|discriminate PP]. cbn [bind] in PP |- *. rewrite PP. cbn [bind]. rewrite PL. cbn [bind]. rewrite (whole_read fns b body tb (te ++ tf) HB OKb Rb B). cbn [bind]. rewrite E. cbn [bind].
  rewrite IH; auto; [|cbn [length] in L; rewrite !app_length in L; lia]. cbn [bind map]. unfold regroup_proc at 1. cbn [p_name p_params p_declared p_body]. rewrite X, word_small by apply N. reflexivity.
Qed.
(** The names of the functions only tell calls from other expressions. *)
Definition any_name : pystr -> bool := fun _ => true.
Lemma says_plain : forall fns,
  (forall ps s, says_line fns ps s -> exists s', says_line any_name ps s') /\ (forall ps l, says_lines fns ps l -> exists l', says_lines any_name ps l') /\
  (forall k ps o, says_other fns k ps o -> exists o', says_other any_name k ps o' /\ (o' = KNone -> o = KNone)) /\ (forall ps l, says_cases fns ps l -> exists l', says_cases any_name ps l' /\ (l' = KNo -> l = KNo)).
Proof.
  intros fns. assert (O : forall t, own_call fns t = true -> own_call any_name t = true) by (intros [] H; try discriminate; cbn [own_call] in *; apply andb_prop in H as [_ H]; exact H). apply says_prog_ind.
  all: intros; repeat match goal with H : exists _, _ /\ _ |- _ => destruct H as (? & ? & ?) | H : exists _, _ |- _ => destruct H as (? & ?) end.
  - eexists; constructor.
  - eexists; constructor.
  - destruct (own_call any_name t) eqn:E; [destruct t; try discriminate; eexists; eapply L_call; eauto|eexists; eapply L_let; eauto].
  - eexists; eapply L_call; eauto.
  - eexists; eapply L_equals; eauto.
  - eexists; eapply L_alone; eauto.
  - eexists; eapply L_do; eauto.
  - eexists; eapply L_do_with; eauto.
  - eexists; eapply L_if; eauto.
  - match goal with H : says_cases any_name c ?l, I : ?l = KNo -> _ |- _ => destruct l; [discriminate (I eq_refl)|] end. eexists; eapply L_case; eauto.
  - eexists; eapply L_while; eauto.
  - eexists; eapply L_for; eauto.
  - eexists; eapply L_exit; eauto.
  - eexists; eapply L_loop; eauto.
  - destruct (own_call any_name t) eqn:E; [destruct t; try discriminate; eexists; eapply L_answer; eauto|eexists; eapply L_return; eauto].
  - eexists; eapply L_answer; eauto.
  - eexists; eapply L_leave; eauto.
  - eexists; constructor.
  - eexists; eapply L_cons; eauto.
  - eexists; split; [constructor|auto].
  - eexists; split; [eapply O_some; eauto|discriminate].
  - eexists; split; [constructor|auto].
  - eexists; split; [eapply C_or; eauto|discriminate].
Qed.
Lemma file_plain : forall fns ps l, says_file fns ps l -> exists l', says_file any_name ps l' /\ map p_name l' = map p_name l.
Proof.
  intros fns ps l H. induction H as [| w x p params v locals b body e ps l K N HP HV HB HE HF (l' & I & E)]; [exists []; split; [constructor|reflexivity]|].
  destruct (proj1 (proj2 (says_plain fns)) b body HB) as (body' & B). eexists. split; [eapply X_cons; eauto|]. cbn [map p_name]. rewrite E. reflexivity.
Qed.
Lemma names_regrouped : forall l, map p_name (map regroup_proc l) = map p_name l.
Proof. intros l. rewrite map_map. apply map_ext. reflexivity. Qed.
Theorem text_read_file : forall src last l, laid_out src last -> says_file (listed (map p_name l)) (map snd src) l -> read_file (text src last) = Some (map regroup_proc l).
Proof.
  intros src last l H Hs. unfold read_file, parse_file. assert (R := text_streams src last H). pose proof (pieces_ok _ _ H) as OK. destruct (file_plain _ _ _ Hs) as (l' & Hp & E).
  change (fun _ : pystr => true) with any_name. rewrite (file_read any_name (map snd src) l' Hp OK _ _ R) by lia. cbn [bind]. rewrite names_regrouped, E. apply (file_read (listed (map p_name l)) (map snd src) l Hs OK _ _ R). lia.
Qed.
