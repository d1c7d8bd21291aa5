(** Proofs about preprocessing: the whole text *)
From Verif Require Import PyBase PyStr M_Lexer S_Lexer P_Lexer P_Lexer2 P_Lexer3 P_Lexer4 M_Prep T_Prep M_Lit M_Conv M_Stmt M_Program M_Show M_Core M_Parse M_ParseProg S_Expr.
From Verif Require Import S_Lexer P_Parse S_Prog P_Prog1 M_Prg S_Prg P_Prg1 P_Prg2 P_Prg3.
From Coq Require Import Lia.
Open Scope Z_scope.

Definition unbroken (g : layout) : Prop := match g with Continued _ (Some _) => False | _ => True end.
Definition part (p : list layout * piece) : Prop := Forall layout_ok (fst p) /\ piece_ok (snd p) /\ Forall unbroken (fst p).
Scheme expands_ind2 := Minimality for expands Sort Prop with else_ind2 := Minimality for else_part Sort Prop.
Combined Scheme expands_both from expands_ind2, else_ind2.
Definition stop (rest : list pair) : Prop := skip rest = [] \/ exists k r, directive rest = Some (k, r) /\ (k = "ELSE"%string \/ k = "ENDIF"%string).
Ltac len := unfold M_Prg.pair in *; rewrite ?app_length in *; cbn [length] in *; rewrite ?app_length in *; lia.
Section prog.
Variable ev : pystr -> res bool.
Definition turns (d : constants) (src out : source) (d' : constants) : Prop := Forall part src -> exists ls,
  (forall f rest, stop rest -> (length (toks src ++ rest) < f)%nat -> p_plines f (toks src ++ rest) = Some (ls, rest)) /\
  (forall m, agree d m -> exists o m', preps ev m ls = Ok (o, m') /\ agree d' m' /\ joined o = text out []).
Definition turns_else (d : constants) (b ob : source) (db : constants) : Prop :=
  (b = [] /\ ob = [] /\ db = d) \/ exists g0 g1 w g r b', b = (g0, sym "#") :: (g1, Word w) :: (g, NewLine r) :: b' /\ key w "ELSE" /\ turns d b' ob db.
Lemma skip_directive : forall ts k r, directive ts = Some (k, r) -> exists t z, skip ts = t :: z.
Proof. intros ts k r E. unfold directive in E. destruct (skip ts) as [|t z]; [discriminate|]. eauto. Qed.
Lemma plines_stop : forall f rest, stop rest -> (length rest < f)%nat -> p_plines f rest = Some (PNil, rest).
Proof.
  intros [|f] rest H L; [lia|]. cbn [p_plines]. destruct H as [-> | (k & r & E & K)]; [reflexivity|]. destruct (skip_directive _ _ _ E) as (t & z & ->). rewrite E. destruct K as [-> | ->]; reflexivity.
Qed.
Lemma nl_kept : forall d m, agree d m -> hoist m [prep_token ("NL"%string, [10])] = [] /\ repl m [prep_token ("NL"%string, [10])] = [prep_token ("NL"%string, [10])].
Proof. intros d m A. apply kept_all. constructor; [|constructor]. split; [|discriminate]. apply (not_word d); [exact A|reflexivity]. Qed.
Lemma remark_hoisted : forall d m r, agree d m -> joined (hoist m (map prep_token (comment r))) = text (remark_line r) [] /\ repl m (map prep_token (comment r)) = [].
Proof.
  intros d m [r|] A; [|split; reflexivity]. cbn [comment map]. unfold hoist, repl. cbn [flat_map prep_token t_text snd t_type].
  assert (X : get m (M_Prep.lower (u "&&" ++ r)) = None) by (apply (not_word d); auto; reflexivity). rewrite X. change (is "WS" ("COMMENT"%string, u "&&" ++ r)) with false. change (is "COMMENT" ("COMMENT"%string, u "&&" ++ r)) with true. cbn iota. split; [|reflexivity].
  cbn [app joined flat_map t_text]. rewrite app_nil_r. change (u "*") with [42]. change (skipn 2 (u "&&" ++ r)) with r. rewrite !no_cr_app. unfold text. cbn [remark_line flat_map fst snd app piece_text]. rewrite !app_nil_r. reflexivity.
Qed.
Lemma more_line : forall f ls l r rest', p_plines f rest' = Some (ls, r) -> bind (p_plines f (snd (l, rest'))) (fun '(ls, r) => Some (PCons (fst (l, rest')) ls, r)) = Some (PCons l ls, r).
Proof. intros f ls l r rest' E. cbn [snd fst]. rewrite E. reflexivity. Qed.
Lemma length_tail : forall {A} (a b c : list A) n, (length ((a ++ b) ++ c) < S n)%nat -> a <> [] -> (length (b ++ c) < n)%nat.
Proof. intros A a b c n H N. rewrite <- app_assoc, app_length in H. destruct a; [contradiction|]. cbn [length] in H. lia. Qed.
Lemma agree_defined : forall d m x v, agree d m -> word x = true -> Forall good v -> agree (defined d x (Some v)) (set m (M_Prep.lower x) (tk v)).
Proof.
  intros d m x v [A B] W G. split; intros k; unfold defined.
  - rewrite get_set, lower_small. destruct (pystr_eqb_spec (small x) k) as [E|N], (pystr_eqb_spec k (small x)) as [E'|N']; try congruence; try reflexivity; apply A.
  - intros v' E. destruct (pystr_eqb_spec k (small x)) as [->|]; [|apply (B k v' E)]. injection E as <-. split; [|exact G]. clear - W. destruct x as [|c x]; [discriminate|]. cbn [small map S_Lexer.word] in *. rewrite down_letter. apply andb_prop in W as [-> W]. cbn [andb].
    rewrite forallb_forall in *. intros y I. apply in_map_iff in I as (z & <- & I). apply W in I. unfold name_char in *. rewrite down_letter. destruct (letter z) eqn:E; [reflexivity|]. cbn [orb] in *. unfold digit, down in *. destruct (Z.leb_spec 65 z), (Z.leb_spec z 90); cbn [andb]; try exact I. lia.
Qed.
Lemma agree_undefined : forall d m x, agree d m -> agree (defined d x None) (remove m (M_Prep.lower x)).
Proof.
  intros d m x [A B]. split; intros k; unfold defined.
  - rewrite get_remove, lower_small. destruct (pystr_eqb_spec (small x) k) as [E|N], (pystr_eqb_spec k (small x)) as [E'|N']; try congruence; try reflexivity; apply A.
  - intros v' E. destruct (pystr_eqb_spec k (small x)) as [->|]; [discriminate|apply (B k v' E)].
Qed.
Lemma simple_unblank : forall gs, Forall unbroken gs -> Forall unbroken (unblank gs).
Proof. induction 1 as [|g gs Hg H IH]; [constructor|]. cbn [unblank]. destruct g; [exact IH|]. constructor; auto. Qed.
Lemma part_line : forall (l : source), Forall part l -> Forall (fun p => in_line (snd p)) l -> Forall (fun p => in_line (snd p) /\ piece_ok (snd p)) l.
Proof. intros l H. induction H as [|p l (_ & A & _) _ IH]; intros J; inversion J; subst; constructor; auto. Qed.
Lemma toks_ne : forall g p l, toks ((g, p) :: l) <> [].
Proof. intros g p l E. rewrite toks_cons in E. apply app_eq_nil in E as [_ E]. apply app_eq_nil in E as [E _]. destruct (piece_start p) as (k & t & r & X & _). rewrite X in E. discriminate. Qed.
Lemma directive_step : forall f ts k r, directive ts = Some (k, r) -> p_plines (S f) ts =
  (let more (p : pline * list pair) := bind (p_plines f (snd p)) (fun '(ls, r) => Some (PCons (fst p) ls, r)) in
   let rest_of_if (node : plines -> plines -> pline) (r : list pair) :=
        bind (newline r) (fun r => bind (p_plines f r) (fun '(a, r) =>
          match directive r with
          | Some (k, r1) =>
              if String.eqb k "ELSE" then
                bind (newline r1) (fun r => bind (p_plines f r) (fun '(b, r) =>
                  match directive r with
                  | Some (k, r) => if String.eqb k "ENDIF" then bind (ends_line r) (fun r => more (node a b, r)) else None
                  | None => None
                  end))
              else if String.eqb k "ENDIF" then bind (ends_line r1) (fun r => more (node a PNil, r)) else None
          | None => None
          end)) in
              if existsb (String.eqb k) ["ELSE"; "ENDIF"]%string then Some (PNil, ts)
              else if String.eqb k "DEFINE" then bind (identifier r) (fun '(x, r) => more (define_line x r))
              else if String.eqb k "INCLUDE" || String.eqb k "NL" || String.eqb k "" then None
              else if String.eqb k "IF" then
                match to_end r with (l, Some _) => rest_of_if (PIf (map prep_token (seen l))) (skipn (length l) r) | _ => None end
              else
                match (if String.eqb k "IFDEF" then bind (identifier r) (fun '(x, r) => rest_of_if (PIfdef x) r)
                       else if String.eqb k "UNDEFINE" then bind (identifier r) (fun '(x, r) => bind (ends_line r) (fun r => more (PUndef x, r))) else None) with
                | Some x => Some x
                | None => more (PJunk, match to_end r with (_, Some r) => r | _ => [] end)
                end).
Proof. intros f ts k r E. cbn [p_plines]. destruct (skip_directive _ _ _ E) as (t & z & ->). rewrite E. reflexivity. Qed.
Lemma text_step : forall f ts t z, skip ts = t :: z -> directive ts = None -> p_plines (S f) ts = bind (p_plines f (snd (text_line ts))) (fun '(ls, r) => Some (PCons (fst (text_line ts)) ls, r)).
Proof. intros f ts t z E D. cbn [p_plines]. rewrite E, D. reflexivity. Qed.
Lemma preps_text : forall m toks0 ls o m', preps ev m ls = Ok (o, m') -> preps ev m (PCons (PText toks0) ls) = Ok (replace_define_tokens m toks0 ++ o, m').
Proof. intros m toks0 ls o m' E. cbn [preps prep rbind]. rewrite E. reflexivity. Qed.
Theorem expands_turns : (forall d src out d', expands d src out d' -> turns d src out d') /\ (forall d b ob db, else_part d b ob db -> Forall part b -> turns_else d b ob db).
Proof.
  apply expands_both.
  - intros d _. exists PNil. split; [intros f rest H L; apply plines_stop; auto|]. intros m A. exists [], m. split; [reflexivity|]. split; [exact A|reflexivity].
  - (* a line of text *)
    intros d l g r src out d' Hl Hd Hr _ IH P. apply Forall_app in P as [P1 P2]. inversion P2 as [|? ? (G1 & _ & G2) P3]; subst. cbn [fst] in *. destruct (IH P3) as (ls & R & V).
    assert (Hi : Forall (fun p => in_line (snd p) /\ piece_ok (snd p)) l) by (apply part_line; auto; eapply Forall_impl; [|exact Hl]; cbn; tauto).
    exists (PCons (PText (map prep_token ((toks l ++ map layout_token g ++ comment r) ++ [("NL"%string, [10])]))) ls). split.
    + intros [|f] rest H L; [lia|]. destruct (start_line l g r src rest Hi Hd) as ((t & z & Es) & Ed). rewrite (text_step _ _ _ _ Es Ed). unfold text_line. rewrite to_end_line by auto. cbn [fst snd].
      rewrite R; auto. rewrite toks_app, toks_cons, newline_all in L. len.
    + intros m A. destruct (V m A) as (o & m' & E & A' & J). eexists _, m'. split; [exact (preps_text _ _ _ _ _ E)|]. split; [exact A'|]. rewrite joined_app, J, !text_app, (app_assoc (text (remark_line r) [])). f_equal.
      rewrite replace_eq, joined_app, !map_app. change (map prep_token (toks l)) with (tk l). cbn [map].
      assert (Hl' : Forall (fun p => fine p /\ usable d (snd p)) l).
      { clear - Hl P1. induction P1 as [|p l (A & B & C) _ IH]; inversion Hl as [|? ? [D E] F]; subst; constructor; auto. split; [|exact E]. split; [|exact A]. split; [exact D|]. split; [exact B|exact C]. }
      destruct (line_put d m l g A Hl' G1 G2) as [H1 H2]. destruct (remark_hoisted d m r A) as [M1 M2]. destruct (nl_kept d m A) as [N1 N2].
      rewrite !hoist_app, !repl_app, N1, N2, M2. rewrite hoist_app in H1. apply app_eq_nil in H1 as [-> ->]. rewrite repl_app in H2. specialize (H2 []). cbn [flat_map app] in H2. cbn [app]. rewrite !app_nil_r. f_equal; [exact M1|].
      rewrite !joined_app in *. rewrite <- H2, <- !app_assoc. reflexivity.
  - (* a remark *)
    intros d g s src out d' U _ IH P. inversion P as [|? ? (G1 & Nn & G2) P3]; subst. cbn [fst snd] in *. destruct Nn as (N1 & N2 & N3). destruct (IH P3) as (ls & R & V).
    exists (PCons (PText (map prep_token ((map layout_token g ++ ("ASTERISK"%string, [42]) :: tokens s) ++ [("NL"%string, [10])]))) ls).
    assert (Et : forall rest, toks ((g, Remark s) :: src) ++ rest = (map layout_token g ++ ("ASTERISK"%string, [42]) :: tokens s) ++ ("NL"%string, [10]) :: toks src ++ rest).
    { intros rest. rewrite toks_cons. cbn [piece_all]. rewrite <- !app_assoc. cbn [app]. rewrite <- !app_assoc. reflexivity. }
    split.
    + intros [|f] rest H L; [lia|]. rewrite Et in *. assert (Es : skip ((map layout_token g ++ ("ASTERISK"%string, [42]) :: tokens s) ++ ("NL"%string, [10]) :: toks src ++ rest) = ("ASTERISK"%string, [42]) :: tokens s ++ ("NL"%string, [10]) :: toks src ++ rest).
      { rewrite <- app_assoc, skip_layouts. reflexivity. }
      rewrite (text_step _ _ _ _ Es) by (unfold directive; rewrite Es; reflexivity). unfold text_line. rewrite to_end_app.
      * cbn [fst snd]. rewrite R; auto. len.
      * apply Forall_app. split; [apply layouts_no_nl|]. constructor; [reflexivity|apply inner_no_nl; auto].
    + intros m A. destruct (V m A) as (o & m' & E & A' & J). eexists _, m'. split; [exact (preps_text _ _ _ _ _ E)|]. split; [exact A'|]. rewrite joined_app, J, text_cons, (app_assoc (flat_map layout_text (plain_layout g))). f_equal.
      rewrite replace_eq, joined_app, !map_app. cbn [map]. rewrite !hoist_app, !repl_app. destruct (nl_kept d m A) as [X1 X2]. rewrite X1, X2.
      destruct (kept_all _ _ (layouts_kept d m g A G1 G2)) as [-> ->].
      assert (K : Forall (kept m) (prep_token ("ASTERISK"%string, [42]) :: map prep_token (tokens s))). { constructor; [split; [apply (not_word d); [exact A|reflexivity]|discriminate]|]. eapply inner_kept; eauto. }
      destruct (kept_all _ _ K) as [-> ->]. cbn [app joined flat_map]. fold (joined (map prep_token (map layout_token g) ++ (prep_token ("ASTERISK"%string, [42]) :: map prep_token (tokens s)) ++ [prep_token ("NL"%string, [10])])).
      rewrite <- app_assoc. rewrite !joined_app, layout_joined by auto. f_equal. change (prep_token ("ASTERISK"%string, [42]) :: map prep_token (tokens s)) with (map prep_token (("ASTERISK"%string, [42]) :: tokens s)). rewrite joined_texts. cbn [flat_map snd]. rewrite tokens_text. reflexivity.
  - (* #DEFINE *)
    intros d g0 g1 w g2 x v g r src out d' K N Hv B _ IH P. inversion P as [|? ? _ P1]; subst. inversion P1 as [|? ? _ P2]; subst. inversion P2 as [|? ? (_ & Wx & _) P3]; subst. apply Forall_app in P3 as [Pv P4]. inversion P4 as [|? ? _ P5]; subst. cbn [snd piece_ok] in Wx.
    destruct (IH P5) as (ls & R & V). assert (Hi := part_line _ Pv Hv).
    exists (PCons (PDefine x (map prep_token (toks v ++ map layout_token g ++ comment r))) ls). split.
    + intros [|f] rest H L; [lia|]. rewrite (directive_step _ _ _ _ (directive_toks _ _ _ _ _)). unfold key in K. rewrite K. cbn [existsb String.eqb Ascii.eqb Bool.eqb orb]. rewrite identifier_toks by auto. cbn [bind]. unfold define_line. rewrite to_end_line by auto. cbn [snd fst]. rewrite R; auto.
      rewrite !toks_cons, toks_app, toks_cons, newline_all in L. len.
    + intros m A. assert (A1 := agree_defined d m x (value_of v) A Wx). destruct (V (set m (M_Prep.lower x) (tk (value_of v)))) as (o & m' & E & A' & J).
      { apply A1. clear - Pv Hv. destruct v as [|[g p] v]; [constructor|]. inversion Pv as [|? ? (X1 & X2 & X3) X4]; subst. inversion Hv as [|? ? Y1 Y2]; subst. cbn [fst snd value_of] in *. constructor; [split; [exact Y1|split; [exact X2|apply simple_unblank; exact X3]]|].
        clear - X4 Y2. induction X4 as [|q v (A & B & C) _ IH]; inversion Y2; subst; constructor; auto. split; auto. }
      exists o, m'. split; [|split; [exact A'|exact J]]. cbn [preps prep rbind]. rewrite trim_value by auto. rewrite E. reflexivity.
  - (* #UNDEFINE *)
    intros d g0 g1 w g2 x g r src out d' K N D _ IH P. inversion P as [|? ? _ P1]; subst. inversion P1 as [|? ? _ P2]; subst. inversion P2 as [|? ? _ P3]; subst. inversion P3 as [|? ? _ P5]; subst. destruct (IH P5) as (ls & R & V).
    exists (PCons (PUndef x) ls). split.
    + intros [|f] rest H L; [lia|]. rewrite (directive_step _ _ _ _ (directive_toks _ _ _ _ _)). unfold key in K. rewrite K. cbn [existsb String.eqb Ascii.eqb Bool.eqb orb]. rewrite identifier_toks by auto. cbn [bind]. rewrite (proj2 (newline_toks _ _ _ _)). cbn [bind snd fst]. rewrite R; auto.
      rewrite !toks_cons, newline_all in L. len.
    + intros m A. destruct (V (remove m (M_Prep.lower x)) (agree_undefined d m x A)) as (o & m' & E & A' & J). exists o, m'. split; [|auto]. cbn [preps prep]. rewrite (proj1 A), lower_small. destruct (d (small x)); [|contradiction]. cbn [option_map rbind]. rewrite lower_small in E. rewrite E. reflexivity.
  - (* #IFDEF *)
    intros d g0 g1 w g2 x g r d1 a oa da d2 b ob db d3 o h0 h1 e h re src out d' K N _ IHa _ IHb Ke C _ IH P.
    inversion P as [|? ? _ P1]; subst. inversion P1 as [|? ? _ P2]; subst. inversion P2 as [|? ? _ P3]; subst. inversion P3 as [|? ? _ P4]; subst. apply Forall_app in P4 as [Pa P4]. apply Forall_app in P4 as [Pb P4].
    inversion P4 as [|? ? _ P5]; subst. inversion P5 as [|? ? _ P6]; subst. inversion P6 as [|? ? _ P7]; subst. destruct (IHa Pa) as (la & Ra & Va). destruct (IH P7) as (ls & R & V).
    assert (X : exists lb, (forall f rest, stop rest -> (length (toks (a ++ b ++ (h0, sym "#") :: (h1, Word e) :: (h, NewLine re) :: src) ++ rest) < f)%nat ->
        forall node, bind (p_plines f (toks (a ++ b ++ (h0, sym "#") :: (h1, Word e) :: (h, NewLine re) :: src) ++ rest)) (fun '(a, r) =>
          match directive r with
          | Some (k, r1) =>
              if String.eqb k "ELSE" then
                bind (newline r1) (fun r => bind (p_plines f r) (fun '(b, r) =>
                  match directive r with
                  | Some (k, r) => if String.eqb k "ENDIF" then bind (ends_line r) (fun r => bind (p_plines f (snd (node a b, r))) (fun '(ls, r0) => Some (PCons (fst (node a b, r)) ls, r0))) else None
                  | None => None
                  end))
              else if String.eqb k "ENDIF" then bind (ends_line r1) (fun r => bind (p_plines f (snd (node a PNil, r))) (fun '(ls, r0) => Some (PCons (fst (node a PNil, r)) ls, r0))) else None
          | None => None
          end) = Some (PCons (node la lb) ls, rest)) /\
        (forall m, agree d2 m -> exists o m', preps ev m lb = Ok (o, m') /\ agree db m' /\ joined o = text ob [])).
    { destruct (IHb Pb) as [(-> & -> & ->) | (k0 & k1 & we & k2 & r2 & b' & -> & Kw & Tb)].
      - exists PNil. split; [|intros m A; exists [], m; split; [reflexivity|]; split; [exact A|reflexivity]]. intros f rest H L node. cbn [app]. cbn [app] in L. rewrite toks_app, <- app_assoc in *.
        rewrite Ra; auto. 2: { right. rewrite directive_toks. unfold key in Ke. rewrite Ke. eauto. }
        cbn [bind]. rewrite directive_toks. unfold key in Ke. rewrite Ke. cbn [String.eqb Ascii.eqb Bool.eqb]. rewrite (proj2 (newline_toks _ _ _ _)). cbn [bind snd fst]. rewrite R; auto. rewrite !toks_cons in L. len.
      - inversion Pb as [|? ? _ Q1]; subst. inversion Q1 as [|? ? _ Q2]; subst. inversion Q2 as [|? ? _ Q3]; subst. destruct (Tb Q3) as (lb & Rb & Vb). exists lb. split; [|exact Vb]. intros f rest H L node. rewrite toks_app, <- app_assoc in *. cbn [app] in *.
        rewrite Ra; auto. 2: { right. rewrite directive_toks. unfold key in Kw. rewrite Kw. eauto. }
        cbn [bind]. rewrite directive_toks. unfold key in Kw. rewrite Kw. cbn [String.eqb Ascii.eqb Bool.eqb]. rewrite (proj1 (newline_toks _ _ _ _)). cbn [bind]. rewrite toks_app, <- app_assoc. rewrite Rb.
        + cbn [bind]. rewrite directive_toks. unfold key in Ke. rewrite Ke. cbn [String.eqb Ascii.eqb Bool.eqb]. rewrite (proj2 (newline_toks _ _ _ _)). cbn [bind snd fst]. rewrite R; auto. rewrite !toks_cons, toks_app, !toks_cons in L. len.
        + right. rewrite directive_toks. unfold key in Ke. rewrite Ke. eauto.
        + rewrite !toks_cons, toks_app in L. len. }
    destruct X as (lb & Rb & Vb). exists (PCons (PIfdef x la lb) ls). split.
    + intros [|f] rest H L; [lia|]. rewrite (directive_step _ _ _ _ (directive_toks _ _ _ _ _)). unfold key in K. rewrite K. cbn [existsb String.eqb Ascii.eqb Bool.eqb orb]. rewrite identifier_toks by auto. cbn [bind]. rewrite (proj1 (newline_toks _ _ _ _)). cbn [bind].
      rewrite Rb; auto. rewrite (toks_cons _ (sym "#")), (toks_cons _ (Word w)), (toks_cons _ (Word x)), (toks_cons _ (NewLine r)), newline_all in L. len.
    + intros m A. cbn [preps prep]. rewrite (proj1 A), lower_small. destruct (d (small x)) as [val|]; cbn [option_map].
      * destruct C as (-> & -> & ->). destruct (Va m A) as (o1 & m1 & E1 & A1 & J1). destruct (V m1 A1) as (o2 & m2 & E2 & A2 & J2). exists (o1 ++ o2), m2. rewrite E1. cbn [rbind]. rewrite E2. cbn [rbind]. split; [reflexivity|]. split; [exact A2|]. rewrite joined_app, text_app, J1, J2. reflexivity.
      * destruct C as (-> & -> & ->). destruct (Vb m A) as (o1 & m1 & E1 & A1 & J1). destruct (V m1 A1) as (o2 & m2 & E2 & A2 & J2). exists (o1 ++ o2), m2. rewrite E1. cbn [rbind]. rewrite E2. cbn [rbind]. split; [reflexivity|]. split; [exact A2|]. rewrite joined_app, text_app, J1, J2. reflexivity.
  - intros d _. left. auto.
  - intros d g0 g1 w g r b ob db K _ IH P. right. exists g0, g1, w, g, r, b. split; [reflexivity|]. split; [exact K|]. exact IH.
Qed.
Theorem text_expanded : forall src last out d', laid_out src last -> simple src -> expands none src out d' -> prep_text ev (text src last) = Some (Ok (text out [])).
Proof.
  intros src last out d' H Sm X. assert (P : Forall part src).
  { destruct H as (H & _). clear - H Sm. unfold simple in Sm. induction H as [|p l [A B] _ IH]; inversion Sm as [|? ? C D]; subst; constructor; auto. split; [exact A|]. split; [exact B|exact C]. }
  destruct (proj1 expands_turns _ _ _ _ X P) as (ls & R & V). unfold prep_text, lines_of_text. rewrite (text_exact src last H).
  assert (Sk : skip (map layout_token last) = []) by (rewrite <- (app_nil_r (map layout_token last)); apply skip_layouts).
  rewrite R; [|left; exact Sk|]. 2: { rewrite <- (text_exact src last H). assert (L := tokens_length (text src last)). unfold M_Prg.pair in *; lia. }
  cbn [bind]. rewrite Sk. cbn [option_map]. destruct (V []) as (o & m' & E & _ & J); [split; [reflexivity|discriminate]|]. unfold preprocess. rewrite E. cbn [rmap fst]. rewrite <- J. reflexivity.
Qed.
End prog.
