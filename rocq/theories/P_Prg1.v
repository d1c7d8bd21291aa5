(** Proofs about preprocessing: the tokens of a laid out text, and the text of its lines *)
From Verif Require Import PyBase PyStr M_Lexer S_Lexer P_Lexer P_Lexer2 P_Lexer3 P_Lexer4 M_Prep M_Parse P_Parse S_Expr S_Prog M_Prg S_Prg.
From Coq Require Import Lia.
Open Scope Z_scope.

(** ** The tokens, hidden ones and all *)
Definition layout_token (g : layout) : pair :=
  match g with Blank c => ("WS"%string, [c]) | Continued _ None => ("LINECONT"%string, layout_text g) | Continued _ (Some _) => ("COMMENT"%string, layout_text g) end.
Definition toks (src : source) : list pair := flat_map (fun p => map layout_token (fst p) ++ piece_all (snd p)) src.
Lemma toks_app : forall a b, toks (a ++ b) = toks a ++ toks b.
Proof. intros. apply flat_map_app. Qed.
Lemma toks_cons : forall g p l, toks ((g, p) :: l) = map layout_token g ++ piece_all p ++ toks l.
Proof. intros. unfold toks. cbn [flat_map fst snd]. rewrite app_assoc. reflexivity. Qed.
Lemma layout_hidden : forall g, hidden (fst (layout_token g)) = true.
Proof. intros [c | b [r|]]; reflexivity. Qed.
Lemma continued_kind : forall b r s, layout_ok (Continued b r) ->
  munch rules 0%nat None (layout_text (Continued b r) ++ s) = Some (fst (layout_token (Continued b r)), length (layout_text (Continued b r))).
Proof.
  intros b r s H. destruct (continued_token b r s H) as (k & E & Hk). rewrite E. f_equal. f_equal. destruct H as [Hb Hr].
  assert (T := tokens_cons _ _ _ E). assert (I : In (k, layout_text (Continued b r)) (tokens (layout_text (Continued b r) ++ s))) by (rewrite T; left; reflexivity).
  destruct (token_kinds _ _ _ I) as (x & Ix & L). unfold hidden in Hk. apply existsb_exists in Hk as (k' & Ik & Ek). apply String.eqb_eq in Ek. subst k'.
  assert (V : forallb (fun p => (negb (String.eqb (fst p) "COMMENT") || if rx_eq_dec (snd p) R_COMMENT then true else false) && (negb (String.eqb (fst p) "LINECONT") || if rx_eq_dec (snd p) R_LINECONT then true else false)
      && (negb (String.eqb (fst p) "WS") || if rx_eq_dec (snd p) R_WS then true else false)) rules = true) by (vm_compute; reflexivity).
  rewrite forallb_forall in V. apply V in Ix. cbn [fst snd] in Ix. rewrite !andb_true_iff in Ix. destruct Ix as [[V1 V2] V3].
  assert (W : lang R_WS (layout_text (Continued b r)) -> False).
  { assert (Y : forall z, lang R_WS z -> hd 0 z <> 59); [|intros Lx; exact (Y _ Lx eq_refl)]. intros z Lx. unfold R_WS in Lx. inversion Lx as [|? ? c X| | | | |]; subst. cbn [hd]. intros ->. discriminate. }
  assert (A59 : lang R_LINECONT (layout_text (Continued b r)) -> ~ In 38 (layout_text (Continued b r))).
  { generalize (layout_text (Continued b r)). intros z Lx. unfold R_LINECONT in Lx. inversion Lx as [| |? ? s1 t1 L1 L2 E1| | | |]; subst. inversion L2 as [| |? ? s2 t2 L3 L4 E2| | | |]; subst. apply (lit_lang [59]) in L1. apply (lit_lang [10]) in L4. subst. intros J.
    apply in_app_or in J as [[J|[]]|J]; [discriminate|]. apply in_app_or in J as [J|[J|[]]]; [|discriminate]. apply (star_ws _ L3) in J. lia. }
  assert (A38 : lang R_COMMENT (layout_text (Continued b r)) -> In 38 (layout_text (Continued b r))).
  { generalize (layout_text (Continued b r)). intros z Lx. unfold R_COMMENT in Lx. inversion Lx as [| | |? ? ? L1|? ? ? L1| |]; subst.
    - inversion L1 as [| |? ? s1 t1 L2 L3 E1| | | |]; subst. apply (lit_lang [38; 38]) in L2. subst. left; reflexivity.
    - inversion L1 as [| |? ? s1 t1 L2 L3 E1| | | |]; subst. inversion L3 as [| |? ? s2 t2 L4 L5 E2| | | |]; subst. inversion L5 as [| |? ? s3 t3 L6 L7 E3| | | |]; subst. apply (lit_lang [38; 38]) in L6. subst.
      apply in_or_app. right. apply in_or_app. right. left; reflexivity. }
  destruct Ik as [<- | [<- | [<- | []]]]; cbn [negb orb String.eqb Ascii.eqb Bool.eqb] in *.
  - destruct (rx_eq_dec x R_COMMENT) as [->|]; [|discriminate]. destruct r as [r|]; [reflexivity|]. apply A38 in L. exfalso. cbn [layout_text app] in L. destruct L as [L|L]; [discriminate|].
    apply in_app_or in L as [L|[L|[]]]; [|discriminate]. rewrite forallb_forall in Hb. apply Hb in L. discriminate.
  - destruct (rx_eq_dec x R_LINECONT) as [->|]; [|discriminate]. destruct r as [r|]; [|reflexivity]. exfalso. apply (A59 L). cbn [layout_text]. right. apply in_or_app. right. left. reflexivity.
  - destruct (rx_eq_dec x R_WS) as [->|]; [|discriminate]. destruct (W L).
Qed.
Lemma layouts_exact : forall gs s, Forall layout_ok gs -> macro s = false -> tokens (flat_map layout_text gs ++ s) = map layout_token gs ++ tokens s.
Proof.
  induction gs as [|g gs IH]; intros s H M; [reflexivity|]. inversion H as [|? ? Hg Hgs]; subst. cbn [flat_map map]. rewrite <- app_assoc.
  assert (T : munch rules 0%nat None (layout_text g ++ flat_map layout_text gs ++ s) = Some (fst (layout_token g), length (layout_text g))).
  { destruct g as [c | b r]; [|apply continued_kind; auto]. apply blank_token; auto. apply macro_layouts; auto. }
  rewrite (tokens_cons _ _ _ T), IH by auto. destruct g as [c | b [r|]]; reflexivity.
Qed.
Theorem text_exact : forall src last, laid_out src last -> tokens (text src last) = toks src ++ map layout_token last.
Proof.
  intros src last (H & L & A). induction src as [|[g p] src IH].
  - unfold text. cbn [flat_map app toks]. rewrite <- (app_nil_r (flat_map layout_text last)), layouts_exact by auto. change (tokens []) with (@nil (string * pystr)). rewrite app_nil_r. reflexivity.
  - inversion H as [|? ? [Hg Hp] H']; subst. rewrite text_cons. assert (A' : apart src) by (destruct src as [|[g' q] src]; [exact I | apply A]).
    rewrite layouts_exact; auto.
    + rewrite piece_read; auto. rewrite IH by auto. rewrite toks_cons, <- !app_assoc. reflexivity.
    + rewrite macro_piece by auto. assert (M := macro_text src last H' L). destruct p; auto.
Qed.
Lemma tokens_length : forall s, (length (tokens s) <= length s)%nat.
Proof.
  assert (G : forall n s, (length (scan n s) <= n)%nat).
  { induction n as [|n IH]; intros [|c s]; cbn [scan length]; try lia. destruct (munch rules 0%nat None (c :: s)) as [[k m]|]; cbn [length]; [|lia]. specialize (IH (skipn m (c :: s))). lia. }
  intros s. apply G.
Qed.
