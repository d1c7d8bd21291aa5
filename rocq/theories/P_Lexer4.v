(** Proofs about the lexer: a source text is read as the tokens of its pieces *)
From Verif Require Import PyBase PyStr M_Lexer S_Lexer P_Lexer P_Lexer2 P_Lexer3.
From Coq Require Import Lia.
Open Scope Z_scope.

Lemma tokens_cons : forall t s k, munch rules 0%nat None (t ++ s) = Some (k, length t) -> tokens (t ++ s) = (k, t) :: tokens s.
Proof.
  intros t s k H. apply munch_first in H as (F & _ & L).
  rewrite firstn_app, firstn_all, Nat.sub_diag in F. cbn [firstn] in F. rewrite app_nil_r in F.
  apply (reads_fun (t ++ s)); [apply tokens_reads | constructor; [exact F | apply tokens_reads]].
Qed.

(** ** Numbers *)
Definition st_dec : forall a b : state, {a = b} + {a <> b}.
Proof. apply list_eq_dec. intros a b. decide equality; [apply rx_eq_dec | apply string_dec]. Defined.
Definition digits : list Z := map Z.of_nat (seq 48 10).
Lemma digit_in : forall c, digit c = true -> In c digits.
Proof. intros c H. unfold digit in H. unfold digits. replace c with (Z.of_nat (Z.to_nat c)) by lia. apply in_map, in_seq. lia. Qed.
Definition next (l : list state) : list state := nodup st_dec (flat_map (fun st => map (fun d => follow d st) digits) l).
Definition W1 : list state := Eval vm_compute in next [rules].
Definition W2 : list state := Eval vm_compute in next W1.
Definition WS : list state := Eval vm_compute in nodup st_dec (W1 ++ W2 ++ next W2).
Definition F1 : list state := Eval vm_compute in nodup st_dec (map (follow 46) WS).
Definition F2 : list state := Eval vm_compute in next F1.
Definition FS : list state := Eval vm_compute in nodup st_dec (F2 ++ next F2).
Definition memb (st : state) (l : list state) : bool := if in_dec st_dec st l then true else false.
Definition numeric (st : state) : bool := match accepted st with Some k => String.eqb k "NUMBER_LITERAL" | None => false end.
Definition number_ext : list (Z * Z) := ascii_name ++ [(46, 46)].
Definition closed_under (cs : list Z) (l l' : list state) : bool := forallb (fun st => forallb (fun d => memb (follow d st) l') cs) l.
Lemma WS_ok : closed_under digits [rules] WS && closed_under digits WS WS && closed_under [46] WS F1 && closed_under digits F1 FS && closed_under digits FS FS
  && forallb numeric (WS ++ FS) && forallb (fun st => goes_on st number_ext) (WS ++ FS) = true.
Proof. vm_compute; reflexivity. Qed.
Lemma closed_in : forall cs l l' st c, closed_under cs l l' = true -> In st l -> In c cs -> In (follow c st) l'.
Proof.
  intros cs l l' st c H I J. unfold closed_under in H. rewrite forallb_forall in H. apply H in I. rewrite forallb_forall in I. apply I in J.
  unfold memb in J. destruct (in_dec st_dec (follow c st) l'); [auto | discriminate].
Qed.
Lemma numeric_ne : forall st, numeric st = true -> st <> [] /\ accepted st = Some "NUMBER_LITERAL"%string.
Proof.
  intros st H. unfold numeric in H. destruct (accepted st) eqn:E; [|discriminate]. apply String.eqb_eq in H as ->. split; auto. intros ->. discriminate.
Qed.
Lemma munch_step : forall st n best c s, follow c st <> [] ->
  munch st n best (c :: s) = munch (follow c st) (S n) (match accepted (follow c st) with Some k => Some (k, S n) | None => best end) s.
Proof. intros st n best c s H. cbn [munch]. destruct (follow c st); [congruence | reflexivity]. Qed.
Lemma digits_run : forall l, closed_under digits l l = true -> forallb numeric l = true ->
  forall ds st n s, In st l -> forallb digit ds = true ->
  exists st', In st' l /\ munch st n (Some ("NUMBER_LITERAL"%string, n)) (ds ++ s) = munch st' (n + length ds) (Some ("NUMBER_LITERAL"%string, (n + length ds)%nat)) s.
Proof.
  intros l C N. induction ds as [|d ds IH]; intros st n s I D.
  - exists st. cbn [length app]. rewrite Nat.add_0_r. auto.
  - cbn [forallb] in D. apply andb_prop in D as [D1 D2]. assert (J := closed_in digits l l st d C I (digit_in d D1)).
    assert (M := proj1 (forallb_forall _ _) N _ J). apply numeric_ne in M as [M1 M2]. cbn [app]. rewrite munch_step by auto. rewrite M2.
    destruct (IH (follow d st) (S n) s J D2) as (st' & J' & E). exists st'. split; auto. rewrite E. cbn [length]. rewrite Nat.add_succ_r. reflexivity.
Qed.
Lemma number_token : forall a b s, piece_ok (Number a b) -> macro s = false -> match s with c :: _ => within c number_ext = false | [] => True end ->
  munch rules 0%nat None (piece_text (Number a b) ++ s) = Some ("NUMBER_LITERAL"%string, length (piece_text (Number a b))).
Proof.
  intros a b s (Ha & Da & Hb) M Hs. assert (X := WS_ok).
  apply andb_prop in X as [X X7]. apply andb_prop in X as [X X6]. apply andb_prop in X as [X X5]. apply andb_prop in X as [X X4]. apply andb_prop in X as [X X3].
  apply andb_prop in X as [X1 X2]. rewrite forallb_app in X6, X7. apply andb_prop in X6 as [NW NF]. apply andb_prop in X7 as [GW GF].
  destruct a as [|d a]; [congruence|]. cbn [forallb] in Da. apply andb_prop in Da as [D1 D2].
  assert (J := closed_in digits [rules] WS rules d X1 (or_introl eq_refl) (digit_in d D1)).
  assert (N := proj1 (forallb_forall _ _) NW _ J). apply numeric_ne in N as [N1 N2].
  cbn [piece_text]. rewrite <- !app_assoc. cbn [app]. rewrite munch_step by auto. rewrite N2.
  destruct b as [b|].
  - destruct (digits_run WS X2 NW a (follow d rules) 1%nat ((46 :: b) ++ s) J D2) as (st & I & E). rewrite E. clear E.
    destruct Hb as [Hb Db]. destruct b as [|e b]; [congruence|]. cbn [forallb] in Db. apply andb_prop in Db as [E1 E2].
    assert (I' := closed_in [46] WS F1 st 46 X3 I (or_introl eq_refl)).
    assert (I2 := closed_in digits F1 FS _ e X4 I' (digit_in e E1)).
    assert (N' := proj1 (forallb_forall _ _) NF _ I2). apply numeric_ne in N' as [N1' N2'].
    cbn [app]. rewrite munch_step by (intros Z0; rewrite Z0 in N1'; apply N1'; reflexivity). rewrite munch_step by auto. rewrite N2'.
    destruct (digits_run FS X5 NF b _ (S (S (1 + length a))) s I2 E2) as (st' & I3 & E). rewrite E.
    rewrite (goes_on_end st' number_ext s _ _ (proj1 (forallb_forall _ _) GF _ I3) M Hs).
    f_equal. f_equal. cbn [length]. rewrite app_length. cbn [length]. lia.
  - destruct (digits_run WS X2 NW a (follow d rules) 1%nat s J D2) as (st & I & E). cbn [app]. rewrite E.
    rewrite (goes_on_end st number_ext s _ _ (proj1 (forallb_forall _ _) GW _ I) M Hs).
    f_equal. f_equal. cbn [length]. rewrite app_nil_r. lia.
Qed.

(** ** Symbols *)
Definition sym_ext (t : string) : list (Z * Z) := if existsb (String.eqb t) ["="; "<"; ">"; "!"]%string then [(60, 62)] else [].
Lemma symbols_fixed : forallb (fun p => String.eqb (snd p) "." || fixed (fst p) (u (snd p)) (sym_ext (snd p))) symbols = true.
Proof. vm_compute; reflexivity. Qed.
Lemma sym_token : forall k t s, In (k, t) symbols -> t <> "."%string -> macro s = false -> match s with c :: _ => within c (sym_ext t) = false | [] => True end ->
  munch rules 0%nat None (u t ++ s) = Some (k, length (u t)).
Proof.
  intros k t s I N M S. assert (H := proj1 (forallb_forall _ _) symbols_fixed _ I). cbn [fst snd] in H. apply Bool.orb_prop in H as [H | H].
  - apply String.eqb_eq in H. congruence.
  - apply (fixed_token k (u t) (sym_ext t) s); auto.
Qed.
Lemma blank_token : forall c s, blank c = true -> macro s = false -> munch rules 0%nat None (c :: s) = Some ("WS"%string, 1%nat).
Proof.
  assert (F : forall c, In c [32; 9; 13] -> fixed "WS" [c] [] = true) by (intros c [<- | [<- | [<- | []]]]; vm_compute; reflexivity).
  intros c s B M. apply (fixed_token "WS" [c] [] s); auto; [|destruct s; auto].
  apply F. unfold blank in B. assert (c = 32 \/ c = 9 \/ c = 13) as [-> | [-> | ->]] by lia; cbn; auto.
Qed.
Lemma nl_fixed : fixed "NL" [10] [] = true.
Proof. vm_compute; reflexivity. Qed.
Lemma follow_nil_best : forall st n best c s, follow c st = [] -> munch st n best (c :: s) = best.
Proof. intros st n best c s H. cbn [munch]. rewrite H. reflexivity. Qed.
Lemma eps_end : forall k n best s, munch [(k, Eps)] n best s = best.
Proof. intros k n best [|c s]; reflexivity. Qed.
Lemma nl_token : forall s, munch rules 0%nat None (10 :: s) = Some ("NL"%string, 1%nat).
Proof.
  intros s. assert (R := munch_run [10] rules 0%nat None s). 
  assert (E : run rules 0%nat None [10] = ([("NL"%string, Eps); ("UNMATCHED"%string, Eps)], 1%nat, Some ("NL"%string, 1%nat))) by (vm_compute; reflexivity).
  rewrite E in R. cbn [app] in R. rewrite R. destruct s as [|c s]; reflexivity.
Qed.
Lemma dotted_fixed : forallb (fun p => fixed (fst p) (46 :: u (snd p) ++ [46]) []) dotted = true.
Proof. vm_compute; reflexivity. Qed.
Lemma dotted_token : forall k w s, piece_ok (Dotted k w) -> macro s = false -> 
  munch rules 0%nat None ((46 :: w ++ [46]) ++ s) = Some (k, length (46 :: w ++ [46])).
Proof.
  intros k w s (t & I & E) M. assert (H := proj1 (forallb_forall _ _) dotted_fixed _ I). cbn [fst snd] in H.
  rewrite (munch_case _ ((46 :: u t ++ [46]) ++ s) rules 0%nat None rules_closed).
  - rewrite (fixed_token k _ [] s); auto; [|destruct s; auto]. f_equal. f_equal. cbn [length]. rewrite !app_length. f_equal. f_equal.
    apply (f_equal (@length Z)) in E. unfold upper in E. rewrite map_length in E. auto.
  - rewrite !upper_app. f_equal. cbn [upper map]. f_equal. change (map up (w ++ [46])) with (upper (w ++ [46])). change (map up (u t ++ [46])) with (upper (u t ++ [46])).
    rewrite !upper_app. f_equal. rewrite E. assert (U : forall p, In p dotted -> u (snd p) = upper (u (snd p))) by (intros p [<- | [<- | [<- | []]]]; reflexivity).
    apply (U (k, t) I).
Qed.
(** The period *)
Definition period_rule (r : rx) : bool :=
  let r' := step 46 r in
  is_macro r' || first_in r' [(48, 57)] || match enum r' with Some l => forallb (fun x => existsb (fun p => pystr_eqb x (u (snd p) ++ [46])) dotted) l | None => false end.
Lemma period_rules : forallb (fun p => period_rule (snd p)) rules = true.
Proof. vm_compute; reflexivity. Qed.
Definition period_next (s : pystr) : Prop :=
  match s with c :: _ => digit c = false | [] => True end /\ forall p w z, In p dotted -> upper w = u (snd p) -> s <> w ++ 46 :: z.
Lemma period_token : forall s, macro s = false -> period_next s -> munch rules 0%nat None (46 :: s) = Some ("PERIOD"%string, 1%nat).
Proof.
  intros s M [D P]. apply (munch_best rules [46] s "PERIOD"); [discriminate | vm_compute; reflexivity|].
  intros y z -> Hy. apply fm_none_intro. intros k r I L. assert (H := proj1 (forallb_forall _ _) period_rules _ I). cbn [snd] in H. unfold period_rule in H. cbv zeta in H.
  cbn [app] in L. apply step_iff in L. apply Bool.orb_prop in H as [H | H]; [apply Bool.orb_prop in H as [H | H]|].
  - unfold is_macro in H. destruct (rx_eq_dec (step 46 r) R_MACROLINE) as [E | E]; [|discriminate]. rewrite E in L. apply (macro_lang y z) in L. congruence.
  - destruct y as [|c y]; [congruence|]. apply step_iff in L. rewrite (first_in_ok _ [(48, 57)] c H) in L; [inversion L|].
    cbn [app] in D. unfold digit in D. unfold within. cbn [existsb fst snd]. rewrite D. reflexivity.
  - destruct (enum (step 46 r)) as [l|] eqn:E; [|discriminate]. apply (enum_iff _ l E) in L. rewrite forallb_forall in H. apply H in L.
    rewrite existsb_exists in L. destruct L as (p & J & L). destruct (pystr_eqb_spec (upper y) (u (snd p) ++ [46])) as [Q | Q]; [|discriminate].
    assert (S : exists w, y = w ++ [46] /\ upper w = u (snd p)).
    { exists (firstn (length (u (snd p))) y). assert (A := firstn_skipn (length (u (snd p))) y).
      assert (B : upper (skipn (length (u (snd p))) y) = [46]).
      { unfold upper in *. rewrite <- skipn_map, Q, skipn_app, skipn_all, Nat.sub_diag. reflexivity. }
      assert (C : upper (firstn (length (u (snd p))) y) = u (snd p)).
      { unfold upper in *. rewrite <- firstn_map, Q, firstn_app, firstn_all, Nat.sub_diag. cbn [firstn]. apply app_nil_r. }
      split; auto. rewrite <- A at 1. f_equal. destruct (skipn (length (u (snd p))) y) as [|c [|c' rest]]; try discriminate. cbn [upper map] in B. injection B as B. f_equal.
      unfold up in B. destruct ((97 <=? c) && (c <=? 122)) eqn:V; lia. }
    destruct S as (w & -> & W). apply (P p w z J W). rewrite <- app_assoc. reflexivity.
Qed.

(** ** Remarks and continued lines *)
Definition C1 : rx := Star (Cls true [(10, 10)]).
Lemma C1_step : forall c, c <> 10 -> step c C1 = C1.
Proof. intros c H. unfold C1. cbn [step within existsb fst snd]. replace ((10 <=? c) && (c <=? 10)) with false by lia. reflexivity. Qed.
Lemma remark_run : forall r n s, ~ In 10 r -> match s with c :: _ => c = 10 | [] => True end ->
  munch [("COMMENT"%string, C1)] n (Some ("COMMENT"%string, n)) (r ++ s) = Some ("COMMENT"%string, (n + length r)%nat).
Proof.
  induction r as [|c r IH]; intros n s H S.
  - cbn [app length]. rewrite Nat.add_0_r. destruct s as [|c s]; [reflexivity|]. subst c. reflexivity.
  - cbn [app munch]. unfold follow. cbn [map filter fst snd]. rewrite C1_step by (intros ->; apply H; left; auto). cbn [live C1 filter snd accepted nullable fst].
    change (Star (Cls true [(10, 10)])) with C1. rewrite IH; auto. + cbn [length]. f_equal. f_equal. lia. + intros I; apply H; right; auto.
Qed.
Lemma remark_token : forall r s, ~ In 10 r -> match s with c :: _ => c = 10 | [] => True end ->
  munch rules 0%nat None ((u "&&" ++ r) ++ s) = Some ("COMMENT"%string, length (u "&&" ++ r)).
Proof.
  intros r s H S. rewrite <- app_assoc. assert (R := munch_run (u "&&") rules 0%nat None (r ++ s)).
  assert (E : run rules 0%nat None (u "&&") = ([("COMMENT"%string, C1)], 2%nat, Some ("COMMENT"%string, 2%nat))) by (vm_compute; reflexivity).
  rewrite E in R. rewrite R, remark_run; auto.
Qed.
Definition K1 : rx := Cat (Star R_WS) (Cat (Lit [38; 38]) (Cat (Star (Cls true [(10, 10)])) R_NL)).
Definition K2 : rx := Cat (Star R_WS) R_NL.
Definition K3 : rx := Cat (Star (Cls true [(10, 10)])) R_NL.
Definition S1 : state := [("COMMENT"%string, K1); ("LINECONT"%string, K2); ("MACROLINE"%string, R_MACROLINE)].
Definition S0 : state := [("SEMICOLON"%string, Eps); ("COMMENT"%string, K1); ("LINECONT"%string, K2); ("MACROLINE"%string, R_MACROLINE); ("UNMATCHED"%string, Eps)].
Lemma S0_run : run rules 0%nat None [59] = (S0, 1%nat, Some ("SEMICOLON"%string, 1%nat)).
Proof. vm_compute; reflexivity. Qed.
Lemma S_blank : forall c, In c [32; 9; 13] -> follow c S0 = S1 /\ follow c S1 = S1.
Proof. intros c [<- | [<- | [<- | []]]]; split; vm_compute; reflexivity. Qed.
Lemma S_nl : follow 10 S0 = [("LINECONT"%string, Eps)] /\ follow 10 S1 = [("LINECONT"%string, Eps)].
Proof. split; vm_compute; reflexivity. Qed.
Lemma S_amp : forall n best, run S0 n best (u "&&") = ([("COMMENT"%string, K3)], S (S n), best) /\ run S1 n best (u "&&") = ([("COMMENT"%string, K3)], S (S n), best).
Proof. intros n best; split; vm_compute; reflexivity. Qed.
Lemma K3_step : forall c, c <> 10 -> step c K3 = K3.
Proof. intros c H. unfold K3, R_NL. cbn [step within existsb fst snd Lit nullable]. replace ((10 <=? c) && (c <=? 10)) with false by lia. reflexivity. Qed.
Lemma K3_run : forall r n best s, ~ In 10 r -> munch [("COMMENT"%string, K3)] n best (r ++ 10 :: s) = Some ("COMMENT"%string, (n + length r + 1)%nat).
Proof.
  induction r as [|c r IH]; intros n best s H.
  - cbn [app length]. rewrite Nat.add_0_r. cbn [munch]. assert (E : follow 10 [("COMMENT"%string, K3)] = [("COMMENT"%string, Eps)]) by (vm_compute; reflexivity).
    rewrite E. cbn [accepted filter snd nullable fst]. rewrite eps_end. f_equal. f_equal. lia.
  - cbn [app munch]. unfold follow. cbn [map filter fst snd]. rewrite K3_step by (intros ->; apply H; left; auto). cbn [live K3 filter snd accepted nullable fst andb R_NL Lit].
    change (Cat (Star (Cls true [(10, 10)])) (Cls false [(10, 10)])) with K3. rewrite IH by (intros I; apply H; right; auto). cbn [length]. f_equal. f_equal. lia.
Qed.
Lemma blanks_run : forall b st n best s, forallb blank b = true -> st = S0 \/ st = S1 ->
  exists st', (st' = S0 \/ st' = S1) /\ munch st n best (b ++ s) = munch st' (n + length b)%nat best s.
Proof.
  induction b as [|c b IH]; intros st n best s H Hst.
  - exists st. split; auto. cbn [length app]. rewrite Nat.add_0_r. reflexivity.
  - cbn [forallb] in H. apply andb_prop in H as [B H].
    assert (I : In c [32; 9; 13]) by (unfold blank in B; assert (c = 32 \/ c = 9 \/ c = 13) as [-> | [-> | ->]] by lia; cbn; auto).
    destruct (S_blank c I) as [E0 E1]. assert (F : follow c st = S1) by (destruct Hst as [-> | ->]; auto).
    cbn [app]. rewrite munch_step by (rewrite F; discriminate). rewrite F.
    assert (A : accepted S1 = None) by (vm_compute; reflexivity). rewrite A.
    destruct (IH S1 (S n) best s H (or_intror eq_refl)) as (st' & Hst' & E). exists st'. split; auto. rewrite E. f_equal. cbn [length]. lia.
Qed.
Lemma continued_token : forall b r s, layout_ok (Continued b r) ->
  exists k, munch rules 0%nat None (layout_text (Continued b r) ++ s) = Some (k, length (layout_text (Continued b r))) /\ hidden k = true.
Proof.
  intros b r s [Hb Hr]. cbn [layout_text].
  assert (X : forall z, exists st', (st' = S0 \/ st' = S1) /\ munch rules 0%nat None (59 :: b ++ z) = munch st' (1 + length b)%nat (Some ("SEMICOLON"%string, 1%nat)) z).
  { intros z. assert (R := munch_run [59] rules 0%nat None (b ++ z)). rewrite S0_run in R. cbn [app] in R. rewrite R. apply blanks_run; auto. }
  destruct r as [r|].
  - exists "COMMENT"%string. split; [|reflexivity]. cbn [app]. rewrite <- !app_assoc. destruct (X (u "&&" ++ r ++ [10] ++ s)) as (st' & Hst & E). rewrite E.
    assert (Y := munch_run (u "&&") st' (1 + length b)%nat (Some ("SEMICOLON"%string, 1%nat)) (r ++ [10] ++ s)).
    destruct (S_amp (1 + length b)%nat (Some ("SEMICOLON"%string, 1%nat))) as [A0 A1].
    assert (A : run st' (1 + length b)%nat (Some ("SEMICOLON"%string, 1%nat)) (u "&&") = ([("COMMENT"%string, K3)], S (S (1 + length b)), Some ("SEMICOLON"%string, 1%nat)))
      by (destruct Hst as [-> | ->]; auto).
    rewrite A in Y. rewrite Y. change ([10] ++ s) with (10 :: s). rewrite K3_run by auto. f_equal. f_equal. cbn [length]. rewrite !app_length. change (length (u "&&")) with 2%nat. cbn [length]. lia.
  - exists "LINECONT"%string. split; [|reflexivity]. cbn [app]. rewrite <- app_assoc. destruct (X ([10] ++ s)) as (st' & S & E). rewrite E. cbn [app].
    destruct S_nl as [N0 N1]. assert (F : follow 10 st' = [("LINECONT"%string, Eps)]) by (destruct S as [-> | ->]; auto).
    rewrite munch_step by (rewrite F; discriminate). rewrite F. cbn [accepted filter snd nullable fst]. rewrite eps_end. f_equal. f_equal. cbn [length]. rewrite app_length. cbn [length]. lia.
Qed.

(** ** The whole text *)
Lemma macro_skip : forall t s, ~ In 38 t -> ~ In 10 t -> macro (t ++ s) = macro s.
Proof.
  induction t as [|c t IH]; intros s A B; [reflexivity|]. cbn [app macro].
  replace (c =? 38) with false by (symmetry; apply Z.eqb_neq; intros ->; apply A; left; auto).
  replace (c =? 10) with false by (symmetry; apply Z.eqb_neq; intros ->; apply B; left; auto).
  apply IH; intros I; [apply A | apply B]; right; auto.
Qed.
Lemma amp_amp : forall r, macro (u "&&" ++ r) = false.
Proof. intros r. vm_compute. reflexivity. Qed.
Lemma blanks_plain : forall b, forallb blank b = true -> ~ In 38 b /\ ~ In 10 b.
Proof.
  intros b H. rewrite forallb_forall in H. split; intros I; apply H in I; discriminate.
Qed.
Lemma macro_layout : forall g s, layout_ok g -> macro (layout_text g ++ s) = match g with Blank _ => macro s | _ => false end.
Proof.
  intros [c | b r] s H.
  - cbn [layout_text layout_ok] in *. rewrite macro_skip; auto; intros [-> | []]; discriminate.
  - cbn [layout_text layout_ok] in *. destruct H as [Hb Hr]. apply blanks_plain in Hb as [A B]. cbn [app]. rewrite <- !app_assoc.
    change (59 :: b ++ match r with Some r0 => u "&&" ++ r0 | None => [] end ++ [10] ++ s) with ((59 :: b) ++ (match r with Some r0 => u "&&" ++ r0 | None => [] end ++ [10] ++ s)).
    rewrite macro_skip.
    + destruct r as [r|]; [rewrite <- app_assoc; apply amp_amp | reflexivity].
    + intros [E | I]; [discriminate | auto].
    + intros [E | I]; [discriminate | auto].
Qed.
Lemma names_plain : forall w, forallb name_char w = true -> ~ In 38 w /\ ~ In 10 w /\ ~ In 46 w.
Proof. intros w H. rewrite forallb_forall in H. repeat split; intros I; apply H in I; discriminate. Qed.
Lemma word_names : forall w, word w = true -> forallb name_char w = true.
Proof. intros [|c w] H; [discriminate|]. cbn [word forallb] in *. apply andb_prop in H as [A B]. unfold name_char at 1. rewrite A. exact B. Qed.
Lemma digits_names : forall w, forallb digit w = true -> forallb name_char w = true.
Proof. intros w H. rewrite forallb_forall in *. intros c I. unfold name_char. rewrite (H c I). apply Bool.orb_true_r. Qed.
Lemma symbols_plain : forallb (fun p => negb (existsb (fun c => (c =? 38) || (c =? 10)) (u (snd p)))) symbols = true.
Proof. vm_compute; reflexivity. Qed.
Lemma macro_piece : forall p s, piece_ok p -> macro (piece_text p ++ s) = match p with NewLine _ | Remark _ => false | _ => macro s end.
Proof.
  intros [w | a b | k t | k w | q x | r | x] s H; cbn [piece_text piece_ok] in *.
  - apply word_names, names_plain in H as (A & B & _). apply macro_skip; auto.
  - destruct H as (_ & A & B). apply digits_names, names_plain in A as (A1 & A2 & _). destruct b as [b|].
    + destruct B as [_ B]. apply digits_names, names_plain in B as (B1 & B2 & _). apply macro_skip; rewrite in_app_iff; intros [I | [I | I]]; auto; discriminate.
    + rewrite app_nil_r. apply macro_skip; auto.
  - assert (X := proj1 (forallb_forall _ _) symbols_plain _ H). cbn [snd] in X. apply Bool.negb_true_iff in X. apply macro_skip; intros I.
    + assert (Y : existsb (fun c => (c =? 38) || (c =? 10)) (u t) = true) by (apply existsb_exists; exists 38; split; auto). congruence.
    + assert (Y : existsb (fun c => (c =? 38) || (c =? 10)) (u t) = true) by (apply existsb_exists; exists 10; split; auto). congruence.
  - destruct H as (t & I & E). assert (P : ~ In 38 w /\ ~ In 10 w).
    { split; intros J; apply (in_map up) in J; fold (upper w) in J; rewrite E in J; destruct I as [I | [I | [I | []]]]; injection I as <- <-; vm_compute in J; intuition discriminate. }
    destruct P as [P Q]. apply macro_skip; cbn; rewrite in_app_iff; cbn; intuition discriminate.
  - destruct H as (Hq & _ & A & B). apply macro_skip; cbn [In]; rewrite in_app_iff; cbn [In]; destruct Hq as [-> | ->]; intuition discriminate.
  - destruct r as [r|]; [rewrite <- !app_assoc; apply amp_amp | reflexivity].
  - destruct H as (A & B & _). change ((42 :: x ++ [10]) ++ s) with ((42 :: x ++ [10]) ++ s). replace ((42 :: x ++ [10]) ++ s) with ((42 :: x) ++ 10 :: s) by (cbn [app]; rewrite <- app_assoc; reflexivity).
    rewrite macro_skip; [reflexivity | intros [J | J]; [discriminate | auto] ..].
Qed.
Definition rest_text (src : source) (last : list layout) : pystr := text src last.
Lemma text_cons : forall g p src last, text ((g, p) :: src) last = flat_map layout_text g ++ piece_text p ++ text src last.
Proof. intros; unfold text; cbn [flat_map fst snd]; rewrite <- !app_assoc; reflexivity. Qed.
Lemma macro_layouts : forall gs s, Forall layout_ok gs -> macro s = false -> macro (flat_map layout_text gs ++ s) = false.
Proof.
  induction gs as [|g gs IH]; intros s H M; [exact M|]. inversion H; subst. cbn [flat_map]. rewrite <- app_assoc, macro_layout by auto. destruct g; auto.
Qed.
Lemma macro_text : forall src last, Forall (fun p => Forall layout_ok (fst p) /\ piece_ok (snd p)) src -> Forall layout_ok last -> macro (text src last) = false.
Proof.
  induction src as [|[g p] src IH]; intros last H L.
  - unfold text. cbn [flat_map app]. rewrite <- (app_nil_r (flat_map layout_text last)). apply macro_layouts; auto.
  - inversion H as [|? ? [Hg Hp] H']; subst. rewrite text_cons. apply macro_layouts; auto. rewrite macro_piece by auto. destruct p; auto.
Qed.
(* the character after a piece *)
Definition head_ok (f : Z -> Prop) (s : pystr) : Prop := match s with c :: _ => f c | [] => True end.
Lemma layout_head : forall g s, layout_ok g -> exists c t, layout_text g ++ s = c :: t /\ In c [32; 9; 13; 59].
Proof.
  intros [c | b r] s H; cbn [layout_text app]; [exists c, s | eexists _, _]; split; try reflexivity; cbn.
  - cbn [layout_ok] in H. unfold blank in H. assert (c = 32 \/ c = 9 \/ c = 13) as [-> | [-> | ->]] by lia; auto.
  - auto.
Qed.
Definition other_heads : list Z := Eval vm_compute in nodup Z.eq_dec ([10; 38; 46] ++ flat_map (fun p => firstn 1 (u (snd p))) symbols).
Lemma piece_head : forall p s, piece_ok p -> exists c t, piece_text p ++ s = c :: t /\
  match p with Word _ => letter c = true | Number _ _ => digit c = true | _ => In c other_heads end.
Proof.
  assert (S : forallb (fun p => match u (snd p) with c :: _ => if in_dec Z.eq_dec c other_heads then true else false | [] => false end) symbols = true) by (vm_compute; reflexivity).
  intros [w | a b | k t | k w | q x | r | x] s H; cbn [piece_text piece_ok] in *.
  - destruct w as [|c w]; [discriminate|]. cbn [word] in H. apply andb_prop in H as [A _]. eexists _, _; split; [reflexivity | exact A].
  - destruct H as (A & B & _). destruct a as [|c a]; [congruence|]. cbn [forallb] in B. apply andb_prop in B as [B _]. eexists _, _; split; [reflexivity | exact B].
  - assert (X := proj1 (forallb_forall _ _) S _ H). cbn [snd] in X. destruct (u t) as [|c x]; [discriminate|]. eexists _, _; split; [reflexivity|].
    destruct (in_dec Z.eq_dec c other_heads); [auto | discriminate].
  - eexists _, _; split; [reflexivity | vm_compute; auto 40].
  - eexists _, _; split; [reflexivity|]. destruct H as ([-> | ->] & _); vm_compute; auto 40.
  - destruct r as [r|]; eexists _, _; (split; [reflexivity | vm_compute; auto 40]).
  - eexists _, _; split; [reflexivity | vm_compute; auto 40].
Qed.
Lemma other_not_name : forall c, In c ([32; 9; 13; 59] ++ other_heads) -> within c id_continue = false /\ name_char c = false /\ digit c = false /\ letter c = false.
Proof.
  assert (H : forallb (fun c => negb (within c id_continue) && negb (name_char c)) ([32; 9; 13; 59] ++ other_heads) = true) by (vm_compute; reflexivity).
  intros c I. apply (proj1 (forallb_forall _ _) H) in I. apply andb_prop in I as [A B]. apply Bool.negb_true_iff in A, B. unfold name_char in B.
  apply Bool.orb_false_iff in B as [B1 B2]. unfold name_char. rewrite B1, B2. auto.
Qed.
(* what stands after a piece *)
Lemma after_head : forall p src last, Forall (fun p => Forall layout_ok (fst p) /\ piece_ok (snd p)) src -> Forall layout_ok last ->
  match src with (g, q) :: _ => g <> [] \/ runs_on p q = false | [] => True end ->
  match text src last with
  | [] => True
  | c :: _ => In c [32; 9; 13; 59] \/ exists q src', src = ([], q) :: src' /\ runs_on p q = false
  end.
Proof.
  intros p src last H L A. destruct src as [|[g q] src].
  - unfold text. cbn [flat_map app]. destruct last as [|g last]; [exact I|]. inversion L; subst. cbn [flat_map].
    destruct (layout_head g (flat_map layout_text last)) as (c & t & -> & J); auto.
  - inversion H as [|? ? [Hg Hq] H']; subst. rewrite text_cons. destruct g as [|g gs].
    + cbn [flat_map app]. destruct (piece_text q ++ text src last); [exact I|]. right. exists q, src. destruct A as [A | A]; [congruence | auto].
    + inversion Hg; subst. cbn [flat_map]. rewrite <- app_assoc. destruct (layout_head g (flat_map layout_text gs ++ piece_text q ++ text src last)) as (c & t & -> & J); auto.
Qed.
Lemma starts_head : forall q f s c t, starts_with q f = false -> piece_ok q -> piece_text q ++ s = c :: t -> f c = false.
Proof.
  intros q f s c t H Q E. unfold starts_with in H. destruct (piece_head q [] Q) as (d & t' & E' & _). rewrite app_nil_r in E'. rewrite E' in *. cbn in E. congruence.
Qed.
Lemma names_prefix : forall a b x y, forallb name_char a = true -> forallb name_char b = true -> a ++ x = b ++ y ->
  head_ok (fun c => name_char c = false) x -> head_ok (fun c => name_char c = false) y -> a = b.
Proof.
  induction a as [|c a IH]; intros [|d b] x y A B E X Y; auto; cbn in E.
  - subst x. cbn in X, B. rewrite X in B. discriminate.
  - subst y. cbn in Y, A. rewrite Y in A. discriminate.
  - injection E as <- E. cbn in A, B. apply andb_prop in A as [_ A]. apply andb_prop in B as [_ B]. f_equal. eapply IH; eauto.
Qed.
Lemma dotted_word : forall p w, In p dotted -> upper w = u (snd p) -> word w = true.
Proof.
  assert (H : forall c, letter c = letter (up c)) by (intros c; unfold letter, up; destruct ((97 <=? c) && (c <=? 122)) eqn:E; lia).
  assert (N : forall c, name_char c = name_char (up c)) by (intros c; unfold name_char, digit; rewrite <- H; f_equal; unfold up; destruct ((97 <=? c) && (c <=? 122)) eqn:E; lia).
  assert (W : forall w, word w = word (upper w)).
  { intros [|c w]; [reflexivity|]. cbn [word upper map]. rewrite <- H. f_equal. induction w as [|d w IH]; [reflexivity|]. cbn [forallb map]. rewrite <- N, IH. reflexivity. }
  intros p w I E. rewrite W, E. destruct I as [<- | [<- | [<- | []]]]; reflexivity.
Qed.
(** ** Texts in quotes *)
Definition no_quotes : list (Z * Z) := [(-1, 33); (35, 38); (40, 1114112)].
Lemma quote_rules : forallb (fun p => is_macro (snd p) || (if rx_eq_dec (snd p) R_COMMENT then true else false) || (if rx_eq_dec (snd p) R_LINECONT then true else false)
  || all_in (snd p) no_quotes || match snd p with Cls _ _ => true | _ => false end) rules = true.
Proof. vm_compute; reflexivity. Qed.
Lemma split_clash : forall (a c b d : pystr) x y, a ++ x :: b = c ++ y :: d -> ~ In y a -> x <> y -> ~ In x c -> False.
Proof.
  induction a as [|e a IH]; intros [|f c] b d x y E A N C; cbn in E.
  - injection E as E _. congruence.
  - injection E as -> _. apply C; left; auto.
  - injection E as -> _. apply A; left; auto.
  - injection E as -> E. apply (IH c b d x y E); auto; intros I; [apply A | apply C]; right; auto.
Qed.
Lemma star_ws : forall t, lang (Star R_WS) t -> forall c, In c t -> c = 32 \/ c = 9 \/ c = 13.
Proof.
  intros t L c I. assert (W := all_in_ok (Star R_WS) [(32, 32); (9, 9); (13, 13)] t eq_refl L c I). unfold within in W. cbn [existsb fst snd] in W. lia.
Qed.
Lemma lit_lang : forall l t, lang (Lit l) t -> t = l.
Proof.
  assert (C : forall c t, lang (Cls false [(c, c)]) t -> t = [c]).
  { intros c t L. inversion L as [| ? ? d Hd | | | | | ]; subst. rewrite Bool.xorb_false_l in Hd. cbn [existsb fst snd] in Hd. f_equal. lia. }
  induction l as [|c l IH]; intros t L; [inversion L; reflexivity|]. destruct l as [|d l]; [apply C; exact L|].
  change (Lit (c :: d :: l)) with (Cat (Cls false [(c, c)]) (Lit (d :: l))) in L. apply lang_cat_inv in L as (x & y & -> & X & Y). apply C in X. apply IH in Y. subst. reflexivity.
Qed.
Lemma over_quote : forall k r s q y z, In (k, r) rules -> s <> [] -> q = 34 \/ q = 39 -> ~ In 10 s -> ~ In 38 s -> macro (y ++ z) = false -> ~ lang r (s ++ q :: y).
Proof.
  intros k r s q y z I Hs Hq N A M L. assert (H := proj1 (forallb_forall _ _) quote_rules _ I). cbn [snd] in H.
  apply Bool.orb_prop in H as [H | H]; [apply Bool.orb_prop in H as [H | H]; [apply Bool.orb_prop in H as [H | H]; [apply Bool.orb_prop in H as [H | H]|]|]|].
  - unfold is_macro in H. destruct (rx_eq_dec r R_MACROLINE) as [-> | _]; [|discriminate]. apply (macro_lang _ z) in L.
    replace ((s ++ q :: y) ++ z) with ((s ++ [q]) ++ (y ++ z)) in L by (rewrite <- !app_assoc; reflexivity). rewrite macro_skip in L; [congruence | |];
      rewrite in_app_iff; cbn [In]; destruct Hq as [-> | ->]; intuition discriminate.
  - destruct (rx_eq_dec r R_COMMENT) as [-> | _]; [|discriminate]. unfold R_COMMENT in L. apply lang_alt_iff in L as [L | L].
    + apply lang_cat_inv in L as (a & b & E & X & _). apply lit_lang in X. subst a. destruct s as [|c s]; [congruence|]. cbn [app] in E. injection E as -> _. apply A; left; auto.
    + apply lang_cat_inv in L as (a & b & E & X & L). apply lit_lang in X. subst a. apply lang_cat_inv in L as (w & b' & -> & W & L).
      apply lang_cat_inv in L as (a & b & -> & X & _). apply lit_lang in X. subst a. cbn [app] in E.
      apply (split_clash s (59 :: w) y (38 :: b) q 38 E); auto; [destruct Hq; lia|].
      intros [J | J]; [destruct Hq; lia|]. apply (star_ws w W) in J. destruct Hq; lia.
  - destruct (rx_eq_dec r R_LINECONT) as [-> | _]; [|discriminate]. unfold R_LINECONT in L.
    apply lang_cat_inv in L as (a & b & E & X & L). apply lit_lang in X. subst a. apply lang_cat_inv in L as (w & b' & -> & W & L). apply lit_lang in L. subst b'. cbn [app] in E.
    apply (split_clash s (59 :: w) y [] q 10 E); auto; [destruct Hq; lia|].
    intros [J | J]; [destruct Hq; lia|]. apply (star_ws w W) in J. destruct Hq; lia.
  - assert (W := all_in_ok r no_quotes _ H L q). unfold within, no_quotes in W. cbn [existsb fst snd] in W. assert (J : In q (s ++ q :: y)) by (apply in_or_app; right; left; auto).
    specialize (W J). destruct Hq; subst; cbn in W; discriminate.
  - destruct r; try discriminate. assert (E := f_equal (@length Z) (eq_refl (s ++ q :: y))). inversion L as [| ? ? c Hc E1 E2 | | | | | ]. destruct s as [|d s]; [congruence|]. destruct s; discriminate E2.
Qed.
Lemma munch_total : forall c s, munch rules 0%nat None (c :: s) <> None.
Proof.
  intros c s E. assert (T := tokens_text (c :: s)).
  assert (X : tokens (c :: s) = []) by (unfold tokens; cbn [scan length]; rewrite E; reflexivity). rewrite X in T. discriminate.
Qed.
Lemma quote_token : forall q s, q = 34 \/ q = 39 -> macro s = false -> munch rules 0%nat None (q :: s) = Some (quote_kind q, 1%nat).
Proof.
  assert (F : forall q, In q [34; 39] -> fixed (quote_kind q) [q] [] = true) by (intros q [<- | [<- | []]]; vm_compute; reflexivity).
  intros q s Hq M. apply (fixed_token (quote_kind q) [q] [] s); auto; [|destruct s; auto]. apply F. destruct Hq as [-> | ->]; cbn; auto.
Qed.
Lemma quoted_inner : forall n s q r, (length s <= n)%nat -> q = 34 \/ q = 39 -> ~ In 10 s -> ~ In 38 s -> macro r = false ->
  tokens (s ++ q :: r) = tokens s ++ (quote_kind q, [q]) :: tokens r.
Proof.
  induction n as [|n IH]; intros s q r Ln Hq N A M.
  - destruct s; [|cbn in Ln; lia]. cbn [app]. change (q :: r) with ([q] ++ r). rewrite (tokens_cons [q] r (quote_kind q)); [reflexivity|]. apply quote_token; auto.
  - destruct s as [|c s].
    + cbn [app]. change (q :: r) with ([q] ++ r). rewrite (tokens_cons [q] r (quote_kind q)); [reflexivity|]. apply quote_token; auto.
    + destruct (munch rules 0%nat None (c :: s)) as [[k m]|] eqn:E; [|exfalso; apply (munch_total c s E)].
      assert (E0 := E). apply munch_first in E as (F & E & Lm). remember (firstn m (c :: s)) as t eqn:Ht. remember (skipn m (c :: s)) as v eqn:Hv.
      assert (Lt : length t = m) by (subst t; apply firstn_length_le; lia). destruct F as (Tn & _ & (bf & rr & af & ER & L & Hb) & Mx).
      assert (I : forall x, In x v -> In x (c :: s)) by (intros x J; rewrite E; apply in_or_app; auto).
      assert (T : munch rules 0%nat None (t ++ v) = Some (k, length t)) by (rewrite <- E, Lt; exact E0).
      assert (T2 : munch rules 0%nat None (t ++ v ++ q :: r) = Some (k, length t)).
      { apply munch_best; auto.
        - rewrite munch_longest0 in T. apply longest_some in T as [[T _] | (x & y & E1 & Hx & En & Hf & _)]; [discriminate|]. cbn [app] in *.
          assert (x = t). { apply (f_equal (firstn (length t))) in E1. rewrite firstn_app, firstn_all, Nat.sub_diag, En, firstn_app, firstn_all, Nat.sub_diag in E1. cbn [firstn] in E1. rewrite !app_nil_r in E1. auto. }
          subst x. exact Hf.
        - intros y z Ey Hy. apply fm_none_intro. intros k' r' J L'. 
          destruct (le_lt_dec (length y) (length v)) as [Le | Gt].
          + assert (exists w, v = y ++ w) as [w Ew].
            { exists (skipn (length y) v). apply (f_equal (firstn (length y))) in Ey. rewrite (firstn_app (length y) y), firstn_all, Nat.sub_diag in Ey. cbn [firstn] in Ey. rewrite app_nil_r in Ey.
              rewrite firstn_app in Ey. replace (length y - length v)%nat with 0%nat in Ey by lia. cbn [firstn] in Ey. rewrite app_nil_r in Ey. rewrite <- Ey at 1. symmetry. apply firstn_skipn. }
            specialize (Mx k' r' (t ++ y) w J L'). rewrite app_length in Mx. destruct y; [congruence|]. cbn [length] in Mx. rewrite E, Ew, <- app_assoc in Mx. specialize (Mx eq_refl). lia.
          + assert (exists y', y = v ++ q :: y') as [y' ->].
            { exists (skipn (S (length v)) y). apply (f_equal (firstn (length y))) in Ey. rewrite (firstn_app (length y) y), firstn_all, Nat.sub_diag in Ey. cbn [firstn] in Ey. rewrite app_nil_r in Ey.
              rewrite firstn_app, firstn_all2 in Ey by lia. destruct (length y - length v)%nat as [|d] eqn:Ed; [lia|]. cbn [firstn] in Ey. rewrite <- Ey. f_equal.
              rewrite skipn_app. rewrite skipn_all2 by lia. replace (S (length v) - length v)%nat with 1%nat by lia. reflexivity. }
            rewrite app_assoc, <- E in L'. rewrite <- app_assoc in Ey. apply app_inv_head in Ey. cbn [app] in Ey. injection Ey as Ey. revert L'. apply (over_quote k' r' (c :: s) q y' z); auto; [discriminate | rewrite <- Ey; exact M]. }
      rewrite E. rewrite <- app_assoc. rewrite (tokens_cons _ _ _ T), (tokens_cons _ _ _ T2). cbn [app]. f_equal. apply IH; try assumption.
      * apply (f_equal (@length Z)) in E. rewrite app_length in E. cbn [length] in *. lia.
      * intros J; apply N; auto.
      * intros J; apply A; auto.
Qed.
(** ** Remarks *)
Definition no_newline : list (Z * Z) := [(-1, 9); (11, 1114112)].
Lemma newline_rules : forallb (fun p => is_macro (snd p) || (if rx_eq_dec (snd p) R_COMMENT then true else false) || (if rx_eq_dec (snd p) R_LINECONT then true else false)
  || all_in (snd p) no_newline || match snd p with Cls _ _ => true | _ => false end) rules = true.
Proof. vm_compute; reflexivity. Qed.
Lemma over_newline : forall k r s y, In (k, r) rules -> s <> [] -> ~ In 10 s -> ~ In 38 s -> ~ In 59 s -> ~ lang r (s ++ 10 :: y).
Proof.
  intros k r s y I Hs N A C L. assert (H := proj1 (forallb_forall _ _) newline_rules _ I). cbn [snd] in H. destruct s as [|c s]; [congruence|].
  apply Bool.orb_prop in H as [H | H]; [apply Bool.orb_prop in H as [H | H]; [apply Bool.orb_prop in H as [H | H]; [apply Bool.orb_prop in H as [H | H]|]|]|].
  - unfold is_macro in H. destruct (rx_eq_dec r R_MACROLINE) as [-> | _]; [|discriminate]. apply (macro_lang _ []) in L. rewrite app_nil_r, macro_skip in L by auto. discriminate L.
  - destruct (rx_eq_dec r R_COMMENT) as [-> | _]; [|discriminate]. unfold R_COMMENT in L. apply lang_alt_iff in L as [L | L].
    + apply lang_cat_inv in L as (a & b & E & X & _). apply lit_lang in X. subst a. cbn [app] in E. injection E as -> _. apply A; left; auto.
    + apply lang_cat_inv in L as (a & b & E & X & L). apply lit_lang in X. subst a. cbn [app] in E. injection E as -> _. apply C; left; auto.
  - destruct (rx_eq_dec r R_LINECONT) as [-> | _]; [|discriminate]. unfold R_LINECONT in L.
    apply lang_cat_inv in L as (a & b & E & X & L). apply lit_lang in X. subst a. cbn [app] in E. injection E as -> _. apply C; left; auto.
  - assert (W := all_in_ok r no_newline _ H L 10). assert (J : In 10 ((c :: s) ++ 10 :: y)) by (apply in_or_app; right; left; auto). specialize (W J). vm_compute in W. discriminate.
  - destruct r; try discriminate. inversion L as [| ? ? d Hd E1 E2 | | | | | ]; destruct s as [|e s]; cbn [app] in *; discriminate.
Qed.
Lemma remark_inner : forall n s r, (length s <= n)%nat -> ~ In 10 s -> ~ In 38 s -> ~ In 59 s -> tokens (s ++ 10 :: r) = tokens s ++ ("NL"%string, [10]) :: tokens r.
Proof.
  induction n as [|n IH]; intros s r Ln N A C.
  - destruct s; [|cbn in Ln; lia]. cbn [app]. change (10 :: r) with ([10] ++ r). rewrite (tokens_cons [10] r "NL"%string); [reflexivity | apply nl_token].
  - destruct s as [|c s].
    + cbn [app]. change (10 :: r) with ([10] ++ r). rewrite (tokens_cons [10] r "NL"%string); [reflexivity | apply nl_token].
    + destruct (munch rules 0%nat None (c :: s)) as [[k m]|] eqn:E; [|exfalso; apply (munch_total c s E)].
      assert (E0 := E). apply munch_first in E as (F & E & Lm). remember (firstn m (c :: s)) as t eqn:Ht. remember (skipn m (c :: s)) as v eqn:Hv.
      assert (Lt : length t = m) by (subst t; apply firstn_length_le; lia). destruct F as (Tn & _ & (bf & rr & af & ER & L & Hb) & Mx).
      assert (I : forall x, In x v -> In x (c :: s)) by (intros x J; rewrite E; apply in_or_app; auto).
      assert (T : munch rules 0%nat None (t ++ v) = Some (k, length t)) by (rewrite <- E, Lt; exact E0).
      assert (T2 : munch rules 0%nat None (t ++ v ++ 10 :: r) = Some (k, length t)).
      { apply munch_best; auto.
        - rewrite munch_longest0 in T. apply longest_some in T as [[T _] | (x & y & E1 & Hx & En & Hf & _)]; [discriminate|]. cbn [app] in *.
          assert (x = t). { apply (f_equal (firstn (length t))) in E1. rewrite firstn_app, firstn_all, Nat.sub_diag, En, firstn_app, firstn_all, Nat.sub_diag in E1. cbn [firstn] in E1. rewrite !app_nil_r in E1. auto. }
          subst x. exact Hf.
        - intros y z Ey Hy. apply fm_none_intro. intros k' r' J L'.
          destruct (le_lt_dec (length y) (length v)) as [Le | Gt].
          + assert (exists w, v = y ++ w) as [w Ew].
            { exists (skipn (length y) v). apply (f_equal (firstn (length y))) in Ey. rewrite (firstn_app (length y) y), firstn_all, Nat.sub_diag in Ey. cbn [firstn] in Ey. rewrite app_nil_r in Ey.
              rewrite firstn_app in Ey. replace (length y - length v)%nat with 0%nat in Ey by lia. cbn [firstn] in Ey. rewrite app_nil_r in Ey. rewrite <- Ey at 1. symmetry. apply firstn_skipn. }
            specialize (Mx k' r' (t ++ y) w J L'). rewrite app_length in Mx. destruct y; [congruence|]. cbn [length] in Mx. rewrite E, Ew, <- app_assoc in Mx. specialize (Mx eq_refl). lia.
          + assert (exists y', y = v ++ 10 :: y') as [y' ->].
            { exists (skipn (S (length v)) y). apply (f_equal (firstn (length y))) in Ey. rewrite (firstn_app (length y) y), firstn_all, Nat.sub_diag in Ey. cbn [firstn] in Ey. rewrite app_nil_r in Ey.
              rewrite firstn_app, firstn_all2 in Ey by lia. destruct (length y - length v)%nat as [|d] eqn:Ed; [lia|]. cbn [firstn] in Ey. rewrite <- Ey. f_equal.
              rewrite skipn_app. rewrite skipn_all2 by lia. replace (S (length v) - length v)%nat with 1%nat by lia. reflexivity. }
            rewrite app_assoc, <- E in L'. revert L'. apply (over_newline k' r' (c :: s) y'); auto; discriminate. }
      rewrite E. rewrite <- app_assoc. rewrite (tokens_cons _ _ _ T), (tokens_cons _ _ _ T2). cbn [app]. f_equal. apply IH.
      * apply (f_equal (@length Z)) in E. rewrite app_length in E. cbn [length] in *. lia.
      * intros J; apply N; auto.
      * intros J; apply A; auto.
      * intros J; apply C; auto.
Qed.
Lemma piece_read : forall p src last,
  piece_ok p -> Forall (fun p => Forall layout_ok (fst p) /\ piece_ok (snd p)) src -> Forall layout_ok last -> apart (([], p) :: src) ->
  tokens (piece_text p ++ text src last) = piece_all p ++ tokens (text src last).
Proof.
  intros p src last Hp H L A. assert (M := macro_text src last H L).
  assert (A1 : match src with (g, q) :: _ => g <> [] \/ runs_on p q = false | [] => True end) by (destruct src as [|[g q] src]; [exact I | apply A]).
  assert (X := after_head p src last H L A1).
  assert (one : forall k t s, t <> [] -> munch rules 0%nat None (t ++ s) = Some (k, length t) -> tokens (t ++ s) = (k, t) :: tokens s).
  { intros k t s _ T. apply (tokens_cons _ _ _ T). }
  assert (Q : forall q src', src = ([], q) :: src' -> piece_ok q) by (intros q src' ->; inversion H as [|? ? [_ K] _]; exact K).
  assert (TX : forall q src', src = ([], q) :: src' -> text src last = piece_text q ++ text src' last) by (intros q src' ->; rewrite text_cons; reflexivity).
  destruct p as [w | a b | k t | k w | q0 x | [r|] | x]; cbn [piece_all app]; try cbn [piece_kind].
  - apply one; [intros E0; cbn [piece_text] in E0; subst w; discriminate Hp |]. apply word_token; [exact Hp | | exact (eq_trans (macro_piece (Word w) (text src last) Hp) M)].
    destruct (text src last) as [|c s] eqn:E; [exact I|]. destruct X as [J | (q & src' & -> & R)].
    + apply other_not_name. apply in_or_app; auto.
    + specialize (Q q src' eq_refl). specialize (TX q src' eq_refl). cbn [runs_on] in R.
      assert (N := starts_head q name_char (text src' last) c s R Q (eq_sym TX)).
      destruct (piece_head q (text src' last) Q) as (d & t & E' & K). rewrite E' in TX. injection TX as <- <-. apply other_not_name. apply in_or_app; right.
      unfold name_char in N. apply Bool.orb_false_iff in N as [N1 N2]. destruct q; auto; congruence.
  - apply one; [destruct a; [destruct Hp as [Hp _]; congruence | discriminate] |]. apply number_token; auto.
    destruct (text src last) as [|c s] eqn:E; [exact I|]. destruct X as [J | (q & src' & -> & R)].
    + cbn in J. destruct J as [<- | [<- | [<- | [<- | []]]]]; reflexivity.
    + specialize (Q q src' eq_refl). specialize (TX q src' eq_refl). cbn [runs_on] in R.
      assert (N := starts_head q _ (text src' last) c s R Q (eq_sym TX)). cbn beta in N. unfold number_ext, within. rewrite existsb_app. fold (within c ascii_name). rewrite name_within.
      cbn [existsb fst snd]. apply Bool.orb_false_iff in N as [N1 N2]. rewrite N1. cbn [orb]. lia.
  - assert (K2 : u t <> []).
    { assert (V : forallb (fun p => match u (snd p) with [] => false | _ => true end) symbols = true) by (vm_compute; reflexivity).
      apply (proj1 (forallb_forall _ _) V) in Hp. cbn [fst snd] in Hp. intros Z0; rewrite Z0 in Hp; discriminate. }
    apply one; auto. destruct (string_dec t ".") as [-> | Nt].
    + assert (k = "PERIOD"%string) as ->.
      { assert (V : forallb (fun p => negb (String.eqb (snd p) ".") || String.eqb (fst p) "PERIOD") symbols = true) by (vm_compute; reflexivity).
        apply (proj1 (forallb_forall _ _) V) in Hp. cbn [fst snd] in Hp. rewrite String.eqb_refl in Hp. cbn in Hp. apply String.eqb_eq in Hp. exact Hp. }
      change (u ".") with [46]. cbn [app length]. apply period_token; auto. split.
      * destruct (text src last) as [|c s] eqn:E; [exact I|]. destruct X as [J | (q & src' & -> & R)]; [apply other_not_name; apply in_or_app; auto|].
        specialize (Q q src' eq_refl). specialize (TX q src' eq_refl). cbn [runs_on existsb] in R. change (String.eqb "." "=") with false in R. change (String.eqb "." "<") with false in R.
        change (String.eqb "." ">") with false in R. change (String.eqb "." "!") with false in R. rewrite String.eqb_refl in R. cbn [orb andb] in R. apply Bool.orb_false_iff in R as [R _].
        apply (starts_head q _ (text src' last) c s R Q (eq_sym TX)).
      * intros p w z J W E. assert (Hw := dotted_word p w J W). destruct w as [|d w]; [discriminate|]. rewrite E in X. cbn [app] in X. destruct X as [K | (q & src' & -> & R)].
        { assert (N := Hw). cbn [word] in N. apply andb_prop in N as [N _]. destruct (other_not_name d) as (_ & _ & _ & N'); [apply in_or_app; auto | congruence]. }
        specialize (Q q src' eq_refl). specialize (TX q src' eq_refl). rewrite E in TX. cbn [runs_on existsb] in R. change (String.eqb "." "=") with false in R. change (String.eqb "." "<") with false in R.
        change (String.eqb "." ">") with false in R. change (String.eqb "." "!") with false in R. rewrite String.eqb_refl in R. cbn [orb andb] in R. apply Bool.orb_false_iff in R as [R1 R2].
        destruct (piece_head q (text src' last) Q) as (e & t & E' & K). assert (N := Hw). cbn [word] in N. apply andb_prop in N as [N _].
        rewrite <- TX in E'. cbn [app] in E'. injection E' as <- E'.
        destruct q as [w' | a b | k' t' | k' w' | q0 x0 | r | x0]; try (destruct (other_not_name d) as (_ & _ & _ & N'); [apply in_or_app; auto | congruence]).
        2: { unfold starts_with in R1. destruct (piece_text (Number a b)) as [|x xs] eqn:PT; [cbn in Q; destruct a; [destruct Q as [Q _]; congruence | discriminate]|]. cbn [app] in TX. injection TX as <- _. unfold letter, digit in *. lia. }
        assert (w' = d :: w) as ->.
        { apply (names_prefix w' (d :: w) (text src' last) (46 :: z)); [apply word_names; exact Q | apply word_names; exact Hw | symmetry; exact TX | | reflexivity].
          inversion H as [|? ? _ H']; subst. cbn [apart] in A. destruct A as [_ A].
          assert (A2 : match src' with (g, q) :: _ => g <> [] \/ runs_on (Word w') q = false | [] => True end) by (destruct src' as [|[g q] src']; [exact I | apply A]).
          assert (X' := after_head (Word w') src' last H' L A2). destruct (text src' last) as [|c s] eqn:E2; [exact I|]. cbn. destruct X' as [K' | (q & src2 & -> & R)]; [apply other_not_name; apply in_or_app; auto|].
          inversion H' as [|? ? [_ Q'] _]; subst. rewrite text_cons in E2. cbn [flat_map app] in E2. apply (starts_head q name_char (text src2 last) c s R Q' E2). }
        assert (Y : existsb (fun p => pystr_eqb (upper (d :: w)) (u (snd p))) dotted = true).
        { apply existsb_exists. exists p. split; auto. rewrite W. destruct (pystr_eqb_spec (u (snd p)) (u (snd p))); congruence. }
        congruence.
    + apply sym_token; auto. destruct (text src last) as [|c s] eqn:E; [exact I|]. unfold sym_ext. destruct X as [J | (q & src' & -> & R)].
      * cbn in J. destruct (existsb (String.eqb t) ["="; "<"; ">"; "!"]%string); destruct J as [<- | [<- | [<- | [<- | []]]]]; reflexivity.
      * specialize (Q q src' eq_refl). specialize (TX q src' eq_refl). cbn [runs_on] in R. apply Bool.orb_false_iff in R as [R _].
        destruct (existsb (String.eqb t) ["="; "<"; ">"; "!"]%string); [|reflexivity]. cbn [andb] in R.
        assert (N := starts_head q _ (text src' last) c s R Q (eq_sym TX)). cbn beta in N. unfold within. cbn [existsb fst snd]. lia.
  - apply one; [discriminate | apply dotted_token; auto].
  - cbn [piece_text app]. destruct Hp as (Hq & _ & N & B). rewrite <- !app_assoc. cbn [app]. change (q0 :: x ++ q0 :: text src last) with ([q0] ++ x ++ q0 :: text src last).
    rewrite (tokens_cons [q0] _ (quote_kind q0)).
    + f_equal. apply (quoted_inner (length x)); auto.
    + apply quote_token; auto. rewrite macro_skip by auto. change (q0 :: text src last) with ([q0] ++ text src last). rewrite macro_skip; auto; intros [-> | []]; destruct Hq; discriminate.
  - cbn [piece_text]. assert (T : munch rules 0%nat None ((u "&&" ++ r) ++ 10 :: text src last) = Some ("COMMENT"%string, length (u "&&" ++ r))) by (apply remark_token; auto).
    rewrite <- (app_assoc (u "&&" ++ r) [10]). change ([10] ++ text src last) with (10 :: text src last). rewrite (tokens_cons _ _ _ T). f_equal.
    apply (one "NL"%string [10]); [discriminate | apply nl_token].
  - apply (one "NL"%string [10]); [discriminate | apply nl_token].
  - cbn [piece_text app]. destruct Hp as (N & B & C). rewrite <- !app_assoc. cbn [app]. change (42 :: x ++ 10 :: text src last) with ([42] ++ x ++ 10 :: text src last).
    rewrite (tokens_cons [42] _ "ASTERISK"%string).
    + f_equal. apply (remark_inner (length x)); auto.
    + cbn [app]. apply (fixed_token "ASTERISK" [42] [] (x ++ 10 :: text src last)); [vm_compute; reflexivity | | destruct (x ++ 10 :: text src last); auto].
      rewrite macro_skip by auto. reflexivity.
Qed.
Lemma layouts_read : forall gs s, Forall layout_ok gs -> macro s = false ->
  exists hs, forallb (fun t => hidden (fst t)) hs = true /\ tokens (flat_map layout_text gs ++ s) = hs ++ tokens s.
Proof.
  induction gs as [|g gs IH]; intros s H M; [exists []; split; reflexivity|]. inversion H as [|? ? Hg Hgs]; subst. cbn [flat_map]. rewrite <- app_assoc.
  assert (T : exists k, munch rules 0%nat None (layout_text g ++ flat_map layout_text gs ++ s) = Some (k, length (layout_text g)) /\ hidden k = true).
  { destruct g as [c | b r]; [|apply continued_token; auto]. exists "WS"%string. split; [apply blank_token; auto; apply macro_layouts; auto | reflexivity]. }
  destruct T as (k & T & Hk). destruct (IH s Hgs M) as (hs & A & B). exists ((k, layout_text g) :: hs). split; [cbn [forallb fst]; rewrite Hk; exact A|].
  rewrite (tokens_cons _ _ _ T), B. reflexivity.
Qed.
Theorem text_read : forall src last, laid_out src last -> interleaved (map snd src) (tokens (text src last)).
Proof.
  intros src last (H & L & A). induction src as [|[g p] src IH].
  - unfold text. cbn [flat_map app map]. rewrite <- (app_nil_r (flat_map layout_text last)). destruct (layouts_read last [] L eq_refl) as (hs & B & ->). constructor.
    change (tokens []) with (@nil (string * pystr)). rewrite app_nil_r. exact B.
  - inversion H as [|? ? [Hg Hp] H']; subst. rewrite text_cons. assert (A' : apart src) by (destruct src as [|[g' q] src]; [exact I | apply A]).
    destruct (layouts_read g (piece_text p ++ text src last) Hg) as (hs & B & ->).
    + rewrite macro_piece by auto. assert (M := macro_text src last H' L). destruct p; auto.
    + rewrite piece_read; auto. cbn [map snd]. constructor; auto.
Qed.
Lemma visible_hidden : forall hs ts, forallb (fun t : string * pystr => hidden (fst t)) hs = true -> visible (hs ++ ts) = visible ts.
Proof. induction hs as [|h hs IH]; intros ts H; [reflexivity|]. cbn [forallb] in H. apply andb_prop in H as [A B]. unfold visible. cbn [app filter]. rewrite A. apply IH; auto. Qed.
Lemma visible_app : forall a b, visible (a ++ b) = visible a ++ visible b.
Proof. intros; apply filter_app. Qed.
Theorem text_tokens : forall src last, laid_out src last -> visible (tokens (text src last)) = flat_map (fun p => piece_tokens (snd p)) src.
Proof.
  intros src last H. apply text_read in H. revert H. generalize (tokens (text src last)) as ts. induction src as [|[g p] src IH]; intros ts H; cbn [map snd] in H.
  - inversion H as [hs B E|]; subst. rewrite <- (app_nil_r ts), visible_hidden by auto. reflexivity.
  - inversion H as [|p' ps hs ts' B I E1 E2]; subst. rewrite visible_hidden by auto. rewrite visible_app. cbn [flat_map snd]. f_equal. apply IH; auto.
Qed.
(* what the tokens of a piece are *)
Lemma word_not_hidden : forall w, hidden (word_kind w) = false.
Proof.
  intros w. unfold word_kind. destruct (find_word spellings (upper w)) as [k|] eqn:E.
  - assert (V : forallb (fun p => negb (hidden (snd p))) spellings = true) by (vm_compute; reflexivity).
    assert (J : exists x, In (x, k) spellings). { clear -E. induction spellings as [|[x k'] l IH]; [discriminate|]. cbn [find_word] in E. destruct (pystr_eqb x (upper w)); [injection E as ->; exists x; left; auto | destruct (IH E) as [y J]; exists y; right; auto]. }
    destruct J as [x J]. apply (proj1 (forallb_forall _ _) V) in J. cbn [snd] in J. apply Bool.negb_true_iff in J. exact J.
  - destruct (pystr_eqb w (u "_")); reflexivity.
Qed.
Lemma piece_not_hidden : forall p, piece_ok p -> hidden (piece_kind p) = false.
Proof.
  intros [w | a b | k t | k w | q s | r | s] H; cbn [piece_kind piece_ok] in *.
  - apply word_not_hidden.
  - reflexivity.
  - assert (V : forallb (fun p => negb (hidden (fst p))) symbols = true) by (vm_compute; reflexivity). apply (proj1 (forallb_forall _ _) V) in H. apply Bool.negb_true_iff in H. exact H.
  - destruct H as (t & J & _). destruct J as [J | [J | [J | []]]]; injection J as <- _; reflexivity.
  - unfold quote_kind. destruct (q =? 34); reflexivity.
  - reflexivity.
  - reflexivity.
Qed.
Theorem piece_tokens_are : forall p, piece_ok p -> piece_tokens p =
  match p with
  | Quoted q s => (quote_kind q, [q]) :: visible (tokens s) ++ [(quote_kind q, [q])]
  | NewLine _ => [("NL"%string, [10])]
  | Remark s => ("ASTERISK"%string, [42]) :: visible (tokens s) ++ [("NL"%string, [10])]
  | _ => [(piece_kind p, piece_text p)]
  end.
Proof.
  intros p H. assert (K := piece_not_hidden p H). unfold piece_tokens. destruct p as [w | a b | k t | k w | q s | [r|] | s]; cbn [piece_all piece_kind] in *;
    try (unfold visible; cbn [filter fst]; rewrite K; reflexivity); try reflexivity.
  - unfold visible. cbn [filter fst]. rewrite K. cbn [negb]. f_equal. rewrite filter_app. cbn [filter fst]. rewrite K. reflexivity.
  - unfold visible. cbn [filter fst]. change (hidden "ASTERISK") with false. cbn [negb]. f_equal. rewrite filter_app. reflexivity.
Qed.
