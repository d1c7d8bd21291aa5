(** Proofs about the lexer: words, numbers, symbols and layout *)
From Verif Require Import PyBase PyStr M_Lexer S_Lexer P_Lexer.
From Coq Require Import Lia.
Open Scope Z_scope.

Definition rx_eq_dec : forall a b : rx, {a = b} + {a <> b}.
Proof. decide equality; [apply (list_eq_dec (fun x y : Z * Z => ltac:(decide equality; apply Z.eq_dec))) | apply Bool.bool_dec]. Defined.

(** ** Character classes *)
Definition incl_ranges (l P : list (Z * Z)) : bool := forallb (fun r => existsb (fun q => (fst q <=? fst r) && (snd r <=? snd q)) P) l.
Lemma incl_ranges_ok : forall l P c, incl_ranges l P = true -> within c l = true -> within c P = true.
Proof.
  intros l P c H W. unfold within, incl_ranges in *. rewrite existsb_exists in *. destruct W as (r & I & W). rewrite forallb_forall in H.
  apply H in I. rewrite existsb_exists in I. destruct I as (q & I & Q). exists q; split; auto. lia.
Qed.
Definition disj (l P : list (Z * Z)) : bool := forallb (fun r => forallb (fun q => (snd r <? fst q) || (snd q <? fst r)) P) l.
Lemma disj_ok : forall l P c, disj l P = true -> within c l = true -> within c P = false.
Proof.
  intros l P c H W. destruct (within c P) eqn:E; [|reflexivity]. unfold within, disj in *. rewrite existsb_exists in *.
  destruct W as (r & I & W). destruct E as (q & J & E). rewrite forallb_forall in H. apply H in I. rewrite forallb_forall in I. apply I in J. lia.
Qed.
Fixpoint all_in (r : rx) (P : list (Z * Z)) : bool :=
  match r with Void | Eps => true | Cls o l => negb o && incl_ranges l P | Cat a b | Alt a b => all_in a P && all_in b P | Star a => all_in a P end.
Lemma all_in_ok : forall r P s, all_in r P = true -> lang r s -> forall c, In c s -> within c P = true.
Proof.
  intros r P s H L. revert H. induction L; cbn [all_in]; intros A d I.
  - destruct I.
  - apply andb_prop in A as [A B]. destruct other; [discriminate|]. destruct I as [<- | []]. apply (incl_ranges_ok l); auto. unfold within. destruct (existsb _ l); auto.
  - apply andb_prop in A as [A B]. apply in_app_or in I as [I | I]; auto.
  - apply andb_prop in A as [A B]; auto.
  - apply andb_prop in A as [A B]; auto.
  - destruct I.
  - apply in_app_or in I as [I | I]; [apply IHL1 | apply IHL2]; auto.
Qed.
Fixpoint first_disj (r : rx) (P : list (Z * Z)) : bool :=
  match r with
  | Void | Eps => true | Cls o l => negb o && disj l P
  | Cat a b => first_disj a P && (negb (nullable a) || first_disj b P) | Alt a b => first_disj a P && first_disj b P | Star a => first_disj a P
  end.
Lemma first_disj_ok : forall r P c s, first_disj r P = true -> lang r (c :: s) -> within c P = false.
Proof.
  induction r; intros P c s H L; cbn [first_disj] in H.
  - inversion L.
  - inversion L.
  - apply andb_prop in H as [A B]. destruct other; [discriminate|]. inversion L; subst. apply (disj_ok l); auto. unfold within. destruct (existsb _ l); auto.
  - apply andb_prop in H as [A B]. apply lang_cat_inv in L as (x & y & E & X & Y). destruct x as [|d x]; cbn in E.
    + subst y. apply nullable_iff in X. rewrite X in B. eapply IHr2; eauto.
    + injection E as -> ->. eapply IHr1; eauto.
  - apply andb_prop in H as [A B]. apply lang_alt_iff in L as [L | L]; [eapply IHr1 | eapply IHr2]; eauto.
  - apply star_inv in L as (x & y & -> & X & Y). eapply IHr; eauto.
Qed.
Fixpoint first_in (r : rx) (P : list (Z * Z)) : bool :=
  match r with
  | Void | Eps => true | Cls o l => negb o && incl_ranges l P
  | Cat a b => first_in a P && (negb (nullable a) || first_in b P) | Alt a b => first_in a P && first_in b P | Star a => first_in a P
  end.
Lemma first_in_ok : forall r P c, first_in r P = true -> within c P = false -> step c r = Void.
Proof.
  induction r; intros P c H W; cbn [first_in step] in *; auto.
  - apply andb_prop in H as [A B]. destruct other; [discriminate|]. destruct (within c l) eqn:E; [|reflexivity].
    apply (incl_ranges_ok l P c B) in E. congruence.
  - apply andb_prop in H as [A B]. rewrite (IHr1 P c A W). destruct (nullable r1); [|reflexivity]. rewrite (IHr2 P c B W). reflexivity.
  - apply andb_prop in H as [A B]. rewrite (IHr1 P c A W), (IHr2 P c B W). reflexivity.
  - rewrite (IHr P c H W). reflexivity.
Qed.

(** ** Lines with a macro in them *)
Fixpoint macro (s : pystr) : bool :=
  match s with
  | [] => false
  | c :: r => if c =? 38 then match r with d :: _ => within d id_start | [] => false end else if c =? 10 then false else macro r
  end.
Lemma macro_lang : forall t z, lang R_MACROLINE t -> macro (t ++ z) = true.
Proof.
  intros t z L. unfold R_MACROLINE in L. apply lang_cat_inv in L as (a & b & -> & A & B).
  apply lang_cat_inv in B as (x & b' & -> & X & B). apply lang_cat_inv in B as (i & b'' & -> & I & B).
  cbn in X. inversion X as [| ? ? c Hc | | | | | ]; subst. clear X. assert (c = 38) by (rewrite Bool.xorb_false_l in Hc; cbn [existsb fst snd] in Hc; lia). subst c.
  unfold R_ID in I. apply lang_cat_inv in I as (i1 & i2 & -> & I & _). inversion I as [| ? ? d Hd | | | | | ]; subst. clear I.
  remember (Star (Cls true [(10, 10); (38, 38)])) as R eqn:ER. induction A; try discriminate; injection ER as ->.
  - cbn [app macro]. rewrite Bool.xorb_false_l in Hd. exact Hd.
  - inversion A1 as [| ? ? e He | | | | | ]; subst. cbn [app macro]. rewrite Bool.xorb_true_l in He. cbn [existsb fst snd] in He. replace (e =? 38) with false by lia. replace (e =? 10) with false by lia. auto.
Qed.
Lemma macro_step : forall c, c <> 10 -> c <> 38 -> step c R_MACROLINE = R_MACROLINE.
Proof.
  intros c A B. unfold R_MACROLINE. cbn [step nullable within existsb fst snd Lit]. replace ((10 <=? c) && (c <=? 10)) with false by lia.
  replace ((38 <=? c) && (c <=? 38)) with false by lia. reflexivity.
Qed.
Lemma macro_nl : step 10 R_MACROLINE = Void.
Proof. reflexivity. Qed.
Definition M2 : rx := Eval cbn [R_MACROLINE] in match R_MACROLINE with Cat _ (Cat _ x) => x | x => x end.
Lemma macro_amp : step 38 R_MACROLINE = M2.
Proof. reflexivity. Qed.
Lemma M2_first : first_in M2 id_start = true.
Proof. vm_compute; reflexivity. Qed.
Lemma follow_all_void : forall st c, (forall k r, In (k, r) st -> step c r = Void) -> follow c st = [].
Proof.
  intros st c H. unfold follow. induction st as [|[k r] st IH]; [reflexivity|]. cbn [map filter fst snd]. rewrite (H k r (or_introl eq_refl)). cbn [live].
  apply IH. intros k' r' I. apply (H k' r'). right; auto.
Qed.
Lemma follow_in : forall st c k r, In (k, r) (follow c st) -> exists r0, In (k, r0) st /\ r = step c r0.
Proof.
  intros st c k r I. unfold follow in I. apply filter_In in I as [I _]. apply in_map_iff in I as ([k0 r0] & E & I). cbn in E. injection E as <- <-. eauto.
Qed.
Lemma accepted_none : forall st, (forall k r, In (k, r) st -> nullable r = false) -> accepted st = None.
Proof.
  intros st H. unfold accepted. replace (filter _ st) with (@nil (string * rx)); [reflexivity|]. symmetry. induction st as [|[k r] st IH]; [reflexivity|].
  cbn [filter snd]. rewrite (H k r (or_introl eq_refl)). apply IH. intros; apply (H k0); right; auto.
Qed.
(* nothing but the rule of macro lines can go on, and it does not match *)
Lemma dead_end : forall s st n best,
  (forall k r, In (k, r) st -> r = R_MACROLINE \/ match s with c :: _ => step c r = Void | [] => True end) -> macro s = false -> munch st n best s = best.
Proof.
  induction s as [|c s IH]; intros st n best H M; [reflexivity|]. cbn [munch]. cbn [macro] in M.
  destruct (c =? 38) eqn:C38.
  - assert (c = 38) by lia; subst c.
    assert (F : forall k r, In (k, r) (follow 38 st) -> r = M2).
    { intros k r I. assert (I' := I). apply follow_in in I as (r0 & I & ->). destruct (H k r0 I) as [-> | E]; [apply macro_amp|].
      exfalso. unfold follow in I'. apply filter_In in I' as [_ L]. cbn [snd] in L. rewrite E in L. discriminate. }
    destruct (follow 38 st) as [|p st'] eqn:E; [reflexivity|].
    rewrite (accepted_none (p :: st')) by (intros k r I; rewrite (F k r I); reflexivity).
    destruct s as [|d s]; [reflexivity|]. cbn [munch]. rewrite follow_all_void; [reflexivity|].
    intros k r I. rewrite (F k r I). apply (first_in_ok M2 id_start); auto.
  - destruct (c =? 10) eqn:C10.
    + assert (c = 10) by lia; subst c. rewrite follow_all_void; [reflexivity|]. intros k r I. destruct (H k r I) as [-> | E]; auto.
    + assert (F : forall k r, In (k, r) (follow c st) -> r = R_MACROLINE).
      { intros k r I. assert (I' := I). apply follow_in in I as (r0 & I & ->). destruct (H k r0 I) as [-> | E]; [apply macro_step; lia|].
        exfalso. unfold follow in I'. apply filter_In in I' as [_ L]. cbn [snd] in L. rewrite E in L. discriminate. }
      destruct (follow c st) as [|p st'] eqn:E; [reflexivity|].
      rewrite (accepted_none (p :: st')) by (intros k r I; rewrite (F k r I); reflexivity).
      apply IH; auto. intros k r I. left. eauto.
Qed.

(** ** Following a known text *)
Fixpoint run (st : state) (n : nat) (best : option (string * nat)) (t : pystr) : state * nat * option (string * nat) :=
  match t with
  | [] => (st, n, best)
  | c :: t => let st := follow c st in run st (S n) (match accepted st with Some k => Some (k, S n) | None => best end) t
  end.
Lemma munch_nil : forall s n best, munch [] n best s = best.
Proof. intros [|c s] n best; reflexivity. Qed.
Lemma run_nil : forall t n best, snd (run [] n best t) = best /\ fst (fst (run [] n best t)) = [].
Proof. induction t as [|c t IH]; intros n best; [split; reflexivity|]. cbn [run]. apply IH. Qed.
Lemma munch_run : forall t st n best s, let '(st', n', best') := run st n best t in munch st n best (t ++ s) = munch st' n' best' s.
Proof.
  induction t as [|c t IH]; intros st n best s; [reflexivity|]. cbn [run app munch].
  destruct (follow c st) as [|p st'] eqn:E.
  - cbn [accepted filter]. destruct (run [] (S n) best t) as [[st1 n1] b1] eqn:R.
    destruct (run_nil t (S n) best) as [X Y]. rewrite R in X, Y. cbn in X, Y. subst. rewrite munch_nil. reflexivity.
  - apply IH.
Qed.
Definition is_macro (r : rx) : bool := if rx_eq_dec r R_MACROLINE then true else false.
Definition goes_on (st : state) (ext : list (Z * Z)) : bool := forallb (fun p => is_macro (snd p) || first_in (snd p) ext) st.
Lemma goes_on_end : forall st ext s n best, goes_on st ext = true -> macro s = false ->
  match s with c :: _ => within c ext = false | [] => True end -> munch st n best s = best.
Proof.
  intros st ext s n best H M W. apply dead_end; auto. intros k r I. unfold goes_on in H. rewrite forallb_forall in H. apply H in I. cbn [snd] in I.
  apply Bool.orb_prop in I as [I | I].
  - left. unfold is_macro in I. destruct (rx_eq_dec r R_MACROLINE); [auto | discriminate].
  - right. destruct s as [|c s]; auto. apply (first_in_ok r ext); auto.
Qed.
Definition fixed (k : string) (t : pystr) (ext : list (Z * Z)) : bool :=
  let '(st, n, best) := run rules 0%nat None t in
  match best with Some (k', n') => String.eqb k k' && Nat.eqb n' (length t) && goes_on st ext | None => false end.
Lemma fixed_token : forall k t ext s, fixed k t ext = true -> macro s = false ->
  match s with c :: _ => within c ext = false | [] => True end -> munch rules 0%nat None (t ++ s) = Some (k, length t).
Proof.
  intros k t ext s F M W. unfold fixed in F. assert (R := munch_run t rules 0%nat None s). destruct (run rules 0%nat None t) as [[st n] best].
  destruct best as [[k' n']|]; [|discriminate]. apply andb_prop in F as [F G]. apply andb_prop in F as [F1 F2].
  apply String.eqb_eq in F1. apply Nat.eqb_eq in F2. subst. rewrite R. apply (goes_on_end st ext); auto.
Qed.
