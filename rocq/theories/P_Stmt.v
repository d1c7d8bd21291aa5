(** Proofs about the conversion of statements *)
From Verif Require Import PyBase PyStr M_Stmt S_Stmt.
Open Scope Z_scope.

Scheme fstmt_mind := Induction for fstmt Sort Prop
  with flines_mind := Induction for flines Sort Prop
  with fopt_mind := Induction for fopt Sort Prop
  with fcases_mind := Induction for fcases Sort Prop
  with fcatch_mind := Induction for fcatch Sort Prop.
Combined Scheme fox_mind from fstmt_mind, flines_mind, fopt_mind, fcases_mind, fcatch_mind.
Lemma item_ind' (P : item -> Prop) : (forall s, P (Ln s)) -> (forall l, Forall P l -> P (Bl l)) -> forall i, P i.
Proof. intros H1 H2. fix F 1. intros [s|l]; [apply H1|]. apply H2. induction l; constructor; auto. Qed.

(** ** Lines *)
Lemma split_line s : ~ In 10 s -> split_lines s = [s].
Proof.
  induction s as [|c s IH]; intros H; [reflexivity|]. cbn. destruct (Z.eqb_spec c 10) as [->|_]; [exfalso; apply H; left; reflexivity|].
  rewrite IH; [reflexivity|]. intros H'. apply H. right. exact H'.
Qed.
Lemma split_nonnil s : split_lines s <> [].
Proof. induction s as [|c s IH]; cbn; [discriminate|]. destruct (c =? 10); [discriminate|]. destruct (split_lines s); discriminate. Qed.
Lemma split_app a b : split_lines (a ++ 10 :: b) = split_lines a ++ split_lines b.
Proof.
  induction a as [|c a IH]; [reflexivity|]. cbn [app split_lines]. rewrite IH. destruct (c =? 10); [reflexivity|].
  pose proof (split_nonnil a). destruct (split_lines a) as [|x r]; [congruence|]. reflexivity.
Qed.
Lemma split_join l : l <> [] -> split_lines (join [10] l) = flat_map split_lines l.
Proof.
  induction l as [|x [|y l] IH]; intros H; [congruence| |].
  - cbn. rewrite app_nil_r. reflexivity.
  - change (join [10] (x :: y :: l)) with (x ++ [10] ++ join [10] (y :: l)). cbn [app]. rewrite split_app, IH by discriminate. reflexivity.
Qed.

(** The lines of an item that count, n levels deep *)
Fixpoint sig (n : nat) (i : item) : list (nat * pystr) :=
  match i with
  | Ln s => if counts (O, s) then [((4 * n)%nat, s)] else []
  | Bl l => flat_map (sig (S n)) l
  end.
Definition sigs (n : nat) (l : list item) := flat_map (sig n) l.
Fixpoint wf (i : item) : Prop :=
  match i with
  | Ln s => one_line s /\ match s with [] => True | c :: _ => c <> 32 end
  | Bl l => (fix all l := match l with [] => True | i :: l => wf i /\ all l end) l
  end.
Lemma wf_Bl l : wf (Bl l) <-> Forall wf l.
Proof. cbn. induction l as [|i l IH]; split; intros H; [constructor|exact I| |]; [destruct H; constructor; [assumption|apply IH; assumption]|inversion H; subst; split; [assumption|apply IH; assumption]]. Qed.
Lemma spaces_repeat n s : match s with [] => True | c :: _ => c <> 32 end -> spaces (repeat 32 n ++ s) = (n, s).
Proof.
  intros H. induction n as [|n IH]; cbn [repeat app]; [|cbn; rewrite IH; reflexivity].
  destruct s as [|c s]; [reflexivity|]. cbn. destruct (Z.eqb_spec c 32); [contradiction|reflexivity].
Qed.
Lemma sig_text i : forall n, wf i -> filter counts (map spaces (split_lines (indent_item n i))) = sig n i.
Proof.
  induction i as [s|l IH] using item_ind'; intros n W.
  - destruct W as [W1 W2]. cbn [indent_item sig]. destruct s as [|c s]; [reflexivity|]. rewrite split_line.
    + cbn [map]. rewrite spaces_repeat by exact W2. cbn [filter]. unfold counts; cbn [snd]. destruct (negb (c =? 35)); reflexivity.
    + rewrite in_app_iff. intros [H|H]; [apply repeat_spec in H; discriminate|exact (W1 H)].
  - cbn [indent_item sig]. apply wf_Bl in W. destruct l as [|i l]; [reflexivity|]. rewrite split_join by discriminate.
    revert W IH. generalize (i :: l). clear. intros l W IH. induction l as [|i l IHl]; [reflexivity|]. inversion W; subst. inversion IH; subst.
    cbn [map flat_map]. rewrite map_app, filter_app, IHl by assumption. f_equal. auto.
Qed.
Lemma significant_text l n : Forall wf l -> significant (add_indents l n) = sigs n l.
Proof.
  intros W. unfold significant, add_indents. destruct l as [|i l]; [reflexivity|]. rewrite split_join by discriminate.
  revert W. generalize (i :: l). clear. intros l W. induction l as [|i l IH]; [reflexivity|]. inversion W; subst.
  cbn [map flat_map]. unfold sigs. cbn [flat_map]. rewrite map_app, filter_app, sig_text by assumption. f_equal. apply IH. assumption.
Qed.
Lemma sigs_app n a b : sigs n (a ++ b) = sigs n a ++ sigs n b.
Proof. apply flat_map_app. Qed.

(** ** Blocks *)
Lemma block_app d a na b nb : block d a na -> block d b nb -> block d (a ++ b) (na ++ nb).
Proof.
  induction 1 as [d|d t rest ns H B IH|d h d' body x rest ns Hh Hd Hb B IH B' IH']; intros Bb; [exact Bb| |].
  - cbn. apply b_simple; auto.
  - cbn [app]. rewrite <- app_assoc. apply (b_comp d h d'); auto.
Qed.
Lemma block_nil d ns : block d [] ns -> ns = [].
Proof. inversion 1; reflexivity. Qed.
Lemma counts_c n c s : c <> 35 -> counts (n, c :: s) = true.
Proof. intros H. unfold counts. cbn. destruct (Z.eqb_spec c 35); [contradiction|reflexivity]. Qed.
Definition starts (s : pystr) : Prop := match s with [] => False | c :: _ => c <> 32 /\ c <> 35 end.
Lemma sigs_head n h b rest : starts h -> sigs n (Ln h :: Bl b :: rest) = ((4 * n)%nat, h) :: sigs (S n) b ++ sigs n rest.
Proof. destruct h as [|c h]; [contradiction|]. intros [_ H]. unfold sigs. cbn [flat_map sig]. rewrite counts_c by exact H. reflexivity. Qed.
Lemma block_head n h b rest nb nr : starts h -> is_head h = true -> nb <> [] -> block (4 * S n) (sigs (S n) b) nb -> block (4 * n) (sigs n rest) nr ->
  block (4 * n) (sigs n (Ln h :: Bl b :: rest)) (NComp h nb :: nr).
Proof. intros Hs H Nb Bb Br. rewrite sigs_head by exact Hs. apply (b_comp _ h (4 * S n)); [exact H|lia|exact Nb|exact Bb|exact Br]. Qed.
Lemma block_simple n t : starts t -> is_head t = false -> block (4 * n) (sigs n [Ln t]) [NSimple t].
Proof. destruct t as [|c t]; [contradiction|]. intros [_ H] H'. unfold sigs. cbn [flat_map sig]. rewrite counts_c by exact H. apply b_simple; [exact H'|apply b_nil]. Qed.
Lemma is_head_colon x : is_head (x ++ u ":") = true.
Proof. unfold is_head. change (u ":") with [58]. rewrite last_last. reflexivity. Qed.
Lemma is_head_colon2 a x : is_head (a ++ x ++ u ":") = true.
Proof. rewrite app_assoc. apply is_head_colon. Qed.
Lemma bad_sigs n l : forallb badline l = true -> sigs n l = [].
Proof.
  induction l as [|i l IH]; intros H; [reflexivity|]. cbn in H. apply andb_true_iff in H as [H1 H2]. unfold sigs in *. cbn [flat_map]. rewrite (IH H2), app_nil_r.
  destruct i as [[|c s]|[|i l']]; try reflexivity; try discriminate H1. cbn in *. unfold counts; cbn. rewrite H1. reflexivity.
Qed.

(** Reading a block is unambiguous. *)
Lemma block_ge d ls ns : block d ls ns -> Forall (fun l => (d <= fst l)%nat) ls.
Proof.
  induction 1 as [d|d t rest ns H B IH|d h d' body x rest ns Hh Hd Hb B IH B' IH']; [constructor|constructor; [apply le_n|exact IH]|].
  constructor; [apply le_n|]. apply Forall_app. split; [|exact IH']. eapply Forall_impl; [|exact IH]. cbn. intros. lia.
Qed.
Lemma block_first d ls ns : block d ls ns -> match ls with [] => True | l :: _ => fst l = d end.
Proof. inversion 1; cbn; auto. Qed.
Lemma split_unique {A} (P : A -> Prop) a b a' b' : a ++ b = a' ++ b' -> Forall P a -> Forall P a' ->
  match b with [] => True | x :: _ => ~ P x end -> match b' with [] => True | x :: _ => ~ P x end -> a = a' /\ b = b'.
Proof.
  revert a'. induction a as [|x a IH]; intros [|y a'] E Ha Ha' Hb Hb'; cbn in E.
  - split; [reflexivity|exact E].
  - subst b. inversion Ha'; subst. contradiction.
  - subst b'. inversion Ha; subst. contradiction.
  - injection E as -> E. inversion Ha; subst. inversion Ha'; subst. destruct (IH a' E) as [-> ->]; auto.
Qed.
Lemma block_unique d ls ns : block d ls ns -> forall ns', block d ls ns' -> ns = ns'.
Proof.
  induction 1 as [d|d t rest ns H B IH|d h d' body x rest ns Hh Hd Hb B IH B' IH']; intros ns' Q.
  - inversion Q; reflexivity.
  - inversion Q as [|t0 rest0 ns0 H0 B0|]; subst; [f_equal; auto|congruence].
  - inversion Q as [|t0 rest0 ns0 H0 B0|h0 d0 body0 x0 rest0 ns0 Hh0 Hd0 Hb0 B0 B0' E]; subst; [congruence|].
    destruct (split_unique (fun l => (d < fst l)%nat) body0 rest0 body rest) as [-> ->].
    + assumption.
    + eapply Forall_impl; [|exact (block_ge _ _ _ B0)]. cbn. intros. lia.
    + eapply Forall_impl; [|exact (block_ge _ _ _ B)]. cbn. intros. lia.
    + pose proof (block_first _ _ _ B0') as F. destruct rest0; [exact I|]. cbn in F. lia.
    + pose proof (block_first _ _ _ B') as F. destruct rest; [exact I|]. cbn in F. lia.
    + assert (d0 = d') as ->.
      { pose proof (block_first _ _ _ B0) as F0. pose proof (block_first _ _ _ B) as F. destruct body as [|l body]; [|congruence]. apply block_nil in B. contradiction. }
      f_equal; [f_equal|]; auto.
Qed.
Lemma py_reads_unique t p q : py_reads t p -> py_reads t q -> p = q.
Proof. intros (l & B & S) (l' & B' & S'). rewrite (block_unique _ _ _ B _ B') in S. congruence. Qed.

(** ** Clauses *)
Lemma after_app p c : after p (p ++ c ++ u ":") = Some c.
Proof. induction p as [|x p IH]; cbn [app after]; [change (u ":") with [58]; rewrite removelast_last; reflexivity|]. rewrite Z.eqb_refl. exact IH. Qed.
Definition start : option (pending * list pystmt) := Some (Nothing, []).
Definition else_of (p : pending) : option (list pystmt) := match p with Nothing => Some [] | Else e => Some e | _ => None end.
Lemma clause_if c b p l e : else_of p = Some e -> clause (u "if " ++ c ++ u ":") b (p, l) = Some (Nothing, PIf c b e :: l).
Proof. unfold clause. rewrite after_app. destruct p; cbn; try discriminate; injection 1 as <-; reflexivity. Qed.
Lemma clause_elif c b p l e : else_of p = Some e -> clause (u "elif " ++ c ++ u ":") b (p, l) = Some (Else [PIf c b e], l).
Proof. unfold clause. rewrite after_app. destruct p; cbn; try discriminate; injection 1 as <-; reflexivity. Qed.
Lemma clause_while c b l : clause (u "while " ++ c ++ u ":") b (Nothing, l) = Some (Nothing, PWhile c b :: l).
Proof. unfold clause. rewrite after_app. reflexivity. Qed.
Lemma clause_for c b l : clause (u "for " ++ c ++ u ":") b (Nothing, l) = Some (Nothing, PFor c b :: l).
Proof. unfold clause. rewrite after_app. reflexivity. Qed.
Lemma clause_def c b l : clause (u "def " ++ c ++ u ":") b (Nothing, l) = Some (Nothing, PDef c b :: l).
Proof. unfold clause. rewrite after_app. reflexivity. Qed.
Lemma add_comp h nb body k : fold_right add_node start nb = Some (Nothing, body) -> add_node (NComp h nb) (Some k) = clause h body k.
Proof. intros H. cbn [add_node]. change (fold_right add_node (Some (Nothing, [])) nb) with (fold_right add_node start nb). rewrite H. reflexivity. Qed.

(** ** Runs *)
Section run.
Variable m : machine.
Lemma prun_unfold N cur p st : prun m N cur p st =
  match p with
  | PSimple t => Some (m_run m cur t st)
  | PIf c a b => if_ m c (pruns m N cur a) (pruns m N cur b) st
  | PWhile c b => while_ m N c (pruns m N cur b) st
  | PFor h b => for_ m N h (pruns m N cur b) st
  | PTry b h f => finally_ m (catch_ m (pruns m N cur b st) (fun e => match h with Some h => pruns m N (Some e) h | None => fun st => Some (st, Raise e) end)) (pruns m N cur f)
  | PDef _ _ => Some (st, Normal)
  end.
Proof. destruct p; reflexivity. Qed.
Lemma pruns_cons N cur p l st : pruns m N cur (p :: l) st = then_ m (prun m N cur p st) (pruns m N cur l).
Proof. reflexivity. Qed.
Lemma pruns_app N cur a b st : pruns m N cur (a ++ b) st = then_ m (pruns m N cur a st) (pruns m N cur b).
Proof. revert st. induction a as [|p a IH]; intros st; [reflexivity|]. cbn [app]. rewrite !pruns_cons. destruct (prun m N cur p st) as [[st1 [| | | |e]]|]; cbn [then_]; auto. Qed.
Lemma pruns_one N cur p st : pruns m N cur [p] st = prun m N cur p st.
Proof. rewrite pruns_cons. destruct (prun m N cur p st) as [[st1 [| | | |e]]|]; reflexivity. Qed.
Lemma then_normal r : then_ m r (fun st => Some (st, Normal)) = r.
Proof. destruct r as [[st [| | | |e]]|]; reflexivity. Qed.
Lemma then_ext r k k' : (forall st, k st = k' st) -> then_ m r k = then_ m r k'.
Proof. intros H. destruct r as [[st [| | | |e]]|]; cbn; auto. Qed.
Lemma if_ext c a a' b b' st : (forall st, a st = a' st) -> (forall st, b st = b' st) -> if_ m c a b st = if_ m c a' b' st.
Proof. intros Ha Hb. unfold if_. destruct (m_test m c st) as [st1 [[|]|e]]; auto. Qed.
Lemma while_ext N c a a' : (forall st, a st = a' st) -> forall st, while_ m N c a st = while_ m N c a' st.
Proof.
  intros H. induction N as [|N IH]; intros st; [reflexivity|]. cbn [while_]. apply if_ext; [|reflexivity].
  intros st1. rewrite H. destruct (a' st1) as [[st2 [| | | |e]]|]; auto.
Qed.
Lemma passes_ext N a a' : (forall st, a st = a' st) -> forall it st, passes m N it a st = passes m N it a' st.
Proof.
  intros H. induction N as [|N IH]; intros it st; [reflexivity|]. cbn [passes]. destruct (m_next m it st) as [st1 [[it1|]|e]]; auto.
  rewrite H. destruct (a' st1) as [[st2 [| | | |e]]|]; auto.
Qed.
Lemma for_ext N h a a' st : (forall st, a st = a' st) -> for_ m N h a st = for_ m N h a' st.
Proof. intros H. unfold for_. destruct (m_start m h st) as [st1 [it|e]]; [apply passes_ext; exact H|reflexivity]. Qed.
Lemma finally_ext r f f' : (forall st, f st = f' st) -> finally_ m r f = finally_ m r f'.
Proof. intros H. unfold finally_. destruct r as [[st s]|]; [rewrite H|]; reflexivity. Qed.
Lemma catch_ext r f f' : (forall e st, f e st = f' e st) -> catch_ m r f = catch_ m r f'.
Proof. intros H. unfold catch_. destruct r as [[st [| | | |e]]|]; auto. Qed.
Lemma finally_normal r : finally_ m r (fun st => Some (st, Normal)) = r.
Proof. destruct r as [[st s]|]; reflexivity. Qed.
End run.
