(** The conversion of statements preserves the control flow. *)
From Verif Require Import PyBase PyStr M_Stmt S_Stmt P_Stmt.
Open Scope Z_scope.

Definition inv (lost : bool) (w w0 : pystr) : Prop := if lost then w0 = [] else w0 = w /\ with_object w.
Lemma dotted_ok w s : with_object w -> dotted w s = w ++ u "." ++ s.
Proof. intros (_ & N & L). destruct w as [|c w]; [contradiction|]. unfold dotted, id_attr. rewrite L. cbn [map concat]. rewrite app_nil_r. reflexivity. Qed.
Lemma code_fox lost w w0 ps : inv lost w w0 -> refs lost ps -> code w0 ps = fox_text w ps.
Proof.
  intros I R. unfold code, fox_text. f_equal. destruct lost.
  - specialize (R eq_refl). apply map_ext_in. intros p Hp. unfold no_dots in R. rewrite Forall_forall in R. specialize (R p Hp). destruct p; [reflexivity|contradiction].
  - destruct I as [-> W]. apply map_ext. intros [s|s]; [reflexivity|]. apply dotted_ok, W.
Qed.

Definition runs := forall m : machine, nat -> option (Ex m) -> St m -> result m.
Definition good (items : list item) (R : runs) : Prop :=
  Forall wf items /\ exists ns ps, (forall n, block (4 * n) (sigs n items) ns) /\ (ns = [] -> forallb badline items = true) /\
    (forall l, fold_right add_node (Some (Nothing, l)) ns = Some (Nothing, ps ++ l)) /\
    (forall m, lawful m -> forall N cur st, pruns m N cur ps st = R m N cur st).
Definition good_block (items : list item) (R : runs) : Prop :=
  Forall wf items /\ exists ns ps, (forall n, block (4 * n) (sigs n items) ns) /\ ns <> [] /\
    (forall l, fold_right add_node (Some (Nothing, l)) ns = Some (Nothing, ps ++ l)) /\
    (forall m, lawful m -> forall N cur st, pruns m N cur ps st = R m N cur st).
Definition skip : runs := fun m _ _ st => Some (st, Normal).
Definition andthen (R S : runs) : runs := fun m N cur st => then_ m (R m N cur st) (S m N cur).

Lemma good_of_block i R : good_block i R -> good i R.
Proof. intros (W & ns & ps & B & Nn & F & E). split; [exact W|]. exists ns, ps. split; [exact B|]. split; [contradiction|]. split; [exact F|exact E]. Qed.
Lemma good_ext i R S : (forall m, lawful m -> forall N cur st, R m N cur st = S m N cur st) -> good i R -> good i S.
Proof. intros H (W & ns & ps & B & Nn & F & E). split; [exact W|]. exists ns, ps. split; [exact B|]. split; [exact Nn|]. split; [exact F|]. intros m L N cur st. rewrite E by exact L. apply H, L. Qed.
Lemma good_nil : good [] skip.
Proof.
  split; [constructor|]. exists [], []. split; [intros n; apply b_nil|]. split; [reflexivity|]. split; [reflexivity|]. reflexivity.
Qed.
Lemma good_app a R b S : good a R -> good b S -> good (a ++ b) (andthen R S).
Proof.
  intros (W & ns & ps & B & Nn & F & E) (W' & ns' & ps' & B' & Nn' & F' & E').
  split; [apply Forall_app; split; assumption|]. exists (ns ++ ns'), (ps ++ ps'). split; [intros n; rewrite sigs_app; apply block_app; auto|]. split; [|split].
  - intros H. apply app_eq_nil in H as [H H']. rewrite forallb_app, Nn, Nn' by assumption. reflexivity.
  - intros l. rewrite fold_right_app, F', F, app_assoc. reflexivity.
  - intros m L N cur st. rewrite pruns_app. rewrite E by exact L. apply then_ext. intros st'. apply E', L.
Qed.
Lemma good_simple t : command_line t -> good [Ln t] (fun m N cur st => Some (m_run m cur t st)).
Proof.
  intros (O & S & H). split.
  - constructor; [|constructor]. split; [exact O|]. destruct t; [exact I|]. apply S.
  - exists [NSimple t], [PSimple t]. split; [intros n; apply block_simple; assumption|]. split; [discriminate|]. split; [reflexivity|].
    intros m L N cur st. rewrite pruns_one. reflexivity.
Qed.
Lemma pass_line : command_line (u "pass").
Proof. split; [intros H; vm_compute in H; intuition discriminate|]. split; [split; intros H; vm_compute in H; discriminate H|reflexivity]. Qed.
Lemma good_lines i R : good i R -> good_block (pass_if_bad i) R.
Proof.
  intros G. unfold pass_if_bad. destruct (forallb badline i) eqn:Eb.
  - destruct G as (W & ns & ps & B & Nn & F & E). pose proof (B 0%nat) as B0. rewrite (bad_sigs 0 _ Eb) in B0. apply block_nil in B0. subst ns.
    pose proof (F []) as F0. cbn in F0. injection F0 as F0. symmetry in F0. apply app_eq_nil in F0 as [-> _].
    split; [apply Forall_app; split; [exact W|constructor; [split; [apply pass_line|intros H; vm_compute in H; discriminate H]|constructor]]|].
    exists [NSimple (u "pass")], [PSimple (u "pass")]. split; [intros n; rewrite sigs_app, (bad_sigs n _ Eb); apply block_simple; apply pass_line|].
    split; [discriminate|]. split; [reflexivity|]. intros m L N cur st. rewrite <- E by exact L. rewrite pruns_one, prun_unfold.
    destruct L as (L & _). rewrite L. reflexivity.
  - destruct G as (W & ns & ps & B & Nn & F & E). split; [exact W|]. exists ns, ps. split; [exact B|]. split; [intros H; rewrite (Nn H) in Eb; discriminate|]. split; assumption.
Qed.
Lemma good_bad i : Forall wf i -> forallb badline i = true -> good i skip.
Proof.
  intros W Hb. split; [exact W|]. exists [], []. split; [intros n; rewrite (bad_sigs n _ Hb); apply b_nil|]. split; [intros _; exact Hb|]. split; reflexivity.
Qed.

(** Lines of a head *)
Lemma wf_head a x : one_line a -> starts a -> one_line x -> wf (Ln (a ++ x ++ u ":")).
Proof.
  intros Oa Sa Ox. split.
  - intros H. rewrite !in_app_iff in H. destruct H as [H|[H|[H|[]]]]; [exact (Oa H)|exact (Ox H)|discriminate H].
  - destruct a; [contradiction|]. apply Sa.
Qed.
Lemma starts_app a x : starts a -> starts (a ++ x).
Proof. destruct a; [contradiction|exact (fun H => H)]. Qed.
Ltac ground := solve [split; let X := fresh in intros X; vm_compute in X; discriminate X].
Lemma wf_block_cons h b rest : wf (Ln h) -> Forall wf b -> Forall wf rest -> Forall wf (Ln h :: Bl b :: rest).
Proof. intros. constructor; [assumption|]. constructor; [apply wf_Bl; assumption|assumption]. Qed.
Lemma fold_cons n ns k : fold_right add_node k (n :: ns) = add_node n (fold_right add_node k ns).
Proof. reflexivity. Qed.

(* a head with a block and nothing after it *)
Lemma good_head h b R (S : runs) (mk : list pystmt -> pystmt) : wf (Ln h) -> starts h -> is_head h = true ->
  (forall ps l, clause h ps (Nothing, l) = Some (Nothing, mk ps :: l)) ->
  (forall m, lawful m -> forall ps, (forall N cur st, pruns m N cur ps st = R m N cur st) -> forall N cur st, prun m N cur (mk ps) st = S m N cur st) ->
  good_block b R -> good [Ln h; Bl b] S.
Proof.
  intros Wh Sh Hh C E (W & ns & ps & B & Nn & F & E'). split; [apply wf_block_cons; [exact Wh|exact W|constructor]|].
  exists [NComp h ns], [mk ps]. split; [intros n; apply block_head; [exact Sh|exact Hh|exact Nn|exact (B (Datatypes.S n))|apply b_nil]|]. split; [discriminate|]. split.
  - intros l. cbn [fold_right]. rewrite (add_comp h ns ps); [apply C|]. unfold start. rewrite F, app_nil_r. reflexivity.
  - intros m L N cur st. rewrite pruns_one. apply E; [exact L|]. intros. apply E'. exact L.
Qed.

(** The clauses of DO CASE from the second on, and what follows them *)
Definition tail (i : list item) (K : forall m : machine, nat -> option (Ex m) -> (St m -> result m) -> St m -> result m) : Prop :=
  Forall wf i /\ exists ns, (forall n, block (4 * n) (sigs n i) ns) /\
    forall p0 e0, else_of p0 = Some e0 -> exists p1 e1, (forall l, fold_right add_node (Some (p0, l)) ns = Some (p1, l)) /\ else_of p1 = Some e1 /\
      forall m, lawful m -> forall N cur other, (forall st, pruns m N cur e0 st = other st) -> forall st, pruns m N cur e1 st = K m N cur other st.

Lemma lines_eq w l : lines w l = (pass_if_bad (fst (visit_all w l)), snd (visit_all w l)).
Proof. destruct l as [|s l]; [reflexivity|]. cbn [lines visit_all]. destruct (visit w s) as [a w1]. destruct (visit_all w1 l) as [b w2]. reflexivity. Qed.
Lemma inv_any lost w w0 b : inv lost w w0 -> b = false -> inv (lost || b) w w0.
Proof. intros H ->. rewrite orb_false_r. exact H. Qed.

Definition Ps (s : fstmt) := forall lost w w0, supported lost w s -> inv lost w w0 ->
  inv (lost || has_with s) w (snd (visit w0 s)) /\ good (fst (visit w0 s)) (fun m N cur st => frun m N w cur s st).
Definition Pl (l : flines) := forall lost w w0, supporteds lost w l -> inv lost w w0 ->
  inv (lost || has_withs l) w (snd (visit_all w0 l)) /\ good (fst (visit_all w0 l)) (fun m N cur st => fruns m N w cur l st).
Definition Po (o : fopt) := match o with FNone => True | FSome l => Pl l end.
Definition Pc (cs : fcases) := forall lost w w0, supportedc lost w cs -> inv lost w w0 ->
  inv (lost || has_withc cs) w (snd (elifs w0 cs)) /\ tail (fst (elifs w0 cs)) (fun m N cur other st => fcase m N w cur cs other st).
Definition Pc' (cs : fcases) := Pc cs /\ match cs with CNil => True | CCons _ b cs => Pl b /\ Pc cs end.
Definition Pk (c : fcatch) := match c with NoCatch => True | Catch _ _ l => Pl l end.

Lemma Pl_lines l lost w w0 : Pl l -> supporteds lost w l -> inv lost w w0 -> exists i w1, lines w0 l = (i, w1) /\ inv (lost || has_withs l) w w1 /\
  good_block i (fun m N cur st => fruns m N w cur l st).
Proof. intros H S I. destruct (H lost w w0 S I) as [I' G]. exists (pass_if_bad (fst (visit_all w0 l))), (snd (visit_all w0 l)). split; [apply lines_eq|]. split; [exact I'|apply good_lines, G]. Qed.

Lemma one_line_u : one_line (u "if ") /\ one_line (u "elif ") /\ one_line (u "while ") /\ one_line (u "for ") /\ one_line (u "def ").
Proof. unfold one_line. cbn. intuition discriminate. Qed.

Lemma tail_nil : tail [] (fun m N cur other st => other st).
Proof. split; [constructor|]. exists []. split; [intros; apply b_nil|]. intros p0 e0 H. exists p0, e0. split; [reflexivity|]. split; [exact H|]. intros m L N cur other Ho st. apply Ho. Qed.
Lemma tail_elif c b R i K : one_line c -> good_block b R -> tail i K ->
  tail (Ln (u "elif " ++ c ++ u ":") :: Bl b :: i) (fun m N cur other st => if_ m c (R m N cur) (K m N cur other) st).
Proof.
  intros Oc (W & ns & ps & B & Nn & F & E) (Wi & ni & Bi & Ti).
  split; [apply wf_block_cons; [apply wf_head; [apply one_line_u|ground|exact Oc]|exact W|exact Wi]|].
  exists (NComp (u "elif " ++ c ++ u ":") ns :: ni). split.
  - intros n. apply block_head; [apply starts_app; ground|apply is_head_colon2|exact Nn|exact (B (S n))|exact (Bi n)].
  - intros p0 e0 H0. destruct (Ti p0 e0 H0) as (p1 & e1 & F1 & El & E1). exists (Else [PIf c ps e1]), [PIf c ps e1]. split; [|split; [reflexivity|]].
    + intros l. rewrite fold_cons, F1. rewrite (add_comp _ ns ps); [|unfold start; rewrite F, app_nil_r; reflexivity]. apply clause_elif. exact El.
    + intros m L N cur other Ho st. rewrite pruns_one, prun_unfold. apply if_ext; [intros; apply E, L|]. intros. apply E1; [exact L|exact Ho].
Qed.
(* the clauses of one if, closed *)
Definition tail0 (i : list item) (R : runs) : Prop :=
  Forall wf i /\ exists ns p1 e1, (forall n, block (4 * n) (sigs n i) ns) /\ (forall l, fold_right add_node (Some (Nothing, l)) ns = Some (p1, l)) /\ else_of p1 = Some e1 /\
    forall m, lawful m -> forall N cur st, pruns m N cur e1 st = R m N cur st.
Lemma tail_closed i K : tail i K -> tail0 i (fun m N cur st => K m N cur (fun st => Some (st, Normal)) st).
Proof.
  intros (Wi & ni & Bi & Ti). split; [exact Wi|]. destruct (Ti Nothing [] eq_refl) as (p1 & e1 & F1 & El & E1). exists ni, p1, e1. split; [exact Bi|]. split; [exact F1|]. split; [exact El|].
  intros m L N cur st. apply E1; [exact L|reflexivity].
Qed.
Lemma tail_else i K b R : tail i K -> good_block b R -> tail0 (i ++ [Ln (u "else:"); Bl b]) (fun m N cur st => K m N cur (R m N cur) st).
Proof.
  intros (Wi & ni & Bi & Ti) (W & ns & ps & B & Nn & F & E). split.
  - apply Forall_app. split; [exact Wi|]. apply wf_block_cons; [|exact W|constructor]. split; [intros H; vm_compute in H; intuition discriminate|intros H; vm_compute in H; discriminate H].
  - destruct (Ti (Else ps) ps eq_refl) as (p1 & e1 & F1 & El & E1). exists (ni ++ [NComp (u "else:") ns]), p1, e1. split; [|split; [|split; [exact El|]]].
    + intros n. rewrite sigs_app. apply block_app; [exact (Bi n)|]. apply block_head; [ground|reflexivity|exact Nn|exact (B (S n))|apply b_nil].
    + intros l. rewrite fold_right_app, fold_cons. cbn [fold_right]. rewrite (add_comp _ ns ps); [|unfold start; rewrite F, app_nil_r; reflexivity].
      change (clause (u "else:") ps (Nothing, l)) with (Some (Else ps, l)). apply F1.
    + intros m L N cur st. apply E1; [exact L|]. intros. apply E, L.
Qed.
Lemma if_tail c b R i K : one_line c -> good_block b R -> tail0 i K ->
  good_block (Ln (u "if " ++ c ++ u ":") :: Bl b :: i) (fun m N cur st => if_ m c (R m N cur) (K m N cur) st).
Proof.
  intros Oc (W & ns & ps & B & Nn & F & E) (Wi & ni & p1 & e1 & Bi & F1 & El & E1).
  split; [apply wf_block_cons; [apply wf_head; [apply one_line_u|ground|exact Oc]|exact W|exact Wi]|].
  exists (NComp (u "if " ++ c ++ u ":") ns :: ni), [PIf c ps e1]. split; [|split; [discriminate|split]].
  - intros n. apply block_head; [apply starts_app; ground|apply is_head_colon2|exact Nn|exact (B (S n))|exact (Bi n)].
  - intros l. rewrite fold_cons, F1. rewrite (add_comp _ ns ps); [|unfold start; rewrite F, app_nil_r; reflexivity]. rewrite (clause_if c ps p1 l e1 El). reflexivity.
  - intros m L N cur st. rewrite pruns_one, prun_unfold. apply if_ext; [intros; apply E, L|]. intros. apply E1, L.
Qed.

(* a block extended by lines at the same depth, in lists of their own *)
Definition blocks (l : list (list item)) : list item := map Bl l.
Lemma sigs_blocks n l : sigs n (blocks l) = sigs (S n) (concat l).
Proof. induction l as [|x l IH]; [reflexivity|]. cbn [blocks map concat]. rewrite sigs_app, <- IH. reflexivity. Qed.

(** TRY: the lines after the try block *)
Definition except_line (to : option pystr) : pystr := match to with Some _ => u "except Exception as err:" | None => u "except Exception:" end.
Lemma good_try b R (hs : list (list item)) H to fin Rf : good_block b R -> good_block (concat hs) H ->
  match fin with Some f => good_block f Rf | None => Rf = skip end ->
  good (Ln (u "try:") :: Bl b :: Ln (except_line to) :: blocks hs ++ match fin with Some f => [Ln (u "finally:"); Bl f] | None => [] end)
    (fun m N cur st => finally_ m (catch_ m (R m N cur st) (fun e => H m N (Some e))) (Rf m N cur)).
Proof.
  intros (W & ns & ps & B & Nn & F & E) (Wh & nh & ph & Bh & Nh & Fh & Eh) Hf.
  assert (T : exists nf pf p1, Forall wf (match fin with Some f => [Ln (u "finally:"); Bl f] | None => [] end) /\
    (forall n, block (4 * n) (sigs n (match fin with Some f => [Ln (u "finally:"); Bl f] | None => [] end)) nf) /\
    (forall l, fold_right add_node (Some (Nothing, l)) nf = Some (p1, l)) /\ (forall m, lawful m -> forall N cur st, pruns m N cur pf st = Rf m N cur st) /\
    (forall l, clause (except_line to) ph (p1, l) = Some (Except ph pf, l))).
  { destruct fin as [f|].
    - destruct Hf as (Wf & nf & pf & Bf & Nf & Ff & Ef). exists [NComp (u "finally:") nf], pf, (Finally pf). split; [|split; [|split; [|split]]].
      + apply wf_block_cons; [|exact Wf|constructor]. split; [intros X; vm_compute in X; intuition discriminate|intros X; vm_compute in X; discriminate X].
      + intros n. apply block_head; [ground|reflexivity|exact Nf|exact (Bf (S n))|apply b_nil].
      + intros l. cbn [fold_right]. rewrite (add_comp _ nf pf); [reflexivity|unfold start; rewrite Ff, app_nil_r; reflexivity].
      + exact Ef.
      + intros l. destruct to; reflexivity.
    - subst Rf. exists [], [], Nothing. split; [constructor|]. split; [intros; apply b_nil|]. split; [reflexivity|]. split; [reflexivity|]. intros l. destruct to; reflexivity. }
  destruct T as (nf & pf & p1 & Wf & Bf & Ff & Ef & Cf).
  assert (Se : starts (except_line to)) by (destruct to; ground).
  split.
  - apply wf_block_cons; [split; [intros X; vm_compute in X; intuition discriminate|intros X; vm_compute in X; discriminate X]|exact W|].
    constructor.
    + split; [destruct to; intros X; vm_compute in X; intuition discriminate|destruct to; intros X; vm_compute in X; discriminate X].
    + apply Forall_app. split; [|exact Wf]. clear -Wh. induction hs as [|x hs IH]; [constructor|]. cbn [concat] in Wh. apply Forall_app in Wh as [Wx Wh].
      constructor; [apply wf_Bl; exact Wx|exact (IH Wh)].
  - exists (NComp (u "try:") ns :: NComp (except_line to) nh :: nf), [PTry ps (Some ph) pf]. split; [|split; [discriminate|split]].
    + intros n. apply block_head; [ground|reflexivity|exact Nn|exact (B (S n))|].
      assert (Eq : sigs n (Ln (except_line to) :: blocks hs ++ match fin with Some f => [Ln (u "finally:"); Bl f] | None => [] end) =
        sigs n (Ln (except_line to) :: Bl (concat hs) :: match fin with Some f => [Ln (u "finally:"); Bl f] | None => [] end)).
      { change (Ln (except_line to) :: blocks hs ++ match fin with Some f => [Ln (u "finally:"); Bl f] | None => [] end) with
          ([Ln (except_line to)] ++ blocks hs ++ match fin with Some f => [Ln (u "finally:"); Bl f] | None => [] end).
        change (Ln (except_line to) :: Bl (concat hs) :: match fin with Some f => [Ln (u "finally:"); Bl f] | None => [] end) with
          ([Ln (except_line to)] ++ blocks [concat hs] ++ match fin with Some f => [Ln (u "finally:"); Bl f] | None => [] end).
        rewrite !sigs_app, !sigs_blocks. cbn [concat]. rewrite app_nil_r. reflexivity. }
      rewrite Eq. apply block_head; [exact Se|destruct to; reflexivity|exact Nh|exact (Bh (S n))|exact (Bf n)].
    + intros l. rewrite !fold_cons, Ff. rewrite (add_comp _ nh ph); [|unfold start; rewrite Fh, app_nil_r; reflexivity]. rewrite Cf.
      rewrite (add_comp _ ns ps); [|unfold start; rewrite F, app_nil_r; reflexivity]. reflexivity.
    + intros m L N cur st. rewrite pruns_one, prun_unfold. rewrite E by exact L.
      rewrite (catch_ext m _ _ (fun e => H m N (Some e))) by (intros; apply Eh, L). apply finally_ext. intros. apply Ef, L.
Qed.

Lemma good_block_ext i R S : (forall m, lawful m -> forall N cur st, R m N cur st = S m N cur st) -> good_block i R -> good_block i S.
Proof. intros H (W & ns & ps & B & Nn & F & E). split; [exact W|]. exists ns, ps. split; [exact B|]. split; [exact Nn|]. split; [exact F|]. intros m L N cur st. rewrite E by exact L. apply H, L. Qed.
Lemma block_prefix pre i R : Forall wf pre -> (forall n, sigs n pre = []) -> good_block i R -> good_block (pre ++ i) R.
Proof.
  intros Wp Sp (W & ns & ps & B & Nn & F & E). split; [apply Forall_app; split; assumption|]. exists ns, ps. split; [intros n; rewrite sigs_app, Sp; exact (B n)|]. split; [exact Nn|]. split; assumption.
Qed.
Lemma good_app_block a R b S : good a R -> good_block b S -> good_block (a ++ b) (andthen R S).
Proof.
  intros (W & ns & ps & B & Nn & F & E) (W' & ns' & ps' & B' & Nn' & F' & E').
  split; [apply Forall_app; split; assumption|]. exists (ns ++ ns'), (ps ++ ps'). split; [intros n; rewrite sigs_app; apply block_app; auto|]. split; [|split].
  - intros H. apply app_eq_nil in H as [_ H]. contradiction.
  - intros l. rewrite fold_right_app, F', F, app_assoc. reflexivity.
  - intros m L N cur st. rewrite pruns_app. rewrite E by exact L. apply then_ext. intros st'. apply E', L.
Qed.
Lemma block_of_good t R : good [Ln t] R -> badline (Ln t) = false -> good_block [Ln t] R.
Proof. intros (W & ns & ps & B & Nn & F & E) Hb. split; [exact W|]. exists ns, ps. split; [exact B|]. split; [intros H; specialize (Nn H); cbn [forallb] in Nn; rewrite Hb in Nn; discriminate|]. split; assumption. Qed.
Lemma orb4_ a b c : a || (b || c) = a || b || c.
Proof. destruct a, b, c; reflexivity. Qed.
Lemma orb4 a b c : a || b || c = a || (b || c).
Proof. destruct a, b, c; reflexivity. Qed.
Lemma raise_line : command_line (u "raise").
Proof. split; [intros H; vm_compute in H; intuition discriminate|]. split; [ground|reflexivity]. Qed.
Lemma bind_line x : one_line x -> command_line (u "S." ++ x ++ u " = vfpfunc.Exception.from_pyexception(err)").
Proof.
  intros O. split.
  - intros H. apply in_app_or in H as [H|H]; [vm_compute in H; intuition discriminate|]. apply in_app_or in H as [H|H]; [exact (O H)|vm_compute in H; intuition discriminate].
  - split; [ground|]. unfold is_head. rewrite app_assoc. change (u " = vfpfunc.Exception.from_pyexception(err)") with (u " = vfpfunc.Exception.from_pyexception(err" ++ [41]).
    rewrite app_assoc, last_last. reflexivity.
Qed.
Lemma not_line c : one_line c -> one_line (u "not (" ++ c ++ u ")").
Proof.
  intros O H. apply in_app_or in H as [H|H]; [vm_compute in H; intuition discriminate|]. apply in_app_or in H as [H|H]; [exact (O H)|vm_compute in H; intuition discriminate].
Qed.

Theorem convert_all : (forall s, Ps s) /\ (forall l, Pl l) /\ (forall o, Po o) /\ (forall cs, Pc' cs) /\ (forall c, Pk c).
Proof.
  apply fox_mind.
  - (* FCmd *) intros ps lost w w0 [R C] I. cbn [visit fst snd has_with frun]. split; [rewrite ?orb_false_r; exact I|].
    rewrite (code_fox lost w w0 ps I R). apply good_simple. exact C.
  - (* FExit *) intros lost w w0 _ I. cbn [visit fst snd has_with frun]. split; [rewrite ?orb_false_r; exact I|].
    eapply good_ext; [|apply good_simple; split; [intros H; vm_compute in H; intuition discriminate|split; [ground|reflexivity]]].
    intros m L N cur st. cbv beta. destruct L as (_ & L & _). rewrite L. reflexivity.
  - (* FLoop *) intros lost w w0 _ I. cbn [visit fst snd has_with frun]. split; [rewrite ?orb_false_r; exact I|].
    eapply good_ext; [|apply good_simple; split; [intros H; vm_compute in H; intuition discriminate|split; [ground|reflexivity]]].
    intros m L N cur st. cbv beta. destruct L as (_ & _ & L & _). rewrite L. reflexivity.
  - (* FComment *) intros ls lost w w0 C I. cbn [visit fst snd has_with frun]. split; [rewrite ?orb_false_r; exact I|].
    cbn [supported] in C. apply good_bad.
    + apply Forall_map. eapply Forall_impl; [|exact C]. intros [|c t] [O S]; (split; [exact O|]); [exact Logic.I|]. subst c. discriminate.
    + rewrite forallb_forall. intros i Hi. apply in_map_iff in Hi as (t & <- & Ht). rewrite Forall_forall in C. destruct (C t Ht) as [_ S]. destruct t as [|c t]; [reflexivity|]. subst c. reflexivity.
  - (* FFail *) intros src lost w w0 [].
  - (* FIf *) intros c a IHa b IHb lost w w0 (R & O & Sa & Sb) I. cbn [visit has_with].
    destruct (Pl_lines a lost w w0 IHa Sa I) as (ia & w1 & Ea & I1 & Ga). rewrite Ea, (code_fox lost w w0 c I R). destruct b as [|b].
    + cbn [fst snd]. split; [rewrite orb_false_r; exact I1|]. eapply good_ext; [|exact (good_of_block _ _ (if_tail _ _ _ _ _ O Ga (tail_closed _ _ tail_nil)))]. reflexivity.
    + destruct (Pl_lines b _ w w1 IHb Sb I1) as (ib & w2 & Eb & I2 & Gb). rewrite Eb. cbn [fst snd]. split; [rewrite <- orb4; exact I2|].
      eapply good_ext; [|exact (good_of_block _ _ (if_tail _ _ _ _ _ O Ga (tail_else _ _ _ _ tail_nil Gb)))]. reflexivity.
  - (* FCase *) intros cm cs IHc o IHo lost w w0 (Cm & Sc & So) I. cbn [visit has_with].
    assert (Cw : Forall wf (map (fun c => Bl (map Ln c)) cm)).
    { apply Forall_map. eapply Forall_impl; [|exact Cm]. intros ls Hl. apply wf_Bl. apply Forall_map. eapply Forall_impl; [|exact Hl].
      intros [|c t] [O S]; (split; [exact O|]); [exact Logic.I|]. subst c. discriminate. }
    assert (Cs : forall n, sigs n (map (fun c => Bl (map Ln c)) cm) = []).
    { intros n. clear -Cm. induction Cm as [|ls cm Hl _ IH]; [reflexivity|]. cbn [map]. unfold sigs in *. cbn [flat_map]. rewrite IH, app_nil_r. cbn [sig].
      clear IH. induction Hl as [|t ls [_ S] _ IH]; [reflexivity|]. cbn [map flat_map]. rewrite IH, app_nil_r. destruct t as [|c t]; [reflexivity|]. subst c. reflexivity. }
    destruct IHc as [_ IHc]. destruct cs as [|c b cs].
    + destruct o as [|o]; [|destruct So as [_ []]; reflexivity]. cbn [fst snd has_withc]. rewrite app_nil_r, orb_false_r. split; [rewrite ?orb_false_r; exact I|].
      apply good_of_block. apply block_prefix; [exact Cw|exact Cs|].
      eapply good_block_ext; [|exact (if_tail (u "True") _ _ _ _ ltac:(intros X; vm_compute in X; intuition discriminate) (good_lines _ _ good_nil) (tail_closed _ _ tail_nil))].
      intros m L N cur st. unfold if_. destruct L as (_ & _ & _ & _ & _ & L & _). rewrite L. reflexivity.
    + destruct IHc as [IHb IHc]. destruct Sc as (R & O & Sb & Sc).
      destruct (Pl_lines b lost w w0 IHb Sb I) as (ib & w1 & Eb & I1 & Gb). rewrite Eb, (code_fox lost w w0 c I R).
      destruct (IHc _ w w1 Sc I1) as [I2 T2]. destruct (elifs w1 cs) as [ir w2]. cbn [fst snd] in *. destruct o as [|o].
      * cbn [fst snd has_withc]. rewrite app_nil_r, orb_false_r, orb4_. split; [exact I2|]. apply good_of_block. apply block_prefix; [exact Cw|exact Cs|].
        eapply good_block_ext; [|exact (if_tail _ _ _ _ _ O Gb (tail_closed _ _ T2))]. reflexivity.
      * destruct So as [So _]. cbn [has_withc] in So. rewrite orb4_ in So. destruct (Pl_lines o _ w w2 IHo So I2) as (io & w3 & Eo & I3 & Go). rewrite Eo. cbn [fst snd has_withc].
        split; [rewrite !orb4 in *; exact I3|]. apply good_of_block. apply block_prefix; [exact Cw|exact Cs|].
        eapply good_block_ext; [|exact (if_tail _ _ _ _ _ O Gb (tail_else _ _ _ _ T2 Go))]. reflexivity.
  - (* FFor *) intros h b IH lost w w0 (R & O & S) I. cbn [visit has_with]. destruct (Pl_lines b lost w w0 IH S I) as (ib & w1 & Eb & I1 & Gb). rewrite Eb, (code_fox lost w w0 h I R).
    cbn [fst snd]. split; [exact I1|].
    eapply (good_head _ _ _ _ (PFor (fox_text w h))); [apply wf_head; [apply one_line_u|ground|exact O]|apply starts_app; ground|apply is_head_colon2|intros; apply clause_for| |exact Gb].
    intros m L ps H N cur st. rewrite prun_unfold. apply for_ext. intros. apply H.
  - (* FScan *) intros h b IH lost w w0 (R & O & S) I. cbn [visit has_with]. destruct (Pl_lines b lost w w0 IH S I) as (ib & w1 & Eb & I1 & Gb). rewrite Eb, (code_fox _ w w1 h I1 R).
    cbn [fst snd]. split; [exact I1|].
    eapply (good_head _ _ _ _ (PFor (fox_text w h))); [apply wf_head; [apply one_line_u|ground|exact O]|apply starts_app; ground|apply is_head_colon2|intros; apply clause_for| |exact Gb].
    intros m L ps H N cur st. rewrite prun_unfold. apply for_ext. intros. apply H.
  - (* FWhile *) intros h b IH lost w w0 (R & O & S) I. cbn [visit has_with]. destruct (Pl_lines b lost w w0 IH S I) as (ib & w1 & Eb & I1 & Gb). rewrite Eb, (code_fox lost w w0 h I R).
    cbn [fst snd]. split; [exact I1|].
    eapply (good_head _ _ _ _ (PWhile (fox_text w h))); [apply wf_head; [apply one_line_u|ground|exact O]|apply starts_app; ground|apply is_head_colon2|intros; apply clause_while| |exact Gb].
    intros m L ps H N cur st. rewrite prun_unfold. apply while_ext. intros. apply H.
  - (* FWith *) intros o b IH lost w w0 (R & W & S) I. cbn [visit has_with]. rewrite (code_fox lost w w0 o I R).
    destruct (Pl_lines b false (fox_text w o) (fox_text w o) IH S (conj eq_refl W)) as (ib & w1 & Eb & I1 & Gb). rewrite Eb. cbn [fst snd]. rewrite orb_true_r. split; [reflexivity|].
    apply good_of_block. exact Gb.
  - (* FTry *) intros b IHb c IHc f IHf lost w w0 (Sb & Sf & Sc) I. destruct c as [|to cond h]; [destruct Sc|]. destruct Sc as (Ot & Oc & Sh). cbn [visit has_with].
    destruct (Pl_lines b lost w w0 IHb Sb I) as (ib & w1 & Eb & I1 & Gb). rewrite Eb.
    assert (Tf : exists lf w2, match f with FNone => ([], w1) | FSome l => lines w1 l end = (lf, w2) /\
      inv (lost || has_withs b || match f with FSome f => has_withs f | FNone => false end) w w2 /\
      (match f with FNone => lf = [] | FSome l => lf <> [] /\ good_block lf (fun m N cur st => fruns m N w cur l st) end)).
    { destruct f as [|f].
      - exists [], w1. split; [reflexivity|]. split; [rewrite orb_false_r; exact I1|reflexivity].
      - destruct (Pl_lines f _ w w1 IHf Sf I1) as (lf & w2 & Ef & I2 & Gf). exists lf, w2. split; [exact Ef|]. split; [exact I2|]. split; [|exact Gf].
        intros ->. destruct Gf as (_ & ns & ps & B & Nn & _). apply Nn. apply (block_nil _ _ (B 0%nat)). }
    destruct Tf as (lf & w2 & Ef & I2 & Gf). rewrite Ef. cbv zeta in Sh, Oc.
    destruct (Pl_lines h _ w w2 IHc Sh I2) as (ih & w3 & Eh & I3 & Gh). rewrite Eh. cbn [fst snd].
    split; [rewrite !orb4 in *; exact I3|].
    set (hs := (match to with Some x => [[Ln (u "S." ++ x ++ u " = vfpfunc.Exception.from_pyexception(err)")]] | None => [] end) ++
               (match cond with Some c => [[Ln (u "if not (" ++ fox_text w c ++ u "):"); Bl [Ln (u "raise")]]] | None => [] end) ++ [ih]).
    set (fin := match f with FNone => None | FSome _ => Some lf end).
    set (Rb := match to with Some x => (fun m N cur st => Some (m_run m cur (u "S." ++ x ++ u " = vfpfunc.Exception.from_pyexception(err)") st)) | None => skip end : runs).
    set (Rw := match cond with Some c => (fun m N cur st => if_ m (u "not (" ++ fox_text w c ++ u ")") (fun st => Some (m_run m cur (u "raise") st)) (fun st => Some (st, Normal)) st) | None => skip end : runs).
    set (Rf := match f with FNone => skip | FSome l => (fun m N cur st => fruns m N w cur l st) end : runs).
    assert (Gt : good_block (concat hs) (andthen Rb (andthen Rw (fun m N cur st => fruns m N w cur h st)))).
    { unfold hs. rewrite concat_app. apply good_app_block.
      - unfold Rb. destruct to as [x|]; [|exact good_nil]. cbn [concat app]. apply good_simple. apply bind_line. exact Ot.
      - rewrite concat_app. apply good_app_block; [|cbn [concat]; rewrite app_nil_r; exact Gh].
        unfold Rw. destruct cond as [c|]; [|exact good_nil]. destruct Oc as [Rc Oc]. cbn [concat app]. apply good_of_block.
        replace (u "if not (" ++ fox_text w c ++ u "):") with (u "if " ++ (u "not (" ++ fox_text w c ++ u ")") ++ u ":") by (rewrite <- !app_assoc; reflexivity).
        exact (if_tail _ _ _ _ _ (not_line _ Oc) (block_of_good _ _ (good_simple _ raise_line) eq_refl) (tail_closed _ _ tail_nil)). }
    pose proof (good_try ib _ hs _ to fin Rf Gb Gt) as G.
    replace (Ln (u "try:") :: Bl ib :: _) with (Ln (u "try:") :: Bl ib :: Ln (except_line to) :: blocks hs ++ match fin with Some f => [Ln (u "finally:"); Bl f] | None => [] end).
    + eapply good_ext; [|apply G; unfold fin, Rf; destruct f as [|f]; [reflexivity|exact (proj2 Gf)]].
      intros m L N cur st. cbn [frun]. rewrite (finally_ext m _ (Rf m N cur) (match f with FSome f => fruns m N w cur f | FNone => fun st => Some (st, Normal) end)) by (unfold Rf; destruct f; reflexivity).
      f_equal. apply catch_ext. intros e st1. unfold andthen. destruct L as (_ & _ & _ & Lr & Lb & _ & Ln).
      assert (Eb' : Rb m N (Some e) st1 = Some (match to with Some x => m_bind m x e st1 | None => st1 end, Normal)).
      { unfold Rb. destruct to as [x|]; [rewrite Lb|]; reflexivity. }
      rewrite Eb'. cbn [then_]. cbv zeta. generalize (match to with Some x => m_bind m x e st1 | None => st1 end). intros st2. unfold Rw. destruct cond as [c|]; [|reflexivity].
      unfold if_. rewrite Ln. destruct (m_test m (fox_text w c) st2) as [st3 [[|]|e']]; cbn [fst snd negb then_]; [reflexivity|rewrite Lr; reflexivity|reflexivity].
    + unfold hs, fin, blocks. rewrite !map_app. destruct cond as [c|]; [rewrite (code_fox _ w w2 c I2 (proj1 Oc))|];
        (destruct f as [|f]; [subst lf|destruct lf; [destruct Gf as [[] _]; reflexivity|]]); destruct to; cbn [map except_line app]; rewrite ?app_nil_r; reflexivity.
  - (* FNil *) intros lost w w0 _ I. cbn [visit_all fst snd has_withs fruns]. split; [apply inv_any; [exact I|reflexivity]|]. exact good_nil.
  - (* FCons *) intros s IHs l IHl lost w w0 (Ss & Sl) I. cbn [visit_all has_withs].
    destruct (IHs lost w w0 Ss I) as [I1 G1]. destruct (visit w0 s) as [a w1]. cbn [fst snd] in *. destruct (IHl _ w w1 Sl I1) as [I2 G2].
    destruct (visit_all w1 l) as [b w2]. cbn [fst snd] in *. split; [rewrite <- orb4; exact I2|]. exact (good_app _ _ _ _ G1 G2).
  - exact I.
  - intros l H. exact H.
  - (* CNil *) split; [|exact I]. intros lost w w0 _ I. cbn [elifs fst snd has_withc fcase]. split; [apply inv_any; [exact I|reflexivity]|]. exact tail_nil.
  - (* CCons *) intros c b IHb cs [IHc _]. split; [|split; [exact IHb|exact IHc]]. intros lost w w0 (R & O & Sb & Sc) I. cbn [elifs has_withc].
    destruct (Pl_lines b lost w w0 IHb Sb I) as (ib & w1 & Eb & I1 & Gb). rewrite Eb, (code_fox lost w w0 c I R).
    destruct (IHc _ w w1 Sc I1) as [I2 T2]. destruct (elifs w1 cs) as [ir w2]. cbn [fst snd] in *. split; [rewrite <- orb4; exact I2|].
    exact (tail_elif _ _ _ _ _ O Gb T2).
  - exact I.
  - intros to cond l H. exact H.
Qed.
