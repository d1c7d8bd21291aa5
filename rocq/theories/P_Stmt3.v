(** The conversion of statements gives the Python statements that are meant, nested as in the source. *)
From Verif Require Import PyBase PyStr M_Stmt S_Stmt P_Stmt P_Stmt2.
Open Scope Z_scope.

(** The Python statements of the emitted text *)
Fixpoint tree (w : pystr) (s : fstmt) {struct s} : list pystmt :=
  match s with
  | FCmd ps => [PSimple (code w ps)]
  | FExit => [PSimple (u "break")]
  | FLoop => [PSimple (u "continue")]
  | FComment _ | FFail _ => []
  | FIf c a b => [PIf (code w c) (block_of (trees w a)) (match b with FSome b => block_of (trees (snd (visit_all w a)) b) | FNone => [] end)]
  | FCase _ cs o =>
      let e := match o with FSome b => block_of (trees (snd (elifs w cs)) b) | FNone => [] end in
      match cs with CNil => [PIf (u "True") [PSimple (u "pass")] e] | _ => treec w cs e end
  | FFor h b => [PFor (code w h) (block_of (trees w b))]
  | FScan h b => [PFor (code (snd (visit_all w b)) h) (block_of (trees w b))]
  | FWhile c b => [PWhile (code w c) (block_of (trees w b))]
  | FWith o b => block_of (trees (code w o) b)
  | FTry b c f =>
      let w1 := snd (visit_all w b) in
      let w2 := match f with FSome f => snd (visit_all w1 f) | FNone => w1 end in
      let tf := match f with FSome f => block_of (trees w1 f) | FNone => [] end in
      match c with
      | NoCatch => block_of (trees w b) ++ tf
      | Catch to cond h =>
          [PTry (block_of (trees w b))
             (Some (match to with Some x => [PSimple (u "S." ++ x ++ u " = vfpfunc.Exception.from_pyexception(err)")] | None => [] end ++
                    match cond with Some c => [PIf (u "not (" ++ code w2 c ++ u ")") [PSimple (u "raise")] []] | None => [] end ++ block_of (trees w2 h))) tf]
      end
  end
with trees (w : pystr) (l : flines) {struct l} : list pystmt := match l with FNil => [] | FCons s l => tree w s ++ trees (snd (visit w s)) l end
with treec (w : pystr) (cs : fcases) (e : list pystmt) {struct cs} : list pystmt :=
  match cs with CNil => e | CCons c b cs => [PIf (code w c) (block_of (trees w b)) (treec (snd (visit_all w b)) cs e)] end.
Fixpoint neat (w : pystr) (s : fstmt) {struct s} : Prop :=
  match s with
  | FCmd ps => command_line (code w ps)
  | FExit | FLoop => True
  | FComment ls => Forall comment_line ls
  | FFail src => Forall one_line src
  | FIf c a b => one_line (code w c) /\ neats w a /\ match b with FSome b => neats (snd (visit_all w a)) b | FNone => True end
  | FCase cm cs o => Forall (Forall comment_line) cm /\ neatc w cs /\ match o with FSome b => neats (snd (elifs w cs)) b | FNone => True end
  | FFor h b | FWhile h b => one_line (code w h) /\ neats w b
  | FScan h b => one_line (code (snd (visit_all w b)) h) /\ neats w b
  | FWith o b => neats (code w o) b
  | FTry b c f =>
      let w1 := snd (visit_all w b) in
      let w2 := match f with FSome f => snd (visit_all w1 f) | FNone => w1 end in
      neats w b /\ match f with FSome f => neats w1 f | FNone => True end /\
      match c with
      | NoCatch => True
      | Catch to cond h => match to with Some x => one_line x | None => True end /\ match cond with Some c => one_line (code w2 c) | None => True end /\ neats w2 h
      end
  end
with neats (w : pystr) (l : flines) {struct l} : Prop := match l with FNil => True | FCons s l => neat w s /\ neats (snd (visit w s)) l end
with neatc (w : pystr) (cs : fcases) {struct cs} : Prop :=
  match cs with CNil => True | CCons c b cs => one_line (code w c) /\ neats w b /\ neatc (snd (visit_all w b)) cs end.

Definition shaped (i : list item) (ps : list pystmt) : Prop :=
  Forall wf i /\ exists ns, (forall n, block (4 * n) (sigs n i) ns) /\ (ns = [] -> forallb badline i = true) /\
    (forall l, fold_right add_node (Some (Nothing, l)) ns = Some (Nothing, ps ++ l)) /\ (ps = [] -> ns = []).
Definition shapedb (i : list item) (ps : list pystmt) : Prop :=
  Forall wf i /\ exists ns, (forall n, block (4 * n) (sigs n i) ns) /\ ns <> [] /\
    (forall l, fold_right add_node (Some (Nothing, l)) ns = Some (Nothing, ps ++ l)) /\ ps <> [].
Lemma shaped_of i ps : shapedb i ps -> shaped i ps.
Proof. intros (W & ns & B & Nn & F & E). split; [exact W|]. exists ns. split; [exact B|]. split; [contradiction|]. split; [exact F|]. intros; contradiction. Qed.
Lemma shaped_nil : shaped [] [].
Proof. split; [constructor|]. exists []. split; [intros; apply b_nil|]. repeat split. Qed.
Lemma shaped_app a b p q : shaped a p -> shaped b q -> shaped (a ++ b) (p ++ q).
Proof.
  intros (W & ns & B & Nn & F & E) (W' & ns' & B' & Nn' & F' & E'). split; [apply Forall_app; split; assumption|]. exists (ns ++ ns').
  split; [intros n; rewrite sigs_app; apply block_app; auto|]. split; [|split].
  - intros H. apply app_eq_nil in H as [H H']. rewrite forallb_app, Nn, Nn' by assumption. reflexivity.
  - intros l. rewrite fold_right_app, F', F, app_assoc. reflexivity.
  - intros H. apply app_eq_nil in H as [H H']. rewrite E, E' by assumption. reflexivity.
Qed.
Lemma shaped_appb a b p q : shaped a p -> shapedb b q -> shapedb (a ++ b) (p ++ q).
Proof.
  intros (W & ns & B & Nn & F & E) (W' & ns' & B' & Nn' & F' & E'). split; [apply Forall_app; split; assumption|]. exists (ns ++ ns').
  split; [intros n; rewrite sigs_app; apply block_app; auto|]. split; [|split].
  - intros H. apply app_eq_nil in H as [_ H]. contradiction.
  - intros l. rewrite fold_right_app, F', F, app_assoc. reflexivity.
  - intros H. apply app_eq_nil in H as [_ H]. contradiction.
Qed.
Lemma shaped_prefix pre i ps : Forall wf pre -> (forall n, sigs n pre = []) -> shapedb i ps -> shapedb (pre ++ i) ps.
Proof.
  intros Wp Sp (W & ns & B & Nn & F & E). split; [apply Forall_app; split; assumption|]. exists ns. split; [intros n; rewrite sigs_app, Sp; exact (B n)|]. split; [exact Nn|]. split; assumption.
Qed.
Lemma shaped_cmd t : command_line t -> shapedb [Ln t] [PSimple t].
Proof.
  intros (O & S & H). split; [constructor; [|constructor]; split; [exact O|]; destruct t; [exact I|apply S]|].
  exists [NSimple t]. split; [intros n; apply block_simple; assumption|]. split; [discriminate|]. split; [reflexivity|discriminate].
Qed.
Lemma shaped_lines i ps : shaped i ps -> shapedb (pass_if_bad i) (block_of ps).
Proof.
  intros (W & ns & B & Nn & F & E). unfold pass_if_bad. destruct (forallb badline i) eqn:Eb.
  - pose proof (B 0%nat) as B0. rewrite (bad_sigs 0 _ Eb) in B0. apply block_nil in B0. subst ns.
    pose proof (F []) as F0. cbn in F0. injection F0 as F0. symmetry in F0. apply app_eq_nil in F0 as [-> _]. cbn [block_of].
    apply (shaped_appb i [Ln (u "pass")] [] [PSimple (u "pass")]); [|apply shaped_cmd, pass_line].
    split; [exact W|]. exists []. split; [exact B|]. split; [intros _; exact Eb|]. split; [exact F|reflexivity].
  - assert (Hn : ns <> []) by (intros H; apply Nn in H; congruence). assert (Hp : ps <> []) by (intros H; exact (Hn (E H))).
    replace (block_of ps) with ps by (destruct ps; [contradiction|reflexivity]). split; [exact W|]. exists ns. split; [assumption|]. split; [assumption|]. split; assumption.
Qed.
Lemma shaped_bad i : Forall wf i -> forallb badline i = true -> shaped i [].
Proof. intros W Hb. split; [exact W|]. exists []. split; [intros n; rewrite (bad_sigs n _ Hb); apply b_nil|]. split; [intros _; exact Hb|]. split; reflexivity. Qed.
Lemma shaped_head h b ps (mk : list pystmt -> pystmt) : wf (Ln h) -> starts h -> is_head h = true ->
  (forall ps l, clause h ps (Nothing, l) = Some (Nothing, mk ps :: l)) -> shapedb b ps -> shapedb [Ln h; Bl b] [mk ps].
Proof.
  intros Wh Sh Hh C (W & ns & B & Nn & F & E). split; [apply wf_block_cons; [exact Wh|exact W|constructor]|].
  exists [NComp h ns]. split; [intros n; apply block_head; [exact Sh|exact Hh|exact Nn|exact (B (S n))|apply b_nil]|]. split; [discriminate|]. split; [|discriminate].
  intros l. cbn [fold_right]. rewrite (add_comp h ns ps); [apply C|]. unfold start. rewrite F, app_nil_r. reflexivity.
Qed.
Definition elses (i : list item) (f : list pystmt -> list pystmt) : Prop :=
  Forall wf i /\ exists ns, (forall n, block (4 * n) (sigs n i) ns) /\
    forall p0 e0, else_of p0 = Some e0 -> exists p1, (forall l, fold_right add_node (Some (p0, l)) ns = Some (p1, l)) /\ else_of p1 = Some (f e0).
Definition closed (i : list item) (e : list pystmt) : Prop :=
  Forall wf i /\ exists ns p1, (forall n, block (4 * n) (sigs n i) ns) /\ (forall l, fold_right add_node (Some (Nothing, l)) ns = Some (p1, l)) /\ else_of p1 = Some e.
Lemma elses_nil : elses [] (fun e => e).
Proof. split; [constructor|]. exists []. split; [intros; apply b_nil|]. intros p0 e0 H. exists p0. split; [reflexivity|exact H]. Qed.
Lemma elses_elif c b ps i f : one_line c -> shapedb b ps -> elses i f -> elses (Ln (u "elif " ++ c ++ u ":") :: Bl b :: i) (fun e => [PIf c ps (f e)]).
Proof.
  intros Oc (W & ns & B & Nn & F & E) (Wi & ni & Bi & Ti). split; [apply wf_block_cons; [apply wf_head; [apply one_line_u|ground|exact Oc]|exact W|exact Wi]|].
  exists (NComp (u "elif " ++ c ++ u ":") ns :: ni). split.
  - intros n. apply block_head; [apply starts_app; ground|apply is_head_colon2|exact Nn|exact (B (S n))|exact (Bi n)].
  - intros p0 e0 H0. destruct (Ti p0 e0 H0) as (p1 & F1 & El). exists (Else [PIf c ps (f e0)]). split; [|reflexivity].
    intros l. rewrite fold_cons, F1. rewrite (add_comp _ ns ps); [|unfold start; rewrite F, app_nil_r; reflexivity]. apply clause_elif. exact El.
Qed.
Lemma closed_none i f : elses i f -> closed i (f []).
Proof. intros (Wi & ni & Bi & Ti). split; [exact Wi|]. destruct (Ti Nothing [] eq_refl) as (p1 & F1 & El). exists ni, p1. split; [exact Bi|]. split; [exact F1|exact El]. Qed.
Lemma closed_else i f b ps : elses i f -> shapedb b ps -> closed (i ++ [Ln (u "else:"); Bl b]) (f ps).
Proof.
  intros (Wi & ni & Bi & Ti) (W & ns & B & Nn & F & E). split.
  - apply Forall_app. split; [exact Wi|]. apply wf_block_cons; [|exact W|constructor]. split; [intros H; vm_compute in H; intuition discriminate|intros H; vm_compute in H; discriminate H].
  - destruct (Ti (Else ps) ps eq_refl) as (p1 & F1 & El). exists (ni ++ [NComp (u "else:") ns]), p1. split; [|split; [|exact El]].
    + intros n. rewrite sigs_app. apply block_app; [exact (Bi n)|]. apply block_head; [ground|reflexivity|exact Nn|exact (B (S n))|apply b_nil].
    + intros l. rewrite fold_right_app, fold_cons. cbn [fold_right]. rewrite (add_comp _ ns ps); [|unfold start; rewrite F, app_nil_r; reflexivity].
      change (clause (u "else:") ps (Nothing, l)) with (Some (Else ps, l)). apply F1.
Qed.
Lemma shaped_if c b ps i e : one_line c -> shapedb b ps -> closed i e -> shapedb (Ln (u "if " ++ c ++ u ":") :: Bl b :: i) [PIf c ps e].
Proof.
  intros Oc (W & ns & B & Nn & F & E) (Wi & ni & p1 & Bi & F1 & El).
  split; [apply wf_block_cons; [apply wf_head; [apply one_line_u|ground|exact Oc]|exact W|exact Wi]|].
  exists (NComp (u "if " ++ c ++ u ":") ns :: ni). split; [|split; [discriminate|split; [|discriminate]]].
  - intros n. apply block_head; [apply starts_app; ground|apply is_head_colon2|exact Nn|exact (B (S n))|exact (Bi n)].
  - intros l. rewrite fold_cons, F1. rewrite (add_comp _ ns ps); [|unfold start; rewrite F, app_nil_r; reflexivity]. rewrite (clause_if c ps p1 l e El). reflexivity.
Qed.
Lemma shaped_try b ps (hs : list (list item)) ph to fin pf : shapedb b ps -> shapedb (concat hs) ph ->
  match fin with Some f => shapedb f pf | None => pf = [] end ->
  shapedb (Ln (u "try:") :: Bl b :: Ln (except_line to) :: blocks hs ++ match fin with Some f => [Ln (u "finally:"); Bl f] | None => [] end) [PTry ps (Some ph) pf].
Proof.
  intros (W & ns & B & Nn & F & E) (Wh & nh & Bh & Nh & Fh & Eh) Hf.
  assert (T : exists nf p1, Forall wf (match fin with Some f => [Ln (u "finally:"); Bl f] | None => [] end) /\
    (forall n, block (4 * n) (sigs n (match fin with Some f => [Ln (u "finally:"); Bl f] | None => [] end)) nf) /\
    (forall l, fold_right add_node (Some (Nothing, l)) nf = Some (p1, l)) /\
    (forall l, clause (except_line to) ph (p1, l) = Some (Except ph pf, l))).
  { destruct fin as [f|].
    - destruct Hf as (Wf & nf & Bf & Nf & Ff & Ef). exists [NComp (u "finally:") nf], (Finally pf). split; [|split; [|split]].
      + apply wf_block_cons; [|exact Wf|constructor]. split; [intros X; vm_compute in X; intuition discriminate|intros X; vm_compute in X; discriminate X].
      + intros n. apply block_head; [ground|reflexivity|exact Nf|exact (Bf (S n))|apply b_nil].
      + intros l. cbn [fold_right]. rewrite (add_comp _ nf pf); [reflexivity|unfold start; rewrite Ff, app_nil_r; reflexivity].
      + intros l. destruct to; reflexivity.
    - subst pf. exists [], Nothing. split; [constructor|]. split; [intros; apply b_nil|]. split; [reflexivity|]. intros l. destruct to; reflexivity. }
  destruct T as (nf & p1 & Wf & Bf & Ff & Cf).
  assert (Se : starts (except_line to)) by (destruct to; ground).
  split.
  - apply wf_block_cons; [split; [intros X; vm_compute in X; intuition discriminate|intros X; vm_compute in X; discriminate X]|exact W|].
    constructor.
    + split; [destruct to; intros X; vm_compute in X; intuition discriminate|destruct to; intros X; vm_compute in X; discriminate X].
    + apply Forall_app. split; [|exact Wf]. clear -Wh. induction hs as [|x hs IH]; [constructor|]. cbn [concat] in Wh. apply Forall_app in Wh as [Wx Wh].
      constructor; [apply wf_Bl; exact Wx|exact (IH Wh)].
  - exists (NComp (u "try:") ns :: NComp (except_line to) nh :: nf). split; [|split; [discriminate|split; [|discriminate]]].
    + intros n. apply block_head; [ground|reflexivity|exact Nn|exact (B (S n))|].
      assert (Eq : sigs n (Ln (except_line to) :: blocks hs ++ match fin with Some f => [Ln (u "finally:"); Bl f] | None => [] end) =
        sigs n (Ln (except_line to) :: Bl (concat hs) :: match fin with Some f => [Ln (u "finally:"); Bl f] | None => [] end)).
      { change (Ln (except_line to) :: blocks hs ++ match fin with Some f => [Ln (u "finally:"); Bl f] | None => [] end) with
          ([Ln (except_line to)] ++ blocks hs ++ match fin with Some f => [Ln (u "finally:"); Bl f] | None => [] end).
        change (Ln (except_line to) :: Bl (concat hs) :: match fin with Some f => [Ln (u "finally:"); Bl f] | None => [] end) with
          ([Ln (except_line to)] ++ blocks [concat hs] ++ match fin with Some f => [Ln (u "finally:"); Bl f] | None => [] end).
        rewrite !sigs_app, !sigs_blocks. cbn [concat]. rewrite app_nil_r. reflexivity. }
      rewrite Eq. apply block_head; [exact Se|destruct to; reflexivity|exact Nh|exact (Bh (S n))|exact (Bf n)].
    + intros l. rewrite !fold_cons, Ff. rewrite (add_comp _ nh ph); [|unfold start; rewrite Fh, app_nil_r; reflexivity]. rewrite Cf.
      rewrite (add_comp _ ns ps); [|unfold start; rewrite F, app_nil_r; reflexivity]. reflexivity.
Qed.

Lemma comments_wf cm : Forall (Forall comment_line) cm -> Forall wf (map (fun c => Bl (map Ln c)) cm).
Proof.
  intros Cm. apply Forall_map. eapply Forall_impl; [|exact Cm]. intros ls Hl. apply wf_Bl. apply Forall_map. eapply Forall_impl; [|exact Hl].
  intros [|c t] [O S]; (split; [exact O|]); [exact Logic.I|]. subst c. discriminate.
Qed.
Lemma comments_sigs cm : Forall (Forall comment_line) cm -> forall n, sigs n (map (fun c => Bl (map Ln c)) cm) = [].
Proof.
  intros Cm n. induction Cm as [|ls cm Hl _ IH]; [reflexivity|]. cbn [map]. unfold sigs in *. cbn [flat_map]. rewrite IH, app_nil_r. cbn [sig].
  clear IH. induction Hl as [|t ls [_ S] _ IH]; [reflexivity|]. cbn [map flat_map]. rewrite IH, app_nil_r. destruct t as [|c t]; [reflexivity|]. subst c. reflexivity.
Qed.
Lemma comment_bad ls : Forall comment_line ls -> shaped (map Ln ls) [].
Proof.
  intros C. apply shaped_bad.
  - apply Forall_map. eapply Forall_impl; [|exact C]. intros [|c t] [O S]; (split; [exact O|]); [exact Logic.I|]. subst c. discriminate.
  - rewrite forallb_forall. intros i Hi. apply in_map_iff in Hi as (t & <- & Ht). rewrite Forall_forall in C. destruct (C t Ht) as [_ S]. destruct t as [|c t]; [reflexivity|]. subst c. reflexivity.
Qed.

Definition Qs (s : fstmt) := forall w, neat w s -> shaped (fst (visit w s)) (tree w s).
Definition Ql (l : flines) := forall w, neats w l -> shaped (fst (visit_all w l)) (trees w l).
Definition Qo (o : fopt) := match o with FNone => True | FSome l => Ql l end.
Definition Qc0 (cs : fcases) := forall w, neatc w cs -> elses (fst (elifs w cs)) (treec w cs).
Definition Qc (cs : fcases) := Qc0 cs /\ match cs with CNil => True | CCons _ b cs => Ql b /\ Qc0 cs end.
Definition Qk (c : fcatch) := match c with NoCatch => True | Catch _ _ l => Ql l end.
Lemma Ql_lines l w : Ql l -> neats w l -> exists i, lines w l = (i, snd (visit_all w l)) /\ shapedb i (block_of (trees w l)).
Proof. intros H N. exists (pass_if_bad (fst (visit_all w l))). split; [apply lines_eq|]. apply shaped_lines, H, N. Qed.

Theorem convert_tree : (forall s, Qs s) /\ (forall l, Ql l) /\ (forall o, Qo o) /\ (forall cs, Qc cs) /\ (forall c, Qk c).
Proof.
  apply fox_mind.
  - (* FCmd *) intros ps w C. apply shaped_of, shaped_cmd, C.
  - (* FExit *) intros w _. apply shaped_of, shaped_cmd. split; [intros H; vm_compute in H; intuition discriminate|split; [ground|reflexivity]].
  - (* FLoop *) intros w _. apply shaped_of, shaped_cmd. split; [intros H; vm_compute in H; intuition discriminate|split; [ground|reflexivity]].
  - (* FComment *) intros ls w C. apply comment_bad, C.
  - (* FFail *) intros src w C. cbn [visit fst tree]. rewrite <- (map_map (fun l => u "#FIX ME: " ++ l) Ln). apply comment_bad. apply Forall_map. eapply Forall_impl; [|exact C].
    intros l O. split; [|reflexivity]. intros H. apply in_app_or in H as [H|H]; [vm_compute in H; intuition discriminate|exact (O H)].
  - (* FIf *) intros c a IHa b IHb w (O & Na & Nb). cbn [visit tree]. destruct (Ql_lines a w IHa Na) as (ia & Ea & Sa). rewrite Ea. apply shaped_of. destruct b as [|b].
    + exact (shaped_if _ _ _ _ _ O Sa (closed_none _ _ elses_nil)).
    + destruct (Ql_lines b _ IHb Nb) as (ib & Eb & Sb). rewrite Eb. exact (shaped_if _ _ _ _ _ O Sa (closed_else _ _ _ _ elses_nil Sb)).
  - (* FCase *) intros cm cs [_ IHc] o IHo w (Cm & Nc & No). cbn [visit tree]. destruct cs as [|c b cs].
    + cbn [elifs fst snd] in *. destruct o as [|o].
      * cbn [fst]. apply shaped_of. apply shaped_prefix; [apply comments_wf, Cm|apply comments_sigs, Cm|]. rewrite app_nil_r.
        refine (shaped_if (u "True") _ _ _ _ _ (shaped_cmd _ pass_line) (closed_none _ _ elses_nil)). intros X; vm_compute in X; intuition discriminate.
      * destruct (Ql_lines o w IHo No) as (io & Eo & So). rewrite Eo. cbn [fst]. apply shaped_of. apply shaped_prefix; [apply comments_wf, Cm|apply comments_sigs, Cm|].
        refine (shaped_if (u "True") _ _ _ _ _ (shaped_cmd _ pass_line) (closed_else _ _ _ _ elses_nil So)). intros X; vm_compute in X; intuition discriminate.
    + destruct IHc as [IHb IHc]. destruct Nc as (O & Nb & Nc). cbn [elifs treec] in *.
      destruct (Ql_lines b w IHb Nb) as (ib & Eb & Sb). rewrite Eb in *. pose proof (IHc _ Nc) as T. destruct (elifs (snd (visit_all w b)) cs) as [ir w2]. cbn [fst snd] in *. destruct o as [|o].
      * cbn [fst]. apply shaped_of. apply shaped_prefix; [apply comments_wf, Cm|apply comments_sigs, Cm|]. rewrite app_nil_r. exact (shaped_if _ _ _ _ _ O Sb (closed_none _ _ T)).
      * destruct (Ql_lines o w2 IHo No) as (io & Eo & So). rewrite Eo. cbn [fst]. apply shaped_of. apply shaped_prefix; [apply comments_wf, Cm|apply comments_sigs, Cm|].
        exact (shaped_if _ _ _ _ _ O Sb (closed_else _ _ _ _ T So)).
  - (* FFor *) intros h b IH w (O & N). cbn [visit tree]. destruct (Ql_lines b w IH N) as (ib & Eb & Sb). rewrite Eb. apply shaped_of.
    apply (shaped_head _ _ _ (PFor _)); [apply wf_head; [apply one_line_u|ground|exact O]|apply starts_app; ground|apply is_head_colon2|intros; apply clause_for|exact Sb].
  - (* FScan *) intros h b IH w (O & N). cbn [visit tree]. destruct (Ql_lines b w IH N) as (ib & Eb & Sb). rewrite Eb. apply shaped_of.
    apply (shaped_head _ _ _ (PFor _)); [apply wf_head; [apply one_line_u|ground|exact O]|apply starts_app; ground|apply is_head_colon2|intros; apply clause_for|exact Sb].
  - (* FWhile *) intros h b IH w (O & N). cbn [visit tree]. destruct (Ql_lines b w IH N) as (ib & Eb & Sb). rewrite Eb. apply shaped_of.
    apply (shaped_head _ _ _ (PWhile _)); [apply wf_head; [apply one_line_u|ground|exact O]|apply starts_app; ground|apply is_head_colon2|intros; apply clause_while|exact Sb].
  - (* FWith *) intros o b IH w N. cbn [visit tree]. cbn [neat] in N. destruct (Ql_lines b _ IH N) as (ib & Eb & Sb). rewrite Eb. apply shaped_of. exact Sb.
  - (* FTry *) intros b IHb c IHc f IHf w (Nb & Nf & Nc). cbn [visit tree]. destruct (Ql_lines b w IHb Nb) as (ib & Eb & Sb). rewrite Eb.
    set (w1 := snd (visit_all w b)) in *. set (w2 := match f with FSome f => snd (visit_all w1 f) | FNone => w1 end) in *.
    set (tf := match f with FSome f => block_of (trees w1 f) | FNone => [] end).
    assert (Hf : exists lf, (match f with FNone => ([], w1) | FSome l => lines w1 l end) = (lf, w2) /\ match f with FSome _ => shapedb lf tf | FNone => lf = [] /\ tf = [] end).
    { destruct f as [|f]; [exists []; repeat split; reflexivity|]. destruct (Ql_lines f w1 IHf Nf) as (lf & Ef & Sf). exists lf. split; [exact Ef|exact Sf]. }
    destruct Hf as (lf & Ef & Sf). rewrite Ef. destruct c as [|to cond h].
    + cbn [fst]. apply shaped_app; [apply shaped_of, Sb|]. destruct f as [|f]; [destruct Sf as [-> ->]; exact shaped_nil|apply shaped_of, Sf].
    + destruct Nc as (Ot & Oc & Nh). destruct (Ql_lines h w2 IHc Nh) as (ih & Eh & Sh). rewrite Eh. cbn [fst].
      set (hs := match to with Some x => [[Ln (u "S." ++ x ++ u " = vfpfunc.Exception.from_pyexception(err)")]] | None => [] end ++
                 match cond with Some c => [[Ln (u "if not (" ++ code w2 c ++ u "):"); Bl [Ln (u "raise")]]] | None => [] end ++ [ih]).
      assert (Gt : shapedb (concat hs) (match to with Some x => [PSimple (u "S." ++ x ++ u " = vfpfunc.Exception.from_pyexception(err)")] | None => [] end ++
                    match cond with Some c => [PIf (u "not (" ++ code w2 c ++ u ")") [PSimple (u "raise")] []] | None => [] end ++ block_of (trees w2 h))).
      { unfold hs. rewrite concat_app. apply shaped_appb.
        - destruct to as [x|]; [|exact shaped_nil]. cbn [concat app]. apply shaped_of, shaped_cmd, bind_line. exact Ot.
        - rewrite concat_app. apply shaped_appb; [|cbn [concat]; rewrite app_nil_r; exact Sh].
          destruct cond as [c|]; [|exact shaped_nil]. cbn [concat app]. apply shaped_of.
          replace (u "if not (" ++ code w2 c ++ u "):") with (u "if " ++ (u "not (" ++ code w2 c ++ u ")") ++ u ":") by (rewrite <- !app_assoc; reflexivity).
          exact (shaped_if _ _ _ _ _ (not_line _ Oc) (shaped_cmd _ raise_line) (closed_none _ _ elses_nil)). }
      set (fin := match f with FNone => None | FSome _ => Some lf end).
      replace (Ln (u "try:") :: Bl ib :: _) with (Ln (u "try:") :: Bl ib :: Ln (except_line to) :: blocks hs ++ match fin with Some f => [Ln (u "finally:"); Bl f] | None => [] end).
      * apply shaped_of. apply shaped_try; [exact Sb|exact Gt|]. unfold fin. destruct f as [|f]; [apply Sf|exact Sf].
      * unfold hs, fin, blocks. rewrite !map_app. destruct f as [|f]; [destruct Sf as [-> _]|destruct lf as [|x lf]; [exfalso; destruct Sf as (_ & ns & B & Nn & _); specialize (B O); apply block_nil in B; contradiction|]];
          destruct cond; destruct to; cbn [map except_line app]; rewrite ?app_nil_r; reflexivity.
  - (* FNil *) intros w _. exact shaped_nil.
  - (* FCons *) intros s IHs l IHl w (Ns & Nl). cbn [visit_all trees]. pose proof (IHs w Ns) as S1. destruct (visit w s) as [a w1]. cbn [fst snd] in *.
    pose proof (IHl w1 Nl) as S2. destruct (visit_all w1 l) as [b w2]. cbn [fst] in *. apply shaped_app; assumption.
  - exact I.
  - intros l H. exact H.
  - (* CNil *) split; [|exact I]. intros w _. exact elses_nil.
  - (* CCons *) intros c b IHb cs [IHc _]. split; [|split; [exact IHb|exact IHc]]. intros w (O & Nb & Nc). cbn [elifs treec].
    destruct (Ql_lines b w IHb Nb) as (ib & Eb & Sb). rewrite Eb. pose proof (IHc _ Nc) as T. destruct (elifs (snd (visit_all w b)) cs) as [ir w2]. cbn [fst] in *. exact (elses_elif _ _ _ _ _ O Sb T).
  - exact I.
  - intros to cond l H. exact H.
Qed.

Lemma shaped_reads i ps : shaped i ps -> py_reads (add_indents i 0) ps.
Proof.
  intros (W & ns & B & _ & F & _). exists ns. split.
  - rewrite significant_text by exact W. exact (B O).
  - unfold statements. rewrite F, app_nil_r. reflexivity.
Qed.

(** ** Printable programs are neat *)
Definition good_with (w : pystr) : Prop := one_line w /\ match w with [] => True | c :: _ => c <> 32 /\ c <> 35 end.
Lemma one_line_app a b : one_line a -> one_line b -> one_line (a ++ b).
Proof. intros A B H. apply in_app_or in H as [H|H]; [exact (A H)|exact (B H)]. Qed.
Lemma one_line_lit s : forallb (fun c => negb (c =? 10)) s = true -> one_line s.
Proof. intros H I. rewrite forallb_forall in H. specialize (H 10 I). discriminate. Qed.
Lemma one_scope s : one_line s -> one_line (scope_id s).
Proof.
  intros O. unfold scope_id. destruct (pystr_eqb s (u "this")); [apply one_line_lit; reflexivity|]. destruct (pystr_eqb s (u "thisform")); [apply one_line_lit; reflexivity|].
  destruct (valid_identifier s); repeat apply one_line_app; try exact O; apply one_line_lit; reflexivity.
Qed.
Lemma one_dotted w s : one_line w -> one_line s -> one_line (dotted w s).
Proof.
  intros W S. unfold dotted, id_attr. destruct w as [|c w]; cbn [map concat]; rewrite app_nil_r.
  - destruct (islower s); [apply one_scope|]; exact S.
  - apply one_line_app; [|apply one_line_app; [apply one_line_lit; reflexivity|exact S]]. destruct (islower (c :: w)); [apply one_scope|]; exact W.
Qed.
Lemma one_code w ps : one_line w -> plain ps -> one_line (code w ps).
Proof.
  intros W P. unfold code. induction P as [|p ps Hp _ IH]; [intros []|]. cbn [map concat]. apply one_line_app; [|exact IH]. destruct p; [exact Hp|apply one_dotted; assumption].
Qed.
Definition starts' (t : pystr) : Prop := match t with [] => False | c :: _ => c <> 32 /\ c <> 35 end.
Lemma starts_dotted w s : good_with w -> starts' s -> starts' (dotted w s).
Proof.
  intros [_ W] S. assert (G : forall x, starts' (scope_id x)).
  { intros x. unfold scope_id. destruct (pystr_eqb x (u "this")); [split; discriminate|]. destruct (pystr_eqb x (u "thisform")); [split; discriminate|]. destruct (valid_identifier x); split; discriminate. }
  unfold dotted, id_attr. destruct w as [|c w].
  - cbn [map concat]. rewrite app_nil_r. destruct (islower s); [apply G|exact S].
  - destruct (islower (c :: w)); [|exact W]. apply starts_app. apply G.
Qed.
Lemma starts_code w ps : good_with w -> starts_well ps -> starts' (code w ps).
Proof.
  intros W S. destruct ps as [|p ps]; [contradiction|]. unfold code. cbn [map concat]. apply starts_app. destruct p; [exact S|]. apply starts_dotted; [exact W|exact S].
Qed.
Lemma is_head_app a b : b <> [] -> is_head (a ++ b) = is_head b.
Proof. intros H. unfold is_head. destruct (exists_last H) as (l & x & ->). rewrite app_assoc, !last_last. reflexivity. Qed.
Lemma head_dotted w s : s <> [] -> is_head s = false -> is_head (dotted w s) = false /\ dotted w s <> [].
Proof.
  intros N H. unfold dotted, id_attr. destruct w as [|c w]; cbn [map concat]; rewrite app_nil_r.
  - destruct (islower s); [|split; assumption]. unfold scope_id. destruct (pystr_eqb s (u "this")); [split; [reflexivity|discriminate]|].
    destruct (pystr_eqb s (u "thisform")); [split; [reflexivity|discriminate]|]. destruct (valid_identifier s).
    + rewrite is_head_app by exact N. split; [exact H|discriminate].
    + rewrite app_assoc, is_head_app by discriminate. split; [reflexivity|discriminate].
  - rewrite is_head_app by discriminate. rewrite is_head_app by exact N. split; [exact H|]. intros X. apply app_eq_nil in X as [_ X]. discriminate.
Qed.
Lemma head_code w ps : ends_well ps -> is_head (code w ps) = false.
Proof.
  intros [N H]. destruct ps as [|p0 ps0]; [contradiction|]. assert (X : p0 :: ps0 <> []) by discriminate. revert N H. revert X. generalize (p0 :: ps0). clear. intros ps X N H.
  destruct (exists_last X) as (l & x & ->). rewrite last_last in N, H. unfold code. rewrite map_app, concat_app. cbn [map concat]. rewrite app_nil_r.
  destruct x as [s|s]; cbn [piece_text ptext] in *.
  - rewrite is_head_app by exact N. exact H.
  - destruct (head_dotted w s N H) as [A B]. rewrite is_head_app by exact B. exact A.
Qed.
Lemma good_code w o : good_with w -> plain o -> starts_well o -> good_with (code w o).
Proof. intros W P S. split; [apply one_code; [apply W|exact P]|]. pose proof (starts_code w o W S) as X. destruct (code w o); [exact I|exact X]. Qed.
Lemma good_nil' : good_with [].
Proof. split; [intros []|exact I]. Qed.

Definition Ns (s : fstmt) := forall w, good_with w -> printable s -> neat w s /\ good_with (snd (visit w s)).
Definition Nl (l : flines) := forall w, good_with w -> printables l -> neats w l /\ good_with (snd (visit_all w l)).
Definition No (o : fopt) := match o with FNone => True | FSome l => Nl l end.
Definition Nc0 (cs : fcases) := forall w, good_with w -> printablec cs -> neatc w cs /\ good_with (snd (elifs w cs)).
Definition Nk (c : fcatch) := match c with NoCatch => True | Catch _ _ l => Nl l end.
Theorem neat_printable : (forall s, Ns s) /\ (forall l, Nl l) /\ (forall o, No o) /\ (forall cs, Nc0 cs) /\ (forall c, Nk c).
Proof.
  apply fox_mind.
  - intros ps w W (P & S & E). split; [|exact W]. split; [apply one_code; [apply W|exact P]|]. split; [apply starts_code; assumption|apply head_code, E].
  - intros w W _. split; [exact I|exact W].
  - intros w W _. split; [exact I|exact W].
  - intros ls w W P. split; [exact P|exact W].
  - intros src w W P. split; [exact P|exact W].
  - intros c a IHa b IHb w W (Pc & Pa & Pb). cbn [visit neat]. rewrite lines_eq. destruct (IHa w W Pa) as [Na Wa]. destruct b as [|b].
    + split; [|exact Wa]. split; [apply one_code; [apply W|exact Pc]|]. split; [exact Na|exact I].
    + destruct (IHb _ Wa Pb) as [Nb Wb]. rewrite lines_eq. split; [|exact Wb]. split; [apply one_code; [apply W|exact Pc]|]. split; [exact Na|exact Nb].
  - intros cm cs IHc o IHo w W (Pm & Pc & Po). cbn [visit neat]. destruct (IHc w W Pc) as [Nc Wc].
    assert (E : (match cs with
        | CNil => ([Ln (u "if True:"); Bl [Ln (u "pass")]], w)
        | CCons c body cs => let '(lb, w0) := lines w body in let '(lr, w1) := elifs w0 cs in (Ln (u "if " ++ code w c ++ u ":") :: Bl lb :: lr, w1) end) =
        (fst (match cs with
        | CNil => ([Ln (u "if True:"); Bl [Ln (u "pass")]], w)
        | CCons c body cs => let '(lb, w0) := lines w body in let '(lr, w1) := elifs w0 cs in (Ln (u "if " ++ code w c ++ u ":") :: Bl lb :: lr, w1) end), snd (elifs w cs))).
    { destruct cs as [|c b cs]; [reflexivity|]. cbn [elifs]. destruct (lines w b) as [lb w1]. destruct (elifs w1 cs) as [lr w2]. reflexivity. }
    rewrite E. destruct o as [|o].
    + split; [|exact Wc]. split; [exact Pm|]. split; [exact Nc|exact I].
    + destruct (IHo _ Wc Po) as [No Wo]. rewrite lines_eq. split; [|exact Wo]. split; [exact Pm|]. split; assumption.
  - intros h b IH w W (Ph & Pb). cbn [visit neat]. rewrite lines_eq. destruct (IH w W Pb) as [Nb Wb]. split; [|exact Wb]. split; [apply one_code; [apply W|exact Ph]|exact Nb].
  - intros h b IH w W (Ph & Pb). cbn [visit neat]. rewrite lines_eq. destruct (IH w W Pb) as [Nb Wb]. split; [|exact Wb]. split; [apply one_code; [apply Wb|exact Ph]|exact Nb].
  - intros h b IH w W (Ph & Pb). cbn [visit neat]. rewrite lines_eq. destruct (IH w W Pb) as [Nb Wb]. split; [|exact Wb]. split; [apply one_code; [apply W|exact Ph]|exact Nb].
  - intros o b IH w W (Po & So & Pb). cbn [visit neat]. rewrite lines_eq. destruct (IH _ (good_code w o W Po So) Pb) as [Nb _]. split; [exact Nb|exact good_nil'].
  - intros b IHb c IHc f IHf w W (Pb & Pf & Pc). cbn [visit neat]. rewrite lines_eq. destruct (IHb w W Pb) as [Nb Wb].
    assert (F : (match f with FSome f => neats (snd (visit_all w b)) f | FNone => True end) /\ good_with (match f with FSome f => snd (visit_all (snd (visit_all w b)) f) | FNone => snd (visit_all w b) end)).
    { destruct f as [|f]; [split; [exact I|exact Wb]|]. exact (IHf _ Wb Pf). }
    destruct F as [Nf Wf].
    assert (E : (match f with FNone => ([], snd (visit_all w b)) | FSome l => lines (snd (visit_all w b)) l end) =
      (match f with FNone => [] | FSome l => pass_if_bad (fst (visit_all (snd (visit_all w b)) l)) end, match f with FSome f => snd (visit_all (snd (visit_all w b)) f) | FNone => snd (visit_all w b) end)).
    { destruct f as [|f]; [reflexivity|apply lines_eq]. }
    rewrite E. destruct c as [|to cond h].
    + split; [|exact Wf]. split; [exact Nb|]. split; [exact Nf|exact I].
    + destruct Pc as (Ot & Oc & Ph). destruct (IHc _ Wf Ph) as [Nh Wh]. rewrite lines_eq. split; [|exact Wh]. split; [exact Nb|]. split; [exact Nf|]. split; [exact Ot|]. split; [|exact Nh].
      destruct cond; [apply one_code; [apply Wf|exact Oc]|exact I].
  - intros w W _. split; [exact I|exact W].
  - intros s IHs l IHl w W (Ps & Pl). cbn [visit_all neats]. destruct (IHs w W Ps) as [Nn Ws]. destruct (visit w s) as [a w1]. cbn [snd] in *. destruct (IHl w1 Ws Pl) as [Nl' Wl].
    destruct (visit_all w1 l). split; [|exact Wl]. split; assumption.
  - exact I.
  - intros l H. exact H.
  - intros w W _. split; [exact I|exact W].
  - intros c b IHb cs IHc w W (Pc & Pb & Pcs). cbn [elifs neatc]. rewrite lines_eq. destruct (IHb w W Pb) as [Nb Wb]. destruct (IHc _ Wb Pcs) as [Ncs Wcs].
    destruct (elifs (snd (visit_all w b)) cs). split; [|exact Wcs]. split; [apply one_code; [apply W|exact Pc]|]. split; assumption.
  - exact I.
  - intros to cond l H. exact H.
Qed.

(** ** The nesting of the statements *)
Lemma skel_block l : map skel_of (block_of l) = kblock (map skel_of l).
Proof. destruct l; reflexivity. Qed.
Definition Ks (s : fstmt) := forall w, map skel_of (tree w s) = nest s.
Definition Kl (l : flines) := forall w, map skel_of (trees w l) = nests l.
Definition Ko (o : fopt) := match o with FNone => True | FSome l => Kl l end.
Definition Kc (cs : fcases) := forall w e, map skel_of (treec w cs e) = nestc cs (map skel_of e).
Definition Kk (c : fcatch) := match c with NoCatch => True | Catch _ _ l => Kl l end.
Theorem tree_nest : (forall s, Ks s) /\ (forall l, Kl l) /\ (forall o, Ko o) /\ (forall cs, Kc cs) /\ (forall c, Kk c).
Proof.
  apply fox_mind; try (intros; exact I); try (intros; intro; reflexivity).
  - intros c a IHa b IHb w. cbn [tree map skel_of nest]. rewrite skel_block, IHa. destruct b as [|b]; [reflexivity|]. rewrite skel_block. rewrite (IHb _). reflexivity.
  - intros cm cs IHc o IHo w. cbn [tree nest]. assert (E : map skel_of (match o with FSome b => block_of (trees (snd (elifs w cs)) b) | FNone => [] end) = match o with FSome b => kblock (nests b) | FNone => [] end).
    { destruct o as [|o]; [reflexivity|]. rewrite skel_block, (IHo _). reflexivity. }
    cbv zeta. rewrite <- E. destruct cs; [reflexivity|]. apply IHc.
  - intros h b IH w. cbn [tree map skel_of nest]. rewrite skel_block, IH. reflexivity.
  - intros h b IH w. cbn [tree map skel_of nest]. rewrite skel_block, IH. reflexivity.
  - intros h b IH w. cbn [tree map skel_of nest]. rewrite skel_block, IH. reflexivity.
  - intros o b IH w. cbn [tree map skel_of nest]. rewrite skel_block, IH. reflexivity.
  - intros b IHb c IHc f IHf w. cbn [tree nest]. cbv zeta.
    assert (E : map skel_of (match f with FSome f => block_of (trees (snd (visit_all w b)) f) | FNone => [] end) = match f with FSome b => kblock (nests b) | FNone => [] end).
    { destruct f as [|f]; [reflexivity|]. rewrite skel_block, (IHf _). reflexivity. }
    destruct c as [|to cond h].
    + rewrite map_app, E, skel_block, IHb. reflexivity.
    + cbn [map skel_of]. rewrite E, skel_block, IHb, !map_app, skel_block. rewrite (IHc _). destruct to, cond; reflexivity.
  - intros s IHs l IHl w. cbn [trees nests]. rewrite map_app, IHs, IHl. reflexivity.
  - intros l H. exact H.
  - intros c b IHb cs IHc w e. cbn [treec map skel_of nestc]. rewrite skel_block, IHb, IHc. reflexivity.
  - intros to cond l H. exact H.
Qed.

(** ** Supported programs give the statements that are meant *)
Definition Ms (s : fstmt) := forall lost w w0, supported lost w s -> inv lost w w0 -> neat w0 s /\ tree w0 s = meant w s.
Definition Ml (l : flines) := forall lost w w0, supporteds lost w l -> inv lost w w0 -> neats w0 l /\ trees w0 l = meants w l.
Definition Mo (o : fopt) := match o with FNone => True | FSome l => Ml l end.
Definition Mc (cs : fcases) := forall lost w w0, supportedc lost w cs -> inv lost w w0 -> neatc w0 cs /\ forall e, treec w0 cs e = meantc w cs e.
Definition Mk (c : fcatch) := match c with NoCatch => True | Catch _ _ l => Ml l end.
Lemma inv_lines l lost w w0 : supporteds lost w l -> inv lost w w0 -> inv (lost || has_withs l) w (snd (visit_all w0 l)).
Proof. intros S I. exact (proj1 (proj1 (proj2 convert_all) l lost w w0 S I)). Qed.
Lemma inv_stmt s lost w w0 : supported lost w s -> inv lost w w0 -> inv (lost || has_with s) w (snd (visit w0 s)).
Proof. intros S I. exact (proj1 (proj1 convert_all s lost w w0 S I)). Qed.
Lemma inv_cases cs lost w w0 : supportedc lost w cs -> inv lost w w0 -> inv (lost || has_withc cs) w (snd (elifs w0 cs)).
Proof. intros S I. exact (proj1 (proj1 (proj1 (proj2 (proj2 (proj2 convert_all))) cs) lost w w0 S I)). Qed.
Theorem tree_meant : (forall s, Ms s) /\ (forall l, Ml l) /\ (forall o, Mo o) /\ (forall cs, Mc cs) /\ (forall c, Mk c).
Proof.
  apply fox_mind; try (intros; exact I).
  - intros ps lost w w0 [R C] J. cbn [neat tree meant]. rewrite (code_fox lost w w0 ps J R). split; [exact C|reflexivity].
  - intros lost w w0 _ _. split; [exact I|reflexivity].
  - intros lost w w0 _ _. split; [exact I|reflexivity].
  - intros ls lost w w0 C _. split; [exact C|reflexivity].
  - intros src lost w w0 [].
  - intros c a IHa b IHb lost w w0 (R & O & Sa & Sb) J. cbn [neat tree meant]. rewrite (code_fox lost w w0 c J R). destruct (IHa _ _ _ Sa J) as [Na Ta]. rewrite Ta. destruct b as [|b].
    + split; [|reflexivity]. split; [exact O|]. split; [exact Na|exact I].
    + destruct (IHb _ _ _ Sb (inv_lines _ _ _ _ Sa J)) as [Nb Tb]. rewrite Tb. split; [|reflexivity]. split; [exact O|]. split; assumption.
  - intros cm cs IHc o IHo lost w w0 (Cm & Sc & So) J. cbn [neat tree meant]. destruct (IHc _ _ _ Sc J) as [Nc Tc]. destruct o as [|o].
    + split; [split; [exact Cm|split; [exact Nc|exact I]]|]. cbv zeta. destruct cs; [reflexivity|apply Tc].
    + destruct So as [So _]. destruct (IHo _ _ _ So (inv_cases _ _ _ _ Sc J)) as [No To]. rewrite To. split; [split; [exact Cm|split; [exact Nc|exact No]]|]. cbv zeta. destruct cs; [reflexivity|apply Tc].
  - intros h b IH lost w w0 (R & O & S) J. cbn [neat tree meant]. rewrite (code_fox lost w w0 h J R). destruct (IH _ _ _ S J) as [Nb Tb]. rewrite Tb. split; [split; assumption|reflexivity].
  - intros h b IH lost w w0 (R & O & S) J. cbn [neat tree meant]. rewrite (code_fox _ w _ h (inv_lines _ _ _ _ S J) R). destruct (IH _ _ _ S J) as [Nb Tb]. rewrite Tb. split; [split; assumption|reflexivity].
  - intros h b IH lost w w0 (R & O & S) J. cbn [neat tree meant]. rewrite (code_fox lost w w0 h J R). destruct (IH _ _ _ S J) as [Nb Tb]. rewrite Tb. split; [split; assumption|reflexivity].
  - intros o b IH lost w w0 (R & O & S) J. cbn [neat tree meant]. rewrite (code_fox lost w w0 o J R). destruct (IH false _ (fox_text w o) S (conj eq_refl O)) as [Nb Tb]. rewrite Tb. split; [assumption|reflexivity].
  - intros b IHb c IHc f IHf lost w w0 (Sb & Sf & Sc) J. cbn [neat tree meant]. cbv zeta. destruct (IHb _ _ _ Sb J) as [Nb Tb]. rewrite Tb. pose proof (inv_lines _ _ _ _ Sb J) as J1.
    set (w1 := snd (visit_all w0 b)) in *. destruct c as [|to cond h]; [contradiction|]. destruct Sc as (Ot & Oc & Sh).
    assert (F : match f with FSome f => neats w1 f | FNone => True end /\ (match f with FSome f => block_of (trees w1 f) | FNone => [] end) = (match f with FSome f => block_of (meants w f) | FNone => [] end) /\
      inv (lost || has_withs b || match f with FSome f => has_withs f | FNone => false end) w (match f with FSome f => snd (visit_all w1 f) | FNone => w1 end)).
    { destruct f as [|f]; [split; [exact I|split; [reflexivity|rewrite orb_false_r; exact J1]]|]. destruct (IHf _ _ _ Sf J1) as [Nf Tf]. split; [exact Nf|]. split; [rewrite Tf; reflexivity|]. apply inv_lines; assumption. }
    destruct F as (Nf & Tf & J2). rewrite Tf. destruct (IHc _ _ _ Sh J2) as [Nh Th]. rewrite Th. destruct cond as [c|].
    + destruct Oc as [Rc Oc]. rewrite (code_fox _ w _ c J2 Rc). split; [split; [exact Nb|split; [exact Nf|split; [exact Ot|split; [exact Oc|exact Nh]]]]|reflexivity].
    + split; [split; [exact Nb|split; [exact Nf|split; [exact Ot|split; [exact I|exact Nh]]]]|reflexivity].
  - intros lost w w0 _ _. split; [exact I|reflexivity].
  - intros s IHs l IHl lost w w0 (Ss & Sl) J. cbn [neats trees meants]. destruct (IHs _ _ _ Ss J) as [Nn Ts]. destruct (IHl _ _ _ Sl (inv_stmt _ _ _ _ Ss J)) as [Nl' Tl]. rewrite Ts, Tl.
    split; [split; assumption|reflexivity].
  - intros l H. exact H.
  - intros lost w w0 _ _. split; [exact I|reflexivity].
  - intros c b IHb cs IHc lost w w0 (R & O & Sb & Sc) J. cbn [neatc treec meantc]. rewrite (code_fox lost w w0 c J R). destruct (IHb _ _ _ Sb J) as [Nb Tb].
    destruct (IHc _ _ _ Sc (inv_lines _ _ _ _ Sb J)) as [Nc Tc]. rewrite Tb. split; [split; [exact O|split; assumption]|]. intros e. rewrite Tc. reflexivity.
  - intros to cond l H. exact H.
Qed.
