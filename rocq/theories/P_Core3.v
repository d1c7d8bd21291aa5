(** Running a core program and running its text. *)
From Verif Require Import PyBase PyStr M_Do S_Py P_Py S_PyEval M_Lit P_Lit M_Stmt S_Stmt M_Program M_Conv S_Conv P_Conv P_Bool S_Inline P_Inline S_For M_Show M_Core P_Fuel S_Lex S_Core P_Lex P_Core1 P_Core2.
Open Scope Z_scope.

(** ** Loop heads *)
Lemma Good_int_of v : Good (repr v) -> Good (repr (int_of v)).
Proof.
  intros G. assert (X : int_of v = func_code (name "int") [v] \/ exists k, int_of v = VInt k).
  { unfold int_of. destruct v as [k|s|b| |ts|a b|a b|a]; try (left; reflexivity); try (right; eexists; reflexivity).
    destruct ts as [|[s|k|s|o| | | | | | | | | | |] ts]; try (left; reflexivity).
    - destruct ts; [right; eexists; reflexivity|left; reflexivity].
    - destruct o; try (left; reflexivity). destruct ts as [|[s|k|s|o| | | | | | | | | | |] ts]; try (left; reflexivity). destruct ts; [right; eexists; reflexivity|left; reflexivity]. }
  destruct X as [-> | [k ->]]; [|apply Good_int]. apply (Good_call (u "int") [repr v]); [reflexivity|discriminate|]. repeat constructor; exact (proj1 (G k H)) || exact (proj2 (G k H)).
Qed.
Lemma Good_plus v : Good (repr v) -> Good (repr (plus v (VInt 1))).
Proof.
  intros G. assert (X : Good (repr v ++ Op OAdd :: [IntT 1])) by (apply Good_bin; [exact G|apply Good_one; [reflexivity|exact I]|exact I]).
  destruct v; try exact X. apply Good_int.
Qed.
Lemma for_reads p lib x env a b st i j k : name_ok x = true -> number_ok lib a -> number_ok lib b -> match st with Some t => exists n, t = CInt n /\ 0 < n | None => True end ->
  fox env a = Some (PI i) -> fox env b = Some (PI j) -> match st with Some t => fox env t | None => Some (PI 1) end = Some (PI k) ->
  py_for (for_text p (var x) (for_range (convert lib a) (convert lib b) (option_map (convert lib) st))) env = Some (x, py_range i (j + 1) k) /\ 0 < k /\
  one_line (for_text p (var x) (for_range (convert lib a) (convert lib b) (option_map (convert lib) st))).
Proof.
  intros N (Ha & Pa & Ta) (Hb & Pb & Tb) Hs Fa Fb Fs. set (args := for_range (convert lib a) (convert lib b) (option_map (convert lib) st)).
  assert (K : 0 < k) by (destruct st as [t|]; [destruct Hs as (n & -> & Hn); cbn [fox] in Fs; apply number53_some in Fs; congruence|injection Fs as <-; lia]).
  assert (G : Forall Good (map repr args) /\ map repr args <> []).
  { split; [|discriminate]. unfold args, for_range. cbn [app map]. constructor; [apply Good_int_of; exact (tame_good lib a Pa Ta Ha false)|].
    constructor; [apply Good_plus, Good_int_of; exact (tame_good lib b Pb Tb Hb false)|]. destruct st as [t|]; [|constructor]. destruct Hs as (n & -> & _). cbn. constructor; [apply Good_int|constructor]. }
  assert (Gf : Good (var x ++ Op OIn :: repr (func_code (name "range") args))).
  { apply Good_bin; [exact (Good_var x N)| |exact I]. apply (Good_call (u "range") (map repr args)); [reflexivity|apply G|apply G]. }
  assert (V : exists es, Forall2 (Pr 0) (map repr args) es /\ map (pev env) es = match st with Some _ => [Some (PI i); Some (PI (j + 1)); Some (PI k)] | None => [Some (PI i); Some (PI (j + 1))] end).
  { destruct (ti_ok env lib a i (conj Pa (conj Ta (fox_mean env a Pa _ Fa)))) as (ea & Ea & Va).
    assert (Nb : exists e, Pr 0 (repr (plus (int_of (convert lib b)) (VInt 1))) e /\ pev env e = Some (PI (j + 1))).
    { unfold convert. destruct (int_of_ok env lib b j (conj Pb (conj Tb (fox_mean env b Pb _ Fb)))) as [-> | (ts & e & -> & P & V)].
      - cbn [plus repr]. destruct (repr_int_ok env (j + 1)) as (e & P & V). exists e. split; [apply (Pr_down 0 11); [lia|lia|exact P]|exact V].
      - exists (EBin OAdd e (EInt 1)). split; [|cbn [pev]; rewrite V; reflexivity]. apply (Pr_down 0 9); [lia|lia|].
        exact (Pr_bin OAdd _ _ _ _ eq_refl (Pr_down 9 13 _ _ ltac:(lia) ltac:(lia) P) (Pr_down 10 13 _ _ ltac:(lia) ltac:(lia) (Pr_intt 1))). }
    destruct Nb as (eb & Eb & Vb). apply (Pr_down 0 11) in Ea; [|lia|lia]. destruct st as [t|].
    - destruct Hs as (n & -> & Hn). cbn [fox] in Fs. apply number53_some in Fs. injection Fs as ->. destruct (repr_int_ok env n) as (es & Es & Vs). apply (Pr_down 0 11) in Es; [|lia|lia].
      exists [ea; eb; es]. cbn [map]. rewrite Va, Vb, Vs. split; [|reflexivity]. unfold args, for_range. cbn [app map option_map]. repeat (constructor; [assumption|]). constructor.
    - exists [ea; eb]. cbn [map]. rewrite Va, Vb. split; [|reflexivity]. unfold args, for_range. cbn [app map option_map]. repeat (constructor; [assumption|]). constructor. }
  destruct V as (es & F2 & V). pose proof (Pr_call [Id (u "range")] (EName (u "range")) _ _ (Pr_id (u "range")) F2) as PC. apply Pr_parse in PC; [|lia]. apply parse_spec in PC.
  split; [|split; [exact K|]].
  - unfold py_for, for_text, text. rewrite (lex_show p Tight _ (proj1 (Gf Tight (or_introl eq_refl)))). cbn [var app].
    change (is_u (u "S") "S") with true. cbn iota. unfold func_code, name. cbn [repr]. rewrite sep_commas, PC. change (is_u (u "range") "range") with true. cbn iota. rewrite V.
    destruct st as [t|]; [destruct (Z.eqb_spec k 0); [lia|reflexivity]|]. injection Fs as <-. reflexivity.
  - exact (text_no_newline p _ Tight (proj1 (Gf Tight (or_introl eq_refl)))).
Qed.
Lemma for_line p lib x a b st : name_ok x = true -> number_ok lib a -> number_ok lib b -> match st with Some t => exists n, t = CInt n /\ 0 < n | None => True end ->
  one_line (for_text p (var x) (for_range (convert lib a) (convert lib b) (option_map (convert lib) st))).
Proof.
  intros N (Ha & Pa & Ta) (Hb & Pb & Tb) Hs. set (args := for_range (convert lib a) (convert lib b) (option_map (convert lib) st)).
  assert (G : Forall Good (map repr args) /\ map repr args <> []).
  { split; [|discriminate]. unfold args, for_range. cbn [app map]. constructor; [apply Good_int_of; exact (tame_good lib a Pa Ta Ha false)|].
    constructor; [apply Good_plus, Good_int_of; exact (tame_good lib b Pb Tb Hb false)|]. destruct st as [t|]; [|constructor]. destruct Hs as (n & -> & _). cbn. constructor; [apply Good_int|constructor]. }
  assert (Gf : Good (var x ++ Op OIn :: repr (func_code (name "range") args))).
  { apply Good_bin; [exact (Good_var x N)| |exact I]. apply (Good_call (u "range") (map repr args)); [reflexivity|apply G|apply G]. }
  exact (text_no_newline p _ Tight (proj1 (Gf Tight (or_introl eq_refl)))).
Qed.

(** ** The program can be converted *)
Scheme cstmt_mut := Induction for cstmt Sort Prop with clines_mut := Induction for clines Sort Prop with copt_mut := Induction for copt Sort Prop with ccases_mut := Induction for ccases Sort Prop.
Combined Scheme core_ind from cstmt_mut, clines_mut, copt_mut, ccases_mut.
Lemma fox_one t : fox_text [] [Txt t] = t.
Proof. unfold fox_text. cbn [map concat]. apply app_nil_r. Qed.
Lemma refs_one t : refs true [Txt t].
Proof. intros _. repeat constructor. Qed.
(** ** Calls *)
Lemma value_pr env lib t v : value_ok lib t -> fox env t = Some v -> exists e, Pr 0 (M_Conv.code lib t) e /\ pev env e = Some v.
Proof.
  intros [_ [B | [P T]]] F; [|exact (any0 env lib t v P T (fox_mean env t P v F))]. destruct (boolean_or env lib t v B F) as [[b ->] | [P T]]; [|exact (any0 env lib t v P T (fox_mean env t P v F))].
  destruct (opnds_0 env _ _ (conv_truth env lib t B false)) as (e & P & V). exists e. split; [exact P|]. apply V. unfold foxb. rewrite F. reflexivity.
Qed.
Lemma values_pr env lib l : Forall (value_ok lib) l -> forall vs, foxs env l = Some vs -> exists es, Forall2 (Pr 0) (map (M_Conv.code lib) l) es /\ map (pev env) es = map Some vs.
Proof.
  induction 1 as [|t l Ht _ IH]; intros vs E; cbn [foxs] in E; [injection E as <-; exists []; split; [constructor|reflexivity]|].
  destruct (fox env t) as [v|] eqn:Ft; [|discriminate]. destruct (foxs env l) as [ws|]; [|discriminate]. injection E as <-.
  destruct (value_pr env lib t v Ht Ft) as (e & P & V). destruct (IH ws eq_refl) as (es & Ps & Vs). exists (e :: es). cbn [map]. rewrite V, Vs. split; [constructor; assumption|reflexivity].
Qed.
(** f() and f(a, b) *)
Lemma Good_call0 f l : id_ok f = true -> Forall Good l -> Good (Id f :: Lp :: sep l ++ [Rp]).
Proof.
  intros Hf H. destruct l; [|apply Good_call; [exact Hf|discriminate|exact H]]. intros k Hk. destruct Hk as [-> | ->]; cbn [well ends after_tok tok_ok fits sep app]; rewrite Hf; split; reflexivity.
Qed.
Lemma call_reads p lib env f args vs : name_ok f = true -> Forall (value_ok lib) args -> foxs env args = Some vs -> let ts := repr (func_code [Id f] (map (convert lib) args)) in
  Good ts /\ exists es, py_parse ts (ECall (EName f) es) /\ map (pev env) es = map Some vs /\ lex (text p ts) = Some ts.
Proof.
  intros Nf Ha E ts. assert (G : Good ts).
  { unfold ts, func_code. cbn [repr]. apply (Good_call0 f); [exact (name_id f Nf)|]. rewrite map_map. clear - Ha. induction Ha as [|t l Ht _ IH]; constructor; [exact (value_good lib t Ht)|exact IH]. }
  split; [exact G|]. destruct (values_pr env lib args Ha vs E) as (es & F2 & V). exists es. split; [|split; [exact V|exact (lex_show p Tight ts (proj1 (G Tight (or_introl eq_refl))))]].
  pose proof (Pr_call [Id f] (EName f) _ _ (Pr_id f) F2) as PC. apply Pr_parse in PC; [|lia]. unfold ts, func_code. cbn [repr]. rewrite sep_commas, map_map. exact PC.
Qed.
Lemma call_set lib x f args : assign (var x) (func_code [Id f] (map (convert lib) args)) = SSet (var x) (repr (func_code [Id f] (map (convert lib) args))).
Proof. unfold func_code, assign, var. cbn [app strip tok_eqb repr]. destruct (pystr_eqb (u "S") f); reflexivity. Qed.
Lemma line_set p x ts : name_ok x = true -> Good ts -> command_line (stmt_text p (SSet (var x) ts)).
Proof.
  intros N G. assert (Ne : ts <> []) by (intros ->; destruct (G Tight (or_introl eq_refl)) as [_ W]; discriminate). destruct (text_line p ts G Ne) as (O & La & Nn).
  pose proof (text_line p (var x) (Good_var x N) ltac:(discriminate)) as (Ov & _). cbn [stmt_text]. split; [|split].
  - unfold one_line in *. rewrite !in_app_iff. intros [X | [X|X]]; [tauto|cbn in X; intuition discriminate|tauto].
  - rewrite var_text. cbn. split; discriminate.
  - unfold is_head. rewrite !app_assoc, last_app_ne by exact Nn. apply Z.eqb_neq. exact La.
Qed.
Lemma args_good lib args : Forall (value_ok lib) args -> Forall Good (map repr (map (convert lib) args)).
Proof. induction 1 as [|t l Ht _ IH]; constructor; [exact (value_good lib t Ht)|exact IH]. Qed.
Lemma call_good lib f args : name_ok f = true -> Forall (value_ok lib) args -> Good (repr (func_code [Id f] (map (convert lib) args))).
Proof. intros N H. apply (Good_call0 f); [exact (name_id f N)|exact (args_good lib args H)]. Qed.
Lemma return_good p ts : Good ts -> command_line (return_text (Some (text p ts))).
Proof.
  intros G. assert (Ne : ts <> []) by (intros ->; destruct (G Tight (or_introl eq_refl)) as [_ W]; discriminate). destruct (text_line p ts G Ne) as (O & La & Nn). unfold return_text. split; [|split].
  - unfold one_line in *. rewrite in_app_iff. intros [X|X]; [cbn in X; intuition discriminate|tauto].
  - cbn. split; discriminate.
  - unfold is_head. rewrite last_app_ne by exact Nn. apply Z.eqb_neq. exact La.
Qed.
Lemma return_line p lib t : value_ok lib t -> command_line (return_text (Some (expr_text lib p t))).
Proof.
  intros V. apply return_good. exact (value_good lib t V).
Qed.
Lemma leave_line : command_line (return_text None).
Proof. split; [intros X; cbn in X; intuition discriminate|]. split; [cbn; split; discriminate|reflexivity]. Qed.
Lemma call_code_text p f vs : exists z, text p (repr (func_code [Id f] vs)) = f ++ 40 :: z.
Proof. unfold text, func_code. cbn [repr app show blank_before after_tok tok_text]. eexists. reflexivity. Qed.
Lemma name_first f : name_ok f = true -> exists c r, f = c :: r /\ (97 <= c <= 122 \/ c = 95).
Proof.
  destruct f as [|c r]; [discriminate|]. unfold name_ok. cbn [forallb]. intros H. exists c, r. split; [reflexivity|]. unfold M_Stmt.lower, is_digit in H. lia.
Qed.
Lemma call_line p lib g f args : match g with Into x => name_ok x = true | _ => True end -> name_ok f = true -> Forall (value_ok lib) args -> command_line (call_text lib p g f args).
Proof.
  intros Hx Nf Ha. pose proof (call_good lib f args Nf Ha) as G. destruct g as [x| |]; cbn [call_text]; cbv zeta.
  - rewrite call_set. apply line_set; [exact Hx|exact G].
  - assert (Ne : repr (func_code [Id f] (map (convert lib) args)) <> []) by discriminate. destruct (text_line p _ G Ne) as (O & La & Nn). split; [exact O|]. split.
    + destruct (call_code_text p f (map (convert lib) args)) as (z & ->). destruct (name_first f Nf) as (c & r & -> & H). cbn [app]. lia.
    + unfold is_head. apply Z.eqb_neq. exact La.
  - apply return_good. exact G.
Qed.

Section sim.
Variable lib : pystr -> bool.
Variable p : Z -> bool.
Variable L : list pystr.
Variable W : pystr -> Prop.
Variable F : goal -> pystr -> Prop.
Variable ret : bool.
Hypothesis F_name : forall g f, F g f -> name_ok f = true.
Notation ok' := (ok lib L W F ret).
Notation oks' := (oks lib L W F ret).
Notation oko' := (oko lib L W F ret).
Notation okc' := (okc lib L W F ret).
Lemma values_of A args : Forall (fun t => value_ok lib t /\ visible L W A t) args -> Forall (value_ok lib) args.
Proof. apply Forall_impl. intros t H. apply H. Qed.
Lemma core_supported :
  (forall s il A, ok' il A s -> supported true [] (compile lib p s)) /\ (forall l il A, oks' il A l -> supporteds true [] (compiles lib p l)) /\
  (forall o il A, oko' il A o -> match compileo lib p o with FSome b => supporteds true [] b | FNone => True end) /\
  (forall c il A, okc' il A c -> supportedc true [] (compilec lib p c)).
Proof.
  apply core_ind.
  - intros x t il A (N & _ & V & _ & _ & Hl). cbn [compile supported]. split; [apply refs_one|]. rewrite fox_one. exact (set_line p lib x t N V Hl).
  - intros c a IHa b IHb il A (Tc & _ & Oa & Ob). cbn [compile supported]. split; [apply refs_one|]. rewrite fox_one. split; [exact (expr_line p lib c (truth_value lib c Tc))|].
    split; [exact (IHa il A Oa)|]. exact (IHb il A Ob).
  - intros c a IHa m IHm b IHb il A (Tc & _ & Oa & Om & Ob). cbn [compile supported supportedc]. split; [constructor|]. rewrite fox_one. split; [split; [apply refs_one|]|].
    + split; [exact (expr_line p lib c (truth_value lib c Tc))|]. split; [exact (IHa il A Oa)|exact (IHm il A Om)].
    + specialize (IHb il A Ob). destruct b; [exact I|]. split; [exact IHb|discriminate].
  - intros c b IHb il A (Tc & _ & Ob). cbn [compile supported]. split; [apply refs_one|]. rewrite fox_one. split; [exact (expr_line p lib c (truth_value lib c Tc))|exact (IHb true A Ob)].
  - intros x a b st body IHb il A (N & _ & Na & _ & Nb & _ & Hs & _ & _ & Ob). cbn [compile supported]. split; [apply refs_one|]. rewrite fox_one. split; [|exact (IHb true (x :: A) Ob)].
    exact (for_line p lib x a b st N Na Nb Hs).
  - intros; exact I.
  - intros; exact I.
  - intros g f args il A (Hg & Hf & Ha). cbn [compile supported]. split; [apply refs_one|]. rewrite fox_one. apply call_line; [destruct g; tauto|exact (F_name g f Hf)|exact (values_of A args Ha)].
  - intros t il A (_ & V & _). cbn [compile supported]. split; [apply refs_one|]. rewrite fox_one. exact (return_line p lib t V).
  - intros il A _. cbn [compile supported]. split; [apply refs_one|]. rewrite fox_one. exact leave_line.
  - intros ls il A H. exact H.
  - intros; exact I.
  - intros s IHs l IHl il A (Os & Ol). split; [exact (IHs il A Os)|exact (IHl il A Ol)].
  - intros; exact I.
  - intros l IH il A H. exact (IH il A H).
  - intros; exact I.
  - intros c a IHa m IHm il A (Tc & _ & Oa & Om). cbn [compilec supportedc]. rewrite fox_one. split; [apply refs_one|]. split; [exact (expr_line p lib c (truth_value lib c Tc))|]. split; [exact (IHa il A Oa)|exact (IHm il A Om)].
Qed.

(** ** Both runs *)
Variable call : pystr -> list pval -> store -> called.
Hypothesis call_keeps : forall g f vs s v s1, F g f -> call f vs s = Value v s1 -> forall x, In x L -> s1 x = s x.
Lemma upd_same s x v : upd s x v x = Some v.
Proof. unfold upd. destruct (pystr_eqb_spec x x); [reflexivity|contradiction]. Qed.
Lemma upd_other s x v y : y <> x -> upd s x v y = s y.
Proof. intros N. unfold upd. destruct (pystr_eqb_spec y x); [contradiction|reflexivity]. Qed.
Lemma keeps :
  (forall s il A, ok' il A s -> forall x, In x A -> In x L -> forall N st st' f, run call N s st = Done st' f -> st' x = st x) /\
  (forall l il A, oks' il A l -> forall x, In x A -> In x L -> forall N st st' f, runs call N l st = Done st' f -> st' x = st x) /\
  (forall o il A, oko' il A o -> forall x, In x A -> In x L -> forall N st st' f, match o with KSome b => runs call N b | KNone => fun s => Done s Next end st = Done st' f -> st' x = st x) /\
  (forall c il A, okc' il A c -> forall x, In x A -> In x L -> forall N other, (forall st st' f, other st = Done st' f -> st' x = st x) -> forall st st' f, runc call N c other st = Done st' f -> st' x = st x).
Proof.
  assert (T : forall x c a b, (forall st st' f, a st = Done st' f -> st' x = st x) -> (forall st st' f, b st = Done st' f -> st' x = st x) -> forall st st' f, test c a b st = Done st' f -> st' x = st x).
  { intros x c a b Ha Hb st st' f H. unfold test in H. destruct (fox st c) as [[| |[]| |]|]; try discriminate; eauto. }
  apply core_ind.
  - intros y t il A (_ & _ & _ & _ & Ny & _) x IA IL N st st' f H. cbn [run] in H. destruct (fox st t); [|discriminate]. injection H as <- _. apply upd_other. intros ->. contradiction.
  - intros c a IHa b IHb il A (_ & _ & Oa & Ob) x IA IL N. cbn [run]. apply T; [exact (IHa il A Oa x IA IL N)|exact (IHb il A Ob x IA IL N)].
  - intros c a IHa m IHm b IHb il A (_ & _ & Oa & Om & Ob) x IA IL N. cbn [run]. apply T; [exact (IHa il A Oa x IA IL N)|]. apply (IHm il A Om x IA IL N). exact (IHb il A Ob x IA IL N).
  - intros c b IHb il A (_ & _ & Ob) x IA IL N. cbn [run]. specialize (IHb true A Ob x IA IL N). set (body := runs call N b) in *. clearbody body. induction N as [|N IN]; [discriminate|]. cbn [do_while].
    apply T; [|intros st st' f H; injection H as <- _; reflexivity]. intros st st' f H. destruct (body st) as [s1 f1| |] eqn:E; try discriminate. pose proof (IHb _ _ _ E) as E1.
    destruct f1; [rewrite (IN _ _ _ H); exact E1|injection H as <- _; exact E1|rewrite (IN _ _ _ H); exact E1|injection H as <- _; exact E1].
  - intros y a b st0 body IHb il A (_ & _ & _ & _ & _ & _ & _ & ILy & NAy & Ob) x IA IL N st st' f. cbn [run]. assert (Ne : x <> y) by (intros ->; contradiction).
    specialize (IHb true (y :: A) Ob x (or_intror IA) IL N). set (bd := runs call N body) in *. clearbody bd.
    destruct (fox st a) as [[i| | | |]|]; try discriminate. destruct (fox st b) as [[j| | | |]|]; try discriminate. destruct (match st0 with Some t => fox st t | None => Some (PI 1) end) as [[k| | | |]|]; try discriminate.
    intros H. rewrite <- (upd_other st y (PI i) x Ne). revert H. generalize (upd st y (PI i)). clear - IHb Ne. induction N as [|N IN]; [discriminate|]. intros s H. cbn [do_for] in H.
    destruct (s y) as [[i| | | |]|]; try discriminate. destruct (if k <? 0 then j <=? i else i <=? j); [|injection H as <- _; reflexivity].
    destruct (bd s) as [s1 f1| |] eqn:E; try discriminate. pose proof (IHb _ _ _ E) as E1.
    destruct f1; [|injection H as <- _; exact E1| |injection H as <- _; exact E1]; destruct (s1 y) as [[i1| | | |]|]; try discriminate; destruct (number53 (i1 + k)) as [v|]; try discriminate; rewrite (IN _ H), upd_other by exact Ne; exact E1.
  - intros il A _ x IA IL N st st' f H. injection H as <- _. reflexivity.
  - intros il A _ x IA IL N st st' f H. injection H as <- _. reflexivity.
  - intros y g args il A (Ny & Hg & _) x IA IL N st st' f H. cbn [run] in H. destruct (foxs st args) as [vs|]; [|discriminate]. destruct (call g vs st) as [v s1| |] eqn:E; try discriminate.
    rewrite <- (call_keeps _ _ _ _ _ _ Hg E x IL). destruct y as [y| |]; injection H as <- _; [|reflexivity..]. rewrite upd_other by (intros ->; tauto). reflexivity.
  - intros t il A _ x IA IL N st st' f H. cbn [run] in H. destruct (fox st t); [|discriminate]. injection H as <- _. reflexivity.
  - intros il A _ x IA IL N st st' f H. injection H as <- _. reflexivity.
  - intros ls il A _ x IA IL N st st' f H. injection H as <- _. reflexivity.
  - intros il A _ x IA IL N st st' f H. injection H as <- _. reflexivity.
  - intros s IHs l IHl il A (Os & Ol) x IA IL N st st' f H. cbn [runs] in H. destruct (run call N s st) as [s1 f1| |] eqn:E; try discriminate. pose proof (IHs il A Os x IA IL N _ _ _ E) as E1.
    destruct f1; cbn [and_then] in H; [rewrite (IHl il A Ol x IA IL N _ _ _ H); exact E1|injection H as <- _; exact E1..].
  - intros il A _ x IA IL N st st' f H. injection H as <- _. reflexivity.
  - intros l IH il A H x IA IL N. exact (IH il A H x IA IL N).
  - intros il A _ x IA IL N other Ho. exact Ho.
  - intros c a IHa m IHm il A (_ & _ & Oa & Om) x IA IL N other Ho. cbn [runc]. apply T; [exact (IHa il A Oa x IA IL N)|]. exact (IHm il A Om x IA IL N other Ho).
Qed.
(** Outside loops neither EXIT nor LOOP can be met. *)
Definition ends (f : flow) : Prop := match f with Next => True | Ret _ => ret = true | _ => False end.
Lemma no_signals :
  (forall s A, ok' false A s -> forall N st st' f, run call N s st = Done st' f -> ends f) /\ (forall l A, oks' false A l -> forall N st st' f, runs call N l st = Done st' f -> ends f) /\
  (forall o A, oko' false A o -> forall N st st' f, match o with KSome b => runs call N b | KNone => fun s => Done s Next end st = Done st' f -> ends f) /\
  (forall c A, okc' false A c -> forall N other, (forall st st' f, other st = Done st' f -> ends f) -> forall st st' f, runc call N c other st = Done st' f -> ends f).
Proof.
  assert (R : (forall s il A, ok' il A s -> forall N st st' v, run call N s st = Done st' (Ret v) -> ret = true) /\ (forall l il A, oks' il A l -> forall N st st' v, runs call N l st = Done st' (Ret v) -> ret = true) /\
    (forall o il A, oko' il A o -> forall N st st' v, match o with KSome b => runs call N b | KNone => fun s => Done s Next end st = Done st' (Ret v) -> ret = true) /\
    (forall c il A, okc' il A c -> forall N other, (forall st st' v, other st = Done st' (Ret v) -> ret = true) -> forall st st' v, runc call N c other st = Done st' (Ret v) -> ret = true)).
  { assert (T : forall c a b, (forall st st' v, a st = Done st' (Ret v) -> ret = true) -> (forall st st' v, b st = Done st' (Ret v) -> ret = true) -> forall st st' v, test c a b st = Done st' (Ret v) -> ret = true).
    { intros c a b Ha Hb st st' v H. unfold test in H. destruct (fox st c) as [[| |[]| |]|]; try discriminate; eauto. }
    apply core_ind; try (intros; discriminate).
    - intros y t il A _ N st st' v H. cbn [run] in H. destruct (fox st t); discriminate.
    - intros c a IHa b IHb il A (_ & _ & Oa & Ob) N. cbn [run]. apply T; [exact (IHa il A Oa N)|exact (IHb il A Ob N)].
    - intros c a IHa m IHm b IHb il A (_ & _ & Oa & Om & Ob) N. cbn [run]. apply T; [exact (IHa il A Oa N)|]. apply (IHm il A Om N). exact (IHb il A Ob N).
    - intros c b IHb il A (_ & _ & Ob) N. cbn [run]. specialize (IHb true A Ob N). set (body := runs call N b) in *. clearbody body. induction N as [|N IN]; [discriminate|]. cbn [do_while]. apply T; [|intros; discriminate].
      intros st st' v H. destruct (body st) as [s1 [| | |w]| |] eqn:E; try discriminate; [exact (IN _ _ _ H)|exact (IN _ _ _ H)|exact (IHb _ _ _ E)].
    - intros y a b st0 body IHb il A (_ & _ & _ & _ & _ & _ & _ & _ & _ & Ob) N st st' v. cbn [run]. specialize (IHb true (y :: A) Ob N). set (bd := runs call N body) in *. clearbody bd.
      destruct (fox st a) as [[i| | | |]|]; try discriminate. destruct (fox st b) as [[j| | | |]|]; try discriminate. destruct (match st0 with Some t => fox st t | None => Some (PI 1) end) as [[k| | | |]|]; try discriminate.
      generalize (upd st y (PI i)). induction N as [|N IN]; [discriminate|]. intros s H. cbn [do_for] in H.
      destruct (s y) as [[i1| | | |]|]; try discriminate. destruct (if k <? 0 then j <=? i1 else i1 <=? j); [|discriminate].
      destruct (bd s) as [s1 [| | |w]| |] eqn:E; try discriminate; [| |exact (IHb _ _ _ E)]; destruct (s1 y) as [[i2| | | |]|]; try discriminate; destruct (number53 (i2 + k)); try discriminate; exact (IN _ H).
    - intros y g args il A (Hy & _) N st st' v H. cbn [run] in H. destruct (foxs st args); [|discriminate]. destruct (call g l st); try discriminate. destruct y; [discriminate..|exact Hy].
    - intros t il A (Hr & _) N st st' v _. exact Hr.
    - intros il A Hr N st st' v _. exact Hr.
    - intros s IHs l IHl il A (Os & Ol) N st st' v H. cbn [runs] in H. destruct (run call N s st) as [s1 [| | |w]| |] eqn:E; try discriminate; [exact (IHl il A Ol N _ _ _ H)|exact (IHs il A Os N _ _ _ E)].
    - intros l IH il A H N. exact (IH il A H N).
    - intros il A _ N other Ho. exact Ho.
    - intros c a IHa m IHm il A (_ & _ & Oa & Om) N other Ho. cbn [runc]. apply T; [exact (IHa il A Oa N)|]. exact (IHm il A Om N other Ho). }
  assert (T : forall c a b, (forall st st' f, a st = Done st' f -> ends f) -> (forall st st' f, b st = Done st' f -> ends f) -> forall st st' f, test c a b st = Done st' f -> ends f).
  { intros c a b Ha Hb st st' f H. unfold test in H. destruct (fox st c) as [[| |[]| |]|]; try discriminate; eauto. }
  apply core_ind; try (intros; discriminate); try (intros; match goal with H : Done _ _ = Done _ _ |- _ => injection H as _ <-; exact I | H : run _ _ (KNote _) _ = Done _ _ |- _ => injection H as _ <-; exact I | H : runs _ _ KNil _ = Done _ _ |- _ => injection H as _ <-; exact I end).
  - intros y t A _ N st st' f H. cbn [run] in H. destruct (fox st t); [|discriminate]. injection H as _ <-. exact I.
  - intros c a IHa b IHb A (_ & _ & Oa & Ob) N. cbn [run]. apply T; [exact (IHa A Oa N)|exact (IHb A Ob N)].
  - intros c a IHa m IHm b IHb A (_ & _ & Oa & Om & Ob) N. cbn [run]. apply T; [exact (IHa A Oa N)|]. apply (IHm A Om N). exact (IHb A Ob N).
  - intros c b _ A O N st st' f H. destruct f as [| | |v]; try exact I; [| |exact (proj1 R _ _ _ O N _ _ _ H)]; cbn [run] in H; revert st H; set (body := runs call N b); clearbody body; (induction N as [|N IN]; [discriminate|]); intros st H; cbn [do_while] in H; unfold test in H;
      destruct (fox st c) as [[| |[]| |]|]; try discriminate; destruct (body st) as [s1 [| | |w]| |]; try discriminate; exact (IN _ H).
  - intros y a b st0 body _ A O N st st' f H. destruct f as [| | |v]; try exact I; [| |exact (proj1 R _ _ _ O N _ _ _ H)]; cbn [run] in H; revert H; set (bd := runs call N body); clearbody bd;
    (destruct (fox st a) as [[i| | | |]|]; try discriminate); (destruct (fox st b) as [[j| | | |]|]; try discriminate); (destruct (match st0 with Some t => fox st t | None => Some (PI 1) end) as [[k| | | |]|]; try discriminate);
    generalize (upd st y (PI i)); (induction N as [|N IN]; [discriminate|]); intros s H; cbn [do_for] in H;
    (destruct (s y) as [[i1| | | |]|]; try discriminate); (destruct (if k <? 0 then j <=? i1 else i1 <=? j); try discriminate);
    (destruct (bd s) as [s1 [| | |w]| |]; try discriminate); (destruct (s1 y) as [[i2| | | |]|]; try discriminate); (destruct (number53 (i2 + k)); try discriminate); exact (IN _ H).
  - intros y g args A (Hy & _) N st st' f H. cbn [run] in H. destruct (foxs st args); [|discriminate]. destruct (call g l st); try discriminate. destruct y; injection H as _ <-; [exact I..|exact Hy].
  - intros t A (Hr & _) N st st' f H. cbn [run] in H. destruct (fox st t); [|discriminate]. injection H as _ <-. exact Hr.
  - intros A Hr N st st' f H. injection H as _ <-. exact Hr.
  - intros s IHs l IHl A (Os & Ol) N st st' f H. cbn [runs] in H. destruct (run call N s st) as [s1 f1| |] eqn:E; try discriminate. pose proof (IHs A Os N _ _ _ E) as E1.
    destruct f1 as [| | |w]; try contradiction; [exact (IHl A Ol N _ _ _ H)|injection H as _ <-; exact E1].
  - intros l IH A H N. exact (IH A H N).
  - intros A _ N other Ho. exact Ho.
  - intros c a IHa m IHm A (_ & _ & Oa & Om) N other Ho. cbn [runc]. apply T; [exact (IHa A Oa N)|]. exact (IHm A Om N other Ho).
Qed.

(** A Python machine with these variables *)
Variable pm : machine.
Variable it : pystr -> list Z -> It pm.
Variable look : St pm -> store.
Variable put : St pm -> pystr -> pval -> St pm.
Variable inv : St pm -> Prop.
Variable given : St pm -> option pval.
Variable deep : Prop.
Variable timeout : Ex pm.
Definition agree (A : list pystr) (s : store) (m : St pm) : Prop := inv m /\ forall x, W x -> (In x L -> In x A) -> s x = look m x.
Hypothesis h_pass : forall m, m_run pm None (u "pass") m = (m, Normal).
Hypothesis h_break : forall m, m_run pm None (u "break") m = (m, Break).
Hypothesis h_continue : forall m, m_run pm None (u "continue") m = (m, Continue).
Hypothesis h_test : forall t m v, py_expr (look m) t = Some v -> m_test pm t m = (m, inl (truth v)).
Hypothesis h_start : forall t m x l, py_for t (look m) = Some (x, l) -> m_start pm t m = (m, inl (it x l)).
Hypothesis h_nil : forall x m, m_next pm (it x []) m = (m, inl None).
Hypothesis h_cons : forall x v l m, inv m -> W x -> m_next pm (it x (v :: l)) m = (put m x (PI v), inl (Some (it x l))).
Hypothesis h_put : forall m x v, inv m -> W x -> inv (put m x v) /\ forall y, W y -> look (put m x v) y = upd (look m) x v y.
Hypothesis h_set : forall m x t v, inv m -> W x -> name_ok x = true -> value_ok lib t -> let_ok x t -> fox (look m) t = Some v ->
  m_run pm None (stmt_text p (assign (var x) (convert lib t))) m = (put m x v, Normal).
Hypothesis h_return : forall m t v, inv m -> ret = true -> value_ok lib t -> fox (look m) t = Some v ->
  exists m1, m_run pm None (return_text (Some (expr_text lib p t))) m = (m1, Return) /\ inv m1 /\ given m1 = Some v /\ forall x, look m1 x = look m x.
Hypothesis h_leave : forall m, inv m -> ret = true -> exists m1, m_run pm None (return_text None) m = (m1, Return) /\ inv m1 /\ given m1 = None /\ forall x, look m1 x = look m x.
Hypothesis h_call : forall A s m g f args vs, agree A s m -> match g with Into x => W x /\ name_ok x = true | Nowhere => True | Answer => ret = true end -> F g f -> Forall (value_ok lib) args ->
  foxs (look m) args = Some vs ->
  match call f vs s with
  | Value v s1 =>
      match g with
      | Into x => exists m1, m_run pm None (call_text lib p g f args) m = (put m1 x v, Normal) /\ agree A s1 m1
      | Nowhere => exists m1, m_run pm None (call_text lib p g f args) m = (m1, Normal) /\ agree A s1 m1
      | Answer => exists m1, m_run pm None (call_text lib p g f args) m = (m1, Return) /\ agree A s1 m1 /\ given m1 = Some v
      end
  | Endless => deep /\ exists m1, m_run pm None (call_text lib p g f args) m = (m1, Raise timeout)
  | Failed => True
  end.
Definition sig (f : flow) : signal (Ex pm) := match f with Next => Normal | Exit => Break | Loop => Continue | Ret _ => Return end.
Definition Rel (A : list pystr) (r : outcome) (r' : result pm) : Prop :=
  match r with
  | Done s f => exists m, r' = Some (m, sig f) /\ agree A s m /\ match f with Ret v => given m = v | _ => True end
  | Running => r' = None \/ deep /\ exists m, r' = Some (m, Raise timeout)
  | Wrong => True
  end.
Lemma agree_fox A s m t : agree A s m -> visible L W A t -> fox s t = fox (look m) t.
Proof. intros [_ H] V. apply fox_ext. intros x I. destruct (V x I). apply H; assumption. Qed.
Lemma agree_foxs A s m l : agree A s m -> Forall (fun t => value_ok lib t /\ visible L W A t) l -> foxs s l = foxs (look m) l.
Proof. intros G. induction 1 as [|t l [_ V] _ IH]; [reflexivity|]. cbn [foxs]. rewrite IH, (agree_fox A s m t G V). reflexivity. Qed.
Lemma agree_put A s m x v : agree A s m -> W x -> agree A (upd s x v) (put m x v).
Proof.
  intros [Iv H] Wx. destruct (h_put m x v Iv Wx) as [I1 I2]. split; [exact I1|]. intros y Wy Hy. rewrite (I2 y Wy). unfold upd. destruct (pystr_eqb y x); [reflexivity|exact (H y Wy Hy)].
Qed.
Lemma test_sim A c a a' b b' s m : truth_ok lib c -> visible L W A c -> agree A s m -> (forall s m, agree A s m -> Rel A (a s) (a' m)) -> (forall s m, agree A s m -> Rel A (b s) (b' m)) ->
  Rel A (test c a b s) (if_ pm (expr_text lib p c) a' b' m).
Proof.
  intros Tc V G Ha Hb. unfold test. rewrite (agree_fox A s m c G V). destruct (fox (look m) c) as [[| |x| |]|] eqn:E; try exact I.
  assert (X : py_expr (look m) (expr_text lib p c) = Some (PB x)).
  { apply py_expr_text; [exact (value_good lib c (truth_value lib c Tc))|]. exact (truth_code (look m) lib c x (proj2 Tc) E). }
  unfold if_. rewrite (h_test _ _ _ X). cbn [truth]. destruct x; [apply Ha, G|apply Hb, G].
Qed.
Lemma Rel_running A r' : Rel A Running r' -> (forall st, r' <> Some (st, Normal)) /\ (forall st, r' <> Some (st, Break)) /\ (forall st, r' <> Some (st, Continue)).
Proof. intros [-> | (_ & m & ->)]; repeat split; discriminate. Qed.
Lemma while_sim A c body body' : truth_ok lib c -> visible L W A c -> (forall s m, agree A s m -> Rel A (body s) (body' m)) -> forall N s m, agree A s m ->
  Rel A (do_while N c body s) (while_ pm N (expr_text lib p c) body' m).
Proof.
  intros Tc V Hb N. induction N as [|N IN]; intros s m G; [left; reflexivity|]. cbn [do_while while_]. apply test_sim; try assumption.
  - clear s m G. intros s m G. specialize (Hb s m G). unfold Rel in Hb. destruct (body s) as [s1 f| |]; [|destruct Hb as [-> | (D & m1 & ->)]; [left; reflexivity|right; split; [exact D|exists m1; reflexivity]]|exact I].
    destruct Hb as (m1 & -> & G1 & K). destruct f; cbn [sig]; [exact (IN _ _ G1)| |exact (IN _ _ G1)|]; exists m1; split; [reflexivity|split; [exact G1|exact I]|reflexivity|split; [exact G1|exact K]].
  - clear s m G. intros s m G. exists m. split; [reflexivity|]. split; [exact G|exact I].
Qed.
Lemma for_sim A x body body' : W x -> In x L -> ~ In x A -> (forall s m, agree (x :: A) s m -> Rel (x :: A) (body s) (body' m)) -> (forall s s1 f, body s = Done s1 f -> s1 x = s x) ->
  forall j k, 0 < k -> forall N i s m, agree A s m -> s x = Some (PI i) -> Rel A (do_for N x j k body s) (passes pm N (it x (py_range i (j + 1) k)) body' m).
Proof.
  intros Wx IL NA Hb Kp j k K N. induction N as [|N IN]; intros i s m G X; [left; reflexivity|]. cbn [do_for passes]. rewrite X. destruct (Z.ltb_spec k 0); [lia|]. destruct (Z.leb_spec i j) as [Lij|Lij].
  - rewrite py_range_cons by lia. rewrite (h_cons x i _ m (proj1 G) Wx).
    assert (G1 : agree (x :: A) s (put m x (PI i))).
    { destruct (h_put m x (PI i) (proj1 G) Wx) as [I1 I2]. split; [exact I1|]. intros y Wy Hy. rewrite (I2 y Wy). unfold upd. destruct (pystr_eqb_spec y x) as [->|Ne]; [exact X|]. apply (proj2 G y Wy).
      intros I. destruct (Hy I) as [->|J]; [contradiction|exact J]. }
    specialize (Hb _ _ G1). unfold Rel in Hb. destruct (body s) as [s1 f| |] eqn:E; [|destruct Hb as [-> | (D & m1 & ->)]; [left; reflexivity|right; split; [exact D|exists m1; reflexivity]]|exact I].
    destruct Hb as (m1 & -> & G2 & Kv). pose proof (Kp _ _ _ E) as E1.
    assert (G3 : agree A s1 m1) by (split; [exact (proj1 G2)|]; intros y Wy Hy; apply (proj2 G2 y Wy); intros I; right; exact (Hy I)).
    assert (G4 : forall v, agree A (upd s1 x v) m1).
    { intros v. split; [exact (proj1 G2)|]. intros y Wy Hy. rewrite upd_other; [exact (proj2 G3 y Wy Hy)|]. intros ->. exact (NA (Hy IL)). }
    destruct f; cbn [sig]; [| exists m1; split; [reflexivity|split; [exact G3|exact I]] | | exists m1; split; [reflexivity|split; [exact G3|exact Kv]]]; rewrite E1, X; destruct (number53 (i + k)) as [v|] eqn:Nv; try exact I; apply number53_some in Nv; subst v;
      apply IN; [apply G4|apply upd_same|apply G4|apply upd_same].
  - rewrite py_range_nil by lia. rewrite h_nil. exists m. split; [reflexivity|]. split; [exact G|exact I].
Qed.
Lemma pruns_block N l st : pruns pm N None (block_of l) st = pruns pm N None l st.
Proof. destruct l; [|reflexivity]. cbn. rewrite h_pass. reflexivity. Qed.
Lemma pruns_app N a : forall b st, pruns pm N None (a ++ b) st = then_ pm (pruns pm N None a st) (pruns pm N None b).
Proof.
  induction a as [|x a IH]; intros b st; [reflexivity|]. cbn [app pruns]. destruct (prun pm N None x st) as [[s []]|]; try reflexivity. cbn [then_]. apply IH.
Qed.
Lemma pruns_one N x st : pruns pm N None [x] st = prun pm N None x st.
Proof. cbn [pruns]. destruct (prun pm N None x st) as [[s []]|]; reflexivity. Qed.
Lemma prun_if N c a b st : prun pm N None (PIf c a b) st = if_ pm c (pruns pm N None a) (pruns pm N None b) st.
Proof. reflexivity. Qed.
Lemma prun_while N c b st : prun pm N None (PWhile c b) st = while_ pm N c (pruns pm N None b) st.
Proof. reflexivity. Qed.
Lemma prun_for N h b st : prun pm N None (PFor h b) st = for_ pm N h (pruns pm N None b) st.
Proof. reflexivity. Qed.

Theorem core_sim :
  (forall s il A, ok' il A s -> forall N st m, agree A st m -> Rel A (run call N s st) (pruns pm N None (meant [] (compile lib p s)) m)) /\
  (forall l il A, oks' il A l -> forall N st m, agree A st m -> Rel A (runs call N l st) (pruns pm N None (meants [] (compiles lib p l)) m)) /\
  (forall o il A, oko' il A o -> forall N st m, agree A st m -> Rel A (match o with KSome b => runs call N b | KNone => fun s => Done s Next end st)
     (pruns pm N None (match compileo lib p o with FSome b => block_of (meants [] b) | FNone => [] end) m)) /\
  (forall c il A, okc' il A c -> forall N other e, (forall st m, agree A st m -> Rel A (other st) (pruns pm N None e m)) -> forall st m, agree A st m ->
     Rel A (runc call N c other st) (pruns pm N None (meantc [] (compilec lib p c) e) m)).
Proof.
  assert (Fin : forall A s m, agree A s m -> Rel A (Done s Next) (Some (m, Normal))) by (intros A s m G; exists m; split; [reflexivity|]; split; [exact G|exact I]).
  apply core_ind.
  - intros x t il A (Nx & Wx & V & Vi & NL & Hl) N st m G. cbn [run compile meant]. rewrite pruns_one, fox_one, (agree_fox A st m t G Vi). destruct (fox (look m) t) as [v|] eqn:E; [|exact I].
    cbn [prun]. rewrite (h_set m x t v (proj1 G) Wx Nx V Hl E). apply Fin, agree_put; assumption.
  - intros c a IHa b IHb il A (Tc & Vc & Oa & Ob) N st m G. cbn [run compile meant]. rewrite pruns_one, fox_one, prun_if. apply test_sim; try assumption.
    + intros s s' Gs. rewrite pruns_block. exact (IHa il A Oa N s s' Gs).
    + intros s s' Gs. exact (IHb il A Ob N s s' Gs).
  - intros c a IHa m IHm b IHb il A (Tc & Vc & Oa & Om & Ob) N st st' G. cbn [run compile meant meantc]. rewrite pruns_one, fox_one, prun_if. apply test_sim; try assumption.
    + intros s s' Gs. rewrite pruns_block. exact (IHa il A Oa N s s' Gs).
    + intros s s' Gs. apply (IHm il A Om N); [|exact Gs]. intros; apply (IHb il A Ob N); assumption.
  - intros c b IHb il A (Tc & Vc & Ob) N st st' G. cbn [run compile meant]. rewrite pruns_one, fox_one, prun_while. apply while_sim; try assumption.
    intros s s' Gs. rewrite pruns_block. exact (IHb true A Ob N s s' Gs).
  - intros x a b st0 body IHb il A O N st st' G. pose proof O as (Nx & Wx & Na & Va & Nb & Vb & Hs & IL & NA & Ob). cbn [run compile meant]. rewrite pruns_one, fox_one, prun_for.
    rewrite (agree_fox A st st' a G Va), (agree_fox A st st' b G Vb).
    assert (Es : match st0 with Some t => fox st t | None => Some (PI 1) end = match st0 with Some t => fox (look st') t | None => Some (PI 1) end) by (destruct st0 as [t|]; [destruct Hs as (n & -> & _)|]; reflexivity).
    rewrite Es. destruct (fox (look st') a) as [[i| | | |]|] eqn:Fa; try exact I. destruct (fox (look st') b) as [[j| | | |]|] eqn:Fb; try exact I.
    destruct (match st0 with Some t => fox (look st') t | None => Some (PI 1) end) as [[k| | | |]|] eqn:Fk; try exact I.
    destruct (for_reads p lib x (look st') a b st0 i j k Nx Na Nb Hs Fa Fb Fk) as (R & K & _). unfold for_. rewrite (h_start _ _ _ _ R). apply for_sim; try assumption.
    + intros s s' Gs. rewrite pruns_block. exact (IHb true (x :: A) Ob N s s' Gs).
    + intros s s1 f E. exact (proj1 (proj2 keeps) body true (x :: A) Ob x (or_introl eq_refl) IL N s s1 f E).
    + split; [exact (proj1 G)|]. intros y Wy Hy. rewrite upd_other; [exact (proj2 G y Wy Hy)|]. intros ->. exact (NA (Hy IL)).
    + apply upd_same.
  - intros il A _ N st m G. cbn [compile meant run]. rewrite pruns_one. cbn [prun]. rewrite h_break. exists m. split; [reflexivity|]. split; [exact G|exact I].
  - intros il A _ N st m G. cbn [compile meant run]. rewrite pruns_one. cbn [prun]. rewrite h_continue. exists m. split; [reflexivity|]. split; [exact G|exact I].
  - intros g f args il A (Hg & Hf & Ha) N st m G. cbn [run compile meant]. rewrite pruns_one, fox_one, (agree_foxs A st m args G Ha). destruct (foxs (look m) args) as [vs|] eqn:E; [|exact I].
    assert (Hg' : match g with Into x => W x /\ name_ok x = true | Nowhere => True | Answer => ret = true end) by (destruct g; tauto).
    pose proof (h_call A st m g f args vs G Hg' Hf (values_of A args Ha) E) as H. cbn [prun]. destruct (call f vs st) as [v s1| |]; [|destruct H as (D & m1 & ->); right; split; [exact D|exists m1; reflexivity]|exact I].
    destruct g as [x| |]; [destruct H as (m1 & -> & G1); apply Fin, agree_put; tauto|destruct H as (m1 & -> & G1); apply Fin, G1|]. destruct H as (m1 & -> & G1 & Gv). exists m1. split; [reflexivity|]. split; [exact G1|exact Gv].
  - intros t il A (Hr & V & Vi) N st m G. cbn [run compile meant]. rewrite pruns_one, fox_one, (agree_fox A st m t G Vi). destruct (fox (look m) t) as [v|] eqn:E; [|exact I].
    cbn [prun]. destruct (h_return m t v (proj1 G) Hr V E) as (m1 & -> & I1 & Gv & Lk). exists m1. split; [reflexivity|]. split; [|exact Gv]. split; [exact I1|]. intros x Wx Hx. rewrite Lk. exact (proj2 G x Wx Hx).
  - intros il A Hr N st m G. cbn [run compile meant]. rewrite pruns_one, fox_one. cbn [prun]. destruct (h_leave m (proj1 G) Hr) as (m1 & -> & I1 & Gv & Lk). exists m1. split; [reflexivity|]. split; [|exact Gv]. split; [exact I1|]. intros x Wx Hx. rewrite Lk. exact (proj2 G x Wx Hx).
  - intros ls il A _ N st m G. apply Fin, G.
  - intros il A _ N st m G. apply Fin, G.
  - intros s IHs l IHl il A (Os & Ol) N st st' G. change (Rel A (and_then (run call N s st) (runs call N l)) (pruns pm N None (meant [] (compile lib p s) ++ meants [] (compiles lib p l)) st')). rewrite pruns_app. specialize (IHs il A Os N st st' G). unfold Rel in IHs.
    destruct (run call N s st) as [s1 f| |]; [|destruct IHs as [-> | (D & m1 & ->)]; [left; reflexivity|right; split; [exact D|exists m1; reflexivity]]|exact I].
    destruct IHs as (s1' & -> & G1 & K). destruct f; cbn [and_then then_ sig]; [exact (IHl il A Ol N s1 s1' G1)| | |]; exists s1'; (split; [reflexivity|]); (split; [exact G1|]); exact K.
  - intros il A _ N st m G. apply Fin, G.
  - intros l IH il A H N st st' G. cbn [compileo]. rewrite pruns_block. exact (IH il A H N st st' G).
  - intros il A _ N other e He st st' G. exact (He st st' G).
  - intros c a IHa m IHm il A (Tc & Vc & Oa & Om) N other e He st st' G. cbn [runc compilec meantc]. rewrite pruns_one, fox_one, prun_if. apply test_sim; try assumption.
    + intros s s' Gs. rewrite pruns_block. exact (IHa il A Oa N s s' Gs).
    + intros s s' Gs. exact (IHm il A Om N other e He s s' Gs).
Qed.
End sim.
