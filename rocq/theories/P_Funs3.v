(** Calls in FoxPro and calls of the functions that the text defines. *)
From Verif Require Import PyBase PyStr M_Memvar S_Memvar P_Memvar M_Params S_Params P_Params M_Do S_Py P_Py S_PyEval M_Lit P_Lit M_Stmt S_Stmt P_Stmt T_Stmt M_Program M_Conv S_Conv P_Conv P_Bool S_Inline P_Inline S_For M_Show M_Core P_Fuel S_Lex S_Core P_Lex P_Core1 P_Core2 P_Core3 S_Funs P_Funs1 P_Funs2.
Open Scope Z_scope.

(** ** Every path returns *)
Lemma returns_next call :
  (forall s, returns s = true -> forall N st st' f, run call N s st = Done st' f -> f <> Next) /\ (forall l, returnss l = true -> forall N st st' f, runs call N l st = Done st' f -> f <> Next) /\
  (forall o, match o with KSome l => returnss l = true -> forall N st st' f, runs call N l st = Done st' f -> f <> Next | KNone => True end) /\
  (forall c, returnsc c = true -> forall N other, (forall st st' f, other st = Done st' f -> f <> Next) -> forall st st' f, runc call N c other st = Done st' f -> f <> Next).
Proof.
  assert (T : forall c a b, (forall st st' f, a st = Done st' f -> f <> Next) -> (forall st st' f, b st = Done st' f -> f <> Next) -> forall st st' f, test c a b st = Done st' f -> f <> Next).
  { intros c a b Ha Hb st st' f H. unfold test in H. destruct (fox st c) as [[| |[]| |]|]; try discriminate; eauto. }
  apply core_ind; try (intros; discriminate).
  - intros c a IHa b IHb R N. destruct b as [|b]; [discriminate|]. cbn [returns] in R. apply andb_prop in R as [Ra Rb]. cbn [run]. apply T; [exact (IHa Ra N)|exact (IHb Rb N)].
  - intros c a IHa m IHm b IHb R N. destruct b as [|b]; [discriminate|]. cbn [returns] in R. apply andb_prop in R as [R Rb]. apply andb_prop in R as [Ra Rm]. cbn [run]. apply T; [exact (IHa Ra N)|]. exact (IHm Rm N _ (IHb Rb N)).
  - intros g f0 args R N st st' f H. destruct g; try discriminate. cbn [run] in H. destruct (foxs st args); [|discriminate]. destruct (call f0 l st); try discriminate. injection H as _ <-. discriminate.
  - intros t _ N st st' f H. cbn [run] in H. destruct (fox st t); [|discriminate]. injection H as _ <-. discriminate.
  - intros s IHs l IHl R N st st' f H. cbn [runs] in H. cbn [returnss] in R. destruct (run call N s st) as [s1 f1| |] eqn:E; try discriminate. apply orb_prop in R as [R|R].
    + pose proof (IHs R N _ _ _ E) as Nf. destruct f1; cbn [and_then] in H; [contradiction|injection H as _ <-; discriminate..].
    + destruct f1; cbn [and_then] in H; [exact (IHl R N _ _ _ H)|injection H as _ <-; discriminate..].
  - exact I.
  - intros l IH. exact IH.
  - intros _ N other Ho. exact Ho.
  - intros c a IHa m IHm R N other Ho. cbn [returnsc] in R. apply andb_prop in R as [Ra Rm]. cbn [runc]. apply T; [exact (IHa Ra N)|exact (IHm Rm N other Ho)].
Qed.
Lemma valued_ends call :
  (forall s, valued s = true -> forall N st st' f, run call N s st = Done st' f -> f <> Ret None) /\ (forall l, valueds l = true -> forall N st st' f, runs call N l st = Done st' f -> f <> Ret None) /\
  (forall o, valuedo o = true -> forall N st st' f, match o with KSome b => runs call N b | KNone => fun s => Done s Next end st = Done st' f -> f <> Ret None) /\
  (forall c, valuedc c = true -> forall N other, (forall st st' f, other st = Done st' f -> f <> Ret None) -> forall st st' f, runc call N c other st = Done st' f -> f <> Ret None).
Proof.
  assert (T : forall c a b, (forall st st' f, a st = Done st' f -> f <> Ret None) -> (forall st st' f, b st = Done st' f -> f <> Ret None) -> forall st st' f, test c a b st = Done st' f -> f <> Ret None).
  { intros c a b Ha Hb st st' f H. unfold test in H. destruct (fox st c) as [[| |[]| |]|]; try discriminate; eauto. }
  apply core_ind; try (intros; discriminate).
  - intros x t _ N st st' f H. cbn [run] in H. destruct (fox st t); [|discriminate]. injection H as _ <-. discriminate.
  - intros c a IHa b IHb R N. change (valueds a && valuedo b = true) in R. apply andb_prop in R as [Ra Rb]. cbn [run]. apply T; [exact (IHa Ra N)|exact (IHb Rb N)].
  - intros c a IHa m IHm b IHb R N. change (valueds a && valuedc m && valuedo b = true) in R. apply andb_prop in R as [R Rb]. apply andb_prop in R as [Ra Rm]. cbn [run]. apply T; [exact (IHa Ra N)|]. exact (IHm Rm N _ (IHb Rb N)).
  - intros c b IHb R N. cbn [run]. specialize (IHb R N). set (body := runs call N b) in *. clearbody body. induction N as [|N IN]; [discriminate|]. cbn [do_while]. apply T; [|intros st st' f H; injection H as _ <-; discriminate].
    intros st st' f H. destruct (body st) as [s1 [| | |w]| |] eqn:E; try discriminate; [exact (IN _ _ _ H)|injection H as _ <-; discriminate|exact (IN _ _ _ H)|injection H as _ <-; exact (IHb _ _ _ E)].
  - intros y a b st0 body IHb R N st st' f. cbn [run]. specialize (IHb R N). set (bd := runs call N body) in *. clearbody bd.
    destruct (fox st a) as [[i| | | |]|]; try discriminate. destruct (fox st b) as [[j| | | |]|]; try discriminate. destruct (match st0 with Some t => fox st t | None => Some (PI 1) end) as [[k| | | |]|]; try discriminate.
    generalize (upd st y (PI i)). induction N as [|N IN]; [discriminate|]. intros s H. cbn [do_for] in H.
    destruct (s y) as [[i1| | | |]|]; try discriminate. destruct (if k <? 0 then j <=? i1 else i1 <=? j); [|injection H as _ <-; discriminate].
    destruct (bd s) as [s1 [| | |w]| |] eqn:E; try discriminate; [|injection H as _ <-; discriminate| |injection H as _ <-; exact (IHb _ _ _ E)]; destruct (s1 y) as [[i2| | | |]|]; try discriminate; destruct (number53 (i2 + k)); try discriminate; exact (IN _ H).
  - intros _ N st st' f H. injection H as _ <-. discriminate.
  - intros _ N st st' f H. injection H as _ <-. discriminate.
  - intros g f0 args _ N st st' f H. cbn [run] in H. destruct (foxs st args); [|discriminate]. destruct (call f0 l st); try discriminate. destruct g; injection H as _ <-; discriminate.
  - intros t _ N st st' f H. cbn [run] in H. destruct (fox st t); [|discriminate]. injection H as _ <-. discriminate.
  - intros ls _ N st st' f H. injection H as _ <-. discriminate.
  - intros _ N st st' f H. injection H as _ <-. discriminate.
  - intros s IHs l IHl R N st st' f H. cbn [runs] in H. change (valued s && valueds l = true) in R. apply andb_prop in R as [Rs Rl]. destruct (run call N s st) as [s1 f1| |] eqn:E; try discriminate.
    pose proof (IHs Rs N _ _ _ E) as Nf. destruct f1; cbn [and_then] in H; [exact (IHl Rl N _ _ _ H)|injection H as _ <-; exact Nf..].
  - intros _ N st st' f H. injection H as _ <-. discriminate.
  - intros l IH R N. exact (IH R N).
  - intros _ N other Ho. exact Ho.
  - intros c a IHa m IHm R N other Ho. change (valueds a && valuedc m = true) in R. apply andb_prop in R as [Ra Rm]. cbn [runc]. apply T; [exact (IHa Ra N)|exact (IHm Rm N other Ho)].
Qed.
Lemma func_taken f vs v : S_PyEval.func f vs = Some v -> taken f = true.
Proof.
  assert (X : taken f = false -> S_PyEval.func f vs = None); [|destruct (taken f); [reflexivity|rewrite X by reflexivity; discriminate]].
  unfold taken. cbn [existsb]. rewrite !orb_false_iff. intros (A & B & C & D & E & F & _). unfold S_PyEval.func, is_u.
  destruct vs as [|[] [|[] [|]]]; rewrite ?A, ?B, ?C, ?D, ?E, ?F; reflexivity.
Qed.
Lemma inb_in x l : inb x l = true <-> In x l.
Proof.
  unfold inb. rewrite existsb_exists. split; [intros (y & I & E); destruct (pystr_eqb_spec x y) as [->|]; [exact I|discriminate]|].
  intros I. exists x. split; [exact I|]. destruct (pystr_eqb_spec x x); [reflexivity|contradiction].
Qed.
Lemma inb_out x l : ~ In x l -> inb x l = false.
Proof. intros N. destruct (inb x l) eqn:E; [apply inb_in in E; contradiction|reflexivity]. Qed.
Lemma all_some l : all_values (map Some l) = Some l.
Proof. induction l as [|v l IH]; [reflexivity|]. cbn. rewrite IH. reflexivity. Qed.
Lemma fox_call_keeps fs G N k f vs s v s1 : fox_call fs G N k f vs s = Value v s1 -> forall x, ~ In x G -> s1 x = s x.
Proof.
  destruct k as [|k]; [discriminate|]. cbn [fox_call]. destruct (find_proc fs f) as [q|]; [|discriminate]. destruct (_ <? _)%nat; [discriminate|].
  destruct (runs _ _ _ _) as [s2 [| | |w]| |]; try discriminate; intros E x Nx; injection E as _ <-; unfold back; rewrite (inb_out x G Nx); reflexivity.
Qed.

Section sim.
Variable lib : pystr -> bool.
Variable p : Z -> bool.
Variable fs : list proc.
Variable G : list pystr.
Hypothesis ok_file : file_ok lib fs G.
Variable N : nat.
(** functions of the text that no other function calls: the main program *)
Variable more : list pyfun.
Hypothesis ok_more : Forall (fun q => taken (q_name q) = false) more.
Definition fns : list pyfun := more ++ map (py_of lib p) fs.
Lemma G_names x : In x G -> name_ok x = true.
Proof. destruct ok_file as (H & _). rewrite Forall_forall in H. exact (H x). Qed.
Lemma ok_proc f : In f fs -> proc_ok lib fs G f.
Proof. destruct ok_file as (_ & _ & H). rewrite Forall_forall in H. exact (H f). Qed.
Lemma callable_name f : callable fs f -> name_ok f = true.
Proof. intros I. apply in_map_iff in I as (g & <- & I). exact (proj1 (ok_proc g I)). Qed.
Lemma find_unique {A} (g : A -> pystr) l x : NoDup (map g l) -> In x l -> find (fun q => pystr_eqb (g q) (g x)) l = Some x.
Proof.
  induction l as [|y l IH]; intros ND I; [contradiction|]. cbn [map] in ND. inversion ND as [|? ? Ni ND']; subst. cbn [find]. destruct (pystr_eqb_spec (g y) (g x)) as [E|Ne].
  - destruct I as [->|I]; [reflexivity|]. destruct Ni. rewrite E. apply in_map, I.
  - destruct I as [->|I]; [contradiction|]. exact (IH ND' I).
Qed.
Lemma find_app {A} (g : A -> bool) l l' x : find g l = Some x -> find g (l ++ l') = Some x.
Proof. induction l as [|y l IH]; [discriminate|]. cbn. destruct (g y); [tauto|exact IH]. Qed.
Lemma find_both f : callable fs f -> exists q, In q fs /\ p_name q = f /\ find_proc fs f = Some q /\ find_fun fns f = Some (py_of lib p q).
Proof.
  intros I. apply in_map_iff in I as (q & <- & I). destruct ok_file as (_ & ND & _). exists q. split; [exact I|]. split; [reflexivity|]. split; [exact (find_unique p_name fs q ND I)|].
  unfold find_fun, fns. rewrite rev_app_distr. change (p_name q) with (q_name (py_of lib p q)). apply find_app, (find_unique q_name).
  - rewrite map_rev, map_map. cbn [py_of q_name]. apply NoDup_rev. exact ND.
  - apply in_rev. rewrite rev_involutive. apply in_map, I.
Qed.
Lemma fun_untaken f q : find_fun fns f = Some q -> taken f = false.
Proof.
  intros H. apply find_some in H as [I E]. destruct (pystr_eqb_spec (q_name q) f) as [<-|]; [|discriminate]. apply in_rev in I. unfold fns in I. apply in_app_or in I as [I|I]; [rewrite Forall_forall in ok_more; exact (ok_more q I)|]. apply in_map_iff in I as (g & <- & I). exact (proj1 (proj2 (ok_proc g I))).
Qed.

(** ** One call *)
Section body.
Variable k : nat.
Definition calls_ok : Prop := forall f vs s m, callable fs f -> shows G m s ->
  match fox_call fs G N k f vs s with
  | Value v s1 => exists w m1, py_call fns N k f vs m = (Ok w, m1) /\ (w = v \/ ~ returning fs f /\ v = PB true /\ w = PN) /\ same_but G m m1 /\ shows G m1 s1
  | Endless => fst (py_call fns N k f vs m) = Err unfinished
  | Failed => True
  end.
Hypothesis IH : calls_ok.
Variable q : proc.
Hypothesis Oq : body_ok lib fs G q.
Variables (ps0 ls0 : list dict) (pc : list Z).
Let mach := py_machine fns (py_call fns N k).
Definition W (x : pystr) : Prop := In x (own q) \/ In x G.
Lemma W_name x : W x -> name_ok x = true.
Proof. intros [I|I]; [|exact (G_names x I)]. destruct Oq as (H & _). rewrite Forall_forall in H. exact (H x I). Qed.
Lemma apart x : In x (own q) -> ~ In x G.
Proof. destruct Oq as (_ & _ & H & _). exact (H x). Qed.
(** e: the variables that the function has made *)
Definition inv (st : pstate) : Prop := exists (ps : list dict) (e d : dict), mem (fst st) = mkMem (ps ++ [e]) (ls0 ++ [d]) /\ Forall2 (only_values G) ps0 ps /\ pcounts (fst st) = pc /\
  (forall x, In x (own q) -> shas d (nm x) = true) /\ (forall x, In x G -> shas d (nm x) = false /\ (look1 (rev ps) (nm x) <> None -> shas e (nm x) = false)).
Definition put (st : pstate) (x : pystr) (v : pval) : pstate := match set_var (fst st) x v with Ok s => (s, snd st) | Err _ => st end.
Lemma look_own st (ps : list dict) (e d : dict) x : mem st = mkMem (ps ++ [e]) (ls0 ++ [d]) -> shas d (nm x) = true -> look st x = sget d (nm x).
Proof. intros E H. unfold look. rewrite E, get_at, H. rewrite shas_sget in H. destruct (sget d (nm x)); [reflexivity|discriminate]. Qed.
Lemma look_public st (ps : list dict) (e d : dict) x : mem st = mkMem (ps ++ [e]) (ls0 ++ [d]) -> shas d (nm x) = false -> look st x = look1 (e :: rev ps) (nm x).
Proof. intros E H. unfold look. rewrite E, get_at, H, rev_pushed. destruct (look1 (e :: rev ps) (nm x)); reflexivity. Qed.
Lemma put_ok st x v : inv st -> W x -> exists s1, set_var (fst st) x v = Ok s1 /\ inv (s1, snd st) /\ forall y, W y -> look s1 y = upd (look (fst st)) x v y.
Proof.
  intros (ps & e & d & Em & Eo & Ep & Ho & Hg) Wx. destruct st as [s r]. cbn [fst snd] in *. unfold set_var. rewrite Em. pose proof (W_name x Wx) as Nx. destruct Wx as [Ix|Ix].
  - pose proof (Ho x Ix) as Hx. rewrite (set_local _ _ _ _ _ Hx). set (s1 := mkRt _ _ _). exists s1. split; [reflexivity|].
    assert (Hk : forall k, shas (sset d (nm x) v) k = shas d k) by (intros j; apply shas_keys, keys_sset, Hx). split.
    + exists ps, e, (sset d (nm x) v). split; [reflexivity|]. split; [exact Eo|]. split; [exact Ep|]. split; intros y Iy; rewrite Hk; [exact (Ho y Iy)|exact (Hg y Iy)].
    + intros y Wy. pose proof (W_name y Wy) as Ny. destruct Wy as [Iy|Iy].
      * rewrite (look_own s1 ps e (sset d (nm x) v) y eq_refl) by (rewrite Hk; exact (Ho y Iy)). rewrite sget_sset. unfold upd. rewrite (look_own s ps e d y Em (Ho y Iy)).
        destruct (pystr_eqb_spec y x) as [->|Ne]; [rewrite String.eqb_refl; reflexivity|]. destruct (String.eqb_spec (nm y) (nm x)) as [E|]; [destruct (Ne (nm_ok y x Ny Nx E))|reflexivity].
      * rewrite (look_public s1 ps e (sset d (nm x) v) y eq_refl) by (rewrite Hk; exact (proj1 (Hg y Iy))). unfold upd. rewrite (look_public s ps e d y Em (proj1 (Hg y Iy))).
        destruct (pystr_eqb_spec y x) as [->|Ne]; [destruct (apart x Ix Iy)|reflexivity].
  - destruct (Hg x Ix) as [Hx Fx].
    assert (Own : forall ps1 e1 pcs n y, mem (mkRt (mkMem (ps1 ++ [e1]) (ls0 ++ [d])) pcs n) = mkMem (ps1 ++ [e1]) (ls0 ++ [d]) -> In y (own q) -> look (mkRt (mkMem (ps1 ++ [e1]) (ls0 ++ [d])) pcs n) y = upd (look s) x v y).
    { intros ps1 e1 pcs n y E1 Iy. rewrite (look_own _ ps1 e1 d y E1 (Ho y Iy)). unfold upd. rewrite (look_own s ps e d y Em (Ho y Iy)). destruct (pystr_eqb_spec y x) as [->|Ne]; [destruct (apart x Iy Ix)|reflexivity]. }
    assert (New : shas e (nm x) = true \/ look1 (e :: rev ps) (nm x) = None -> let s1 := mkRt (mkMem (ps ++ [sset e (nm x) v]) (ls0 ++ [d])) (pcounts s) (nparams s) in inv (s1, r) /\ forall y, W y -> look s1 y = upd (look s) x v y).
    { intros Hn. assert (Nil : look1 (rev ps) (nm x) = None).
      { destruct (look1 (rev ps) (nm x)) eqn:El; [|reflexivity]. rewrite Fx in Hn by discriminate. destruct Hn as [Hn|Hn]; [discriminate|]. rewrite look1_cons, Fx, El in Hn by discriminate. discriminate. }
      split.
      - exists ps, (sset e (nm x) v), d. split; [reflexivity|]. split; [exact Eo|]. split; [exact Ep|]. split; [exact Ho|]. intros y Iy. split; [exact (proj1 (Hg y Iy))|]. intros Hy. rewrite shas_sset, (proj2 (Hg y Iy) Hy), orb_false_r.
        destruct (String.eqb_spec (nm y) (nm x)) as [E|]; [rewrite E in Hy; contradiction|reflexivity].
      - intros y Wy. pose proof (W_name y Wy) as Ny. destruct Wy as [Iy|Iy]; [exact (Own ps _ _ _ y eq_refl Iy)|].
        rewrite (look_public (mkRt (mkMem (ps ++ [sset e (nm x) v]) (ls0 ++ [d])) (pcounts s) (nparams s)) ps (sset e (nm x) v) d y eq_refl (proj1 (Hg y Iy))), look1_cons, shas_sset, sget_sset. unfold upd. rewrite (look_public s ps e d y Em (proj1 (Hg y Iy))), look1_cons.
        destruct (pystr_eqb_spec y x) as [->|Ne]; [rewrite String.eqb_refl; reflexivity|]. destruct (String.eqb_spec (nm y) (nm x)) as [E|]; [destruct (Ne (nm_ok y x Ny Nx E))|reflexivity]. }
    destruct (look1 (e :: rev ps) (nm x)) eqn:El.
    + assert (Fw : first_with (e :: rev ps) (nm x) <> None) by (apply first_look; rewrite El; discriminate). rewrite set_public; [|exact Hx|rewrite rev_pushed; exact Fw]. rewrite rev_pushed. cbn [upd_first]. destruct (shas e (nm x)) eqn:Ee.
      * cbn [rev]. rewrite rev_involutive. eexists. split; [reflexivity|]. exact (New (or_introl eq_refl)).
      * clear New. cbn [rev]. assert (Fp : first_with (rev ps) (nm x) <> None) by (unfold first_with in Fw; cbn [find] in Fw; rewrite Ee in Fw; exact Fw).
        set (l1 := upd_first (rev ps) (nm x) (fun d => sset d (nm x) v)). assert (L1 : forall k, look1 (rev (rev l1)) k = if String.eqb k (nm x) then Some v else look1 (rev ps) k) by (intros j; rewrite rev_involutive; apply look1_set, Fp). set (s1 := mkRt _ _ _). exists s1. split; [reflexivity|]. split.
        -- exists (rev l1), e, d. split; [reflexivity|]. split; [|split; [exact Ep|split; [exact Ho|]]].
           ++ apply (only_trans G ps0 ps); [exact Eo|]. rewrite <- (rev_involutive ps) at 1. apply only_rev. exact (only_set G (rev ps) x v Ix).
           ++ intros y Iy. split; [exact (proj1 (Hg y Iy))|]. rewrite L1. destruct (String.eqb_spec (nm y) (nm x)) as [E|]; [intros _; rewrite E; exact Ee|exact (proj2 (Hg y Iy))].
        -- intros y Wy. pose proof (W_name y Wy) as Ny. destruct Wy as [Iy|Iy]; [exact (Own _ _ _ _ y eq_refl Iy)|].
           rewrite (look_public s1 (rev l1) e d y eq_refl (proj1 (Hg y Iy))), look1_cons, L1. unfold upd. rewrite (look_public s ps e d y Em (proj1 (Hg y Iy))), look1_cons.
           destruct (pystr_eqb_spec y x) as [->|Ne]; [rewrite String.eqb_refl, Ee; reflexivity|]. destruct (String.eqb_spec (nm y) (nm x)) as [E|]; [destruct (Ne (nm_ok y x Ny Nx E))|reflexivity].
    + rewrite (set_new ps ls0 e d (nm x) v Hx) by (rewrite rev_pushed; exact El). eexists. split; [reflexivity|]. exact (New (or_intror eq_refl)).
Qed.
Lemma put_eq st x v : inv st -> W x -> forall s r, st = (s, r) -> store_in x v s r = (put st x v, Normal).
Proof. intros Iv Wx s r ->. destruct (put_ok (s, r) x v Iv Wx) as (s1 & E & _). unfold store_in, put. cbn [fst snd] in *. rewrite E. reflexivity. Qed.
Lemma rhs_value s t v : value_ok lib t -> fox (look s) t = Some v -> py_rhs fns (py_call fns N k) (text p (M_Conv.code lib t)) s = (Ok v, s).
Proof.
  intros V F. destruct (value_pr (look s) lib t v V F) as (e & P & Ve). apply Pr_parse in P; [|lia]. pose proof (read_text p _ e (value_good lib t V) P) as R.
  pose proof (py_expr_text p (look s) _ v (value_good lib t V) (ex_intro _ e (conj P Ve))) as X. unfold py_rhs. rewrite R, X. destruct e as [| | | | | | | |f es| | | |]; try reflexivity. destruct f as [|g| | | | | | | | | | |]; try reflexivity.
  all: try reflexivity.
  destruct (find_fun fns _) eqn:E; [|reflexivity]. exfalso. apply fun_untaken in E. cbn [pev] in Ve. destruct ((fix all (l : list pe) : option (list pval) := match l with [] => Some [] | e :: l => _ end) es) in Ve; [|discriminate].
  apply func_taken in Ve. congruence.
Qed.
Lemma line_set_runs st x t v : inv st -> W x -> name_ok x = true -> value_ok lib t -> let_ok x t -> fox (look (fst st)) t = Some v ->
  py_line fns (py_call fns N k) (stmt_text p (assign (var x) (convert lib t))) st = (put st x v, Normal).
Proof.
  intros Iv Wx Nx V Hl F. destruct st as [s r]. cbn [fst] in F. destruct Hl as [Hl | (o & e & -> & Ho)].
  - rewrite (value_set lib x t V Hl). cbn [stmt_text]. unfold py_line. destruct (not_keyword p x (u " = " ++ text p (M_Conv.code lib t))) as (-> & -> & ->).
    assert (R : forall z, strip_prefix (u "return ") (text p (var x) ++ z) = None) by (intros z; rewrite var_text; reflexivity). rewrite R, (read_set p x _ Nx), (rhs_value s t v V F). apply put_eq; auto.
  - assert (Ao : aug o = true) by (destruct o; try contradiction; reflexivity). destruct (value_aug lib x o e (look s) v Ao V F) as (rest & a & b & -> & Gr & Ea & Vb & B). cbn [stmt_text]. unfold py_line.
    destruct (not_keyword p x (u " " ++ u (op_text o) ++ u "= " ++ text p rest)) as (-> & -> & ->).
    assert (R : forall z, strip_prefix (u "return ") (text p (var x) ++ z) = None) by (intros z; rewrite var_text; reflexivity). rewrite R, (read_aug p x o _ Nx Ao), Ea, (py_expr_text p (look s) _ b Gr Vb), B. apply put_eq; auto.
Qed.
Lemma return_runs st t v : value_ok lib t -> fox (look (fst st)) t = Some v ->
  py_line fns (py_call fns N k) (return_text (Some (expr_text lib p t))) st = ((fst st, Some v), Return).
Proof.
  intros V F. destruct st as [s r]. cbn [fst] in *. unfold py_line, return_text. change (pystr_eqb (u "return " ++ expr_text lib p t) (u "pass")) with false.
  change (pystr_eqb (u "return " ++ expr_text lib p t) (u "break")) with false. change (pystr_eqb (u "return " ++ expr_text lib p t) (u "continue")) with false. cbn iota. rewrite prefix_skip. unfold expr_text.
  rewrite (rhs_value s t v V F). reflexivity.
Qed.
Let agree' := agree (loops (p_body q)) W mach (fun st => look (fst st)) inv.
Lemma loop_own x : In x (loops (p_body q)) -> In x (own q).
Proof. destruct Oq as (_ & _ & _ & _ & _ & H & _). exact (H x). Qed.
Lemma agree_shows A s st : agree' A s st -> shows G (fst st) s.
Proof.
  intros [(ps & e & d & Em & Eo & Ep & Ho & Hg) H] x Ix. destruct (Hg x Ix) as [Hx Fx]. rewrite (H x (or_intror Ix)) by (intros J; destruct (apart x (loop_own x J) Ix)).
  rewrite (look_public (fst st) ps e d x Em Hx). rewrite Em. cbn [public_scopes local_scopes]. split.
  - unfold public. rewrite rev_pushed. reflexivity.
  - rewrite rev_pushed. exact Hx.
Qed.
Lemma call_own_line f z : name_ok f = true -> let t := f ++ 40 :: z in
  pystr_eqb t (u "pass") = false /\ pystr_eqb t (u "break") = false /\ pystr_eqb t (u "continue") = false /\ pystr_eqb t (u "return") = false /\ strip_prefix (u "return ") t = None /\ py_assign t = None.
Proof.
  intros Nf t. assert (I : In 40 t) by (unfold t; apply in_or_app; right; left; reflexivity).
  assert (X : forall w, existsb (Z.eqb 40) w = false -> pystr_eqb t w = false).
  { intros w H. destruct (pystr_eqb_spec t w) as [E|]; [|reflexivity]. rewrite E in I. assert (existsb (Z.eqb 40) w = true) by (apply existsb_exists; exists 40; split; [exact I|reflexivity]). congruence. }
  split; [apply X; reflexivity|]. split; [apply X; reflexivity|]. split; [apply X; reflexivity|]. split; [apply X; reflexivity|]. split.
  - destruct (strip_prefix (u "return ") t) as [r|] eqn:E; [|reflexivity]. unfold strip_prefix in E. destruct (prefixb (u "return ") t) eqn:P; [|discriminate]. apply prefixb_spec in P as (r' & P).
    pose proof (name_span f (40 :: z) Nf eq_refl) as Sp. fold t in Sp. rewrite P in Sp. cbn in Sp. injection Sp as _ Sp. discriminate.
  - unfold py_assign. destruct (name_first f Nf) as (c & r & -> & H). unfold t. assert (Q : strip_prefix (u "S.") ((c :: r) ++ 40 :: z) = None); [|rewrite Q; reflexivity].
    unfold strip_prefix. cbn [app]. change (prefixb (u "S.") (c :: r ++ 40 :: z)) with ((83 =? c) && prefixb [46] (r ++ 40 :: z)). destruct (Z.eqb_spec 83 c); [lia|]. reflexivity.
Qed.
Lemma call_runs A s st g f args vs : agree' A s st -> match g with Into x => W x /\ name_ok x = true | Nowhere => True | Answer => true = true end -> usable fs g f -> Forall (value_ok lib) args -> foxs (look (fst st)) args = Some vs ->
  let t := call_text lib p g f args in
  match fox_call fs G N k f vs s with
  | Value v s1 =>
      match g with
      | Into x => exists m1, py_line fns (py_call fns N k) t st = (put m1 x v, Normal) /\ agree' A s1 m1
      | Nowhere => exists m1, py_line fns (py_call fns N k) t st = (m1, Normal) /\ agree' A s1 m1
      | Answer => exists m1, py_line fns (py_call fns N k) t st = (m1, Return) /\ agree' A s1 m1 /\ snd m1 = Some v
      end
  | Endless => True /\ exists m1, py_line fns (py_call fns N k) t st = (m1, Raise unfinished)
  | Failed => True
  end.
Proof.
  intros Ag Hgo [Cf Rf] Va Fa t. pose proof (IH f vs s (fst st) Cf (agree_shows A s st Ag)) as H. destruct st as [m r]. cbn [fst] in *.
  destruct (call_reads p lib (look m) f args vs (callable_name f Cf) Va Fa) as (Gt & es & Pe & Vs & _).
  assert (R : py_rhs fns (py_call fns N k) (text p (repr (func_code [Id f] (map (convert lib) args)))) m = py_call fns N k f vs m).
  { unfold py_rhs. rewrite (read_text p _ _ Gt Pe). destruct (find_both f Cf) as (q0 & _ & _ & _ & ->). rewrite Vs, all_some. reflexivity. }
  assert (T : py_line fns (py_call fns N k) t (m, r) =
    match py_call fns N k f vs m with (Ok v, s) => match g with Into x => store_in x v s r | Nowhere => ((s, r), Normal) | Answer => ((s, Some v), Return) end | (Err e, s) => ((s, r), Raise e) end).
  { unfold t. destruct g as [x| |]; cbn [call_text]; cbv zeta.
    2: { destruct (call_code_text p f (map (convert lib) args)) as (z & Ez). pose proof (call_own_line f z (callable_name f Cf)) as Q. cbv zeta in Q. rewrite <- Ez in Q. destruct Q as (Q1 & Q2 & Q3 & Q0 & Q4 & Q5).
         unfold py_line. rewrite Q1, Q2, Q3, Q0, Q4, Q5, (read_text p _ _ Gt Pe), R. reflexivity. }
    2: { unfold py_line, return_text. set (e := text p (repr (func_code [Id f] (map (convert lib) args)))) in *. change (pystr_eqb (u "return " ++ e) (u "pass")) with false.
         change (pystr_eqb (u "return " ++ e) (u "break")) with false. change (pystr_eqb (u "return " ++ e) (u "continue")) with false. cbn iota. rewrite prefix_skip, R. reflexivity. }
    destruct Hgo as [Wx Nx]. rewrite call_set. cbn [stmt_text]. unfold py_line. destruct (not_keyword p x (u " = " ++ text p (repr (func_code [Id f] (map (convert lib) args))))) as (-> & -> & ->).
    assert (Q : forall z, strip_prefix (u "return ") (text p (var x) ++ z) = None) by (intros z; rewrite var_text; reflexivity). rewrite Q, (read_set p x _ Nx), R. reflexivity. }
  rewrite T. destruct (fox_call fs G N k f vs s) as [v s1| |] eqn:E; [|split; [exact I|]|exact I].
  - destruct H as (w & m1 & -> & Ew & (Sl & Sp & Sv) & Sh). destruct Ag as [(ps & e & d & Em & Eo & Ep & Ho & Hg) H]. cbn [fst] in *. rewrite Em in Sl, Sv. cbn [local_scopes public_scopes] in Sl, Sv.
    apply Forall2_app_inv_l in Sv as (ps1 & l2 & F1 & F2 & Eps). inversion F2 as [|? e1 ? ? [K2 _] F3]; subst. inversion F3; subst.
    assert (Em1 : mem m1 = mkMem (ps1 ++ [e1]) (ls0 ++ [d])) by (destruct (mem m1) as [a1 b1]; cbn [local_scopes public_scopes] in *; congruence).
    assert (Iv : inv (m1, r)).
    { exists ps1, e1, d. split; [exact Em1|]. split; [apply (only_trans G ps0 ps); [exact Eo|exact F1]|]. split; [exact (eq_trans Sp Ep)|]. split; [exact Ho|]. intros y Iy. split; [exact (proj1 (Hg y Iy))|].
      intros L. rewrite (shas_keys e e1 (nm y) K2). apply (proj2 (Hg y Iy)). intros L0. apply L. apply (only_look1 G (rev ps) (rev ps1) (nm y) (only_rev G _ _ F1)). exact L0. }
    assert (Ag1 : forall r', agree' A s1 (m1, r')).
    { intros r'. split; [exact Iv|]. intros y Wy Hy. cbn [fst]. destruct Wy as [Iy|Iy].
    + rewrite (fox_call_keeps _ _ _ _ _ _ _ _ _ E y (apart y Iy)), (H y (or_introl Iy) Hy), (look_own m ps e d y Em (Ho y Iy)), (look_own m1 ps1 e1 d y Em1 (Ho y Iy)). reflexivity.
    + destruct (Sh y Iy) as (-> & _). rewrite (look_public m1 ps1 e1 d y Em1 (proj1 (Hg y Iy))), Em1. unfold public. cbn [public_scopes]. rewrite rev_pushed. reflexivity. }
    assert (Ev : g <> Nowhere -> w = v) by (intros Ng; destruct Ew as [-> | [Nr _]]; [reflexivity|destruct g; [destruct (Nr Rf)|destruct (Ng eq_refl)|destruct (Nr Rf)]]).
    destruct g as [x| |]; [rewrite (Ev ltac:(discriminate)); exists (m1, r); split; [exact (put_eq (m1, r) x v Iv (proj1 Hgo) m1 r eq_refl)|apply Ag1]|exists (m1, r); split; [reflexivity|apply Ag1]|].
    rewrite (Ev ltac:(discriminate)). exists (m1, Some v). split; [reflexivity|]. split; [apply Ag1|reflexivity].
  - destruct (py_call fns N k f vs m) as [[v|e] m1]; cbn [fst] in H; [discriminate|]. injection H as ->. exists (m1, r). reflexivity.
Qed.
Lemma body_runs s st : agree' [] s st ->
  Rel (loops (p_body q)) W mach (fun st => look (fst st)) inv snd True unfinished [] (runs (fox_call fs G N k) N (p_body q) s) (pruns mach N None (meants [] (compiles lib p (p_body q))) st).
Proof.
  intros Ag. pose proof Oq as (_ & _ & _ & _ & _ & _ & O).
  refine (proj1 (proj2 (core_sim lib p (loops (p_body q)) W (usable fs) true (fox_call fs G N k) _ mach (fun x l => (x, l)) (fun st => look (fst st)) put inv snd True unfinished _ _ _ _ _ _ _ _ _ _ _ _)) (p_body q) false [] O N s st Ag).
  - intros g f vs s0 v s1 _ E x Ix. exact (fox_call_keeps _ _ _ _ _ _ _ _ _ E x (apart x (loop_own x Ix))).
  - intros [m r]. reflexivity.
  - intros [m r]. reflexivity.
  - intros [m r]. reflexivity.
  - intros t m v E. cbn. rewrite E. reflexivity.
  - intros t m x l E. cbn. rewrite E. reflexivity.
  - intros x m. reflexivity.
  - intros x v l m Iv Wx. destruct (put_ok m x (PI v) Iv Wx) as (s1 & E & _). cbn [m_next mach py_machine snd fst]. unfold put. rewrite E. reflexivity.
  - intros m x v Iv Wx. destruct (put_ok m x v Iv Wx) as (s1 & E & I1 & L1). unfold put. rewrite E. split; [exact I1|exact L1].
  - intros m x t v Iv Wx Nx V Hl F. exact (line_set_runs m x t v Iv Wx Nx V Hl F).
  - intros m t v Iv _ V F. exists (fst m, Some v). split; [exact (return_runs m t v V F)|]. split; [exact Iv|]. split; reflexivity.
  - intros m Iv _. exists (fst m, None). split; [destruct m as [m r]; reflexivity|]. split; [exact Iv|]. split; reflexivity.
  - intros A s0 m g f args vs Ag0 Hg Cf Va Fa. exact (call_runs A s0 m g f args vs Ag0 Hg Cf Va Fa).
Qed.
End body.

Lemma enter_at q (s : rt pval) args : body_ok lib fs G q -> (length args <= length (p_params q))%nat ->
  exists n, enter (PB false) PLocal (map nm (p_params q)) (mkFn [] 0) args s =
    (mkRt (mkMem (public_scopes (mem s) ++ [[]]) (local_scopes (mem s) ++ [add_to_scope (PB false) (skipn (length args) (map nm (p_params q))) (zip_dict (map nm (p_params q)) args) []])) (pcounts s ++ [n]) n, Ok []).
Proof.
  intros Oq Le. destruct Oq as (Ho & ND & _ & Ns & Nc & _). unfold own in Ho. apply Forall_app in Ho as [Hp _]. unfold enter. destruct (p_params q) as [|x l] eqn:E.
  - destruct args; [|cbn in Le; lia]. exists 0. reflexivity.
  - cbn [map]. cbn [is_method co_varnames]. unfold bind_params. exists (zlen args). unfold push_frame. cbn [mem]. unfold add_local, pushscope. cbn [local_scopes public_scopes]. unfold upd_last. rewrite rev_app_distr. cbn [rev app].
    pose proof (not_reserved (map nm (x :: l)) args) as NR. cbn [map] in NR. rewrite NR.
    + cbn [rbind]. rewrite rev_involutive. reflexivity.
    + intros I. apply Ns, (in_nm (u "self") _ eq_refl Hp). exact I.
    + intros I. apply Nc, (in_nm (u "scope") _ eq_refl Hp). exact I.
Qed.
Lemma first_line k q m d n r : Forall (fun x => name_ok x = true) (p_locals q) ->
  let d1 := fold_left (fun d k => sset d k (PB false)) (map nm (p_locals q)) d in let st ls := mkRt (mkMem (public_scopes m) (local_scopes m ++ ls)) n r in
  pruns (py_machine fns (py_call fns N k)) N None (block_of (meants [] (f_body (compile_proc lib p q)))) (st [d], None) =
  pruns (py_machine fns (py_call fns N k)) N None (meants [] (compiles lib p (p_body q))) (st [d1], None).
Proof.
  intros Hl d1 st. unfold compile_proc. cbn [f_body].
  assert (Hb : forall l st, pruns (py_machine fns (py_call fns N k)) N None (block_of l) st = pruns (py_machine fns (py_call fns N k)) N None l st) by (intros; apply pruns_block; intros []; reflexivity). rewrite Hb. clear Hb.
  unfold d1. clear d1. unfold p_locals in *. revert d Hl. induction (p_declared q) as [|l ls IH]; intros d Hl; [reflexivity|]. cbn [concat] in Hl. apply Forall_app in Hl as [Hl Hs]. cbn [fold_right meants meant app pruns]. rewrite fox_one. cbn [prun m_run py_machine].
  assert (T : py_line fns (py_call fns N k) (strings_call p [Id (u "M"); Dot; Id (u "add_local")] l) (st [d], None) = ((st [fold_left (fun d k => sset d k (PB false)) (map nm l) d], None), Normal)).
  { pose proof (read_loc p l Hl) as R. unfold py_line.
    change (pystr_eqb (strings_call p [Id (u "M"); Dot; Id (u "add_local")] l) (u "pass")) with false. change (pystr_eqb (strings_call p [Id (u "M"); Dot; Id (u "add_local")] l) (u "break")) with false.
    change (pystr_eqb (strings_call p [Id (u "M"); Dot; Id (u "add_local")] l) (u "continue")) with false. change (strip_prefix (u "return ") (strings_call p [Id (u "M"); Dot; Id (u "add_local")] l)) with (@None pystr).
    change (py_assign (strings_call p [Id (u "M"); Dot; Id (u "add_local")] l)) with (@None (pystr * option op * pystr)). cbn iota. rewrite R. change (is_u (u "M") "M" && is_u (u "add_local") "add_local") with true. cbn iota. rewrite str_args_map.
    unfold add_local, upd_last, st. cbn [mem local_scopes public_scopes pcounts nparams]. rewrite rev_app_distr. cbn [rev app rbind bad_keyword existsb]. rewrite rev_involutive. reflexivity. }
  rewrite T. cbn [concat]. rewrite map_app, fold_left_app. exact (IH _ Hs).
Qed.
(** A body that FoxPro runs to its end, run by the decorated function *)
Lemma one_call k : calls_ok k -> forall q vs s m, body_ok lib fs G q -> (length vs <= length (p_params q))%nat -> shows G m s ->
  let r := M_Params.scoper (PB false) PLocal (map nm (p_params q)) (mkFn [] 0) vs (py_body fns (py_call fns N k) N (q_body (py_of lib p q))) m in
  match runs (fox_call fs G N k) N (p_body q) (begin G q vs s) with
  | Done s1 fl => P_Core3.ends true fl /\ exists m1, r = (Ok (match fl with Ret (Some v) => v | _ => PN end), m1) /\ same_but G m m1 /\ shows G m1 (back G s s1)
  | Running => fst r = Err unfinished
  | Wrong => True
  end.
Proof.
  intros IH q vs s m Oq Le Sh.
  pose proof Oq as (Ho & ND & Ap & _ & _ & Lo & O). unfold M_Params.scoper. cbn [py_of q_params q_body]. destruct (enter_at q m vs Oq Le) as (n & ->). cbn [length co_argcount Nat.eqb].
  set (m0 := mkMem (public_scopes (mem m) ++ [[]]) (local_scopes (mem m))). set (pc := pcounts m ++ [n]).
  assert (Hl : Forall (fun x => name_ok x = true) (p_locals q)) by (unfold own in Ho; apply Forall_app in Ho as [_ Ho]; exact Ho).
  unfold py_body. pose proof (first_line k q m0 (add_to_scope (PB false) (skipn (length vs) (map nm (p_params q))) (zip_dict (map nm (p_params q)) vs) []) pc n Hl) as FL. cbn zeta in FL. cbn [m0 public_scopes local_scopes] in FL.
  rewrite FL. clear FL. fold (entered q vs). set (st := (mkRt (mkMem (public_scopes (mem m) ++ [[]]) (local_scopes (mem m) ++ [entered q vs])) pc n, @None pval)).
  assert (Gs : forall x, In x G -> argument (p_params q) vs x = None /\ inb x (p_locals q) = false).
  { intros x Ix. split; [apply argument_none; intros J; apply (Ap x); [apply in_or_app; left; exact J|exact Ix]|apply inb_out; intros J; apply (Ap x); [apply in_or_app; right; exact J|exact Ix]]. }
  assert (Hd : forall x, In x G -> shas (entered q vs) (nm x) = false).
  { intros x Ix. rewrite shas_sget, (entered_get q vs x (G_names x Ix) Ho ND). destruct (Gs x Ix) as [-> ->]. reflexivity. }
  assert (Hw : forall x, In x (own q) -> sget (entered q vs) (nm x) = begin G q vs s x /\ shas (entered q vs) (nm x) = true).
  { intros x Ix. assert (Nx : name_ok x = true) by (rewrite Forall_forall in Ho; exact (Ho x Ix)). rewrite shas_sget, (entered_get q vs x Nx Ho ND). unfold begin. destruct (argument (p_params q) vs x) eqn:Ea; [split; reflexivity|].
    destruct (inb x (p_locals q)) eqn:El; [split; reflexivity|]. exfalso. unfold own in Ix. apply in_app_or in Ix as [J|J]; [|apply inb_in in J; congruence].
    destruct (In_nth_error _ _ J) as (i & Ei). rewrite (argument_nth _ vs x i) in Ea; [discriminate| |exact Ei]. clear - ND. unfold own in ND. induction (p_params q) as [|a l IHl]; [constructor|]. inversion ND as [|? ? Ni N']; subst. constructor; [intros J; apply Ni, in_or_app; left; exact J|exact (IHl N')]. }
  assert (Ag : agree (loops (p_body q)) (W q) (py_machine fns (py_call fns N k)) (fun st => look (fst st)) (inv q (public_scopes (mem m)) (local_scopes (mem m)) pc) [] (begin G q vs s) st).
  { split.
    - exists (public_scopes (mem m)), [], (entered q vs). split; [reflexivity|]. split; [apply only_refl|]. split; [reflexivity|]. split; [intros x Ix; apply Hw, Ix|]. intros x Ix. split; [exact (Hd x Ix)|]. reflexivity.
    - intros x Wx _. destruct Wx as [Ix|Ix].
      + rewrite (look_own (local_scopes (mem m)) (fst st) (public_scopes (mem m)) [] (entered q vs) x eq_refl) by apply Hw, Ix. symmetry. apply Hw, Ix.
      + rewrite (look_public (local_scopes (mem m)) (fst st) (public_scopes (mem m)) [] (entered q vs) x eq_refl (Hd x Ix)). unfold begin. destruct (Gs x Ix) as [-> ->]. apply inb_in in Ix as Jx. rewrite Jx. destruct (Sh x Ix) as (-> & _). reflexivity. }
  pose proof (body_runs k IH q Oq _ _ _ _ _ Ag) as R. unfold Rel in R. cbn [sig] in R.
  destruct (runs (fox_call fs G N k) N (p_body q) (begin G q vs s)) as [s1 fl| |] eqn:E; [| |exact I].
  - pose proof (proj1 (proj2 (no_signals lib (loops (p_body q)) (W q) (usable fs) true (fox_call fs G N k))) (p_body q) [] O N _ _ _ E) as Ef. split; [exact Ef|].
    destruct R as ([m1 r] & -> & [(ps & e & d & Em & Eo & Ep & Hod & Hg) Ag1] & Gv). cbn [fst snd] in *.
    assert (Sb : same_but G m (mkRt (mkMem ps (local_scopes (mem m))) (pcounts m) (nparams m1)) /\ shows G (mkRt (mkMem ps (local_scopes (mem m))) (pcounts m) (nparams m1)) (back G s s1)).
    { split; [split; [reflexivity|]; split; [reflexivity|]; exact Eo|]. intros x Ix. cbn [mem public_scopes local_scopes]. destruct (Hg x Ix) as [Hx Fx]. destruct (Sh x Ix) as (Ex & Lx). split; [|exact Lx].
      unfold back. apply inb_in in Ix as Jx. rewrite Jx, Ex. change (public (public_scopes (mem m)) x) with (look1 (rev (public_scopes (mem m))) (nm x)). change (public ps x) with (look1 (rev ps) (nm x)).
      pose proof (only_look1 G _ _ (nm x) (only_rev G _ _ Eo)) as Ke. destruct (look1 (rev (public_scopes (mem m))) (nm x)).
      - rewrite (Ag1 x (or_intror Ix)) by (intros J; destruct (Ap x (Lo x J) Ix)). rewrite (look_public _ m1 ps e d x Em Hx), look1_cons, Fx; [reflexivity|]. intros K. apply Ke in K. discriminate.
      - symmetry. apply Ke. reflexivity. }
    unfold leave. destruct fl as [| | |[v|]]; try contradiction; cbn [sig]; [|subst r|subst r]; rewrite Ep; unfold pc; rewrite rev_pushed; unfold popscope; rewrite Em; cbn [public_scopes local_scopes]; rewrite !rev_pushed; cbn [rbind]; rewrite !rev_involutive; eexists; (split; [reflexivity|]); exact Sb.
  - destruct R as [-> | (_ & [m1 r] & ->)]; reflexivity.
Qed.
Theorem calls : forall k, calls_ok k.
Proof.
  induction k as [|k IH]; intros f vs s m Cf Sh; [reflexivity|]. destruct (find_both f Cf) as (q & Iq & <- & Ff & Fp). cbn [fox_call py_call]. rewrite Ff, Fp. destruct (Nat.ltb_spec (length (p_params q)) (length vs)) as [Lt|Le]; [exact I|].
  pose proof (ok_proc q Iq) as (_ & _ & _ & Oq). pose proof (one_call k IH q vs s m Oq Le Sh) as H. cbn zeta in H. cbn [py_of q_params].
  destruct (runs (fox_call fs G N k) N (p_body q) (begin G q vs s)) as [s1 fl| |] eqn:E; [|exact H|exact I].
  destruct H as (Ef & m1 & H1 & H2). destruct fl as [| | |[v|]]; try contradiction; [exists PN, m1|exists v, m1; split; [exact H1|]; split; [left; reflexivity|exact H2]|exists PN, m1]; (split; [exact H1|]; split; [right|exact H2];
  split; [|split; reflexivity]); intros (q1 & F1 & Rt & Vt); rewrite Ff in F1; injection F1 as <-.
  - exact (proj1 (proj2 (returns_next (fox_call fs G N k))) _ Rt N _ _ _ E eq_refl).
  - exact (proj1 (proj2 (valued_ends (fox_call fs G N k))) _ Vt N _ _ _ E eq_refl).
Qed.
(** The main program *)
Theorem main_runs : forall k q vs s m, body_ok lib fs G q -> find_fun fns (u "MAIN") = Some (py_of lib p q) -> shows G m s ->
  match fox_main fs G N k q vs s with
  | Ended v s1 => exists m1, py_call fns N (S k) (u "MAIN") vs m = (Ok (match v with Some v => v | None => PN end), m1) /\ same_but G m m1 /\ shows G m1 s1
  | Not_ended => fst (py_call fns N (S k) (u "MAIN") vs m) = Err unfinished
  | Broken => True
  end.
Proof.
  intros k q vs s m Oq Fm Sh. unfold fox_main. destruct (Nat.ltb_spec (length (p_params q)) (length vs)) as [Lt|Le]; [exact I|]. cbn [py_call]. rewrite Fm.
  pose proof (one_call k (calls k) q vs s m Oq Le Sh) as H. cbn zeta in H. cbn [py_of q_params]. destruct (runs (fox_call fs G N k) N (p_body q) (begin G q vs s)) as [s1 fl| |]; [|exact H|exact I].
  destruct H as (Ef & m1 & H). destruct fl as [| | |[v|]]; try contradiction; exists m1; exact H.
Qed.
End sim.
(** More functions, or functions that return more often *)
Lemma ok_mono lib L W (F F' : goal -> pystr -> Prop) ret : (forall g f, F g f -> F' g f) ->
  (forall p i A, ok lib L W F ret i A p -> ok lib L W F' ret i A p) /\ (forall l i A, oks lib L W F ret i A l -> oks lib L W F' ret i A l) /\
  (forall o i A, oko lib L W F ret i A o -> oko lib L W F' ret i A o) /\ (forall l i A, okc lib L W F ret i A l -> okc lib L W F' ret i A l).
Proof.
  intros M. apply core_ind; try (intros; assumption).
  - intros c a IHa b IHb i A (T & V & Oa & Ob). exact (conj T (conj V (conj (IHa _ _ Oa) (IHb _ _ Ob)))).
  - intros c a IHa m IHm b IHb i A (T & V & Oa & Om & Ob). exact (conj T (conj V (conj (IHa _ _ Oa) (conj (IHm _ _ Om) (IHb _ _ Ob))))).
  - intros c b IH i A (T & V & Ob). exact (conj T (conj V (IH _ _ Ob))).
  - intros x from to step b IH i A (H1 & H2 & H3 & H4 & H5 & H6 & H7 & H8 & H9 & Ob). repeat (split; [assumption|]). exact (IH _ _ Ob).
  - intros g f args i A (H1 & H2 & H3). exact (conj H1 (conj (M g f H2) H3)).
  - intros p IHp l IHl i A [Op Ol]. exact (conj (IHp _ _ Op) (IHl _ _ Ol)).
  - intros l IH i A O. exact (IH _ _ O).
  - intros c a IHa m IHm i A (T & V & Oa & Om). exact (conj T (conj V (conj (IHa _ _ Oa) (IHm _ _ Om)))).
Qed.
Lemma body_mono lib fs fs' G f : (forall g h, usable fs g h -> usable fs' g h) -> body_ok lib fs G f -> body_ok lib fs' G f.
Proof. intros M (A & B & C & D & E & H & O). repeat (split; [assumption|]). exact (proj1 (proj2 (ok_mono lib _ _ _ _ true M)) _ _ _ O). Qed.
