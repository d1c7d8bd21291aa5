(** C124: variables passed by DO ... WITH. *)
From Verif Require Import PyBase PyStr M_Memvar M_Params M_Do S_Py P_Py S_PyEval M_Lit P_Lit M_Stmt S_Stmt P_Stmt T_Stmt M_Program M_Conv S_Conv P_Conv P_Bool S_Inline P_Inline S_For M_Show M_Core P_Fuel S_Lex S_Core P_Lex P_Core1 P_Core2 P_Core3 S_Funs P_Funs1 P_Funs2 P_Funs3 T_Core T_Funs S_Ref.
From Coq Require Import Lia.
Open Scope Z_scope.

(** ** What is not assigned to keeps its value *)
Section keeps.
Variable call : pystr -> list pval -> store -> called.
Variable x : pystr.
Hypothesis call_keeps : forall f vs s v s1, call f vs s = Value v s1 -> s1 x = s x.
Definition keeps (f : store -> outcome) : Prop := forall s s1 fl, f s = Done s1 fl -> s1 x = s x.
Lemma keeps_next : keeps (fun s => Done s Next).
Proof. intros s s1 fl H. injection H as <- _. reflexivity. Qed.
Lemma keeps_test c a b : keeps a -> keeps b -> keeps (test c a b).
Proof. intros Ha Hb s s1 fl. unfold test. destruct (fox s c) as [[| |[]| |]|]; try discriminate; [apply Ha|apply Hb]. Qed.
Lemma keeps_while N c a : keeps a -> keeps (do_while N c a).
Proof.
  intros Ha. induction N as [|N IH]; [discriminate|]. cbn [do_while]. apply keeps_test; [|apply keeps_next]. intros s s1 fl. destruct (a s) as [s2 [| | |v]| |] eqn:E; try discriminate; intros H.
  all: try (injection H as <- _; exact (Ha _ _ _ E)). all: rewrite (IH _ _ _ H); exact (Ha _ _ _ E).
Qed.
Lemma keeps_upd s y v : y <> x -> upd s y v x = s x.
Proof. intros Ne. unfold upd. destruct (pystr_eqb_spec x y); [congruence|reflexivity]. Qed.
Lemma keeps_for N y j d a : y <> x -> keeps a -> keeps (do_for N y j d a).
Proof.
  intros Ne Ha. induction N as [|N IH]; [discriminate|]. intros s s1 fl. cbn [do_for]. destruct (s y) as [[n| | | |]|]; try discriminate. destruct (if d <? 0 then j <=? n else n <=? j); [|intros H; injection H as <- _; reflexivity].
  destruct (a s) as [s2 [| | |v]| |] eqn:E; try discriminate; intros H; try (injection H as <- _; exact (Ha _ _ _ E)).
  all: destruct (s2 y) as [[m| | | |]|]; try discriminate; destruct (number53 (m + d)) as [w|]; try discriminate; rewrite (IH _ _ _ H), keeps_upd by exact Ne; exact (Ha _ _ _ E).
Qed.
Lemma keeps_all :
  (forall p, ~ In x (assigned p) -> forall N, keeps (run call N p)) /\ (forall l, ~ In x (assigneds l) -> forall N, keeps (runs call N l)) /\
  (forall o, ~ In x (assignedo o) -> forall N, keeps (match o with KSome b => runs call N b | KNone => fun s => Done s Next end)) /\
  (forall l, ~ In x (assignedc l) -> forall N other, keeps other -> keeps (runc call N l other)).
Proof.
  apply core_ind.
  - intros y t Nx N s s1 fl. cbn [run]. destruct (fox s t) as [v|]; [|discriminate]. intros H. injection H as <- _. apply keeps_upd. intros ->. apply Nx. left. reflexivity.
  - intros c a IHa b IHb Nx N. cbn [assigned] in Nx. rewrite in_app_iff in Nx. exact (keeps_test c _ _ (IHa (fun I => Nx (or_introl I)) N) (IHb (fun I => Nx (or_intror I)) N)).
  - intros c a IHa m IHm b IHb Nx N. cbn [assigned] in Nx. rewrite !in_app_iff in Nx. refine (keeps_test c _ _ (IHa _ N) (IHm _ N _ (IHb _ N))); tauto.
  - intros c b IH Nx N. exact (keeps_while N c _ (IH Nx N)).
  - intros y from to step b IH Nx N s s1 fl. cbn [assigned In] in Nx. cbn [run].
    destruct (fox s from) as [[i| | | |]|]; try discriminate. destruct (fox s to) as [[j| | | |]|]; try discriminate. destruct (match step with Some t => fox s t | None => Some (PI 1) end) as [[d| | | |]|]; try discriminate.
    intros H. rewrite (keeps_for N y j d _ (fun E => Nx (or_introl E)) (IH (fun I => Nx (or_intror I)) N) _ _ _ H). apply keeps_upd. tauto.
  - intros _ N s s1 fl H. injection H as <- _. reflexivity.
  - intros _ N s s1 fl H. injection H as <- _. reflexivity.
  - intros g f args Nx N s s1 fl. cbn [run]. destruct (foxs s args) as [vs|]; [|discriminate]. destruct (call f vs s) as [v s2| |] eqn:E; try discriminate. destruct g as [y| |]; intros H; injection H as <- _; try exact (call_keeps _ _ _ _ _ E).
    rewrite keeps_upd; [exact (call_keeps _ _ _ _ _ E)|]. intros ->. apply Nx. left. reflexivity.
  - intros t _ N s s1 fl. cbn [run]. destruct (fox s t); [|discriminate]. intros H. injection H as <- _. reflexivity.
  - intros _ N s s1 fl H. injection H as <- _. reflexivity.
  - intros ls _ N s s1 fl H. injection H as <- _. reflexivity.
  - intros _ N. exact keeps_next.
  - intros p IHp l IHl Nx N s s1 fl. cbn [assigneds] in Nx. rewrite in_app_iff in Nx. cbn [runs]. destruct (run call N p s) as [s2 f2| |] eqn:E; try discriminate. pose proof (IHp (fun I => Nx (or_introl I)) N _ _ _ E) as K.
    destruct f2; cbn [and_then]; intros H; try (injection H as <- _; exact K). rewrite (IHl (fun I => Nx (or_intror I)) N _ _ _ H). exact K.
  - intros _ N. exact keeps_next.
  - intros l IH. exact IH.
  - intros _ N other Ho. exact Ho.
  - intros c a IHa m IHm Nx N other Ho. cbn [assignedc] in Nx. rewrite in_app_iff in Nx. exact (keeps_test c _ _ (IHa (fun I => Nx (or_introl I)) N) (IHm (fun I => Nx (or_intror I)) N other Ho)).
Qed.
End keeps.
Lemma reference_value s : forall params args vs y x, NoDup params -> foxs s args = Some vs -> In (y, x) (references params args) -> argument params vs y = s x /\ In y params.
Proof.
  induction params as [|z params IH]; intros args vs y x ND F I; [destruct args; contradiction|]. inversion ND as [|? ? Nz ND']; subst. destruct args as [|t args]; [contradiction|]. cbn [foxs] in F.
  destruct (fox s t) as [v|] eqn:Ft; [|discriminate]. destruct (foxs s args) as [ws|] eqn:Fs; [|discriminate]. injection F as <-.
  assert (R : In (y, x) (references params args) -> argument (z :: params) (v :: ws) y = s x /\ In y (z :: params)).
  { intros J. destruct (IH args ws y x ND' Fs J) as [A B]. cbn [argument tl]. destruct (pystr_eqb_spec y z) as [->|]; [contradiction|]. split; [exact A|right; exact B]. }
  cbn [references] in I. destruct t; try exact (R I). destruct I as [E|I]; [|exact (R I)]. injection E as -> ->. cbn [argument]. destruct (pystr_eqb_spec y y); [|contradiction]. split; [symmetry; exact Ft|left; reflexivity].
Qed.
Lemma front_apart {A} (a b : list A) : NoDup (a ++ b) -> NoDup a.
Proof. induction a as [|x a IH]; intros H; [constructor|]. inversion H as [|? ? N H']; subst. constructor; [intros I; apply N, in_or_app; left; exact I|exact (IH H')]. Qed.
Lemma foxs_ext s s' l : (forall t x, In t l -> In x (vars t) -> s x = s' x) -> foxs s l = foxs s' l.
Proof.
  induction l as [|t l IH]; intros H; [reflexivity|]. cbn [foxs]. rewrite (fox_ext s s' t) by (intros x; apply H; left; reflexivity). rewrite IH by (intros u x I; apply H; right; exact I). reflexivity.
Qed.
Lemma same_look G m m1 x : same_but G m m1 -> (forall y, In y G -> nm x <> nm y) -> look m1 x = look m x.
Proof.
  intros (El & _ & Ev) Nx. unfold look, mem_get, get_scope. rewrite El.
  assert (F : forall a b, Forall2 (only_values G) a b -> match first_with a (nm x), first_with b (nm x) with Some d, Some d1 => sget d1 (nm x) = sget d (nm x) | None, None => True | _, _ => False end).
  { intros a b H. induction H as [|d d1 a b [E V] _ IH]; [exact I|]. unfold first_with in *. cbn [find]. rewrite (shas_keys d d1 (nm x) E). destruct (shas d (nm x)); [apply V, Nx|exact IH]. }
  pose proof (F _ _ (only_rev G _ _ Ev)) as P.
  destruct (rev (local_scopes (mem m))) as [|d l]; [|destruct (shas d (nm x)); [reflexivity|]].
  all: destruct (first_with (rev (public_scopes (mem m))) (nm x)), (first_with (rev (public_scopes (mem m1))) (nm x)); try contradiction; cbn [option_map]; try rewrite P; reflexivity.
Qed.
(** A call on a line of its own *)
Lemma call_line_runs lib p fs G N k f args vs m r : file_ok lib fs G -> callable fs f -> Forall (value_ok lib) args -> foxs (look m) args = Some vs -> let fns := map (py_of lib p) fs in
  py_line fns (py_call fns N k) (call_text lib p Nowhere f args) (m, r) = match py_call fns N k f vs m with (Ok v, s) => ((s, r), Normal) | (Err e, s) => ((s, r), Raise e) end.
Proof.
  intros O Cf Va Fa fns. pose proof (callable_name lib fs G O f Cf) as Nf. destruct (call_reads p lib (look m) f args vs Nf Va Fa) as (Gt & es & Pe & Vs & _).
  assert (R : py_rhs fns (py_call fns N k) (text p (repr (func_code [Id f] (map (convert lib) args)))) m = py_call fns N k f vs m).
  { unfold py_rhs. rewrite (read_text p _ _ Gt Pe). destruct (find_both lib p fs G O [] f Cf) as (q0 & _ & _ & _ & E). unfold P_Funs3.fns in E. cbn [app] in E. unfold fns at 1. rewrite E, Vs, all_some. reflexivity. }
  cbn [call_text]. cbv zeta. destruct (call_code_text p f (map (convert lib) args)) as (z & Ez). pose proof (call_own_line f z Nf) as Q. cbv zeta in Q. rewrite <- Ez in Q. destruct Q as (Q1 & Q2 & Q3 & Q0 & Q4 & Q5).
  unfold py_line. rewrite Q1, Q2, Q3, Q0, Q4, Q5, (read_text p _ _ Gt Pe), R. reflexivity.
Qed.
Lemma file_reads lib printable fs G : file_ok lib fs G -> exists p, py_reads (file_text lib printable fs) p /\ py_module p = Some (map (py_of lib printable) fs).
Proof.
  intros O. pose proof O as (_ & _ & Hf). assert (Hn : Forall (fun f => name_ok (p_name f) = true) fs) by (revert Hf; apply Forall_impl; intros f H; apply H).
  assert (Sp : Forall func_supported (map (compile_proc lib printable) fs)).
  { apply Forall_forall. intros c I. apply in_map_iff in I as (f & <- & I). rewrite Forall_forall in Hf. exact (proc_supported lib printable fs G f Hn (Hf f I)). }
  eexists. split; [exact (C47_program_partial _ Sp)|]. apply module_of. revert Hf. apply Forall_impl. intros f (A & B & _ & C & _). split; [exact (lex_head _ A)|]. split; [exact B|]. unfold own in C. apply Forall_app in C. apply C.
Qed.

(** ** C124 *)
(** DO f WITH any expressions, run as the converted line: if f does not assign to the parameters that stand for variables, the line does what FoxPro does, for these and for all other variables. *)
Theorem C124_not_assigned_partial : forall lib printable fs G, file_ok lib fs G ->
  exists p fns, py_reads (file_text lib printable fs) p /\ py_module p = Some fns /\
    forall N k f q args s st, find_proc fs f = Some q -> Forall (value_ok lib) args -> (forall t x, In t args -> In x (vars t) -> look (fst st) x = s x) -> shows G (fst st) s ->
      (forall y x, In (y, x) (references (p_params q) args) -> ~ In x G /\ ~ In y (assigneds (p_body q))) ->
      match fox_do fs G N k f args s with
      | Value v s1 => exists m1, py_line fns (py_call fns N (S k)) (call_text lib printable Nowhere f args) st = ((m1, snd st), Normal) /\ shows G m1 s1 /\
          forall x, name_ok x = true -> ~ In x G -> s1 x = s x /\ look m1 x = look (fst st) x
      | Endless => exists m1, py_line fns (py_call fns N (S k)) (call_text lib printable Nowhere f args) st = (m1, Raise unfinished)
      | Failed => True
      end.
Proof.
  intros lib pr fs G O. destruct (file_reads lib pr fs G O) as (p & R & M). exists p, (map (py_of lib pr) fs). split; [exact R|]. split; [exact M|].
  intros N k f q args s [m r] Fq Va Ea Sh Rf. cbn [fst snd] in *. pose proof (find_some _ _ Fq) as [Iq Eq]. cbv beta in Eq. destruct (pystr_eqb_spec (p_name q) f) as [<-|]; [clear Eq|discriminate].
  assert (Cf : callable fs (p_name q)) by exact (in_map p_name fs q Iq). unfold fox_do. rewrite Fq. destruct (foxs s args) as [vs|] eqn:Fs; [|exact I]. destruct (length (p_params q) <? length vs)%nat eqn:Lt; [exact I|].
  assert (Fm : foxs (look m) args = Some vs) by (rewrite (foxs_ext (look m) s args Ea); exact Fs). pose proof (call_line_runs lib pr fs G N (S k) _ args vs m r O Cf Va Fm) as T. cbv zeta in T.
  pose proof (calls lib pr fs G O N [] (Forall_nil _) (S k) (p_name q) vs s m Cf Sh) as C. unfold P_Funs3.fns in C. cbn [app] in C. cbn [fox_call] in C. rewrite Fq, Lt in C.
  pose proof (ok_proc lib fs G O q Iq) as (_ & _ & _ & (_ & ND & Ow & _)). unfold own in ND. apply front_apart in ND.
  assert (Keep : forall s1 fl, runs (fox_call fs G N k) N (p_body q) (begin G q vs s) = Done s1 fl -> forall x, handed (references (p_params q) args) s1 (back G s s1) x = back G s s1 x).
  { intros s1 fl E x. unfold handed. destruct (find _ _) as [[y z]|] eqn:Ef; [|reflexivity]. apply find_some in Ef as [I Ez]. cbn [snd] in Ez. destruct (pystr_eqb_spec z x) as [->|]; [clear Ez|discriminate].
    destruct (Rf y x I) as [Nx Ny]. destruct (reference_value s (p_params q) args vs y x ND Fs I) as [Av Iy]. assert (Gy : ~ In y G) by (apply Ow; unfold own; apply in_or_app; left; exact Iy).
    rewrite (proj1 (proj2 (keeps_all (fox_call fs G N k) y (fun f0 vs0 s0 v0 s2 H => fox_call_keeps fs G N k f0 vs0 s0 v0 s2 H y Gy))) (p_body q) Ny N _ _ _ E). unfold back. rewrite (inb_out x G Nx). unfold begin. rewrite Av.
    destruct (s x) eqn:Ex; [reflexivity|]. exfalso. clear - Fs I Ex. revert args vs Fs I. induction (p_params q) as [|w ps IH]; intros [|t args] vs Fs I; try contradiction. cbn [foxs references] in *. destruct (fox s t) eqn:Et; [|discriminate]. destruct (foxs s args) eqn:Eg; [|discriminate].
    destruct t; try exact (IH args _ Eg I). destruct I as [E|I]; [|exact (IH args _ Eg I)]. injection E as _ ->. cbn [fox] in Et. congruence. }
  assert (Sb : forall m1 s1, same_but G m m1 -> forall x, name_ok x = true -> ~ In x G -> back G s s1 x = s x /\ look m1 x = look m x).
  { intros m1 s1 Sm x Nx Gx. split; [unfold back; rewrite (inb_out x G Gx); reflexivity|]. apply (same_look G m m1 x Sm). intros y Iy E. apply Gx. rewrite (nm_ok x y Nx (G_names lib fs G O y Iy) E). exact Iy. }
  assert (Fin : forall v s1 fl, runs (fox_call fs G N k) N (p_body q) (begin G q vs s) = Done s1 fl -> (exists w m1, py_call (map (py_of lib pr) fs) N (S k) (p_name q) vs m = (Ok w, m1) /\ (w = v \/ ~ returning fs (p_name q) /\ v = PB true /\ w = PN) /\ same_but G m m1 /\ shows G m1 (back G s s1)) ->
    exists m1, py_line (map (py_of lib pr) fs) (py_call (map (py_of lib pr) fs) N (S k)) (call_text lib pr Nowhere (p_name q) args) (m, r) = ((m1, r), Normal) /\ shows G m1 (handed (references (p_params q) args) s1 (back G s s1)) /\
      forall x, name_ok x = true -> ~ In x G -> handed (references (p_params q) args) s1 (back G s s1) x = s x /\ look m1 x = look m x).
  { intros v s1 fl E (w & m1 & Ec & _ & Sm & S1). exists m1. rewrite T, Ec. split; [reflexivity|]. split; [intros x Ix; rewrite (Keep s1 fl E x); exact (S1 x Ix)|]. intros x Nx Gx. rewrite (Keep s1 fl E x). exact (Sb m1 s1 Sm x Nx Gx). }
  destruct (runs (fox_call fs G N k) N (p_body q) (begin G q vs s)) as [s1 [| | |v]| |] eqn:E; try exact I.
  - exact (Fin (PB true) s1 Next eq_refl C).
  - exact (Fin _ s1 (Ret v) eq_refl C).
  - rewrite T. destruct (py_call (map (py_of lib pr) fs) N (S k) (p_name q) vs m) as [[w|e] m1]; cbn [fst] in C; [discriminate|]. injection C as ->. exists (m1, r). reflexivity.
Qed.
Print Assumptions C124_not_assigned_partial.

(** f assigns to its parameter: in FoxPro the variable has changed after DO f WITH x, in Python it has not. *)
Theorem C124_assigned_refuted : forall lib printable f y n, name_ok f = true -> taken f = false -> isin f functions_followed = false -> name_ok y = true -> y <> u "self" -> y <> u "scope" -> 0 <= n < 2 ^ 53 ->
  let fs := [{| p_name := f; p_params := [y]; p_declared := []; p_body := KCons (KLet y (CInt n)) (KCons (KReturn (CVar y)) KNil) |}] in
  exists p fns, py_reads (file_text lib printable fs) p /\ py_module p = Some fns /\
    forall N k x v s st, name_ok x = true -> look (fst st) x = Some v -> s x = Some v -> v <> PI n ->
      (exists s1, fox_do fs [] N k f [CVar x] s = Value (PI n) s1 /\ s1 x = Some (PI n)) /\
      exists m1, py_line fns (py_call fns N (S k)) (call_text lib printable Nowhere f [CVar x]) st = ((m1, snd st), Normal) /\ look m1 x = Some v.
Proof.
  intros lib pr f y n Nf Tf Bf Ny Y1 Y2 Rn fs. set (q := {| p_name := f; p_params := [y]; p_declared := []; p_body := KCons (KLet y (CInt n)) (KCons (KReturn (CVar y)) KNil) |}) in fs.
  assert (O : file_ok lib fs []).
  { split; [constructor|]. split; [constructor; [intros []|constructor]|]. constructor; [|constructor]. split; [exact Nf|]. split; [exact Tf|]. split; [exact Bf|]. cbn [q p_params p_declared p_body own app].
    split; [constructor; [exact Ny|constructor]|]. split; [constructor; [intros []|constructor]|]. split; [intros z _ []|]. split; [intros [E|[]]; congruence|]. split; [intros [E|[]]; congruence|]. split; [intros z []|].
    split; [|split; [|exact I]].
    - split; [exact Ny|]. split; [left; left; reflexivity|]. split; [split; [cbn; lia|right; cbn; repeat split; lia]|]. split; [intros z []|]. split; [intros []|]. left. discriminate.
    - split; [reflexivity|]. split; [split; [exact Ny|right; cbn; repeat split]|]. intros z [<-|[]]. split; [left; left; reflexivity|intros []]. }
  destruct (file_reads lib pr fs [] O) as (p & R & M). exists p, (map (py_of lib pr) fs). split; [exact R|]. split; [exact M|]. intros N k x v s [m r] Nx Lx Sx Nv. cbn [fst snd] in *.
  assert (Fq : find_proc fs f = Some q) by (unfold find_proc, fs; cbn [find q p_name]; destruct (pystr_eqb_spec f f); [reflexivity|contradiction]).
  assert (Eyy : pystr_eqb y y = true) by (destruct (pystr_eqb_spec y y); [reflexivity|contradiction]). assert (Exx : pystr_eqb x x = true) by (destruct (pystr_eqb_spec x x); [reflexivity|contradiction]).
  assert (Rq : forall vs, runs (fox_call fs [] N k) N (p_body q) (begin [] q vs s) = Done (upd (begin [] q vs s) y (PI n)) (Ret (Some (PI n)))).
  { intros vs. assert (Ey : upd (begin [] q vs s) y (PI n) y = Some (PI n)) by (unfold upd; rewrite Eyy; reflexivity). assert (En : number53 n = Some (PI n)) by (unfold number53; destruct (Z.leb_spec (Z.abs n) 9007199254740992); [reflexivity|lia]).
    unfold q at 1. cbn [p_body runs run fox]. rewrite En. cbn [and_then runs run fox]. rewrite Ey. reflexivity. }
  split.
  - unfold fox_do. rewrite Fq. cbn [foxs fox]. rewrite Sx. change (length (p_params q) <? length [v])%nat with false. cbn iota. rewrite Rq. eexists. split; [reflexivity|].
    unfold handed. cbn [q p_params references find snd]. rewrite Exx. unfold upd. rewrite Eyy. reflexivity.
  - assert (Cf : callable fs f) by (left; reflexivity). assert (Va : Forall (value_ok lib) [CVar x]) by (constructor; [split; [exact Nx|right; cbn; repeat split]|constructor]).
    assert (Fm : foxs (look m) [CVar x] = Some [v]) by (cbn [foxs fox]; rewrite Lx; reflexivity). pose proof (call_line_runs lib pr fs [] N (S k) f [CVar x] [v] m r O Cf Va Fm) as T. cbv zeta in T. rewrite T.
    assert (Sh : shows [] m s) by (intros z []). pose proof (calls lib pr fs [] O N [] (Forall_nil _) (S k) f [v] s m Cf Sh) as C. unfold P_Funs3.fns in C. cbn [app] in C. cbn [fox_call] in C. rewrite Fq in C.
    change (length (p_params q) <? length [v])%nat with false in C. cbn iota in C. rewrite Rq in C. destruct C as (w & m1 & -> & _ & Sm & _). exists m1. split; [reflexivity|]. rewrite (same_look [] m m1 x Sm); [exact Lx|intros z []].
Qed.
Print Assumptions C124_assigned_refuted.
(** DO add WITH i, where add only adds its parameter to total *)
Definition caller : rt pval := mkRt (mkMem [[("total"%string, PI 100)]; []] [[]; [("i"%string, PI 7)]]) [] 0.
Definition seven : store := upd (upd (fun _ => None) (u "total") (PI 100)) (u "i") (PI 7).
Example C124_example : forall lib, file_ok lib [down; add] [u "total"] /\ find_proc [down; add] (u "add") = Some add /\ Forall (value_ok lib) [CVar (u "i")] /\ (forall t x, In t [CVar (u "i")] -> In x (vars t) -> look caller x = seven x) /\
  shows [u "total"] caller seven /\ (forall y x, In (y, x) (references (p_params add) [CVar (u "i")]) -> ~ In x [u "total"] /\ ~ In y (assigneds (p_body add))) /\
  exists s1, fox_do [down; add] [u "total"] 9 9 (u "add") [CVar (u "i")] seven = Value (PB true) s1 /\ s1 (u "total") = Some (PI 107) /\ s1 (u "i") = Some (PI 7).
Proof.
  intros lib. split; [apply down_ok|]. split; [reflexivity|]. split; [constructor; [split; [reflexivity|right; cbn; repeat split]|constructor]|]. split; [intros t x [<-|[]] [<-|[]]; reflexivity|].
  split; [intros x [<-|[]]; vm_compute; split; reflexivity|]. split; [intros y x [E|[]]; injection E as <- <-; split; vm_compute; intuition discriminate|]. eexists. split; [reflexivity|]. split; vm_compute; reflexivity.
Qed.
(** PROCEDURE reset(n) / n = 0 / RETURN n: from the text *)
From Verif Require Import M_ParseProg.
Example C124_assigned_example : name_ok (u "reset") = true /\ taken (u "reset") = false /\ isin (u "reset") functions_followed = false /\ name_ok (u "n") = true /\ u "n" <> u "self" /\ u "n" <> u "scope" /\
  forall lib printable, option_map (file_text lib printable) (read_file (u "PROCEDURE reset(n)" ++ [10] ++ u "n = 0" ++ [10] ++ u "RETURN n" ++ [10] ++ u "PROCEDURE go(x)" ++ [10] ++ u "DO reset WITH x" ++ [10] ++ u "RETURN x" ++ [10])) = Some (
    u "@lparameters('n')" ++ [10] ++ u "def reset():" ++ [10] ++ u "    S.n = 0" ++ [10] ++ u "    return S.n" ++ [10] ++ u "@lparameters('x')" ++ [10] ++ u "def go():" ++ [10] ++ u "    reset(S.x)" ++ [10] ++ u "    return S.x").
Proof. repeat (split; [vm_compute; (reflexivity || discriminate)|]). intros. vm_compute. reflexivity. Qed.
