(** C115: files of functions with parameters, local variables and recursion, from FoxPro to the text that Python reads and runs. *)
From Verif Require Import PyBase PyStr M_Memvar M_Params M_Do S_Py P_Py S_PyEval M_Lit P_Lit M_Stmt S_Stmt P_Stmt T_Stmt M_Program M_Conv S_Conv P_Conv P_Bool S_Inline P_Inline S_For M_Show M_Core P_Fuel S_Lex S_Core P_Lex P_Core1 P_Core2 P_Core3 S_Funs P_Funs1 P_Funs2 P_Funs3.
Open Scope Z_scope.

(** The text is one Python file, with one reading; in it, a call of any function of the file, from any state of the scopes that shows the variables G, those that no function declares, returns what the
    FoxPro function returns, leaves them with the values they have in FoxPro, and changes nothing else; and it goes on when the FoxPro call goes on.  A function that does not always end in RETURN
    may give None where FoxPro gives .T.: its calls are statements, which use no value.  A variable of G may not exist yet: the function
    that sets it has it as a private one, which the functions it calls see and set, and which is gone when it returns. *)
Theorem C115_functions_partial : forall lib printable fs G, file_ok lib fs G ->
  exists p fns, py_reads (file_text lib printable fs) p /\ (forall q, py_reads (file_text lib printable fs) q -> q = p) /\ py_module p = Some fns /\
    forall N k f args s m, In f (map p_name fs) -> shows G m s ->
      match fox_call fs G N k f args s with
      | Value v s1 => exists w m1, py_call fns N k f args m = (Ok w, m1) /\ (w = v \/ ~ returning fs f /\ v = PB true /\ w = PN) /\ same_but G m m1 /\ shows G m1 s1
      | Endless => fst (py_call fns N k f args m) = Err unfinished
      | Failed => True
      end.
Proof.
  intros lib pr fs G O. pose proof O as (_ & _ & Hf).
  assert (Hn : Forall (fun f => name_ok (p_name f) = true) fs) by (revert Hf; apply Forall_impl; intros f H; apply H).
  assert (Sp : Forall func_supported (map (compile_proc lib pr) fs)).
  { apply Forall_forall. intros c I. apply in_map_iff in I as (f & <- & I). rewrite Forall_forall in Hf. exact (proc_supported lib pr fs G f Hn (Hf f I)). }
  pose proof (C47_program_partial _ Sp) as R. eexists _, (map (py_of lib pr) fs). split; [exact R|]. split; [intros q Q; exact (py_reads_unique _ _ _ Q R)|]. split.
  - apply module_of. revert Hf. apply Forall_impl. intros f (A & B & _ & C & _). split; [exact (lex_head _ A)|]. split; [exact B|]. unfold own in C. apply Forall_app in C. apply C.
  - intros N k f args s m I Sh. exact (calls lib pr fs G O N [] (Forall_nil _) k f args s m I Sh).
Qed.
Print Assumptions C115_functions_partial.

(** A file of one function *)
Lemma one_file lib pr f : func_supported (compile_proc lib pr f) -> name_ok (p_name f) = true -> taken (p_name f) = false -> Forall (fun x => name_ok x = true) (p_params f) ->
  exists p, py_reads (file_text lib pr [f]) p /\ py_module p = Some [py_of lib pr f].
Proof.
  intros Sp A B C. eexists. split; [exact (C47_program_partial [compile_proc lib pr f] (Forall_cons _ Sp (Forall_nil _)))|]. apply (module_of lib pr [f]). constructor; [|constructor]. split; [exact (lex_head _ A)|]. split; [exact B|exact C].
Qed.
Lemma found lib pr f : find_fun [py_of lib pr f] (p_name f) = Some (py_of lib pr f) /\ find_proc [f] (p_name f) = Some f.
Proof. unfold find_fun, find_proc. cbn [rev app find py_of q_name]. destruct (pystr_eqb_spec (p_name f) (p_name f)); [split; reflexivity|contradiction]. Qed.
(** A function that ends without RETURN gives .T. in FoxPro and None in Python. *)
Theorem C115_no_return_refuted : forall lib printable f, name_ok f = true -> taken f = false ->
  let fs := [{| p_name := f; p_params := []; p_declared := []; p_body := KNil |}] in
  exists p fns, py_reads (file_text lib printable fs) p /\ py_module p = Some fns /\
    forall N k s m, (exists s1, fox_call fs [] N (S k) f [] s = Value (PB true) s1) /\ exists m1, py_call fns N (S k) f [] m = (Ok PN, m1).
Proof.
  intros lib pr f Nf Tf fs. set (q := {| p_name := f; p_params := []; p_declared := []; p_body := KNil |}) in fs.
  assert (Sp : func_supported (compile_proc lib pr q)) by (apply (body_supported lib pr [q] q [] (fun _ => True) true); [repeat constructor; exact Nf|exact (name_line _ Nf)|constructor|exact I]).
  destruct (one_file lib pr q Sp Nf Tf (Forall_nil _)) as (p & R & M). exists p, [py_of lib pr q]. split; [exact R|]. split; [exact M|]. intros N k s m. destruct (found lib pr q) as [Fp Ff]. split.
  - cbn [fox_call]. rewrite (Ff : find_proc fs f = Some q). eexists. reflexivity.
  - cbn [py_call]. rewrite (Fp : find_fun [py_of lib pr q] f = Some (py_of lib pr q)). unfold M_Params.scoper. cbn [py_of q_params q map M_Params.enter length co_argcount Nat.eqb p_params].
    assert (B : forall s1, py_body [py_of lib pr q] (py_call [py_of lib pr q] N k) N (q_body (py_of lib pr q)) s1 = (Ok PN, s1)) by (intros s1; vm_compute; reflexivity).
    rewrite (B : forall s1, py_body _ _ _ _ s1 = _). unfold leave, push_frame. cbn [mem pcounts pushscope]. rewrite rev_unit. cbn. unfold popscope. cbn [pushscope public_scopes local_scopes]. rewrite !rev_unit. cbn. eexists. reflexivity.
Qed.
Print Assumptions C115_no_return_refuted.
(** FUNCTION f / LPARAMETERS self / RETURN self: the argument reaches vfpfunc as a keyword argument of a method, which has a self already. *)
Theorem C115_self_refuted : forall lib printable f x, name_ok f = true -> taken f = false -> x = u "self" \/ x = u "scope" ->
  let fs := [{| p_name := f; p_params := [x]; p_declared := []; p_body := KCons (KReturn (CVar x)) KNil |}] in
  exists p fns, py_reads (file_text lib printable fs) p /\ py_module p = Some fns /\
    forall N k v s m, (exists s1, fox_call fs [] N (S k) f [v] s = Value v s1) /\ fst (py_call fns N (S k) f [v] m) = Err TypeError.
Proof.
  intros lib pr f x Nf Tf Hx fs. set (q := {| p_name := f; p_params := [x]; p_declared := []; p_body := KCons (KReturn (CVar x)) KNil |}) in fs. assert (Nx : name_ok x = true) by (destruct Hx as [-> | ->]; reflexivity).
  assert (Sp : func_supported (compile_proc lib pr q)).
  { apply (body_supported lib pr [q] q [] (fun _ => True) true); [repeat constructor; exact Nf|exact (name_line _ Nf)|constructor; [exact Nx|constructor]|]. split; [|exact I]. split; [reflexivity|]. split.
    - split; [exact Nx|]. right. split; exact I.
    - intros y _. split; [exact I|intros []]. }
  destruct (one_file lib pr q Sp Nf Tf (Forall_cons _ Nx (Forall_nil _))) as (p & R & M). exists p, [py_of lib pr q]. split; [exact R|]. split; [exact M|]. intros N k v s m. destruct (found lib pr q) as [Fp Ff]. split.
  - cbn [fox_call]. rewrite (Ff : find_proc fs f = Some q). cbn [q p_params p_body length Nat.ltb Nat.leb runs run fox]. unfold begin. cbn [p_params q argument]. destruct (pystr_eqb_spec x x); [|contradiction]. eexists. reflexivity.
  - cbn [py_call]. rewrite (Fp : find_fun [py_of lib pr q] f = Some (py_of lib pr q)). unfold M_Params.scoper. cbn [py_of q_params q_body q map p_params M_Params.enter is_method co_varnames]. unfold bind_params, add_local, upd_last, push_frame, pushscope. cbn [mem local_scopes]. rewrite rev_unit. cbn [rbind].
    destruct Hx as [-> | ->]; reflexivity.
Qed.
Print Assumptions C115_self_refuted.

(** FUNCTION fact / LPARAMETERS n / LOCAL r / IF n <= 1 / RETURN 1 / ENDIF / r = fact(n - 1) / calls = calls + 1 / RETURN n * r
    FUNCTION gcd / LPARAMETERS a, b / LOCAL t / LOCAL f / DO WHILE b <> 0 / t = a % b / a = b / b = t / ENDDO / RETURN a *)
Definition fact : proc := let v (s : string) := CVar (u s) in
  {| p_name := u "fact"; p_params := [u "n"]; p_declared := [[u "r"]];
     p_body := KCons (KIf (CCmp OLe (v "n"%string) (CInt 1)) (KCons (KReturn (CInt 1)) KNil) KNone)
               (KCons (KCall (Into (u "r")) (u "fact") [CBin OSub (v "n"%string) (CInt 1)])
               (KCons (KLet (u "calls") (CBin OAdd (v "calls"%string) (CInt 1)))
               (KCons (KReturn (CBin OMul (v "n"%string) (v "r"%string))) KNil))) |}.
Definition gcd : proc := let v (s : string) := CVar (u s) in
  {| p_name := u "gcd"; p_params := [u "a"; u "b"]; p_declared := [[u "t"]; [u "f"]];
     p_body := KCons (KWhile (CCmp ONe (v "b"%string) (CInt 0)) (KCons (KLet (u "t") (CBin OMod (v "a"%string) (v "b"%string))) (KCons (KLet (u "a") (v "b"%string)) (KCons (KLet (u "b") (v "t"%string)) KNil))))
               (KCons (KCall (Into (u "f")) (u "fact") [v "a"%string])
               (KCons (KReturn (v "f"%string)) KNil)) |}.
Definition one_public : rt pval := mkRt (mkMem [[("calls"%string, PI 10)]] [[]]) [] 0.

Example C115_example : forall lib, file_ok lib [fact; gcd] [u "calls"] /\ shows [u "calls"] one_public (upd (fun _ => None) (u "calls") (PI 10)) /\
  exists s1, fox_call [fact; gcd] [u "calls"] 9 9 (u "gcd") [PI 20; PI 15] (upd (fun _ => None) (u "calls") (PI 10)) = Value (PI 120) s1 /\ s1 (u "calls") = Some (PI 14).
Proof.
  intros lib. split; [|split].
  - Ltac tell := vm_compute; intuition discriminate.
    Ltac known := vm_compute; tauto.
    Ltac used := split; [known|first [exact I | eexists; split; [reflexivity|split; reflexivity]]].
    Ltac seen := let y := fresh in let B := fresh in intros y B; vm_compute in B; split; [repeat (destruct B as [<-|B]; [known|]); contradiction|intros []].
    Ltac fine := split; [reflexivity|]; cbn; repeat split; try lia; try discriminate; try exact I.
    Ltac a_value := split; [reflexivity|right; cbn; repeat split; lia].
    Ltac let_fine := split; [reflexivity|split; [known|split; [a_value|split; [seen|split; [intros []|]]]]].
    Ltac apart := let x := fresh in let A := fresh in let B := fresh in intros x A B; vm_compute in A, B; repeat (destruct A as [<-|A]; [tell|]); contradiction.
    split; [repeat constructor|]. split; [repeat constructor; tell|]. constructor; [|constructor; [|constructor]].
    + split; [reflexivity|]. split; [reflexivity|]. split; [reflexivity|]. split; [repeat constructor|]. split; [repeat constructor; tell|]. split; [apart|]. split; [tell|]. split; [tell|]. split; [intros x []|].
      split; [|split; [|split; [|split; [|exact I]]]].
      * split; [fine|]. split; [seen|]. split; [split; [split; [reflexivity|split; [a_value|seen]]|exact I]|exact I].
      * split; [split; [reflexivity|split; [known|intros []]]|]. split; [used|]. constructor; [split; [a_value|seen]|constructor].
      * let_fine. right. eexists OAdd, _. split; [reflexivity|exact I].
      * split; [reflexivity|split; [a_value|seen]].
    + split; [reflexivity|]. split; [reflexivity|]. split; [reflexivity|]. split; [repeat constructor|]. split; [repeat constructor; tell|]. split; [apart|]. split; [tell|]. split; [tell|]. split; [intros x []|].
      split; [|split; [|split; [|exact I]]].
      * split; [fine|]. split; [seen|]. split; [let_fine; left; discriminate|]. split; [let_fine; left; discriminate|]. split; [let_fine; left; discriminate|exact I].
      * split; [split; [reflexivity|split; [known|intros []]]|]. split; [used|]. constructor; [split; [a_value|seen]|constructor].
      * split; [reflexivity|split; [a_value|seen]].
  - intros x [<-|[]]. vm_compute. split; reflexivity.
  - eexists. split; vm_compute; reflexivity.
Qed.
Example C115_example_text : forall lib printable, file_text lib printable [fact; gcd] = 
  u "@lparameters('n')" ++ [10] ++ u "def fact():" ++ [10] ++ u "    M.add_local('r')" ++ [10] ++ u "    if S.n <= 1:" ++ [10] ++ u "        return 1" ++ [10] ++ u "    S.r = fact(S.n - 1)" ++ [10] ++ u "    S.calls += 1" ++ [10] ++ u "    return S.n * S.r" ++ [10] ++
  u "@lparameters('a', 'b')" ++ [10] ++ u "def gcd():" ++ [10] ++ u "    M.add_local('t')" ++ [10] ++ u "    M.add_local('f')" ++ [10] ++ u "    while S.b != 0:" ++ [10] ++ u "        S.t = S.a % S.b" ++ [10] ++ u "        S.a = S.b" ++ [10] ++ u "        S.b = S.t" ++ [10] ++ u "    S.f = fact(S.a)" ++ [10] ++ u "    return S.f".
Proof. intros. vm_compute. reflexivity. Qed.

(** FUNCTION count_to / LPARAMETERS n / total = 0 / r = add_all(n) / RETURN total
    FUNCTION add_all / LPARAMETERS i / LOCAL more / IF i <= 0 / RETURN 0 / ENDIF / total = total + i / more = add_all(i - 1) / RETURN more: total and r are private to count_to. *)
Definition count_to : proc := let v (s : string) := CVar (u s) in
  {| p_name := u "count_to"; p_params := [u "n"]; p_declared := [];
     p_body := KCons (KLet (u "total") (CInt 0)) (KCons (KCall (Into (u "r")) (u "add_all") [v "n"%string]) (KCons (KReturn (v "total"%string)) KNil)) |}.
Definition add_all : proc := let v (s : string) := CVar (u s) in
  {| p_name := u "add_all"; p_params := [u "i"]; p_declared := [[u "more"]];
     p_body := KCons (KIf (CCmp OLe (v "i"%string) (CInt 0)) (KCons (KReturn (CInt 0)) KNil) KNone)
               (KCons (KLet (u "total") (CBin OAdd (v "total"%string) (v "i"%string)))
               (KCons (KCall (Into (u "more")) (u "add_all") [CBin OSub (v "i"%string) (CInt 1)])
               (KCons (KReturn (v "more"%string)) KNil))) |}.
Definition no_variables : rt pval := mkRt (mkMem [[]] []) [] 0.
Lemma count_ok : forall lib, file_ok lib [count_to; add_all] [u "total"; u "r"].
Proof.
  intros lib. split; [repeat constructor|]. split; [repeat constructor; tell|]. constructor; [|constructor; [|constructor]].
  - split; [reflexivity|]. split; [reflexivity|]. split; [reflexivity|]. split; [repeat constructor|]. split; [repeat constructor; tell|]. split; [apart|]. split; [tell|]. split; [tell|]. split; [intros x []|].
    split; [|split; [|split; [|exact I]]].
    + let_fine. left. discriminate.
    + split; [split; [reflexivity|split; [known|intros []]]|]. split; [used|]. constructor; [split; [a_value|seen]|constructor].
    + split; [reflexivity|split; [a_value|seen]].
  - split; [reflexivity|]. split; [reflexivity|]. split; [reflexivity|]. split; [repeat constructor|]. split; [repeat constructor; tell|]. split; [apart|]. split; [tell|]. split; [tell|]. split; [intros x []|].
    split; [|split; [|split; [|split; [|exact I]]]].
    + split; [fine|]. split; [seen|]. split; [split; [split; [reflexivity|split; [a_value|seen]]|exact I]|exact I].
    + let_fine. right. eexists OAdd, _. split; [reflexivity|exact I].
    + split; [split; [reflexivity|split; [known|intros []]]|]. split; [used|]. constructor; [split; [a_value|seen]|constructor].
    + split; [reflexivity|split; [a_value|seen]].
Qed.
Example C115_example_private : forall lib, file_ok lib [count_to; add_all] [u "total"; u "r"] /\ shows [u "total"; u "r"] no_variables (fun _ => None) /\
  exists s1, fox_call [count_to; add_all] [u "total"; u "r"] 9 9 (u "count_to") [PI 4] (fun _ => None) = Value (PI 10) s1 /\ s1 (u "total") = None /\ s1 (u "r") = None.
Proof.
  intros lib. split; [apply count_ok|]. split; [intros x _; split; [reflexivity|exact I]|]. eexists. split; [vm_compute; reflexivity|]. split; vm_compute; reflexivity.
Qed.

(** FUNCTION down / LPARAMETERS i / IF i <= 0 / RETURN total / ENDIF / add(i) / RETURN down(i - 1)
    FUNCTION add / LPARAMETERS k / total = total + k / RETURN .T. *)
Definition down : proc := let v (s : string) := CVar (u s) in
  {| p_name := u "down"; p_params := [u "i"]; p_declared := [];
     p_body := KCons (KIf (CCmp OLe (v "i"%string) (CInt 0)) (KCons (KReturn (v "total"%string)) KNil) KNone)
               (KCons (KCall Nowhere (u "add") [v "i"%string])
               (KCons (KCall Answer (u "down") [CBin OSub (v "i"%string) (CInt 1)]) KNil)) |}.
Definition add : proc := let v (s : string) := CVar (u s) in
  {| p_name := u "add"; p_params := [u "k"]; p_declared := [];
     p_body := KCons (KLet (u "total") (CBin OAdd (v "total"%string) (v "k"%string))) (KCons (KReturn (CBool true)) KNil) |}.
Definition the_total : rt pval := mkRt (mkMem [[("total"%string, PI 100)]] [[]]) [] 0.
Lemma down_ok : forall lib, file_ok lib [down; add] [u "total"].
Proof.
  intros lib. split; [repeat constructor|]. split; [repeat constructor; tell|]. constructor; [|constructor; [|constructor]].
  - split; [reflexivity|]. split; [reflexivity|]. split; [reflexivity|]. split; [repeat constructor|]. split; [repeat constructor; tell|]. split; [apart|]. split; [tell|]. split; [tell|]. split; [intros x []|].
    split; [|split; [|split; [|exact I]]].
    + split; [fine|]. split; [seen|]. split; [split; [split; [reflexivity|split; [a_value|seen]]|exact I]|exact I].
    + split; [exact I|]. split; [used|]. constructor; [split; [a_value|seen]|constructor].
    + split; [reflexivity|]. split; [used|]. constructor; [split; [a_value|seen]|constructor].
  - split; [reflexivity|]. split; [reflexivity|]. split; [reflexivity|]. split; [repeat constructor|]. split; [repeat constructor; tell|]. split; [apart|]. split; [tell|]. split; [tell|]. split; [intros x []|].
    split; [|split; [|exact I]].
    + let_fine. right. eexists OAdd, _. split; [reflexivity|exact I].
    + split; [reflexivity|split; [a_value|seen]].
Qed.
Example C115_example_calls : forall lib, file_ok lib [down; add] [u "total"] /\ shows [u "total"] the_total (upd (fun _ => None) (u "total") (PI 100)) /\
  exists s1, fox_call [down; add] [u "total"] 9 9 (u "down") [PI 4] (upd (fun _ => None) (u "total") (PI 100)) = Value (PI 110) s1 /\ s1 (u "total") = Some (PI 110).
Proof.
  intros lib. split; [apply down_ok|]. split; [intros x [<-|[]]; vm_compute; split; reflexivity|]. eexists. split; vm_compute; reflexivity.
Qed.
Example C115_example_calls_text : forall lib printable, file_text lib printable [down; add] =
  u "@lparameters('i')" ++ [10] ++ u "def down():" ++ [10] ++ u "    if S.i <= 0:" ++ [10] ++ u "        return S.total" ++ [10] ++ u "    add(S.i)" ++ [10] ++ u "    return down(S.i - 1)" ++ [10] ++
  u "@lparameters('k')" ++ [10] ++ u "def add():" ++ [10] ++ u "    S.total += S.k" ++ [10] ++ u "    return True".
Proof. intros. vm_compute. reflexivity. Qed.

(** FUNCTION sums / LPARAMETERS i / IF i <= 0 / RETURN total / ENDIF / DO tally WITH i * 2 / RETURN sums(i - 1)
    PROCEDURE tally / LPARAMETERS k / IF k <= 4 / RETURN / ENDIF / total = total + k: a procedure that ends with RETURN alone, or without it, of which no value is used. *)
Definition sums : proc := let v (s : string) := CVar (u s) in
  {| p_name := u "sums"; p_params := [u "i"]; p_declared := [];
     p_body := KCons (KIf (CCmp OLe (v "i"%string) (CInt 0)) (KCons (KReturn (v "total"%string)) KNil) KNone)
               (KCons (KCall Nowhere (u "tally") [CBin OMul (v "i"%string) (CInt 2)])
               (KCons (KCall Answer (u "sums") [CBin OSub (v "i"%string) (CInt 1)]) KNil)) |}.
Definition tally : proc := let v (s : string) := CVar (u s) in
  {| p_name := u "tally"; p_params := [u "k"]; p_declared := [];
     p_body := KCons (KIf (CCmp OLe (v "k"%string) (CInt 4)) (KCons KLeave KNil) KNone) (KCons (KLet (u "total") (CBin OAdd (v "total"%string) (v "k"%string))) KNil) |}.
Lemma sums_ok : forall lib, file_ok lib [sums; tally] [u "total"].
Proof.
  intros lib. split; [repeat constructor|]. split; [repeat constructor; tell|]. constructor; [|constructor; [|constructor]].
  - split; [reflexivity|]. split; [reflexivity|]. split; [reflexivity|]. split; [repeat constructor|]. split; [repeat constructor; tell|]. split; [apart|]. split; [tell|]. split; [tell|]. split; [intros x []|].
    split; [|split; [|split; [|exact I]]].
    + split; [fine|]. split; [seen|]. split; [split; [split; [reflexivity|split; [a_value|seen]]|exact I]|exact I].
    + split; [exact I|]. split; [used|]. constructor; [split; [a_value|seen]|constructor].
    + split; [reflexivity|]. split; [used|]. constructor; [split; [a_value|seen]|constructor].
  - split; [reflexivity|]. split; [reflexivity|]. split; [reflexivity|]. split; [repeat constructor|]. split; [repeat constructor; tell|]. split; [apart|]. split; [tell|]. split; [tell|]. split; [intros x []|].
    split; [|split; [|exact I]].
    + split; [fine|]. split; [seen|]. split; [split; [reflexivity|exact I]|exact I].
    + let_fine. right. eexists OAdd, _. split; [reflexivity|exact I].
Qed.
Example C115_example_no_return : forall lib, file_ok lib [sums; tally] [u "total"] /\ ~ returning [sums; tally] (u "tally") /\ shows [u "total"] the_total (upd (fun _ => None) (u "total") (PI 100)) /\
  exists s1, fox_call [sums; tally] [u "total"] 9 9 (u "sums") [PI 4] (upd (fun _ => None) (u "total") (PI 100)) = Value (PI 114) s1 /\ s1 (u "total") = Some (PI 114).
Proof.
  intros lib. split; [apply sums_ok|]. split; [intros (p & A & B & _); vm_compute in A; injection A as <-; discriminate B|]. split; [intros x [<-|[]]; vm_compute; split; reflexivity|]. eexists. split; vm_compute; reflexivity.
Qed.
Example C115_example_no_return_text : forall lib printable, file_text lib printable [sums; tally] =
  u "@lparameters('i')" ++ [10] ++ u "def sums():" ++ [10] ++ u "    if S.i <= 0:" ++ [10] ++ u "        return S.total" ++ [10] ++ u "    tally(S.i * 2)" ++ [10] ++ u "    return sums(S.i - 1)" ++ [10] ++
  u "@lparameters('k')" ++ [10] ++ u "def tally():" ++ [10] ++ u "    if S.k <= 4:" ++ [10] ++ u "        return" ++ [10] ++ u "    S.total += S.k".
Proof. intros. vm_compute. reflexivity. Qed.
