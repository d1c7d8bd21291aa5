(** Properties C74 (parameters of methods), C75 (methods of contained objects), C76 (property values) of converted classes. *)
From Verif Require Import PyBase PyStr M_Stmt M_Class.
Open Scope Z_scope.

(** What a procedure declares: whether the parameters are local, their names, and the remaining lines *)
Definition comment (l : bline) : Prop := match l with BComment _ => True | _ => False end.
Definition no_param_line (l : list bline) : Prop :=
  forall cs x r, l = cs ++ x :: r -> Forall comment cs -> match x with BParam _ _ => False | _ => True end.
Inductive declares (f : fundef) : bool -> list pystr -> list bline -> Prop :=
| DParen : f_params f <> [] -> declares f true (f_params f) (f_lines f)
| DLine cs k ns r : f_params f = [] -> f_lines f = cs ++ BParam k ns :: r -> Forall comment cs -> declares f k ns (cs ++ r)
| DNone : f_params f = [] -> no_param_line (f_lines f) -> declares f true [] (f_lines f).

Lemma take_param_line cs k ns r : Forall comment cs -> take_param (cs ++ BParam k ns :: r) = Some (k, ns, cs ++ r).
Proof. induction 1 as [|c cs H _ IH]; [reflexivity|]. destruct c; try contradiction. cbn [app take_param]. rewrite IH. reflexivity. Qed.
Lemma take_param_none l : no_param_line l -> take_param l = None.
Proof.
  induction l as [|c l IH]; intros H; [reflexivity|]. destruct c; cbn [take_param].
  - rewrite IH; [reflexivity|]. intros cs x r -> F. apply (H (BComment text :: cs) x r); [reflexivity|]. constructor; [exact I|exact F].
  - exfalso. exact (H [] _ _ eq_refl (Forall_nil _)).
  - reflexivity.
Qed.
Definition plain (s : pystr) : Prop := ~ In 46 s.
Lemma has_dot_plain s : plain s <-> has_dot s = false.
Proof.
  unfold plain, has_dot. split; intros H.
  - destruct (existsb (Z.eqb 46) s) eqn:E; [|reflexivity]. exfalso. apply H. apply existsb_exists in E as (c & I & E). apply Z.eqb_eq in E. subst c. exact I.
  - intros I. assert (E : existsb (Z.eqb 46) s = true) by (apply existsb_exists; exists 46; split; [exact I|reflexivity]). congruence.
Qed.
Lemma visit_declares f k ns body : declares f k ns body -> fst (visit_fun f) = OFun (join (u ".") (f_name f)) k ns body.
Proof.
  intros [H|cs k' ns' r H L C|H N]; unfold visit_fun.
  - destruct (f_params f) eqn:E; [congruence|]. reflexivity.
  - rewrite H, L, take_param_line by exact C. reflexivity.
  - rewrite H, take_param_none by exact N. reflexivity.
Qed.
(** visiting keeps name and comments *)
Lemma visit_keeps f : f_name (snd (visit_fun f)) = f_name f /\ f_after (snd (visit_fun f)) = f_after f.
Proof. unfold visit_fun. destruct (f_params f); [|split; reflexivity]. destruct (take_param (f_lines f)) as [[[? ?] ?]|]; split; reflexivity. Qed.
Lemma o_name_visit f : o_name (fst (visit_fun f)) = join (u ".") (f_name f).
Proof. unfold visit_fun. destruct (f_params f); [|reflexivity]. destruct (take_param (f_lines f)) as [[[? ?] ?]|]; reflexivity. Qed.
Lemma visit_funs_map fs : visit_funs fs = (map (fun f => fst (visit_fun f)) fs, map (fun f => snd (visit_fun f)) fs).
Proof. induction fs as [|f fs IH]; [reflexivity|]. cbn [visit_funs map]. rewrite IH. destruct (visit_fun f); reflexivity. Qed.
Fixpoint times {A} (n : nat) (g : A -> A) (x : A) : A := match n with O => x | S n => times n g (g x) end.
Definition adds (ms : list member) : nat := length (filter (fun m => match m with MAdd _ _ _ => true | _ => false end) ms).
Definition revisit (f : fundef) : fundef := snd (visit_fun f).
Lemma members_funs assigns ms : forall fs, snd (visit_members assigns ms fs) = map (times (adds ms) revisit) fs.
Proof.
  induction ms as [|m ms IH]; intros fs; [cbn; rewrite map_id; reflexivity|]. destruct m as [t|t v|n ty a|f|t]; cbn [visit_members]; unfold adds; cbn [filter].
  - specialize (IH fs). destruct (visit_members assigns ms fs). exact IH.
  - destruct (class_assign t v). specialize (IH fs). destruct (visit_members assigns ms fs). exact IH.
  - rewrite visit_funs_map. specialize (IH (map (fun f => snd (visit_fun f)) fs)). destruct (visit_members assigns ms _) as [l fs']. cbn [snd] in *. rewrite IH, map_map. reflexivity.
  - exact (IH fs).
  - exact (IH fs).
Qed.
Definition gather (os : list outfun) : list outfun := fold_left (fun l o => if has_dot (o_name o) then l else put_fun l o) os [].
Lemma class_funs_out ms : oc_funs (visit_class ms) = gather (map (fun f => fst (visit_fun (times (adds ms) revisit f))) (class_funs ms)).
Proof.
  unfold visit_class. pose proof (members_funs (class_assigns ms) ms (class_funs ms)) as H. destruct (visit_members _ _ _) as [items fs]. cbn [snd] in H. subst fs.
  rewrite visit_funs_map. cbn [oc_funs]. rewrite map_map. reflexivity.
Qed.
Lemma put_fun_new l f : ~ In (o_name f) (map o_name l) -> put_fun l f = l ++ [f].
Proof. induction l as [|g l IH]; intros H; [reflexivity|]. cbn [put_fun app]. destruct (pystr_eqb_spec (o_name g) (o_name f)) as [E|_]; [exfalso; apply H; left; exact E|]. rewrite IH; [reflexivity|]. intros X. apply H. right. exact X. Qed.
Lemma gather_distinct os : NoDup (map o_name os) -> gather os = filter (fun o => negb (has_dot (o_name o))) os.
Proof.
  intros N. unfold gather. assert (G : forall os l, NoDup (map o_name (l ++ os)) -> fold_left (fun l o => if has_dot (o_name o) then l else put_fun l o) os l = l ++ filter (fun o => negb (has_dot (o_name o))) os).
  { clear. induction os as [|o os IH]; intros l N; [cbn; rewrite app_nil_r; reflexivity|]. cbn [fold_left filter].
    assert (N1 : NoDup (map o_name (l ++ os))) by (rewrite map_app in *; cbn [map] in N; eapply NoDup_remove_1; exact N).
    assert (N2 : ~ In (o_name o) (map o_name l)).
    { rewrite map_app in N. cbn [map] in N. apply NoDup_remove_2 in N. intros X. apply N. apply in_or_app. left. exact X. }
    destruct (has_dot (o_name o)); cbn [negb]; [apply IH; exact N1|]. rewrite put_fun_new by exact N2. rewrite IH by (rewrite <- app_assoc; exact N). rewrite <- app_assoc. reflexivity. }
  exact (G os [] N).
Qed.
Lemma times_name n f : f_name (times n revisit f) = f_name f.
Proof. revert f. induction n as [|n IH]; intros f; [reflexivity|]. cbn [times]. rewrite IH. apply visit_keeps. Qed.

(** * C74 *)
(** The methods of a class come out one by one, each as its (n+1)-st visit, n being the number of ADD OBJECT lines *)
Lemma class_methods ms : NoDup (map (fun f => join (u ".") (f_name f)) (class_funs ms)) ->
  oc_funs (visit_class ms) = filter (fun o => negb (has_dot (o_name o))) (map (fun f => fst (visit_fun (times (adds ms) revisit f))) (class_funs ms)).
Proof.
  intros N. rewrite class_funs_out. apply gather_distinct. rewrite map_map. erewrite map_ext; [exact N|]. intros f. rewrite o_name_visit, times_name. reflexivity.
Qed.
Definition is_method (f : fundef) (o : outfun) (declared : fundef -> bool -> list pystr -> list bline -> Prop) : Prop :=
  f_name f = [o_name o] /\ declared f (o_local o) (o_params o) (o_body o).
Definition method_names (ms : list member) : list pystr := map (fun f => join (u ".") (f_name f)) (class_funs ms).
Definition own (f : fundef) : bool := match f_name f with [n] => negb (has_dot n) | _ => false end.
Definition names_ok (ms : list member) : Prop := Forall (fun f => f_name f <> [] /\ Forall plain (f_name f)) (class_funs ms).
Lemma join_dot n m l : has_dot (join (u ".") (n :: m :: l)) = true.
Proof. unfold has_dot. cbn [join]. rewrite existsb_app. apply orb_true_intro. right. reflexivity. Qed.
Lemma own_dot f : f_name f <> [] -> own f = negb (has_dot (join (u ".") (f_name f))).
Proof. unfold own. destruct (f_name f) as [|n [|m l]]; intros H; [congruence|reflexivity|rewrite join_dot; reflexivity]. Qed.
Lemma filter_map_own ms (g : fundef -> outfun) : names_ok ms -> (forall f, o_name (g f) = join (u ".") (f_name f)) ->
  filter (fun o => negb (has_dot (o_name o))) (map g (class_funs ms)) = map g (filter own (class_funs ms)).
Proof.
  unfold names_ok. intros N E. induction (class_funs ms) as [|f fs IH]; [reflexivity|]. inversion N as [|? ? [H _] N']; subst. cbn [map filter]. rewrite E, own_dot by exact H.
  destruct (negb (has_dot _)); cbn [map]; rewrite IH by exact N'; reflexivity.
Qed.
Lemma declares_once f k ns body : declares f k ns body -> (f_params f <> [] \/ ns = [] /\ no_param_line (f_lines f)) -> revisit f = f.
Proof.
  intros D H. unfold revisit, visit_fun. destruct D as [P|cs k' ns' r P L C|P N].
  - destruct (f_params f); [congruence|reflexivity].
  - destruct H as [H|[_ H]]; [congruence|]. exfalso. exact (H cs _ _ L C).
  - rewrite P, take_param_none by exact N. reflexivity.
Qed.
Lemma times_fix {A} n (g : A -> A) x : g x = x -> times n g x = x.
Proof. intros H. induction n as [|n IH]; [reflexivity|]. cbn [times]. rewrite H. exact IH. Qed.

(** Every method of a class is there once, with the parameters it declares: all of them if the class has no ADD OBJECT, otherwise those
    that declare them in parentheses or have none *)
Theorem C74_methods_partial ms : names_ok ms -> NoDup (method_names ms) ->
  (adds ms = 0%nat \/ Forall (fun f => f_params f <> [] \/ no_param_line (f_lines f)) (class_funs ms)) ->
  Forall2 (fun f o => is_method f o declares) (filter own (class_funs ms)) (oc_funs (visit_class ms)).
Proof.
  intros N ND H. rewrite class_methods by exact ND. rewrite (filter_map_own ms) by (exact N || (intros f; rewrite o_name_visit, times_name; reflexivity)).
  assert (G : Forall (fun f => times (adds ms) revisit f = f) (class_funs ms)).
  { destruct H as [->|H]; [apply Forall_forall; reflexivity|]. eapply Forall_impl; [|exact H]. intros f Hf. apply times_fix. destruct (f_params f) eqn:E.
    - destruct Hf as [Hf|Hf]; [congruence|]. apply (declares_once f true [] (f_lines f)); [apply DNone; [exact E|exact Hf]|]. right. split; [reflexivity|exact Hf].
    - apply (declares_once f true (f_params f) (f_lines f)); [apply DParen; congruence|left; congruence]. }
  assert (D : forall f, exists k ns body, declares f k ns body).
  { intros f. destruct (f_params f) eqn:E; [|exists true, (f_params f), (f_lines f); apply DParen; congruence]. destruct (take_param (f_lines f)) as [[[k ns] r]|] eqn:T.
    - assert (X : exists cs r', f_lines f = cs ++ BParam k ns :: r' /\ Forall comment cs).
      { revert r T. induction (f_lines f) as [|c l IH]; intros r T; [discriminate|]. destruct c; cbn [take_param] in T; [|injection T as <- <- <-; exists [], l; split; [reflexivity|constructor]|discriminate].
        destruct (take_param l) as [[[k' ns'] r']|]; [|discriminate]. injection T as <- <- <-. destruct (IH _ eq_refl) as (cs & r & -> & C). exists (BComment text :: cs), r. split; [reflexivity|constructor; [exact I|exact C]]. }
      destruct X as (cs & r' & L & C). exists k, ns, (cs ++ r'). eapply DLine; eassumption.
    - exists true, [], (f_lines f). apply DNone; [exact E|]. intros cs x r L C. destruct x; try exact I. rewrite L, take_param_line in T by exact C. discriminate. }
  clear H. unfold names_ok in N. induction (class_funs ms) as [|f fs IH]; [constructor|]. inversion N as [|? ? [NE _] N']; subst. inversion G as [|? ? G1 G']; subst. cbn [filter]. destruct (own f) eqn:O; [|apply IH; assumption].
  cbn [map]. constructor; [|apply IH; assumption]. rewrite G1. destruct (D f) as (k & ns & body & Df). rewrite (visit_declares _ _ _ _ Df). split; [|exact Df]. unfold own in O. destruct (f_name f) as [|n [|? ?]]; try discriminate. reflexivity.
Qed.
Print Assumptions C74_methods_partial.

(** With an ADD OBJECT in the class, a method that declares its parameters on a line of its own has none *)
Theorem C74_lost_refuted ms f n cs k ns r : names_ok ms -> NoDup (method_names ms) -> (adds ms > 0)%nat -> In (MFunc f) ms -> f_name f = [n] ->
  f_params f = [] -> f_lines f = cs ++ BParam k ns :: r -> Forall comment cs -> no_param_line (cs ++ r) ->
  In (OFun n true [] (cs ++ r)) (oc_funs (visit_class ms)) /\ forall o, In o (oc_funs (visit_class ms)) -> o_name o = n -> o = OFun n true [] (cs ++ r).
Proof.
  intros N ND A I E P L C NP.
  assert (If : In f (class_funs ms)) by (unfold class_funs; apply in_flat_map; exists (MFunc f); split; [exact I|left; reflexivity]).
  assert (T : times (adds ms) revisit f = Fun [n] [] (cs ++ r) (f_after f)).
  { destruct (adds ms) as [|m]; [lia|]. cbn [times]. unfold revisit at 2, visit_fun. rewrite P, L, take_param_line by exact C. cbn [snd]. rewrite E. apply times_fix. unfold revisit, visit_fun. cbn [f_params f_lines]. rewrite take_param_none by exact NP. reflexivity. }
  assert (V : fst (visit_fun (times (adds ms) revisit f)) = OFun n true [] (cs ++ r)) by (rewrite T; unfold visit_fun; cbn [f_params f_lines f_name join fst]; rewrite take_param_none by exact NP; reflexivity).
  rewrite class_methods by exact ND. split.
  { apply filter_In. split; [rewrite <- V; apply (in_map (fun f => fst (visit_fun (times (adds ms) revisit f)))); exact If|]. cbn [o_name]. unfold names_ok in N. rewrite Forall_forall in N. destruct (N f If) as [_ F]. rewrite E in F. inversion F; subst. rewrite (proj1 (has_dot_plain n)) by assumption. reflexivity. }
  intros o Io En. apply filter_In in Io as [Io _]. apply in_map_iff in Io as (g & <- & Ig). rewrite o_name_visit, times_name in En.
  assert (Q : g = f).
  { assert (QE : join (u ".") (f_name g) = join (u ".") (f_name f)) by (rewrite E; exact En). clear - ND Ig If QE. unfold method_names in ND. induction (class_funs ms) as [|x l IH]; [contradiction|]. cbn [map] in ND. inversion ND as [|? ? N1 N2]; subst.
    destruct Ig as [->|Ig]; destruct If as [->|If]; [reflexivity| | |apply IH; assumption]; exfalso; apply N1; apply in_map_iff; [exists f|exists g]; (split; [first [exact QE | symmetry; exact QE]|assumption]). }
  subst g. exact V.
Qed.
Print Assumptions C74_lost_refuted.
Example C74_example : let f := Fun [u "init"] [] [BComment (u "* start"); BParam true [u "a"; u "b"]; BOther (u "x = 1")] [] in
  let g := Fun [u "click"] [u "n"] [BOther (u "y = 1")] [] in
  oc_funs (visit_class [MFunc f; MFunc g]) = [OFun (u "init") true [u "a"; u "b"] [BComment (u "* start"); BOther (u "x = 1")]; OFun (u "click") true [u "n"] [BOther (u "y = 1")]] /\
  oc_funs (visit_class [MAdd (u "t") (u "Textbox") []; MFunc f; MFunc g]) = [OFun (u "init") true [] [BComment (u "* start"); BOther (u "x = 1")]; OFun (u "click") true [u "n"] [BOther (u "y = 1")]].
Proof. split; reflexivity. Qed.

(** * C75 *)
Definition objects (l : list aitem) : list outobj := flat_map (fun i => match i with IObj o => [o] | _ => [] end) l.
Definition added (ms : list member) : list (pystr * pystr) := flat_map (fun m => match m with MAdd n t _ => [(n, t)] | _ => [] end) ms.
Definition belongs (n : pystr) (f : fundef) : bool := match f_name f with [p; _] => pystr_eqb p n | _ => false end.

Lemma members_app assigns a : forall b fs, visit_members assigns (a ++ b) fs =
  (fst (visit_members assigns a fs) ++ fst (visit_members assigns b (snd (visit_members assigns a fs))), snd (visit_members assigns b (snd (visit_members assigns a fs)))).
Proof.
  induction a as [|m a IH]; intros b fs; [cbn [app visit_members fst snd]; destruct (visit_members assigns b fs); reflexivity|].
  destruct m as [t|t v|n ty ar|f|t]; cbn [app visit_members].
  - rewrite IH. destruct (visit_members assigns a fs) as [l fs']. reflexivity.
  - destruct (class_assign t v). rewrite IH. destruct (visit_members assigns a fs) as [l fs']. cbn [fst snd]. rewrite app_assoc. reflexivity.
  - destruct (visit_funs fs) as [os fs1]. rewrite IH. destruct (visit_members assigns a fs1) as [l fs']. reflexivity.
  - apply IH.
  - apply IH.
Qed.
Lemma objects_app a b : objects (a ++ b) = objects a ++ objects b. Proof. apply flat_map_app. Qed.
Lemma objects_comments {A} (l : list A) g : objects (map (fun x => IComment (g x)) l) = [].
Proof. induction l; [reflexivity|exact IHl]. Qed.
Lemma members_added assigns ms : forall fs, map (fun o => (ob_name o, ob_type o)) (objects (fst (visit_members assigns ms fs))) = added ms.
Proof.
  induction ms as [|m ms IH]; intros fs; [reflexivity|]. destruct m as [t|t v|n ty ar|f|t]; cbn [visit_members]; unfold added; cbn [flat_map]; fold (added ms).
  - specialize (IH fs). destruct (visit_members assigns ms fs). exact IH.
  - destruct (class_assign t v) as [i w]. specialize (IH fs). destruct (visit_members assigns ms fs) as [l fs']. cbn [fst] in *. rewrite objects_app, map_app, IH. destruct (has_dot i); reflexivity.
  - destruct (visit_funs fs) as [os fs1]. specialize (IH fs1). destruct (visit_members assigns ms fs1) as [l fs']. cbn [fst] in *. unfold objects. cbn [flat_map]. fold (objects l). cbn [map app ob_name ob_type]. rewrite IH. reflexivity.
  - apply IH.
  - apply IH.
Qed.
Lemma class_objects ms : objects (oc_assign (visit_class ms)) = objects (fst (visit_members (class_assigns ms) ms (class_funs ms))).
Proof.
  unfold visit_class. destruct (visit_members _ _ _) as [items fs]. destruct (visit_funs fs). cbn [oc_assign fst]. rewrite objects_app. rewrite <- app_nil_r. f_equal. apply (objects_comments _ (fun x => x)).
Qed.
Lemma added_length ms : length (added ms) = adds ms.
Proof. unfold added, adds. induction ms as [|m ms IH]; [reflexivity|]. destruct m; cbn [flat_map filter app length]; rewrite ?IH; reflexivity. Qed.

Definition pick (n : pystr) (o : outfun) : list outfun :=
  if has_dot (o_name o) then let '(p, fn) := split_last (o_name o) in if pystr_eqb p n then [OFun fn (o_local o) (o_params o) (o_body o)] else [] else [].
Lemma own_funs_pick n os : own_funs n os = fold_left (fun l g => put_fun l g) (flat_map (pick n) os) [].
Proof.
  unfold own_funs. generalize (@nil outfun) as l. induction os as [|o os IH]; intros l; [reflexivity|]. cbn [fold_left flat_map]. rewrite fold_left_app, <- IH. f_equal. unfold pick.
  destruct (has_dot (o_name o)); [|reflexivity]. destruct (split_last (o_name o)) as [p fn]. destruct (pystr_eqb p n); reflexivity.
Qed.
Lemma put_all os : forall l, NoDup (map o_name (l ++ os)) -> fold_left (fun l g => put_fun l g) os l = l ++ os.
Proof.
  induction os as [|o os IH]; intros l N; [rewrite app_nil_r; reflexivity|]. cbn [fold_left]. rewrite put_fun_new.
  - rewrite IH by (rewrite <- app_assoc; exact N). rewrite <- app_assoc. reflexivity.
  - rewrite map_app in N. cbn [map] in N. apply NoDup_remove_2 in N. intros X. apply N. apply in_or_app. left. exact X.
Qed.
Lemma split_first_app a b : plain a -> split_first (a ++ 46 :: b) = (a, b).
Proof.
  unfold plain. induction a as [|c a IH]; intros H; [reflexivity|]. cbn [app split_first]. destruct (Z.eqb_spec c 46) as [E|_]; [exfalso; apply H; left; exact E|]. rewrite IH; [reflexivity|]. intros X. apply H. right. exact X.
Qed.
Lemma split_last_app p m : plain m -> split_last (p ++ 46 :: m) = (p, m).
Proof.
  intros H. unfold split_last. rewrite rev_app_distr. cbn [rev]. rewrite <- app_assoc. cbn [app]. rewrite split_first_app by (intros X; apply H; apply in_rev; exact X). rewrite !rev_involutive. reflexivity.
Qed.
Lemma join_snoc l m : l <> [] -> join (u ".") (l ++ [m]) = join (u ".") l ++ 46 :: m.
Proof.
  induction l as [|x l IH]; intros H; [congruence|]. destruct l as [|y l]; [reflexivity|]. change ((x :: y :: l) ++ [m]) with (x :: ((y :: l) ++ [m])).
  change (join (u ".") (x :: (y :: l) ++ [m])) with (x ++ u "." ++ join (u ".") ((y :: l) ++ [m])). rewrite IH by discriminate. change (join (u ".") (x :: y :: l)) with (x ++ u "." ++ join (u ".") (y :: l)). rewrite <- !app_assoc. reflexivity.
Qed.
Definition renamed (f : fundef) (o : outfun) : outfun := OFun (last (f_name f) []) (o_local o) (o_params o) (o_body o).
Lemma pick_belongs n f o : plain n -> f_name f <> [] -> Forall plain (f_name f) -> o_name o = join (u ".") (f_name f) -> pick n o = if belongs n f then [renamed f o] else [].
Proof.
  intros P NE F E. unfold pick, belongs, renamed. rewrite E. destruct (f_name f) as [|x l] eqn:Ef; [congruence|]. destruct l as [|y l].
  - cbn [join]. inversion F; subst. rewrite (proj1 (has_dot_plain x)) by assumption. reflexivity.
  - rewrite join_dot. destruct (@exists_last _ (x :: y :: l) ltac:(discriminate)) as (i & m & Ei). rewrite Ei in *. assert (i <> []) by (intros ->; destruct l; discriminate Ei).
    rewrite join_snoc by assumption. apply Forall_app in F as [Fi Fm]. inversion Fm; subst. rewrite split_last_app by assumption. rewrite last_last.
    destruct i as [|p [|q i]]; [congruence| |].
    + cbn [app] in Ei. injection Ei as -> -> ->. reflexivity.
    + cbn [app] in Ei. destruct l as [|z l]; [destruct i; discriminate|]. destruct (pystr_eqb_spec (join (u ".") (p :: q :: i)) n) as [<-|_]; [|reflexivity].
      exfalso. apply has_dot_plain in P. rewrite join_dot in P. discriminate.
Qed.
Lemma picks n (fs : list fundef) (g : fundef -> outfun) : plain n -> Forall (fun f => f_name f <> [] /\ Forall plain (f_name f)) fs ->
  (forall f, o_name (g f) = join (u ".") (f_name f)) -> flat_map (pick n) (map g fs) = map (fun f => renamed f (g f)) (filter (belongs n) fs).
Proof.
  intros P F E. induction F as [|f fs [NE Fp] F IH]; [reflexivity|]. cbn [map flat_map filter]. rewrite (pick_belongs n f (g f) P NE Fp (E f)), IH. destruct (belongs n f); reflexivity.
Qed.
Lemma belongs_nodup n fs : NoDup (map (fun f => join (u ".") (f_name f)) fs) -> NoDup (map (fun f => last (f_name f) []) (filter (belongs n) fs)).
Proof.
  induction fs as [|f fs IH]; intros N; [constructor|]. inversion N as [|? ? N1 N2]; subst. cbn [filter]. destruct (belongs n f) eqn:B; [|apply IH; exact N2]. cbn [map]. constructor; [|apply IH; exact N2].
  intros X. apply N1. apply in_map_iff in X as (g & E & Ig). apply filter_In in Ig as [Ig Bg]. apply in_map_iff. exists g. split; [|exact Ig].
  unfold belongs in B, Bg. destruct (f_name f) as [|p [|m [|? ?]]]; try discriminate. destruct (f_name g) as [|p' [|m' [|? ?]]]; try discriminate.
  destruct (pystr_eqb_spec p n) as [->|]; [|discriminate]. destruct (pystr_eqb_spec p' n) as [->|]; [|discriminate]. cbn [last] in E. rewrite E. reflexivity.
Qed.
(** the methods of the object of the ADD OBJECT line that comes after n others *)
Lemma object_funs a n ty args b : let ms := a ++ MAdd n ty args :: b in names_ok ms -> NoDup (method_names ms) -> plain n ->
  exists o, nth_error (objects (oc_assign (visit_class ms))) (adds a) = Some o /\ ob_name o = n /\ ob_type o = ty /\
    ob_funs o = map (fun f => renamed f (fst (visit_fun (times (adds a) revisit f)))) (filter (belongs n) (class_funs ms)) /\
    ob_args o = put_arg (put_arg (add_assigns n (class_assigns ms) args) (u "parent") (u "self")) (u "name") n.
Proof.
  intros ms N ND P. rewrite class_objects. unfold ms at 2. rewrite members_app. cbn [fst]. rewrite objects_app.
  rewrite nth_error_app2 by (rewrite <- (map_length (fun o => (ob_name o, ob_type o))), members_added, added_length; lia).
  replace (adds a - length _)%nat with 0%nat by (rewrite <- (map_length (fun o => (ob_name o, ob_type o))), members_added, added_length; lia).
  rewrite members_funs. cbn [visit_members]. rewrite visit_funs_map. destruct (visit_members (class_assigns ms) b _) as [l fs']. unfold objects. cbn [fst flat_map app nth_error].
  eexists. split; [reflexivity|]. cbn [ob_name ob_type ob_funs ob_args]. repeat split. rewrite map_map, own_funs_pick.
  rewrite (picks n (class_funs ms) (fun f => fst (visit_fun (times (adds a) revisit f))) P N) by (intros f; rewrite o_name_visit, times_name; reflexivity).
  rewrite put_all; [reflexivity|]. cbn [app]. rewrite map_map. cbn [o_name renamed]. apply belongs_nodup. exact ND.
Qed.
Definition declares_as (f : fundef) (g : outfun) : Prop := declares f (o_local g) (o_params g) (o_body g).
Lemma declares_exists f : exists k ns body, declares f k ns body.
Proof.
  destruct (f_params f) eqn:E; [|exists true, (f_params f), (f_lines f); apply DParen; congruence]. destruct (take_param (f_lines f)) as [[[k ns] r]|] eqn:T.
  - assert (X : exists cs r', f_lines f = cs ++ BParam k ns :: r' /\ Forall comment cs).
    { revert r T. induction (f_lines f) as [|c l IH]; intros r T; [discriminate|]. destruct c; cbn [take_param] in T; [|injection T as <- <- <-; exists [], l; split; [reflexivity|constructor]|discriminate].
      destruct (take_param l) as [[[k' ns'] r']|]; [|discriminate]. injection T as <- <- <-. destruct (IH _ eq_refl) as (cs & r & -> & C). exists (BComment text :: cs), r. split; [reflexivity|constructor; [exact I|exact C]]. }
    destruct X as (cs & r' & L & C). exists k, ns, (cs ++ r'). eapply DLine; eassumption.
  - exists true, [], (f_lines f). apply DNone; [exact E|]. intros cs x r L C. destruct x; try exact I. rewrite L, take_param_line in T by exact C. discriminate.
Qed.
Lemma visit_declares_as f : declares_as f (fst (visit_fun f)).
Proof. destruct (declares_exists f) as (k & ns & body & D). unfold declares_as. rewrite (visit_declares _ _ _ _ D). exact D. Qed.
Lemma revisit_same n f : n = 0%nat \/ (f_params f <> [] \/ no_param_line (f_lines f)) -> times n revisit f = f.
Proof.
  intros [-> | H]; [reflexivity|]. apply times_fix. unfold revisit, visit_fun. destruct (f_params f); [|reflexivity]. destruct H as [H|H]; [congruence|]. rewrite take_param_none by exact H. reflexivity.
Qed.

(** There is one object per ADD OBJECT line, in that order.  It has the methods written for it and no others, with the parameters they
    declare; unless it is the first one, this holds of methods that declare their parameters in parentheses or have none. *)
Theorem C75_objects_partial ms : map (fun o => (ob_name o, ob_type o)) (objects (oc_assign (visit_class ms))) = added ms.
Proof. rewrite class_objects. apply members_added. Qed.
Theorem C75_methods_partial a n ty args b : let ms := a ++ MAdd n ty args :: b in names_ok ms -> NoDup (method_names ms) -> plain n ->
  (adds a = 0%nat \/ Forall (fun f => f_params f <> [] \/ no_param_line (f_lines f)) (class_funs ms)) ->
  exists o, nth_error (objects (oc_assign (visit_class ms))) (adds a) = Some o /\ ob_name o = n /\ ob_type o = ty /\
    Forall2 (fun f g => f_name f = [n; o_name g] /\ declares_as f g) (filter (belongs n) (class_funs ms)) (ob_funs o).
Proof.
  intros ms N ND P H. destruct (object_funs a n ty args b N ND P) as (o & E & En & Et & Ef & _). exists o. split; [exact E|]. split; [exact En|]. split; [exact Et|]. fold ms in Ef. rewrite Ef. clear Ef.
  assert (G : Forall (fun f => times (adds a) revisit f = f) (class_funs ms)).
  { destruct H as [-> | H]; [apply Forall_forall; reflexivity|]. eapply Forall_impl; [|exact H]. intros f Hf. apply revisit_same. right. exact Hf. }
  clear H. induction G as [|f fs G1 G IH]; [constructor|]. cbn [filter]. destruct (belongs n f) eqn:B; [|exact IH]. cbn [map]. constructor; [|exact IH]. rewrite G1. split.
  - cbn [o_name renamed]. unfold belongs in B. destruct (f_name f) as [|p [|m [|? ?]]]; try discriminate. destruct (pystr_eqb_spec p n) as [->|]; [reflexivity|discriminate].
  - exact (visit_declares_as f).
Qed.
Print Assumptions C75_objects_partial.
Print Assumptions C75_methods_partial.

(** A method of an object that is not the first one has no parameters if it declares them on a line of its own *)
Theorem C75_lost_refuted a n ty args b f m cs k ns r : let ms := a ++ MAdd n ty args :: b in names_ok ms -> NoDup (method_names ms) -> plain n ->
  (adds a > 0)%nat -> In (MFunc f) ms -> f_name f = [n; m] -> f_params f = [] -> f_lines f = cs ++ BParam k ns :: r -> Forall comment cs -> no_param_line (cs ++ r) ->
  exists o, nth_error (objects (oc_assign (visit_class ms))) (adds a) = Some o /\ ob_name o = n /\ In (OFun m true [] (cs ++ r)) (ob_funs o).
Proof.
  intros ms N ND P A I E Pa L C NP. destruct (object_funs a n ty args b N ND P) as (o & E1 & En & Et & Ef & _). exists o. split; [exact E1|]. split; [exact En|]. rewrite Ef.
  assert (If : In f (class_funs ms)) by (unfold class_funs; apply in_flat_map; exists (MFunc f); split; [exact I|left; reflexivity]).
  apply in_map_iff. exists f. split; [|apply filter_In; split; [exact If|]].
  - assert (T : times (adds a) revisit f = Fun [n; m] [] (cs ++ r) (f_after f)).
    { destruct (adds a) as [|q]; [lia|]. cbn [times]. unfold revisit at 2, visit_fun. rewrite Pa, L, take_param_line by exact C. cbn [snd]. rewrite E. apply times_fix. unfold revisit, visit_fun. cbn [f_params f_lines]. rewrite take_param_none by exact NP. reflexivity. }
    rewrite T. unfold visit_fun. cbn [f_params f_lines f_name fst]. rewrite take_param_none by exact NP. unfold renamed. cbn [fst o_local o_params o_body]. rewrite E. reflexivity.
  - unfold belongs. rewrite E. destruct (pystr_eqb_spec n n); [reflexivity|congruence].
Qed.
Print Assumptions C75_lost_refuted.

Lemma own_funs_drop n os1 o os2 : pick n o = [] -> own_funs n (os1 ++ o :: os2) = own_funs n (os1 ++ os2).
Proof. intros H. rewrite !own_funs_pick, !flat_map_app. cbn [flat_map]. rewrite H. reflexivity. Qed.
Lemma members_drop assigns f : f_name f <> [] -> Forall plain (f_name f) -> forall ms, Forall (fun '(n, _) => plain n /\ belongs n f = false) (added ms) ->
  forall fs1 g fs2, f_name g = f_name f -> fst (visit_members assigns ms (fs1 ++ g :: fs2)) = fst (visit_members assigns ms (fs1 ++ fs2)).
Proof.
  intros NE F. induction ms as [|m ms IH]; intros A fs1 g fs2 E; [reflexivity|]. destruct m as [t|t v|n ty ar|h|t]; cbn [visit_members]; unfold added in A; cbn [flat_map app] in A; fold (added ms) in A.
  - specialize (IH A fs1 g fs2 E). destruct (visit_members assigns ms (fs1 ++ g :: fs2)), (visit_members assigns ms (fs1 ++ fs2)). cbn [fst] in *. rewrite IH. reflexivity.
  - destruct (class_assign t v). specialize (IH A fs1 g fs2 E). destruct (visit_members assigns ms (fs1 ++ g :: fs2)), (visit_members assigns ms (fs1 ++ fs2)). cbn [fst] in *. rewrite IH. reflexivity.
  - inversion A as [|? ? PB A']; subst. cbn beta iota in PB. destruct PB as [P B]. rewrite !visit_funs_map, !map_app. cbn [map].
    specialize (IH A' (map (fun f => snd (visit_fun f)) fs1) (snd (visit_fun g)) (map (fun f => snd (visit_fun f)) fs2)).
    rewrite own_funs_drop.
    + destruct (visit_members assigns ms (_ ++ _ :: _)), (visit_members assigns ms _). cbn [fst] in *. rewrite IH; [reflexivity|]. rewrite (proj1 (visit_keeps g)). exact E.
    + rewrite (pick_belongs n f _ P NE F) by (rewrite o_name_visit, E; reflexivity). rewrite B. reflexivity.
  - apply IH; assumption.
  - apply IH; assumption.
Qed.
(** A method written for an object of an object, or for an object the class inherits, is left out *)
Theorem C75_dropped_refuted a f b : let ms := a ++ MFunc f :: b in f_name f <> [] -> Forall plain (f_name f) -> Forall (fun '(n, _) => plain n) (added ms) ->
  own f = false -> (forall n ty, In (n, ty) (added ms) -> belongs n f = false) -> f_after f = [] -> visit_class ms = visit_class (a ++ b).
Proof.
  intros ms NE F P O B Z.
  assert (EA : class_assigns ms = class_assigns (a ++ b)) by (unfold ms, class_assigns; rewrite !flat_map_app; reflexivity).
  assert (EF : class_funs ms = class_funs a ++ f :: class_funs b /\ class_funs (a ++ b) = class_funs a ++ class_funs b) by (unfold ms, class_funs; rewrite !flat_map_app; split; reflexivity).
  assert (AD : adds ms = adds (a ++ b)) by (unfold ms, adds; rewrite !filter_app; cbn [filter]; reflexivity).
  assert (EM : forall fs, visit_members (class_assigns ms) ms fs = visit_members (class_assigns (a ++ b)) (a ++ b) fs).
  { intros fs. rewrite EA. unfold ms. rewrite !members_app. reflexivity. }
  destruct EF as [E1 E2]. unfold visit_class. rewrite EM, E1, E2.
  pose proof (members_drop (class_assigns (a ++ b)) f NE F (a ++ b)) as D. assert (AA : added (a ++ b) = added ms) by (unfold ms, added; rewrite !flat_map_app; reflexivity).
  specialize (D ltac:(rewrite AA, Forall_forall in *; intros [n ty] I; split; [exact (P (n, ty) I)|exact (B n ty I)]) (class_funs a) f (class_funs b) eq_refl).
  pose proof (members_funs (class_assigns (a ++ b)) (a ++ b) (class_funs a ++ f :: class_funs b)) as S1. pose proof (members_funs (class_assigns (a ++ b)) (a ++ b) (class_funs a ++ class_funs b)) as S2.
  destruct (visit_members _ _ (_ ++ f :: _)) as [i1 fs1]. destruct (visit_members _ _ (class_funs a ++ class_funs b)) as [i2 fs2]. cbn [fst snd] in *. subst i1 fs1 fs2.
  rewrite !visit_funs_map, !map_app. cbn [map]. f_equal.
  - f_equal. f_equal. rewrite !flat_map_app. cbn [flat_map]. replace (f_after (times _ revisit f)) with (@nil pystr); [reflexivity|]. symmetry. revert Z. clear. intros Z. assert (G : forall n f, f_after (times n revisit f) = f_after f) by (induction n as [|n IH]; intros g; [reflexivity|cbn [times]; rewrite IH; apply visit_keeps]). rewrite G. exact Z.
  - rewrite !fold_left_app. cbn [fold_left]. rewrite o_name_visit, times_name. rewrite own_dot in O by exact NE. destruct (has_dot (join (u ".") (f_name f))); [reflexivity|discriminate].
Qed.
Print Assumptions C75_dropped_refuted.
Example C75_example : let f := Fun [u "txt"; u "click"] [] [BParam true [u "a"]; BOther (u "x = 1")] [] in let g := Fun [u "cmd"; u "click"] [] [BParam true [u "a"]; BOther (u "x = 2")] [] in
  let h := Fun [u "page"; u "cmd"; u "click"] [] [] [] in
  oc_assign (visit_class [MAdd (u "txt") (u "Textbox") [(u "top", u "10")]; MAdd (u "cmd") (u "Commandbutton") []; MFunc f; MFunc g; MFunc h]) =
    [IObj (OObj (u "txt") (u "Textbox") [(u "top", u "10"); (u "parent", u "self"); (u "name", u "txt")] [OFun (u "click") true [u "a"] [BOther (u "x = 1")]]);
     IObj (OObj (u "cmd") (u "Commandbutton") [(u "parent", u "self"); (u "name", u "cmd")] [OFun (u "click") true [] [BOther (u "x = 2")]])] /\
  own h = false /\ belongs (u "txt") h = false /\ belongs (u "cmd") h = false.
Proof. repeat split. Qed.

(** * C76 *)
Definition word (s : pystr) : Prop := s <> [] /\ Forall (fun c => 97 <= c <= 122 \/ 48 <= c <= 57 \/ c = 95) s /\ Exists (fun c => 97 <= c <= 122) s /\ s <> u "this" /\ s <> u "thisform".
Definition augments (x : pystr) (text : pystr) : Prop := exists op r, In op [43; 45; 42; 47] /\ text = x ++ 32 :: op :: 32 :: r.
(** x = value, the value being neither x with something added to it nor one with names after periods *)
Definition simple (x : pystr) (v : value) : Prop :=
  word x /\ v_resets v = false /\ (v_code v = true -> ~ augments x (v_first v) /\ ~ augments (u "S." ++ x) (v_text v)).

Lemma word_lower x : word x -> islower x = true.
Proof.
  intros (_ & F & E & _). unfold islower. apply andb_true_intro. split.
  - apply existsb_exists. apply Exists_exists in E as (c & I & B). exists c. split; [exact I|]. unfold lower. apply andb_true_intro. split; apply Z.leb_le; lia.
  - apply negb_true_iff. destruct (existsb upper x) eqn:X; [|reflexivity]. exfalso. apply existsb_exists in X as (c & I & U). unfold upper in U. apply andb_prop in U as [A B]. apply Z.leb_le in A, B. rewrite Forall_forall in F. specialize (F c I). lia.
Qed.
Lemma word_valid x : word x -> valid_identifier x = true.
Proof.
  intros (NE & F & _). destruct x as [|c x]; [congruence|]. unfold valid_identifier. apply forallb_forall. intros d I. rewrite Forall_forall in F. specialize (F d I). unfold name_char, lower, upper.
  destruct (Z.leb_spec 97 d), (Z.leb_spec d 122), (Z.leb_spec 65 d), (Z.leb_spec d 90), (Z.leb_spec 48 d), (Z.leb_spec d 57), (Z.eqb_spec d 95); try reflexivity; lia.
Qed.
Lemma word_scope x t : word x -> id_attr x t = u "S." ++ x ++ concat (map (fun t => u "." ++ t) t).
Proof.
  intros W. unfold id_attr. rewrite word_lower by exact W. unfold scope_id. rewrite word_valid by exact W. destruct W as (_ & _ & _ & N1 & N2).
  destruct (pystr_eqb_spec x (u "this")); [congruence|]. destruct (pystr_eqb_spec x (u "thisform")); [congruence|]. rewrite <- app_assoc. reflexivity.
Qed.
Lemma word_chars x : word x -> Forall (fun c => c <> 32) x /\ plain x.
Proof.
  intros (_ & F & _). split; [eapply Forall_impl; [|exact F]; intros c; cbn beta; lia|]. intros I. rewrite Forall_forall in F. specialize (F 46 I). lia.
Qed.
Lemma visit_assign_plain x text code : (code = true -> ~ augments x text) -> visit_assign x text code = x ++ u " = " ++ text.
Proof.
  intros H. unfold visit_assign. destruct code; [|reflexivity]. specialize (H eq_refl). destruct (find _ _) as [op|] eqn:E; [|reflexivity]. exfalso. apply H.
  apply find_some in E as [I P]. apply prefixb_spec in P as [r ->]. destruct I as [<-|[<-|[<-|[<-|[]]]]]; eexists _, r; rewrite <- !app_assoc; (split; [|reflexivity]); cbn; tauto.
Qed.
Lemma find_eq t : Forall (fun c => c <> 32) t -> forall r, find_nat (t ++ u " = " ++ r) (u " = ") = Some (length t).
Proof.
  induction 1 as [|c t H F IH]; intros r; [reflexivity|]. cbn [app find_nat length]. change (prefixb (u " = ") (c :: ?l)) with ((32 =? c) && prefixb (u "= ") l).
  destruct (Z.eqb_spec 32 c); [congruence|]. cbn [andb]. rewrite IH. reflexivity.
Qed.
Lemma class_assign_simple x v : simple x v -> class_assign [x] v = (x, u " = " ++ v_text v).
Proof.
  intros (W & R & A). unfold class_assign. rewrite R. cbn [length Nat.ltb Nat.leb orb target_text map concat]. rewrite app_nil_r. rewrite word_scope by exact W. cbn [map concat]. rewrite app_nil_r.
  rewrite !visit_assign_plain by (intros C; apply A; exact C). destruct (word_chars x W) as [S P]. unfold str_find. rewrite find_eq by exact S.
  rewrite find_eq by (repeat constructor; [discriminate|discriminate|exact S]). cbn [z_of_find]. rewrite py_slice_to, py_slice_from by lia. rewrite !Nat2Z.id. rewrite firstn_app, Nat.sub_diag, firstn_all, skipn_app, Nat.sub_diag, skipn_all. cbn [firstn skipn app]. rewrite app_nil_r. reflexivity.
Qed.
Inductive emits : member -> list aitem -> Prop :=
| EComment t : emits (MComment t) [IComment t]
| EValue x v : simple x v -> emits (MAssign [x] v) [ICode (u "self." ++ x ++ u " = " ++ v_text v)]
| EObject n ty args o : ob_name o = n -> ob_type o = ty -> emits (MAdd n ty args) [IObj o]
| EFunc f : emits (MFunc f) []
| EOther t : emits (MOther t) [].
Definition simple_member (m : member) : Prop := match m with MAssign [x] v => simple x v | MAssign _ _ => False | _ => True end.
Lemma members_emit assigns ms : Forall simple_member ms -> forall fs, exists ls, Forall2 emits ms ls /\ fst (visit_members assigns ms fs) = concat ls.
Proof.
  induction 1 as [|m ms S F IH]; intros fs; [exists []; split; [constructor|reflexivity]|]. destruct m as [t|t v|n ty ar|h|t]; cbn [visit_members].
  - destruct (IH fs) as (ls & E1 & E2). exists ([IComment t] :: ls). split; [constructor; [constructor|exact E1]|]. destruct (visit_members assigns ms fs). cbn [fst concat app] in *. rewrite E2. reflexivity.
  - cbn [simple_member] in S. destruct t as [|x [|? ?]]; try contradiction. rewrite class_assign_simple by exact S. destruct (IH fs) as (ls & E1 & E2). exists ([ICode (u "self." ++ x ++ u " = " ++ v_text v)] :: ls). split; [constructor; [constructor; exact S|exact E1]|].
    destruct (visit_members assigns ms fs). cbn [fst concat] in *. rewrite E2. destruct S as (W & _). rewrite (proj1 (has_dot_plain x)) by (apply word_chars; exact W). reflexivity.
  - destruct (visit_funs fs) as [os fs1]. destruct (IH fs1) as (ls & E1 & E2). destruct (visit_members assigns ms fs1). cbn [fst] in *. match goal with |- context [IObj ?o :: _] => exists ([IObj o] :: ls) end.
    split; [constructor; [apply EObject; reflexivity|exact E1]|]. cbn [concat app]. rewrite E2. reflexivity.
  - destruct (IH fs) as (ls & E1 & E2). exists ([] :: ls). split; [constructor; [constructor|exact E1]|exact E2].
  - destruct (IH fs) as (ls & E1 & E2). exists ([] :: ls). split; [constructor; [constructor|exact E1]|exact E2].
Qed.
(** _assign sets the properties of the class in the order of the source, to their values, and creates the objects in between *)
Theorem C76_values_partial ms : Forall simple_member ms -> exists ls, Forall2 emits ms ls /\
  oc_assign (visit_class ms) = concat ls ++ map IComment (flat_map f_after (class_funs ms)).
Proof.
  intros S. destruct (members_emit (class_assigns ms) ms S (class_funs ms)) as (ls & E1 & E2). exists ls. split; [exact E1|]. unfold visit_class. pose proof (members_funs (class_assigns ms) ms (class_funs ms)) as F.
  destruct (visit_members _ _ _) as [items fs]. cbn [fst snd] in *. destruct (visit_funs fs). cbn [oc_assign]. rewrite E2, F. f_equal. f_equal. clear. induction (class_funs ms) as [|f fs IH]; [reflexivity|]. cbn [map flat_map]. rewrite IH. f_equal.
  assert (G : forall n f, f_after (times n revisit f) = f_after f) by (induction n as [|n IHn]; intros g; [reflexivity|cbn [times]; rewrite IHn; apply visit_keeps]). apply G.
Qed.
Print Assumptions C76_values_partial.

Lemma cut_dot r : r <> [] -> exists t, py_slice (83 :: 46 :: r) None (Some (str_find (83 :: 46 :: r) (u " = "))) = 83 :: 46 :: t.
Proof.
  intros NE. unfold str_find. cbn [find_nat]. change (prefixb (u " = ") (83 :: ?l)) with false. change (prefixb (u " = ") (46 :: ?l)) with false. cbv iota.
  destruct (find_nat r (u " = ")) as [k|]; cbn [option_map z_of_find].
  - rewrite py_slice_to by lia. rewrite Nat2Z.id. exists (firstn k r). reflexivity.
  - unfold py_slice, slice_bound. change (-1 <? 0) with true. cbv iota. rewrite Z.sub_0_r. change (Z.to_nat 0) with 0%nat. cbn [skipn].
    destruct r as [|c r]; [congruence|]. exists (firstn (length r) (c :: r)). unfold zlen. cbn [length]. replace (Z.to_nat _) with (S (S (length r))) by lia. reflexivity.
Qed.
Lemma class_assign_lost x t v : word x -> t <> [] \/ v_resets v = true -> exists s w, class_assign (x :: t) v = (83 :: 46 :: s, w).
Proof.
  intros W H. unfold class_assign. replace (v_resets v || (1 <? length (x :: t))%nat) with true by (destruct t; [destruct H as [H | ->]; [congruence|reflexivity]|cbn [length Nat.ltb Nat.leb]; rewrite orb_true_r; reflexivity]).
  cbn [target_text]. rewrite word_scope by exact W. set (y := x ++ concat _). assert (NE : y <> []) by (unfold y; destruct W as (NE & _); destruct x; [congruence|discriminate]).
  change (u "S." ++ y) with (83 :: 46 :: y).
  assert (V : exists r, visit_assign (83 :: 46 :: y) (v_first v) (v_code v) = 83 :: 46 :: r /\ r <> []).
  { unfold visit_assign. destruct (if v_code v then _ else None) as [op|]; cbn [app]; eexists; (split; [reflexivity|]); destruct y; congruence || discriminate. }
  destruct V as (r & -> & NR). destruct (cut_dot r NR) as (s & ->). eauto.
Qed.
(** A value given to a property of an object of the class (obj.prop = value), and one that has a name after a period in it, has no effect *)
Theorem C76_lost_refuted a x t v b : word x -> t <> [] \/ v_resets v = true -> Forall (fun '(n, _) => islower n = true) (added (a ++ b)) ->
  visit_class (a ++ MAssign (x :: t) v :: b) = visit_class (a ++ b).
Proof.
  intros W H L.
  destruct (class_assign_lost x t v W H) as (s & w & D).
  assert (AD : forall n, islower n = true -> forall as1 as2 args, add_assigns n (as1 ++ (83 :: 46 :: s, w) :: as2) args = add_assigns n (as1 ++ as2) args).
  { intros n Ln as1 as2 args. unfold add_assigns. rewrite !fold_left_app. cbn [fold_left]. f_equal. change (has_dot (83 :: 46 :: s)) with true. cbv iota. change (split_first (83 :: 46 :: s)) with ([83], s). cbv iota.
    destruct (pystr_eqb_spec [83] n) as [<-|_]; [discriminate|reflexivity]. }
  assert (MD : forall as1 as2 ms, Forall (fun '(n, _) => islower n = true) (added ms) -> forall fs, visit_members (as1 ++ (83 :: 46 :: s, w) :: as2) ms fs = visit_members (as1 ++ as2) ms fs).
  { intros as1 as2. induction ms as [|m ms IH]; intros A fs; [reflexivity|]. destruct m as [c|c y|n ty ar|h|c]; cbn [visit_members]; unfold added in A; cbn [flat_map app] in A; fold (added ms) in A; try (rewrite IH by exact A; reflexivity).
    inversion A as [|? ? Ln A']; subst. cbn beta iota in Ln. rewrite AD by exact Ln. destruct (visit_funs fs). rewrite IH by exact A'. reflexivity. }
  assert (EA : class_assigns (a ++ MAssign (x :: t) v :: b) = class_assigns a ++ (83 :: 46 :: s, w) :: class_assigns b /\ class_assigns (a ++ b) = class_assigns a ++ class_assigns b).
  { unfold class_assigns. rewrite !flat_map_app. cbn [flat_map app]. rewrite D. split; reflexivity. }
  assert (EF : class_funs (a ++ MAssign (x :: t) v :: b) = class_funs (a ++ b)) by (unfold class_funs; rewrite !flat_map_app; reflexivity).
  assert (EM : forall fs, visit_members (class_assigns (a ++ MAssign (x :: t) v :: b)) (a ++ MAssign (x :: t) v :: b) fs = visit_members (class_assigns (a ++ b)) (a ++ b) fs).
  { intros fs. destruct EA as [-> ->]. assert (X : forall q fs, visit_members q (a ++ MAssign (x :: t) v :: b) fs = visit_members q (a ++ b) fs).
    { intros q gs. rewrite !members_app. cbn [visit_members]. rewrite D. change (has_dot (83 :: 46 :: s)) with true. cbv iota. destruct (visit_members q b _). reflexivity. }
    rewrite X. apply MD. exact L. }
  unfold visit_class. rewrite EM, EF. reflexivity.
Qed.
Print Assumptions C76_lost_refuted.
(** What stands after WITH in ADD OBJECT reaches the object, which knows its parent and its name *)
Fixpoint lookup (l : list (pystr * pystr)) (k : pystr) : option pystr := match l with [] => None | (x, w) :: l => if pystr_eqb x k then Some w else lookup l k end.
Lemma lookup_put l k v j : lookup (put_arg l k v) j = if pystr_eqb k j then Some v else lookup l j.
Proof.
  induction l as [|[x w] l IH]; [reflexivity|]. cbn [put_arg]. destruct (pystr_eqb_spec x k) as [->|N]; cbn [lookup].
  - destruct (pystr_eqb_spec k j); reflexivity.
  - rewrite IH. destruct (pystr_eqb_spec x j) as [->|]; [|reflexivity]. destruct (pystr_eqb_spec k j); [congruence|reflexivity].
Qed.
Definition assign_word (m : member) : Prop := match m with MAssign [] v => False | MAssign (x :: t) v => word x /\ (simple x v \/ t <> [] \/ v_resets v = true) | _ => True end.
Lemma assigns_none n ms args : islower n = true -> Forall assign_word ms -> add_assigns n (class_assigns ms) args = args.
Proof.
  intros L F. induction F as [|m ms A F IH]; [reflexivity|]. destruct m as [c|c y|p ty ar|h|c]; try exact IH. cbn [assign_word] in A. destruct c as [|x t]; [contradiction|]. destruct A as [W A].
  unfold class_assigns. cbn [flat_map app]. fold (class_assigns ms). unfold add_assigns in *. cbn [fold_left].
  assert (G : (t <> [] \/ v_resets y = true) \/ (t = [] /\ simple x y)) by (destruct t; [destruct A as [A|A]; [right; split; [reflexivity|exact A]|left; exact A]|left; left; discriminate]).
  destruct G as [G|[-> G]].
  - destruct (class_assign_lost x t y W G) as (s & w & ->). change (has_dot (83 :: 46 :: s)) with true. cbv iota. change (split_first (83 :: 46 :: s)) with ([83], s). cbv iota. destruct (pystr_eqb_spec [83] n) as [<-|_]; [discriminate|exact IH].
  - rewrite class_assign_simple by exact G. rewrite (proj1 (has_dot_plain x)) by (apply word_chars; exact W). exact IH.
Qed.
Theorem C75_with_partial a n ty args b : let ms := a ++ MAdd n ty args :: b in names_ok ms -> NoDup (method_names ms) -> plain n -> islower n = true -> Forall assign_word ms ->
  exists o, nth_error (objects (oc_assign (visit_class ms))) (adds a) = Some o /\ ob_name o = n /\
    lookup (ob_args o) (u "name") = Some n /\ lookup (ob_args o) (u "parent") = Some (u "self") /\
    forall k, k <> u "name" -> k <> u "parent" -> lookup (ob_args o) k = lookup args k.
Proof.
  intros ms N ND P L A. destruct (object_funs a n ty args b N ND P) as (o & E & En & Et & _ & Ea). exists o. split; [exact E|]. split; [exact En|]. fold ms in Ea. rewrite Ea, (assigns_none n ms args L A). repeat split.
  - rewrite lookup_put. reflexivity.
  - rewrite !lookup_put. reflexivity.
  - intros k N1 N2. rewrite !lookup_put. destruct (pystr_eqb_spec (u "name") k); [congruence|]. destruct (pystr_eqb_spec (u "parent") k); [congruence|]. reflexivity.
Qed.
Print Assumptions C75_with_partial.
Example C76_example : let num := fun s => Val (u s) (u s) false false in
  oc_assign (visit_class [MAssign [u "height"] (num "20"%string); MAdd (u "txt") (u "Textbox") []; MAssign [u "txt"; u "value"] (num "'a'"%string);
    MAssign [u "left"] (Val (u "vfpvar.x") (u "S.vfpvar.x") true true); MAssign [u "width"] (Val (u "height * 2") (u "S.height * 2") true false)]) =
  [ICode (u "self.height = 20"); IObj (OObj (u "txt") (u "Textbox") [(u "parent", u "self"); (u "name", u "txt")] []); ICode (u "self.width = S.height * 2")] /\
  simple (u "width") (Val (u "height * 2") (u "S.height * 2") true false) /\ word (u "left").
Proof.
  split; [reflexivity|]. unfold simple, word. cbn [v_resets v_code v_first v_text]. split; [split; [|split; [reflexivity|]]|].
  - split; [discriminate|]. split; [repeat (apply Forall_cons; [vm_compute; intuition congruence|]); apply Forall_nil|]. split; [apply Exists_cons_hd; vm_compute; intuition congruence|split; discriminate].
  - intros _. split; intros (op & r & I & E); discriminate E.
  - split; [discriminate|]. split; [repeat (apply Forall_cons; [vm_compute; intuition congruence|]); apply Forall_nil|]. split; [apply Exists_cons_hd; vm_compute; intuition congruence|split; discriminate].
Qed.
