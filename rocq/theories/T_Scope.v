(** Property C93: how a statement is converted does not depend on the statements before it. *)
From Verif Require Import PyBase PyStr M_Lit M_Stmt M_Scope.
Open Scope Z_scope.

Scheme ex_i := Induction for ex Sort Prop with trailer_i := Induction for trailer Sort Prop with exs_i := Induction for exs Sort Prop.
Combined Scheme ex_mut from ex_i, trailer_i, exs_i.
Lemma scope_stays : (forall e, snd (visit e true) = true) /\ (forall t, snd (visit_trailer t true) = true) /\ (forall l, snd (visit_list l true) = true).
Proof.
  apply ex_mut; cbn [visit visit_trailer visit_list]; try reflexivity.
  - intros n t IH. destruct (visit_trailer t true) as [[p|x] b]; exact IH.
  - intros n t IH. destruct (visit_trailer t true) as [[p|x] b]; [reflexivity|exact IH].
  - intros l IHl t IHt. destruct (visit_trailer t true) as [[p|x] b]; cbn [snd] in IHt; subst; [|reflexivity]. destruct (visit_list l true) as [[a|x] b]; exact IHl.
  - intros e IHe l IHl. destruct (visit e true) as [[c|x] b]; cbn [snd] in IHe; subst; [|reflexivity]. destruct (visit_list l true) as [[a|x] b]; exact IHl.
Qed.
(** No error among the names of a statement *)
Definition names_ok (s : sstmt) : Prop := let '(Stmt names _) := s in forall l, names = Some l -> exists ns b, visit_list l false = (Ok ns, b).
Lemma stmt_scope s : names_ok s -> snd (visit_stmt s true) = true.
Proof.
  destruct s as [[l|] es]; cbn [names_ok visit_stmt]; intros H.
  - destruct (H l eq_refl) as (ns & b & E). unfold disabled. rewrite E. pose proof (proj2 (proj2 scope_stays) es) as P. destruct (visit_list es true) as [[c|x] s]; exact P.
  - pose proof (proj2 (proj2 scope_stays) es) as P. destruct (visit_list es true) as [[c|x] s]; exact P.
Qed.
(** Each statement is converted as if it were the only one, errors in expressions notwithstanding *)
Theorem C93_independent_partial l : Forall names_ok l -> visit_stmts l true = map (fun s => fst (visit_stmt s true)) l.
Proof.
  induction 1 as [|s l S F IH]; [reflexivity|]. cbn [visit_stmts map]. pose proof (stmt_scope s S) as P. destruct (visit_stmt s true) as [r b]. cbn [snd] in P. subst b. cbn [fst]. rewrite IH. reflexivity.
Qed.
(** An error among the names of one statement: in the ones that follow no name is taken for a variable, as long as they are plain names *)
Definition plain_names (l : list pystr) : exs := fold_right (fun n r => XCons (EId n TNone) r) XNil l.
Lemma visit_plain l scope : visit_list (plain_names l) scope = (Ok (map (scope_id scope) l), scope).
Proof. induction l as [|n l IH]; [reflexivity|]. cbn [plain_names fold_right visit_list visit visit_trailer create_id]. fold (plain_names l). rewrite IH. cbn [map concat]. rewrite app_nil_r. reflexivity. Qed.
Definition bad_names (before : list pystr) (after : exs) : exs := fold_right (fun n r => XCons (EId n TNone) r) (XCons EBad after) before.
Lemma visit_bad before after : visit_list (bad_names before after) false = (Err ValueError, false).
Proof. induction before as [|n l IH]; [reflexivity|]. cbn [bad_names fold_right visit_list visit visit_trailer create_id]. fold (bad_names l after). rewrite IH. reflexivity. Qed.
Theorem C93_error_refuted before after es ls : visit_stmts (Stmt (Some (bad_names before after)) es :: map (fun l => Stmt None (plain_names l)) ls) true = Err ValueError :: map (fun l => Ok ([], l)) ls /\
  forall l, l <> [] -> fst (visit_stmt (Stmt None (plain_names l)) true) = Ok ([], map (fun n => u "S." ++ n) l) /\ map (fun n => u "S." ++ n) l <> l.
Proof.
  split.
  - cbn [visit_stmts visit_stmt]. unfold disabled. rewrite visit_bad. f_equal. induction ls as [|l ls IH]; [reflexivity|]. cbn [map visit_stmts visit_stmt]. rewrite visit_plain. replace (map (scope_id false) l) with l by (symmetry; apply map_id). rewrite IH. reflexivity.
  - intros l N. cbn [visit_stmt]. rewrite visit_plain. split; [reflexivity|]. destruct l as [|n l]; [contradiction|]. cbn [map]. intros E. injection E as E _. apply (f_equal (@length Z)) in E. cbn in E. lia.
Qed.
(** Names by themselves are not taken for variables, and the expressions of the statement are *)
Theorem C93_names_partial l r : fst (visit_stmt (Stmt (Some (plain_names l)) (plain_names r)) true) = Ok (l, map (fun n => u "S." ++ n) r).
Proof. cbn [visit_stmt]. unfold disabled. rewrite visit_plain. replace (map (scope_id false) l) with l by (symmetry; apply map_id). rewrite visit_plain. reflexivity. Qed.
(** but from the first property of an object on they are *)
Theorem C93_property_refuted l a b r : let names := fold_right (fun n r => XCons (EId n TNone) r) (XCons (EId a (TAttr b TNone)) (plain_names r)) l in
  fst (visit_stmt (Stmt (Some names) XNil) true) = Ok (l ++ (u "S." ++ a ++ u "." ++ b) :: map (fun n => u "S." ++ n) r, []).
Proof.
  cbn [visit_stmt visit_list]. unfold disabled.
  assert (E : visit_list (fold_right (fun n r => XCons (EId n TNone) r) (XCons (EId a (TAttr b TNone)) (plain_names r)) l) false = (Ok (l ++ (u "S." ++ a ++ u "." ++ b) :: map (fun n => u "S." ++ n) r), true)).
  { induction l as [|n l IH].
    - cbn [fold_right visit_list visit visit_trailer]. rewrite visit_plain. cbn [create_id map part_code concat]. rewrite app_nil_r. unfold scope_id. rewrite <- !app_assoc. reflexivity.
    - cbn [fold_right visit_list visit visit_trailer create_id]. rewrite IH. cbn [map concat scope_id app]. rewrite app_nil_r. reflexivity. }
  rewrite E. reflexivity.
Qed.
Print Assumptions C93_independent_partial.
Print Assumptions C93_error_refuted.
Print Assumptions C93_names_partial.
Print Assumptions C93_property_refuted.
(** x = y(z.w), RELEASE a, b; then LOCAL c({^2001-13-01}) and x = y *)
Example C93_example : visit_stmts [Stmt None (XCons (EId (u "x") TNone) (XCons (EId (u "y") (TArgs (XCons (EId (u "z") (TAttr (u "w") TNone)) XNil) TNone)) XNil)); Stmt (Some (plain_names [u "a"; u "b"])) XNil;
    Stmt (Some (bad_names [] XNil)) XNil; Stmt None (plain_names [u "x"; u "y"])] true =
  [Ok ([], [u "S.x"; u "F.y(S.z.w)"]); Ok ([u "a"; u "b"], []); Err ValueError; Ok ([], [u "x"; u "y"])].
Proof. reflexivity. Qed.
