(** Property C116: AddObject and ThisForm. *)
From Verif Require Import PyBase PyStr M_Do M_Gui M_Create M_Objects.
Open Scope Z_scope.

Lemma nth_change h o f q : nth_error (change h o f) q = if Nat.eqb q o then option_map f (nth_error h q) else nth_error h q.
Proof. revert o q. induction h as [|b h IH]; intros [|o] [|q]; cbn [change nth_error Nat.eqb]; try reflexivity; [destruct (Nat.eqb _ _); reflexivity|apply IH]. Qed.
Lemma length_change h o f : length (change h o f) = length h.
Proof. revert o. induction h as [|b h IH]; intros [|o]; cbn [change length]; congruence. Qed.
Lemma nth_app (h : heap) b q : nth_error (h ++ [b]) q = if Nat.eqb q (length h) then Some b else nth_error h q.
Proof.
  destruct (Nat.eqb_spec q (length h)) as [->|N]; [rewrite nth_error_app2, Nat.sub_diag by lia; reflexivity|].
  destruct (Nat.ltb_spec q (length h)); [rewrite nth_error_app1 by lia; reflexivity|]. rewrite nth_error_app2 by lia. destruct (q - length h)%nat eqn:E; [lia|]. cbn. rewrite (proj2 (nth_error_None h q)) by lia. now destruct n.
Qed.
Lemma dget_set (d : list (pystr * aval)) x v y : dget pystr_eqb (dset pystr_eqb d x v) y = if pystr_eqb y x then Some v else dget pystr_eqb d y.
Proof.
  induction d as [|[k w] d IH]; cbn [dset dget]; [reflexivity|]. destruct (pystr_eqb_spec x k) as [->|N]; cbn [dget]; [destruct (pystr_eqb_spec y k); reflexivity|].
  destruct (pystr_eqb_spec y k) as [->|]; [destruct (pystr_eqb_spec k x); [congruence|reflexivity]|exact IH].
Qed.
(** How the three ways to look at a heap change *)
Lemma attr_set h p x v q y : (p < length h)%nat -> attr (change h p (setattr x v)) q y = if Nat.eqb q p && pystr_eqb y x then Some v else attr h q y.
Proof.
  intros L. unfold attr. rewrite nth_change. destruct (Nat.eqb_spec q p) as [->|]; cbn [andb]; [|reflexivity]. destruct (nth_error h p) eqn:E; [|apply nth_error_None in E; lia]. cbn [option_map setattr o_dict]. apply dget_set.
Qed.
Lemma attr_lay h p w q y : attr (change h p (lay w)) q y = attr h q y.
Proof. unfold attr. rewrite nth_change. destruct (Nat.eqb q p); [|reflexivity]. destruct (nth_error h q); reflexivity. Qed.
Lemma attr_new h b q y : attr (h ++ [b]) q y = if Nat.eqb q (length h) then dget pystr_eqb (o_dict b) y else attr h q y.
Proof. unfold attr. rewrite nth_app. destruct (Nat.eqb _ _); reflexivity. Qed.
Lemma base_set h p x v q : base_of (change h p (setattr x v)) q = base_of h q.
Proof. unfold base_of. rewrite nth_change. destruct (Nat.eqb q p); [|reflexivity]. destruct (nth_error h q); reflexivity. Qed.
Lemma base_lay h p w q : base_of (change h p (lay w)) q = base_of h q.
Proof. unfold base_of. rewrite nth_change. destruct (Nat.eqb q p); [|reflexivity]. destruct (nth_error h q); reflexivity. Qed.
Lemma base_new h b q : base_of (h ++ [b]) q = if Nat.eqb q (length h) then Some (o_base b) else base_of h q.
Proof. unfold base_of. rewrite nth_app. destruct (Nat.eqb _ _); reflexivity. Qed.
Lemma laid_set h p x v q : laid (change h p (setattr x v)) q = laid h q.
Proof. unfold laid. rewrite nth_change. destruct (Nat.eqb q p); [|reflexivity]. destruct (nth_error h q); reflexivity. Qed.
Lemma laid_lay h p w q : (p < length h)%nat -> laid (change h p (lay w)) q = laid h q ++ if Nat.eqb q p then [w] else [].
Proof.
  intros L. unfold laid. rewrite nth_change. destruct (Nat.eqb_spec q p) as [->|]; [|now rewrite app_nil_r]. destruct (nth_error h p) eqn:E; [reflexivity|apply nth_error_None in E; lia].
Qed.
Lemma laid_new h b q : laid (h ++ [b]) q = if Nat.eqb q (length h) then o_laid b else laid h q.
Proof. unfold laid. rewrite nth_app. destruct (Nat.eqb _ _); reflexivity. Qed.

(** Which containers show what *)
Definition shows (c b : base) : bool :=
  match c with BForm | BToolbar | BPage | BGroup => in_qtgui b | BPageframe => has_caption b | _ => false end.
Definition fits (c b : base) : bool := match c, b with BGroup, (BButton | BPlain) => true | BGroup, _ => false | _, _ => true end.
Lemma qt_caption b : has_caption b = true -> in_qtgui b = true. Proof. now destruct b. Qed.

(** make, in one place *)
Lemma make_spec h p name b c : base_of h p = Some c -> exists h1, length h1 = S (length h) /\
  make h p name b = (h1, if fits c b then Ok (length h) else Err TypeError) /\
  (forall q x, attr h1 q x = if Nat.eqb q (length h) then dget pystr_eqb [(u "name", AStr name); (u "parent", AObj p)] x else attr h q x) /\
  (forall q, base_of h1 q = if Nat.eqb q (length h) then Some b else base_of h q) /\
  (forall q, laid h1 q = laid h q ++ if Nat.eqb q p && shows c b then [length h] else []).
Proof.
  intros B. assert (L : (p < length h)%nat). { unfold base_of in B. destruct (nth_error h p) eqn:E; [|discriminate]. apply nth_error_Some. congruence. }
  set (h0 := h ++ [Obj b [(u "name", AStr name); (u "parent", AObj p)] []]).
  assert (L0 : (p < length h0)%nat) by (unfold h0; rewrite app_length; lia).
  assert (B0 : base_of h0 p = Some c). { unfold h0. rewrite base_new. destruct (Nat.eqb_spec p (length h)); [lia|exact B]. }
  assert (A0 : forall q x, attr h0 q x = if Nat.eqb q (length h) then dget pystr_eqb [(u "name", AStr name); (u "parent", AObj p)] x else attr h q x) by (intros; unfold h0; now rewrite attr_new).
  assert (C0 : forall q, base_of h0 q = if Nat.eqb q (length h) then Some b else base_of h q) by (intros; unfold h0; now rewrite base_new).
  assert (D0 : forall q, laid h0 q = laid h q).
  { intros q. unfold h0. rewrite laid_new. destruct (Nat.eqb_spec q (length h)) as [->|]; [|reflexivity]. unfold laid. now rewrite (proj2 (nth_error_None h _)) by lia. }
  assert (E0 : length h0 = S (length h)) by (unfold h0; rewrite app_length; cbn; lia).
  assert (Laid : forall q, laid (change h0 p (lay (length h))) q = laid h q ++ if Nat.eqb q p && true then [length h] else []).
  { intros q. rewrite laid_lay, D0 by exact L0. destruct (Nat.eqb q p); reflexivity. }
  assert (Not : forall q, laid h0 q = laid h q ++ if Nat.eqb q p && false then [length h] else []) by (intros q; rewrite D0, andb_false_r, app_nil_r; reflexivity).
  unfold make. fold h0. unfold add_object. rewrite B0.
  assert (K1 : forall r, r = fits c b -> shows c b = true -> exists h1, length h1 = S (length h) /\ (change h0 p (lay (length h)), if r then Ok (length h) else Err TypeError) = (h1, if fits c b then Ok (length h) else Err TypeError) /\
    (forall q x, attr h1 q x = if Nat.eqb q (length h) then dget pystr_eqb [(u "name", AStr name); (u "parent", AObj p)] x else attr h q x) /\ (forall q, base_of h1 q = if Nat.eqb q (length h) then Some b else base_of h q) /\
    (forall q, laid h1 q = laid h q ++ if Nat.eqb q p && shows c b then [length h] else [])).
  { intros r -> S. exists (change h0 p (lay (length h))). rewrite length_change, S. split; [exact E0|]. split; [reflexivity|]. split; [intros; now rewrite attr_lay|]. split; [intros; now rewrite base_lay|exact Laid]. }
  assert (K2 : forall r, r = fits c b -> shows c b = false -> exists h1, length h1 = S (length h) /\ (h0, if r then Ok (length h) else Err TypeError) = (h1, if fits c b then Ok (length h) else Err TypeError) /\
    (forall q x, attr h1 q x = if Nat.eqb q (length h) then dget pystr_eqb [(u "name", AStr name); (u "parent", AObj p)] x else attr h q x) /\ (forall q, base_of h1 q = if Nat.eqb q (length h) then Some b else base_of h q) /\
    (forall q, laid h1 q = laid h q ++ if Nat.eqb q p && shows c b then [length h] else [])).
  { intros r -> S. exists h0. rewrite S. repeat (split; [first [exact E0|reflexivity|exact A0|exact C0]|]). exact Not. }
  destruct c; destruct b as [| | | | | |[|]|]; cbn [in_qtgui has_caption]; first [exact (K1 true eq_refl eq_refl)|exact (K2 true eq_refl eq_refl)|exact (K1 false eq_refl eq_refl)|exact (K2 false eq_refl eq_refl)].
Qed.

(** Histories in which nothing is named Parent *)
Definition calm (a : act) : Prop := match a with ANew _ => True | AAdd _ name _ => lower_name name <> u "parent" | ADeclared _ name _ => name <> u "parent" end.
Definition fine (h : heap) : Prop :=
  (forall q x o, attr h q x = Some (AObj o) -> (o < length h)%nat) /\ (forall q o, attr h q (u "parent") = Some (AObj o) -> (o < q)%nat) /\ (forall q o, In o (laid h q) -> (o < length h)%nat).
Lemma base_some h q : (q < length h)%nat <-> exists b, base_of h q = Some b.
Proof. unfold base_of. rewrite <- nth_error_Some. destruct (nth_error h q); cbn; split; [eexists; reflexivity|discriminate|congruence|intros (b & [=])]. Qed.
Lemma attr_some h q x v : attr h q x = Some v -> (q < length h)%nat.
Proof. unfold attr. rewrite <- nth_error_Some. destruct (nth_error h q); congruence. Qed.
Lemma fine_make h p name b : fine h -> (p < length h)%nat -> fine (fst (make h p name b)).
Proof.
  intros (F1 & F2 & F3) L. destruct (proj1 (base_some h p) L) as (c & B). destruct (make_spec h p name b c B) as (h1 & Ln & -> & A & _ & D). cbn [fst].
  assert (N : forall x o, dget pystr_eqb [(u "name", AStr name); (u "parent", AObj p)] x = Some (AObj o) -> o = p).
  { intros x o. cbn [dget]. destruct (pystr_eqb x (u "name")); [discriminate|]. destruct (pystr_eqb x (u "parent")); [|discriminate]. now intros [= ->]. }
  split; [|split].
  - intros q x o. rewrite A, Ln. destruct (Nat.eqb q (length h)); [intros E; apply N in E; lia|intros E; apply F1 in E; lia].
  - intros q o. rewrite A. destruct (Nat.eqb_spec q (length h)) as [->|]; [intros E; apply N in E; lia|apply F2].
  - intros q o. rewrite D, Ln, in_app_iff. intros [I|I]; [apply F3 in I; lia|]. destruct (Nat.eqb q p && shows c b); [destruct I as [<-|[]]; lia|contradiction].
Qed.
Lemma fine_assign h p x o : fine h -> (p < length h)%nat -> (o < length h)%nat -> x <> u "parent" -> fine (fst (assign h p x o)).
Proof.
  intros (F1 & F2 & F3) L Lo N. unfold assign. destruct (pystr_eqb x (u "parentform")); [split; auto|]. cbn [fst]. split; [|split].
  - intros q y r. rewrite attr_set, length_change by exact L. destruct (Nat.eqb q p && pystr_eqb y x); [intros [= <-]; exact Lo|apply F1].
  - intros q r. rewrite attr_set by exact L. destruct (pystr_eqb_spec (u "parent") x); [congruence|]. rewrite andb_false_r. apply F2.
  - intros q r. rewrite laid_set, length_change. apply F3.
Qed.
Lemma fine_bare h b : fine h -> fine (h ++ [Obj b [] []]).
Proof.
  intros (F1 & F2 & F3). split; [|split].
  - intros q y r. rewrite attr_new, app_length. cbn [o_dict dget length]. destruct (Nat.eqb q (length h)); [discriminate|]. intros E. apply F1 in E. lia.
  - intros q r. rewrite attr_new. cbn [o_dict dget]. destruct (Nat.eqb q (length h)); [discriminate|]. apply F2.
  - intros q r. rewrite laid_new, app_length. cbn [o_laid length]. destruct (Nat.eqb q (length h)); [intros []|]. intros I. apply F3 in I. lia.
Qed.
Lemma make_length h p name b : (p < length h)%nat -> length (fst (make h p name b)) = S (length h) /\ (forall o, snd (make h p name b) = Ok o -> o = length h).
Proof. intros L. destruct (proj1 (base_some h p) L) as (c & B). destruct (make_spec h p name b c B) as (h1 & Ln & -> & _). split; [exact Ln|]. cbn [snd]. destruct (fits c b); [now intros o [= ->]|discriminate]. Qed.
Lemma fine_declared h p name b : fine h -> (p < length h)%nat -> name <> u "parent" -> fine (fst (add_declared h p name b)).
Proof.
  intros F L N. unfold add_declared. pose proof (fine_make h p name b F L) as F1. destruct (make_length h p name b L) as [Ln Lo]. destruct (make h p name b) as [h1 [o|e]]; cbn [fst snd] in *; [|exact F1].
  specialize (Lo o eq_refl). apply fine_assign; [exact F1|lia|lia|exact N].
Qed.
Lemma fine_history k l : Forall calm l -> fine (history k l).
Proof.
  unfold history. assert (G : forall h, fine h -> Forall calm l -> fine (fold_left (does k) l h)).
  { induction l as [|a l IH]; intros h F C; [exact F|]. inversion C as [|? ? Ca Cl]; subst. cbn [fold_left]. apply IH; [|exact Cl]. destruct a as [b|p name cls|p name b]; cbn [does calm] in *.
    - apply fine_bare, F.
    - destruct (Nat.ltb_spec p (length h)) as [L|]; [|exact F]. unfold addobject. destruct (k_own k (title cls)) as [b|].
      + exact (fine_declared h p (lower_name name) b F L Ca).
      + destruct (k_procs k (title cls)) as [b|]; [|exact F]. cbn [make_bare]. apply fine_assign; [apply fine_bare, F|rewrite app_length; lia|rewrite app_length; cbn; lia|exact Ca].
    - destruct (Nat.ltb_spec p (length h)) as [L|]; [|exact F]. now apply fine_declared. }
  intros C. apply G; [|exact C]. split; [|split]; intros; [|destruct q; discriminate|destruct q; contradiction]. destruct q; discriminate.
Qed.

(** THISFORM of an object is r *)
Definition ends (h : heap) (t : nat) (r : res nat) : Prop := exists fuel, parentform h fuel t = Some r.
Lemma more h t r : forall fuel, parentform h fuel t = Some r -> forall n, (fuel <= n)%nat -> parentform h n t = Some r.
Proof.
  intros fuel. revert t. induction fuel as [|fuel IH]; intros t E n L; [discriminate|]. destruct n as [|n]; [lia|]. cbn [parentform] in *. destruct (base_of h t); [|exact E]. destruct (form_like b); [exact E|].
  destruct (attr h t (u "parent")) as [[p|]|]; [|exact E|exact E]. apply IH; [exact E|lia].
Qed.
Lemma ends_unique h t r1 r2 : ends h t r1 -> ends h t r2 -> r1 = r2.
Proof. intros (n & A) (m & B). pose proof (more _ _ _ _ A (n + m) ltac:(lia)). pose proof (more _ _ _ _ B (n + m) ltac:(lia)). congruence. Qed.
Lemma form_ends h t r : forall fuel, parentform h fuel t = Some r -> match r with Ok f => exists b, base_of h f = Some b /\ form_like b = true | Err e => e = GenericException end.
Proof.
  intros fuel. revert t. induction fuel as [|fuel IH]; intros t E; [discriminate|]. cbn [parentform] in E. destruct (base_of h t) as [b|] eqn:B; [|injection E as <-; reflexivity]. destruct (form_like b) eqn:F.
  - injection E as <-. exists b. split; assumption.
  - destruct (attr h t (u "parent")) as [[p|]|]; [exact (IH p E)|injection E as <-; reflexivity|injection E as <-; reflexivity].
Qed.
(** Same bases and parents, same form *)
Lemma ends_same h h1 n : (forall q, (q < n)%nat -> base_of h1 q = base_of h q /\ attr h1 q (u "parent") = attr h q (u "parent")) -> (forall q o, attr h q (u "parent") = Some (AObj o) -> (o < q)%nat) ->
  forall fuel t, (t < n)%nat -> parentform h1 fuel t = parentform h fuel t.
Proof.
  intros S P. induction fuel as [|fuel IH]; intros t L; [reflexivity|]. cbn [parentform]. destruct (S t L) as [-> ->]. destruct (base_of h t); [|reflexivity]. destruct (form_like b); [reflexivity|].
  destruct (attr h t (u "parent")) as [[p|]|] eqn:E; [|reflexivity|reflexivity]. apply IH. apply P in E. lia.
Qed.

(** Whatever has been added to what, ThisForm of any object is found or an error, and never searched for ever; it is a form or a toolbar. *)
Theorem C116_thisform_partial : forall k l t, Forall calm l -> (t < length (history k l))%nat ->
  exists r, ends (history k l) t r /\ (forall r', ends (history k l) t r' -> r' = r) /\ match r with Ok f => exists b, base_of (history k l) f = Some b /\ form_like b = true | Err e => e = GenericException end.
Proof.
  intros k l t C L. set (h := history k l) in *. destruct (fine_history k l C) as (_ & F2 & _). fold h in F2.
  assert (E : exists r, ends h t r).
  { clear L. induction t as [t IH] using lt_wf_ind. destruct (base_of h t) as [b|] eqn:B; [|exists (Err GenericException), 1%nat; cbn [parentform]; now rewrite B]. destruct (form_like b) eqn:Fb; [exists (Ok t), 1%nat; cbn [parentform]; now rewrite B, Fb|].
    destruct (attr h t (u "parent")) as [[p|]|] eqn:A; [|exists (Err GenericException), 1%nat; cbn [parentform]; now rewrite B, Fb, A..]. destruct (IH p (F2 t p A)) as (r & n & R). exists r, (S n). cbn [parentform]. now rewrite B, Fb, A. }
  destruct E as (r & R). exists r. split; [exact R|]. split; [intros r' R'; exact (ends_unique h t r' r R' R)|]. destruct R as (n & R). exact (form_ends h t r n R).
Qed.
Print Assumptions C116_thisform_partial.

(** AddObject with a class of the file whose code calls it, in any container that has been made: the object is a new one, found under its name, with this container as its Parent, shown where the
    container shows its objects; its form is that of the container; nothing else changes. *)
Theorem C116_add_partial : forall k l p name cls b c, Forall calm l -> let h := history k l in
  base_of h p = Some c -> k_own k (title cls) = Some b -> fits c b = true -> lower_name name <> u "parent" -> lower_name name <> u "parentform" ->
  let o := length h in exists h1, addobject k h p name cls = (h1, Ok o) /\
    attr h1 p (lower_name name) = Some (AObj o) /\ attr h1 o (u "parent") = Some (AObj p) /\ attr h1 o (u "name") = Some (AStr (lower_name name)) /\ base_of h1 o = Some b /\
    (forall q x, q <> o -> q <> p \/ x <> lower_name name -> attr h1 q x = attr h q x) /\ (forall q, q <> o -> base_of h1 q = base_of h q) /\
    (forall q, laid h1 q = laid h q ++ if Nat.eqb q p && shows c b then [o] else []) /\
    (forall r, ends h1 o r <-> if form_like b then r = Ok o else ends h p r) /\ (forall q r, (q < o)%nat -> ends h1 q r <-> ends h q r).
Proof.
  intros k l p name cls b c C h B K Fi N1 N2 o. pose proof (fine_history k l C) as (F1 & F2 & F3). fold h in F1, F2, F3.
  assert (L : (p < length h)%nat) by (apply base_some; exists c; exact B). unfold addobject. rewrite K. destruct (make_spec h p (lower_name name) b c B) as (h1 & Ln & -> & A & Bs & D). rewrite Fi. unfold assign.
  destruct (pystr_eqb_spec (lower_name name) (u "parentform")) as [E|_]; [contradiction|]. fold o in Ln, A, Bs, D |- *. exists (change h1 p (setattr (lower_name name) (AObj o))). split; [reflexivity|].
  assert (L1 : (p < length h1)%nat) by (unfold o in Ln; lia). assert (Np : (o =? p)%nat = false) by (apply Nat.eqb_neq; unfold o; lia).
  assert (Oo : attr (change h1 p (setattr (lower_name name) (AObj o))) o (u "parent") = Some (AObj p)). { rewrite attr_set, A, Np, Nat.eqb_refl by exact L1. reflexivity. }
  assert (Old : forall q x, q <> o -> q <> p \/ x <> lower_name name -> attr (change h1 p (setattr (lower_name name) (AObj o))) q x = attr h q x).
  { intros q x Nq H. rewrite attr_set, A by exact L1. destruct (Nat.eqb_spec q o); [contradiction|]. destruct (Nat.eqb_spec q p) as [->|]; cbn [andb]; [|reflexivity]. destruct (pystr_eqb_spec x (lower_name name)); [destruct H; congruence|reflexivity]. }
  assert (Ob : forall q, q <> o -> base_of (change h1 p (setattr (lower_name name) (AObj o))) q = base_of h q).
  { intros q Nq. rewrite base_set, Bs. destruct (Nat.eqb_spec q o); [contradiction|reflexivity]. }
  assert (Bo : base_of (change h1 p (setattr (lower_name name) (AObj o))) o = Some b) by (rewrite base_set, Bs, Nat.eqb_refl; reflexivity).
  assert (Same : forall fuel q, (q < o)%nat -> parentform (change h1 p (setattr (lower_name name) (AObj o))) fuel q = parentform h fuel q).
  { apply ends_same; [|exact F2]. intros q Lq. split; [apply Ob; lia|]. apply Old; [lia|]. right. congruence. }
  split; [rewrite attr_set, Nat.eqb_refl by exact L1; cbn [andb]; destruct (pystr_eqb_spec (lower_name name) (lower_name name)); [reflexivity|contradiction]|].
  split; [exact Oo|]. split; [rewrite attr_set, A, Np, Nat.eqb_refl by exact L1; reflexivity|]. split; [exact Bo|]. split; [exact Old|]. split; [exact Ob|]. split; [intros q; rewrite laid_set; apply D|]. split.
  - intros r. split.
    + intros (n & R). destruct n as [|n]; [discriminate|]. cbn [parentform] in R. rewrite Bo, Oo in R. destruct (form_like b); [congruence|]. rewrite Same in R by (unfold o; lia). exists n. exact R.
    + destruct (form_like b) eqn:Fb; [intros ->; exists 1%nat; cbn [parentform]; rewrite Bo, Fb; reflexivity|]. intros (n & R). exists (S n). cbn [parentform]. rewrite Bo, Fb, Oo. rewrite Same by (unfold o; lia). exact R.
  - intros q r Lq. unfold ends. split; intros (n & R); exists n; rewrite Same in * by exact Lq; exact R.
Qed.
Print Assumptions C116_add_partial.

(** The controls of the library are not found: ThisForm.AddObject("ok", "CommandButton") is an error, for any container, unless the file has a class of its own by this name. *)
Theorem C116_library_class_refuted : forall k h p name cls, k_own k (title cls) = None -> k_procs k (title cls) = None -> addobject k h p name cls = (h, Err GenericException).
Proof. intros k h p name cls O P. unfold addobject. now rewrite O, P. Qed.
Print Assumptions C116_library_class_refuted.
(** A class of a procedure file is made without its container: it has no Parent, is shown nowhere, and has no form. *)
Theorem C116_procedure_file_refuted : forall k l p name cls b c, Forall calm l -> let h := history k l in base_of h p = Some c -> k_own k (title cls) = None -> k_procs k (title cls) = Some b ->
  lower_name name <> u "parentform" -> form_like b = false ->
  exists h1, addobject k h p name cls = (h1, Ok (length h)) /\ attr h1 (length h) (u "parent") = None /\ (forall q, ~ In (length h) (laid h1 q)) /\ ends h1 (length h) (Err GenericException).
Proof.
  intros k l p name cls b c C h B O P N Fb. destruct (fine_history k l C) as (_ & _ & F3). fold h in F3. assert (L : (p < length h)%nat) by (apply base_some; exists c; exact B).
  unfold addobject. rewrite O, P. cbn [make_bare]. unfold assign. destruct (pystr_eqb_spec (lower_name name) (u "parentform")) as [E|_]; [contradiction|].
  assert (L1 : (p < length (h ++ [Obj b [] []]))%nat) by (rewrite app_length; lia). assert (Np : (length h =? p)%nat = false) by (apply Nat.eqb_neq; lia).
  assert (A : attr (change (h ++ [Obj b [] []]) p (setattr (lower_name name) (AObj (length h)))) (length h) (u "parent") = None). { rewrite attr_set, Np, attr_new, Nat.eqb_refl by exact L1. reflexivity. }
  eexists. split; [reflexivity|]. split; [exact A|]. split.
  - intros q. rewrite laid_set, laid_new. destruct (Nat.eqb q (length h)); [intros []|]. intros I. apply F3 in I. lia.
  - exists 1%nat. cbn [parentform]. rewrite base_set, base_new, Nat.eqb_refl, A. cbn [o_base]. now rewrite Fb.
Qed.
Print Assumptions C116_procedure_file_refuted.
(** A control in a Container, a Grid, a button is shown nowhere, though it is there by its name. *)
Theorem C116_container_refuted : forall k l p name cls b c, Forall calm l -> let h := history k l in base_of h p = Some c -> c = BPlain \/ c = BButton \/ (exists t, c = BWidget t) -> k_own k (title cls) = Some b -> in_qtgui b = true ->
  lower_name name <> u "parent" -> lower_name name <> u "parentform" ->
  exists h1, addobject k h p name cls = (h1, Ok (length h)) /\ attr h1 p (lower_name name) = Some (AObj (length h)) /\ forall q, ~ In (length h) (laid h1 q).
Proof.
  intros k l p name cls b c C h B Hc K Q N1 N2. destruct (fine_history k l C) as (_ & _ & F3). fold h in F3.
  destruct (C116_add_partial k l p name cls b c C B K) as (h1 & E & A & _ & _ & _ & _ & _ & D & _); [destruct Hc as [->|[->|(t & ->)]]; reflexivity|exact N1|exact N2|]. exists h1. split; [exact E|]. split; [exact A|].
  intros q. rewrite D. replace (shows c b) with false by (destruct Hc as [->|[->|(t & ->)]]; reflexivity). rewrite andb_false_r, app_nil_r. intros I. apply F3 in I. fold h in I. lia.
Qed.
Print Assumptions C116_container_refuted.
(** Two objects by one name are an error in FoxPro; here the first one stays on the form, and nothing leads to it any more. *)
Theorem C116_same_name_refuted : forall k l p name cls b, Forall calm l -> let h := history k l in base_of h p = Some BForm -> k_own k (title cls) = Some b -> in_qtgui b = true ->
  lower_name name <> u "parent" -> lower_name name <> u "parentform" ->
  exists h1 h2, addobject k h p name cls = (h1, Ok (length h)) /\ addobject k h1 p name cls = (h2, Ok (S (length h))) /\
    laid h2 p = laid h p ++ [length h; S (length h)] /\ forall q x, attr h2 q x <> Some (AObj (length h)).
Proof.
  intros k l p name cls b C h B K Q N1 N2. pose proof (fine_history k l C) as (F1 & _ & _). fold h in F1. assert (L : (p < length h)%nat) by (apply base_some; exists BForm; exact B).
  destruct (C116_add_partial k l p name cls b BForm C B K) as (h1 & E & A & Pa & Nm & Bo & Old & Ob & D & _); [reflexivity|exact N1|exact N2|]. fold h in E, A, Pa, Nm, Bo, Old, Ob, D.
  set (l2 := l ++ [AAdd p name cls]). assert (H1 : history k l2 = h1).
  { unfold l2, history. rewrite fold_left_app. fold (history k l). cbn [fold_left does]. fold h. rewrite (proj2 (Nat.ltb_lt p (length h)) L), E. reflexivity. }
  assert (C2 : Forall calm l2) by (apply Forall_app; split; [exact C|repeat constructor; exact N1]). assert (B1 : base_of h1 p = Some BForm) by (rewrite Ob; [exact B|lia]).
  assert (Ln : length h1 = S (length h)).
  { assert (length h < length h1)%nat by (apply base_some; exists b; exact Bo). assert (~ (S (length h) < length h1)%nat); [|lia]. intros X. apply base_some in X as (b0 & X). rewrite Ob in X by lia. assert (S (length h) < length h)%nat by (apply base_some; exists b0; exact X). lia. }
  destruct (C116_add_partial k l2 p name cls b BForm C2) as (h2 & E2 & A2 & Pa2 & Nm2 & Bo2 & Old2 & Ob2 & D2 & _); [rewrite H1; exact B1|exact K|reflexivity|exact N1|exact N2|]. rewrite H1, Ln in *. exists h1, h2. split; [exact E|]. split; [exact E2|].
  assert (Sh : shows BForm b = true) by exact Q. split; [rewrite D2, D, Nat.eqb_refl, Sh; cbn [andb]; rewrite <- app_assoc; reflexivity|]. intros q x X.
  destruct (Nat.eq_dec q (S (length h))) as [->|Nq].
  - destruct (fine_history k (l2 ++ [AAdd p name cls])) as (_ & _ & _); [apply Forall_app; split; [exact C2|repeat constructor; exact N1]|]. revert X. unfold addobject in E2. rewrite K in E2. destruct (make_spec h1 p (lower_name name) b BForm B1) as (h3 & L3 & M & A3 & _). rewrite M in E2. cbn [fits] in E2. unfold assign in E2.
    destruct (pystr_eqb_spec (lower_name name) (u "parentform")); [contradiction|]. injection E2 as <- _. rewrite attr_set, A3, Ln, Nat.eqb_refl by lia. destruct (Nat.eqb_spec (S (length h)) p); [lia|]. cbn [andb dget]. destruct (pystr_eqb x (u "name")); [discriminate|]. destruct (pystr_eqb x (u "parent")); [intros [= X]; lia|discriminate].
  - destruct (Nat.eq_dec q p) as [->|Np]; [destruct (pystr_eqb_spec x (lower_name name)) as [->|Nx]; [rewrite A2 in X; injection X as X; lia|]|].
    + rewrite Old2, Old in X by (lia || now right). apply F1 in X. lia.
    + rewrite Old2 in X by (lia || now left). destruct (Nat.eq_dec q (length h)) as [->|Nh].
      * unfold addobject in E. rewrite K in E. destruct (make_spec h p (lower_name name) b BForm B) as (h3 & L3 & M & A3 & _). rewrite M in E. cbn [fits] in E. unfold assign in E. destruct (pystr_eqb_spec (lower_name name) (u "parentform")); [contradiction|]. injection E as <-.
        rewrite attr_set, A3, Nat.eqb_refl in X by lia. destruct (Nat.eqb_spec (length h) p); [lia|]. cbn [andb dget] in X. destruct (pystr_eqb x (u "name")); [discriminate|]. destruct (pystr_eqb x (u "parent")); [injection X as X; lia|discriminate].
      * rewrite Old in X by (lia || now left). apply F1 in X. lia.
Qed.
Print Assumptions C116_same_name_refuted.
(** An object named Parent is an error in FoxPro; here ThisForm of its container is searched for ever. *)
Theorem C116_parent_refuted : forall k l p cls b t, Forall calm l -> let h := history k l in base_of h p = Some (BWidget t) -> k_own k (title cls) = Some b -> form_like b = false ->
  exists h1, addobject k h p (u "Parent") cls = (h1, Ok (length h)) /\ forall r, ~ ends h1 p r.
Proof.
  intros k l p cls b t C h B K Fb. assert (L : (p < length h)%nat) by (apply base_some; eexists; exact B). unfold addobject. rewrite K.
  destruct (make_spec h p (lower_name (u "Parent")) b (BWidget t) B) as (h1 & Ln & -> & A & Bs & _). cbn [fits]. unfold assign. replace (pystr_eqb (lower_name (u "Parent")) (u "parentform")) with false by reflexivity.
  eexists. split; [reflexivity|]. set (h2 := change _ _ _). assert (L1 : (p < length h1)%nat) by lia. change (lower_name (u "Parent")) with (u "parent") in *.
  assert (P1 : attr h2 p (u "parent") = Some (AObj (length h))) by (unfold h2; rewrite attr_set, Nat.eqb_refl by exact L1; reflexivity).
  assert (P2 : attr h2 (length h) (u "parent") = Some (AObj p)). { unfold h2. rewrite attr_set, A, Nat.eqb_refl by exact L1. destruct (Nat.eqb_spec (length h) p); [lia|reflexivity]. }
  assert (B1 : base_of h2 p = Some (BWidget t)). { unfold h2. rewrite base_set, Bs. destruct (Nat.eqb_spec p (length h)); [lia|exact B]. }
  assert (B2 : base_of h2 (length h) = Some b) by (unfold h2; rewrite base_set, Bs, Nat.eqb_refl; reflexivity).
  assert (G : forall n, parentform h2 n p = None /\ parentform h2 n (length h) = None).
  { induction n as [|n [IH1 IH2]]; [split; reflexivity|]. cbn [parentform]. rewrite B1, B2, P1, P2, Fb. cbn [form_like]. split; assumption. }
  intros r (n & R). rewrite (proj1 (G n)) in R. discriminate.
Qed.
Print Assumptions C116_parent_refuted.

(** A form with a page frame with a page with a button, one with a container, and a button that the program adds *)
Definition own_classes : classes := Classes (fun n => if pystr_eqb n (u "Okbutton") then Some BButton else None) (fun n => if pystr_eqb n (u "Helper") then Some (BWidget true) else None).
Definition some_acts : list act := [ANew BForm; ADeclared 0 (u "pgf1") BPageframe; ADeclared 1 (u "page1") BPage; ANew BPlain; ADeclared 0 (u "box") BPlain; AAdd 2 (u "OK") (u "okButton"); AAdd 4 (u "ok") (u "OKBUTTON"); AAdd 0 (u "x") (u "commandbutton")].
Example C116_example : Forall calm some_acts /\ let h := history own_classes some_acts in length h = 7%nat /\ attr h 2 (u "ok") = Some (AObj 5) /\ laid h 2 = [5%nat] /\ laid h 1 = [2%nat] /\ laid h 4 = [] /\
  parentform h 9 5 = Some (Ok 0%nat) /\ parentform h 9 6 = Some (Ok 0%nat) /\ parentform h 9 3 = Some (Err GenericException).
Proof. split; [repeat constructor; vm_compute; discriminate|]. vm_compute. repeat split. Qed.
