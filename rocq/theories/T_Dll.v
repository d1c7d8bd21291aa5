(** Property C100: functions of libraries. *)
From Verif Require Import PyBase PyStr M_Dll.
Open Scope Z_scope.
Open Scope res_scope.

Section C100.
Context {F : Type}.
Implicit Types (y : system F) (dlls : list (dll F)) (rest : pystr -> option F).
Lemma get_set (l : list (pystr * F)) k v q : dget pystr_eqb (dset pystr_eqb l k v) q = if pystr_eqb q k then Some v else dget pystr_eqb l q.
Proof.
  induction l as [|[x w] l IH]; cbn [dset dget].
  - destruct (pystr_eqb_spec q k); reflexivity.
  - destruct (pystr_eqb_spec k x) as [E|N]; cbn [dget].
    + subst x. destruct (pystr_eqb_spec q k); reflexivity.
    + rewrite IH. destruct (pystr_eqb_spec q x) as [->|]; [|reflexivity]. destruct (pystr_eqb_spec x k); [congruence|reflexivity].
Qed.
Lemma get_del (l : list (pystr * F)) k q : dget pystr_eqb (del_attr l k) q = if pystr_eqb q k then None else dget pystr_eqb l q.
Proof.
  induction l as [|[x w] l IH]; cbn [del_attr dget].
  - destruct (pystr_eqb q k); reflexivity.
  - destruct (pystr_eqb_spec k x) as [E|N].
    + subst x. rewrite IH. destruct (pystr_eqb_spec q k); reflexivity.
    + cbn [dget]. rewrite IH. destruct (pystr_eqb_spec q x) as [->|]; [|reflexivity]. destruct (pystr_eqb_spec x k); [congruence|reflexivity].
Qed.
Lemma get_dels ks : forall (l : list (pystr * F)) q, dget pystr_eqb (fold_left del_attr ks l) q = if existsb (pystr_eqb q) ks then None else dget pystr_eqb l q.
Proof.
  induction ks as [|k ks IH]; intros l q; [reflexivity|]. cbn [fold_left existsb]. rewrite IH, get_del. destruct (pystr_eqb q k), (existsb (pystr_eqb q) ks); reflexivity.
Qed.
Definition offers (d : dll F) (key : pystr) : Prop := attr d key <> None.

(** ** C100.  DECLARE makes the function of the library callable under its alias or its name; names that have nothing to do with the
    library keep their meaning. *)
Lemma set_on_spec dlls n f a r : set_on dlls n f a = Some r ->
  exists pre d post, dlls = pre ++ d :: post /\ same_name (d_name d) n = true /\ Forall (fun x => same_name (d_name x) n = false) pre /\
    match attr d f with Some g => r = Ok (pre ++ mkDll (d_name d) (d_exports d) (dset pystr_eqb (d_attrs d) a g) :: post) | None => r = Err AttributeError end.
Proof.
  revert r. induction dlls as [|x dlls IH]; intros r E; [discriminate|]. cbn [set_on] in E. destruct (same_name (d_name x) n) eqn:S.
  - injection E as <-. exists [], x, dlls. repeat split; [exact S|constructor|]. destruct (attr x f); reflexivity.
  - destruct (set_on dlls n f a) as [s|]; [|discriminate]. destruct (IH s eq_refl) as (pre & d & post & -> & S' & FP & X). exists (x :: pre), d, post. repeat split; [exact S'|constructor; assumption|].
    destruct (attr d f) as [g|]; subst s; injection E as <-; reflexivity.
Qed.
Lemma set_on_none dlls n f a : set_on dlls n f a = None -> Forall (fun x => same_name (d_name x) n = false) dlls.
Proof.
  induction dlls as [|x dlls IH]; intros E; [constructor|]. cbn [set_on] in E. destruct (same_name (d_name x) n) eqn:S; [discriminate|]. constructor; [exact S|]. apply IH. destruct (set_on dlls n f a) as [[r|e]|]; [discriminate|discriminate|reflexivity].
Qed.
Lemma from_app dlls dlls' key : from_dlls (dlls ++ dlls') key = match from_dlls dlls key with Some f => Some f | None => from_dlls dlls' key end.
Proof. induction dlls as [|d dlls IH]; [reflexivity|]. cbn [app from_dlls]. destruct (attr d key); [reflexivity|exact IH]. Qed.
Lemma from_none dlls key : Forall (fun d => attr d key = None) dlls -> from_dlls dlls key = None.
Proof. induction 1 as [|d dlls H FF IH]; [reflexivity|]. cbn [from_dlls]. now rewrite H. Qed.
Theorem C100_declare_partial : forall y dlls rest name funcname alias exports f,
  y_load y name = Some exports -> exports funcname = Some f ->
  Forall (fun d => d_name d <> Some name) dlls -> Forall (fun d => attr d (match alias with Some a => a | None => funcname end) = None) dlls -> alias <> Some [] ->
  exists dlls', dll_declare y dlls name funcname alias = Ok dlls' /\
    function dlls' rest (match alias with Some a => a | None => funcname end) = Some f /\
    (forall key, exports key = None -> key <> match alias with Some a => a | None => funcname end -> function dlls' rest key = function dlls rest key).
Proof.
  intros y dlls rest name funcname alias exports f L E N A NA. unfold dll_declare, cdll. rewrite L. cbn [rbind]. set (a := match alias with Some (c :: r) => c :: r | _ => funcname end).
  assert (Ea : match alias with Some a => a | None => funcname end = a) by (unfold a; destruct alias as [[|c r]|]; [exfalso; apply NA; reflexivity|reflexivity|reflexivity]). rewrite Ea in A |- *. clearbody a. cbn [d_name d_exports].
  destruct (set_on dlls (Some name) funcname a) as [r|] eqn:S.
  - exfalso. destruct (set_on_spec _ _ _ _ _ S) as (pre & d & post & -> & SN & _). apply Forall_app in N as [_ N]. inversion N as [|? ? N1 _]; subst. destruct (d_name d) as [n|]; [|discriminate]. cbn [same_name] in SN. destruct (pystr_eqb_spec n name); congruence.
  - unfold attr at 1. cbn [d_attrs d_exports dget]. rewrite E. eexists. split; [reflexivity|]. split.
    + unfold function. rewrite from_app, (from_none dlls a A). cbn [from_dlls]. unfold attr. cbn [d_attrs dget]. destruct (pystr_eqb_spec a a); [reflexivity|congruence].
    + intros key Ek Nk. unfold function. rewrite from_app. destruct (from_dlls dlls key); [reflexivity|]. cbn [from_dlls]. unfold attr. cbn [d_attrs d_exports dget]. destruct (pystr_eqb_spec key a); [congruence|]. now rewrite Ek.
Qed.
(** A second function of a library that is there already is added to it. *)
Theorem C100_again_partial : forall y pre d post rest name funcname alias exports f,
  y_load y name = Some exports -> d_name d = Some name -> attr d funcname = Some f -> Forall (fun x => d_name x <> Some name /\ attr x alias = None) pre -> alias <> [] ->
  exists dlls', dll_declare y (pre ++ d :: post) name funcname (Some alias) = Ok dlls' /\ function dlls' rest alias = Some f /\
    (forall key, key <> alias -> function dlls' rest key = function (pre ++ d :: post) rest key).
Proof.
  intros y pre d post rest name funcname alias exports f L Nd Af HP Na. unfold dll_declare, cdll. rewrite L. cbn [rbind d_name]. destruct alias as [|c al]; [congruence|]. set (a := c :: al) in *.
  assert (S : set_on (pre ++ d :: post) (Some name) funcname a = Some (Ok (pre ++ mkDll (d_name d) (d_exports d) (dset pystr_eqb (d_attrs d) a f) :: post))).
  { induction HP as [|x pre [Nx _] FP IH]; cbn [app set_on].
    - rewrite Nd. cbn [same_name]. destruct (pystr_eqb_spec name name); [|congruence]. rewrite Af. reflexivity.
    - replace (same_name (d_name x) (Some name)) with false; [now rewrite IH|]. destruct (d_name x) as [n|]; [|reflexivity]. cbn [same_name]. destruct (pystr_eqb_spec n name); [subst; congruence|reflexivity]. }
  rewrite S. eexists. split; [reflexivity|]. assert (FN : from_dlls pre a = None) by (apply from_none; eapply Forall_impl; [|exact HP]; intros x [_ H]; exact H). split.
  - unfold function. rewrite from_app, FN. cbn [from_dlls]. unfold attr. cbn [d_attrs]. rewrite get_set. destruct (pystr_eqb_spec a a); [reflexivity|congruence].
  - intros key Nk. unfold function. rewrite !from_app. destruct (from_dlls pre key); [reflexivity|]. cbn [from_dlls]. unfold attr. cbn [d_attrs d_exports]. rewrite get_set. destruct (pystr_eqb_spec key a); [congruence|reflexivity].
Qed.
(** Every other function the library happens to export becomes callable as well, and hides the procedure of that name. *)
Theorem C100_undeclared_refuted : forall y rest name funcname alias exports f g other,
  y_load y name = Some exports -> exports funcname = Some f -> exports other = Some g -> other <> funcname -> alias <> Some other ->
  exists dlls', dll_declare y [] name funcname alias = Ok dlls' /\ function dlls' rest other = Some g.
Proof.
  intros y rest name funcname alias exports f g other L E E' N NA. unfold dll_declare, cdll. rewrite L. cbn [rbind set_on d_name]. unfold attr at 1. cbn [d_attrs d_exports dget]. rewrite E. eexists. split; [reflexivity|].
  unfold function. cbn [app from_dlls]. unfold attr. cbn [d_attrs d_exports dget]. destruct (pystr_eqb_spec other (match alias with Some (c :: r) => c :: r | _ => funcname end)) as [X|]; [|now rewrite E'].
  exfalso. destruct alias as [[|c r]|]; [congruence|apply NA; congruence|congruence].
Qed.
(** CLEAR DLLS removes an alias, and nothing else, when no library exports a function of that name. *)
Theorem C100_clear_partial : forall dlls rest names, names <> [] ->
  (forall n, In n names -> Forall (fun d => d_exports d n = None) dlls -> function (dll_clear dlls names) rest n = rest n) /\
  (forall key, ~ In key names -> function (dll_clear dlls names) rest key = function dlls rest key).
Proof.
  intros dlls rest names NE. unfold dll_clear. destruct names as [|n0 ns] eqn:EN; [congruence|]. rewrite <- EN in *. clear NE.
  assert (A : forall (d : dll F) key, attr (mkDll (d_name d) (d_exports d) (fold_left del_attr names (d_attrs d))) key = if existsb (pystr_eqb key) names then d_exports d key else attr d key).
  { intros d key. unfold attr at 1. cbn [d_attrs d_exports]. rewrite get_dels. destruct (existsb (pystr_eqb key) names); reflexivity. }
  split.
  - intros n I HE. unfold function. rewrite from_none; [reflexivity|]. apply Forall_forall. intros x Ix. apply in_map_iff in Ix as (d & <- & Id). rewrite A.
    replace (existsb (pystr_eqb n) names) with true; [rewrite Forall_forall in HE; exact (HE d Id)|]. symmetry. apply existsb_exists. exists n. split; [exact I|]. destruct (pystr_eqb_spec n n); congruence.
  - intros key NI. unfold function. replace (from_dlls (map _ dlls) key) with (from_dlls dlls key); [reflexivity|].
    assert (X : existsb (pystr_eqb key) names = false). { apply not_true_is_false. intros X. apply existsb_exists in X as (k & I & E). destruct (pystr_eqb_spec key k); [subst; contradiction|discriminate]. }
    induction dlls as [|d dlls IH]; [reflexivity|]. cbn [map from_dlls]. rewrite A, X, IH. reflexivity.
Qed.
(** A function declared under its own name cannot be cleared. *)
Theorem C100_clear_refuted : forall y rest name funcname exports f,
  y_load y name = Some exports -> exports funcname = Some f ->
  exists dlls', dll_declare y [] name funcname None = Ok dlls' /\ function (dll_clear dlls' [funcname]) rest funcname = Some f.
Proof.
  intros y rest name funcname exports f L E. unfold dll_declare, cdll. rewrite L. cbn [rbind set_on d_name]. unfold attr at 1. cbn [d_attrs d_exports dget]. rewrite E. eexists. split; [reflexivity|].
  unfold function. cbn [app dll_clear map from_dlls fold_left d_name d_exports d_attrs del_attr]. destruct (pystr_eqb_spec funcname funcname); [|congruence]. unfold attr. cbn [d_attrs d_exports dget]. now rewrite E.
Qed.
(** A function whose name has a capital letter cannot be declared, unless the library has one in lower case too: that one is taken. *)
Theorem C100_capital_refuted : forall y name funcname alias exports,
  y_load y (lower name) = Some exports -> exports (lower funcname) = None -> exists e, run y [] (Declare funcname name alias) = Err e.
Proof.
  intros y name funcname alias exports L E. exists AttributeError. cbn [run]. unfold dll_declare, cdll. rewrite L. cbn [rbind set_on d_name]. unfold attr. cbn [d_attrs d_exports dget]. now rewrite E.
Qed.
(** A library that is not there: DECLARE succeeds if the Python process has a function of that name. *)
Theorem C100_missing_refuted : forall y rest name funcname alias f, y_load y name = None -> y_find y name = None -> y_self y funcname = Some f ->
  exists dlls', dll_declare y [] name funcname alias = Ok dlls' /\ function dlls' rest (match alias with Some (c :: r) => c :: r | _ => funcname end) = Some f.
Proof.
  intros y rest name funcname alias f L N E. unfold dll_declare, cdll. rewrite L, N. cbn [rbind set_on d_name]. unfold attr at 1. cbn [d_attrs d_exports dget]. rewrite E. eexists. split; [reflexivity|].
  unfold function. cbn [app from_dlls]. unfold attr. cbn [d_attrs dget]. set (a := match alias with Some (c :: r) => c :: r | _ => funcname end). destruct (pystr_eqb_spec a a); [reflexivity|congruence].
Qed.
End C100.
Print Assumptions C100_declare_partial.
Print Assumptions C100_again_partial.
Print Assumptions C100_undeclared_refuted.
Print Assumptions C100_clear_partial.
Print Assumptions C100_clear_refuted.
Print Assumptions C100_capital_refuted.
Print Assumptions C100_missing_refuted.
Definition C100_lib : pystr -> option Z := fun k => dget pystr_eqb [(u "printf", 1); (u "time", 2); (u "GetTick", 3)] k.
Definition C100_sys : system Z := mkSys (fun n => if pystr_eqb n (u "c") then Some C100_lib else None) (fun _ => None) (fun k => if pystr_eqb k (u "exit") then Some 9 else None).
Definition C100_calls (cs : list cmd) (names : list pystr) : res (list (option Z)) :=
  do d <- runs C100_sys [] cs; Ok (map (function d (fun k => if pystr_eqb k (u "time") then Some 100 else None)) names).
Example C100_example :
  C100_calls [Declare (u "printf") (u "C") (Some (u "Say"))] [u "say"; u "printf"; u "time"; u "other"] = Ok [Some 1; Some 1; Some 2; None] /\
  C100_calls [] [u "time"] = Ok [Some 100] /\
  C100_calls [Declare (u "printf") (u "c") (Some (u "say")); ClearDlls [u "SAY"]] [u "say"; u "printf"] = Ok [None; Some 1] /\
  C100_calls [Declare (u "GetTick") (u "c") None] [] = Err AttributeError /\
  C100_calls [Declare (u "exit") (u "nosuch") None] [u "exit"] = Ok [Some 9].
Proof. repeat split; vm_compute; reflexivity. Qed.
