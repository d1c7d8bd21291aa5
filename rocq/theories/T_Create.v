(** Property C90: CREATEOBJECT creates an object of the class named, with the arguments given. *)
From Verif Require Import PyBase PyStr M_Lit M_Stmt M_Do M_Create.
Open Scope Z_scope.

Section C90.
Variables Cls Arg Obj : Type.
Variable new : Cls -> list Arg -> res Obj.
Notation cworld := (cworld Cls Obj).
Variable w : cworld.
Variable class_list : list pystr.
(** the classes of the file, and those of the library *)
Definition classes_ok : Prop := forall n, In n class_list <-> c_own Cls Obj w n <> None.
Definition lib (n : pystr) : bool := match c_lib Cls Obj w n with Some _ => true | None => false end.
Definition create (v : value) (args : list Arg) : res Obj := run_create Cls Arg Obj new w (create_target class_list lib v) args.

(** ** Case *)
Lemma low_low c : low (low c) = low c.
Proof. unfold low, upper. destruct ((65 <=? c) && (c <=? 90)) eqn:E; [|rewrite E; reflexivity]. apply andb_prop in E as [A B]. apply Z.leb_le in A, B. replace (65 <=? c + 32) with true by (symmetry; apply Z.leb_le; lia). replace (c + 32 <=? 90) with false by (symmetry; apply Z.leb_gt; lia). reflexivity. Qed.
Lemma low_parts c d : low c = low d -> low c = low d /\ cap c = cap d /\ letter c = letter d.
Proof.
  intros H. split; [exact H|]. unfold low, cap, letter, lower, upper in *.
  destruct (65 <=? c) eqn:C1, (c <=? 90) eqn:C2, (97 <=? c) eqn:C3, (c <=? 122) eqn:C4, (65 <=? d) eqn:D1, (d <=? 90) eqn:D2, (97 <=? d) eqn:D3, (d <=? 122) eqn:D4; cbn in *; rewrite ?Z.leb_le, ?Z.leb_gt in *; split; try reflexivity; try lia.
Qed.
Lemma title_case s : forall t p, map low s = map low t -> title_from p s = title_from p t.
Proof. induction s as [|c s IH]; intros [|d t] p H; try discriminate; [reflexivity|]. cbn [map] in H. injection H as H1 H2. destruct (low_parts c d H1) as (A & B & C). cbn [title_from]. rewrite A, B, C. f_equal. apply IH. exact H2. Qed.
(** The case of the name does not matter *)
Theorem C90_case s t args : map low s = map low t -> create (VStr s) args = create (VStr t) args.
Proof. intros H. unfold create, create_target, title. rewrite (title_case s t false H). reflexivity. Qed.

Lemma one_of_true l s : In s l -> one_of l s = true.
Proof. intros I. unfold one_of. apply existsb_exists. exists s. split; [exact I|]. destruct (pystr_eqb_spec s s); congruence. Qed.
Lemma one_of_false l s : ~ In s l -> one_of l s = false.
Proof. intros N. apply not_true_is_false. unfold one_of. rewrite existsb_exists. intros (x & I & E). destruct (pystr_eqb_spec s x); [subst; contradiction|discriminate]. Qed.
Lemma low_cap c : low (cap c) = low c.
Proof. unfold low, cap, lower, upper. destruct (97 <=? c) eqn:C3, (c <=? 122) eqn:C4, (65 <=? c) eqn:C1, (c <=? 90) eqn:C2; cbn; rewrite ?Z.leb_le, ?Z.leb_gt in *; try lia; rewrite ?(proj2 (Z.leb_le _ _)), ?(proj2 (Z.leb_gt _ _)) by lia; cbn; rewrite ?(proj2 (Z.leb_le _ _)), ?(proj2 (Z.leb_gt _ _)) by lia; try reflexivity; try lia. Qed.
Lemma title_low s : forall p, map low (title_from p s) = map low s.
Proof. induction s as [|c s IH]; intros p; [reflexivity|]. cbn [title_from map]. rewrite IH. f_equal. destruct p; [apply low_low|apply low_cap]. Qed.
Lemma title_title s : title (title s) = title s.
Proof. apply title_case. apply title_low. Qed.
(** A class of the file itself: the arguments are passed to it *)
Theorem C90_own s args : classes_ok -> In (title s) class_list -> exists c, c_own Cls Obj w (title s) = Some c /\ create (VStr s) args = new c args.
Proof. intros O I. unfold create, create_target. rewrite one_of_true by exact I. cbn [run_create]. apply O in I. destruct (c_own Cls Obj w (title s)) as [c|]; [|congruence]. exists c. split; reflexivity. Qed.
(** A class of the library *)
Theorem C90_library s args c : ~ In (title s) class_list -> c_lib Cls Obj w (title s) = Some c -> create (VStr s) args = new c args.
Proof. intros N L. unfold create, create_target. rewrite one_of_false by exact N. unfold lib. rewrite L. cbn [run_create]. rewrite L. reflexivity. Qed.
(** A class of a procedure file: the one of the file set last, if no arguments are given and it can be created *)
Definition provides (m : pmodule Cls) (n : pystr) (c : Cls) : Prop := p_classes Cls m n = Some c \/ p_classes Cls m n = None /\ p_attr Cls m n = Some c.
Definition lacks (m : pmodule Cls) (n : pystr) : Prop := p_classes Cls m n = None /\ p_attr Cls m n = None.
Lemma class_get_first a m b n c : Forall (fun m => lacks m n) a -> provides m n c -> class_get Cls (a ++ m :: b) n = Some c.
Proof. intros F P. induction F as [|x a [A B] F IH]; cbn [app class_get]; [destruct P as [P|[P Q]]; rewrite P; [reflexivity|rewrite Q; reflexivity]|]. rewrite A, B. exact IH. Qed.
Lemma create_found s args a m b c : ~ In (title s) class_list -> c_lib Cls Obj w (title s) = None -> c_mods Cls Obj w = a ++ m :: b -> Forall (fun m => lacks m (title s)) a -> provides m (title s) c ->
  create (VStr s) args = match new c [] with Ok o => Ok o | Err _ => match c_com Cls Obj w (title s) with Some o => Ok o | None => Err GenericException end end.
Proof.
  intros N L M F P. unfold create, create_target. rewrite one_of_false by exact N. unfold lib. rewrite L. cbn [run_create]. unfold create_object. rewrite title_title, L, M, (class_get_first a m b _ c F P). reflexivity.
Qed.
Theorem C90_procedure_file_partial s a m b c o : ~ In (title s) class_list -> c_lib Cls Obj w (title s) = None -> c_mods Cls Obj w = a ++ m :: b -> Forall (fun m => lacks m (title s)) a -> provides m (title s) c -> new c [] = Ok o ->
  create (VStr s) [] = Ok o.
Proof. intros N L M F P E. rewrite (create_found s [] a m b c) by assumption. rewrite E. reflexivity. Qed.
(** Its arguments are lost *)
Theorem C90_arguments_refuted s args a m b c o o' : ~ In (title s) class_list -> c_lib Cls Obj w (title s) = None -> c_mods Cls Obj w = a ++ m :: b -> Forall (fun m => lacks m (title s)) a -> provides m (title s) c ->
  new c [] = Ok o -> new c args = Ok o' -> o <> o' -> create (VStr s) args <> Ok o'.
Proof. intros N L M F P E E' D. rewrite (create_found s args a m b c) by assumption. rewrite E. congruence. Qed.
(** and an error while it is created is taken for a missing class *)
Theorem C90_error_refuted s args a m b c e : ~ In (title s) class_list -> c_lib Cls Obj w (title s) = None -> c_mods Cls Obj w = a ++ m :: b -> Forall (fun m => lacks m (title s)) a -> provides m (title s) c ->
  new c [] = Err e -> c_com Cls Obj w (title s) = None -> create (VStr s) args = Err GenericException.
Proof. intros N L M F P E C. rewrite (create_found s args a m b c) by assumption. rewrite E, C. reflexivity. Qed.
(** With a name that is not a constant the classes of the file itself are not found *)
Theorem C90_expression_refuted e s args : c_str Cls Obj w e = Some s -> c_lib Cls Obj w (title s) = None -> Forall (fun m => lacks m (title s)) (c_mods Cls Obj w) -> c_com Cls Obj w (title s) = None -> create (VCode e) args = Err GenericException.
Proof.
  intros E L F C. unfold create. cbn [create_target run_create]. rewrite E. unfold create_object. rewrite L, C. replace (class_get Cls (c_mods Cls Obj w) (title s)) with (@None Cls); [reflexivity|]. induction F as [|x a [A B] F IH]; [reflexivity|]. cbn [class_get]. rewrite A, B. exact IH.
Qed.
(** A library class is found also then, with its arguments *)
Theorem C90_expression_partial e s args c : c_str Cls Obj w e = Some s -> c_lib Cls Obj w (title s) = Some c -> create (VCode e) args = new c args.
Proof. intros E L. unfold create. cbn [create_target run_create]. rewrite E. unfold create_object. rewrite L. reflexivity. Qed.
End C90.
(** The text names the class and has the arguments in order *)
Theorem C90_text printable t args : create_code printable t args =
  match t with COwn n => n ++ u "(" ++ M_Lit.join (u ", ") args | CLib n => u "vfpfunc." ++ n ++ u "(" ++ M_Lit.join (u ", ") args | CCreate v => u "vfpfunc.create_object(" ++ M_Lit.join (u ", ") (value_repr printable v :: args) end ++ u ")".
Proof. destruct t; cbn [create_code]; unfold make_func_code; rewrite <- ?app_assoc; reflexivity. Qed.
Print Assumptions C90_case.
Print Assumptions C90_own.
Print Assumptions C90_library.
Print Assumptions C90_procedure_file_partial.
Print Assumptions C90_arguments_refuted.
Print Assumptions C90_error_refuted.
Print Assumptions C90_expression_refuted.
Print Assumptions C90_expression_partial.
Print Assumptions C90_text.
(** a world with one class of the file, one of the library and one of a procedure file; an object is its class and arguments *)
Definition ex_new (c : pystr) (args : list Z) : res (pystr * list Z) := Ok (c, args).
Definition is_n (n : pystr) (x : pystr) : option pystr := if pystr_eqb x n then Some n else None.
Definition ex_w : cworld pystr (pystr * list Z) := CWorld _ _ (is_n (u "Testclass")) (is_n (u "Form")) [PModule _ (is_n (u "Helper2X")) (fun _ => None)] (fun _ => None) (fun e => if pystr_eqb e (u "S.name") then Some (u "testclass") else None).
Example C90_example : let c := create pystr Z (pystr * list Z) ex_new ex_w [u "Testclass"] in
  c (VStr (u "TESTCLASS")) [1; 2] = Ok (u "Testclass", [1; 2]) /\ c (VStr (u "form")) [3] = Ok (u "Form", [3]) /\ c (VStr (u "helper2x")) [4] = Ok (u "Helper2X", []) /\ c (VCode (u "S.name")) [] = Err GenericException /\
  create_code (fun _ => true) (create_target [u "Testclass"] (fun _ => false) (VStr (u "testclass2"))) [u "4"] = u "vfpfunc.create_object('Testclass2', 4)".
Proof. vm_compute. repeat split. Qed.
