(** Property C86: DO runs the procedure or program it names. *)
From Verif Require Import PyBase PyStr M_Path M_Lit M_Stmt M_Do T_Path.
Open Scope Z_scope.

(** a procedure or file name in lower case: letters, digits and underscores, no keyword of Python *)
Definition name_ok (s : pystr) : Prop := valid_name s = true.
Lemma name_chars s : name_ok s -> s <> [] /\ Forall (fun c => name_char c = true) s.
Proof.
  unfold name_ok, valid_name, valid_identifier. rewrite andb_true_iff. intros [H _]. destruct s as [|c s]; [discriminate|]. split; [discriminate|]. rewrite forallb_forall in H. apply Forall_forall. exact H.
Qed.
Lemma name_no s c : name_ok s -> name_char c = false -> ~ In c s.
Proof. intros H N I. apply name_chars in H as [_ F]. rewrite Forall_forall in F. specialize (F c I). congruence. Qed.
Lemma name_named s : name_ok s -> named s.
Proof. intros H. destruct (name_chars s H) as [NE _]. destruct s as [|c s]; [congruence|]. exists c. split; [left; reflexivity|]. intros ->. exact (name_no _ 46 H eq_refl (or_introl eq_refl)). Qed.
Lemma splitext_name s : name_ok s -> splitext s = (s, []).
Proof. intros H. apply (splitext_plain [] s); [left; reflexivity|apply (name_no s 47 H eq_refl)|apply (name_no s 46 H eq_refl)]. Qed.
Lemma splitext_dotted s e : name_ok s -> ~ In 47 e -> ~ In 46 e -> splitext (s ++ 46 :: e) = (s, 46 :: e).
Proof. intros H A B. apply (splitext_ext [] s e); [left; reflexivity|apply (name_no s 47 H eq_refl)|apply name_named; exact H|exact A|exact B]. Qed.
Lemma one_of_in l s : one_of l s = true <-> In s l.
Proof. unfold one_of. rewrite existsb_exists. split; [intros (x & I & E); destruct (pystr_eqb_spec s x); [subst; exact I|discriminate]|intros I; exists s; split; [exact I|destruct (pystr_eqb_spec s s); congruence]]. Qed.
Lemma one_of_not l s : ~ In s l -> one_of l s = false.
Proof. intros N. apply not_true_is_false. intros X. apply N, one_of_in, X. Qed.
Lemma ends_with_spec s e : ends_with s e = true <-> exists r, s = r ++ e.
Proof.
  unfold ends_with. rewrite prefixb_spec. split; intros (r & E).
  - exists (rev r). apply (f_equal (@rev _)) in E. rewrite rev_involutive, rev_app_distr, rev_involutive in E. exact E.
  - exists (rev r). rewrite E, rev_app_distr. reflexivity.
Qed.
Lemma name_not_prg s : name_ok s -> ends_with s (u ".prg") = false.
Proof. intros H. apply not_true_is_false. intros X. apply ends_with_spec in X as (r & ->). apply (name_no _ 46 H eq_refl). apply in_or_app. right. left. reflexivity. Qed.
Lemma drop_prg s : drop_last 4 (s ++ u ".prg") = s.
Proof. unfold drop_last. replace (length (s ++ u ".prg") - 4)%nat with (length s) by (rewrite app_length; cbn [length u]; change (length (u ".prg")) with 4%nat; lia). induction s as [|c s IH]; [reflexivity|]. cbn [length app firstn]. f_equal. exact IH. Qed.
Lemma in_module_name m f : name_ok m -> in_module (VStr m) (VStr f) = TAttr m f.
Proof. intros H. unfold in_module. cbn [text]. rewrite name_not_prg by exact H. unfold name_ok in H. rewrite H. reflexivity. Qed.
Lemma in_module_prg m f : name_ok m -> in_module (VStr (m ++ u ".prg")) (VStr f) = TAttr m f.
Proof. intros H. unfold in_module. cbn [text]. rewrite (proj2 (ends_with_spec _ _)) by (exists m; reflexivity). rewrite drop_prg. unfold name_ok in H. rewrite H. reflexivity. Qed.

Section C86.
Context {P : Type}.
Variable printable : Z -> bool.
Variable filename : pystr.
Variable functions : list pystr.
Notation run w func inn := (called w (do_target filename functions func inn)).
(** the functions of the file are those in its list *)
Definition own_ok (w : world P) : Prop := forall n, In n functions <-> w_own w n <> None.

(** The arguments are passed as they are written, in order, whatever is called *)
Theorem C86_arguments func inn : exists f, forall args, do_text printable filename functions func inn args = f ++ u "(" ++ M_Lit.join (u ", ") args ++ u ")".
Proof. eexists. intros args. reflexivity. Qed.
(** The text of the statement names what is called *)
Theorem C86_text func inn args : do_text printable filename functions func inn args =
  match do_target filename functions func inn with
  | TName n => n
  | TF n => u "F." ++ n
  | TFkey e => u "F[" ++ value_repr printable e ++ u "]"
  | TAttr m n => m ++ u "." ++ n
  | TGet m e => u "getattr(" ++ m ++ u ", " ++ e ++ u ")"
  | TModAttr e n => u "vfpfunc.module(" ++ value_repr printable e ++ u ")." ++ n
  | TModGet e f => u "getattr(vfpfunc.module(" ++ value_repr printable e ++ u "), " ++ f ++ u ")"
  end ++ u "(" ++ M_Lit.join (u ", ") args ++ u ")".
Proof. unfold do_text, make_func_code. destruct (do_target filename functions func inn); cbn [show M_Lit.join]; unfold make_func_code; cbn [M_Lit.join]; rewrite <- ?app_assoc; reflexivity. Qed.
(** A procedure of the file itself is called directly, also with IN and the file's own name *)
Theorem C86_own_partial (w : world P) p inn : own_ok w -> In p functions -> inn = None \/ (name_ok filename /\ (inn = Some (VStr filename) \/ inn = Some (VStr (filename ++ u ".prg")))) ->
  run w (VStr p) inn = match w_own w p with Some x => Ok x | None => Err NameError end /\ w_own w p <> None.
Proof.
  intros O I H. split; [|apply O; exact I]. assert (D : do_target filename functions (VStr p) inn = TName p).
  { unfold do_target. destruct H as [-> | (Nf & [-> | ->])]; cbn [text].
    - change (splitext []) with (@nil Z, @nil Z). cbn [fst]. replace (if pystr_eqb [] filename then VStr [] else VStr []) with (VStr []) by (destruct (pystr_eqb [] filename); reflexivity). cbn [blank text]. rewrite (proj2 (one_of_in _ _) I). reflexivity.
    - rewrite splitext_name by exact Nf. cbn [fst]. destruct (pystr_eqb_spec filename filename); [|congruence]. cbn [blank text]. rewrite (proj2 (one_of_in _ _) I). reflexivity.
    - change (filename ++ u ".prg") with (filename ++ 46 :: u "prg"). rewrite splitext_dotted; [|exact Nf|intros [E|[E|[E|[]]]]; discriminate|intros [E|[E|[E|[]]]]; discriminate]. cbn [fst]. destruct (pystr_eqb_spec filename filename); [|congruence]. cbn [blank text]. rewrite (proj2 (one_of_in _ _) I). reflexivity. }
  rewrite D. cbn [called]. unfold get. destruct (w_own w p); reflexivity.
Qed.
Lemma target_none func : do_target filename functions func None =
  if one_of functions (text func) then TName (text func)
  else let (root, ext) := splitext (text func) in
       if one_of [u ".prg"; u ".mpr"; u ".spr"] ext then in_module (VStr (if one_of [u ".mpr"; u ".spr"] ext then root ++ u "_" ++ tl ext else root)) (VStr (u "MAIN")) else scope_func func.
Proof. unfold do_target. cbn [text]. replace (if pystr_eqb _ filename then VStr [] else VStr []) with (VStr []) by (destruct (pystr_eqb _ filename); reflexivity). reflexivity. Qed.
(** Any other procedure is looked for in the procedure files *)
Theorem C86_procedure_partial (w : world P) p : name_ok p -> ~ In p functions -> run w (VStr p) None = match w_F w p with Some x => Ok x | None => Err GenericException end.
Proof.
  intros H N. rewrite target_none. cbn [text]. rewrite one_of_not by exact N. rewrite splitext_name by exact H. change (one_of [u ".prg"; u ".mpr"; u ".spr"] []) with false. cbv iota. unfold scope_func. cbn [text]. unfold name_ok in H. rewrite H. cbn [called]. unfold get. destruct (w_F w p); reflexivity.
Qed.
(** DO name.prg runs the main program of that file, and DO name.mpr that of name_mpr *)
Definition no_clash (m : pystr) : Prop := ~ In m functions.
Theorem C86_program_partial (w : world P) p f : own_ok w -> name_ok p -> ~ In (p ++ u ".prg") functions -> no_clash p -> w_mod w p = Some f ->
  run w (VStr (p ++ u ".prg")) None = match f (u "MAIN") with Some x => Ok x | None => Err AttributeError end.
Proof.
  intros O H N C M. rewrite target_none. cbn [text]. rewrite one_of_not by exact N. change (p ++ u ".prg") with (p ++ 46 :: u "prg"). rewrite splitext_dotted; [|exact H|intros [E|[E|[E|[]]]]; discriminate|intros [E|[E|[E|[]]]]; discriminate].
  change (one_of [u ".prg"; u ".mpr"; u ".spr"] (46 :: u "prg")) with true. change (one_of [u ".mpr"; u ".spr"] (46 :: u "prg")) with false. cbv iota. rewrite in_module_name by exact H. cbn [called].
  destruct (w_own w p) eqn:W; [exfalso; apply C, O; congruence|]. rewrite M. cbn [get rbind]. destruct (f (u "MAIN")); reflexivity.
Qed.
(** DO name IN file runs the procedure of that file *)
Theorem C86_in_partial (w : world P) p m ext f : own_ok w -> name_ok m -> m <> filename -> no_clash m -> ext = [] \/ ext = u ".prg" -> w_mod w m = Some f ->
  run w (VStr p) (Some (VStr (m ++ ext))) = match f p with Some x => Ok x | None => Err AttributeError end.
Proof.
  intros O H NF C E M. assert (D : do_target filename functions (VStr p) (Some (VStr (m ++ ext))) = TAttr m p).
  { unfold do_target. cbn [text]. assert (S : fst (splitext (m ++ ext)) = m).
    { destruct E as [-> | ->]; [rewrite app_nil_r, splitext_name by exact H; reflexivity|]. change (m ++ u ".prg") with (m ++ 46 :: u "prg"). rewrite splitext_dotted; [reflexivity|exact H|intros [E|[E|[E|[]]]]; discriminate|intros [E|[E|[E|[]]]]; discriminate]. }
    rewrite S. destruct (pystr_eqb_spec m filename); [congruence|]. replace (blank (VStr (m ++ ext))) with false by (destruct (name_chars m H) as [NE _]; destruct m; [congruence|reflexivity]).
    destruct E as [-> | ->]; [rewrite app_nil_r; apply in_module_name; exact H|apply in_module_prg; exact H]. }
  rewrite D. cbn [called]. destruct (w_own w m) eqn:W; [exfalso; apply C, O; congruence|]. rewrite M. cbn [get rbind]. destruct (f p); reflexivity.
Qed.
(** DO name never runs the program name.prg: without a procedure of that name it fails, whatever programs there are *)
Theorem C86_file_refuted (w : world P) p : name_ok p -> ~ In p functions -> w_F w p = None -> run w (VStr p) None = Err GenericException.
Proof. intros H N F. rewrite C86_procedure_partial by assumption. rewrite F. reflexivity. Qed.
(** A program or file given with a directory is never found *)
Definition no_backslash (w : world P) : Prop := forall m, In 92 m -> w_mod w m = None.
Lemma lower_92 s : In 92 s -> In 92 (map lower_char s).
Proof. intros I. apply (in_map lower_char) in I. exact I. Qed.
Lemma bs_not_valid s : In 92 s -> valid_name s = false.
Proof. intros I. apply not_true_is_false. intros X. exact (name_no s 92 X eq_refl I). Qed.
Lemma in_module_dir (w : world P) m p : no_backslash w -> In 92 m -> called w (in_module (VStr m) (VStr p)) = Err GenericException.
Proof.
  intros B I. unfold in_module. cbn [text]. destruct (ends_with m (u ".prg")) eqn:E.
  - apply ends_with_spec in E as (r & ->). rewrite drop_prg. assert (I' : In 92 r) by (apply in_app_or in I as [I|[I|[I|[I|[I|[]]]]]]; [exact I|discriminate..]).
    rewrite bs_not_valid by exact I'. cbn [called value_of rbind]. unfold py_module. rewrite (B _ (lower_92 _ I')). reflexivity.
  - rewrite bs_not_valid by exact I. cbn [called value_of rbind]. unfold py_module. rewrite (B _ (lower_92 _ I)). reflexivity.
Qed.
Theorem C86_directory_refuted (w : world P) d p m : no_backslash w -> ~ In 47 d -> ~ In 46 d -> name_ok m -> m <> filename -> name_ok p ->
  (~ In (d ++ u "\" ++ m ++ u ".prg") functions -> run w (VStr (d ++ u "\" ++ m ++ u ".prg")) None = Err GenericException) /\
  (fst (splitext (d ++ u "\" ++ m ++ u ".prg")) <> filename -> run w (VStr p) (Some (VStr (d ++ u "\" ++ m ++ u ".prg"))) = Err GenericException).
Proof.
  intros B D1 D2 H NF Hp. set (x := d ++ u "\" ++ m). replace (d ++ u "\" ++ m ++ u ".prg") with (x ++ 46 :: u "prg") by (unfold x; rewrite <- !app_assoc; reflexivity).
  assert (I : In 92 x) by (unfold x; apply in_or_app; right; left; reflexivity).
  assert (S : splitext (x ++ 46 :: u "prg") = (x, 46 :: u "prg")).
  { apply (splitext_ext [] x); [left; reflexivity| |exists 92; split; [exact I|discriminate]|intros [E|[E|[E|[]]]]; discriminate|intros [E|[E|[E|[]]]]; discriminate].
    unfold x. intros J. apply in_app_or in J as [J|[J|J]]; [exact (D1 J)|discriminate|exact (name_no m 47 H eq_refl J)]. }
  split.
  - intros N. rewrite target_none. cbn [text]. rewrite one_of_not by exact N. rewrite S. change (one_of [u ".prg"; u ".mpr"; u ".spr"] (46 :: u "prg")) with true. change (one_of [u ".mpr"; u ".spr"] (46 :: u "prg")) with false. cbv iota.
    apply in_module_dir; assumption.
  - rewrite S. cbn [fst]. intros N. unfold do_target. cbn [text]. rewrite S. cbn [fst]. destruct (pystr_eqb_spec x filename); [congruence|]. replace (blank (VStr (x ++ 46 :: u "prg"))) with false by (destruct x; reflexivity).
    apply in_module_dir; [exact B|apply in_or_app; left; exact I].
Qed.
(** A program with the name of a procedure of the file is never run *)
Theorem C86_clash_refuted (w : world P) p : own_ok w -> name_ok p -> In p functions -> ~ In (p ++ u ".prg") functions -> run w (VStr (p ++ u ".prg")) None = Err AttributeError.
Proof.
  intros O H I N. rewrite target_none. cbn [text]. rewrite one_of_not by exact N. change (p ++ u ".prg") with (p ++ 46 :: u "prg"). rewrite splitext_dotted; [|exact H|intros [E|[E|[E|[]]]]; discriminate|intros [E|[E|[E|[]]]]; discriminate].
  change (one_of [u ".prg"; u ".mpr"; u ".spr"] (46 :: u "prg")) with true. change (one_of [u ".mpr"; u ".spr"] (46 :: u "prg")) with false. cbv iota. rewrite in_module_name by exact H. cbn [called]. destruct (w_own w p) eqn:W; [reflexivity|]. apply O in I. congruence.
Qed.
(** DO (name) with a variable called prg is taken for a program called S *)
Theorem C86_variable_refuted (w : world P) : own_ok w -> ~ In (u "S.prg") functions -> ~ In (u "S") functions -> w_mod w (u "S") = None -> run w (VCode (u "S.prg")) None = Err GenericException.
Proof.
  intros O N N' M. rewrite target_none. cbn [text]. rewrite one_of_not by exact N. change (splitext (u "S.prg")) with (u "S", u ".prg"). cbv iota beta. change (one_of [u ".prg"; u ".mpr"; u ".spr"] (u ".prg")) with true. change (one_of [u ".mpr"; u ".spr"] (u ".prg")) with false. cbv iota.
  rewrite in_module_name by reflexivity. cbn [called]. destruct (w_own w (u "S")) eqn:W; [exfalso; apply N', O; congruence|]. rewrite M. reflexivity.
Qed.
(** A file whose programs are all there does load *)
Theorem C86_loads_partial (w : world P) ts : (forall t m, In t ts -> do_import t = Some m -> w_mod w m <> None) -> loads w ts = true.
Proof.
  intros H. unfold loads. apply forallb_forall. intros t I. destruct (do_import t) as [m|] eqn:E; [|reflexivity]. specialize (H t m I E). destruct (w_mod w m); [reflexivity|congruence].
Qed.
(** One DO name.prg or DO ... IN name for a file that is not there keeps the whole file from loading *)
Theorem C86_missing_refuted (w : world P) p before after : name_ok p -> ~ In (p ++ u ".prg") functions -> w_mod w p = None -> loads w (before ++ do_target filename functions (VStr (p ++ u ".prg")) None :: after) = false.
Proof.
  intros H N M. rewrite target_none. cbn [text]. rewrite one_of_not by exact N. change (p ++ u ".prg") with (p ++ 46 :: u "prg"). rewrite splitext_dotted; [|exact H|intros [E|[E|[E|[]]]]; discriminate|intros [E|[E|[E|[]]]]; discriminate].
  change (one_of [u ".prg"; u ".mpr"; u ".spr"] (46 :: u "prg")) with true. change (one_of [u ".mpr"; u ".spr"] (46 :: u "prg")) with false. cbv iota. rewrite in_module_name by exact H. unfold loads. rewrite forallb_app. cbn [forallb do_import]. rewrite M, andb_false_l, andb_false_r. reflexivity.
Qed.
End C86.
Print Assumptions C86_arguments.
Print Assumptions C86_text.
Print Assumptions C86_own_partial.
Print Assumptions C86_procedure_partial.
Print Assumptions C86_program_partial.
Print Assumptions C86_in_partial.
Print Assumptions C86_file_refuted.
Print Assumptions C86_directory_refuted.
Print Assumptions C86_clash_refuted.
Print Assumptions C86_variable_refuted.
Print Assumptions C86_loads_partial.
Print Assumptions C86_missing_refuted.
(** the cases of the project's own tests, and a world in which they run *)
Definition ex_world : world pystr := World (fun n => if pystr_eqb n (u "init") then Some (u "own") else None) (fun n => if pystr_eqb n (u "lib") then Some (u "lib") else None)
  (fun m => if pystr_eqb m (u "test") then Some (fun n => Some (u "test." ++ n)) else None) (fun _ => None).
Example C86_example : let t := do_text (fun _ => false) (u "main") [u "init"] in let r f i := called ex_world (do_target (u "main") [u "init"] f i) in
  t (VStr (u "a")) None [] = u "F.a()" /\ t (VStr (u "a+b")) None [] = u "F['a+b']()" /\ t (VCode (u "S.a + S.b")) None [] = u "F[S.a + S.b]()" /\
  t (VStr (u "test")) (Some (VStr (u "a"))) [] = u "a.test()" /\ t (VStr (u "test")) (Some (VCode (u "S.a"))) [] = u "vfpfunc.module(S.a).test()" /\
  t (VStr (u "test.prg")) None [u "1"; u "S.x"] = u "test.MAIN(1, S.x)" /\ t (VStr (u "test")) (Some (VStr (u "test.prg"))) [] = u "test.test()" /\
  r (VStr (u "init")) None = Ok (u "own") /\ r (VStr (u "lib")) None = Ok (u "lib") /\ r (VStr (u "test.prg")) None = Ok (u "test.MAIN") /\ r (VStr (u "test")) None = Err GenericException /\
  own_ok [u "init"] ex_world.
Proof.
  cbv zeta. do 11 (split; [vm_compute; reflexivity|]). intros n. cbn [ex_world w_own]. destruct (pystr_eqb_spec n (u "init")) as [E|E]; split; [discriminate|left; congruence|intros [I|[]]; congruence|congruence].
Qed.
