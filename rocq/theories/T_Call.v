(** Property C110: what a call in an expression reaches. *)
From Verif Require Import PyBase PyStr M_Abbr T_Abbr M_Lit M_Stmt M_Do M_Call S_Call.
Open Scope Z_scope.

Lemma eqb_eq a b : pystr_eqb a b = true <-> a = b.
Proof. destruct (pystr_eqb_spec a b); split; intros; try assumption; try reflexivity; try discriminate; contradiction. Qed.
Lemma one_of_spec l s : one_of l s = true <-> In s l.
Proof.
  unfold one_of. rewrite existsb_exists. split.
  - intros (x & I & E). rewrite (eqb_eq s x) in E. subst. exact I.
  - intros I. exists s. split; [exact I|]. apply eqb_eq. reflexivity.
Qed.
Lemma one_of_no l s : one_of l s = false <-> ~ In s l.
Proof. rewrite <- one_of_spec. destruct (one_of l s); split; intros; try discriminate; try reflexivity; congruence. Qed.
Lemma lookup_in (d : dict) k v : lookup d k = Some v -> In (k, v) d.
Proof.
  induction d as [|[x y] d IH]; [discriminate|]. cbn [lookup]. destruct (pystr_eqb x k) eqn:E.
  - intros [= <-]. rewrite (eqb_eq x k) in E. subst. left. reflexivity.
  - intros H. right. exact (IH H).
Qed.

(** Full names *)
Definition full_names : list pystr := map full_of function_abbreviations.
Definition row_ok (r : pystr) : bool := existsb (Z.eqb 124) r && (min_of r <=? length (full_of r))%nat.
Lemma rows_ok : forallb row_ok function_abbreviations = true.
Proof. vm_compute. reflexivity. Qed.
Lemma cut_join r : In 124 r -> exists a b, r = a ++ 124 :: b /\ ~ In 124 a /\ cut_at r = (a, b).
Proof.
  induction r as [|c r IH]; intros H; [destruct H|]. cbn [cut_at]. destruct (Z.eqb_spec c 124) as [-> | N].
  - exists [], r. auto.
  - destruct H as [H | H]; [congruence|]. destruct (IH H) as (a & b & -> & Na & ->). exists (c :: a), b. split; [reflexivity|]. split; [|reflexivity]. intros [X | X]; [congruence|auto].
Qed.
Lemma full_abbreviates r : In r function_abbreviations -> abbreviates (full_of r) r /\ names r (full_of r).
Proof.
  intros I. pose proof rows_ok as R. rewrite forallb_forall in R. specialize (R r I). unfold row_ok in R. apply andb_prop in R as [B L]. rewrite existsb_exists in B.
  destruct B as (x & Bx & Ex). apply Z.eqb_eq in Ex. subst x. destruct (cut_join r Bx) as (a & b & E & Na & C). apply Nat.leb_le in L.
  unfold min_of, full_of in L. unfold full_of. rewrite C in *. cbn [fst] in L. destruct (lower_small (a ++ b)) as [S1 S2]. split.
  - exists a, b, []. rewrite app_nil_r. auto.
  - exists a, b. auto.
Qed.
Lemma full_native f : In f full_names -> native f.
Proof. intros I. unfold full_names in I. apply in_map_iff in I as (r & <- & I). left. exists r. split; [exact I|]. apply full_abbreviates. exact I. Qed.
Lemma listed_native f : one_of full_names f || one_of short_natives f = true -> native f.
Proof. intros H. apply orb_prop in H as [H | H]; apply one_of_spec in H; [apply full_native; exact H|right; exact H]. Qed.

Definition special (f : pystr) : Prop := In f reserved \/ In f converter_words.
Definition specialb (f : pystr) : bool := one_of reserved f || one_of converter_words f.
Lemma special_spec f : specialb f = true -> special f.
Proof. intros H. apply orb_prop in H as [H | H]; apply one_of_spec in H; [left|right]; exact H. Qed.
Lemma text_native : native (u "text").
Proof.
  left. exists (u "TEXT|MERGE"). split; [apply one_of_spec; vm_compute; reflexivity|]. exists (u "TEXT"), (u "MERGE"), (u "merge").
  split; [reflexivity|]. split; [cbn; intuition discriminate|]. split; [cbn; repeat (constructor; [right; split; [split; discriminate|reflexivity]|]); constructor|].
  split; [cbn; repeat (constructor; [intros [X Y]; exact (Y eq_refl)|]); constructor|cbn; repeat constructor].
Qed.
Definition known (f : pystr) : bool := one_of full_names f || one_of short_natives f || pystr_eqb f (u "text") || specialb f.
Lemma known_spec f : known f = true -> native f \/ special f.
Proof. unfold known. intros H. apply orb_prop in H as [H | H]; [left|right; apply special_spec; exact H]. apply orb_prop in H as [H | H]; [apply listed_native; exact H|]. apply eqb_eq in H. subst. exact text_native. Qed.
Lemma all_known l f : forallb known l = true -> In f l -> native f \/ special f.
Proof. rewrite forallb_forall. intros H I. apply known_spec, H, I. Qed.

Section Call.
Variable by_value : pystr -> bool.
Variable P : Type.
Variable w : world P.
Variable vars : pystr -> option P.
Variable functions : list pystr.
Definition own_ok : Prop := forall n, In n functions <-> w_own w n <> None.
Notation call f n := (reached vars w (call_target by_value functions f n)).

Lemma resolve_other f : ~ native f -> ~ special f -> resolve f = f.
Proof.
  intros Nn Ns. unfold resolve. rewrite (C50_others f).
  - destruct (lookup other_names f) eqn:L; [|reflexivity]. exfalso. apply lookup_in in L.
    assert (I : In f (map fst other_names)) by (apply in_map_iff; eexists; split; [|exact L]; reflexivity).
    apply (all_known (map fst other_names) f ltac:(vm_compute; reflexivity)) in I as [I | I]; auto.
  - intros row I A. apply Nn. left. exists row. auto.
  - intros ->. apply Ns. right. apply one_of_spec. reflexivity.
  - intros ->. apply Nn. right. apply one_of_spec. reflexivity.
Qed.
Lemma not_inlined f n : ~ native f -> ~ special f -> inlined by_value f n = false.
Proof.
  intros Nn Ns. unfold inlined. apply orb_false_iff. split; [apply orb_false_iff; split|].
  - apply one_of_no. intros I. apply (all_known inlined_always f ltac:(vm_compute; reflexivity)) in I as [I | I]; auto.
  - destruct (existsb _ inlined_with) eqn:E; [|reflexivity]. exfalso. apply existsb_exists in E as (p & I & E). apply andb_prop in E as [E _]. rewrite (eqb_eq f (fst p)) in E.
    assert (J : In f (map fst inlined_with)) by (rewrite E; apply in_map; exact I).
    apply (all_known (map fst inlined_with) f ltac:(vm_compute; reflexivity)) in J as [J | J]; auto.
  - apply andb_false_iff. left. apply one_of_no. intros I. apply (all_known inlined_by_value f ltac:(vm_compute; reflexivity)) in I as [I | I]; auto.
Qed.
Lemma not_runtime f : ~ native f -> ~ special f -> one_of lib_names f = false /\ one_of db_names f = false /\ one_of f_attributes f = false /\ pystr_eqb f (u "dodefault") = false.
Proof.
  intros Nn Ns. repeat split; [apply one_of_no; intros I ..|].
  - apply (all_known lib_names f ltac:(vm_compute; reflexivity)) in I as [I | I]; auto.
  - apply (all_known db_names f ltac:(vm_compute; reflexivity)) in I as [I | I]; auto.
  - apply (all_known f_attributes f ltac:(vm_compute; reflexivity)) in I as [I | I]; auto.
  - destruct (pystr_eqb f (u "dodefault")) eqn:E; [|reflexivity]. rewrite (eqb_eq f (u "dodefault")) in E. subst. exfalso. apply Nn. apply listed_native. vm_compute. reflexivity.
Qed.
Lemma other_call f n : ~ native f -> ~ special f ->
  call_target by_value functions f n = if one_of functions f then COwn f else CF f.
Proof.
  intros Nn Ns. unfold call_target. rewrite (resolve_other f Nn Ns), (not_inlined f n Nn Ns). destruct (not_runtime f Nn Ns) as (-> & -> & _ & ->). reflexivity.
Qed.

(** What FoxPro means and what is reached *)
Definition agrees (m : meaning) (r : res (callee P)) : Prop :=
  match m with
  | Native f => r = Ok (Inlined f) \/ r = Ok (Runtime f)
  | OwnProcedure f => exists p, w_own w f = Some p /\ r = Ok (Procedure p)
  | FileProcedure f => exists p, w_F w f = Some p /\ r = Ok (Procedure p)
  | Program _ => False
  | Unknown => exists e, r = Err e
  end.
(** A name that is neither native nor used by the run time, and not that of a program file *)
Theorem C110_meaning_partial programs f n m : own_ok -> means (fun f => In f functions) (fun f => w_F w f <> None) programs f m -> ~ native f -> ~ special f -> m <> Program f ->
  agrees m (call f n).
Proof.
  intros O M Nn Ns Np. rewrite (other_call f n Nn Ns). destruct (not_runtime f Nn Ns) as (_ & _ & A & _). destruct M as [N | _ I | _ I Q | _ I Q G | _ I Q G]; try contradiction; cbn [agrees].
  - rewrite (proj2 (one_of_spec functions f) I). cbn [reached]. destruct (w_own w f) as [p|] eqn:E; [exists p; auto|]. apply O in I. contradiction.
  - rewrite (proj2 (one_of_no functions f) I). cbn [reached]. rewrite A. destruct (w_F w f) as [p|] eqn:E; [exists p; auto|contradiction].
  - rewrite (proj2 (one_of_no functions f) I). cbn [reached]. rewrite A. destruct (w_F w f) as [p|] eqn:E; [exfalso; apply Q; discriminate|]. exists GenericException. reflexivity.
Qed.
(** A program file is not found *)
Theorem C110_program_refuted programs f n : means (fun f => In f functions) (fun f => w_F w f <> None) programs f (Program f) -> ~ special f -> call f n = Err GenericException.
Proof.
  intros M Ns. inversion M as [| | |Nn I Q G E|]; subst. rewrite (other_call f n Nn Ns), (proj2 (one_of_no functions f) I). cbn [reached].
  destruct (not_runtime f Nn Ns) as (_ & _ & -> & _). destruct (w_F w f); [exfalso; apply Q; discriminate|reflexivity].
Qed.
(** Abbreviations are the function *)
Theorem C110_abbreviation row s full n : In row function_abbreviations -> abbreviates s row -> names row full -> call s n = call full n.
Proof.
  intros I A N. pose proof (C50_expands row s full I A N) as E. assert (X : expand full = full) by (rewrite <- E; apply C50_idempotent).
  unfold call_target, resolve. rewrite E, X. reflexivity.
Qed.
(** Native functions, with the numbers of arguments that are provided for *)
Definition renamed : list (pystr * pystr) := map (fun p => (u (fst p), u (snd p)))
  [("at_c", "at"); ("atcc", "atc"); ("atcline", "atline"); ("chrtranc", "chrtran"); ("leftc", "left"); ("lenc", "len"); ("likec", "like"); ("ratc", "rat"); ("rightc", "right");
   ("select", "select_function"); ("stuffc", "stuff"); ("substrc", "substr"); ("sys", "vfp_sys"); ("trim", "rtrim")]%string.
Definition counted : list (pystr * list nat) := map (fun p => (u (fst p), snd p))
  [("chr", [1]); ("val", [1]); ("space", [1]); ("replicate", [2]); ("iif", [3]); ("left", [2]); ("leftc", [2]); ("ascan", [2; 3; 4]); ("strconv", [])]%nat%string.
Definition allowed (f : pystr) (n : nat) : Prop := forall l, In (f, l) counted -> In n l.
Definition name_of (f g : pystr) : Prop := In (f, g) renamed \/ (f = g /\ ~ In f (map fst renamed)).
Definition provided (f : pystr) : bool :=
  let g := resolve f in
  one_of missing f || pystr_eqb f (u "dodefault") ||
  (negb (pystr_eqb g (u "dodefault")) && (one_of inlined_always g || one_of lib_names g || one_of db_names g || existsb (fun p => pystr_eqb f (fst p)) counted) &&
   (existsb (fun p => pystr_eqb f (fst p) && pystr_eqb g (snd p)) renamed || (pystr_eqb f g && negb (one_of (map fst renamed) f)))).
Lemma natives_provided : forallb provided (full_names ++ short_natives) = true.
Proof. vm_compute. reflexivity. Qed.
Lemma counted_inlined f n : In f (map fst counted) -> allowed f n -> inlined by_value (resolve f) n = true.
Proof.
  intros I A. apply in_map_iff in I as ([g l] & <- & I). cbn [fst] in *. specialize (A l I).
  assert (C : forallb (fun p => forallb (fun n => existsb (fun q => pystr_eqb (resolve (fst p)) (fst q) && existsb (Nat.eqb n) (snd q)) inlined_with) (snd p)) counted = true)
    by (vm_compute; reflexivity).
  rewrite forallb_forall in C. specialize (C _ I). cbn [fst snd] in C. rewrite forallb_forall in C. specialize (C _ A). unfold inlined. rewrite C. rewrite orb_true_r. reflexivity.
Qed.
Theorem C110_native_partial f n : In f full_names \/ In f short_natives -> ~ In f missing -> f <> u "dodefault" -> allowed f n ->
  exists g, name_of f g /\ (In g functions \/ call f n = Ok (Inlined g) \/ call f n = Ok (Runtime g)).
Proof.
  intros N M D A. assert (Q : provided f = true).
  { pose proof natives_provided as H. rewrite forallb_forall in H. apply H. apply in_or_app. exact N. }
  unfold provided in Q. rewrite (proj2 (one_of_no missing f) M) in Q. cbn [orb] in Q. apply orb_prop in Q as [Q | Q]; [apply eqb_eq in Q; contradiction|].
  apply andb_prop in Q as [Q R]. apply andb_prop in Q as [Q K]. apply negb_true_iff in Q. exists (resolve f). split.
  - apply orb_prop in R as [R | R].
    + left. apply existsb_exists in R as ([a b] & I & R). apply andb_prop in R as [R1 R2]. apply eqb_eq in R1. apply eqb_eq in R2. cbn [fst snd] in *. subst a b. exact I.
    + right. apply andb_prop in R as [R1 R2]. apply eqb_eq in R1. split; [exact R1|]. apply one_of_no. apply negb_true_iff. exact R2.
  - unfold call_target. cbv zeta. rewrite Q. destruct (one_of functions (resolve f)) eqn:F; [left; apply one_of_spec; exact F|]. right.
    destruct (inlined by_value (resolve f) n) eqn:I; [left; reflexivity|]. right.
    destruct (one_of lib_names (resolve f)); [reflexivity|]. destruct (one_of db_names (resolve f)); [reflexivity|]. exfalso.
    rewrite !orb_false_r in K. apply orb_prop in K as [K | K]; [unfold inlined in I; rewrite K in I; discriminate|].
    apply existsb_exists in K as (p & J & E). apply eqb_eq in E. rewrite counted_inlined in I; [discriminate|rewrite E; apply in_map; exact J|exact A].
Qed.
(** A procedure of the program with the name of a native function is called instead *)
Theorem C110_native_refuted f n p : own_ok -> native f -> resolve f = f -> f <> u "dodefault" -> w_own w f = Some p -> call f n = Ok (Procedure p).
Proof.
  intros O _ R D E. unfold call_target. rewrite R. destruct (pystr_eqb f (u "dodefault")) eqn:B; [apply eqb_eq in B; contradiction|].
  assert (I : In f functions) by (apply O; rewrite E; discriminate). rewrite (proj2 (one_of_spec functions f) I). cbn [reached]. rewrite E. reflexivity.
Qed.
(** Many native functions are looked up as procedures, whatever the arguments *)
Theorem C110_missing_refuted f n : In f missing -> ~ In f functions -> native f /\ call f n = match w_F w f with Some p => Ok (Procedure p) | None => Err GenericException end.
Proof.
  intros I F.
  assert (C : forallb (fun f => (one_of full_names f || one_of short_natives f) && pystr_eqb (resolve f) f && negb (pystr_eqb f (u "dodefault")) && negb (one_of inlined_always f) &&
    negb (one_of inlined_by_value f) && negb (existsb (fun p => pystr_eqb f (fst p)) inlined_with) && negb (one_of lib_names f) && negb (one_of db_names f) && negb (one_of f_attributes f)) missing = true)
    by (vm_compute; reflexivity).
  rewrite forallb_forall in C. specialize (C _ I). repeat (apply andb_prop in C as [C ?]). split; [apply listed_native; exact C|].
  repeat match goal with H : negb _ = true |- _ => apply negb_true_iff in H | H : pystr_eqb (resolve _) _ = true |- _ => apply eqb_eq in H end.
  unfold call_target. cbv zeta.
  match goal with H : resolve f = f |- _ => rewrite H end.
  match goal with H : pystr_eqb f _ = false |- _ => rewrite H end. rewrite (proj2 (one_of_no functions f) F).
  assert (L : inlined by_value f n = false).
  { unfold inlined. match goal with H : one_of inlined_always f = false |- _ => rewrite H end. match goal with H : one_of inlined_by_value f = false |- _ => rewrite H end.
    cbn [orb andb]. rewrite orb_false_r. match goal with |- ?b = false => destruct b eqn:E; [exfalso|reflexivity] end. apply existsb_exists in E as (p & J & E). apply andb_prop in E as [E _].
    match goal with H : existsb _ inlined_with = false |- _ => rewrite (proj2 (existsb_exists _ _)) in H; [discriminate|exists p; auto] end. }
  rewrite L. match goal with H : one_of lib_names f = false |- _ => rewrite H end. match goal with H : one_of db_names f = false |- _ => rewrite H end. cbn [reached].
  match goal with H : one_of f_attributes f = false |- _ => rewrite H end. destruct (w_F w f); reflexivity.
Qed.
(** A procedure of a procedure file with a name the run time uses is not called *)
Theorem C110_reserved_refuted f n : In f reserved -> ~ In f functions -> call f n = Ok (Runtime f).
Proof.
  intros I F.
  assert (C : forallb (fun f => pystr_eqb (resolve f) f && negb (pystr_eqb f (u "dodefault")) && negb (one_of inlined_always f) &&
    negb (one_of inlined_by_value f) && negb (existsb (fun p => pystr_eqb f (fst p)) inlined_with) && (one_of lib_names f || one_of db_names f || one_of f_attributes f)) reserved = true)
    by (vm_compute; reflexivity).
  rewrite forallb_forall in C. specialize (C _ I). apply andb_prop in C as [C K]. repeat (apply andb_prop in C as [C ?]). 
  repeat match goal with H : negb _ = true |- _ => apply negb_true_iff in H end. apply eqb_eq in C.
  unfold call_target. cbv zeta. rewrite C.
  match goal with H : pystr_eqb f _ = false |- _ => rewrite H end. rewrite (proj2 (one_of_no functions f) F).
  assert (L : inlined by_value f n = false).
  { unfold inlined. match goal with H : one_of inlined_always f = false |- _ => rewrite H end. match goal with H : one_of inlined_by_value f = false |- _ => rewrite H end.
    cbn [orb andb]. rewrite orb_false_r. match goal with |- ?b = false => destruct b eqn:E; [exfalso|reflexivity] end. apply existsb_exists in E as (p & J & E). apply andb_prop in E as [E _].
    match goal with H : existsb _ inlined_with = false |- _ => rewrite (proj2 (existsb_exists _ _)) in H; [discriminate|exists p; auto] end. }
  rewrite L. destruct (one_of lib_names f); [reflexivity|]. destruct (one_of db_names f); [reflexivity|]. cbn [orb] in K. cbn [reached]. rewrite K. reflexivity.
Qed.
(** The value of a call used at once, f(...).name, is looked for among the variables *)
Theorem C110_object_refuted f n : vars f = None -> reached vars w (used_target by_value functions f n true) = Err NameError.
Proof. intros V. cbn [used_target reached]. rewrite V. reflexivity. Qed.

(** The code of in-lined functions uses the names of Python it says, unless the program has a procedure of that name *)
Theorem C110_builtin_partial f gs : In (f, gs) globals -> (forall g, In g gs -> w_own w g = None) -> forall o, In o (used w f) -> exists g, o = Python g.
Proof.
  intros I G o U. unfold used in U. apply in_flat_map in U as ([h hs] & J & U). cbn [fst snd] in U. destruct (pystr_eqb f h) eqn:E; [|destruct U]. apply eqb_eq in E. subst h.
  assert (X : forallb (fun p => forallb (fun q => negb (pystr_eqb (fst p) (fst q)) || (Nat.eqb (length (snd p)) (length (snd q)) && forallb (fun b => b) (map (fun xy => pystr_eqb (fst xy) (snd xy)) (combine (snd p) (snd q))))) globals) globals = true)
    by (vm_compute; reflexivity).
  rewrite forallb_forall in X. specialize (X _ I). rewrite forallb_forall in X. specialize (X _ J). cbn [fst snd] in X. rewrite (proj2 (eqb_eq f f) eq_refl) in X. cbn [negb orb] in X.
  assert (S : hs = gs).
  { clear - X. apply andb_prop in X as [L X]. apply Nat.eqb_eq in L. revert hs L X. induction gs as [|g gs IH]; intros [|h hs] L X; try discriminate; [reflexivity|].
    cbn [combine map forallb fst snd] in X. apply andb_prop in X as [X1 X2]. apply eqb_eq in X1. subst. f_equal. apply IH; [cbn in L; congruence|exact X2]. }
  subst hs. apply in_map_iff in U as (g & <- & Ig). exists g. unfold global. rewrite (G g Ig). reflexivity.
Qed.
Theorem C110_builtin_refuted f gs g p : In (f, gs) globals -> In g gs -> w_own w g = Some p -> In (Own p) (used w f).
Proof.
  intros I G E. unfold used. apply in_flat_map. exists (f, gs). split; [exact I|]. cbn [fst snd]. rewrite (proj2 (eqb_eq f f) eq_refl). apply in_map_iff. exists g. split; [|exact G].
  unfold global. rewrite E. reflexivity.
Qed.
(** The arguments are passed in order *)
Theorem C110_text printable t g args : target_text printable t = Some g -> call_text printable t args = Some (g ++ u "(" ++ M_Lit.join (u ", ") args ++ u ")").
Proof. intros E. unfold call_text. rewrite E. reflexivity. Qed.
End Call.
Print Assumptions C110_meaning_partial.
Print Assumptions C110_program_refuted.
Print Assumptions C110_abbreviation.
Print Assumptions C110_native_partial.
Print Assumptions C110_native_refuted.
Print Assumptions C110_missing_refuted.
Print Assumptions C110_reserved_refuted.
Print Assumptions C110_object_refuted.
Print Assumptions C110_builtin_partial.
Print Assumptions C110_builtin_refuted.
Print Assumptions C110_text.

(** A program with the procedures init, upper and open; a procedure file with helper, replace and transform *)
Definition ex_own : list pystr := map u ["init"; "upper"; "open"]%string.
Definition ex_procs : list pystr := map u ["helper"; "replace"]%string.
Definition ex_world : world pystr := World (fun f => if one_of ex_own f then Some f else None) (fun f => if one_of ex_procs f then Some (u "file " ++ f) else None) (fun _ => None) (fun _ => None).
Definition ex_call (f : string) (n : nat) := reached (fun _ => None) ex_world (call_target (fun _ => false) ex_own (u f) n).
Example C110_example :
  own_ok _ ex_world ex_own /\
  ex_call "init" 2 = Ok (Procedure (u "init")) /\ ex_call "helper" 0 = Ok (Procedure (u "file helper")) /\ ex_call "nothing" 1 = Err GenericException /\
  ex_call "lowe" 1 = Ok (Inlined (u "lower")) /\ ex_call "seconds" 0 = Ok (Runtime (u "seconds")) /\ ex_call "leftc" 2 = Ok (Inlined (u "left")) /\
  ex_call "upper" 1 = Ok (Procedure (u "upper")) /\ ex_call "transform" 1 = Err GenericException /\ ex_call "replace" 3 = Ok (Runtime (u "replace")) /\
  used ex_world (u "fopen") = [Own (u "open")] /\ used ex_world (u "sqrt") = [Python (u "math")] /\
  call_text (fun _ => true) (CF (u "helper")) [u "S.x"; u "2"] = Some (u "F.helper(S.x, 2)").
Proof.
  split; [|repeat split].
  intros n. cbn [w_own ex_world]. destruct (one_of ex_own n) eqn:E; [apply one_of_spec in E; split; intros; [discriminate|exact E]|apply one_of_no in E; split; intros X; contradiction].
Qed.
