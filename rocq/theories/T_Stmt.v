(** Properties C40, C41, C47, C51, C68: the conversion of statements. *)
From Verif Require Import PyBase PyStr M_Stmt S_Stmt P_Stmt P_Stmt2 P_Stmt3.
Open Scope Z_scope.

Ltac check := repeat match goal with
  | |- refs _ _ => solve [let X := fresh in intros X; discriminate X | intros _; repeat constructor]
  | |- one_line _ => apply one_line_lit; reflexivity
  | |- Forall _ _ => constructor
  | |- _ <> _ => discriminate
  | |- _ /\ _ => split
  | |- True => exact I
  | |- _ = _ => reflexivity
  | |- _ => progress hnf
  end.
(** The text the converter emits for a list of lines, outside any WITH *)
Definition emitted (l : flines) : pystr := add_indents (fst (lines [] l)) 0.
Definition only (s : fstmt) : flines := FCons s FNil.

(** * A machine that logs the commands it runs; the condition "t" is true, the command "fail" fails, others just log. *)
Definition strip_not (s : pystr) : option pystr :=
  if pystr_eqb (firstn 5 s) (u "not (") && (last s 0 =? 41) then Some (removelast (skipn 5 s)) else None.
Definition negate {E} (r : bool + E) : bool + E := match r with inl b => inl (negb b) | inr e => inr e end.
Fixpoint decide (n : nat) (s : pystr) : bool + unit :=
  match n with
  | O => inl false
  | S n => match strip_not s with Some c => negate (decide n c) | None => inl (pystr_eqb s (u "True") || pystr_eqb s (u "t")) end
  end.
Definition logger : machine := {|
  St := list pystr; Ex := unit; It := nat;
  m_run cur t st :=
    if pystr_eqb t (u "pass") then (st, Normal)
    else if pystr_eqb t (u "break") then (st, Break)
    else if pystr_eqb t (u "continue") then (st, Continue)
    else if pystr_eqb t (u "raise") then (st, match cur with Some e => Raise e | None => Normal end)
    else if pystr_eqb t (u "fail") then (st, Raise tt)
    else (st ++ [t], Normal);
  m_test c st := (st, decide (S (length c)) c);
  m_start h st := (st ++ [h], inl 2%nat);
  m_next n st := (st, inl match n with O => None | S n => Some n end);
  m_bind x e st := st ++ [u "S." ++ x ++ u " = vfpfunc.Exception.from_pyexception(err)"]
|}.
Lemma strip_wrap c : strip_not (u "not (" ++ c ++ u ")") = Some c.
Proof.
  unfold strip_not. replace (last (u "not (" ++ c ++ u ")") 0) with 41.
  - assert (E : pystr_eqb (firstn 5 (u "not (" ++ c ++ u ")")) (u "not (") = true) by reflexivity. rewrite E. cbn [andb].
    change (skipn 5 (u "not (" ++ c ++ u ")")) with (c ++ [41]). rewrite removelast_last. reflexivity.
  - change (u ")") with [41]. rewrite app_assoc, last_last. reflexivity.
Qed.
Lemma strip_short s c : strip_not s = Some c -> (length c < length s)%nat.
Proof.
  unfold strip_not. destruct (pystr_eqb (firstn 5 s) (u "not (")) eqn:E; [|discriminate]. destruct (last s 0 =? 41); [|discriminate]. cbn [andb]. intros H. assert (H' : c = removelast (skipn 5 s)) by congruence. rewrite H'. clear H H' c.
  assert (X : (length (removelast (skipn 5 s)) <= length (skipn 5 s))%nat).
  { rewrite removelast_firstn_len, firstn_length. lia. }
  rewrite skipn_length in X. destruct s as [|a s]; [discriminate E|]. change (length (a :: s)) with (S (length s)) in *. lia.
Qed.
Lemma decide_enough n : forall k s, (length s < n)%nat -> (length s < k)%nat -> decide n s = decide k s.
Proof.
  induction n as [|n IH]; intros [|k] s Hn Hk; try lia. cbn [decide]. destruct (strip_not s) as [c|] eqn:E; [|reflexivity]. apply strip_short in E. f_equal. apply IH; lia.
Qed.
Lemma logger_lawful : lawful logger.
Proof.
  split; [reflexivity|]. split; [reflexivity|]. split; [reflexivity|]. split; [reflexivity|]. split.
  - intros e x st. cbn [m_run m_bind logger]. rewrite !(fun y => eq_refl : pystr_eqb (u "S." ++ y) (u "pass") = false).
    rewrite !(fun y => eq_refl : pystr_eqb (u "S." ++ y) (u "break") = false), !(fun y => eq_refl : pystr_eqb (u "S." ++ y) (u "continue") = false),
      !(fun y => eq_refl : pystr_eqb (u "S." ++ y) (u "raise") = false), !(fun y => eq_refl : pystr_eqb (u "S." ++ y) (u "fail") = false). reflexivity.
  - split; [reflexivity|]. intros c st. cbn [m_test logger fst snd]. f_equal.
    change (decide (S (length (u "not (" ++ c ++ u ")"))) (u "not (" ++ c ++ u ")")) with
      (match strip_not (u "not (" ++ c ++ u ")") with Some d => negate (decide (length (u "not (" ++ c ++ u ")")) d) | None => inl (pystr_eqb (u "not (" ++ c ++ u ")") (u "True") || pystr_eqb (u "not (" ++ c ++ u ")") (u "t")) end).
    rewrite strip_wrap. rewrite (decide_enough _ (S (length c))); [reflexivity| |lia]. rewrite !app_length. cbn. lia.
Qed.
Definition say (s : pystr) : fstmt := FCmd [Txt s].

(** * C41: the text is nested as the source *)
(** Every printable list of statements gives a text that Python can read, in only one way, and whose nesting is that of the source.
    (In a reading, each line that ends in a colon is followed by a more deeply indented block with at least one statement.) *)
Theorem C41_nesting_partial : forall l, printables l ->
  exists p, py_reads (emitted l) p /\ map skel_of p = kblock (nests l) /\ (forall q, py_reads (emitted l) q -> q = p).
Proof.
  intros l P. destruct (proj1 (proj2 neat_printable) l [] good_nil' P) as [N _]. exists (block_of (trees [] l)).
  assert (R : py_reads (emitted l) (block_of (trees [] l))).
  { unfold emitted. rewrite lines_eq. cbn [fst]. apply shaped_reads, shaped_of, shaped_lines. exact (proj1 (proj2 convert_tree) l [] N). }
  split; [exact R|]. split; [rewrite skel_block, (proj1 (proj2 tree_nest) l []); reflexivity|]. intros q Q. exact (py_reads_unique _ _ _ Q R).
Qed.
Print Assumptions C41_nesting_partial.
(** The functions of a program *)
Definition func_ok (f : func) : Prop := one_line (f_decorator f) /\ is_head (u "@" ++ f_decorator f) = false /\ one_line (f_name f).
Lemma funcs_shaped fs w : good_with w -> Forall (fun f => func_ok f /\ printables (f_body f)) fs ->
  exists p, shaped (visit_funcs w fs) p /\ map skel_of p = flat_map (fun f => [KCmd; KDef (kblock (nests (f_body f)))]) fs.
Proof.
  intros W H. revert w W. induction H as [|f fs [(Od & Hd & On) P] _ IH]; intros w W; [exists []; split; [exact shaped_nil|reflexivity]|].
  cbn [visit_funcs]. rewrite lines_eq. destruct (proj1 (proj2 neat_printable) _ w W P) as [N Ws].
  destruct (IH _ Ws) as (q & Sq & Kq). pose proof (shaped_lines _ _ (proj1 (proj2 convert_tree) _ w N)) as Sb.
  exists (PSimple (u "@" ++ f_decorator f) :: PDef (f_name f ++ u "()") (block_of (trees w (f_body f))) :: q). split.
  - change (Ln (u "@" ++ f_decorator f) :: ?x) with ([Ln (u "@" ++ f_decorator f)] ++ x).
    apply (shaped_app [Ln (u "@" ++ f_decorator f)] (Ln _ :: Bl _ :: _) [PSimple (u "@" ++ f_decorator f)] (PDef _ _ :: q)).
    + apply shaped_of, shaped_cmd. split; [intros X; apply in_app_or in X as [X|X]; [vm_compute in X; intuition discriminate|exact (Od X)]|]. split; [ground|exact Hd].
    + apply (shaped_app [Ln _; Bl _] (visit_funcs _ fs) [PDef _ _] q); [|exact Sq]. apply shaped_of.
      replace (u "def " ++ f_name f ++ u "():") with (u "def " ++ (f_name f ++ u "()") ++ u ":") by (rewrite <- app_assoc; reflexivity).
      apply (shaped_head _ _ _ (PDef (f_name f ++ u "()"))); [|apply starts_app; ground|apply is_head_colon2|intros; apply clause_def|exact Sb].
      apply wf_head; [apply one_line_u|ground|]. apply one_line_app; [exact On|apply one_line_lit; reflexivity].
  - cbn [map flat_map app skel_of]. rewrite skel_block, (proj1 (proj2 tree_nest)), Kq. reflexivity.
Qed.
Theorem C41_program_partial : forall fs, Forall (fun f => func_ok f /\ printables (f_body f)) fs ->
  exists p, py_reads (program_text fs) p /\ map skel_of p = flat_map (fun f => [KCmd; KDef (kblock (nests (f_body f)))]) fs /\
    (forall q, py_reads (program_text fs) q -> q = p).
Proof.
  intros fs H. destruct (funcs_shaped fs [] good_nil' H) as (p & S & K). exists p. pose proof (shaped_reads _ _ S) as R.
  split; [exact R|]. split; [exact K|]. intros q Q. exact (py_reads_unique _ _ _ Q R).
Qed.
Print Assumptions C41_program_partial.
(** False without the restriction: the command @ ... SAY is followed by its source text, as a comment (visitAtPos,
    vfp2py_convert_visitor.py:415-422); when that text has two lines and the second is indented, there is no reading. *)
Theorem C41_continued_comment_refuted : forall call src1 n c src2, (0 < n)%nat -> command_line (call ++ u " # " ++ src1) -> c <> 32 -> c <> 35 -> one_line (c :: src2) ->
  forall p, ~ py_reads (emitted (only (FCmd [Txt (call ++ u " # " ++ src1 ++ [10] ++ repeat 32 n ++ c :: src2)]))) p.
Proof.
  intros call src1 n c src2 Hn (O1 & S1 & H1) C1 C2 O2 p (l & B & _).
  assert (E : significant (emitted (only (FCmd [Txt (call ++ u " # " ++ src1 ++ [10] ++ repeat 32 n ++ c :: src2)]))) = [(O, call ++ u " # " ++ src1); (n, c :: src2)]).
  { assert (A : emitted (only (FCmd [Txt (call ++ u " # " ++ src1 ++ [10] ++ repeat 32 n ++ c :: src2)])) = (call ++ u " # " ++ src1) ++ 10 :: repeat 32 n ++ c :: src2).
    { replace (call ++ u " # " ++ src1 ++ [10] ++ repeat 32 n ++ c :: src2) with ((call ++ u " # " ++ src1) ++ 10 :: repeat 32 n ++ c :: src2) by (rewrite <- !app_assoc; reflexivity).
      destruct (call ++ u " # " ++ src1) as [|x t]; [contradiction|]. cbn [app]. generalize (t ++ 10 :: repeat 32 n ++ c :: src2). intros r.
      unfold emitted, only. rewrite lines_eq. cbn [visit_all visit fst snd app]. unfold code. cbn [map concat piece_text app]. rewrite app_nil_r.
      unfold pass_if_bad. cbn [forallb badline]. destruct (Z.eqb_spec x 35) as [->|_]; [destruct S1; congruence|]. reflexivity. }
    rewrite A. unfold significant. rewrite split_app, (split_line _ O1), split_line.
    - cbn [app map]. rewrite spaces_repeat by exact C1.
      assert (Sp : spaces (call ++ u " # " ++ src1) = (O, call ++ u " # " ++ src1)).
      { apply (spaces_repeat 0). destruct (call ++ u " # " ++ src1); [exact I|apply S1]. }
      rewrite Sp. cbn [filter]. unfold counts at 1. cbn [snd]. destruct (call ++ u " # " ++ src1) as [|x t]; [contradiction|].
      destruct (Z.eqb_spec x 35) as [->|_]; [destruct S1; congruence|]. cbn [negb]. unfold counts. cbn [snd]. destruct (Z.eqb_spec c 35); [contradiction|]. reflexivity.
    - intros X. apply in_app_or in X as [X|X]; [apply repeat_spec in X; discriminate|exact (O2 X)]. }
  rewrite E in B. revert B H1. generalize (call ++ u " # " ++ src1). clear - Hn. intros t B H1. remember [(O, t); (n, c :: src2)] as ls eqn:El.
  destruct B as [|t' rest ns Hh Br| h d' body b rest ns Hh]; [discriminate|injection El as -> ->|injection El as -> _; rewrite Hh in H1; discriminate].
  apply block_first in Br. cbn [fst] in Br. lia.
Qed.
Print Assumptions C41_continued_comment_refuted.
Example C41_example : (* IF a / * note / ELSE / (a failed statement) / DO CASE / CASE b / x / ENDCASE / ENDIF *)
  let l := only (FIf [Txt (u "a")] (only (FComment [u "# note"])) (FSome (FCons (FFail [u "SET BELL TO"]) (only (FCase [] (CCons [Txt (u "b")] (only (say (u "x()"))) CNil) FNone))))) in
  printables l /\ nests l = [KIf [KCmd] [KIf [KCmd] []]] /\
  emitted l = u "if a:" ++ [10] ++ u "    # note" ++ [10] ++ u "    pass" ++ [10] ++ u "else:" ++ [10] ++ u "    #FIX ME: SET BELL TO" ++ [10] ++ u "    if b:" ++ [10] ++ u "        x()".
Proof.
  split; [|split; reflexivity]. split; [|exact I]. split; [repeat constructor; intros H; vm_compute in H; intuition discriminate|].
  split; [split; [|exact I]; constructor; [|constructor]; split; [intros H; vm_compute in H; intuition discriminate|reflexivity]|].
  split; [constructor; [|constructor]; intros H; vm_compute in H; intuition discriminate|]. split; [|exact I]. split; [constructor|]. split; [|exact I].
  split; [repeat constructor; intros H; vm_compute in H; intuition discriminate|]. split; [|exact I]. split; [|exact I].
  split; [repeat constructor; intros H; vm_compute in H; intuition discriminate|]. split; [split; discriminate|]. split; [discriminate|reflexivity].
Qed.

(** * C68: control flow is preserved *)
Theorem C68_control_flow_partial : forall l, supporteds true [] l ->
  exists p, py_reads (emitted l) p /\ forall m, lawful m -> forall N cur st, pruns m N cur p st = fruns m N [] cur l st.
Proof.
  intros l S. destruct (proj1 (proj2 convert_all) l true [] [] S eq_refl) as [_ G]. apply good_lines in G. destruct G as (W & ns & ps & B & Nn & F & E). exists ps. split; [|exact E].
  exists ns. split; [unfold emitted; rewrite lines_eq; cbn [fst]; rewrite significant_text by exact W; exact (B O)|]. unfold statements. rewrite F, app_nil_r. reflexivity.
Qed.
Print Assumptions C68_control_flow_partial.

(** * C47: WITH *)
(** The statements of the emitted text are those meant: every .name stands for the object of the innermost WITH around it. *)
Theorem C47_with_partial : forall l, supporteds true [] l -> py_reads (emitted l) (block_of (meants [] l)).
Proof.
  intros l S. destruct (proj1 (proj2 tree_meant) l true [] [] S eq_refl) as [N <-]. unfold emitted. rewrite lines_eq. cbn [fst].
  apply shaped_reads, shaped_of, shaped_lines. exact (proj1 (proj2 convert_tree) l [] N).
Qed.
Print Assumptions C47_with_partial.
(** The functions of a program, one after the other *)
Definition func_supported (f : func) : Prop := func_ok f /\ supporteds true [] (f_body f).
Theorem C47_program_partial : forall fs, Forall func_supported fs ->
  py_reads (program_text fs) (flat_map (fun f => [PSimple (u "@" ++ f_decorator f); PDef (f_name f ++ u "()") (block_of (meants [] (f_body f)))]) fs).
Proof.
  intros fs H. apply shaped_reads. assert (J : inv true [] []) by reflexivity. revert J. generalize (@nil Z) at 2 3. intros w J. revert w J.
  induction H as [|f fs [(Od & Hd & On) P] _ IH]; intros w J; [exact shaped_nil|].
  cbn [visit_funcs flat_map]. rewrite lines_eq. destruct (proj1 (proj2 tree_meant) _ true [] w P J) as [N T].
  pose proof (shaped_lines _ _ (proj1 (proj2 convert_tree) _ w N)) as Sb. rewrite T in Sb. pose proof (inv_lines _ _ _ _ P J) as J1. specialize (IH _ J1).
  apply (shaped_app [Ln (u "@" ++ f_decorator f)] (Ln _ :: Bl _ :: _) [PSimple (u "@" ++ f_decorator f)] (PDef _ _ :: _)).
  - apply shaped_of, shaped_cmd. split; [intros X; apply in_app_or in X as [X|X]; [vm_compute in X; intuition discriminate|exact (Od X)]|]. split; [ground|exact Hd].
  - apply (shaped_app [Ln _; Bl _] (visit_funcs _ fs) [PDef _ _] _); [|exact IH]. apply shaped_of.
    replace (u "def " ++ f_name f ++ u "():") with (u "def " ++ (f_name f ++ u "()") ++ u ":") by (rewrite <- app_assoc; reflexivity).
    apply (shaped_head _ _ _ (PDef (f_name f ++ u "()"))); [|apply starts_app; ground|apply is_head_colon2|intros; apply clause_def|exact Sb].
    apply wf_head; [apply one_line_u|ground|]. apply one_line_app; [exact On|apply one_line_lit; reflexivity].
Qed.
Print Assumptions C47_program_partial.
Theorem C68_program_partial : forall fs, Forall func_supported fs ->
  exists bodies, py_reads (program_text fs) (flat_map (fun fb => [PSimple (u "@" ++ f_decorator (fst fb)); PDef (f_name (fst fb) ++ u "()") (snd fb)]) (combine fs bodies)) /\
    length bodies = length fs /\
    Forall (fun fb => forall m, lawful m -> forall N cur st, pruns m N cur (snd fb) st = fruns m N [] cur (f_body (fst fb)) st) (combine fs bodies).
Proof.
  intros fs H. exists (map (fun f => block_of (meants [] (f_body f))) fs).
  pose proof (C47_program_partial fs H) as R. split; [|split; [apply map_length|]].
  - replace (flat_map _ (combine fs _)) with (flat_map (fun f => [PSimple (u "@" ++ f_decorator f); PDef (f_name f ++ u "()") (block_of (meants [] (f_body f)))]) fs); [exact R|].
    clear. induction fs as [|f fs IH]; [reflexivity|]. cbn [map combine flat_map fst snd]. rewrite IH. reflexivity.
  - clear R. induction H as [|f fs [_ S] _ IH]; [constructor|]. cbn [map combine]. constructor; [|exact IH]. cbn [fst snd]. intros m L N cur st.
    destruct (C68_control_flow_partial _ S) as (p & Rp & E). rewrite (py_reads_unique _ _ _ (C47_with_partial _ S) Rp). apply E, L.
Qed.
Print Assumptions C68_program_partial.
Example C68_example : (* FOR i / IF t / x / EXIT / ENDIF / ENDFOR / TRY / fail / CATCH TO e WHEN b / y / FINALLY / z / ENDTRY, in the machine above *)
  let l := FCons (FFor [Txt (u "S.i in vfpfunc.vfprange(1, 9)")] (only (FIf [Txt (u "t")] (FCons (say (u "x")) (only FExit)) FNone)))
           (only (FTry (only (say (u "fail"))) (Catch (Some (u "e")) (Some [Txt (u "b")]) (only (say (u "y")))) (FSome (only (say (u "z")))))) in
  supporteds true [] l /\ lawful logger /\
  fruns logger 5 [] None l [] = Some ([u "S.i in vfpfunc.vfprange(1, 9)"; u "x"; u "S.e = vfpfunc.Exception.from_pyexception(err)"; u "z"], Raise tt).
Proof.
  split; [|split; [exact logger_lawful|reflexivity]].
  check.
Qed.

(** False otherwise: a reference after a nested WITH no longer goes to the object of the outer one ... *)
Theorem C47_after_nested_refuted : forall o1 o2 b x rest, islower x = true -> valid_identifier x = true -> x <> u "this" -> x <> u "thisform" ->
  let l := only (FWith o1 (FCons (FWith o2 b) (only (FCmd [Dotted x; Txt rest])))) in
  fst (lines [] l) = fst (lines (code (code [] o1) o2) b) ++ [Ln (u "S." ++ x ++ rest)] /\
  (fox_text (fox_text [] o1) [Dotted x; Txt rest] = fox_text [] o1 ++ u "." ++ x ++ rest).
Proof.
  intros o1 o2 b x rest Lx Vx T1 T2 l. split.
  - unfold l, only. cbn [lines visit visit_all]. destruct (lines (code (code [] o1) o2) b) as [ib wb]. cbn [fst snd].
    assert (C : code [] [Dotted x; Txt rest] = u "S." ++ x ++ rest).
    { unfold code. cbn [map concat piece_text]. unfold dotted, id_attr, scope_id. rewrite Lx, Vx. destruct (pystr_eqb_spec x (u "this")); [contradiction|]. destruct (pystr_eqb_spec x (u "thisform")); [contradiction|].
      cbn [map concat]. rewrite !app_nil_r, <- app_assoc. reflexivity. }
    rewrite C. cbn [app].
    assert (P : forall i, pass_if_bad (i ++ [Ln (u "S." ++ x ++ rest)]) = i ++ [Ln (u "S." ++ x ++ rest)]).
    { intros i. unfold pass_if_bad. rewrite forallb_app. cbn [forallb]. change (badline (Ln (u "S." ++ x ++ rest))) with false. rewrite andb_false_r. reflexivity. }
    rewrite P, app_nil_r, P. reflexivity.
  - unfold fox_text. cbn [map concat]. rewrite app_nil_r, <- !app_assoc. reflexivity.
Qed.
Print Assumptions C47_after_nested_refuted.
(** ... and so does every reference inside WITH THIS or WITH THISFORM, whose Python names have no capital. *)
Theorem C47_this_refuted : forall x rest,
  emitted (only (FWith [Txt (u "self")] (only (FCmd [Dotted x; Txt rest])))) = u "S.self." ++ x ++ rest /\
  emitted (only (FWith [Txt (u "self.parentform")] (only (FCmd [Dotted x; Txt rest])))) = u "S[self.parentform]." ++ x ++ rest /\
  fox_text (u "self") [Dotted x; Txt rest] = u "self." ++ x ++ rest.
Proof.
  intros x rest. unfold emitted, only, fox_text. cbn [lines visit visit_all]. unfold code at 1. cbn [map concat piece_text].
  split; [|split].
  - cbv [code map piece_text]. cbn [concat]. rewrite !app_nil_r. change (dotted (u "self") x) with ((u "S.self") ++ (u "." ++ x) ++ []). rewrite app_nil_r, <- !app_assoc. reflexivity.
  - cbv [code map piece_text]. cbn [concat]. rewrite !app_nil_r. change (dotted (u "self.parentform") x) with ((u "S[self.parentform]") ++ (u "." ++ x) ++ []). rewrite app_nil_r, <- !app_assoc. reflexivity.
  - cbn [map concat]. rewrite app_nil_r, <- !app_assoc. reflexivity.
Qed.
Print Assumptions C47_this_refuted.
Example C47_example : (* WITH S.a / .x = 1 / WITH .b / .y = 2 / ENDWITH / ENDWITH *)
  let l := only (FWith [Txt (u "S.a")] (FCons (FCmd [Dotted (u "x"); Txt (u " = 1")]) (only (FWith [Dotted (u "b")] (only (FCmd [Dotted (u "y"); Txt (u " = 2")])))))) in
  supporteds true [] l /\ emitted l = u "S.a.x = 1" ++ [10] ++ u "S.a.b.y = 2".
Proof.
  split; [|reflexivity].
  check.
Qed.

(** * C40: DO CASE *)
Definition with_cases (pre : list (list piece * flines)) (cs : fcases) : fcases := fold_right (fun cb => CCons (fst cb) (snd cb)) cs pre.
(** no condition of the list holds *)
Fixpoint none_holds (m : machine) (cs : list pystr) (st : St m) : option (St m) :=
  match cs with
  | [] => Some st
  | c :: cs => match m_test m c st with (st, inl false) => none_holds m cs st | _ => None end
  end.
Lemma fcase_skip m N w cur pre cs other st st1 : none_holds m (map (fun cb => fox_text w (fst cb)) pre) st = Some st1 ->
  fcase m N w cur (with_cases pre cs) other st = fcase m N w cur cs other st1.
Proof.
  revert st. induction pre as [|[c b] pre IH]; intros st H; [injection H as <-; reflexivity|]. cbn [map none_holds fst] in H. cbn [with_cases fold_right fcase fst snd].
  unfold if_. destruct (m_test m (fox_text w c) st) as [st' [[|]|e]]; [discriminate| |discriminate]. apply IH, H.
Qed.
(** When the cases before do not hold and this one does, exactly its commands run; when none holds, those of OTHERWISE. *)
Theorem C40_first_true_partial : forall cm pre c b post o, supported true [] (FCase cm (with_cases pre (CCons c b post)) o) ->
  exists p, py_reads (emitted (only (FCase cm (with_cases pre (CCons c b post)) o))) p /\
    forall m, lawful m -> forall N cur st st1 st2, none_holds m (map (fun cb => fox_text [] (fst cb)) pre) st = Some st1 ->
      (m_test m (fox_text [] c) st1 = (st2, inl true) -> pruns m N cur p st = fruns m N [] cur b st2) /\
      (forall e, m_test m (fox_text [] c) st1 = (st2, inr e) -> pruns m N cur p st = Some (st2, Raise e)).
Proof.
  intros cm pre c b post o S. destruct (C68_control_flow_partial (only (FCase cm (with_cases pre (CCons c b post)) o)) (conj S I)) as (p & R & E). exists p. split; [exact R|].
  intros m L N cur st st1 st2 H. rewrite E by exact L. unfold only. cbn [fruns frun]. rewrite then_normal, (fcase_skip m N [] cur pre _ _ st st1 H). cbn [fcase]. unfold if_.
  split; [intros -> ; reflexivity|intros e ->; reflexivity].
Qed.
Print Assumptions C40_first_true_partial.
Theorem C40_otherwise_partial : forall cm pre o, supported true [] (FCase cm (with_cases pre CNil) o) ->
  exists p, py_reads (emitted (only (FCase cm (with_cases pre CNil) o))) p /\
    forall m, lawful m -> forall N cur st st1, none_holds m (map (fun cb => fox_text [] (fst cb)) pre) st = Some st1 ->
      pruns m N cur p st = match o with FSome b => fruns m N [] cur b st1 | FNone => Some (st1, Normal) end.
Proof.
  intros cm pre o S. destruct (C68_control_flow_partial (only (FCase cm (with_cases pre CNil) o)) (conj S I)) as (p & R & E). exists p. split; [exact R|].
  intros m L N cur st st1 H. rewrite E by exact L. unfold only. cbn [fruns frun]. rewrite then_normal, (fcase_skip m N [] cur pre _ _ st st1 H). cbn [fcase]. destruct o; reflexivity.
Qed.
Print Assumptions C40_otherwise_partial.
(** False without a CASE: OTHERWISE never runs. *)
Theorem C40_otherwise_alone_refuted : forall cm b, Forall (Forall comment_line) cm -> supporteds true [] b ->
  exists p, py_reads (emitted (only (FCase cm CNil (FSome b)))) p /\
    forall m, lawful m -> forall N cur st, pruns m N cur p st = Some (st, Normal) /\ frun m N [] cur (FCase cm CNil (FSome b)) st = fruns m N [] cur b st.
Proof.
  intros cm b Cm S. destruct (proj1 (proj2 tree_meant) b true [] [] S eq_refl) as [N _].
  assert (Nn : neats [] (only (FCase cm CNil (FSome b)))) by (split; [split; [exact Cm|split; [exact I|exact N]]|exact I]).
  exists (trees [] (only (FCase cm CNil (FSome b)))). split.
  - unfold emitted. rewrite lines_eq. cbn [fst]. apply shaped_reads, shaped_of.
    exact (shaped_lines _ _ (proj1 (proj2 convert_tree) _ [] Nn)).
  - intros m L n cur st. split; [|reflexivity]. cbn [only trees tree app]. cbv zeta. rewrite pruns_one, prun_unfold. destruct L as (Lp & _ & _ & _ & _ & Lt & _). unfold if_. rewrite Lt, pruns_one. cbn [prun]. rewrite Lp. reflexivity.
Qed.
Print Assumptions C40_otherwise_alone_refuted.
Example C40_example :
  let s := FCase [] (with_cases [([Txt (u "a")], only (say (u "x")))] (CCons [Txt (u "t")] (only (say (u "y"))) CNil)) (FSome (only (say (u "z")))) in
  supported true [] s /\ none_holds logger [u "a"] [] = Some [] /\ m_test logger (u "t") [] = ([], inl true) /\
  emitted (only s) = u "if a:" ++ [10] ++ u "    x" ++ [10] ++ u "elif t:" ++ [10] ++ u "    y" ++ [10] ++ u "else:" ++ [10] ++ u "    z".
Proof.
  split; [|repeat split].
  check.
Qed.

(** * C51: TRY *)
Lemma fruns_only m N w cur s st : fruns m N w cur (only s) st = frun m N w cur s st.
Proof. unfold only. change (fruns m N w cur (FCons s FNil) st) with (then_ m (frun m N w cur s st) (fun st => Some (st, Normal))). apply then_normal. Qed.
Lemma frun_try m N w cur b c f st : frun m N w cur (FTry b c f) st =
  finally_ m (catch_ m (fruns m N w cur b st) (fun e st =>
        match c with
        | NoCatch => Some (st, Raise e)
        | Catch to cond h =>
            let st := match to with Some x => m_bind m x e st | None => st end in
            match cond with
            | Some c => if_ m (fox_text w c) (fruns m N w (Some e) h) (fun st => Some (st, Raise e)) st
            | None => fruns m N w (Some e) h st
            end
        end))
        (match f with FSome f => fruns m N w cur f | FNone => fun st => Some (st, Normal) end).
Proof. reflexivity. Qed.
(** With a CATCH, FINALLY runs however the TRY block, and the handler, end. *)
Theorem C51_catch_partial : forall b to cond h f, supported true [] (FTry b (Catch to cond h) (FSome f)) ->
  exists p, py_reads (emitted (only (FTry b (Catch to cond h) (FSome f)))) p /\
    forall m, lawful m -> forall N cur st st1 s1, fruns m N [] cur b st = Some (st1, s1) ->
      exists r, (forall st2 s2, r = Some (st2, s2) -> pruns m N cur p st = match fruns m N [] cur f st2 with Some (st3, Normal) => Some (st3, s2) | o => o end) /\
        match s1 with
        | Raise e =>
            let st2 := match to with Some x => m_bind m x e st1 | None => st1 end in
            r = match cond with
                | None => fruns m N [] (Some e) h st2
                | Some c => match m_test m (fox_text [] c) st2 with
                            | (st3, inl true) => fruns m N [] (Some e) h st3
                            | (st3, inl false) => Some (st3, Raise e)
                            | (st3, inr e') => Some (st3, Raise e')
                            end
                end
        | _ => r = Some (st1, s1)
        end.
Proof.
  intros b to cond h f S. destruct (C68_control_flow_partial (only (FTry b (Catch to cond h) (FSome f))) (conj S I)) as (p & R & E). exists p. split; [exact R|].
  intros m L N cur st st1 s1 H. rewrite E by exact L. rewrite fruns_only, frun_try, H.
  match goal with |- context [finally_ m ?x _] => exists x end. split; [intros st2 s2 ->; reflexivity|].
  destruct s1 as [| | | |e]; [reflexivity|reflexivity|reflexivity|reflexivity|]. cbn [catch_]. cbv zeta. destruct cond as [c|]; [|reflexivity]. unfold if_.
  destruct (m_test m (fox_text [] c) (match to with Some x => m_bind m x e st1 | None => st1 end)) as [st3 [[|]|e']]; reflexivity.
Qed.
Print Assumptions C51_catch_partial.
Lemma try_plain b f : supporteds true [] b -> supporteds true [] f ->
  exists p, py_reads (emitted (only (FTry b NoCatch (FSome f)))) p /\
    forall m, lawful m -> forall N cur st, pruns m N cur p st = then_ m (fruns m N [] cur b st) (fruns m N [] cur f).
Proof.
  intros Sb Sf. destruct (Pl_lines b true [] [] (proj1 (proj2 convert_all) b) Sb eq_refl) as (ib & w1 & Eb & I1 & Gb). cbn [orb inv] in I1. subst w1.
  destruct (Pl_lines f true [] [] (proj1 (proj2 convert_all) f) Sf eq_refl) as (jf & w2 & Ef & I2 & Gf).
  pose proof (good_lines _ _ (good_of_block _ _ (good_app_block _ _ _ _ (good_of_block _ _ Gb) Gf))) as (W & ns & ps & B & Nn & F & E). exists ps. split; [|exact E].
  assert (X : fst (lines [] (only (FTry b NoCatch (FSome f)))) = pass_if_bad (ib ++ jf)).
  { unfold only. cbn [lines visit visit_all]. rewrite Eb, Ef. cbn [fst]. rewrite app_nil_r. reflexivity. }
  exists ns. split; [unfold emitted; rewrite X, significant_text by exact W; exact (B O)|]. unfold statements. rewrite F, app_nil_r. reflexivity.
Qed.
(** False without a CATCH: whenever the TRY block does not end normally, the FINALLY block is not run. *)
Theorem C51_finally_skipped_refuted : forall b f, supporteds true [] b -> supporteds true [] f ->
  exists p, py_reads (emitted (only (FTry b NoCatch (FSome f)))) p /\
    forall m, lawful m -> forall N cur st st1 s, fruns m N [] cur b st = Some (st1, s) -> s <> Normal ->
      pruns m N cur p st = Some (st1, s) /\
      frun m N [] cur (FTry b NoCatch (FSome f)) st = match fruns m N [] cur f st1 with Some (st2, Normal) => Some (st2, s) | o => o end.
Proof.
  intros b f Sb Sf. destruct (try_plain b f Sb Sf) as (p & R & E). exists p. split; [exact R|]. intros m L N cur st st1 s H Hs. rewrite E by exact L. rewrite frun_try, H.
  destruct s; [congruence| | | |]; split; reflexivity.
Qed.
Print Assumptions C51_finally_skipped_refuted.
Theorem C51_normal_partial : forall b f, supporteds true [] b -> supporteds true [] f ->
  exists p, py_reads (emitted (only (FTry b NoCatch (FSome f)))) p /\
    forall m, lawful m -> forall N cur st st1, fruns m N [] cur b st = Some (st1, Normal) ->
      pruns m N cur p st = fruns m N [] cur f st1 /\ frun m N [] cur (FTry b NoCatch (FSome f)) st = fruns m N [] cur f st1.
Proof.
  intros b f Sb Sf. destruct (try_plain b f Sb Sf) as (p & R & E). exists p. split; [exact R|]. intros m L N cur st st1 H. rewrite E by exact L. rewrite frun_try, H.
  split; [reflexivity|]. cbn [catch_ finally_]. destruct (fruns m N [] cur f st1) as [[st2 []]|]; reflexivity.
Qed.
Print Assumptions C51_normal_partial.
Example C51_example : (* TRY / fail / FINALLY / z / ENDTRY *)
  supporteds true [] (only (say (u "fail"))) /\ supporteds true [] (only (say (u "z"))) /\ fruns logger 1 [] None (only (say (u "fail"))) [] = Some ([], Raise tt) /\
  frun logger 1 [] None (FTry (only (say (u "fail"))) NoCatch (FSome (only (say (u "z"))))) [] = Some ([u "z"], Raise tt).
Proof.
  check.
Qed.
