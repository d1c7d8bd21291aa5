(** Expressions from the source text on: property C119. *)
From Verif Require Import PyBase PyStr S_Py P_Py S_PyEval M_Lit M_Conv S_Conv P_Conv P_Bool S_Inline P_Inline M_Lexer S_Lexer M_Parse S_Expr P_Parse P_Parse2 P_Parse3 P_Expr P_Expr2.
From Verif Require T_Conv.
From Coq Require Import Lia.
Open Scope Z_scope.

(** ** C119 *)
(** Whatever the layout, the letter case and the spelling of the operators, the parser makes of an expression the tree of the language, but for NOT, which it applies to the first operand only. *)
Theorem C119_reads : forall src last t, laid_out src last -> says 0 (map snd src) t -> read_expr (text src last) = Some (regrouped t).
Proof. exact text_read_expr. Qed.
Print Assumptions C119_reads.
(** So without NOT before an operation it is that tree, *)
Fixpoint nots_on_operands (t : ctx) : Prop :=
  match t with
  | CNot e => nots_on_operands e /\ match e with CBin _ _ _ | CCmp _ _ _ | CAnd _ _ | COr _ _ => False | _ => True end
  | CSub e | CSign _ e => nots_on_operands e
  | CBin _ a b | CCmp _ a b | CAnd a b | COr a b => nots_on_operands a /\ nots_on_operands b
  | CCall _ l => (fix all l := match l with [] => True | x :: l => nots_on_operands x /\ all l end) l
  | _ => True
  end.
Theorem C119_tree_partial : forall src last t, laid_out src last -> says 0 (map snd src) t -> nots_on_operands t -> read_expr (text src last) = Some t.
Proof.
  intros src last t H S0 N. rewrite (C119_reads src last t H S0). f_equal. clear - N.
  induction t as [s|n|s|b| |e IH|m e IH|e IH|o a b IHa IHb|o a b IHa IHb|a b IHa IHb|a b IHa IHb|f l IH] using ctx_ind'; cbn [nots_on_operands regrouped] in *; try reflexivity;
    try (destruct N as [Na Nb]; rewrite IHa, IHb by auto; reflexivity); try (rewrite IH by auto; reflexivity).
  - destruct N as [N M]. rewrite IH by auto. destruct e; try reflexivity; destruct M.
  - f_equal. induction l as [|x l IHl]; [reflexivity|]. inversion IH; subst. destruct N as [Nx Nl]. cbn [map]. f_equal; auto.
Qed.
Print Assumptions C119_tree_partial.
(** and no two trees of the language differ in more than the grouping of NOT. *)
Theorem C119_one_reading : forall ps t t', Forall piece_ok ps -> says 0 ps t -> says 0 ps t' -> regrouped t = regrouped t'.
Proof.
  intros ps t t' OK H H'. assert (exists ts, streams ps ts) as [ts R]. { clear. induction ps as [|p ps [ts R]]; [exists []; constructor | exists (piece_stream [] p ++ ts); constructor; auto]. }
  assert (A := expression_read ps t ts [] H OK R I eq_refl). assert (B := expression_read ps t' ts [] H' OK R I eq_refl). rewrite B in A. injection A as A. symmetry. exact A.
Qed.
Print Assumptions C119_one_reading.
(** The Python code has the value of the FoxPro expression, *)
Theorem C119_value_partial : forall lib env src last t v, laid_out src last -> says 0 (map snd src) t -> tame lib t -> pev env (mean t) = Some v ->
  exists tree, read_expr (text src last) = Some tree /\ py_value env (code lib tree) v.
Proof.
  intros lib env src last t v H S0 T V. exists t. rewrite (C119_reads src last t H S0), (tame_regrouped lib t T). split; auto.
  apply T_Conv.C36_value_partial; auto. apply (says_produced lib _ _ _ S0); auto. destruct H as (H & _). apply Forall_map. eapply Forall_impl; [|exact H]. cbn. tauto.
Qed.
Print Assumptions C119_value_partial.
(** and a condition is true exactly when the FoxPro condition is, with NOT in its place between comparisons and AND. *)
Theorem C119_truth_partial : forall lib src last t, laid_out src last -> says 0 (map snd src) t -> conditions lib t -> nots_ok t ->
  exists tree e, read_expr (text src last) = Some tree /\ py_parse (code lib tree) e /\ forall rho, py_holds rho e = holds rho t.
Proof.
  intros lib src last t H S0 C N. assert (OK : Forall piece_ok (map snd src)) by (destruct H as (H & _); apply Forall_map; eapply Forall_impl; [|exact H]; cbn; tauto).
  assert (B := says_boolean lib 0 _ t S0 OK C). destruct (T_Conv.C37_truth lib t B) as (e & P & V). exists (regrouped t), e. split; [apply C119_reads; auto|]. split; auto.
  rewrite (regrouped_code lib t (proj1 (says_shaped _ _ _ S0)) B N). exact P.
Qed.
Print Assumptions C119_truth_partial.

Lemma up_to : forall k n ps t, says (n + k) ps t -> says n ps t.
Proof. induction k as [|k IH]; intros n ps t H; [rewrite Nat.add_0_r in H; exact H|]. apply IH. apply Y_up. replace (S (n + k)) with (n + S k)%nat by lia. exact H. Qed.
Ltac up k := match goal with |- says ?n _ _ => apply (up_to k n) end.
(* not x = 1 .AND. (Y+2)*Foo("it, is",.t.)>= ;
     -z *)
Definition sample : source := [
  ([], Word (u "Not")); ([Blank 32], Word (u "x")); ([], sym "="); ([], Number (u "1") None); ([Blank 32], Dotted "OTHERAND" (u "AND")); ([Blank 9], sym "("); ([], Word (u "Y")); ([], sym "+"); ([], Number (u "2") None); ([], sym ")");
  ([Blank 32], sym "*"); ([], Word (u "Foo")); ([], sym "("); ([], Quoted 34 (u "it, is")); ([], sym ","); ([], sym "."); ([], Word (u "t")); ([], sym "."); ([], sym ")"); ([], sym ">="); ([Continued (u " ") None; Blank 32], sym "-"); ([], Word (u "z"))].
Definition sample_tree : ctx :=
  CAnd (CNot (CCmp OEq (CVar (u "x")) (CInt 1)))
       (CCmp OGe (CBin OMul (CSub (CBin OAdd (CVar (u "y")) (CInt 2))) (CCall (u "foo") [CStr (u "it, is"); CBool true])) (CSign true (CVar (u "z")))).
Ltac named := split; [vm_compute; reflexivity | vm_compute; intuition discriminate].
Example C119_example :
  laid_out sample [] /\ says 0 (map snd sample) sample_tree /\ conditions (fun _ => false) sample_tree /\ nots_ok sample_tree /\ read_expr (text sample []) = Some (regrouped sample_tree) /\
  code (fun _ => false) (regrouped sample_tree) =
    [Not; Id (u "S"); Dot; Id (u "x"); Op OEq; IntT 1; Op OAnd; Lp; Id (u "S"); Dot; Id (u "y"); Op OAdd; IntT 2; Rp; Op OMul; Id (u "F"); Dot; Id (u "foo"); Lp; StrT (u "it, is"); Comma; Id (u "True"); Rp; Op OGe;
     Op OSub; Id (u "S"); Dot; Id (u "z")].
Proof.
  split; [|split; [|split; [|split; [|split]]]].
  - split; [|split].
    + unfold sample. repeat (apply Forall_cons || apply Forall_nil); split; try (repeat (apply Forall_cons || apply Forall_nil); vm_compute; intuition discriminate). exists "AND"%string. vm_compute. auto.
    + constructor.
    + vm_compute. intuition discriminate.
  - apply (Y_up 0). apply (Y_binary 1 [Dotted "OTHERAND" (u "AND")] CAnd [Word (u "Not"); Word (u "x"); sym "="; Number (u "1") None]); [constructor; reflexivity | |].
    + up 1%nat. apply Y_not; [constructor; reflexivity|]. up 1%nat. apply (Y_binary 3 [sym "="] (CCmp OEq) [Word (u "x")]); [constructor; cbn; auto | up 6%nat; apply (Y_name (u "x")); named | up 5%nat; apply (Y_number (u "1"))].
    + up 1%nat. apply (Y_binary 3 [sym ">="] (CCmp OGe) [sym "("; Word (u "Y"); sym "+"; Number (u "2") None; sym ")"; sym "*"; Word (u "Foo"); sym "("; Quoted 34 (u "it, is"); sym ","; sym "."; Word (u "t"); sym "."; sym ")"]);
        [constructor; cbn; auto 12 | |].
      * up 3%nat. apply (Y_binary 6 [sym "*"] (CBin OMul) [sym "("; Word (u "Y"); sym "+"; Number (u "2") None; sym ")"]); [constructor; cbn; auto | |].
        -- up 3%nat. apply (Y_parentheses [Word (u "Y"); sym "+"; Number (u "2") None]). up 4%nat. apply (Y_binary 4 [sym "+"] (CBin OAdd) [Word (u "Y")]); [constructor; cbn; auto | up 5%nat; apply (Y_name (u "Y")); named | up 4%nat; apply (Y_number (u "2"))].
        -- up 2%nat. apply (Y_call (u "Foo") [Quoted 34 (u "it, is"); sym ","; sym "."; Word (u "t"); sym "."]); [named|]. apply (Z_more [Quoted 34 (u "it, is")]); [up 9%nat; apply Y_text | | discriminate].
           apply Z_one. up 9%nat. apply (Y_bool (u "t") "T"); [reflexivity | cbn; auto].
      * up 4%nat. apply (Y_sign true [Word (u "z")]). up 1%nat. apply (Y_name (u "z")). named.
  - cbn. repeat split; auto; try discriminate; try (left; apply own_check; vm_compute; reflexivity); intros; discriminate.
  - cbn. repeat split; intros; discriminate.
  - vm_compute. reflexivity.
  - vm_compute. reflexivity.
Qed.

(** Where NOT does harm.  A sum after NOT: both operands end up in a call that joins paths. *)
Lemma name_read : forall x n, named x -> (n <= 9)%nat -> says n [Word x] (CVar (small x)).
Proof. intros x n H L. apply (up_to (9 - n)). replace (n + (9 - n))%nat with 9%nat by lia. apply Y_name; auto. Qed.
Lemma lift : forall n m ps t, says m ps t -> (n <= m)%nat -> says n ps t.
Proof. intros n m ps t H L. apply (up_to (m - n)). replace (n + (m - n))%nat with m by lia. auto. Qed.
Theorem C119_not_sum_refuted : forall lib src last n x y z, laid_out src last -> map snd src = [Word n; Word x; sym "+"; Word y; sym "="; Word z] -> upper n = u "NOT" -> named x -> named y -> named z ->
  let t := CNot (CCmp OEq (CBin OAdd (CVar (small x)) (CVar (small y))) (CVar (small z))) in
  says 0 (map snd src) t /\
  exists tree, read_expr (text src last) = Some tree /\ ~ means (code lib tree) t /\
    code lib tree = [Id (u "os"); Dot; Id (u "path"); Dot; Id (u "join"); Lp; Not; Id (u "S"); Dot; Id (small x); Comma; Id (u "S"); Dot; Id (small y); Rp; Op OEq; Id (u "S"); Dot; Id (small z)].
Proof.
  intros lib src last n x y z H E Hn Hx Hy Hz t. assert (S0 : says 0 (map snd src) t).
  { rewrite E. apply (lift 0 2); [|lia]. apply (Y_not (Word n)); [constructor; auto|]. apply (lift 2 3); [|lia].
    apply (Y_binary 3 [sym "="] (CCmp OEq) [Word x; sym "+"; Word y]); [constructor; cbn; auto | | apply name_read; auto; lia].
    apply (lift 3 4); [|lia]. apply (Y_binary 4 [sym "+"] (CBin OAdd) [Word x]); [constructor; cbn; auto | apply name_read; auto; lia | apply name_read; auto; lia]. }
  split; [exact S0|]. exists (regrouped t). split; [apply C119_reads; auto|]. split; [|reflexivity].
  eapply T_Conv.not_means; [T_Conv.parse | discriminate].
Qed.
Print Assumptions C119_not_sum_refuted.
(** A text constant after NOT loses its quotes. *)
Theorem C119_not_text_refuted : forall lib src last n q s x, laid_out src last -> map snd src = [Word n; Quoted q s; sym "$"; Word x] -> upper n = u "NOT" -> named x ->
  let t := CNot (CCmp OIn (CStr s) (CVar (small x))) in
  says 0 (map snd src) t /\
  exists tree, read_expr (text src last) = Some tree /\ ~ means (code lib tree) t /\ code lib tree = [Not; Id s; Op OIn; Id (u "S"); Dot; Id (small x)].
Proof.
  intros lib src last n q s x H E Hn Hx t. assert (S0 : says 0 (map snd src) t).
  { rewrite E. apply (lift 0 2); [|lia]. apply (Y_not (Word n)); [constructor; auto|]. apply (lift 2 3); [|lia].
    apply (Y_binary 3 [sym "$"] (CCmp OIn) [Quoted q s]); [constructor; cbn; auto 13 | apply (lift 3 9); [apply Y_text | lia] | apply name_read; auto; lia]. }
  split; [exact S0|]. exists (regrouped t). split; [apply C119_reads; auto|]. split; [|reflexivity].
  eapply T_Conv.not_means; [T_Conv.parse | discriminate].
Qed.
Print Assumptions C119_not_text_refuted.
(** A sum in parentheses after NOT loses them. *)
Theorem C119_not_parentheses_refuted : forall lib src last n x y z w, laid_out src last -> map snd src = [Word n; sym "("; Word x; sym "+"; Word y; sym ")"; sym "*"; Word z; sym "="; Word w] -> upper n = u "NOT" ->
  named x -> named y -> named z -> named w ->
  let t := CNot (CCmp OEq (CBin OMul (CSub (CBin OAdd (CVar (small x)) (CVar (small y)))) (CVar (small z))) (CVar (small w))) in
  says 0 (map snd src) t /\
  exists tree, read_expr (text src last) = Some tree /\ ~ means (code lib tree) t /\ means (code lib tree) (CNot (CCmp OEq (CBin OAdd (CVar (small x)) (CBin OMul (CVar (small y)) (CVar (small z)))) (CVar (small w)))).
Proof.
  intros lib src last n x y z w H E Hn Hx Hy Hz Hw t. assert (S0 : says 0 (map snd src) t).
  { rewrite E. apply (lift 0 2); [|lia]. apply (Y_not (Word n)); [constructor; auto|]. apply (lift 2 3); [|lia].
    apply (Y_binary 3 [sym "="] (CCmp OEq) [sym "("; Word x; sym "+"; Word y; sym ")"; sym "*"; Word z]); [constructor; cbn; auto | | apply name_read; auto; lia].
    apply (lift 3 6); [|lia]. apply (Y_binary 6 [sym "*"] (CBin OMul) [sym "("; Word x; sym "+"; Word y; sym ")"]); [constructor; cbn; auto | | apply name_read; auto; lia].
    apply (lift 6 9); [|lia]. apply (Y_parentheses [Word x; sym "+"; Word y]). apply (lift 0 4); [|lia].
    apply (Y_binary 4 [sym "+"] (CBin OAdd) [Word x]); [constructor; cbn; auto | apply name_read; auto; lia | apply name_read; auto; lia]. }
  split; [exact S0|]. exists (regrouped t). split; [apply C119_reads; auto|]. split.
  - eapply T_Conv.not_means; [T_Conv.parse | discriminate].
  - eexists. split; [T_Conv.parse | reflexivity].
Qed.
Print Assumptions C119_not_parentheses_refuted.
