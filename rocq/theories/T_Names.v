(** Property C113: names of variables, properties and procedures. *)
From Verif Require Import PyBase PyStr M_Stmt M_Do M_Names.
Open Scope Z_scope.

(** FoxPro's names: letters, digits and underscores, not starting with a digit; upper and lower case are the same *)
Definition name (t : pystr) : Prop := t <> [] /\ forall c, In c t -> (65 <= c <= 90) \/ (97 <= c <= 122) \/ (48 <= c <= 57) \/ c = 95.
Inductive same_letter : Z -> Z -> Prop :=
| SRefl c : same_letter c c
| SUp c : 65 <= c <= 90 -> same_letter c (c + 32)
| SDown c : 97 <= c <= 122 -> same_letter c (c - 32).
Definition same (a b : pystr) : Prop := Forall2 same_letter a b.
Definition letter (c : Z) : Prop := (65 <= c <= 90) \/ (97 <= c <= 122).
Definition spells (t : pystr) (word : string) : Prop := same t (u word).

Lemma eqb_eq a b : pystr_eqb a b = true <-> a = b.
Proof. destruct (pystr_eqb_spec a b); split; intros; try assumption; try reflexivity; try discriminate; contradiction. Qed.
Lemma low_char c d : (let low c := if upper c then c + 32 else c in low c = low d) <-> same_letter c d.
Proof.
  cbv zeta. unfold upper. split.
  - destruct (Z.leb_spec 65 c), (Z.leb_spec c 90), (Z.leb_spec 65 d), (Z.leb_spec d 90); cbn [andb]; intros H'; try lia;
      first [replace d with c by lia; constructor | replace d with (c + 32) by lia; constructor; lia | replace d with (c - 32) by lia; constructor; lia].
  - destruct 1 as [c|c R|c R]; [reflexivity| |]; repeat match goal with |- context [?a <=? ?b] => destruct (Z.leb_spec a b) end; cbn [andb]; lia.
Qed.
Lemma same_lower a b : same a b <-> lower_text a = lower_text b.
Proof.
  split.
  - induction 1 as [|c d a b S _ IH]; [reflexivity|]. cbn [lower_text map]. f_equal; [exact (proj2 (low_char c d) S)|exact IH].
  - revert b. induction a as [|c a IH]; intros [|d b] E; try discriminate; [constructor|]. cbn [lower_text map] in E. injection E as E1 E2.
    constructor; [exact (proj1 (low_char c d) E1)|apply IH; exact E2].
Qed.

(** Upper and lower case make no difference, anywhere *)
Theorem C113_case a b obj : same a b ->
  use_text (Variable_ a) = use_text (Variable_ b) /\ use_text (Property obj a) = use_text (Property obj b) /\ use_text (Property a obj) = use_text (Property b obj) /\
  use_text (Define a) = use_text (Define b) /\ use_text (Call a) = use_text (Call b).
Proof. intros S. apply same_lower in S. unfold use_text, reference, identifier. rewrite S. repeat split. Qed.

Lemma identifier_eq a b : identifier a = identifier b -> same a b \/ (spells a "class" /\ spells b "classtype") \/ (spells a "classtype" /\ spells b "class").
Proof.
  unfold identifier. cbv zeta. unfold spells. rewrite !same_lower. change (lower_text (u "class")) with (u "class"). change (lower_text (u "classtype")) with (u "classtype").
  destruct (pystr_eqb (lower_text a) (u "class")) eqn:A, (pystr_eqb (lower_text b) (u "class")) eqn:B; try rewrite eqb_eq in A; try rewrite eqb_eq in B; intros E; [left; congruence| | |left; exact E].
  - right; left. split; congruence.
  - right; right. split; congruence.
Qed.
Lemma reference_eq a b : reference a = reference b -> identifier a = identifier b.
Proof.
  unfold reference. cbv zeta.
  destruct (islower (identifier a)), (islower (identifier b)), (pystr_eqb (identifier a) (u "this")) eqn:A1, (pystr_eqb (identifier b) (u "this")) eqn:B1,
    (pystr_eqb (identifier a) (u "thisform")) eqn:A2, (pystr_eqb (identifier b) (u "thisform")) eqn:B2, (valid_name (identifier a)), (valid_name (identifier b));
    try rewrite eqb_eq in A1; try rewrite eqb_eq in A2; try rewrite eqb_eq in B1; try rewrite eqb_eq in B2; intros E; try discriminate E; congruence.
Qed.
(** Different names stay different, but for CLASS and CLASSTYPE *)
Theorem C113_distinct_partial a b : reference a = reference b -> same a b \/ (spells a "class" /\ spells b "classtype") \/ (spells a "classtype" /\ spells b "class").
Proof. intros E. apply identifier_eq, reference_eq. exact E. Qed.
Theorem C113_class_refuted a b : spells a "class" -> spells b "classtype" -> ~ same a b /\ reference a = reference b /\ identifier a = identifier b.
Proof.
  unfold spells. rewrite !same_lower. intros A B. split; [rewrite A, B; discriminate|]. assert (E : identifier a = identifier b) by (unfold identifier; rewrite A, B; reflexivity).
  split; [unfold reference; rewrite E; reflexivity|exact E].
Qed.

(** Python's keywords as FoxPro names: those in lower case *)
Definition words_of_python : list string :=
  ["and"; "as"; "assert"; "async"; "await"; "break"; "continue"; "def"; "del"; "elif"; "else"; "except"; "finally"; "for"; "from"; "global"; "if"; "import"; "in"; "is"; "lambda"; "nonlocal"; "not";
   "or"; "pass"; "raise"; "return"; "try"; "while"; "with"; "yield"]%string.
Definition python_word (t : pystr) : Prop := exists k, In k words_of_python /\ spells t k.

Lemma name_chars t : name t -> t <> [] /\ forallb name_char (identifier t) = true /\ identifier t <> [].
Proof.
  intros [N H]. split; [exact N|]. assert (L : forallb name_char (lower_text t) = true).
  { clear N. induction t as [|c t IH]; [reflexivity|]. cbn [lower_text map forallb]. apply andb_true_iff. split; [|apply IH; intros d I; apply H; right; exact I].
    specialize (H c (or_introl eq_refl)). unfold name_char, lower, upper. destruct (Z.leb_spec 65 c), (Z.leb_spec c 90); cbn [andb]; repeat match goal with |- context [?a <=? ?b] => destruct (Z.leb_spec a b) end; cbn [andb orb];
      try reflexivity; try (apply Z.eqb_eq); lia. }
  unfold identifier. cbv zeta. destruct (pystr_eqb (lower_text t) (u "class")); [split; [reflexivity|discriminate]|]. split; [exact L|]. destruct t; [contradiction|discriminate].
Qed.
Lemma words_name n : forall cur r, forallb name_char n = true -> words_from (n ++ r) cur = words_from r (cur ++ n).
Proof.
  induction n as [|c n IH]; intros cur r H; [rewrite app_nil_r; reflexivity|]. cbn [app words_from]. cbn [forallb] in H. apply andb_prop in H as [H1 H2]. rewrite H1, IH by exact H2.
  rewrite <- app_assoc. reflexivity.
Qed.
Lemma words_end n : n <> [] -> words_from [] n = [n].
Proof. destruct n; [contradiction|reflexivity]. Qed.
Lemma words_stop n c r : n <> [] -> name_char c = false -> words_from (c :: r) n = n :: words_from r [].
Proof. intros N C. cbn [words_from]. rewrite C. destruct n; [contradiction|reflexivity]. Qed.
Lemma words_one n : n <> [] -> forallb name_char n = true -> words n = [n].
Proof. intros N H. unfold words. rewrite <- (app_nil_r n) at 1. rewrite words_name by exact H. cbn [app]. apply words_end. exact N. Qed.
Lemma ref_words t : name t -> words (ref_text (reference t)) =
  match reference t with RVar n | RKey n => [u "S"; n] | RSelf => [u "self"] | RForm => [u "self"; u "parentform"] | RPython n => [n] end /\
  (forall n, reference t = RVar n \/ reference t = RKey n \/ reference t = RPython n -> n = identifier t).
Proof.
  intros H. apply name_chars in H as (_ & C & N). unfold reference. cbv zeta. split.
  - destruct (islower (identifier t)); [|cbn [ref_text]; apply words_one; assumption]. destruct (pystr_eqb (identifier t) (u "this")); [reflexivity|].
    destruct (pystr_eqb (identifier t) (u "thisform")); [reflexivity|]. destruct (valid_name (identifier t)); cbn [ref_text]; unfold words.
    + change (u "S." ++ identifier t) with (u "S" ++ 46 :: identifier t). rewrite words_name by reflexivity. cbn [app]. rewrite words_stop by (discriminate || reflexivity). f_equal. apply words_one; assumption.
    + change (u "S[" ++ identifier t ++ u "]") with (u "S" ++ 91 :: identifier t ++ u "]"). rewrite words_name by reflexivity. cbn [app]. rewrite words_stop by (discriminate || reflexivity). f_equal.
      rewrite words_name by exact C. cbn [app u]. change (words_from (u "]") (identifier t) = [identifier t]). unfold u. cbn [map]. rewrite words_stop; [reflexivity|exact N|reflexivity].
  - intros n. destruct (islower (identifier t)); [|intros [E | [E | E]]; congruence]. destruct (pystr_eqb (identifier t) (u "this")); [intros [E | [E | E]]; discriminate|].
    destruct (pystr_eqb (identifier t) (u "thisform")); [intros [E | [E | E]]; discriminate|]. destruct (valid_name (identifier t)); intros [E | [E | E]]; congruence.
Qed.

Lemma python_word_identifier t : python_word t -> one_of keywords (identifier t) = true /\ valid_name (identifier t) = false /\ islower (identifier t) = true /\
  pystr_eqb (identifier t) (u "this") = false /\ pystr_eqb (identifier t) (u "thisform") = false.
Proof.
  intros (k & I & S). unfold spells in S. apply same_lower in S. unfold identifier. rewrite S. clear S.
  assert (C : forallb (fun k => let n := lower_text (u k) in let n := if pystr_eqb n (u "class") then u "classtype" else n in
    one_of keywords n && negb (valid_name n) && islower n && negb (pystr_eqb n (u "this")) && negb (pystr_eqb n (u "thisform"))) words_of_python = true) by (vm_compute; reflexivity).
  rewrite forallb_forall in C. specialize (C k I). cbv zeta in C |- *. apply andb_prop in C as [C C5]. apply andb_prop in C as [C C4]. apply andb_prop in C as [C C3]. apply andb_prop in C as [C1 C2].
  apply negb_true_iff in C2, C4, C5. auto.
Qed.
Lemma not_python_word t : ~ python_word t -> one_of keywords (identifier t) = false.
Proof.
  intros N. destruct (one_of keywords (identifier t)) eqn:E; [|reflexivity]. exfalso. apply N.
  unfold one_of in E. apply existsb_exists in E as (k & I & E). apply eqb_eq in E. subst k. unfold identifier in I. cbv zeta in I.
  destruct (pystr_eqb (lower_text t) (u "class")) eqn:C.
  - exfalso. assert (X : existsb (pystr_eqb (u "classtype")) keywords = false) by (vm_compute; reflexivity).
    rewrite (proj2 (existsb_exists _ _)) in X; [discriminate|]. exists (u "classtype"). split; [exact I|]. apply eqb_eq. reflexivity.
  - assert (U : forall c, In c (lower_text t) -> upper c = false).
    { unfold lower_text. intros c J. apply in_map_iff in J as (d & <- & _). destruct (upper d) eqn:D; [|exact D]. unfold upper in *. apply andb_prop in D as [D1 D2].
      apply Z.leb_le in D1, D2. apply andb_false_iff. right. apply Z.leb_gt. lia. }
    assert (K : forallb (fun k => existsb upper k || pystr_eqb k (u "class") || existsb (fun w => pystr_eqb k (u w)) words_of_python) keywords = true) by (vm_compute; reflexivity).
    rewrite forallb_forall in K. specialize (K _ I). rewrite C in K. apply orb_prop in K as [K|K].
    + apply orb_prop in K as [K|K]; [|discriminate]. apply existsb_exists in K as (c & J & K). rewrite (U c J) in K. discriminate.
    + apply existsb_exists in K as (w & J & K). apply eqb_eq in K. exists w. split; [exact J|]. unfold spells. apply same_lower. rewrite K.
      assert (L : forallb (fun w => pystr_eqb (u w) (lower_text (u w))) words_of_python = true) by (vm_compute; reflexivity). rewrite forallb_forall in L. apply eqb_eq. apply L. exact J.
Qed.
Definition named (x : use) (t : pystr) : Prop := match x with Variable_ a | Define a | Call a => t = a | Property obj a => t = obj \/ t = a end.
Lemma use_words x : (forall t, named x t -> name t) -> words (use_text x) =
  match x with
  | Variable_ t => words (ref_text (reference t))
  | Property obj t => words (ref_text (reference obj)) ++ [identifier t]
  | Define t => [u "def"; identifier t]
  | Call t => [identifier t]
  end.
Proof.
  destruct x as [t|obj t|t|t]; intros H; cbn [named] in H; [reflexivity| | |]; cbn [use_text].
  - assert (X : forall s cur c r, name_char c = false -> words_from (s ++ c :: r) cur = words_from s cur ++ words_from r []).
    { induction s as [|d s IH]; intros cur c r C; cbn [app words_from].
      - rewrite C. destruct cur; reflexivity.
      - destruct (name_char d); [apply IH; exact C|]. destruct cur; rewrite (IH [] c r C); reflexivity. }
    unfold words. change (u "." ++ identifier t) with (46 :: identifier t). rewrite X by reflexivity. f_equal. destruct (name_chars t (H t (or_intror eq_refl))) as (_ & C & N). apply words_one; assumption.
  - destruct (name_chars t (H t eq_refl)) as (_ & C & N). unfold words. change (u "def " ++ identifier t ++ u "():") with (u "def" ++ 32 :: identifier t ++ u "():").
    rewrite words_name by reflexivity. cbn [app]. rewrite words_stop by (discriminate || reflexivity). f_equal. rewrite words_name by exact C. cbn [app].
    change (u "():") with (40 :: u "):"). rewrite words_stop by (exact N || reflexivity). reflexivity.
  - destruct (name_chars t (H t eq_refl)) as (_ & C & N). unfold words. rewrite words_name by exact C. cbn [app]. change (u "()") with (40 :: u ")"). rewrite words_stop by (exact N || reflexivity). reflexivity.
Qed.
(** Every name that is not one of Python's keywords gives code that loads ... *)
Theorem C113_loads_partial x : (forall t, named x t -> name t /\ ~ python_word t) -> loads x = true.
Proof.
  intros H. unfold loads. rewrite use_words by (intros t N; apply H; exact N). apply negb_true_iff.
  assert (R : forall t, name t -> ~ python_word t -> existsb (one_of keywords) (words (ref_text (reference t))) = false).
  { intros t N W. destruct (ref_words t N) as [-> J]. destruct (reference t) as [n|n| | |n] eqn:E; try reflexivity; cbn [existsb]; rewrite (J n) by auto; rewrite (not_python_word t W); reflexivity. }
  destruct x as [t|obj t|t|t]; cbn [named] in H.
  - destruct (H t eq_refl). apply R; assumption.
  - destruct (H t (or_intror eq_refl)) as [_ W]. destruct (H obj (or_introl eq_refl)). rewrite existsb_app, R by assumption. cbn [existsb orb]. rewrite not_python_word by exact W. reflexivity.
  - destruct (H t eq_refl) as [_ W]. cbn [existsb tl]. rewrite not_python_word by exact W. reflexivity.
  - destruct (H t eq_refl) as [_ W]. cbn [existsb tl]. rewrite not_python_word by exact W. reflexivity.
Qed.
(** ... and every name that is one of them, wherever it stands and however it is spelled, gives a file that does not *)
Theorem C113_keyword_refuted x t : (forall t, named x t -> name t) -> named x t -> python_word t -> loads x = false.
Proof.
  intros H N W. unfold loads. rewrite use_words by exact H. apply negb_false_iff. destruct (python_word_identifier t W) as (K & V & L & A & B).
  assert (R : existsb (one_of keywords) (words (ref_text (reference t))) = true).
  { destruct (ref_words t (H t N)) as [-> _]. unfold reference. cbv zeta. rewrite L, A, B, V. cbn [existsb]. rewrite K. apply orb_true_r. }
  destruct x as [a|obj a|a|a]; cbn [named] in N.
  - subst a. exact R.
  - rewrite existsb_app. destruct N; subst; [rewrite R; reflexivity|]. cbn [existsb]. rewrite K. apply orb_true_r.
  - subst a. cbn [tl existsb]. rewrite K. reflexivity.
  - subst a. cbn [existsb]. rewrite K. reflexivity.
Qed.

(** A name with a letter is a variable of the program ... *)
Lemma islower_letter t : name t -> islower (identifier t) = true <-> exists c, In c t /\ letter c.
Proof.
  intros [_ H]. unfold identifier. cbv zeta. destruct (pystr_eqb (lower_text t) (u "class")) eqn:C.
  - apply eqb_eq in C. split; [intros _|reflexivity]. destruct t as [|c t]; [discriminate|]. exists c. split; [left; reflexivity|]. cbn in C. injection C as C _. unfold upper in C.
    destruct (Z.leb_spec 65 c), (Z.leb_spec c 90); cbn [andb] in C; unfold letter; lia.
  - clear C. unfold islower. split.
    + intros E. apply andb_prop in E as [E _]. apply existsb_exists in E as (d & I & E). unfold lower_text in I. apply in_map_iff in I as (c & D & I). exists c. split; [exact I|].
      unfold lower, upper, letter in *. apply andb_prop in E as [E1 E2]. apply Z.leb_le in E1, E2. destruct (Z.leb_spec 65 c), (Z.leb_spec c 90); cbn [andb] in D; lia.
    + intros (c & I & L). apply andb_true_intro. split.
      * apply existsb_exists. exists (if upper c then c + 32 else c). split; [apply (in_map (fun c => if upper c then c + 32 else c)); exact I|]. unfold lower, upper, letter in *.
        destruct (Z.leb_spec 65 c), (Z.leb_spec c 90); cbn [andb]; apply andb_true_intro; split; apply Z.leb_le; lia.
      * apply negb_true_iff. apply Bool.not_true_iff_false. intros E. apply existsb_exists in E as (d & J & E). unfold lower_text in J. apply in_map_iff in J as (e & D & J).
        unfold upper in *. apply andb_prop in E as [E1 E2]. apply Z.leb_le in E1, E2. destruct (Z.leb_spec 65 e), (Z.leb_spec e 90); cbn [andb] in D; lia.
Qed.
Theorem C113_variable_partial V (m py : pystr -> option V) t v : name t -> (exists c, In c t /\ letter c) -> ~ python_word t -> ~ spells t "class" -> ~ spells t "this" -> ~ spells t "thisform" ->
  m (lower_text t) = Some v -> read m py (reference t) = Ok v.
Proof.
  intros N L W C A B M. apply (islower_letter t N) in L. pose proof (name_chars t N) as (_ & F & E). pose proof (not_python_word t W) as K. unfold reference, identifier in *. cbv zeta in *.
  unfold spells in *. rewrite same_lower in *. change (lower_text (u "class")) with (u "class") in C. change (lower_text (u "this")) with (u "this") in A. change (lower_text (u "thisform")) with (u "thisform") in B.
  assert (C' : pystr_eqb (lower_text t) (u "class") = false) by (apply Bool.not_true_iff_false; rewrite eqb_eq; exact C).
  assert (A' : pystr_eqb (lower_text t) (u "this") = false) by (apply Bool.not_true_iff_false; rewrite eqb_eq; exact A).
  assert (B' : pystr_eqb (lower_text t) (u "thisform") = false) by (apply Bool.not_true_iff_false; rewrite eqb_eq; exact B).
  rewrite C' in *. rewrite L, A', B'. unfold valid_name, valid_identifier. unfold one_of in K. rewrite K. destruct (lower_text t) as [|c r] eqn:X; [contradiction|]. rewrite F. cbn [negb andb read]. rewrite M. reflexivity.
Qed.
(** ... but one without, as _ or _1, is not: whatever its value is, the code looks for a Python name *)
Theorem C113_letterless_refuted V (m py : pystr -> option V) t : name t -> (forall c, In c t -> ~ letter c) -> py t = None -> read m py (reference t) = Err NameError.
Proof.
  intros N L P. assert (I : islower (identifier t) = false).
  { apply Bool.not_true_iff_false. rewrite (islower_letter t N). intros (c & I & X). exact (L c I X). }
  assert (X : lower_text t = t).
  { clear N P I. induction t as [|c t IH]; [reflexivity|]. cbn [lower_text map]. f_equal; [|apply IH; intros d J; apply L; right; exact J].
    specialize (L c (or_introl eq_refl)). unfold upper, letter in *. destruct (Z.leb_spec 65 c), (Z.leb_spec c 90); cbn [andb]; try reflexivity; lia. }
  assert (Y : identifier t = t).
  { unfold identifier. cbv zeta. rewrite X. destruct (pystr_eqb t (u "class")) eqn:C; [|reflexivity]. apply eqb_eq in C. subst t. exfalso. apply (L 99); [left; reflexivity|unfold letter; lia]. }
  unfold reference. cbv zeta. rewrite I, Y. cbn [read]. rewrite P. reflexivity.
Qed.
Print Assumptions C113_case.
Print Assumptions C113_distinct_partial.
Print Assumptions C113_class_refuted.
Print Assumptions C113_loads_partial.
Print Assumptions C113_keyword_refuted.
Print Assumptions C113_variable_partial.
Print Assumptions C113_letterless_refuted.

Example C113_example :
  use_text (Variable_ (u "LnTotal")) = u "S.lntotal" /\ use_text (Property (u "This") (u "Class")) = u "self.classtype" /\ use_text (Variable_ (u "Pass")) = u "S[pass]" /\
  use_text (Define (u "Raise")) = u "def raise():" /\ use_text (Variable_ (u "_1")) = u "_1" /\
  loads (Property (u "loItem") (u "From")) = false /\ loads (Property (u "loItem") (u "cFrom")) = true /\ loads (Define (u "go")) = true /\
  words (u "S[pass] = 3") = map u ["S"; "pass"; "3"]%string /\
  name (u "Pass") /\ python_word (u "Pass") /\ spells (u "CLASS") "class".
Proof.
  repeat match goal with |- _ /\ _ => split end; try reflexivity.
  - split; [discriminate|]. intros c I. cbn in I. repeat destruct I as [<- | I]; try lia; destruct I.
  - exists "pass"%string. split; [cbn; tauto|]. unfold spells. apply same_lower. reflexivity.
  - unfold spells. apply same_lower. reflexivity.
Qed.
