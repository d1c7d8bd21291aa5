(** Property C103: CAST(x AS type). *)
From Verif Require Import PyBase PyStr M_Lit M_Cast.
Open Scope Z_scope.
Open Scope res_scope.

(** the names of the FoxPro types, as letter and as word *)
Definition text_type (t : pystr) : Prop := In t [u "c"; u "char"; u "character"; u "v"; u "varchar"; u "m"; u "memo"; u "g"; u "general"].
Definition number_type (t : pystr) : Prop := In t [u "n"; u "num"; u "numeric"; u "f"; u "float"; u "b"; u "double"; u "y"; u "currency"].
Definition integer_type (t : pystr) : Prop := In t [u "i"; u "int"; u "integer"].
Definition logical_type (t : pystr) : Prop := In t [u "l"; u "logical"].
Definition date_type (t : pystr) : Prop := In t [u "d"; u "date"; u "t"; u "datetime"].
Definition binary_type (t : pystr) : Prop := In t [u "w"; u "blob"; u "q"; u "varbinary"].
Definition written (t name : pystr) : Prop := map lower_char name = t.

Section C103.
Context {F : Type}.
Variables (of_int : Z -> F) (of_text : pystr -> option F) (trunc : F -> Z) (nonzero : F -> bool) (show : F -> pystr).
Notation cast := (cast F of_int of_text trunc nonzero show).
Arguments KInt {F}. Arguments KFloat {F}. Arguments KText {F}. Arguments KBool {F}. Arguments KNone {F}. Arguments KBytes {F}. Arguments KDate {F}.

Ltac pick H W := unfold written in W; cbn [In] in H; repeat destruct H as [H|H]; try contradiction; rewrite <- H in W; unfold M_Cast.cast, cast_func; rewrite W.
Lemma text_func t name x : text_type t -> written t name -> cast x name None = apply_func F of_int of_text trunc nonzero show FStr x.
Proof. intros H W. pick H W; reflexivity. Qed.
Lemma number_func t name x : number_type t -> written t name -> cast x name None = apply_func F of_int of_text trunc nonzero show FFloat x.
Proof. intros H W. pick H W; reflexivity. Qed.
Lemma integer_func t name x : integer_type t -> written t name -> cast x name None = apply_func F of_int of_text trunc nonzero show FInt x.
Proof. intros H W. pick H W; reflexivity. Qed.
Lemma logical_func t name x : logical_type t -> written t name -> cast x name None = apply_func F of_int of_text trunc nonzero show FBool x.
Proof. intros H W. pick H W; reflexivity. Qed.
Lemma binary_func t name x : binary_type t -> written t name -> cast x name None = apply_func F of_int of_text trunc nonzero show FBytes x.
Proof. intros H W. pick H W; reflexivity. Qed.

Lemma groups_digits s : forallb is_digit s = true -> groups s = [s].
Proof.
  induction s as [|c s IH]; [reflexivity|]. cbn [forallb groups]. rewrite andb_true_iff. intros [D H]. rewrite (IH H). destruct (Z.eqb_spec c 95); [subst; discriminate|reflexivity].
Qed.
Lemma strip_left_blanks b s : forallb blank b = true -> strip_left (b ++ s) = strip_left s.
Proof. induction b as [|c b IH]; [reflexivity|]. cbn [forallb app strip_left]. rewrite andb_true_iff. intros [-> H]. exact (IH H). Qed.
Lemma strip_left_digit c s : blank c = false -> strip_left (c :: s) = c :: s.
Proof. intros H. cbn [strip_left]. now rewrite H. Qed.
Lemma digit_not_blank c : is_digit c = true -> blank c = false.
Proof. unfold is_digit, blank. rewrite andb_true_iff, !Z.leb_le. intros [A B]. destruct (Z.eqb_spec c 32), (Z.leb_spec 9 c), (Z.leb_spec c 13), (Z.leb_spec 28 c), (Z.leb_spec c 31); cbn; try reflexivity; lia. Qed.
Lemma strip_padded b a s : forallb blank b = true -> forallb blank a = true -> s <> [] -> blank (hd 0 s) = false -> blank (last s 0) = false -> strip_both (b ++ s ++ a) = s.
Proof.
  intros B A N H L. unfold strip_both. rewrite strip_left_blanks by exact B. destruct s as [|c s]; [congruence|]. cbn [app hd] in *. rewrite strip_left_digit by exact H.
  change (c :: s ++ a) with ((c :: s) ++ a). rewrite rev_app_distr, strip_left_blanks; [|apply forallb_forall; intros x I; rewrite forallb_forall in A; apply A; now apply in_rev].
  destruct (rev (c :: s)) as [|x r] eqn:E; [apply (f_equal (@rev Z)) in E; rewrite rev_involutive in E; discriminate|].
  assert (X : x = last (c :: s) 0). { rewrite <- (rev_involutive (c :: s)), E. cbn [rev]. now rewrite last_last. }
  rewrite strip_left_digit by congruence. rewrite <- E, rev_involutive. reflexivity.
Qed.
Lemma last_in {A} (l : list A) d : l <> [] -> In (last l d) l.
Proof. intros H. rewrite (app_removelast_last d H) at 2. apply in_or_app. right. now left. Qed.
(** Nothing changes when the value is of the type already, however the type is written: texts, whole numbers, truth values; a whole
    number becomes the float of that number. *)
Theorem C103_same_partial : forall t name,
  written t name ->
  (text_type t -> forall s, cast (KText s) name None = Ok (KText s)) /\
  (integer_type t -> forall n, cast (KInt n) name None = Ok (KInt n)) /\
  (logical_type t -> forall b, cast (KBool b) name None = Ok (KBool b)) /\
  (number_type t -> forall n, cast (KInt n) name None = Ok (KFloat (of_int n))) /\
  (number_type t -> forall x, cast (KFloat x) name None = Ok (KFloat x)).
Proof.
  intros t name W. repeat split; intros H x; [rewrite (text_func t)|rewrite (integer_func t)|rewrite (logical_func t)|rewrite (number_func t)|rewrite (number_func t)]; auto.
Qed.
(** A whole number becomes its digits, and its digits, with a sign and blanks around them or not, become the number again. *)
Theorem C103_digits_partial : forall t name t' name' n before after,
  written t name -> text_type t -> written t' name' -> integer_type t' -> forallb blank before = true -> forallb blank after = true ->
  cast (KInt n) name None = Ok (KText (dec n)) /\ cast (KText (before ++ dec n ++ after)) name' None = Ok (KInt n).
Proof.
  intros t name t' name' n before after W H W' H' B A. split; [now rewrite (text_func t)|]. rewrite (integer_func t' _ _ H' W'). cbn [apply_func].
  assert (D : forall m, 0 <= m -> digits_value (dec_nat m) = m /\ forallb is_digit (dec_nat m) = true /\ dec_nat m <> []) by (intros m Hm; apply digits_spec; [exact Hm|pose proof (Z.log2_nonneg m); lia]).
  assert (E : py_int (before ++ dec n ++ after) = Ok n); [|now rewrite E].
  unfold py_int. rewrite strip_padded; [|exact B|exact A| | |].
  - unfold dec. destruct (Z.ltb_spec n 0) as [L|L].
    + destruct (D (- n) ltac:(lia)) as (V & G & N). cbn [sign_of Z.eqb Pos.eqb]. rewrite (groups_digits _ G). cbn [forallb concat]. rewrite app_nil_r, G, V. destruct (dec_nat (- n)) as [|c r] eqn:E; [congruence|]. rewrite zlen_cons. pose proof (zlen_nonneg r). destruct (Z.eqb_spec (1 + zlen r) 0); [lia|]. cbn [negb andb]. f_equal. lia.
    + destruct (D n L) as (V & G & N). assert (X : sign_of (dec_nat n) = (1, dec_nat n)).
      { destruct (dec_nat n) as [|c r]; [congruence|]. cbn [forallb] in G. apply andb_true_iff in G as [G _]. unfold is_digit in G. rewrite andb_true_iff, !Z.leb_le in G.
        cbn [sign_of]. destruct (Z.eqb_spec c 45), (Z.eqb_spec c 43); try lia. reflexivity. }
      rewrite X. rewrite (groups_digits _ G). cbn [forallb concat]. rewrite app_nil_r, G, V. destruct (dec_nat n) as [|c r] eqn:E; [congruence|]. rewrite zlen_cons. pose proof (zlen_nonneg r). destruct (Z.eqb_spec (1 + zlen r) 0); [lia|]. cbn [negb andb]. f_equal. lia.
  - unfold dec. destruct (n <? 0) eqn:L; [discriminate|]. apply Z.ltb_ge in L. apply D. exact L.
  - unfold dec. destruct (Z.ltb_spec n 0) as [L|L]; [reflexivity|]. destruct (D n L) as (_ & G & N). destruct (dec_nat n); [congruence|]. cbn [forallb hd] in *. apply andb_true_iff in G as [G _]. now apply digit_not_blank.
  - unfold dec. destruct (Z.ltb_spec n 0) as [L|L].
    + destruct (D (- n) ltac:(lia)) as (_ & G & N). replace (last (45 :: dec_nat (- n)) 0) with (last (dec_nat (- n)) 0) by (destruct (dec_nat (- n)); [congruence|reflexivity]). apply digit_not_blank. rewrite forallb_forall in G. apply G. now apply last_in.
    + destruct (D n L) as (_ & G & N). apply digit_not_blank. rewrite forallb_forall in G. apply G. now apply last_in.
Qed.
(** A type with a width, as in CAST(x AS C(10)), cannot be converted, whatever the type and the value. *)
Theorem C103_width_refuted : forall x name w, exists e, cast x name (Some w) = Err e.
Proof. intros. eexists. reflexivity. Qed.
(** CAST to a date or a time fails for every number, truth value, null, date, and for every text without control characters. *)
Theorem C103_date_refuted : forall t name x, written t name -> date_type t ->
  (forall s, x = KText s \/ x = KBytes s -> Forall (fun c => 32 <= c) s) -> exists e, cast x name None = Err e.
Proof.
  intros t name x W H Hx. assert (P : forall n, pickled F n x = false).
  { intros n. unfold pickled. destruct x as [| |s| | |s|]; try reflexivity; (assert (FA : Forall (fun c => 32 <= c) s) by (apply Hx; auto)); destruct s as [|a [|b [|m r]]]; rewrite ?andb_false_r; try reflexivity;
    inversion FA as [|? ? _ F1]; inversion F1 as [|? ? _ F2]; inversion F2 as [|? ? F3 _]; subst; destruct (Z.leb_spec 1 m), (Z.leb_spec m 12); cbn [andb]; rewrite ?andb_false_r; try reflexivity; lia. }
  exists TypeError. pick H W; match goal with |- context[dget pystr_eqb types ?k] => let v := eval vm_compute in (dget pystr_eqb types k) in change (dget pystr_eqb types k) with v end; cbn [rbind apply_func]; rewrite P; reflexivity.
Qed.
(** A text with a decimal point or anything that is not part of a whole number fails as I; FoxPro gives the number in front, or 0. *)
Theorem C103_text_integer_refuted : forall t name s c, written t name -> integer_type t -> In c s ->
  is_digit c = false -> blank c = false -> c <> 43 -> c <> 45 -> c <> 95 -> cast (KText s) name None = Err ValueError.
Proof.
  intros t name s c W H I D B N1 N2 N3. rewrite (integer_func t _ _ H W). cbn [apply_func].
  assert (S1 : forall l, In c l -> In c (strip_left l)). { induction l as [|x l IH]; [auto|]. intros [->|X]; cbn [strip_left]; [rewrite B; now left|]. destruct (blank x); [auto|now right]. }
  assert (S2 : In c (strip_both s)) by (unfold strip_both; apply -> in_rev; apply S1; apply -> in_rev; now apply S1).
  assert (G : forall l, In c l -> forallb (fun g => negb (zlen g =? 0) && forallb is_digit g) (groups l) = false).
  { intros l J. apply not_true_is_false. intros FA. assert (K : exists g, In g (groups l) /\ In c g).
    { clear -J N3. induction l as [|x l IH]; [contradiction|]. cbn [groups]. destruct (Z.eqb_spec x 95) as [->|].
      - destruct J as [J|J]; [congruence|]. destruct (IH J) as (g & A & B). exists g. split; [now right|exact B].
      - destruct (groups l) as [|g gs] eqn:E; [destruct l; cbn in E; [discriminate|destruct (z =? 95); [discriminate|destruct (groups l); discriminate]]|].
        destruct J as [->|J]; [exists (c :: g); split; now left|]. destruct (IH J) as (h & [->|A] & B); [exists (x :: h); split; [now left|now right]|exists h; split; [now right|exact B]]. }
    destruct K as (g & A & Cg). rewrite forallb_forall in FA. specialize (FA g A). apply andb_true_iff in FA as [_ FA]. rewrite forallb_forall in FA. rewrite (FA c Cg) in D. discriminate. }
  assert (E : py_int s = Err ValueError); [|now rewrite E].
  unfold py_int. destruct (sign_of (strip_both s)) as [sg body] eqn:EB.
  assert (J : In c body).
  { destruct (strip_both s) as [|x r]; [contradiction|]. cbn [sign_of] in EB. destruct (Z.eqb_spec x 45) as [->|X45]; [injection EB as <- <-; destruct S2; [congruence|assumption]|]. destruct (Z.eqb_spec x 43) as [->|X43]; [injection EB as <- <-; destruct S2; [congruence|assumption]|]. injection EB as <- <-. exact S2. }
  rewrite (G body J). reflexivity.
Qed.
(** Every text but the empty one is true as a logical value, F and N as well; .T. and .F. become the words of Python; .NULL. becomes
    a text. *)
Theorem C103_logical_refuted : forall t name t' name', written t name -> logical_type t -> written t' name' -> text_type t' ->
  (forall c s, cast (KText (c :: s)) name None = Ok (KBool true)) /\
  (forall b, cast (KBool b) name' None = Ok (KText (u (if b then "True" else "False")))) /\ cast KNone name' None = Ok (KText (u "None")).
Proof.
  intros t name t' name' W H W' H'. split; [|split].
  - intros c s. rewrite (logical_func t _ _ H W). cbn [apply_func]. rewrite zlen_cons. pose proof (zlen_nonneg s). destruct (Z.eqb_spec (1 + zlen s) 0); [lia|reflexivity].
  - intros b. rewrite (text_func t' _ _ H' W'). now destruct b.
  - now rewrite (text_func t' _ _ H' W').
Qed.
(** A text cannot be cast to a blob, and the blob of a number is that many zero bytes. *)
Theorem C103_binary_refuted : forall t name, written t name -> binary_type t ->
  (forall s, exists e, cast (KText s) name None = Err e) /\ (forall n, 0 <= n -> cast (KInt n) name None = Ok (KBytes (repeat 0 (Z.to_nat n)))).
Proof.
  intros t name W H. split; intros x; [exists TypeError; now rewrite (binary_func t)|]. intros L. rewrite (binary_func t _ _ H W). cbn [apply_func]. destruct (Z.ltb_spec x 0); [lia|reflexivity].
Qed.
End C103.
Print Assumptions C103_same_partial.
Print Assumptions C103_digits_partial.
Print Assumptions C103_width_refuted.
Print Assumptions C103_date_refuted.
Print Assumptions C103_text_integer_refuted.
Print Assumptions C103_logical_refuted.
Print Assumptions C103_binary_refuted.
Definition C103_cast (x : cval Z) (name : string) := cast Z (fun n => n) (fun _ => None) (fun n => n) (fun n => negb (n =? 0)) dec x (u name) None.
Example C103_example :
  C103_cast (KInt Z (-120)) "Memo" = Ok (KText Z (u "-120")) /\ C103_cast (KText Z (u " -120 ")) "INTEGER" = Ok (KInt Z (-120)) /\
  C103_cast (KText Z (u "3.7")) "I" = Err ValueError /\ C103_cast (KText Z (u "F")) "L" = Ok (KBool Z true) /\ C103_cast (KText Z (u "2020-01-31")) "D" = Err TypeError /\
  written (u "integer") (u "INTEGER").
Proof. vm_compute. repeat split. Qed.
