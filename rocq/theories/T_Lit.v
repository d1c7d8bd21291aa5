(** Properties C45 (dates), C46 (blobs), C69 (numbers), C70 (strings): constants keep their value. *)
From Verif Require Import PyBase PyStr M_Lit S_Lit P_Dates P_Lit.
Open Scope Z_scope.

(** * C69 *)
(** [rnd m e] is the float nearest to m * 10^e, [finite] holds of the floats that are numbers.  The hypotheses are the contract of
    CPython's conversions: float(text) rounds correctly, and repr of a finite float is a float literal that reads back as it. *)
Definition float_contract {F} (rnd : Z -> Z -> F) (finite : F -> Prop) (flt : pystr -> F) (flt_repr : F -> pystr) : Prop :=
  (forall s m e, mantissa s m e -> flt s = rnd m e) /\
  (forall x, finite x -> exists m e, py_reads (flt_repr x) (PF m e) /\ rnd m e = x).
Definition same_value {F} (rnd : Z -> Z -> F) (v w : pynum) : Prop :=
  match v, w with PI a, PI b => a = b | PF m e, PF m' e' => rnd m e = rnd m' e' | _, _ => False end.

Theorem C69_number_partial F rnd finite flt flt_repr l v : @float_contract F rnd finite flt flt_repr -> lit_value l v ->
  match l, v with
  | LExp _ _ sign x, _ => sign = [] \/ x <> []
  | LPoint _ _, PF m e => finite (rnd m e)
  | _, _ => True
  end ->
  exists w, py_reads (num_repr flt_repr (convert_number flt (lit_text l))) w /\ same_value rnd v w.
Proof.
  intros [HF HR] V G. destruct V as [s n E N|x s n X H|a b m e M|s m e c sg x k sign M C N S]; cbn [lit_text].
  - rewrite (convert_int flt s n E N). exists (PI n). split; [apply dec_reads; exact (numeral_nonneg _ _ N)|reflexivity].
  - rewrite (convert_hex flt x s n X H). cbn [num_repr]. exists (PI n). split; [|reflexivity].
    assert (K : match s with [] => u "0" | _ => [] end <> [] -> s = []) by (destruct s; congruence).
    destruct s as [|c s].
    + assert (n = 0) as ->. { inversion H as [|s' c' n' d' _ _ E]; [reflexivity|]. apply app_eq_nil in E. destruct E as [_ E]. discriminate. }
      apply (py_hex [48] 120 0); [discriminate|auto|]. refine (hx_snoc [] 48 0 0 hx_nil _). left. lia.
    + rewrite app_nil_r. apply py_hex; [discriminate|auto|]. apply hexadecimal_lower. exact H.
  - rewrite convert_plain by exact (mantissa_plain _ _ _ M). rewrite int_text_point by (apply in_or_app; right; left; reflexivity).
    cbn [num_repr]. rewrite (HF _ _ _ M). destruct (HR _ G) as (m' & e' & R & E). exists (PF m' e'). split; [exact R|]. cbn. symmetry. exact E.
  - rewrite (convert_exp flt s m e c sg sign x k M C S N). cbn [num_repr]. exists (PF m (e + sign * k)). split; [|reflexivity].
    destruct (sg ++ x) eqn:Q.
    + apply app_eq_nil in Q. destruct Q as [-> ->]. assert (k = 0) as ->. { apply numeral_iff in N. apply N. }
      apply (py_exp s m e 101 [] [48] 0 sign); [exact M|auto|discriminate|exact numeral_0|exact S].
    + rewrite app_nil_r. apply py_exp; auto. destruct G as [-> |G]; [cbn in Q; congruence|exact G].
Qed.
Print Assumptions C69_number_partial.

Lemma reads_last s v : py_reads s v -> last s 0 <> 43 /\ last s 0 <> 45.
Proof.
  assert (D : forall s n, numeral s n -> s <> [] -> last s 0 <> 43 /\ last s 0 <> 45) by (intros t n N E; pose proof (numeral_last _ _ N E); lia).
  destruct 1 as [s n E N _|s x n E _ H|s m e I M|s m e c sg x k sign M _ E N _].
  - eapply D; eauto.
  - change (48 :: x :: s) with ([48; x] ++ s). rewrite last_app by exact E. destruct H as [|s c n d _ V]; [congruence|]. rewrite last_app by discriminate. cbn. unfold hex_value1 in V. lia.
  - destruct M as [(E & N & _)|(a & b & -> & E & N & _)]; [eapply D; eauto|]. rewrite last_app by discriminate. destruct b as [|c b]; [cbn; lia|].
    change (last (46 :: c :: b) 0) with (last (c :: b) 0). apply numeral_iff in N. destruct N as [N _]. apply Forall_app in N. destruct N as [_ N].
    apply (D (c :: b) (digits_value (c :: b))); [apply numeral_iff; auto|discriminate].
  - rewrite last_app by discriminate. change (c :: sg ++ x) with ((c :: sg) ++ x). rewrite last_app by exact E. eapply D; eauto.
Qed.
(** 1E+ and 1E-: what comes out is no Python number *)
Theorem C69_sign_only_refuted F (flt : pystr -> F) flt_repr s m e c sg : mantissa s m e -> c = 101 \/ c = 69 -> sg = [43] \/ sg = [45] ->
  lit_value (LExp s c sg []) (PF m e) /\
  forall v, ~ py_reads (num_repr flt_repr (convert_number flt (lit_text (LExp s c sg [])))) v.
Proof.
  intros M C S. assert (exists n, exp_sign sg n) as [n SG] by (unfold exp_sign; destruct S as [-> | ->]; eauto 6). split.
  - replace e with (e + n * 0) by lia. constructor; auto using nu_nil.
  - intros v H. cbn [lit_text] in H. rewrite (convert_exp flt s m e c sg n [] 0 M C SG nu_nil) in H. cbn [num_repr] in H. apply reads_last in H.
    destruct S as [-> | ->]; cbn [app] in H; rewrite last_app in H by discriminate; cbn in H; lia.
Qed.
Print Assumptions C69_sign_only_refuted.

(** The contract can be met: floats as pairs (m, e) *)
Definition toy_flt (s : pystr) : Z * Z :=
  (digits_value (filter is_digit s), match find_nat s [46] with Some k => - (zlen s - Z.of_nat k - 1) | None => 0 end).
Definition toy_repr (x : Z * Z) : pystr := dec (fst x) ++ u "e" ++ (if snd x <? 0 then 45 :: dec_nat (- snd x) else dec_nat (snd x)).
Lemma find_dot a b : decimal a -> find_nat (a ++ 46 :: b) [46] = Some (length a).
Proof.
  induction 1 as [|c a H _ IH]; [reflexivity|]. cbn [app find_nat prefixb]. destruct (Z.eqb_spec 46 c) as [E|_]; [lia|]. cbn [andb]. rewrite IH. reflexivity.
Qed.
Lemma no_dot a : decimal a -> find_nat a [46] = None.
Proof. induction 1 as [|c a H _ IH]; [reflexivity|]. cbn [find_nat prefixb]. destruct (Z.eqb_spec 46 c) as [E|_]; [lia|]. cbn [andb]. rewrite IH. reflexivity. Qed.
Lemma filter_decimal a : decimal a -> filter is_digit a = a.
Proof. intros H. apply decimal_forallb in H. induction a as [|c a IH]; [reflexivity|]. cbn in *. apply andb_prop in H. destruct H as [-> H]. rewrite IH by exact H. reflexivity. Qed.
Lemma toy_contract : @float_contract (Z * Z) pair (fun x => 0 <= fst x) toy_flt toy_repr.
Proof.
  split.
  - intros s m e [(E & N & ->)|(a & b & -> & E & N & ->)]; unfold toy_flt; apply numeral_iff in N; destruct N as [D ->].
    + rewrite no_dot, filter_decimal by exact D. reflexivity.
    + pose proof D as D'. apply Forall_app in D'. destruct D' as [A B]. rewrite find_dot by exact A. rewrite filter_app. cbn [filter]. change (is_digit 46) with false. cbn iota. rewrite !filter_decimal by assumption.
      f_equal. unfold zlen. rewrite app_length. cbn [length]. lia.
  - intros [m e] H. cbn [fst] in H. exists m, e. split; [|reflexivity]. unfold toy_repr. cbn [fst snd].
    assert (M : mantissa (dec m) m 0).
    { left. pose proof (dec_nat_spec m H) as (V & D & N). rewrite dec_nonneg by exact H. repeat split; [exact N|]. apply numeral_iff. split; [apply decimal_forallb; exact D|congruence]. }
    destruct (Z.ltb_spec e 0).
    + replace e with (0 + (-1) * (- e)) at 2 by lia. destruct (dec_nat_spec (- e) ltac:(lia)) as (V & D & N).
      apply (py_exp _ m 0 101 [45] (dec_nat (- e)) (- e) (-1)); [exact M|auto|exact N|apply numeral_iff; split; [apply decimal_forallb; exact D|congruence]|right; right; auto].
    + replace e with (0 + 1 * e) at 2 by lia. destruct (dec_nat_spec e ltac:(lia)) as (V & D & N).
      apply (py_exp _ m 0 101 [] (dec_nat e) e 1); [exact M|auto|exact N|apply numeral_iff; split; [apply decimal_forallb; exact D|congruence]|left; auto].
Qed.
Lemma mantissa_1_5 : mantissa (u "1.50") 150 (-2).
Proof. right. exists (u "1"), (u "50"). repeat split; [discriminate|]. apply numeral_iff. split; [|reflexivity]. unfold decimal. cbn. repeat (apply Forall_cons; [lia|]). apply Forall_nil. Qed.
Example C69_example :
  (exists w, py_reads (num_repr toy_repr (convert_number toy_flt (u "1.50"))) w /\ same_value pair (PF 150 (-2)) w) /\
  num_repr toy_repr (convert_number toy_flt (u "1.50E-3")) = u "1.50e-3" /\
  num_repr toy_repr (convert_number toy_flt (u "007")) = u "7" /\
  num_repr toy_repr (convert_number toy_flt (u "0X1F")) = u "0x1f" /\
  num_repr toy_repr (convert_number toy_flt (u "12E")) = u "12e0" /\
  lit_value (LExp (u "1.50") 69 [43] []) (PF 150 (-2)).
Proof.
  split; [|repeat split; try reflexivity].
  - apply (C69_number_partial _ _ _ _ _ (LPoint (u "1") (u "50")) (PF 150 (-2)) toy_contract); [|cbn; lia]. constructor. exact mantissa_1_5.
  - replace (-2) with (-2 + 1 * 0) by lia. constructor; [exact mantissa_1_5|auto|constructor|right; left; auto].
Qed.

(** * C45 *)
Definition am_markers : list pystr := map u ["a"; "A"; "am"; "aM"; "Am"; "AM"]%string.
Definition pm_markers : list pystr := map u ["p"; "P"; "pm"; "pM"; "Pm"; "PM"]%string.
Definition number_text (t : pystr) (n : Z) : Prop := t <> [] /\ numeral t n.

Lemma Forall2_length {A B} (R : A -> B -> Prop) l m : Forall2 R l m -> length l = length m.
Proof. induction 1; cbn; congruence. Qed.
Lemma ints_numbers {F} (flt : pystr -> F) ts ns : Forall2 number_text ts ns -> ints (map (convert_number flt) ts) = Some ns.
Proof. induction 1 as [|t n ts ns [E N] _ IH]; [reflexivity|]. cbn [map]. rewrite (convert_int flt t n E N). cbn [ints]. rewrite IH. reflexivity. Qed.
Lemma numbers_nonneg ts ns : Forall2 number_text ts ns -> Forall (fun n => 0 <= n) ns.
Proof. induction 1 as [|t n ts ns [E N] _ IH]; constructor; [exact (numeral_nonneg _ _ N)|exact IH]. Qed.
Lemma arguments_join ns : ns <> [] -> Forall (fun n => 0 <= n) ns -> arguments (join (u ", ") (map dec ns)) ns.
Proof.
  intros E H. induction H as [|n ns H _ IH]; [congruence|]. destruct ns as [|k ns]; [constructor; apply dec_reads; exact H|].
  cbn [map join]. constructor; [apply dec_reads; exact H|]. apply IH. discriminate.
Qed.
Lemma calls_make f ns : ns <> [] -> Forall (fun n => 0 <= n) ns -> calls (make_func_code f (map dec ns)) f ns.
Proof. intros E H. exists (join (u ", ") (map dec ns)). split; [apply arguments_join; assumption|reflexivity]. Qed.
Lemma am_marker s : In s am_markers -> existsb (pystr_eqb (map lower_char s)) [[]; u "a"; u "am"; u "p"; u "pm"] = true /\ existsb (pystr_eqb (map lower_char s)) [u "p"; u "pm"] = false.
Proof. cbn -[pystr_eqb u lower_char]. intros H. repeat (destruct H as [<-|H]; [split; reflexivity|]). contradiction. Qed.
Lemma pm_marker s : In s pm_markers -> existsb (pystr_eqb (map lower_char s)) [[]; u "a"; u "am"; u "p"; u "pm"] = true /\ existsb (pystr_eqb (map lower_char s)) [u "p"; u "pm"] = true.
Proof. cbn -[pystr_eqb u lower_char]. intros H. repeat (destruct H as [<-|H]; [split; reflexivity|]). contradiction. Qed.

Theorem C45_date F (flt : pystr -> F) ts ns : length ts = 3%nat -> Forall2 number_text ts ns ->
  exists t, visit_date flt ts None = Ok (Some t) /\ calls t (u "dt.date") ns.
Proof.
  intros L H. exists (make_func_code (u "dt.date") (map dec ns)). pose proof (Forall2_length _ _ _ H) as L'. split; [|apply calls_make; [destruct ns; [cbn in L'; lia|discriminate]|exact (numbers_nonneg _ _ H)]].
  unfold visit_date. destruct ts as [|t0 ts]; [discriminate L|]. rewrite (ints_numbers flt _ _ H). rewrite L in L'. destruct ns as [|n1 [|n2 [|n3 [|? ?]]]]; try discriminate L'. reflexivity.
Qed.
Print Assumptions C45_date.
(** A time with the hour 1 to 11 *)
Theorem C45_datetime_partial F (flt : pystr -> F) y m d h rest Y M D H R s (pm : bool) :
  Forall2 number_text (y :: m :: d :: h :: rest) (Y :: M :: D :: H :: R) -> (if pm then In s pm_markers else In s am_markers) -> 1 <= H <= 11 ->
  exists t, visit_date flt (y :: m :: d :: h :: rest) (Some s) = Ok (Some t) /\ calls t (u "dt.datetime") (Y :: M :: D :: clock H pm :: R).
Proof.
  intros N K B. exists (make_func_code (u "dt.datetime") (map dec (Y :: M :: D :: clock H pm :: R))).
  assert (EC : clock H pm = if pm then H + 12 else H) by (unfold clock; rewrite Z.mod_small by lia; destruct pm; lia).
  split; [|apply calls_make; [discriminate|]; apply numbers_nonneg in N; inversion N as [|? ? A1 N1]; inversion N1 as [|? ? A2 N2]; inversion N2 as [|? ? A3 N3]; inversion N3 as [|? ? A4 N4]; subst;
    repeat (constructor; [try assumption; destruct pm; lia|]); assumption].
  unfold visit_date. rewrite (ints_numbers flt _ _ N). rewrite EC. destruct pm.
  - destruct (pm_marker s K) as [-> ->]. cbn [negb]. cbn iota. unfold py_nth, py_set_nth. change (3 <? 0) with false. cbn iota.
    assert (E : (zlen (Y :: M :: D :: H :: R) <=? 3) = false) by (apply Z.leb_gt; unfold zlen; cbn [length]; lia). rewrite E. reflexivity.
  - destruct (am_marker s K) as [-> ->]. reflexivity.
Qed.
Print Assumptions C45_datetime_partial.
(** Hour 12: noon becomes hour 24, which dt.datetime refuses, and midnight becomes noon *)
Theorem C45_twelve_refuted F (flt : pystr -> F) y m d h rest Y M D R s (pm : bool) :
  Forall2 number_text (y :: m :: d :: h :: rest) (Y :: M :: D :: 12 :: R) -> (if pm then In s pm_markers else In s am_markers) ->
  exists t, visit_date flt (y :: m :: d :: h :: rest) (Some s) = Ok (Some t) /\ calls t (u "dt.datetime") (Y :: M :: D :: (if pm then 24 else 12) :: R) /\
            clock 12 pm = if pm then 12 else 0.
Proof.
  intros N K. exists (make_func_code (u "dt.datetime") (map dec (Y :: M :: D :: (if pm then 24 else 12) :: R))). split; [|split; [|destruct pm; reflexivity]].
  - unfold visit_date. rewrite (ints_numbers flt _ _ N). destruct pm.
    + destruct (pm_marker s K) as [-> ->]. cbn [negb]. cbn iota. unfold py_nth, py_set_nth. change (3 <? 0) with false. cbn iota.
      assert (E : (zlen (Y :: M :: D :: 12 :: R) <=? 3) = false) by (apply Z.leb_gt; unfold zlen; cbn [length]; lia). rewrite E. reflexivity.
    + destruct (am_marker s K) as [-> ->]. reflexivity.
  - apply calls_make; [discriminate|]. apply numbers_nonneg in N. inversion N as [|? ? A1 N1]; inversion N1 as [|? ? A2 N2]; inversion N2 as [|? ? A3 N3]; inversion N3 as [|? ? A4 N4]; subst.
    repeat (constructor; [try assumption; destruct pm; lia|]). assumption.
Qed.
Print Assumptions C45_twelve_refuted.
(** Anything else in the place of the marker, and numbers that are no plain integers, are rejected *)
Theorem C45_rejects F (flt : pystr -> F) ts s : ts <> [] ->
  (s <> [] /\ ~ In s am_markers /\ ~ In s pm_markers) \/ (exists t, In t ts /\ forall n, ~ number_text t n) ->
  visit_date flt ts (Some s) = Err ValueError.
Proof.
  intros E H. unfold visit_date. destruct ts as [|t0 ts]; [congruence|]. destruct H as [(E0 & A & P)|(t & I & N)].
  - destruct (ints _); [|reflexivity].
    assert (X : existsb (pystr_eqb (map lower_char s)) [[]; u "a"; u "am"; u "p"; u "pm"] = false); [|rewrite X; reflexivity].
    destruct (existsb _ _) eqn:X; [|reflexivity]. exfalso. apply existsb_exists in X. destruct X as (x & Ix & Ex). destruct (pystr_eqb_spec (map lower_char s) x) as [<-|]; [|discriminate]. clear Ex.
    assert (LC : forall c k, lower_char c = k -> 97 <= k -> c = k \/ c = k - 32).
    { intros c k Ek G. unfold lower_char in Ek. destruct ((65 <=? c) && (c <=? 90)); lia. }
    cbn [In] in Ix. destruct s as [|a [|b [|? ?]]]; [congruence| | |cbn in Ix; repeat (destruct Ix as [Ix|Ix]; [discriminate Ix|]); contradiction].
    + cbn -[lower_char am_markers pm_markers] in Ix, A, P.
      destruct Ix as [Ix|[Ix|[Ix|[Ix|[Ix|[]]]]]]; try discriminate Ix; injection Ix as Ix; symmetry in Ix; apply LC in Ix; try lia; destruct Ix as [-> | ->];
        first [apply A; cbn; tauto|apply P; cbn; tauto].
    + cbn -[lower_char am_markers pm_markers] in Ix, A, P.
      destruct Ix as [Ix|[Ix|[Ix|[Ix|[Ix|[]]]]]]; try discriminate Ix; injection Ix as Ix Ix'; symmetry in Ix, Ix'; apply LC in Ix; try lia; apply LC in Ix'; try lia;
        destruct Ix as [-> | ->]; destruct Ix' as [-> | ->]; first [apply A; cbn; tauto|apply P; cbn; tauto].
  - assert (X : ints (map (convert_number flt) (t0 :: ts)) = None); [|rewrite X; reflexivity]. clear E. revert I. generalize (t0 :: ts). intros l. induction l as [|x l IH]; [contradiction|].
    intros [->|I].
    + cbn [map]. assert (Y : forall n, convert_number flt t <> NInt n).
      { intros n Y. unfold convert_number in Y. destruct (has 120 _ || has 101 _) in Y; [discriminate|]. destruct (int_text (map lower_char t)) as [k|] eqn:Q; [|discriminate].
        assert (T : map lower_char t <> [] /\ decimal (map lower_char t)).
        { unfold int_text in Q. destruct (map lower_char t); [discriminate|]. destruct (forallb is_digit _) eqn:D in Q; [|discriminate]. split; [discriminate|apply decimal_forallb; exact D]. }
        destruct T as [T1 T2]. assert (T3 : map lower_char t = t).
        { clear - T2. induction t as [|c t IH]; [reflexivity|]. cbn [map] in *. inversion T2; subst. rewrite IH by assumption. f_equal. unfold lower_char in *. destruct ((65 <=? c) && (c <=? 90)) eqn:B; [|reflexivity].
          apply andb_prop in B. destruct B as [B1 B2]. apply Z.leb_le in B1. lia. }
        rewrite T3 in *. apply (N (digits_value t)). split; [exact T1|]. apply numeral_iff. auto. }
      destruct (convert_number flt t) as [n| |]; [exfalso; exact (Y n eq_refl)|reflexivity|reflexivity].
    + cbn [map]. cbn [ints]. destruct (convert_number flt x); [rewrite IH by exact I; reflexivity|reflexivity|reflexivity].
Qed.
Print Assumptions C45_rejects.

Lemma number_text_dec n : 0 <= n -> number_text (dec n) n.
Proof.
  intros H. pose proof (dec_nat_spec n H) as (V & D & N). rewrite dec_nonneg by exact H. split; [exact N|]. apply numeral_iff. split; [apply decimal_forallb; exact D|congruence].
Qed.
Example C45_example :
  visit_date toy_flt [u "2020"; u "01"; u "05"] None = Ok (Some (u "dt.date(2020, 1, 5)")) /\
  visit_date toy_flt [u "2020"; u "01"; u "05"; u "10"; u "30"] (Some (u "PM")) = Ok (Some (u "dt.datetime(2020, 1, 5, 22, 30)")) /\
  visit_date toy_flt [u "2020"; u "01"; u "05"; u "12"; u "30"] (Some (u "PM")) = Ok (Some (u "dt.datetime(2020, 1, 5, 24, 30)")) /\
  visit_date toy_flt [u "2020"; u "1e2"; u "05"] None = Err ValueError /\
  Forall2 number_text [u "2020"; u "01"; u "05"; u "10"] [2020; 1; 5; 10] /\ In (u "PM") pm_markers /\
  (forall n, ~ number_text (u "1e2") n).
Proof.
  repeat split; try reflexivity.
  - repeat (constructor; [split; [discriminate|apply numeral_iff; split; [unfold decimal; cbn; repeat (apply Forall_cons; [lia|]); apply Forall_nil|reflexivity]]|]). constructor.
  - cbn. tauto.
  - intros n [_ N]. apply numeral_decimal in N. inversion N as [|? ? _ N1]; subst. inversion N1; subst. lia.
Qed.

(** * C46 *)
Lemma hex_val_spec c d : hex_value1 c d -> hex_val c = d /\ 0 <= d < 16.
Proof. unfold hex_value1, hex_val. destruct (Z.leb_spec c 57); [|destruct (Z.leb_spec c 70)]; lia. Qed.
Lemma hexadecimal_fold s n : hexadecimal s n -> n = fold_left (fun a c => 16 * a + hex_val c) s 0 /\ Forall (fun c => 0 <= hex_val c < 16) s.
Proof.
  induction 1 as [|s c n d H [IH1 IH2] V]; [split; [reflexivity|constructor]|]. destruct (hex_val_spec c d V) as [E B]. rewrite fold_left_app, <- IH1. cbn [fold_left]. rewrite E. split; [reflexivity|].
  apply Forall_app. split; [exact IH2|constructor; [rewrite E; exact B|constructor]].
Qed.
Lemma pairs_spec k : forall s a, length s = (2 * k)%nat -> Forall (fun c => 0 <= hex_val c < 16) s ->
  fold_left (fun a b => 256 * a + b) (pairs s) a = fold_left (fun a c => 16 * a + hex_val c) s a /\ length (pairs s) = k /\ Forall (fun b => 0 <= b < 256) (pairs s).
Proof.
  induction k as [|k IH]; intros s a L H.
  - destruct s; [|discriminate]. repeat split. constructor.
  - destruct s as [|x [|y s]]; cbn in L; try lia. inversion H as [|? ? Hx H1]; subst. inversion H1 as [|? ? Hy H2]; subst. cbn [pairs fold_left length].
    destruct (IH s (256 * a + (16 * hex_val x + hex_val y)) ltac:(lia) H2) as (A & B & C). repeat split; [|lia|constructor; [lia|exact C]].
    rewrite A. f_equal. lia.
Qed.
Lemma hex_digit_ascii d : 0 <= d < 16 -> 0 <= hex_digit d < 128.
Proof. intros H. unfold hex_digit. destruct (Z.ltb_spec d 10); lia. Qed.
Lemma repr_ascii q c : (q = 39 \/ q = 34) -> 0 <= c < 256 -> Forall (fun c => 0 <= c < 128) (repr_char (fun _ => false) q c).
Proof.
  intros Q H.
  assert (HX : Forall (fun c => 0 <= c < 128) (u "\x" ++ hex_n 2 c)).
  { apply Forall_app. split; [repeat constructor; lia|]. cbn [hex_n app]. repeat constructor; apply hex_digit_ascii; apply Z.mod_pos_bound; lia. }
  unfold repr_char. destruct (Z.eqb_spec c q) as [->|_]; [repeat constructor; destruct Q as [-> | ->]; lia|]. destruct (Z.eqb_spec c 92) as [->|_]; [repeat constructor; lia|]. cbn [orb].
  repeat match goal with |- context [if ?x =? ?k then u _ else _] => destruct (Z.eqb_spec x k); [repeat constructor; lia|] end.
  destruct (Z.ltb_spec c 32); cbn [orb]; [exact HX|]. destruct (Z.eqb_spec c 127); [exact HX|]. destruct (Z.ltb_spec c 127); [repeat constructor; lia|]. destruct (Z.leb_spec c 255); [exact HX|lia].
Qed.
Theorem C46_blob h s n : hexadecimal s n ->
  let l := visit_blob (48 :: h :: s) in
  big_endian l = n /\ zlen l = (zlen s + 1) / 2 /\ Forall (fun b => 0 <= b < 256) l /\ bytearray_literal (bytearray_repr l) l.
Proof.
  intros H. cbn zeta. destruct (hexadecimal_fold s n H) as [-> F].
  assert (G : exists t k, visit_blob (48 :: h :: s) = pairs t /\ length t = (2 * k)%nat /\ Z.of_nat k = (zlen s + 1) / 2 /\ Forall (fun c => 0 <= hex_val c < 16) t /\
              fold_left (fun a c => 16 * a + hex_val c) t 0 = fold_left (fun a c => 16 * a + hex_val c) s 0).
  { unfold visit_blob. cbn [skipn]. destruct (Nat.odd (length s)) eqn:O.
    - apply Nat.odd_spec in O. destruct O as [k O]. exists (48 :: s), (S k). repeat split; [cbn [length]; lia| |constructor; [cbn; lia|exact F]].
      unfold zlen. rewrite O. replace (Z.of_nat (2 * k + 1) + 1) with (Z.of_nat (S k) * 2) by lia. rewrite Z.div_mul by lia. reflexivity.
    - assert (E : Nat.even (length s) = true) by (rewrite <- Nat.negb_odd, O; reflexivity). apply Nat.even_spec in E. destruct E as [k E]. exists s, k. repeat split; [exact E| |exact F].
      unfold zlen. rewrite E. replace (Z.of_nat (2 * k) + 1) with (1 + Z.of_nat k * 2) by lia. rewrite Z.div_add by lia. reflexivity. }
  destruct G as (t & k & -> & L & K & FT & V). destruct (pairs_spec k t 0 L FT) as (A & B & C). unfold big_endian. repeat split; [rewrite A; exact V|unfold zlen at 1; rewrite B; exact K|exact C|].
  exists (str_repr (fun _ => false) (pairs t)). split; [reflexivity|]. split.
  - unfold str_repr. pose proof (quote_cases (pairs t)) as Q. set (q := quote_of _) in *. assert (QA : 0 <= q < 128) by (destruct Q as [-> | ->]; lia). constructor; [exact QA|]. apply Forall_app. split; [|constructor; [exact QA|constructor]].
    clearbody q. clear - C Q. induction C as [|b l H _ IH]; [constructor|]. cbn [map concat]. apply Forall_app. split; [apply repr_ascii; assumption|exact IH].
  - apply repr_reads; [|right]; (eapply Forall_impl; [|exact C]); cbn; lia.
Qed.
Print Assumptions C46_blob.
Example C46_example : visit_blob (u "0h1F2") = [1; 242] /\ bytearray_repr [1; 242; 39] = u "bytearray(b""\x01\xf2'"")" /\ hexadecimal (u "1F2") 498.
Proof.
  repeat split; try reflexivity. refine (hx_snoc [49; 70] 50 31 2 (hx_snoc [49] 70 1 15 (hx_snoc [] 49 0 1 hx_nil _) _) _); unfold hex_value1; lia.
Qed.

(** * C70 *)
(** whichever delimiters q, q' it stands in *)
Theorem C70_string printable q q' s : Forall (fun c => 0 <= c <= 1114111) s ->
  string_literal true (str_repr printable (visit_string (q :: s ++ [q']))) = Some s.
Proof.
  intros H. unfold visit_string. cbn [tl]. rewrite removelast_last. apply repr_reads; auto.
Qed.
Print Assumptions C70_string.
Example C70_example : let p := fun c => c =? 233 in
  str_repr p (visit_string (u "[it's ""x""\n]")) = u "'it\'s ""x""\\n'" /\
  str_repr p (visit_string (u """it's""")) = u """it's""" /\
  str_repr p (visit_string (91 :: [233; 8364; 128512; 0; 9] ++ [93])) = u "'" ++ [233] ++ u "\u20ac\U0001f600\x00\t'".
Proof. repeat split; reflexivity. Qed.

(** * C77 *)
(** the letters between the periods *)
Inductive logical : pystr -> bool -> Prop :=
| log_true c : In c (u "TtYy") -> logical [c] true
| log_false c : In c (u "FfNn") -> logical [c] false.
Lemma has_spec c s : has c s = true <-> In c s.
Proof.
  unfold has. rewrite existsb_exists. split; [intros (d & I & E); apply Z.eqb_eq in E; subst d; exact I|intros I; exists c; split; [exact I|apply Z.eqb_refl]].
Qed.
(** A logical constant has the value it is written as, whatever the case of the letter; NULL is none of them; nothing else is accepted *)
Theorem C77_logical t b : visit_bool (Some t) = Ok (Some b) <-> logical t b.
Proof.
  unfold visit_bool. split.
  - destruct t as [|c [|d t]]; cbn [map]; try discriminate. destruct (has (lower_char c) (u "fnty")) eqn:H; [|discriminate]. intros E. injection E as E. apply has_spec in H. unfold lower_char in *.
    change (u "fnty") with [102; 110; 116; 121] in H. change (u "ty") with [116; 121] in E. destruct ((65 <=? c) && (c <=? 90)) eqn:U; cbn [In] in H.
    + assert (K : c = 70 \/ c = 78 \/ c = 84 \/ c = 89) by lia. destruct K as [-> | [-> | [-> | ->]]]; vm_compute in E; subst b; constructor; vm_compute; tauto.
    + assert (K : c = 102 \/ c = 110 \/ c = 116 \/ c = 121) by lia. destruct K as [-> | [-> | [-> | ->]]]; vm_compute in E; subst b; constructor; vm_compute; tauto.
  - intros [c I|c I]; vm_compute in I; destruct I as [<-|[<-|[<-|[<-|[]]]]]; reflexivity.
Qed.
Theorem C77_null ch : visit_bool ch = Ok None <-> ch = None.
Proof. unfold visit_bool. destruct ch as [t|]; [|tauto]. split; [|discriminate]. destruct (map lower_char t) as [|c [|d l]]; try discriminate. destruct (has c (u "fnty")); discriminate. Qed.
Print Assumptions C77_logical.
Print Assumptions C77_null.
Example C77_example : visit_bool (Some (u "Y")) = Ok (Some true) /\ visit_bool (Some (u "n")) = Ok (Some false) /\ visit_bool (Some (u "x")) = Err GenericException /\ logical (u "y") true.
Proof. repeat split. constructor. vm_compute. tauto. Qed.
