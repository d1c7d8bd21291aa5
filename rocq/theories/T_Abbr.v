(** Property C50: abbreviated names of built-in functions. *)
From Verif Require Import PyBase PyStr M_Abbr.
Open Scope Z_scope.

(** [abbreviates s row]: for a row MIN|REST of the table, s is a beginning of MINREST, in lower case, at least as long as MIN. *)
Definition small (c d : Z) : Prop := d = c \/ (65 <= c <= 90 /\ d = c + 32).
Definition abbreviates (s row : pystr) : Prop :=
  exists a b rest, row = a ++ 124 :: b /\ ~ In 124 a /\ Forall2 small (a ++ b) (s ++ rest) /\ Forall (fun c => ~ (65 <= c <= 90)) (s ++ rest) /\ (length a <= length s)%nat.
Definition names (row full : pystr) : Prop :=
  exists a b, row = a ++ 124 :: b /\ ~ In 124 a /\ Forall2 small (a ++ b) full /\ Forall (fun c => ~ (65 <= c <= 90)) full.

Lemma cut_spec a b : ~ In 124 a -> cut_at (a ++ 124 :: b) = (a, b).
Proof.
  induction a as [|c a IH]; intros H; [reflexivity|]. cbn [app cut_at]. destruct (Z.eqb_spec c 124) as [->|_]; [exfalso; apply H; left; reflexivity|].
  rewrite IH; [reflexivity|]. intros X. apply H. right. exact X.
Qed.
Lemma lower_small l : Forall2 small l (lower_text l) /\ Forall (fun c => ~ (65 <= c <= 90)) (lower_text l).
Proof.
  induction l as [|c l [IH IH']]; split; [constructor|constructor| |]; cbn [lower_text map]; unfold lower_char at 1; constructor; try assumption; unfold lower_char, small;
    destruct (Z.leb_spec 65 c); destruct (Z.leb_spec c 90); cbn [andb]; lia.
Qed.
Lemma small_unique l x : Forall2 small l x -> Forall (fun c => ~ (65 <= c <= 90)) x -> x = lower_text l.
Proof.
  induction 1 as [|c d l x H _ IH]; intros F; [reflexivity|]. inversion F; subst. cbn [lower_text map]. rewrite IH by assumption. f_equal. unfold lower_char.
  destruct H as [->|[H ->]]; destruct (Z.leb_spec 65 c); destruct (Z.leb_spec c 90); cbn [andb]; lia.
Qed.
Definition full_of (row : pystr) : pystr := let '(a, b) := cut_at row in lower_text (a ++ b).
Definition min_of (row : pystr) : nat := length (fst (cut_at row)).
Lemma names_full row full : names row full -> full = full_of row.
Proof. intros (a & b & -> & N & F & C). unfold full_of. rewrite cut_spec by exact N. apply small_unique; assumption. Qed.
Lemma abbreviates_prefix s row : abbreviates s row -> exists n, (min_of row <= n <= length (full_of row))%nat /\ s = firstn n (full_of row).
Proof.
  intros (a & b & rest & -> & N & F & C & L). unfold full_of, min_of. rewrite cut_spec by exact N. cbn [fst]. exists (length s).
  rewrite <- (small_unique _ _ F C). split; [rewrite app_length; lia|]. rewrite firstn_app, Nat.sub_diag, firstn_all, app_nil_r. reflexivity.
Qed.
Lemma prefix_abbreviates n row : In 124 row -> (min_of row <= n <= length (full_of row))%nat -> abbreviates (firstn n (full_of row)) row.
Proof.
  intros I H. assert (E : exists a b, row = a ++ 124 :: b /\ ~ In 124 a).
  { clear H. induction row as [|c row IH]; [contradiction|]. destruct (Z.eq_dec c 124) as [->|Hc]; [exists [], row; split; [reflexivity|intros []]|].
    destruct I as [I|I]; [congruence|]. destruct (IH I) as (a & b & -> & N). exists (c :: a), b. split; [reflexivity|]. intros [X|X]; [congruence|exact (N X)]. }
  destruct E as (a & b & -> & N). unfold min_of, full_of in *. rewrite cut_spec in * by exact N. cbn [fst] in H. exists a, b, (skipn n (lower_text (a ++ b))). rewrite firstn_skipn.
  split; [reflexivity|]. split; [exact N|]. split; [apply lower_small|]. split; [apply lower_small|]. rewrite firstn_length. lia.
Qed.

(** Facts about the table, by computation *)
Definition bar_ok : bool := forallb (fun row => existsb (Z.eqb 124) row) function_abbreviations.
Definition apart (r s : nat * pystr) : bool :=
  let m := Nat.max (fst r) (fst s) in negb (pystr_eqb (firstn m (snd r)) (firstn m (snd s))) || pystr_eqb (snd r) (snd s).
Definition rows : list (nat * pystr) := map (fun row => (min_of row, full_of row)) function_abbreviations.
Definition rows_ok (l : list (nat * pystr)) : bool := forallb (fun r => forallb (apart r) l) l.
Definition plain_ok (l : list (nat * pystr)) : bool :=
  forallb (fun r => negb (prefixb (u "trim") (snd r)) && negb (prefixb (u "msgb") (snd r))) l && existsb (fun r => pystr_eqb (snd r) (u "rtrim")) l && existsb (fun r => pystr_eqb (snd r) (u "messagebox")) l.
Definition mins_ok (l : list (nat * pystr)) : bool := forallb (fun r => (fst r <=? length (snd r))%nat) l.
Lemma bar_true : bar_ok = true. Proof. vm_compute. reflexivity. Qed.
Lemma facts_true : let l := rows in rows_ok l && plain_ok l && mins_ok l = true. Proof. vm_compute. reflexivity. Qed.

Lemma lookup_in d k v : lookup d k = Some v -> In (k, v) d.
Proof. induction d as [|[x w] d IH]; [discriminate|]. cbn. destruct (pystr_eqb_spec x k) as [->|_]; [intros H; injection H as ->; left; reflexivity|right; auto]. Qed.
Lemma add_keys d row k v : In (k, v) (add_abbr d row) -> In (k, v) d \/ (v = full_of row /\ exists n, (min_of row <= n <= length v)%nat /\ k = firstn n v).
Proof.
  unfold add_abbr, full_of, min_of. destruct (cut_at row) as [a b]. cbn [fst]. set (K := lower_text (a ++ b)). assert (G : forall l d, (forall n, In n l -> (length a <= n <= length K)%nat) ->
    In (k, v) (fold_left (fun d cut => (firstn cut K, K) :: d) l d) -> In (k, v) d \/ (v = K /\ exists n, (length a <= n <= length v)%nat /\ k = firstn n v)).
  { induction l as [|n l IH]; intros d' R H; [left; exact H|]. cbn [fold_left] in H. apply IH in H; [|intros; apply R; right; assumption]. destruct H as [[H|H]|H]; [|left; exact H|right; exact H].
    injection H as <- <-. right. split; [reflexivity|]. exists n. split; [apply R; left; reflexivity|reflexivity]. }
  apply G. intros n H. apply in_seq in H. lia.
Qed.
Lemma expander_keys k v : In (k, v) expander -> (k = u "trim" /\ v = u "rtrim") \/ (k = u "msgb" /\ v = u "messagebox") \/
  exists row n, In row function_abbreviations /\ v = full_of row /\ (min_of row <= n <= length v)%nat /\ k = firstn n v.
Proof.
  unfold expander. assert (G : forall l d, In (k, v) (fold_left add_abbr l d) -> In (k, v) d \/ exists row n, In row l /\ v = full_of row /\ (min_of row <= n <= length v)%nat /\ k = firstn n v).
  { induction l as [|r l IH]; intros d H; [left; exact H|]. cbn [fold_left] in H. apply IH in H as [H|(row & n & I & H)].
    - apply add_keys in H as [H|(-> & n & Hn & ->)]; [left; exact H|]. right. exists r, n. split; [left; reflexivity|]. split; [reflexivity|]. split; [exact Hn|reflexivity].
    - right. exists row, n. split; [right; exact I|exact H]. }
  intros H. apply G in H as [[H|[H|[]]]|H]; [left|right; left|right; right; exact H]; injection H as <- <-; split; reflexivity.
Qed.

Lemma lookup_some d k v : In (k, v) d -> exists w, lookup d k = Some w.
Proof. induction d as [|[x w] d IH]; [contradiction|]. intros H. cbn [lookup]. destruct (pystr_eqb_spec x k) as [|N]; [exists w; reflexivity|]. destruct H as [H|H]; [congruence|auto]. Qed.
Lemma add_has d row k v : In (k, v) d -> In (k, v) (add_abbr d row).
Proof.
  unfold add_abbr. destruct (cut_at row) as [a b]. generalize (lower_text (a ++ b)) as K. intros K H. revert d H. induction (seq (length a) (S (length K) - length a)) as [|n l IH]; intros d H; [exact H|].
  cbn [fold_left]. apply IH. right. exact H.
Qed.
Lemma add_new d row n : (min_of row <= n <= length (full_of row))%nat -> In (firstn n (full_of row), full_of row) (add_abbr d row).
Proof.
  unfold add_abbr, full_of, min_of. destruct (cut_at row) as [a b]. cbn [fst]. generalize (lower_text (a ++ b)) as K. intros K H. assert (X : In n (seq (length a) (S (length K) - length a))) by (apply in_seq; lia).
  assert (G : forall l d kv, In kv d -> In kv (fold_left (fun d cut => (firstn cut K, K) :: d) l d)).
  { induction l as [|y l IH]; intros d' kv I; [exact I|]. cbn [fold_left]. apply IH. right. exact I. }
  revert X. generalize (seq (length a) (S (length K) - length a)). intros l. revert d. induction l as [|x l IH]; intros d X; [contradiction|]. cbn [fold_left]. destruct X as [->|X]; [|apply IH; exact X].
  apply G. left. reflexivity.
Qed.
Lemma expander_has row n : In row function_abbreviations -> (min_of row <= n <= length (full_of row))%nat -> In (firstn n (full_of row), full_of row) expander.
Proof.
  unfold expander. generalize [(u "trim", u "rtrim"); (u "msgb", u "messagebox")]. induction function_abbreviations as [|r l IH]; intros d I H; [contradiction|]. cbn [fold_left].
  destruct I as [->|I]; [|apply IH; assumption]. assert (G : forall l d kv, In kv d -> In kv (fold_left add_abbr l d)).
  { clear. induction l as [|y l IH]; intros d kv H; [exact H|]. cbn [fold_left]. apply IH. destruct kv. apply add_has. exact H. }
  apply G, add_new, H.
Qed.
Lemma in_rows row : In row function_abbreviations -> In (min_of row, full_of row) rows.
Proof. intros H. apply (in_map (fun row => (min_of row, full_of row))) in H. exact H. Qed.
Lemma facts_of (rows : list (nat * pystr)) : rows_ok rows && plain_ok rows && mins_ok rows = true -> (forall r s, In r rows -> In s rows -> apart r s = true) /\
  (forall r, In r rows -> prefixb (u "trim") (snd r) = false /\ prefixb (u "msgb") (snd r) = false /\ (fst r <= length (snd r))%nat) /\
  (exists r, In r rows /\ snd r = u "rtrim") /\ (exists r, In r rows /\ snd r = u "messagebox").
Proof.
  intros F. unfold rows_ok, plain_ok, mins_ok in F. rewrite !andb_true_iff in F. destruct F as [[A [[B C] D]] E].
  rewrite forallb_forall in A, B, E. rewrite existsb_exists in C, D. split; [|split; [|split]].
  - intros r s Ir Is. specialize (A r Ir). rewrite forallb_forall in A. exact (A s Is).
  - intros r Ir. specialize (B r Ir). rewrite andb_true_iff, !negb_true_iff in B. destruct B as [B1 B2]. split; [exact B1|]. split; [exact B2|]. apply Nat.leb_le, E, Ir.
  - destruct C as (r & I & H). exists r. split; [exact I|]. destruct (pystr_eqb_spec (snd r) (u "rtrim")); [assumption|discriminate].
  - destruct D as (r & I & H). exists r. split; [exact I|]. destruct (pystr_eqb_spec (snd r) (u "messagebox")); [assumption|discriminate].
Qed.
Lemma facts : (forall r s, In r rows -> In s rows -> apart r s = true) /\
  (forall r, In r rows -> prefixb (u "trim") (snd r) = false /\ prefixb (u "msgb") (snd r) = false /\ (fst r <= length (snd r))%nat) /\
  (exists r, In r rows /\ snd r = u "rtrim") /\ (exists r, In r rows /\ snd r = u "messagebox").
Proof. exact (facts_of rows facts_true). Qed.
Lemma prefixb_firstn p n l : p = firstn n l -> prefixb p l = true.
Proof. intros ->. revert n. induction l as [|x l IH]; intros [|n]; [reflexivity|reflexivity|reflexivity|]. cbn. rewrite Z.eqb_refl, IH. reflexivity. Qed.
Lemma expand_row row n : In row function_abbreviations -> (min_of row <= n <= length (full_of row))%nat -> expand (firstn n (full_of row)) = full_of row.
Proof.
  intros I H. destruct (lookup_some _ _ _ (expander_has row n I H)) as [w E]. unfold expand. rewrite E. apply lookup_in in E. destruct facts as (A & B & _). specialize (B _ (in_rows _ I)). cbn [fst snd] in B.
  apply expander_keys in E as [[E _]|[[E _]|(row' & n' & I' & -> & Hn & E)]].
  - symmetry in E. apply prefixb_firstn in E. destruct B as (B & _). congruence.
  - symmetry in E. apply prefixb_firstn in E. destruct B as (_ & B & _). congruence.
  - specialize (A _ _ (in_rows _ I) (in_rows _ I')). unfold apart in A. cbn [fst snd] in A. rewrite orb_true_iff, negb_true_iff in A. destruct A as [A|A].
    + exfalso. assert (Hl : n = n'). { apply (f_equal (@length Z)) in E. rewrite !firstn_length in E. lia. } subst n'.
      set (k := Nat.max (min_of row) (min_of row')) in *. assert (Hk : (k <= n)%nat) by lia.
      assert (E2 : firstn k (full_of row) = firstn k (full_of row')).
      { rewrite <- (Nat.min_l k n Hk), <- !firstn_firstn, E. reflexivity. }
      rewrite E2 in A. destruct (pystr_eqb_spec (firstn k (full_of row')) (firstn k (full_of row'))); [discriminate|congruence].
    + destruct (pystr_eqb_spec (full_of row) (full_of row')); [congruence|discriminate].
Qed.

(** Every abbreviation that is long enough stands for its function. *)
Theorem C50_expands : forall row s full, In row function_abbreviations -> abbreviates s row -> names row full -> expand s = full.
Proof. intros row s full I A N. apply names_full in N. subst full. destruct (abbreviates_prefix _ _ A) as (n & Hn & ->). apply expand_row; assumption. Qed.
Print Assumptions C50_expands.
(** Nothing stands for two functions. *)
Theorem C50_unambiguous : forall row row' s full full', In row function_abbreviations -> In row' function_abbreviations -> abbreviates s row -> abbreviates s row' ->
  names row full -> names row' full' -> full = full'.
Proof. intros row row' s full full' I I' A A' N N'. rewrite <- (C50_expands row s full I A N). exact (C50_expands row' s full' I' A' N'). Qed.
Print Assumptions C50_unambiguous.
Theorem C50_idempotent : forall s, expand (expand s) = expand s.
Proof.
  assert (G : forall row, In row function_abbreviations -> expand (full_of row) = full_of row).
  { intros row I. rewrite <- (firstn_all (full_of row)) at 1. apply expand_row; [exact I|]. destruct facts as (_ & B & _). destruct (B _ (in_rows _ I)) as (_ & _ & M). cbn [fst snd] in M. lia. }
  assert (R : forall r, In r rows -> expand (snd r) = snd r).
  { intros r H. unfold rows in H. apply in_map_iff in H as (row & <- & I). apply G, I. }
  intros s. unfold expand at 2 3. destruct (lookup expander s) as [v|] eqn:E; [|unfold expand; rewrite E; reflexivity]. apply lookup_in in E.
  destruct facts as (_ & _ & (r1 & I1 & E1) & (r2 & I2 & E2)).
  apply expander_keys in E as [[_ ->]|[[_ ->]|(row & n & I & -> & _)]]; [rewrite <- E1; apply R, I1|rewrite <- E2; apply R, I2|apply G, I].
Qed.
Print Assumptions C50_idempotent.
(** Any other name is left alone, apart from the two spelled out in the source. *)
Theorem C50_others : forall s, (forall row, In row function_abbreviations -> ~ abbreviates s row) -> s <> u "msgb" -> s <> u "trim" -> expand s = s.
Proof.
  intros s H M T. unfold expand. destruct (lookup expander s) as [v|] eqn:E; [|reflexivity]. apply lookup_in in E. apply expander_keys in E as [[E _]|[[E _]|(row & n & I & -> & Hn & ->)]]; [contradiction|contradiction|].
  exfalso. apply (H row I). apply prefix_abbreviates; [|exact Hn]. pose proof bar_true as B. unfold bar_ok in B. rewrite forallb_forall in B. specialize (B row I).
  rewrite existsb_exists in B. destruct B as (c & Ic & Ec). apply Z.eqb_eq in Ec. subst c. exact Ic.
Qed.
Print Assumptions C50_others.
Theorem C50_given : expand (u "msgb") = u "messagebox" /\ expand (u "trim") = u "rtrim".
Proof. split; vm_compute; reflexivity. Qed.
Print Assumptions C50_given.
(** FoxPro abbreviates to four letters at least: shorter names are left alone, *)
Definition short_ok (l : list (nat * pystr)) : bool := forallb (fun r => (4 <=? fst r)%nat || pystr_eqb (snd r) (u "newobject") && (3 =? fst r)%nat || (fst r =? length (snd r))%nat && (4 <=? length (snd r))%nat) l.
Lemma short_true : short_ok rows = true. Proof. vm_compute. reflexivity. Qed.
Theorem C50_short_partial : forall s, (length s < 4)%nat -> s <> u "new" -> expand s = s.
Proof.
  intros s L N. unfold expand. destruct (lookup expander s) as [v|] eqn:E; [|reflexivity]. apply lookup_in in E. exfalso. apply expander_keys in E as [[-> _]|[[-> _]|(row & n & I & -> & Hn & ->)]]; [cbn in L; lia|cbn in L; lia|].
  pose proof short_true as F. unfold short_ok in F. rewrite forallb_forall in F. specialize (F _ (in_rows _ I)). cbn [fst snd] in F. rewrite firstn_length in L.
  destruct (Nat.leb_spec 4 (min_of row)) as [|M]; [lia|]. cbn [orb] in F. rewrite orb_true_iff, !andb_true_iff in F. destruct F as [[F1 F2]|[F1 F2]].
  - apply Nat.eqb_eq in F2. destruct (pystr_eqb_spec (full_of row) (u "newobject")) as [E|]; [|discriminate]. rewrite E in *. change (length (u "newobject")) with 9%nat in *. assert (n = 3%nat) as -> by lia. apply N. reflexivity.
  - apply Nat.leb_le in F2. apply Nat.eqb_eq in F1. lia.
Qed.
Print Assumptions C50_short_partial.
(** except for NEW, which is taken for NEWOBJECT: a procedure of that name cannot be called as a function *)
Theorem C50_short_refuted : expand (u "new") = u "newobject".
Proof. vm_compute. reflexivity. Qed.
Print Assumptions C50_short_refuted.
Example C50_example : In (u "REPL|ICATE") function_abbreviations /\ abbreviates (u "repli") (u "REPL|ICATE") /\ names (u "REPL|ICATE") (u "replicate") /\
  expand (u "repli") = u "replicate" /\ expand (u "rep") = u "rep".
Proof.
  split; [|split; [|split; [|split; vm_compute; reflexivity]]].
  - assert (X : existsb (pystr_eqb (u "REPL|ICATE")) function_abbreviations = true) by (vm_compute; reflexivity). rewrite existsb_exists in X. destruct X as (y & I & E).
    destruct (pystr_eqb_spec (u "REPL|ICATE") y) as [->|]; [exact I|discriminate].
  - exact (prefix_abbreviates 5 (u "REPL|ICATE") ltac:(vm_compute; tauto) ltac:(vm_compute; lia)).
  - exists (u "REPL"), (u "ICATE"). split; [reflexivity|]. split; [intros H; vm_compute in H; intuition discriminate|]. exact (lower_small (u "REPLICATE")).
Qed.
