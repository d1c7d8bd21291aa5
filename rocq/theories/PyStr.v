(** Python string methods on strings as lists of code points. *)
From Verif Require Import PyBase.
Open Scope res_scope.

(** s.startswith(p) *)
Fixpoint prefixb (p s : pystr) : bool :=
  match p, s with
  | [], _ => true
  | a :: p', b :: s' => (a =? b) && prefixb p' s'
  | _ :: _, [] => false
  end.

(** s.find(sub) and s.rfind(sub); None stands for -1. *)
Fixpoint find_nat (s sub : pystr) : option nat :=
  if prefixb sub s then Some O
  else match s with [] => None | _ :: r => option_map S (find_nat r sub) end.
Fixpoint rfind_nat (s sub : pystr) : option nat :=
  match s with
  | [] => if prefixb sub [] then Some O else None
  | _ :: r => match rfind_nat r sub with
              | Some k => Some (S k)
              | None => if prefixb sub s then Some O else None
              end
  end.
Definition z_of_find (o : option nat) : Z := match o with Some k => Z.of_nat k | None => -1 end.
Definition str_find (s sub : pystr) : Z := z_of_find (find_nat s sub).
Definition str_rfind (s sub : pystr) : Z := z_of_find (rfind_nat s sub).

(** s.count(sub): occurrences without overlap, from the left.  [skip] counts the characters of the current
    occurrence still to be passed over. *)
Fixpoint count_from (skip : nat) (s sub : pystr) : Z :=
  match s with
  | [] => 0
  | _ :: r => match skip with
              | S k => count_from k r sub
              | O => if prefixb sub s then 1 + count_from (length sub - 1) r sub else count_from 0 r sub
              end
  end.
Definition str_count (s sub : pystr) : Z :=
  match sub with [] => zlen s + 1 | _ => count_from 0 s sub end.

(** s.replace(old, new, n); n = None (or negative) replaces all. *)
Fixpoint replace_from (skip : nat) (n : option nat) (s old new : pystr) : pystr :=
  match s with
  | [] => []
  | c :: r => match skip with
              | S k => replace_from k n r old new
              | O => match n with
                     | Some O => s
                     | _ => if prefixb old s
                            then new ++ replace_from (length old - 1) (option_map pred n) r old new
                            else c :: replace_from 0 n r old new
                     end
              end
  end.
(** replacing the empty string inserts new before every character and at the end *)
Fixpoint replace_empty (n : option nat) (s new : pystr) : pystr :=
  match n with
  | Some O => s
  | _ => match s with
         | [] => new
         | c :: r => new ++ c :: replace_empty (option_map pred n) r new
         end
  end.
Definition str_replace (s old new : pystr) (maxn : option Z) : pystr :=
  let n := match maxn with None => None | Some k => if k <? 0 then None else Some (Z.to_nat k) end in
  match old with [] => replace_empty n s new | _ => replace_from 0 n s old new end.

(** s.split(sep) with a non-empty separator; [cur] is the current piece, reversed. *)
Fixpoint split_from (skip : nat) (cur s sep : pystr) : list pystr :=
  match s with
  | [] => [rev cur]
  | c :: r => match skip with
              | S k => split_from k cur r sep
              | O => if prefixb sep s then rev cur :: split_from (length sep - 1) [] r sep
                     else split_from 0 (c :: cur) r sep
              end
  end.
Definition str_split (s sep : pystr) : res (list pystr) :=
  match sep with [] => Err ValueError | _ => Ok (split_from 0 [] s sep) end.

(** str.isspace for one character, CPython 3 *)
Definition is_space (c : Z) : bool :=
  ((9 <=? c) && (c <=? 13)) || ((28 <=? c) && (c <=? 32)) || (c =? 133) || (c =? 160) || (c =? 5760)
  || ((8192 <=? c) && (c <=? 8202)) || (c =? 8232) || (c =? 8233) || (c =? 8239) || (c =? 8287) || (c =? 12288).

(** s.split() without separator: runs of whitespace separate, no empty pieces. *)
Fixpoint split_ws (cur s : pystr) : list pystr :=
  match s with
  | [] => match cur with [] => [] | _ => [rev cur] end
  | c :: r => if is_space c
              then match cur with [] => split_ws [] r | _ => rev cur :: split_ws [] r end
              else split_ws (c :: cur) r
  end.

(** s.rjust(n), s.ljust(n) *)
Definition str_rjust (s : pystr) (n : Z) : pystr := py_repeat 32 (n - zlen s) ++ s.
Definition str_ljust (s : pystr) (n : Z) : pystr := s ++ py_repeat 32 (n - zlen s).

(** The decimal numeral of an integer: str(n), '{}'.format(n), '%d' % n.  [fuel] exceeds the number of digits. *)
Fixpoint digits (fuel : nat) (n : Z) : pystr :=
  match fuel with
  | O => []
  | S f => if n <? 10 then [48 + n] else digits f (n / 10) ++ [48 + n mod 10]
  end.
Definition dec_nat (n : Z) : pystr := digits (S (Z.to_nat (Z.log2 n))) n.
Definition dec (n : Z) : pystr := if n <? 0 then 45 :: dec_nat (- n) else dec_nat n.

(** The number a digit string denotes. *)
Definition digits_value (s : pystr) : Z := fold_left (fun a c => a * 10 + (c - 48)) s 0.
Definition is_digit (c : Z) : bool := (48 <=? c) && (c <=? 57).

(** lemmas *)
Lemma digits_value_snoc s c : digits_value (s ++ [c]) = digits_value s * 10 + (c - 48).
Proof. unfold digits_value. rewrite fold_left_app. reflexivity. Qed.
Lemma log2_div10 n : 10 <= n -> Z.log2 (n / 10) < Z.log2 n.
Proof.
  intros H. apply Z.log2_lt_pow2; [apply Z.div_str_pos; lia|].
  pose proof (Z.log2_spec n ltac:(lia)) as [H1 H2]. apply Z.div_lt_upper_bound; [lia|].
  rewrite Z.pow_succ_r in H2 by apply Z.log2_nonneg. lia.
Qed.
Lemma digits_spec fuel : forall n, 0 <= n -> Z.log2 n < Z.of_nat fuel ->
  digits_value (digits fuel n) = n /\ forallb is_digit (digits fuel n) = true /\ digits fuel n <> [].
Proof.
  induction fuel as [|f IH]; intros n H0 Hl; [pose proof (Z.log2_nonneg n); lia|].
  cbn [digits]. destruct (Z.ltb_spec n 10).
  - repeat split; [unfold digits_value; cbn [fold_left]; lia| |discriminate].
    cbn [forallb]. unfold is_digit. rewrite andb_true_r, andb_true_iff, !Z.leb_le. lia.
  - pose proof (log2_div10 n ltac:(lia)). destruct (IH (n / 10)) as (Hv & Hd & Hn); [apply Z.div_pos; lia|lia|].
    pose proof (Z.mod_pos_bound n 10 ltac:(lia)).
    repeat split.
    + rewrite digits_value_snoc, Hv. pose proof (Z.div_mod n 10). lia.
    + rewrite forallb_app, Hd. cbn [forallb]. unfold is_digit. rewrite andb_true_r, andb_true_l, andb_true_iff, !Z.leb_le. lia.
    + destruct (digits f (n / 10)); [congruence|discriminate].
Qed.
Lemma dec_nat_spec n : 0 <= n ->
  digits_value (dec_nat n) = n /\ forallb is_digit (dec_nat n) = true /\ dec_nat n <> [].
Proof. intros. apply digits_spec; [lia|]. pose proof (Z.log2_nonneg n). lia. Qed.
Lemma py_repeat_length {A} (c : A) n : length (py_repeat c n) = Z.to_nat n.
Proof. apply repeat_length. Qed.
Lemma str_rjust_length s n : zlen (str_rjust s n) = Z.max n (zlen s).
Proof. unfold str_rjust, zlen in *. rewrite app_length, py_repeat_length. lia. Qed.
Lemma prefixb_spec p s : prefixb p s = true <-> exists t, s = p ++ t.
Proof.
  revert s. induction p as [|a p IH]; intros s; cbn [prefixb app].
  - split; [eauto|auto].
  - destruct s as [|b s]; [split; [discriminate|intros (t & H); discriminate]|].
    rewrite andb_true_iff, Z.eqb_eq, IH. split.
    + intros [-> (t & ->)]. eauto.
    + intros (t & [= -> ->]). eauto.
Qed.
Lemma prefixb_app p t : prefixb p (p ++ t) = true.
Proof. apply prefixb_spec. eauto. Qed.

(** [occurs_at s sub k]: sub stands in s at position k *)
Definition occurs_at (s sub : pystr) (k : nat) : Prop := exists a b, s = a ++ sub ++ b /\ length a = k.

Lemma occurs_at_0 s sub : occurs_at s sub 0 <-> prefixb sub s = true.
Proof.
  rewrite prefixb_spec. split.
  - intros ([|x a] & b & -> & Hl); [exists b; reflexivity|discriminate].
  - intros (t & ->). exists [], t. auto.
Qed.
Lemma occurs_at_S c s sub k : occurs_at (c :: s) sub (S k) <-> occurs_at s sub k.
Proof.
  split.
  - intros ([|x a] & b & E & Hl); [discriminate|]. injection E as -> ->. exists a, b. auto.
  - intros (a & b & -> & Hl). exists (c :: a), b. cbn. auto.
Qed.
Lemma occurs_at_nil sub k : occurs_at [] sub k -> sub = [] /\ k = 0%nat.
Proof.
  intros (a & b & E & Hl). symmetry in E. apply app_eq_nil in E. destruct E as [-> E]. apply app_eq_nil in E.
  destruct E as [-> ->]. auto.
Qed.

Lemma find_nat_spec s sub : match find_nat s sub with
  | Some k => occurs_at s sub k /\ forall j, (j < k)%nat -> ~ occurs_at s sub j
  | None => forall j, ~ occurs_at s sub j
  end.
Proof.
  induction s as [|c s IH]; cbn [find_nat].
  - destruct (prefixb sub []) eqn:E.
    + split; [apply occurs_at_0, E|lia].
    + intros j Hj. destruct (occurs_at_nil _ _ Hj) as [-> ->]. discriminate.
  - destruct (prefixb sub (c :: s)) eqn:E.
    + split; [apply occurs_at_0, E|lia].
    + destruct (find_nat s sub) as [k|]; cbn [option_map].
      * destruct IH as [H1 H2]. split; [apply occurs_at_S, H1|].
        intros [|j] Hj; [rewrite occurs_at_0; congruence|]. rewrite occurs_at_S. apply H2. lia.
      * intros [|j]; [rewrite occurs_at_0; congruence|]. rewrite occurs_at_S. apply IH.
Qed.
Lemma rfind_nat_spec s sub : match rfind_nat s sub with
  | Some k => occurs_at s sub k /\ forall j, (k < j)%nat -> ~ occurs_at s sub j
  | None => forall j, ~ occurs_at s sub j
  end.
Proof.
  induction s as [|c s IH]; cbn [rfind_nat].
  - destruct (prefixb sub []) eqn:E.
    + split; [apply occurs_at_0, E|]. intros j Hj Ho. destruct (occurs_at_nil _ _ Ho). lia.
    + intros j Hj. destruct (occurs_at_nil _ _ Hj) as [-> ->]. discriminate.
  - destruct (rfind_nat s sub) as [k|].
    + destruct IH as [H1 H2]. split; [apply occurs_at_S, H1|].
      intros [|j] Hj; [lia|]. rewrite occurs_at_S. apply H2. lia.
    + destruct (prefixb sub (c :: s)) eqn:E.
      * split; [apply occurs_at_0, E|]. intros [|j] Hj; [lia|]. rewrite occurs_at_S. apply IH.
      * intros [|j]; [rewrite occurs_at_0; congruence|]. rewrite occurs_at_S. apply IH.
Qed.

Lemma py_slice_to {A} (l : list A) k : 0 <= k -> py_slice l None (Some k) = firstn (Z.to_nat k) l.
Proof.
  intros Hk. unfold py_slice, slice_bound. destruct (Z.ltb_spec k 0); [lia|].
  cbn [Z.to_nat skipn]. pose proof (zlen_nonneg l).
  destruct (Z.le_gt_cases k (zlen l)).
  - replace (Z.max 0 (Z.min (zlen l) k) - 0) with k by lia. reflexivity.
  - replace (Z.max 0 (Z.min (zlen l) k) - 0) with (zlen l) by lia.
    rewrite !firstn_all2; [reflexivity| |]; unfold zlen in *; lia.
Qed.
Lemma py_slice_from {A} (l : list A) k : 0 <= k -> py_slice l (Some k) None = skipn (Z.to_nat k) l.
Proof.
  intros Hk. unfold py_slice, slice_bound. destruct (Z.ltb_spec k 0); [lia|].
  pose proof (zlen_nonneg l). destruct (Z.le_gt_cases k (zlen l)).
  - replace (Z.max 0 (Z.min (zlen l) k)) with k by lia. apply firstn_all2. rewrite skipn_length. unfold zlen. lia.
  - replace (Z.max 0 (Z.min (zlen l) k)) with (zlen l) by lia.
    rewrite Z.sub_diag. cbn. symmetry. apply skipn_all2. unfold zlen in *. lia.
Qed.
Lemma py_slice_neg1 {A} (l : list A) k : k = 0 -> py_slice l None (Some k) = [].
Proof. intros ->. rewrite py_slice_to by lia. reflexivity. Qed.
