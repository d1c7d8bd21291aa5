(** The scaled form STR() falls back to: its digits and exponent are those of the number. *)
From Verif Require Import PyBase PyStr M_Strings S_Strings P_Strings.
Open Scope res_scope.

Lemma digits_value_app a b : digits_value (a ++ b) = digits_value a * 10 ^ zlen b + digits_value b.
Proof.
  induction b as [|c b IH] using rev_ind; [cbn; rewrite app_nil_r; unfold zlen, digits_value; cbn; lia|].
  rewrite app_assoc, !digits_value_snoc, IH. unfold zlen. rewrite app_length, Nat2Z.inj_add, Z.pow_add_r by lia. cbn [length].
  change (10 ^ Z.of_nat 1) with 10. ring.
Qed.
Lemma digits_value_bound s : forallb is_digit s = true -> 0 <= digits_value s < 10 ^ zlen s.
Proof.
  induction s as [|c s IH] using rev_ind; [cbn; lia|]. rewrite forallb_app, andb_true_iff. intros [Hs Hc].
  cbn [forallb] in Hc. rewrite andb_true_r in Hc. unfold is_digit in Hc. rewrite andb_true_iff, !Z.leb_le in Hc.
  specialize (IH Hs). rewrite digits_value_snoc. unfold zlen in *. rewrite app_length, Nat2Z.inj_add, Z.pow_add_r by lia. cbn [length].
  change (10 ^ Z.of_nat 1) with 10. lia.
Qed.
Lemma digits_length fuel : forall n, 1 <= n -> Z.log2 n < Z.of_nat fuel ->
  10 ^ (zlen (digits fuel n) - 1) <= n < 10 ^ zlen (digits fuel n).
Proof.
  induction fuel as [|f IH]; intros n H0 Hl; [pose proof (Z.log2_nonneg n); lia|].
  cbn [digits]. destruct (Z.ltb_spec n 10); [cbn; lia|].
  pose proof (log2_div10 n ltac:(lia)). specialize (IH (n / 10) ltac:(apply Z.div_le_lower_bound; lia) ltac:(lia)).
  unfold zlen in *. rewrite app_length, Nat2Z.inj_add. cbn [length].
  set (k := Z.of_nat (length (digits f (n / 10)))) in *.
  replace (k + Z.of_nat 1 - 1) with k by lia. pose proof (Z.div_mod n 10 ltac:(lia)). pose proof (Z.mod_pos_bound n 10 ltac:(lia)).
  assert (1 <= k).
  { destruct (Z.le_gt_cases 1 k); [auto|]. assert (K : k = 0) by lia. rewrite K in IH. cbn in IH. lia. }
  rewrite Z.pow_add_r by lia. change (10 ^ Z.of_nat 1) with 10. replace (10 ^ k) with (10 * 10 ^ (k - 1)) in *.
  - lia.
  - rewrite <- Z.pow_succ_r by lia. f_equal. lia.
Qed.
Lemma dec_nat_length n : 1 <= n -> 10 ^ (zlen (dec_nat n) - 1) <= n < 10 ^ zlen (dec_nat n).
Proof. intros. apply digits_length; [lia|]. pose proof (Z.log2_nonneg n). lia. Qed.
Lemma dec_nat_pos n : 0 <= n -> 1 <= zlen (dec_nat n).
Proof. intros H. destruct (dec_nat_spec n H) as (_ & _ & Hn). destruct (dec_nat n); [congruence|]. unfold zlen. cbn [length]. lia. Qed.
Lemma digits_firstn s k : forallb is_digit s = true -> (k <= length s)%nat ->
  digits_value (firstn k s) = digits_value s / 10 ^ (zlen s - Z.of_nat k).
Proof.
  intros Hs Hk. rewrite <- (firstn_skipn k s) at 2. rewrite digits_value_app.
  assert (E : zlen (skipn k s) = zlen s - Z.of_nat k) by (unfold zlen; rewrite skipn_length; lia). rewrite E.
  assert (Hb : 0 <= digits_value (skipn k s) < 10 ^ (zlen s - Z.of_nat k)).
  { rewrite <- E. apply digits_value_bound. rewrite <- (firstn_skipn k s), forallb_app, andb_true_iff in Hs. tauto. }
  rewrite Z.div_add_l by lia. rewrite Z.div_small by lia. lia.
Qed.
Lemma pad6_spec x : 0 <= x < 10 ^ 6 -> zlen (pad6 x) = 6 /\ forallb is_digit (pad6 x) = true /\ digits_value (pad6 x) = x.
Proof.
  intros Hx. unfold pad6. destruct (dec_nat_spec x ltac:(lia)) as (H1 & H2 & H3).
  assert (Hl : zlen (dec_nat x) <= 6).
  { destruct (Z.eq_dec x 0) as [->|]; [cbn; lia|]. pose proof (dec_nat_length x ltac:(lia)) as [G _].
    destruct (Z.le_gt_cases (zlen (dec_nat x)) 6); [auto|]. assert (10 ^ 6 <= 10 ^ (zlen (dec_nat x) - 1)) by (apply Z.pow_le_mono_r; lia). lia. }
  pose proof (dec_nat_pos x ltac:(lia)).
  assert (Z0s : forall k, digits_value (repeat 48 k) = 0 /\ forallb is_digit (repeat 48 k) = true).
  { induction k as [|k [I1 I2]]; [auto|]. split; [|exact I2]. change (repeat 48 (S k)) with ([48] ++ repeat 48 k).
    rewrite digits_value_app, I1. cbn. lia. }
  unfold py_repeat. destruct (Z0s (Z.to_nat (6 - zlen (dec_nat x)))) as [I1 I2]. repeat split.
  - unfold zlen in *. rewrite app_length, repeat_length. lia.
  - now rewrite forallb_app, I2, H2.
  - rewrite digits_value_app, I1, H1. lia.
Qed.
Lemma round_half_even_spec a b : 0 <= a -> 0 < b -> 2 * Z.abs (a - round_half_even a b * b) <= b.
Proof.
  intros Ha Hb. unfold round_half_even. pose proof (Z.div_mod a b ltac:(lia)). pose proof (Z.mod_pos_bound a b Hb).
  destruct (Z.ltb_spec (2 * (a mod b)) b); [|destruct (Z.ltb_spec b (2 * (a mod b))); [|destruct (Z.even (a / b))]].
  - replace (a - a / b * b) with (a mod b) by lia. lia.
  - replace (a - (a / b + 1) * b) with (a mod b - b) by lia. lia.
  - replace (a - a / b * b) with (a mod b) by lia. lia.
  - replace (a - (a / b + 1) * b) with (a mod b - b) by lia. lia.
Qed.
(** mantissa and exponent: seven significant digits, at most half a unit away *)
Lemma sci_parts_spec n m e : 1 <= n -> sci_parts n = (m, e) ->
  0 <= e /\ zlen (dec_nat n) - 1 <= e <= zlen (dec_nat n) /\ 10 ^ 6 <= m < 10 ^ 7 /\ (e < 6 -> m = n * 10 ^ (6 - e)) /\
  (6 <= e -> 2 * Z.abs (n - m * 10 ^ (e - 6)) <= 10 ^ (e - 6)).
Proof.
  intros Hn. pose proof (dec_nat_length n Hn) as Hlen. pose proof (dec_nat_pos n ltac:(lia)) as Hpos.
  unfold sci_parts. set (e0 := sci_exponent n).
  assert (He0 : e0 = zlen (dec_nat n) - 1) by reflexivity. assert (0 <= e0) by lia.
  assert (Hb : 10 ^ e0 <= n < 10 ^ (e0 + 1)) by (replace (e0 + 1) with (zlen (dec_nat n)) by lia; rewrite He0; exact Hlen).
  assert (E6 : 10 ^ 6 = 1000000) by reflexivity. assert (E7 : 10 ^ 7 = 10000000) by reflexivity.
  assert (Hm : 10 ^ 6 <= sci_mantissa n <= 10 ^ 7 /\ (e0 < 6 -> sci_mantissa n = n * 10 ^ (6 - e0) /\ sci_mantissa n < 10 ^ 7) /\
    (6 <= e0 -> 2 * Z.abs (n - sci_mantissa n * 10 ^ (e0 - 6)) <= 10 ^ (e0 - 6))).
  { unfold sci_mantissa. fold e0. destruct (Z.leb_spec e0 6) as [H6|H6].
    - assert (P : 10 ^ e0 * 10 ^ (6 - e0) = 10 ^ 6) by (rewrite <- Z.pow_add_r by lia; f_equal; lia).
      assert (0 < 10 ^ (6 - e0)) by (apply Z.pow_pos_nonneg; lia).
      assert (P1 : 10 ^ (e0 + 1) = 10 * 10 ^ e0) by (rewrite Z.add_1_r, Z.pow_succ_r by lia; reflexivity).
      assert (L : 10 ^ 6 <= n * 10 ^ (6 - e0) < 10 ^ 7) by nia.
      split; [lia|]. split; [lia|]. intros H6'. assert (K : e0 = 6) by lia. rewrite K. cbn. rewrite !Z.mul_1_r, Z.sub_diag. cbn. lia.
    - assert (P : 10 ^ e0 = 10 ^ 6 * 10 ^ (e0 - 6)) by (rewrite <- Z.pow_add_r by lia; f_equal; lia).
      assert (Q : 0 < 10 ^ (e0 - 6)) by (apply Z.pow_pos_nonneg; lia).
      assert (P1 : 10 ^ (e0 + 1) = 10 * 10 ^ e0) by (rewrite Z.add_1_r, Z.pow_succ_r by lia; reflexivity).
      pose proof (round_half_even_spec n (10 ^ (e0 - 6)) ltac:(lia) Q) as R.
      set (m0 := round_half_even n (10 ^ (e0 - 6))) in *. split; [|split; [lia|auto]].
      split.
      + destruct (Z.le_gt_cases (10 ^ 6) m0); [auto|]. exfalso.
        assert (m0 * 10 ^ (e0 - 6) <= (10 ^ 6 - 1) * 10 ^ (e0 - 6)) by nia. lia.
      + destruct (Z.le_gt_cases m0 (10 ^ 7)); [auto|]. exfalso.
        assert ((10 ^ 7 + 1) * 10 ^ (e0 - 6) <= m0 * 10 ^ (e0 - 6)) by nia. lia. }
  destruct Hm as (Hr & Hlo & Hhi). destruct (Z.eqb_spec (sci_mantissa n) (10 ^ 7)) as [Eq|Ne]; intros [= <- <-].
  - assert (6 <= e0) by (destruct (Z.le_gt_cases 6 e0); [auto|]; specialize (Hlo ltac:(lia)); lia).
    repeat split; try lia. intros _. specialize (Hhi ltac:(lia)). rewrite Eq in Hhi.
    replace (10 ^ (e0 + 1 - 6)) with (10 * 10 ^ (e0 - 6)) by (rewrite <- Z.pow_succ_r by lia; f_equal; lia). lia.
  - repeat split; lia.
Qed.
(** the scaled text r denotes n up to one unit of its last digit *)
Definition shows_scaled (r : pystr) (n : Z) : Prop :=
  exists blanks lead frac e, r = repeat 32 blanks ++ lead :: 46 :: frac ++ [69; 43] ++ dec e /\ forallb is_digit (lead :: frac) = true /\ lead <> 48 /\
    zlen frac <= e /\ Z.abs (n - digits_value (lead :: frac) * 10 ^ (e - zlen frac)) < 10 ^ (e - zlen frac).
Lemma str_fn_scaled n len : 1 <= n -> 0 <= len < zlen (dec n) ->
  exists r, str_fn n len 0 = Ok r /\ (r = py_repeat 42 len \/ zlen r = len /\ shows_scaled r n).
Proof.
  intros Hn Hl. assert (Ed : dec n = dec_nat n) by (unfold dec; destruct (Z.ltb_spec n 0); [lia|reflexivity]).
  unfold str_fn, format_fixed. cbn [Z.ltb Z.compare]. rewrite app_nil_r.
  destruct (Z.ltb_spec len (zlen (dec n))); [|lia]. cbn [andb].
  destruct (Z.leb_spec (zlen (dec n) - (0 - 1)) len); [lia|]. destruct (Z.leb_spec len (zlen (dec n))); [|lia].
  destruct (Z.ltb_spec n 0); [lia|]. unfold sci_groups. destruct (sci_parts n) as [m e] eqn:Ep.
  destruct (sci_parts_spec n m e Hn Ep) as (He & Hel & Hm & Hlo & Hhi). cbn [rbind].
  assert (E6 : 10 ^ 6 = 1000000) by reflexivity. assert (E7 : 10 ^ 7 = 10000000) by reflexivity.
  destruct (pad6_spec (m mod 10 ^ 6)) as (Pl & Pd & Pv); [apply Z.mod_pos_bound; lia|].
  set (g1 := pad6 (m mod 10 ^ 6)) in *. rewrite Pl.
  assert (L0 : zlen [48 + m / 10 ^ 6; 46] = 2) by reflexivity. assert (L2 : zlen [69; 43] = 2) by reflexivity. rewrite L0, L2.
  assert (He0 : dec e = dec_nat e) by (unfold dec; destruct (Z.ltb_spec e 0); [lia|reflexivity]).
  pose proof (dec_nat_pos e He) as Lp.
  set (trim := 2 + 6 + 2 + zlen (dec_nat e) - len). eexists. split; [reflexivity|].
  destruct (Z.eqb_spec (zlen (str_rjust ([48 + m / 10 ^ 6; 46] ++ (if 0 <? trim then py_slice g1 None (Some (- trim)) else g1) ++ [69; 43] ++ dec_nat e) len)) len) as [EL|NL];
    [right|left; reflexivity]. split; [exact EL|].
  (* the number of digits kept *)
  assert (Hsl : exists f, (f <= 6)%nat /\ (if 0 <? trim then py_slice g1 None (Some (- trim)) else g1) = firstn f g1 /\
     Z.of_nat f = Z.max 0 (Z.min 6 (6 - trim))).
  { destruct (Z.ltb_spec 0 trim).
    - exists (Z.to_nat (6 - trim)). split; [lia|]. split; [|lia]. unfold py_slice, slice_bound.
      destruct (Z.ltb_spec (- trim) 0); [|lia]. rewrite Pl. cbn [skipn Z.to_nat].
      f_equal. lia.
    - exists 6%nat. split; [lia|]. split; [|lia]. symmetry. apply firstn_all2. unfold zlen in Pl. lia. }
  destruct Hsl as (f & Hf & Hsl & Hft). rewrite Hsl in *. clear Hsl.
  set (frac := firstn f g1) in *. assert (Lf : zlen frac = Z.of_nat f) by (unfold frac, zlen in *; rewrite firstn_length; lia).
  assert (Lx : zlen ([48 + m / 10 ^ 6; 46] ++ frac ++ [69; 43] ++ dec_nat e) = 4 + Z.of_nat f + zlen (dec_nat e)).
  { unfold zlen in *. rewrite !app_length. cbn [length]. lia. }
  rewrite str_rjust_length, Lx in EL.
  assert (Hfit : 4 + Z.of_nat f + zlen (dec_nat e) <= len) by lia.
  unfold str_rjust, py_repeat.
  exists (Z.to_nat (len - zlen ([48 + m / 10 ^ 6; 46] ++ frac ++ [69; 43] ++ dec_nat e))), (48 + m / 10 ^ 6), frac, e.
  rewrite He0. split; [reflexivity|].
  assert (Hlead : 1 <= m / 10 ^ 6 <= 9).
  { split; [apply Z.div_le_lower_bound; lia|]. apply Z.lt_succ_r. apply Z.div_lt_upper_bound; lia. }
  assert (Hfd : forallb is_digit frac = true).
  { unfold frac. rewrite <- (firstn_skipn f g1), forallb_app, andb_true_iff in Pd. tauto. }
  split. { cbn [forallb]. rewrite Hfd. unfold is_digit. rewrite andb_true_r, andb_true_iff, !Z.leb_le. lia. }
  split; [lia|]. rewrite Lf. split; [rewrite Ed in Hl; lia|].
  (* the value of the kept digits *)
  assert (Hv : digits_value ((48 + m / 10 ^ 6) :: frac) = m / 10 ^ (6 - Z.of_nat f)).
  { change ((48 + m / 10 ^ 6) :: frac) with ([48 + m / 10 ^ 6] ++ frac). rewrite digits_value_app. rewrite Lf.
    unfold frac. rewrite digits_firstn by (auto; unfold zlen in Pl; lia). rewrite Pl, Pv.
    replace (digits_value [48 + m / 10 ^ 6]) with (m / 10 ^ 6) by (unfold digits_value; cbn [fold_left]; lia).
    assert (P : 10 ^ 6 = 10 ^ Z.of_nat f * 10 ^ (6 - Z.of_nat f)) by (rewrite <- Z.pow_add_r by lia; f_equal; lia).
    assert (Q : 0 < 10 ^ (6 - Z.of_nat f)) by (apply Z.pow_pos_nonneg; lia).
    rewrite (Z.div_mod m (10 ^ 6)) at 3 by lia. rewrite P at 3.
    replace (10 ^ Z.of_nat f * 10 ^ (6 - Z.of_nat f) * (m / 10 ^ 6) + m mod 10 ^ 6)
      with ((m / 10 ^ 6 * 10 ^ Z.of_nat f) * 10 ^ (6 - Z.of_nat f) + m mod 10 ^ 6) by ring.
    rewrite Z.div_add_l by lia. reflexivity. }
  rewrite Hv. set (p := 10 ^ (6 - Z.of_nat f)) in *. assert (Q : 0 < p) by (apply Z.pow_pos_nonneg; lia).
  set (w := 10 ^ (e - Z.of_nat f)). assert (Qw : 0 < w) by (apply Z.pow_pos_nonneg; rewrite Ed in Hl; lia).
  pose proof (Z.div_mod m p ltac:(lia)) as D. pose proof (Z.mod_pos_bound m p Q) as D2. set (q := m / p) in *.
  destruct (Z.le_gt_cases 6 e) as [H6|H6].
  - specialize (Hhi H6). set (v := 10 ^ (e - 6)) in *. assert (Qv : 0 < v) by (apply Z.pow_pos_nonneg; lia).
    assert (W : w = p * v) by (unfold w, p, v; rewrite <- Z.pow_add_r by lia; f_equal; lia). rewrite W.
    assert (A1 : m * v = q * (p * v) + (m mod p) * v) by (rewrite D at 1; ring).
    assert (A2 : 0 <= (m mod p) * v <= (p - 1) * v) by nia.
    assert (A3 : (p - 1) * v = p * v - v) by ring. assert (v <= p * v) by nia. lia.
  - specialize (Hlo H6). assert (W : p = 10 ^ (6 - e) * w).
    { unfold w, p. rewrite <- Z.pow_add_r by (rewrite ?Ed in Hl; lia). f_equal. lia. }
    set (v := 10 ^ (6 - e)) in *. assert (Qv : 0 < v) by (apply Z.pow_pos_nonneg; lia).
    clearbody q v w. assert (A : v * (n - q * w) = m mod p).
    { transitivity (m - p * q); [|lia]. rewrite W. transitivity (n * v - v * w * q); [ring|now rewrite <- Hlo]. }
    rewrite W in D2. rewrite <- W in D2. assert (B : 0 <= v * (n - q * w) < v * w) by (rewrite A, <- W; exact D2).
    clear - B Qv Qw. set (x := n - q * w) in *. clearbody x.
    assert (0 <= x) by (apply (Zmult_le_reg_r 0 x v); lia). assert (x < w) by (apply (Zmult_lt_reg_r x w v); lia). lia.
Qed.
