(** Proofs about the date functions and MESSAGEBOX. *)
From Verif Require Import PyBase PyStr M_Dates P_Strings P_StrSci.
Open Scope res_scope.

(** ** DTOS *)
(** lexicographic order of strings (Python's str <) *)
Fixpoint lex_lt (a b : pystr) : Prop :=
  match a, b with
  | _, [] => False
  | [], _ :: _ => True
  | x :: a', y :: b' => x < y \/ x = y /\ lex_lt a' b'
  end.
(** calendar order *)
Definition date_lt (a b : date) : Prop :=
  year a < year b \/ year a = year b /\ (month a < month b \/ month a = month b /\ day a < day b).

Lemma lex_digits a : forall b, forallb is_digit a = true -> forallb is_digit b = true -> length a = length b ->
  (lex_lt a b <-> digits_value a < digits_value b).
Proof.
  assert (G : forall x a, digits_value (x :: a) = (x - 48) * 10 ^ zlen a + digits_value a).
  { intros x a'. change (x :: a') with ([x] ++ a'). rewrite digits_value_app. cbn. lia. }
  induction a as [|x a IH]; intros [|y b] Ha Hb Hl; try discriminate; [cbn; lia|].
  cbn [forallb] in *. apply andb_true_iff in Ha, Hb. destruct Ha as [Hx Ha], Hb as [Hy Hb]. injection Hl as Hl.
  cbn [lex_lt]. rewrite (IH b Ha Hb Hl), !G.
  pose proof (digits_value_bound a Ha). pose proof (digits_value_bound b Hb).
  assert (E : zlen a = zlen b) by (unfold zlen; lia). rewrite E in *. set (p := 10 ^ zlen b) in *.
  split.
  - intros [H1|[-> H1]]; [|lia]. assert ((x - 48 + 1) * p <= (y - 48) * p) by (apply Z.mul_le_mono_nonneg_r; lia). lia.
  - intros H1. destruct (Z.lt_trichotomy x y) as [|[->|H2]]; [auto|right; split; [reflexivity|lia]|exfalso].
    assert ((y - 48 + 1) * p <= (x - 48) * p) by (apply Z.mul_le_mono_nonneg_r; lia). lia.
Qed.
Lemma dec_nonneg n : 0 <= n -> dec n = dec_nat n.
Proof. intros. unfold dec. destruct (Z.ltb_spec n 0); [lia|reflexivity]. Qed.
Lemma pad2_spec n : 0 <= n < 100 -> length (pad2 n) = 2%nat /\ forallb is_digit (pad2 n) = true /\ digits_value (pad2 n) = n.
Proof.
  intros H. unfold pad2. rewrite dec_nonneg by lia. destruct (dec_nat_spec n ltac:(lia)) as (V & D & N).
  pose proof (dec_nat_pos n ltac:(lia)).
  assert (zlen (dec_nat n) <= 2).
  { destruct (Z.eq_dec n 0) as [->|]; [cbn; lia|]. pose proof (dec_nat_length n ltac:(lia)) as [G _].
    destruct (Z.le_gt_cases (zlen (dec_nat n)) 2); [auto|]. assert (10 ^ 2 <= 10 ^ (zlen (dec_nat n) - 1)) by (apply Z.pow_le_mono_r; lia). lia. }
  assert (zlen (dec_nat n) = 1 \/ zlen (dec_nat n) = 2) as [E|E] by lia; rewrite E.
  - cbn [Z.sub]. change (py_repeat 48 (2 - 1)) with [48]. repeat split.
    + unfold zlen in E. rewrite app_length. cbn [length]. lia.
    + rewrite forallb_app, D. reflexivity.
    + rewrite digits_value_app, V. cbn. lia.
  - change (py_repeat 48 (2 - 2)) with (@nil Z). cbn [app]. repeat split; auto. unfold zlen in E. lia.
Qed.
Lemma dec_year n : 1000 <= n <= 9999 -> length (dec n) = 4%nat /\ forallb is_digit (dec n) = true /\ digits_value (dec n) = n.
Proof.
  intros H. rewrite dec_nonneg by lia. destruct (dec_nat_spec n ltac:(lia)) as (V & D & N). repeat split; auto.
  pose proof (dec_nat_length n ltac:(lia)) as [G1 G2]. pose proof (dec_nat_pos n ltac:(lia)).
  assert (zlen (dec_nat n) - 1 < 4).
  { destruct (Z.lt_ge_cases (zlen (dec_nat n) - 1) 4); [auto|]. assert (10 ^ 4 <= 10 ^ (zlen (dec_nat n) - 1)) by (apply Z.pow_le_mono_r; lia). lia. }
  assert (3 < zlen (dec_nat n)).
  { destruct (Z.lt_ge_cases 3 (zlen (dec_nat n))); [auto|]. assert (10 ^ zlen (dec_nat n) <= 10 ^ 3) by (apply Z.pow_le_mono_r; lia). lia. }
  unfold zlen in *. lia.
Qed.
Lemma valid_date_bounds d : valid_date d = true ->
  1 <= year d <= 9999 /\ 1 <= month d <= 12 /\ 1 <= day d <= days_in_month (year d) (month d) /\ day d <= 31.
Proof.
  unfold valid_date. rewrite !andb_true_iff, !Z.leb_le. intros [[[[[? ?] ?] ?] ?] ?]. repeat split; try lia.
  unfold days_in_month in *. destruct (month d =? 2); [destruct (is_leap (year d)); lia|].
  destruct ((month d =? 4) || (month d =? 6) || (month d =? 9) || (month d =? 11)); lia.
Qed.
Lemma dtos_spec d : valid_date d = true -> 1000 <= year d ->
  length (dtos d) = 8%nat /\ forallb is_digit (dtos d) = true /\
  digits_value (dtos d) = year d * 10000 + month d * 100 + day d.
Proof.
  intros Hv Hy. apply valid_date_bounds in Hv. unfold dtos, strftime_Ymd.
  destruct (dec_year (year d)) as (L1 & D1 & V1); [lia|].
  destruct (pad2_spec (month d)) as (L2 & D2 & V2); [lia|].
  destruct (pad2_spec (day d)) as (L3 & D3 & V3); [lia|]. repeat split.
  - rewrite !app_length, L1, L2, L3. reflexivity.
  - now rewrite !forallb_app, D1, D2, D3.
  - rewrite !digits_value_app, V1, V2, V3. unfold zlen. rewrite app_length, L2, L3. cbn. lia.
Qed.
Lemma dtos_dt_spec d t : valid_date d = true -> valid_time t = true -> 1000 <= year d ->
  length (dtos_dt d t) = 14%nat /\ forallb is_digit (dtos_dt d t) = true /\
  digits_value (dtos_dt d t) = (year d * 10000 + month d * 100 + day d) * 1000000 + hour t * 10000 + minute t * 100 + second t.
Proof.
  intros Hv Ht Hy. destruct (dtos_spec d Hv Hy) as (L0 & D0 & V0). unfold dtos in *. unfold dtos_dt.
  unfold valid_time in Ht. rewrite !andb_true_iff, !Z.leb_le in Ht. destruct Ht as [[[[[? ?] ?] ?] ?] ?].
  destruct (pad2_spec (hour t)) as (L1 & D1 & V1); [lia|].
  destruct (pad2_spec (minute t)) as (L2 & D2 & V2); [lia|].
  destruct (pad2_spec (second t)) as (L3 & D3 & V3); [lia|]. repeat split.
  - rewrite !app_length, L0, L1, L2, L3. reflexivity.
  - now rewrite !forallb_app, D0, D1, D2, D3.
  - rewrite !digits_value_app, V0, V1, V2, V3. unfold zlen. rewrite !app_length, L1, L2, L3. cbn. lia.
Qed.
Lemma dtos_order a b : valid_date a = true -> valid_date b = true -> 1000 <= year a -> 1000 <= year b ->
  (lex_lt (dtos a) (dtos b) <-> date_lt a b).
Proof.
  intros Ha Hb Ya Yb. destruct (dtos_spec a Ha Ya) as (L1 & D1 & V1), (dtos_spec b Hb Yb) as (L2 & D2 & V2).
  rewrite lex_digits by (auto; congruence). rewrite V1, V2. apply valid_date_bounds in Ha, Hb. unfold date_lt. lia.
Qed.
Lemma dtos_inj a b : valid_date a = true -> valid_date b = true -> 1000 <= year a -> 1000 <= year b ->
  dtos a = dtos b -> a = b.
Proof.
  intros Ha Hb Ya Yb E. destruct (dtos_spec a Ha Ya) as (_ & _ & V1), (dtos_spec b Hb Yb) as (_ & _ & V2). rewrite E, V2 in V1.
  apply valid_date_bounds in Ha, Hb. destruct a, b; cbn in *. f_equal; lia.
Qed.
Definition datetime_lt (a : date) (s : time) (b : date) (t : time) : Prop :=
  date_lt a b \/ a = b /\ (hour s < hour t \/ hour s = hour t /\
    (minute s < minute t \/ minute s = minute t /\ second s < second t)).
Lemma dtos_dt_order a s b t : valid_date a = true -> valid_date b = true -> valid_time s = true -> valid_time t = true ->
  1000 <= year a -> 1000 <= year b -> (lex_lt (dtos_dt a s) (dtos_dt b t) <-> datetime_lt a s b t).
Proof.
  intros Ha Hb Hs Ht Ya Yb. destruct (dtos_dt_spec a s Ha Hs Ya) as (L1 & D1 & V1), (dtos_dt_spec b t Hb Ht Yb) as (L2 & D2 & V2).
  rewrite lex_digits by (auto; congruence). rewrite V1, V2. apply valid_date_bounds in Ha, Hb.
  unfold valid_time in *. rewrite !andb_true_iff, !Z.leb_le in *. unfold datetime_lt, date_lt.
  split.
  - intros H. destruct (Z.lt_trichotomy (year a * 10000 + month a * 100 + day a) (year b * 10000 + month b * 100 + day b)) as [G|[G|G]].
    + left. lia.
    + right. split; [destruct a, b; cbn in *; f_equal; lia|]. lia.
    + exfalso. lia.
  - intros [H|[-> H]]; lia.
Qed.

(** ** DOW *)
Lemma dow_range w f : 1 <= dow_fix w f <= 7.
Proof. unfold dow_fix. pose proof (Z.mod_pos_bound (w + 2 - (if f =? 0 then 1 else f)) 7). lia. Qed.
(** FoxPro counts the days of the week from Sunday = 1; [w] counts from Monday = 0 *)
Lemma dow_spec w f k : 0 <= w <= 6 -> 1 <= f <= 7 -> 1 <= k <= 7 ->
  (dow_fix w f = k <-> (w + 1) mod 7 = (f - 1 + (k - 1)) mod 7).
Proof.
  intros Hw Hf Hk. unfold dow_fix. destruct (Z.eqb_spec f 0); [lia|].
  assert (C : forall x, 0 <= x < 7 -> x = 0 \/ x = 1 \/ x = 2 \/ x = 3 \/ x = 4 \/ x = 5 \/ x = 6) by lia.
  destruct (C w) as [->|[->|[->|[->|[->|[->| ->]]]]]]; [lia|..];
  destruct (C (f - 1)) as [E|[E|[E|[E|[E|[E|E]]]]]]; try lia;
  (replace f with (f - 1 + 1) by lia; rewrite E; destruct (C (k - 1)) as [K|[K|[K|[K|[K|[K|K]]]]]]; try lia;
   replace k with (k - 1 + 1) by lia; rewrite K; cbn; lia).
Qed.
Lemma dow_default w : dow_fix w 0 = dow_fix w 1.
Proof. reflexivity. Qed.
Lemma dow_step w f : dow_fix (w + 1) f = dow_fix w f mod 7 + 1.
Proof.
  unfold dow_fix. set (x := w + 2 - _). replace (w + 1 + 2 - (if f =? 0 then 1 else f)) with (x + 1) by (unfold x; lia).
  rewrite Z.add_mod by lia. change (1 mod 7) with 1. pose proof (Z.mod_pos_bound x 7 ltac:(lia)). reflexivity.
Qed.

(** ** QUARTER *)
Lemma quarter_spec d s k : 0 <= k < 12 -> (exists j, month d = s + k + 12 * j) -> quarter (Some d) s = k / 3 + 1.
Proof.
  intros Hk (j & E). unfold quarter. rewrite E.
  replace (s + k + 12 * j - s) with (k + j * 12) by lia. rewrite Z.mod_add, (Z.mod_small k 12) by lia.
  f_equal. pose proof (Z.div_mod k 3 ltac:(lia)). replace (k - k mod 3) with (k / 3 * 3) by lia. apply Z.div_mul. lia.
Qed.
Lemma quarter_range d s : 1 <= quarter (Some d) s <= 4.
Proof.
  assert (Hk : 0 <= (month d - s) mod 12 < 12) by (apply Z.mod_pos_bound; lia).
  rewrite (quarter_spec d s ((month d - s) mod 12) Hk).
  - assert (0 <= (month d - s) mod 12 / 3 < 4); [|lia]. split; [apply Z.div_pos; lia|apply Z.div_lt_upper_bound; lia].
  - exists ((month d - s) / 12). pose proof (Z.div_mod (month d - s) 12 ltac:(lia)). lia.
Qed.

(** ** GOMONTH *)
(** Month lengths of the Gregorian calendar, from the number of leap days up to a year. *)
Definition leap_days (y : Z) : Z := y / 4 - y / 100 + y / 400.
Definition month_length (y m : Z) : Z :=
  nth (Z.to_nat (m - 1)) [31; 28 + (leap_days y - leap_days (y - 1)); 31; 30; 31; 30; 31; 31; 30; 31; 30; 31] 0.
Lemma div_step y k : 0 < k -> y / k - (y - 1) / k = if y mod k =? 0 then 1 else 0.
Proof.
  intros Hk. pose proof (Z.div_mod y k ltac:(lia)). pose proof (Z.mod_pos_bound y k Hk).
  destruct (Z.eqb_spec (y mod k) 0) as [E|E].
  - replace (y - 1) with (y / k * k - 1) by lia. rewrite <- (Z.div_unique (y / k * k - 1) k (y / k - 1) (k - 1)); lia.
  - rewrite <- (Z.div_unique (y - 1) k (y / k) (y mod k - 1)); lia.
Qed.
Lemma mod_chain y a b : 0 < a -> (exists c, b = c * a /\ 0 < c) -> y mod b = 0 -> y mod a = 0.
Proof.
  intros Ha (c & -> & Hc) H. apply Z.mod_divide; [lia|]. apply Z.mod_divide in H; [|lia].
  destruct H as (q & ->). exists (q * c). ring.
Qed.
Lemma is_leap_spec y : leap_days y - leap_days (y - 1) = if is_leap y then 1 else 0.
Proof.
  unfold leap_days, is_leap. pose proof (div_step y 4 ltac:(lia)). pose proof (div_step y 100 ltac:(lia)).
  pose proof (div_step y 400 ltac:(lia)).
  pose proof (mod_chain y 4 100 ltac:(lia) (ex_intro _ 25 (conj eq_refl eq_refl))). pose proof (mod_chain y 100 400 ltac:(lia) (ex_intro _ 4 (conj eq_refl eq_refl))).
  destruct (Z.eqb_spec (y mod 4) 0), (Z.eqb_spec (y mod 100) 0), (Z.eqb_spec (y mod 400) 0); cbn [andb orb negb]; lia.
Qed.
Lemma days_in_month_spec y m : 1 <= m <= 12 -> days_in_month y m = month_length y m.
Proof.
  intros Hm. unfold month_length. rewrite is_leap_spec.
  assert (C : m = 1 \/ m = 2 \/ m = 3 \/ m = 4 \/ m = 5 \/ m = 6 \/ m = 7 \/ m = 8 \/ m = 9 \/ m = 10 \/ m = 11 \/ m = 12) by lia.
  destruct C as [->|[->|[->|[->|[->|[->|[->|[->|[->|[->|[->| ->]]]]]]]]]]]; try reflexivity.
  unfold days_in_month. cbn. destruct (is_leap y); reflexivity.
Qed.
Definition month_index (d : date) : Z := 12 * year d + (month d - 1).
Lemma relativedelta_spec delta : let '(ys, ms) := relativedelta_months delta in
  delta = 12 * ys + ms /\ -12 < ms < 12.
Proof.
  unfold relativedelta_months. destruct (Z.ltb_spec 11 (Z.abs delta)); [|lia].
  pose proof (Z.div_mod (delta * Z.sgn delta) 12 ltac:(lia)). pose proof (Z.mod_pos_bound (delta * Z.sgn delta) 12 ltac:(lia)).
  destruct (Z.sgn_spec delta) as [[G1 E]|[[G1 E]|[G1 E]]]; rewrite E in *; lia.
Qed.
Lemma month_index_split y m y' m' : 1 <= m <= 12 -> 1 <= m' <= 12 -> 12 * y + (m - 1) = 12 * y' + (m' - 1) -> y = y' /\ m = m'.
Proof. lia. Qed.
Lemma days_in_month_range y m : 28 <= days_in_month y m <= 31.
Proof.
  unfold days_in_month. destruct (m =? 2); [destruct (is_leap y); lia|].
  destruct ((m =? 4) || (m =? 6) || (m =? 9) || (m =? 11)); lia.
Qed.
Lemma gomonth_spec d k : valid_date d = true ->
  let i := month_index d + k in let y := i / 12 in let m := i mod 12 + 1 in
  gomonth d k = if (1 <=? y) && (y <=? 9999) then Ok (mkDate y m (Z.min (day d) (days_in_month y m))) else Err ValueError.
Proof.
  intros Hv i y m. apply valid_date_bounds in Hv. unfold gomonth. pose proof (relativedelta_spec k) as R.
  destruct (relativedelta_months k) as [ys ms]. destruct R as [Rk Rm]. unfold add_relativedelta.
  assert (E : (if 12 <? month d + ms then (year d + ys + 1, month d + ms - 12)
               else if month d + ms <? 1 then (year d + ys - 1, month d + ms + 12) else (year d + ys, month d + ms)) = (y, m)).
  { assert (Hi : i = 12 * y + (m - 1)) by (unfold y, m; pose proof (Z.div_mod i 12 ltac:(lia)); lia).
    assert (Hm : 1 <= m <= 12) by (unfold m; pose proof (Z.mod_pos_bound i 12 ltac:(lia)); lia).
    unfold i, month_index in Hi. clearbody y m.
    destruct (Z.ltb_spec 12 (month d + ms)); [|destruct (Z.ltb_spec (month d + ms) 1)]; f_equal; lia. }
  rewrite E. unfold make_date.
  assert (Hm : 1 <= m <= 12) by (unfold m; pose proof (Z.mod_pos_bound i 12 ltac:(lia)); lia).
  pose proof (days_in_month_range y m). rewrite (Z.min_comm (days_in_month y m)).
  unfold valid_date. cbn [year month day].
  destruct (Z.leb_spec 1 m); [|lia]. destruct (Z.leb_spec m 12); [|lia].
  destruct (Z.leb_spec 1 (Z.min (day d) (days_in_month y m))); [|lia].
  destruct (Z.leb_spec (Z.min (day d) (days_in_month y m)) (days_in_month y m)); [|lia].
  rewrite !andb_true_r. reflexivity.
Qed.

(** ** MESSAGEBOX *)
Lemma land_mod n k : 0 <= k -> Z.land n (Z.ones k) = n mod 2 ^ k.
Proof. apply Z.land_ones. Qed.
(** the three documented fields of a flags value *)
Definition field_buttons (f : Z) : Z := f mod 16.
Definition field_icon (f : Z) : Z := f / 16 mod 16.
Definition field_default (f : Z) : Z := f / 256 mod 4.
Lemma flags_fields f : let g := Z.land f 1023 in
  Z.land g 15 = field_buttons f /\ Z.land g (Z.shiftl 15 4) = 16 * field_icon f /\ Z.shiftr g 8 = field_default f.
Proof.
  cbv zeta. unfold field_buttons, field_icon, field_default.
  assert (B : forall i, Z.testbit 1023 i = (0 <=? i) && (i <? 10)).
  { intros i. change 1023 with (Z.ones 10). destruct (Z.leb_spec 0 i), (Z.ltb_spec i 10); cbn [andb].
    - apply Z.ones_spec_low. lia.
    - apply Z.ones_spec_high. lia.
    - now apply Z.testbit_neg_r.
    - now apply Z.testbit_neg_r. }
  assert (B4 : forall i, Z.testbit 15 i = (0 <=? i) && (i <? 4)).
  { intros i. change 15 with (Z.ones 4). destruct (Z.leb_spec 0 i), (Z.ltb_spec i 4); cbn [andb].
    - apply Z.ones_spec_low. lia.
    - apply Z.ones_spec_high. lia.
    - now apply Z.testbit_neg_r.
    - now apply Z.testbit_neg_r. }
  repeat split.
  - change 16 with (2 ^ 4). rewrite <- (Z.land_ones f 4) by lia. apply Z.bits_inj'. intros i Hi.
    rewrite !Z.land_spec, B, B4. change (Z.testbit (Z.ones 4) i) with (Z.testbit 15 i). rewrite B4.
    destruct (Z.testbit f i); cbn [andb]; [|reflexivity].
    destruct (Z.leb_spec 0 i), (Z.ltb_spec i 10), (Z.ltb_spec i 4); cbn [andb]; reflexivity || lia.
  - replace (f / 16 mod 16) with (Z.land (Z.shiftr f 4) (Z.ones 4)) by (rewrite Z.land_ones, Z.shiftr_div_pow2 by lia; reflexivity).
    replace (16 * Z.land (Z.shiftr f 4) (Z.ones 4)) with (Z.shiftl (Z.land (Z.shiftr f 4) (Z.ones 4)) 4) by (rewrite Z.shiftl_mul_pow2 by lia; lia).
    apply Z.bits_inj'. intros i Hi. rewrite Z.shiftl_spec by lia. rewrite !Z.land_spec, B, Z.shiftl_spec by lia. rewrite B4.
    change (Z.ones 4) with 15. rewrite B4. destruct (Z.le_gt_cases 4 i).
    + rewrite Z.shiftr_spec by lia. replace (i - 4 + 4) with i by lia.
      destruct (Z.testbit f i); cbn [andb]; [|reflexivity].
      destruct (Z.leb_spec 0 i), (Z.ltb_spec i 10), (Z.leb_spec 0 (i - 4)), (Z.ltb_spec (i - 4) 4); cbn [andb]; reflexivity || lia.
    + destruct (Z.leb_spec 0 (i - 4)); [lia|]. cbn [andb]. now rewrite !andb_false_r.
  - replace (f / 256 mod 4) with (Z.land (Z.shiftr f 8) (Z.ones 2)) by (rewrite Z.land_ones, Z.shiftr_div_pow2 by lia; reflexivity).
    apply Z.bits_inj'. intros i Hi. rewrite Z.shiftr_spec, !Z.land_spec, B, Z.shiftr_spec by lia.
    assert (B2 : Z.testbit (Z.ones 2) i = (i <? 2)).
    { destruct (Z.ltb_spec i 2); [apply Z.ones_spec_low; lia|apply Z.ones_spec_high; lia]. }
    rewrite B2. destruct (Z.testbit f (i + 8)); cbn [andb]; [|reflexivity].
    destruct (Z.leb_spec 0 (i + 8)), (Z.ltb_spec (i + 8) 10), (Z.ltb_spec i 2); cbn [andb]; reflexivity || lia.
Qed.

(** ** DTOC *)
Lemma app_inv_len {A} (a b c d : list A) : length a = length c -> a ++ b = c ++ d -> a = c /\ b = d.
Proof.
  revert c. induction a as [|x a IH]; intros [|y c] Hl E; try discriminate; [auto|].
  cbn in *. injection E as -> E. destruct (IH c ltac:(lia) E) as [-> ->]. auto.
Qed.
Lemma app_inv_len_r {A} (a b c d : list A) : length b = length d -> a ++ b = c ++ d -> a = c /\ b = d.
Proof.
  intros Hl E. apply app_inv_len; [|exact E]. apply (f_equal (@length A)) in E. rewrite !app_length in E. lia.
Qed.
Lemma pad2_inj m n : 0 <= m < 100 -> 0 <= n < 100 -> pad2 m = pad2 n -> m = n.
Proof. intros Hm Hn E. destruct (pad2_spec m Hm) as (_ & _ & V), (pad2_spec n Hn) as (_ & _ & W). congruence. Qed.
Lemma dec_inj m n : 0 <= m -> 0 <= n -> dec m = dec n -> m = n.
Proof.
  intros Hm Hn E. rewrite !dec_nonneg in E by lia. destruct (dec_nat_spec m Hm) as (V & _), (dec_nat_spec n Hn) as (W & _). congruence.
Qed.
Lemma dtoc_inj a b : valid_date a = true -> valid_date b = true -> dtoc a = dtoc b -> a = b.
Proof.
  intros Ha Hb E. apply valid_date_bounds in Ha, Hb. unfold dtoc in E.
  destruct (pad2_spec (month a)) as (L1 & _), (pad2_spec (month b)) as (L2 & _), (pad2_spec (day a)) as (L3 & _),
    (pad2_spec (day b)) as (L4 & _); try lia.
  apply app_inv_len in E; [|congruence]. destruct E as [E1 E]. injection E as E.
  apply app_inv_len in E; [|congruence]. destruct E as [E2 E]. injection E as E.
  apply pad2_inj in E1, E2; try lia. apply dec_inj in E; try lia. destruct a, b; cbn in *. congruence.
Qed.
Lemma dtoc_dt_inj a s b t : valid_date a = true -> valid_date b = true -> valid_time s = true -> valid_time t = true ->
  dtoc_dt a s = dtoc_dt b t -> a = b /\ s = t.
Proof.
  intros Ha Hb Hs Ht E. unfold dtoc_dt in E. unfold valid_time in *. rewrite !andb_true_iff, !Z.leb_le in *.
  destruct (pad2_spec (hour s)) as (L1 & _), (pad2_spec (hour t)) as (L2 & _), (pad2_spec (minute s)) as (L3 & _),
    (pad2_spec (minute t)) as (L4 & _), (pad2_spec (second s)) as (L5 & _), (pad2_spec (second t)) as (L6 & _); try lia.
  apply app_inv_len_r in E; [|rewrite !app_length; cbn [length app]; rewrite ?app_length; cbn [length]; lia].
  destruct E as [E0 E]. apply dtoc_inj in E0; auto.
  apply app_inv_len in E; [|congruence]. destruct E as [E1 E]. injection E as E.
  apply app_inv_len in E; [|congruence]. destruct E as [E2 E]. injection E as E.
  apply pad2_inj in E1, E2, E; try lia. split; [exact E0|]. destruct s, t; cbn in *. congruence.
Qed.
