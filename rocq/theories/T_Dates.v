(** Property theorems C19, C20, C21 and C57: dates and MESSAGEBOX. *)
From Verif Require Import PyBase PyStr M_Dates P_Strings P_StrSci P_Dates.
Open Scope res_scope.

(** C19, years 1000 - 9999 *)
Theorem C19_dtos_width_partial :
  forall d, valid_date d = true -> 1000 <= year d -> zlen (dtos d) = 8 /\ forallb is_digit (dtos d) = true.
Proof. intros d Hv Hy. destruct (dtos_spec d Hv Hy) as (L & D & _). unfold zlen. rewrite L. auto. Qed.
Print Assumptions C19_dtos_width_partial.
Theorem C19_dtos_order_partial :
  forall a b, valid_date a = true -> valid_date b = true -> 1000 <= year a -> 1000 <= year b ->
  (lex_lt (dtos a) (dtos b) <-> date_lt a b).
Proof. exact dtos_order. Qed.
Print Assumptions C19_dtos_order_partial.
Theorem C19_dtos_determines_partial :
  forall a b, valid_date a = true -> valid_date b = true -> 1000 <= year a -> 1000 <= year b -> dtos a = dtos b -> a = b.
Proof. exact dtos_inj. Qed.
Print Assumptions C19_dtos_determines_partial.
(** C19: datetimes, too, sort by their text. *)
Theorem C19_dtos_datetime_order_partial :
  forall a s b t, valid_date a = true -> valid_date b = true -> valid_time s = true -> valid_time t = true ->
  1000 <= year a -> 1000 <= year b -> (lex_lt (dtos_dt a s) (dtos_dt b t) <-> datetime_lt a s b t).
Proof. exact dtos_dt_order. Qed.
Print Assumptions C19_dtos_datetime_order_partial.
Example C19_example : dtos (mkDate 2024 2 29) = u "20240229" /\
  dtos_dt (mkDate 1999 12 31) (mkTime 23 5 9) = u "19991231230509".
Proof. vm_compute. auto. Qed.
(** C19: before the year 1000 the text is shorter and sorts wrongly (strftime('%Y') does not pad on glibc). *)
Theorem C19_dtos_early_years_refuted :
  exists a b, valid_date a = true /\ valid_date b = true /\ date_lt a b /\ ~ lex_lt (dtos a) (dtos b) /\ zlen (dtos a) = 7.
Proof.
  exists (mkDate 999 1 1), (mkDate 1000 1 1). repeat split; [left; cbn; lia|].
  intros H. vm_compute in H. intuition discriminate.
Qed.
Print Assumptions C19_dtos_early_years_refuted.

(** C20: QUARTER counts from the given start month ... *)
Theorem C20_quarter :
  forall (d : date) (s k : Z), 0 <= k < 12 -> (exists j, month d = s + k + 12 * j) -> quarter (Some d) s = k / 3 + 1.
Proof. exact quarter_spec. Qed.
Print Assumptions C20_quarter.
Theorem C20_quarter_range : forall (d : date) (s : Z), 1 <= quarter (Some d) s <= 4.
Proof. exact quarter_range. Qed.
Print Assumptions C20_quarter_range.
Example C20_quarter_example : quarter (Some (mkDate 2024 3 1)) 4 = 4 /\ quarter (Some (mkDate 2024 4 1)) 4 = 1.
Proof. vm_compute. auto. Qed.
(** C20: GOMONTH moves by exactly k months, cuts the day at the end of the month, and raises ValueError exactly when the
    year leaves 1..9999. *)
Theorem C20_gomonth :
  forall (d : date) (k : Z), valid_date d = true ->
  let i := 12 * year d + (month d - 1) + k in let y := i / 12 in let m := i mod 12 + 1 in
  gomonth d k = if (1 <=? y) && (y <=? 9999) then Ok (mkDate y m (Z.min (day d) (month_length y m))) else Err ValueError.
Proof.
  intros d k Hv i y m. rewrite <- days_in_month_spec; [exact (gomonth_spec d k Hv)|].
  unfold m. pose proof (Z.mod_pos_bound i 12 ltac:(lia)). lia.
Qed.
Print Assumptions C20_gomonth.
(** C20: moving there and back is the identity for days that every month has. *)
Theorem C20_gomonth_inverse :
  forall (d e : date) (k : Z), valid_date d = true -> day d <= 28 -> gomonth d k = Ok e -> gomonth e (- k) = Ok d.
Proof.
  intros d e k Hv Hd. pose proof (gomonth_spec d k Hv) as H. cbv zeta in H. rewrite H. clear H.
  set (i := month_index d + k). destruct ((1 <=? i / 12) && (i / 12 <=? 9999)) eqn:E; [|discriminate]. intros [= <-].
  pose proof (days_in_month_range (i / 12) (i mod 12 + 1)) as R. pose proof (valid_date_bounds d Hv) as B.
  rewrite andb_true_iff, !Z.leb_le in E. pose proof (Z.div_mod i 12 ltac:(lia)). pose proof (Z.mod_pos_bound i 12 ltac:(lia)).
  rewrite Z.min_l by lia. set (e := mkDate _ _ _).
  assert (Hve : valid_date e = true).
  { unfold valid_date, e; cbn [year month day]. rewrite !andb_true_iff, !Z.leb_le. lia. }
  pose proof (gomonth_spec e (- k) Hve) as H'. cbv zeta in H'. rewrite H'. clear H'.
  assert (Ei : month_index e + - k = 12 * year d + (month d - 1)) by (unfold month_index, e, i in *; cbn [year month]; unfold month_index in *; lia).
  rewrite Ei. replace (12 * year d + (month d - 1)) with (month d - 1 + year d * 12) by lia.
  rewrite Z.div_add, Z.mod_add, Z.div_small, Z.mod_small by lia. cbn [Z.add].
  destruct (Z.leb_spec 1 (year d)); [|lia]. destruct (Z.leb_spec (year d) 9999); [|lia]. cbn [andb].
  f_equal. replace (month d - 1 + 1) with (month d) by lia. cbn [day]. unfold e. cbn [day].
  rewrite Z.min_l by (pose proof (days_in_month_range (year d) (month d)); lia). now destruct d.
Qed.
Print Assumptions C20_gomonth_inverse.
Example C20_gomonth_example : gomonth (mkDate 2024 1 31) 1 = Ok (mkDate 2024 2 29) /\
  gomonth (mkDate 2024 1 31) (-14) = Ok (mkDate 2022 11 30) /\ gomonth (mkDate 9999 12 1) 1 = Err ValueError.
Proof. vm_compute. auto. Qed.
(** C20: DOW: with first day f (1 = Sunday) the k-th day of the week is numbered k; w counts from Monday = 0. *)
Theorem C20_dow :
  forall (w f k : Z), 0 <= w <= 6 -> 1 <= f <= 7 -> 1 <= k <= 7 ->
  (dow_fix w f = k <-> (w + 1) mod 7 = (f - 1 + (k - 1)) mod 7).
Proof. exact dow_spec. Qed.
Print Assumptions C20_dow.
Theorem C20_dow_range_and_step : forall (w f : Z), 1 <= dow_fix w f <= 7 /\ dow_fix (w + 1) f = dow_fix w f mod 7 + 1 /\
  dow_fix w 0 = dow_fix w 1.
Proof. intros. split; [apply dow_range|]. split; [apply dow_step|apply dow_default]. Qed.
Print Assumptions C20_dow_range_and_step.
Example C20_dow_example : dow_fix 6 1 = 1 /\ dow_fix 0 2 = 1 /\ dow_fix 6 2 = 7.
Proof. vm_compute. auto. Qed.

(** C21: what is shown depends on the three documented fields only: the button group (bits 0-3), the icon (bits 4-7) and the
    default button (bits 8-9). *)
Theorem C21_documented_fields :
  forall (f g : Z) (t : pystr), field_buttons f = field_buttons g -> field_icon f = field_icon g ->
  field_default f = field_default g -> mb_box f t = mb_box g t.
Proof.
  intros f g t H1 H2 H3. unfold mb_box. destruct (flags_fields f) as (A1 & A2 & A3), (flags_fields g) as (B1 & B2 & B3).
  cbv zeta in *. rewrite A1, A2, A3, B1, B2, B3, H1, H2, H3. reflexivity.
Qed.
Print Assumptions C21_documented_fields.
(** C21: for valid groups and icons the box has the documented buttons in order, and the default button is the n-th of them,
    the last one if there are fewer. *)
Definition documented_buttons (k : Z) : option (list button) :=
  nth_error [[BOk]; [BOk; BCancel]; [BAbort; BRetry; BIgnore]; [BYes; BNo; BCancel]; [BYes; BNo]; [BRetry; BCancel]] (Z.to_nat k).
Definition documented_icon (k : Z) : option icon := nth_error [NoIcon; Critical; Question; Warning; Information] (Z.to_nat k).
Lemma small_cases f : (field_buttons f = 0 \/ field_buttons f = 1 \/ field_buttons f = 2 \/ field_buttons f = 3 \/ field_buttons f = 4 \/ field_buttons f = 5 \/ 6 <= field_buttons f)
  /\ (field_icon f = 0 \/ field_icon f = 1 \/ field_icon f = 2 \/ field_icon f = 3 \/ field_icon f = 4 \/ 5 <= field_icon f)
  /\ (field_default f = 0 \/ field_default f = 1 \/ field_default f = 2 \/ field_default f = 3).
Proof.
  unfold field_buttons, field_icon, field_default. pose proof (Z.mod_pos_bound f 16 ltac:(lia)).
  pose proof (Z.mod_pos_bound (f / 16) 16 ltac:(lia)). pose proof (Z.mod_pos_bound (f / 256) 4 ltac:(lia)). lia.
Qed.
Theorem C21_box_shown :
  forall (f : Z) (t : pystr) bs ic,
  documented_buttons (field_buttons f) = Some bs -> documented_icon (field_icon f) = Some ic ->
  exists b, mb_box f t = Ok b /\ mb_shown b = bs /\ mb_icn b = ic /\ mb_title b = t /\
    In (mb_default b) bs /\ In (mb_escape b) bs /\
    nth_error bs (Nat.min (Z.to_nat (field_default f)) (length bs - 1)) = Some (mb_default b).
Proof.
  intros f t bs ic Hb Hi. unfold mb_box. destruct (flags_fields f) as (A1 & A2 & A3). cbv zeta in *. rewrite A1, A2, A3.
  destruct (small_cases f) as (C1 & C2 & C3).
  destruct C1 as [E1|[E1|[E1|[E1|[E1|[E1|E1]]]]]];
    [..|exfalso; unfold documented_buttons in Hb; destruct (Z.to_nat (field_buttons f)) as [|[|[|[|[|[|n]]]]]] eqn:En; try lia; cbn in Hb; now destruct n];
    rewrite E1 in *; injection Hb as <-;
    (destruct C2 as [E2|[E2|[E2|[E2|[E2|E2]]]]];
     [..|exfalso; unfold documented_icon in Hi; destruct (Z.to_nat (field_icon f)) as [|[|[|[|[|n]]]]] eqn:En; try lia; cbn in Hi; now destruct n];
     rewrite E2 in *; injection Hi as <-);
    destruct C3 as [E3|[E3|[E3|E3]]]; rewrite E3; cbn; eexists; repeat split; cbn; auto.
Qed.
Print Assumptions C21_box_shown.
(** C21: title and flags in either order. *)
Theorem C21_argument_order : forall (f : Z) (t : pystr), messagebox (AStr t) (AInt f) = messagebox (AInt f) (AStr t).
Proof. reflexivity. Qed.
Print Assumptions C21_argument_order.
(** C21: omitted arguments: no title, no flags, neither. *)
Theorem C21_defaults :
  forall (f : Z) (t : pystr), messagebox (AInt f) ANone = mb_box f (u "vfp2py") /\ messagebox (AStr t) ANone = mb_box 0 t /\
  messagebox ANone ANone = mb_box 0 (u "vfp2py") /\ messagebox (AStr t) (AInt f) = mb_box f t.
Proof. repeat split. Qed.
Print Assumptions C21_defaults.
(** C21: the return value identifies the button, and never looks like a time-out. *)
Theorem C21_return_values :
  (forall a b, mb_return false a = mb_return false b -> a = b) /\ (forall b, 1 <= mb_return false b <= 7) /\
  (forall b, mb_return true b = -1) /\ map (mb_return false) [BOk; BCancel; BAbort; BRetry; BIgnore; BYes; BNo] = [1; 2; 3; 4; 5; 6; 7].
Proof.
  split; [intros [] []; cbn; congruence|]. split; [intros []; cbn; lia|]. split; reflexivity.
Qed.
Print Assumptions C21_return_values.
Example C21_example : messagebox (AInt (3 + 32 + 256)) (AStr (u "Save?")) =
  Ok (mkBox [BYes; BNo; BCancel] Question BNo BCancel (u "Save?")) /\
  messagebox (AInt (1 + 512)) ANone = Ok (mkBox [BOk; BCancel] NoIcon BCancel BCancel (u "vfp2py")) /\
  messagebox (AInt 6) ANone = Err KeyError.
Proof. vm_compute. auto. Qed.

(** C57: the text of a date or datetime determines it. *)
Theorem C57_dtoc_determines :
  forall a b, valid_date a = true -> valid_date b = true -> dtoc a = dtoc b -> a = b.
Proof. exact dtoc_inj. Qed.
Print Assumptions C57_dtoc_determines.
Theorem C57_dtoc_datetime_determines :
  forall a s b t, valid_date a = true -> valid_date b = true -> valid_time s = true -> valid_time t = true ->
  dtoc_dt a s = dtoc_dt b t -> a = b /\ s = t.
Proof. exact dtoc_dt_inj. Qed.
Print Assumptions C57_dtoc_datetime_determines.
(** C57: month, day and year in this order, the former two with two digits. *)
Theorem C57_dtoc_text :
  forall d, valid_date d = true -> exists mm dd yy, dtoc d = mm ++ [47] ++ dd ++ [47] ++ yy /\
    zlen mm = 2 /\ zlen dd = 2 /\ forallb is_digit (mm ++ dd ++ yy) = true /\
    digits_value mm = month d /\ digits_value dd = day d /\ digits_value yy = year d.
Proof.
  intros d Hv. apply valid_date_bounds in Hv. exists (pad2 (month d)), (pad2 (day d)), (dec (year d)).
  destruct (pad2_spec (month d)) as (L1 & D1 & V1); [lia|]. destruct (pad2_spec (day d)) as (L2 & D2 & V2); [lia|].
  destruct (dec_nat_spec (year d)) as (V3 & D3 & _); [lia|]. rewrite dec_nonneg by lia.
  unfold dtoc, zlen. rewrite dec_nonneg, L1, L2, !forallb_app, D1, D2, D3 by lia. repeat split; assumption.
Qed.
Print Assumptions C57_dtoc_text.
(** C57: a datetime is the text of its date followed at once by hours, minutes and seconds, two digits each, with colons between. *)
Theorem C57_dtoc_datetime_text :
  forall d t, valid_date d = true -> valid_time t = true -> exists hh mm ss, dtoc_dt d t = dtoc d ++ hh ++ [58] ++ mm ++ [58] ++ ss /\
    zlen hh = 2 /\ zlen mm = 2 /\ zlen ss = 2 /\ forallb is_digit (hh ++ mm ++ ss) = true /\
    digits_value hh = hour t /\ digits_value mm = minute t /\ digits_value ss = second t.
Proof.
  intros d t _ Ht. unfold valid_time in Ht. rewrite !andb_true_iff, !Z.leb_le in Ht. exists (pad2 (hour t)), (pad2 (minute t)), (pad2 (second t)).
  destruct (pad2_spec (hour t)) as (L1 & D1 & V1); [lia|]. destruct (pad2_spec (minute t)) as (L2 & D2 & V2); [lia|].
  destruct (pad2_spec (second t)) as (L3 & D3 & V3); [lia|]. unfold zlen. rewrite L1, L2, L3, !forallb_app, D1, D2, D3. repeat split; assumption.
Qed.
Print Assumptions C57_dtoc_datetime_text.
Example C57_example : dtoc (mkDate 2024 2 29) = u "02/29/2024" /\
  dtoc_dt (mkDate 2024 2 29) (mkTime 9 5 0) = u "02/29/202409:05:00".
Proof. vm_compute. auto. Qed.
