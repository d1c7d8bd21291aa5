(** Proofs for FXP files: checksum, integers, dates, number texts. *)
From Verif Require Import PyBase PyStr M_Dates M_Fxp S_Fxp.
Open Scope Z_scope.

(** ** bits *)
Lemma testbit_small x k i : 0 <= x < 2 ^ k -> k <= i -> Z.testbit x i = false.
Proof.
  intros [H1 H2] Hi. destruct (Z.eq_dec x 0) as [->|Hx]; [apply Z.testbit_0_l|]. apply Z.bits_above_log2; [lia|].
  apply Z.lt_le_trans with k; [|lia]. apply Z.log2_lt_pow2; lia.
Qed.
Lemma join_lxor a x k : 0 <= k -> 0 <= x < 2 ^ k -> Z.shiftl a k + x = Z.lxor (Z.shiftl a k) x.
Proof.
  intros Hk Hx. apply Z.add_nocarry_lxor. apply Z.bits_inj'. intros i Hi. rewrite Z.land_spec, Z.bits_0.
  destruct (Z.ltb_spec i k).
  - rewrite Z.shiftl_spec_low by lia. reflexivity.
  - rewrite (testbit_small x k i) by lia. apply andb_false_r.
Qed.
Lemma lxor_small a b k : 0 <= k -> 0 <= a < 2 ^ k -> 0 <= b < 2 ^ k -> 0 <= Z.lxor a b < 2 ^ k.
Proof.
  intros Hk Ha Hb. assert (Z.lxor a b = Z.land (Z.lxor a b) (Z.ones k)) as ->.
  { apply Z.bits_inj'. intros i Hi. rewrite Z.land_spec. destruct (Z.ltb_spec i k).
    - rewrite Z.ones_spec_low by lia. now rewrite andb_true_r.
    - rewrite Z.ones_spec_high by lia. rewrite Z.lxor_spec, (testbit_small a k), (testbit_small b k) by lia. reflexivity. }
  rewrite Z.land_ones by lia. apply Z.mod_pos_bound. apply Z.pow_pos_nonneg; lia.
Qed.
Lemma lxor_join a x b y k : 0 <= k -> 0 <= x < 2 ^ k -> 0 <= y < 2 ^ k ->
  Z.lxor (Z.shiftl a k + x) (Z.shiftl b k + y) = Z.shiftl (Z.lxor a b) k + Z.lxor x y.
Proof.
  intros Hk Hx Hy. rewrite !join_lxor; try lia; [|now apply lxor_small]. rewrite Z.shiftl_lxor.
  rewrite !Z.lxor_assoc. f_equal. rewrite <- !Z.lxor_assoc. f_equal. apply Z.lxor_comm.
Qed.

(** ** checksum *)
Definition nib (n : nibbles) : Prop := 0 <= na n < 16 /\ 0 <= nb n < 16 /\ 0 <= nc n < 16 /\ 0 <= nd n < 16.
Definition range (n : nat) : list Z := map Z.of_nat (seq 0 n).
Lemma range_in n x : 0 <= x < Z.of_nat n -> In x (range n).
Proof. intros H. unfold range. apply in_map_iff. exists (Z.to_nat x). split; [lia|]. apply in_seq. lia. Qed.
Lemma sweep_step :
  forallb (fun a => forallb (fun b => forallb (fun c => forallb (fun d =>
    let s := checksum_step (mkN a b c d) 0 in
    (checksum_value s =? crc_rounds 8 (checksum_value (mkN a b c d))) &&
    ((0 <=? na s) && (na s <? 16) && (0 <=? nb s) && (nb s <? 16) && (0 <=? nc s) && (nc s <? 16) && (0 <=? nd s) && (nd s <? 16)))
    (range 16)) (range 16)) (range 16)) (range 16) = true.
Proof. vm_compute. reflexivity. Qed.
Lemma step0 a b c d : nib (mkN a b c d) ->
  checksum_value (checksum_step (mkN a b c d) 0) = crc_rounds 8 (checksum_value (mkN a b c d)) /\ nib (checksum_step (mkN a b c d) 0).
Proof.
  intros (Ha & Hb & Hc & Hd). cbn in Ha, Hb, Hc, Hd. pose proof sweep_step as H.
  rewrite forallb_forall in H. specialize (H a (range_in 16 a Ha)).
  rewrite forallb_forall in H. specialize (H b (range_in 16 b Hb)).
  rewrite forallb_forall in H. specialize (H c (range_in 16 c Hc)).
  rewrite forallb_forall in H. specialize (H d (range_in 16 d Hd)). cbv zeta in H.
  set (s := checksum_step (mkN a b c d) 0) in *. apply andb_true_iff in H. destruct H as [H1 H2]. apply Z.eqb_eq in H1. split; [exact H1|].
  rewrite !andb_true_iff in H2. unfold nib. rewrite !Z.leb_le, !Z.ltb_lt in H2. tauto.
Qed.
Lemma byte_hi byte : 0 <= byte < 256 -> Z.shiftr (Z.land byte 0xF0) 4 = byte / 16 /\ Z.land byte 0x0F = byte mod 16.
Proof.
  intros H. split.
  - rewrite Z.shiftr_land. change (Z.shiftr 0xF0 4) with (Z.ones 4). rewrite Z.land_ones by lia. rewrite Z.shiftr_div_pow2 by lia.
    change (2 ^ 4) with 16. apply Z.mod_small. split; [apply Z.div_pos; lia|apply Z.div_lt_upper_bound; lia].
  - change 0x0F with (Z.ones 4). now rewrite Z.land_ones by lia.
Qed.
Lemma step_byte n byte : nib n -> 0 <= byte < 256 ->
  checksum_value (checksum_step n byte) = crc_rounds 8 (Z.lxor (checksum_value n) (256 * byte)) /\ nib (checksum_step n byte).
Proof.
  intros Hn Hb. destruct n as [a b c d]. destruct (byte_hi byte Hb) as [E1 E2].
  set (h := byte / 16) in *. set (l := byte mod 16) in *.
  assert (0 <= h < 16) as Hh by (unfold h; split; [apply Z.div_pos; lia|apply Z.div_lt_upper_bound; lia]).
  assert (0 <= l < 16) as Hl by (unfold l; apply Z.mod_pos_bound; lia).
  assert (byte = 16 * h + l) as Eb by (unfold h, l; apply Z.div_mod; lia).
  assert (checksum_step (mkN a b c d) byte = checksum_step (mkN (Z.lxor a h) (Z.lxor b l) c d) 0) as ->.
  { unfold checksum_step. cbn [na nb nc nd]. rewrite E1, E2. cbn [Z.land Z.shiftr Z.shiftl]. rewrite !Z.lxor_0_r. reflexivity. }
  destruct Hn as (Ha & Hbb & Hc & Hd). cbn in Ha, Hbb, Hc, Hd.
  assert (nib (mkN (Z.lxor a h) (Z.lxor b l) c d)) as Hn.
  { split; [|split; [|split]]; cbn; try assumption; apply (lxor_small _ _ 4); lia. }
  destruct (step0 _ _ _ _ Hn) as [H1 H2]. split; [|exact H2]. rewrite H1. f_equal. unfold checksum_value. cbn [na nb nc nd].
  symmetry.
  replace (Z.shiftl a 12 + Z.shiftl b 8 + Z.shiftl c 4 + d) with (Z.shiftl (Z.shiftl a 4 + b) 8 + (Z.shiftl c 4 + d))
    by (rewrite !Z.shiftl_mul_pow2 by lia; lia).
  replace (256 * byte) with (Z.shiftl (Z.shiftl h 4 + l) 8 + 0) by (rewrite !Z.shiftl_mul_pow2 by lia; lia).
  rewrite lxor_join; [|lia|rewrite Z.shiftl_mul_pow2; lia|lia]. rewrite lxor_join by lia. rewrite Z.lxor_0_r.
  rewrite !Z.shiftl_mul_pow2 by lia. lia.
Qed.
Lemma rounds_S k s : crc_rounds (S k) s = crc_rounds k (crc_rounds 1 s). Proof. reflexivity. Qed.
Lemma rounds_0 s : crc_rounds 0 s = s. Proof. reflexivity. Qed.
Lemma rounds_1 s : crc_rounds 1 s = if 32768 <=? s then Z.lxor ((2 * s) mod 65536) 0x1021 else 2 * s. Proof. reflexivity. Qed.
Lemma rounds_add i : forall j s, crc_rounds (i + j) s = crc_rounds j (crc_rounds i s).
Proof. induction i as [|i IH]; intros j s; [reflexivity|]. cbn [Nat.add]. rewrite rounds_S, (rounds_S i). apply IH. Qed.
Local Opaque crc_rounds.
(* the kernel must not unfold the symbolic rounds: folds are handled through lemmas about an arbitrary step *)
Lemma fold_cons {A B} (F : A -> B -> A) b l s : fold_left F (b :: l) s = fold_left F l (F s b). Proof. reflexivity. Qed.
Lemma fold_sim {N S} (v : N -> S) (step : N -> Z -> N) (F : S -> Z -> S) (P : N -> Prop) (Q : Z -> Prop) :
  (forall n b, P n -> Q b -> v (step n b) = F (v n) b /\ P (step n b)) ->
  forall l n, P n -> Forall Q l -> v (fold_left step l n) = fold_left F l (v n) /\ P (fold_left step l n).
Proof.
  intros H. induction l as [|b l IH]; intros n Hn HB; [now split|]. inversion_clear HB as [|? ? Hb Hl].
  destruct (H n b Hn Hb) as [E N']. cbn [fold_left]. destruct (IH _ N' Hl) as [E2 N2]. split; [|exact N2]. now rewrite E2, E.
Qed.
Definition crc_step (s b : Z) : Z := crc_rounds 8 (Z.lxor s (256 * b)).
Lemma fold_bytes l n : nib n -> bytes l -> checksum_value (fold_left checksum_step l n) = fold_left crc_step l (checksum_value n).
Proof.
  intros Hn HB. refine (proj1 (fold_sim checksum_value checksum_step crc_step nib (fun b => 0 <= b < 256) _ l n Hn HB)). exact step_byte.
Qed.
Lemma crc_low_byte : forallb (fun b => crc_rounds 8 b =? 256 * b) (range 256) = true.
Proof. vm_compute. reflexivity. Qed.
Lemma rounds_low b : 0 <= b < 256 -> crc_rounds 8 b = 256 * b.
Proof. intros H. pose proof crc_low_byte as S. rewrite forallb_forall in S. now apply Z.eqb_eq, S, range_in. Qed.
Lemma checksum_crc x y l : bytes (x :: y :: l) -> checksum_calc (x :: y :: l) = Ok (crc16 l).
Proof.
  intros HB. inversion HB as [|? ? Hx HB']; subst. inversion HB' as [|? ? Hy HL]; subst. unfold checksum_calc. f_equal.
  destruct (byte_hi x Hx) as [E1 E2], (byte_hi y Hy) as [E3 E4]. rewrite E1, E2, E3, E4. set (n := mkN _ _ _ _).
  assert (nib n) as Hn.
  { unfold n, nib. cbn. assert (0 <= x / 16 < 16) by (split; [apply Z.div_pos; lia|apply Z.div_lt_upper_bound; lia]).
    assert (0 <= y / 16 < 16) by (split; [apply Z.div_pos; lia|apply Z.div_lt_upper_bound; lia]).
    assert (0 <= x mod 16 < 16) by (apply Z.mod_pos_bound; lia). assert (0 <= y mod 16 < 16) by (apply Z.mod_pos_bound; lia). tauto. }
  rewrite (fold_bytes (x :: y :: l) n Hn HB). rewrite !fold_cons. change (crc16 l) with (fold_left crc_step l 0).
  enough (crc_step (crc_step (checksum_value n) x) y = 0) as -> by reflexivity. unfold crc_step.
  assert (checksum_value n = Z.shiftl x 8 + y) as ->.
  { unfold checksum_value, n. cbn [na nb nc nd]. rewrite !Z.shiftl_mul_pow2 by lia. pose proof (Z.div_mod x 16). pose proof (Z.div_mod y 16). lia. }
  replace (256 * x) with (Z.shiftl x 8 + 0) by (rewrite Z.shiftl_mul_pow2; lia). rewrite lxor_join by lia. rewrite Z.lxor_nilpotent, Z.lxor_0_r.
  change (Z.shiftl 0 8 + y) with y. rewrite (rounds_low y Hy). rewrite Z.lxor_nilpotent. vm_compute. reflexivity.
Qed.

(** ** error detection *)
Lemma sweep_inv : forallb (fun h => forallb (fun l => let s := 256 * h + l in let t := crc_rounds 1 s in
    (0 <=? t) && (t <? 65536) && ((if Z.odd t then Z.lxor t 0x1021 / 2 + 32768 else t / 2) =? s)) (range 256)) (range 256) = true.
Proof. vm_compute. reflexivity. Qed.
Lemma round_facts s : 0 <= s < 65536 ->
  0 <= crc_rounds 1 s < 65536 /\ (if Z.odd (crc_rounds 1 s) then Z.lxor (crc_rounds 1 s) 0x1021 / 2 + 32768 else crc_rounds 1 s / 2) = s.
Proof.
  intros H. assert (0 <= s / 256 < 256) as Hh by (split; [apply Z.div_pos; lia|apply Z.div_lt_upper_bound; lia]).
  assert (0 <= s mod 256 < 256) as Hl by (apply Z.mod_pos_bound; lia).
  pose proof sweep_inv as S. rewrite forallb_forall in S. specialize (S _ (range_in 256 _ Hh)).
  rewrite forallb_forall in S. specialize (S _ (range_in 256 _ Hl)). cbv zeta in S. rewrite <- (Z.div_mod s 256) in S by lia.
  rewrite !andb_true_iff, Z.leb_le, Z.ltb_lt, Z.eqb_eq in S. tauto.
Qed.
Lemma rounds_range k : forall s, 0 <= s < 65536 -> 0 <= crc_rounds k s < 65536.
Proof. induction k as [|k IH]; intros s H; [now rewrite rounds_0|]. rewrite rounds_S. apply IH. now apply round_facts. Qed.
Lemma rounds_inj k : forall s t, 0 <= s < 65536 -> 0 <= t < 65536 -> crc_rounds k s = crc_rounds k t -> s = t.
Proof.
  induction k as [|k IH]; intros s t Hs Ht E; [now rewrite !rounds_0 in E|]. rewrite (rounds_S k s), (rounds_S k t) in E. apply IH in E; try now apply round_facts.
  destruct (round_facts s Hs) as [_ Es], (round_facts t Ht) as [_ Et]. rewrite E in Es. congruence.
Qed.
Lemma crc_step_range s b : 0 <= s < 65536 -> 0 <= b < 256 -> 0 <= crc_step s b < 65536.
Proof. intros. apply rounds_range. apply (lxor_small _ _ 16); lia. Qed.
Lemma crc_step_inj s t b : 0 <= s < 65536 -> 0 <= t < 65536 -> 0 <= b < 256 -> crc_step s b = crc_step t b -> s = t.
Proof.
  intros Hs Ht Hb E. unfold crc_step in E.
  assert (forall x, 0 <= x < 65536 -> 0 <= Z.lxor x (256 * b) < 65536) as HX by (intros; apply (lxor_small _ _ 16); lia).
  apply rounds_inj in E; auto.
  apply (f_equal (fun x => Z.lxor x (256 * b))) in E. now rewrite !Z.lxor_assoc, Z.lxor_nilpotent, !Z.lxor_0_r in E.
Qed.
Lemma fold_range (F : Z -> Z -> Z) : (forall s b, 0 <= s < 65536 -> 0 <= b < 256 -> 0 <= F s b < 65536) ->
  forall l s, 0 <= s < 65536 -> bytes l -> 0 <= fold_left F l s < 65536.
Proof. intros H. induction l as [|b l IH]; intros s Hs HB; [exact Hs|]. inversion_clear HB as [|? ? Hb Hl]. cbn [fold_left]. auto. Qed.
Lemma fold_inj (F : Z -> Z -> Z) : (forall s b, 0 <= s < 65536 -> 0 <= b < 256 -> 0 <= F s b < 65536) ->
  (forall s t b, 0 <= s < 65536 -> 0 <= t < 65536 -> 0 <= b < 256 -> F s b = F t b -> s = t) ->
  forall l s t, bytes l -> 0 <= s < 65536 -> 0 <= t < 65536 -> fold_left F l s = fold_left F l t -> s = t.
Proof.
  intros HR HI. induction l as [|b l IH]; intros s t HB Hs Ht E; [exact E|]. inversion_clear HB as [|? ? Hb Hl]. cbn [fold_left] in E.
  apply IH in E; auto. eapply HI; eauto.
Qed.
Lemma round_xor s : 0 <= s < 65536 -> crc_rounds 1 s = Z.lxor (Z.land (2 * s) (Z.ones 16)) (if Z.testbit s 15 then 0x1021 else 0).
Proof.
  intros H. rewrite rounds_1. rewrite Z.land_ones by lia. change (2 ^ 16) with 65536. rewrite Z.testbit_odd, Z.shiftr_div_pow2 by lia. change (2 ^ 15) with 32768.
  destruct (Z.leb_spec 32768 s).
  - replace (s / 32768) with 1 by (apply Z.div_unique with (s - 32768); lia). reflexivity.
  - replace (s / 32768) with 0 by (symmetry; apply Z.div_small; lia). change (Z.odd 0) with false. cbv iota. rewrite Z.lxor_0_r. symmetry. apply Z.mod_small. lia.
Qed.
Lemma round_linear s t : 0 <= s < 65536 -> 0 <= t < 65536 -> crc_rounds 1 (Z.lxor s t) = Z.lxor (crc_rounds 1 s) (crc_rounds 1 t).
Proof.
  intros Hs Ht. assert (0 <= Z.lxor s t < 65536) as Hx by (apply (lxor_small _ _ 16); lia). rewrite !round_xor by assumption.
  rewrite Z.lxor_spec. replace (2 * Z.lxor s t) with (Z.lxor (2 * s) (2 * t)).
  2: { replace (2 * s) with (Z.shiftl s 1) by (rewrite Z.shiftl_mul_pow2; lia). replace (2 * t) with (Z.shiftl t 1) by (rewrite Z.shiftl_mul_pow2; lia).
       rewrite <- Z.shiftl_lxor. rewrite Z.shiftl_mul_pow2; lia. }
  assert (forall a b m, Z.land (Z.lxor a b) m = Z.lxor (Z.land a m) (Z.land b m)) as HL.
  { intros a b m. apply Z.bits_inj'. intros i Hi. rewrite !Z.land_spec, !Z.lxor_spec, !Z.land_spec. destruct (Z.testbit a i), (Z.testbit b i), (Z.testbit m i); reflexivity. }
  rewrite HL. set (x := Z.land (2 * s) _). set (y := Z.land (2 * t) _).
  destruct (Z.testbit s 15), (Z.testbit t 15); cbn [xorb]; rewrite ?Z.lxor_0_r.
  - rewrite <- (Z.lxor_assoc (Z.lxor x 4129)), (Z.lxor_assoc x 4129 y), (Z.lxor_comm 4129 y), <- (Z.lxor_assoc x y), Z.lxor_assoc, Z.lxor_nilpotent. now rewrite Z.lxor_0_r.
  - now rewrite !Z.lxor_assoc, (Z.lxor_comm 4129 y).
  - now rewrite Z.lxor_assoc.
  - reflexivity.
Qed.
Lemma rounds_linear k : forall s t, 0 <= s < 65536 -> 0 <= t < 65536 -> crc_rounds k (Z.lxor s t) = Z.lxor (crc_rounds k s) (crc_rounds k t).
Proof.
  induction k as [|k IH]; intros s t Hs Ht; [now rewrite !rounds_0|]. rewrite (rounds_S k s), (rounds_S k t), (rounds_S k), round_linear by assumption. apply IH; now apply round_facts.
Qed.
Lemma two_bytes s b c : 0 <= s < 65536 -> 0 <= b < 256 -> 0 <= c < 256 ->
  crc_rounds 8 (Z.lxor (crc_rounds 8 (Z.lxor s (256 * b))) (256 * c)) = crc_rounds 16 (Z.lxor s (256 * b + c)).
Proof.
  intros Hs Hb Hc. rewrite <- (rounds_low c Hc).
  assert (0 <= Z.lxor s (256 * b) < 65536) as H1 by (apply (lxor_small _ _ 16); lia).
  rewrite <- rounds_linear by lia. change 16%nat with (8 + 8)%nat. rewrite rounds_add.
  do 2 f_equal. rewrite Z.lxor_assoc. f_equal.
  replace (256 * b) with (Z.shiftl b 8) by (rewrite Z.shiftl_mul_pow2; lia). symmetry. apply join_lxor; lia.
Qed.
Lemma burst_detected pre post b c b' c' : bytes pre -> bytes post -> 0 <= b < 256 -> 0 <= c < 256 -> 0 <= b' < 256 -> 0 <= c' < 256 ->
  crc16 (pre ++ b :: c :: post) = crc16 (pre ++ b' :: c' :: post) -> b = b' /\ c = c'.
Proof.
  intros Hpre Hpost Hb Hc Hb' Hc' E. change crc16 with (fun l => fold_left crc_step l 0) in E. cbv beta in E. rewrite !fold_left_app, !fold_cons in E.
  set (s := fold_left _ pre 0) in E. assert (0 <= s < 65536) as Hs by (apply (fold_range crc_step crc_step_range); [lia|exact Hpre]).
  apply (fold_inj crc_step crc_step_range crc_step_inj) in E; auto using crc_step_range.
  unfold crc_step in E. rewrite !two_bytes in E by assumption.
  assert (forall x y, 0 <= x < 256 -> 0 <= y < 256 -> 0 <= Z.lxor s (256 * x + y) < 65536) as HX by (intros; apply (lxor_small _ _ 16); lia).
  apply rounds_inj in E; auto.
  apply (f_equal (Z.lxor s)) in E. rewrite <- !Z.lxor_assoc, Z.lxor_nilpotent, !Z.lxor_0_l in E. lia.
Qed.
Lemma single_detected pre post b b' : bytes pre -> bytes post -> 0 <= b < 256 -> 0 <= b' < 256 ->
  crc16 (pre ++ b :: post) = crc16 (pre ++ b' :: post) -> b = b'.
Proof.
  intros Hpre Hpost Hb Hb' E. change crc16 with (fun l => fold_left crc_step l 0) in E. cbv beta in E. rewrite !fold_left_app, !fold_cons in E.
  set (s := fold_left _ pre 0) in E. assert (0 <= s < 65536) as Hs by (apply (fold_range crc_step crc_step_range); [lia|exact Hpre]).
  apply (fold_inj crc_step crc_step_range crc_step_inj) in E; auto using crc_step_range. unfold crc_step in E.
  assert (forall x, 0 <= x < 256 -> 0 <= Z.lxor s (256 * x) < 65536) as HX by (intros; apply (lxor_small _ _ 16); lia).
  apply rounds_inj in E; auto.
  apply (f_equal (Z.lxor s)) in E. rewrite <- !Z.lxor_assoc, Z.lxor_nilpotent, !Z.lxor_0_l in E. lia.
Qed.

(** ** dates *)
Lemma field_bits x k w : 0 <= k -> 0 <= w -> Z.shiftr (Z.land x (Z.shiftl (Z.ones w) k)) k = (x / 2 ^ k) mod 2 ^ w.
Proof.
  intros Hk Hw. rewrite Z.shiftr_land, Z.shiftr_shiftl_l by lia. rewrite Z.sub_diag, Z.shiftl_0_r, Z.land_ones by lia.
  now rewrite Z.shiftr_div_pow2 by lia.
Qed.
Lemma convert_fields w : 0 <= w < 2 ^ 32 ->
  let y := w / 2 ^ 25 + 1980 in let mo := (w / 2 ^ 21) mod 16 in let d := (w / 2 ^ 16) mod 32 in
  let h := (w / 2 ^ 11) mod 32 in let mi := (w / 2 ^ 5) mod 64 in let s := 2 * (w mod 32) in
  convert_date w = (if valid_date (mkDate y mo d) && valid_time (mkTime h mi s) then Ok (mkDate y mo d, mkTime h mi s) else Err ValueError) /\
  dos_pack y mo d h mi s = w /\ y < 2108.
Proof.
  intros Hw y mo d h mi s. unfold convert_date.
  change 0xfe000000 with (Z.shiftl (Z.ones 7) 25). change 0x1e00000 with (Z.shiftl (Z.ones 4) 21). change 0x1f0000 with (Z.shiftl (Z.ones 5) 16).
  change 0xf800 with (Z.shiftl (Z.ones 5) 11). change 0x7e0 with (Z.shiftl (Z.ones 6) 5). change 0x1f with (Z.ones 5).
  rewrite !field_bits by lia. rewrite Z.land_ones by lia. rewrite Z.shiftl_mul_pow2 by lia.
  replace ((w / 2 ^ 25) mod 2 ^ 7) with (w / 2 ^ 25) by (symmetry; apply Z.mod_small; split; [apply Z.div_pos; lia|apply Z.div_lt_upper_bound; lia]).
  replace (w mod 2 ^ 5 * 2 ^ 1) with s by (unfold s; change (2 ^ 5) with 32; change (2 ^ 1) with 2; apply Z.mul_comm).
  split; [unfold y, mo, d, h, mi; change (2 ^ 4) with 16; change (2 ^ 5) with 32; change (2 ^ 6) with 64; reflexivity|].
  split.
  - unfold dos_pack, y, s, mi, h, d, mo. replace (2 * (w mod 32) / 2) with (w mod 32) by (rewrite Z.mul_comm, Z.div_mul; lia).
    assert (forall a b, 0 < b -> a = b * (a / b) + a mod b) as DM by (intros; apply Z.div_mod; lia).
    pose proof (DM w 32 ltac:(lia)) as E1. pose proof (DM (w / 2 ^ 5) 64 ltac:(lia)) as E2. pose proof (DM (w / 2 ^ 11) 32 ltac:(lia)) as E3.
    pose proof (DM (w / 2 ^ 16) 32 ltac:(lia)) as E4. pose proof (DM (w / 2 ^ 21) 16 ltac:(lia)) as E5.
    rewrite !Z.div_div in * by lia. change (2 ^ 5) with 32 in *. change (2 ^ 5 * 64) with (2 ^ 11) in *. change (32 * 64) with (2 ^ 11) in *.
    change (2 ^ 11 * 32) with (2 ^ 16) in *. change (2 ^ 16 * 32) with (2 ^ 21) in *. change (2 ^ 21 * 16) with (2 ^ 25) in *. lia.
  - assert (w / 2 ^ 25 < 128) by (apply Z.div_lt_upper_bound; lia). unfold y. lia.
Qed.
Lemma pack_inj y mo d h mi s : 1980 <= y < 2108 -> 0 <= mo < 16 -> 0 <= d < 32 -> 0 <= h < 32 -> 0 <= mi < 64 -> 0 <= s < 64 -> s mod 2 = 0 ->
  let w := dos_pack y mo d h mi s in
  0 <= w < 2 ^ 32 /\ y = w / 2 ^ 25 + 1980 /\ mo = (w / 2 ^ 21) mod 16 /\ d = (w / 2 ^ 16) mod 32 /\
  h = (w / 2 ^ 11) mod 32 /\ mi = (w / 2 ^ 5) mod 64 /\ s = 2 * (w mod 32).
Proof.
  intros Hy Hmo Hd Hh Hmi Hs He w. assert (s = 2 * (s / 2)) as Es by (pose proof (Z.div_mod s 2); lia).
  set (t := s / 2) in *. assert (0 <= t < 32) as Ht by (unfold t; split; [apply Z.div_pos; lia|apply Z.div_lt_upper_bound; lia]).
  assert (w = ((((((y - 1980) * 16 + mo) * 32 + d) * 32 + h) * 64 + mi) * 32 + t)) as Ew by reflexivity.
  assert (w mod 32 = t) as M0 by (rewrite Ew, Z.add_comm, Z.mod_add by lia; apply Z.mod_small; lia).
  assert (w / 2 ^ 5 = (((((y - 1980) * 16 + mo) * 32 + d) * 32 + h) * 64 + mi)) as D1
    by (rewrite Ew; symmetry; apply Z.div_unique with t; lia).
  assert (w / 2 ^ 11 = ((((y - 1980) * 16 + mo) * 32 + d) * 32 + h)) as D2
    by (change (2 ^ 11) with (2 ^ 5 * 64); rewrite <- Z.div_div by lia; rewrite D1; symmetry; apply Z.div_unique with mi; lia).
  assert (w / 2 ^ 16 = (((y - 1980) * 16 + mo) * 32 + d)) as D3
    by (change (2 ^ 16) with (2 ^ 11 * 32); rewrite <- Z.div_div by lia; rewrite D2; symmetry; apply Z.div_unique with h; lia).
  assert (w / 2 ^ 21 = ((y - 1980) * 16 + mo)) as D4
    by (change (2 ^ 21) with (2 ^ 16 * 32); rewrite <- Z.div_div by lia; rewrite D3; symmetry; apply Z.div_unique with d; lia).
  assert (w / 2 ^ 25 = (y - 1980)) as D5
    by (change (2 ^ 25) with (2 ^ 21 * 16); rewrite <- Z.div_div by lia; rewrite D4; symmetry; apply Z.div_unique with mo; lia).
  split; [lia|]. rewrite D5, D4, D3, D2, D1, M0.
  split; [lia|]. split; [rewrite Z.add_comm, Z.mod_add by lia; symmetry; apply Z.mod_small; lia|].
  split; [rewrite Z.add_comm, Z.mod_add by lia; symmetry; apply Z.mod_small; lia|].
  split; [rewrite Z.add_comm, Z.mod_add by lia; symmetry; apply Z.mod_small; lia|].
  split; [rewrite Z.add_comm, Z.mod_add by lia; symmetry; apply Z.mod_small; lia|exact Es].
Qed.
