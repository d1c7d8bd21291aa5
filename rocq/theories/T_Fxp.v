(** Properties C29-C31, C33, C34, C65, C66: FXP files. *)
From Verif Require Import PyBase PyStr M_Dates P_Dates M_Fxp S_Fxp P_Fxp P_FxpBin.
Open Scope Z_scope.

(** C29: the checksum is CRC-16/XMODEM of the bytes from the third on, and fits in 16 bits. *)
Theorem C29_crc : forall x y l, bytes (x :: y :: l) -> checksum_calc (x :: y :: l) = Ok (crc16 l) /\ 0 <= crc16 l < 65536.
Proof.
  intros x y l H. split; [now apply checksum_crc|]. change (crc16 l) with (fold_left crc_step l 0).
  apply (fold_range crc_step crc_step_range); [lia|]. inversion_clear H as [|? ? _ H']. now inversion H'.
Qed.
Print Assumptions C29_crc.
(** and less than two bytes have none *)
Theorem C29_short l : (exists c, checksum_calc l = Ok c) \/ ((length l < 2)%nat /\ checksum_calc l = Err IndexError).
Proof. destruct l as [|x [|y l]]; [right; split; [cbn; lia|reflexivity]|right; split; [cbn; lia|reflexivity]|left; eexists; reflexivity]. Qed.
Print Assumptions C29_short.
(** Changing one byte or two neighbouring bytes after the first two changes the checksum. *)
Theorem C29_detects_bursts : forall x y x' y' pre b c b' c' post,
  bytes (x :: y :: pre ++ b :: c :: post) -> bytes (x' :: y' :: pre ++ b' :: c' :: post) ->
  checksum_calc (x :: y :: pre ++ b :: c :: post) = checksum_calc (x' :: y' :: pre ++ b' :: c' :: post) -> b = b' /\ c = c'.
Proof.
  intros x y x' y' pre b c b' c' post H H' E. rewrite !checksum_crc in E by assumption. injection E as E.
  inversion_clear H as [|? ? _ H1]. inversion_clear H1 as [|? ? _ H2]. inversion_clear H' as [|? ? _ H1']. inversion_clear H1' as [|? ? _ H2'].
  apply bytes_app in H2 as [Hp H2], H2' as [_ H2']. inversion_clear H2 as [|? ? Hb H3]. inversion_clear H3 as [|? ? Hc Hpost].
  inversion_clear H2' as [|? ? Hb' H3']. inversion_clear H3' as [|? ? Hc' _]. now apply (burst_detected pre post).
Qed.
Print Assumptions C29_detects_bursts.
Theorem C29_detects_one_byte : forall x y x' y' pre b b' post,
  bytes (x :: y :: pre ++ b :: post) -> bytes (x' :: y' :: pre ++ b' :: post) ->
  checksum_calc (x :: y :: pre ++ b :: post) = checksum_calc (x' :: y' :: pre ++ b' :: post) -> b = b'.
Proof.
  intros x y x' y' pre b b' post H H' E. rewrite !checksum_crc in E by assumption. injection E as E.
  inversion_clear H as [|? ? _ H1]. inversion_clear H1 as [|? ? _ H2]. inversion_clear H' as [|? ? _ H1']. inversion_clear H1' as [|? ? _ H2'].
  apply bytes_app in H2 as [Hp H2], H2' as [_ H2']. inversion_clear H2 as [|? ? Hb Hpost].
  inversion_clear H2' as [|? ? Hb' _]. now apply (single_detected pre post).
Qed.
Print Assumptions C29_detects_one_byte.
(** So no file is accepted after one byte of its header was changed, except in the two bytes before the checksum. *)
Theorem C29_damaged_header_refused : forall pre b b' post h,
  bytes (pre ++ b :: post) -> 0 <= b' < 256 -> b <> b' -> zlen pre < 37 \/ 39 <= zlen pre < 41 ->
  read_header (pre ++ b :: post) = Ok h -> exists e, read_header (pre ++ b' :: post) = Err e.
Proof.
  intros pre b b' post h HB Hb' Hne HI R. destruct (read_header (pre ++ b' :: post)) as [h'|e] eqn:E; [|eauto]. exfalso.
  refine (header_damage pre b b' post h HB Hb' Hne _ R h' E). unfold zlen in HI. lia.
Qed.
Print Assumptions C29_damaged_header_refused.
Example C29_example :
  checksum_calc ([0; 0] ++ u "123456789") = Ok 0x31C3 /\ crc16 (u "123456789") = 0x31C3 /\
  checksum_calc ([7; 9] ++ u "123456789") = Ok 0x31C3 /\ checksum_calc ([0; 0] ++ u "123456788") = Ok 8674.
Proof. vm_compute. auto. Qed.

(** An archive with one member: DIR\ A.FXP, whose block starts with the 37 bytes of a program header (date 2020-02-29 23:59:58, name
    at offset 13 of the name table), followed by two bytes.  The name table goes on with the name of the source. *)
Definition prog_block : list Z :=
  zeros 28 ++ le_bytes 4 (dos_pack 2020 2 29 23 59 58) ++ le_bytes 4 13 ++ [252] ++ [7; 8].
Definition arc (stop : Z) : list Z :=
  let names := [0] ++ u "DIR\" ++ [0] ++ u "A.FXP" ++ [0; 0] ++ u "a.prg" ++ [0] in
  let body := identifier ++ [1; 2] ++ le_bytes 2 1 ++ le_bytes 2 0 ++ le_bytes 4 (41 + zlen prog_block + zlen names) ++ le_bytes 4 (41 + zlen prog_block)
    ++ le_bytes 4 (zlen names) ++ zeros 16 in
  body ++ zeros 2 ++ le_bytes 2 (crc16 (skipn 2 body)) ++ prog_block ++ names ++ [0] ++ le_bytes 4 41 ++ le_bytes 4 stop ++ le_bytes 4 1 ++ le_bytes 4 6 ++ zeros 8.

(** C30: the file written for a program contains the member's bytes, and reading it again gives the same member: the same type,
    directory, name and the same file again. *)
Theorem C30_reread : forall fuel f h es ms k e m,
  bytes f -> fxp_read fuel f = Some (Ok ms) -> read_header f = Ok h ->
  read_entries (Z.to_nat (h_files h)) f (h_footer h) = Ok es -> nth_error es k = Some e -> nth_error ms k = Some m ->
  e_type e = 0 -> e_start e <= e_stop e <= zlen f ->
  (exists pre block post hd tail, f = pre ++ block ++ post /\ zlen pre = e_start e /\ zlen block = e_stop e - e_start e /\
     zlen hd = 41 /\ m_out m = hd ++ block ++ tail) /\
  fxp_read fuel (m_out m) = Some (Ok [m]).
Proof.
  intros fuel f h es ms k e m HB HR HH HE Ne Nm HT HS. destruct (header_nonneg f h HB HH) as [H1 H2].
  exact (reread fuel f h es ms k e m HB HR HH HE Ne Nm HT HS H1 H2).
Qed.
Print Assumptions C30_reread.
Example C30_example : exists m,
  fxp_read 10 (arc (41 + zlen prog_block)) = Some (Ok [m]) /\ m_type m = 0 /\ m_dir m = u "DIR\" /\ m_file m = u "A.FXP" /\
  firstn (length prog_block) (skipn 41 (m_out m)) = prog_block /\ zlen (m_out m) < zlen (arc (41 + zlen prog_block)).
Proof. eexists. split; [vm_compute; reflexivity|]. vm_compute. auto 10. Qed.
(** A member that claims more bytes than the file has is extracted into a file that cannot be read. *)
Theorem C30_truncated_refuted : exists m,
  fxp_read 10 (arc 1000) = Some (Ok [m]) /\ m_type m = 0 /\ fxp_read 10 (m_out m) = Some (Err StructError).
Proof. eexists. split; [vm_compute; reflexivity|]. vm_compute. auto. Qed.
Print Assumptions C30_truncated_refuted.
(** The name of the source file is not carried over: the block still refers to the name table of the archive, so in the extracted
    file the name is taken from other bytes. *)
Theorem C30_source_name_refuted :
  original_name 10 (arc (41 + zlen prog_block)) 41 (41 + zlen prog_block) = Some (Ok (u "a.prg")) /\
  forall m, fxp_read 10 (arc (41 + zlen prog_block)) = Some (Ok [m]) -> original_name 10 (m_out m) 41 (41 + zlen prog_block) = Some (Ok (u ")")).
Proof.
  split; [vm_compute; reflexivity|]. intros m E. vm_compute in E. injection E as <-. vm_compute. reflexivity.
Qed.
Print Assumptions C30_source_name_refuted.

(** C31: every date from 1980 to 2107 with an even number of seconds is decoded from its packed form. *)
Theorem C31_inverts_packing : forall y mo d h mi s, 1980 <= y <= 2107 -> 1 <= mo <= 12 -> 1 <= d <= month_length y mo ->
  0 <= h <= 23 -> 0 <= mi <= 59 -> 0 <= s <= 59 -> s mod 2 = 0 ->
  convert_date (dos_pack y mo d h mi s) = Ok (mkDate y mo d, mkTime h mi s).
Proof.
  intros y mo d h mi s Hy Hmo Hd Hh Hmi Hs He. rewrite <- days_in_month_spec in Hd by lia.
  assert (days_in_month y mo <= 31) as HD by (unfold days_in_month; destruct (mo =? 2), (is_leap y); try lia; destruct (_ || _); lia).
  destruct (pack_inj y mo d h mi s) as (Hw & E1 & E2 & E3 & E4 & E5 & E6); try lia.
  destruct (convert_fields _ Hw) as (E & _ & _). rewrite E. rewrite <- E1, <- E2, <- E3, <- E4, <- E5, <- E6.
  replace (valid_date (mkDate y mo d) && valid_time (mkTime h mi s)) with true; [reflexivity|].
  symmetry. unfold valid_date, valid_time. cbn [year month day hour minute second]. rewrite !andb_true_iff, !Z.leb_le. lia.
Qed.
Print Assumptions C31_inverts_packing.
(** Every packed value is either decoded to the date it packs, or refused because it packs no date. *)
Theorem C31_decodes_or_refuses : forall w, 0 <= w < 2 ^ 32 ->
  (exists y mo d h mi s, convert_date w = Ok (mkDate y mo d, mkTime h mi s) /\ dos_pack y mo d h mi s = w /\
     1980 <= y <= 2107 /\ 1 <= mo <= 12 /\ 1 <= d <= month_length y mo /\ 0 <= h <= 23 /\ 0 <= mi <= 59 /\ 0 <= s <= 59 /\ s mod 2 = 0) \/
  (convert_date w = Err ValueError /\
   forall y mo d h mi s, 1980 <= y <= 2107 -> 1 <= mo <= 12 -> 1 <= d <= month_length y mo ->
     0 <= h <= 23 -> 0 <= mi <= 59 -> 0 <= s <= 59 -> s mod 2 = 0 -> dos_pack y mo d h mi s <> w).
Proof.
  intros w Hw. destruct (convert_fields w Hw) as (E & P & HY). cbv zeta in *.
  set (y := w / 2 ^ 25 + 1980) in *. set (mo := (w / 2 ^ 21) mod 16) in *. set (d := (w / 2 ^ 16) mod 32) in *.
  set (h := (w / 2 ^ 11) mod 32) in *. set (mi := (w / 2 ^ 5) mod 64) in *. set (s := 2 * (w mod 32)) in *.
  destruct (valid_date (mkDate y mo d) && valid_time (mkTime h mi s)) eqn:EV.
  - left. exists y, mo, d, h, mi, s. split; [exact E|]. split; [exact P|].
    unfold valid_date, valid_time in EV. cbn [year month day hour minute second] in EV. rewrite !andb_true_iff, !Z.leb_le in EV.
    rewrite <- days_in_month_spec by lia. assert (0 <= w / 2 ^ 25) by (apply Z.div_pos; lia).
    assert (s mod 2 = 0) by (unfold s; rewrite Z.mul_comm; apply Z.mod_mul; lia). lia.
  - right. split; [exact E|]. intros y' mo' d' h' mi' s' H1 H2 H3 H4 H5 H6 H7 Ew.
    pose proof (C31_inverts_packing y' mo' d' h' mi' s' H1 H2 H3 H4 H5 H6 H7) as C. rewrite Ew, E in C. discriminate C.
Qed.
Print Assumptions C31_decodes_or_refuses.
Example C31_example : convert_date (dos_pack 2020 2 29 23 59 58) = Ok (mkDate 2020 2 29, mkTime 23 59 58) /\
  dos_pack 2020 2 29 23 59 58 = 0x505DBF7D /\ convert_date (dos_pack 2021 2 29 0 0 0) = Err ValueError /\ convert_date (2 ^ 32 - 1) = Err ValueError.
Proof. vm_compute. auto. Qed.

(** C33: the text of a currency literal is worth the stored amount n / 10^k exactly when the amount has no fraction, or is not negative
    and its first decimal is not 0. *)
Theorem C33_currency_exactly : forall n k, 0 <= k ->
  (exists num dec, money_denotes (currency_text n k) num dec /\ num * 10 ^ k = n * 10 ^ dec) <->
  (n mod 10 ^ k = 0 \/ 0 <= n /\ 10 ^ k <= 10 * (n mod 10 ^ k)).
Proof. exact currency_iff. Qed.
Print Assumptions C33_currency_exactly.
Theorem C33_currency_partial : forall n k, 0 <= n -> 0 <= k -> n mod 10 ^ k = 0 \/ 10 ^ k <= 10 * (n mod 10 ^ k) ->
  exists num dec, money_denotes (currency_text n k) num dec /\ num * 10 ^ k = n * 10 ^ dec.
Proof. intros n k Hn Hk H. apply currency_iff; [exact Hk|]. tauto. Qed.
Print Assumptions C33_currency_partial.
(** Small fractions and all negative amounts with a fraction come out as other amounts. *)
Theorem C33_currency_refuted : forall n k, 0 <= k -> n mod 10 ^ k <> 0 -> n < 0 \/ 10 * (n mod 10 ^ k) < 10 ^ k ->
  forall num dec, money_denotes (currency_text n k) num dec -> num * 10 ^ k <> n * 10 ^ dec.
Proof. intros n k Hk H1 H2 num dec HD E. assert (n mod 10 ^ k = 0 \/ 0 <= n /\ 10 ^ k <= 10 * (n mod 10 ^ k)) by (apply currency_iff; eauto). lia. Qed.
Print Assumptions C33_currency_refuted.
Example C33_example : currency_text 125000 4 = u "$12.5000" /\ currency_text 100500 4 = u "$10.500" /\ currency_text (-15000) 4 = u "$-2.5000".
Proof. vm_compute. auto. Qed.

(** C34: 16- and 32-bit integers are little-endian; the signed readings are the same value modulo 2^16 or 2^32. *)
Theorem C34_ints : forall pre a b c d post, bytes [a; b; c; d] ->
  read_ushort (pre ++ [a; b] ++ post) (zlen pre) = Ok (a + 256 * b, zlen pre + 2) /\
  (exists s, read_short (pre ++ [a; b] ++ post) (zlen pre) = Ok (s, zlen pre + 2) /\ -32768 <= s < 32768 /\ s mod 65536 = a + 256 * b) /\
  read_uint (pre ++ [a; b; c; d] ++ post) (zlen pre) = Ok (a + 256 * b + 65536 * c + 16777216 * d, zlen pre + 4) /\
  (exists i, read_int (pre ++ [a; b; c; d] ++ post) (zlen pre) = Ok (i, zlen pre + 4) /\ - 2 ^ 31 <= i < 2 ^ 31 /\
     i mod 2 ^ 32 = a + 256 * b + 65536 * c + 16777216 * d).
Proof.
  intros pre a b c d post HB. assert (bytes [a; b]) as HB2 by (inversion_clear HB as [|? ? H1 H]; inversion_clear H as [|? ? H2 _]; repeat constructor; lia).
  unfold read_ushort, read_short, read_uint, read_int.
  rewrite (read_le_at _ pre [a; b] post eq_refl : read_le (pre ++ [a; b] ++ post) (zlen pre) 2 = _).
  rewrite (read_le_at _ pre [a; b; c; d] post eq_refl : read_le (pre ++ [a; b; c; d] ++ post) (zlen pre) 4 = _). cbn [rbind].
  change (zlen [a; b; c; d]) with 4. change (zlen [a; b]) with 2.
  pose proof (le_range _ HB2) as R2. pose proof (le_range _ HB) as R4. change (256 ^ zlen [a; b]) with (2 ^ 16) in R2. change (256 ^ zlen [a; b; c; d]) with (2 ^ 32) in R4.
  assert (le [a; b] = a + 256 * b) as <- by (cbn [le]; lia). assert (le [a; b; c; d] = a + 256 * b + 65536 * c + 16777216 * d) as E4 by (cbn [le]; lia).
  assert (a + 256 * b = le [a; b]) as _ by (cbn [le]; lia).
  split; [reflexivity|]. split; [eexists; split; [reflexivity|]; exact (signed_spec 16 _ eq_refl R2)|].
  rewrite <- (Z.add_assoc (le [a; b])). replace (le [a; b] + (65536 * c + 16777216 * d)) with (le [a; b; c; d]) by (cbn [le]; lia).
  split; [reflexivity|]. eexists; split; [reflexivity|]. exact (signed_spec 32 _ eq_refl R4).
Qed.
Print Assumptions C34_ints.
Theorem C34_short_read : forall f p, 0 <= p ->
  (zlen f < p + 2 -> read_ushort f p = Err StructError /\ read_short f p = Err StructError) /\
  (zlen f < p + 4 -> read_uint f p = Err StructError /\ read_int f p = Err StructError).
Proof.
  intros f p Hp. unfold read_ushort, read_short, read_uint, read_int. split; intros H; rewrite read_le_short by lia; split; reflexivity.
Qed.
Print Assumptions C34_short_read.
Example C34_example : read_short [9; 0xFE; 0xFF; 1] 1 = Ok (-2, 3) /\ read_ushort [9; 0xFE; 0xFF; 1] 1 = Ok (65534, 3) /\
  read_int [0xFE; 0xFF; 0xFF; 0xFF] 0 = Ok (-2, 4) /\ read_uint [1; 2; 3] 0 = Err StructError.
Proof. vm_compute. auto. Qed.

(** C65: every member with a plain name is written below the output directory; if no later member has the same name, the file
    holds that member's bytes. *)
Theorem C65_member_file_partial : forall dir before m after fs,
  dir <> [] -> last dir 0 <> 47 -> ~ In 47 (m_file m) -> m_file m <> [] ->
  (forall m', In m' after -> m_file m' <> m_file m /\ ~ In 47 (m_file m')) ->
  dget pystr_eqb (extract dir (before ++ m :: after) fs) (dir ++ u "/" ++ m_file m) = Some (m_out m).
Proof.
  intros dir before m after fs Hd Hl Hs Hne Ha.
  assert (forall n, ~ In 47 n -> path_join dir n = dir ++ u "/" ++ n) as HP.
  { intros n Hn. unfold path_join. assert (exists r c, rev dir = c :: r /\ c <> 47) as (r & c & ER & Hc).
    { destruct (rev dir) as [|c r] eqn:ER; [apply (f_equal (@rev Z)) in ER; rewrite rev_involutive in ER; now rewrite ER in Hd|].
      exists r, c. split; [reflexivity|]. intros ->. apply Hl. apply (f_equal (@rev Z)) in ER. rewrite rev_involutive in ER. rewrite ER. cbn [rev]. now rewrite last_last. }
    rewrite ER. replace (c =? 47) with false by (symmetry; now apply Z.eqb_neq).
    destruct n as [|x n]; [reflexivity|]. assert (x <> 47) by (intros ->; apply Hn; now left).
    replace (x =? 47) with false by (symmetry; now apply Z.eqb_neq). reflexivity. }
  rewrite extract_get, rev_app_distr. cbn [rev]. rewrite <- app_assoc. cbn [app].
  assert (forall l r, (forall m', In m' l -> m_file m' <> m_file m /\ ~ In 47 (m_file m')) ->
    find (fun m0 => pystr_eqb (dir ++ u "/" ++ m_file m) (out_path dir m0)) (l ++ r) = find (fun m0 => pystr_eqb (dir ++ u "/" ++ m_file m) (out_path dir m0)) r) as HF.
  { induction l as [|x l IH]; intros r HA; [reflexivity|]. cbn [app find]. destruct (HA x (or_introl eq_refl)) as [N1 N2]. unfold out_path. rewrite (HP _ N2).
    destruct (pystr_eqb_spec (dir ++ u "/" ++ m_file m) (dir ++ u "/" ++ m_file x)) as [E|_].
    - exfalso. apply app_inv_head, app_inv_head in E. congruence.
    - apply IH. intros m' Hm'. apply HA. now right. }
  rewrite HF by (intros m' Hm'; apply Ha; now apply in_rev). cbn [find]. unfold out_path at 1. rewrite (HP _ Hs).
  destruct (pystr_eqb_spec (dir ++ u "/" ++ m_file m) (dir ++ u "/" ++ m_file m)); [reflexivity|congruence].
Qed.
Print Assumptions C65_member_file_partial.
Example C65_example :
  dget pystr_eqb (extract (u "out") [mkMem 4 (u "a\") (u "X.BMP") [1]; mkMem 4 (u "a\") (u "Y.BMP") [2]] []) (u "out/X.BMP") = Some [1].
Proof. reflexivity. Qed.
(** The directory of a member is not used: of two members with the same name only the last one survives. *)
Theorem C65_same_name_refuted : forall dir m m' fs, m_file m = m_file m' ->
  extract dir [m; m'] fs = extract dir [m'] (extract dir [m] fs) /\
  dget pystr_eqb (extract dir [m; m'] fs) (out_path dir m) = Some (m_out m').
Proof.
  intros dir m m' fs E. split; [reflexivity|]. rewrite extract_get. cbn [rev app find]. unfold out_path. rewrite E.
  destruct (pystr_eqb_spec (path_join dir (m_file m')) (path_join dir (m_file m'))); [reflexivity|congruence].
Qed.
Print Assumptions C65_same_name_refuted.
(** A member with an absolute name is written there, whatever the output directory; `..` is not removed either. *)
Theorem C65_outside_refuted : forall dir n out fs m, m_file m = u "/" ++ n -> m_out m = out ->
  dget pystr_eqb (extract dir [m] fs) (u "/" ++ n) = Some out /\
  (forall d, dir = u "/tmp/out" -> m_file d = u "../x" -> dget pystr_eqb (extract dir [d] fs) (u "/tmp/out/../x") = Some (m_out d)).
Proof.
  intros dir n out fs m E <-. split.
  - rewrite extract_get. cbn [rev app find]. unfold out_path. rewrite E. cbn [u app path_join].
    change (Z.of_nat (nat_of_ascii "/")) with 47. rewrite Z.eqb_refl.
    destruct (pystr_eqb_spec (47 :: n) (47 :: n)); [reflexivity|congruence].
  - intros d -> Ed. rewrite extract_get. cbn [rev app find]. unfold out_path. rewrite Ed. reflexivity.
Qed.
Print Assumptions C65_outside_refuted.

(** C66: a null-terminated name is read exactly. *)
Theorem C66_terminated_partial : forall fuel pre s post, ~ In 0 s -> (length s < fuel)%nat ->
  read_until_null fuel (pre ++ s ++ 0 :: post) (zlen pre) = Some (Ok (s, zlen pre + zlen s + 1)).
Proof. intros fuel pre s post H HF. apply name_run; [|exact HF]. intros c Hc ->. now apply H. Qed.
Print Assumptions C66_terminated_partial.
Example C66_example : read_until_null 4 ([9] ++ u "abc" ++ [0; 7]) 1 = Some (Ok (u "abc", 5)).
Proof. reflexivity. Qed.
(** A non-empty name that runs into the end of the file is read for ever. *)
Theorem C66_unterminated_refuted : forall pre s, s <> [] -> ~ In 0 s -> forall fuel, read_until_null fuel (pre ++ s) (zlen pre) = None.
Proof. intros pre [|c s] Hs Hz fuel; [congruence|]. apply name_hang. intros x Hx ->. now apply Hz. Qed.
Print Assumptions C66_unterminated_refuted.
