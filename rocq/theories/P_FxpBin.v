(** Proofs about FXP files: reading, integers, names, extraction. *)
From Verif Require Import PyBase PyStr M_Dates M_Fxp S_Fxp.
Open Scope Z_scope.
Open Scope res_scope.

(** ** reading *)
Lemma skipn_zlen {A} (a b : list A) : skipn (Z.to_nat (zlen a)) (a ++ b) = b.
Proof. unfold zlen. rewrite Nat2Z.id, skipn_app, skipn_all, Nat.sub_diag. reflexivity. Qed.
Lemma firstn_zlen {A} (a b : list A) : firstn (Z.to_nat (zlen a)) (a ++ b) = a.
Proof. unfold zlen. rewrite Nat2Z.id, firstn_app, firstn_all, Nat.sub_diag. cbn. now rewrite app_nil_r. Qed.
Lemma fread_app pre mid post : fread (pre ++ mid ++ post) (zlen pre) (zlen mid) = Ok (mid, zlen pre + zlen mid).
Proof.
  unfold fread. pose proof (zlen_nonneg mid). pose proof (zlen_nonneg post). pose proof (zlen_nonneg pre).
  replace (zlen mid <? -1) with false by (symmetry; apply Z.ltb_ge; lia). replace (zlen mid =? -1) with false by (symmetry; apply Z.eqb_neq; lia).
  rewrite !zlen_app. rewrite (Z.min_l (zlen pre)) by lia. rewrite skipn_zlen. rewrite zlen_app, Z.min_l by lia. rewrite firstn_zlen. reflexivity.
Qed.
Lemma fread_at f pre mid post pos n : f = pre ++ mid ++ post -> pos = zlen pre -> n = zlen mid -> fread f pos n = Ok (mid, pos + n).
Proof. intros -> -> ->. apply fread_app. Qed.
Lemma fread_split f pos n : 0 <= pos -> 0 <= n -> pos + n <= zlen f ->
  exists pre mid post, f = pre ++ mid ++ post /\ zlen pre = pos /\ zlen mid = n /\ fread f pos n = Ok (mid, pos + n).
Proof.
  intros Hp Hn HL. exists (firstn (Z.to_nat pos) f), (firstn (Z.to_nat n) (skipn (Z.to_nat pos) f)), (skipn (Z.to_nat n) (skipn (Z.to_nat pos) f)).
  assert (f = firstn (Z.to_nat pos) f ++ firstn (Z.to_nat n) (skipn (Z.to_nat pos) f) ++ skipn (Z.to_nat n) (skipn (Z.to_nat pos) f)) as E
    by now rewrite !firstn_skipn.
  assert (zlen (firstn (Z.to_nat pos) f) = pos) as L1 by (unfold zlen in *; rewrite firstn_length; lia).
  assert (zlen (firstn (Z.to_nat n) (skipn (Z.to_nat pos) f)) = n) as L2 by (unfold zlen in *; rewrite firstn_length, skipn_length; lia).
  repeat split; auto. eapply fread_at; eauto.
Qed.
Lemma fread_len f pos n b p : 0 <= pos -> 0 <= n -> fread f pos n = Ok (b, p) -> zlen b = Z.min n (Z.max 0 (zlen f - pos)) /\ p = pos + zlen b.
Proof.
  intros Hp Hn. unfold fread. replace (n <? -1) with false by (symmetry; apply Z.ltb_ge; lia). replace (n =? -1) with false by (symmetry; apply Z.eqb_neq; lia).
  intros E; injection E as <- <-. split; [|reflexivity]. unfold zlen. rewrite firstn_length, skipn_length. lia.
Qed.
Lemma fread_ok f pos n : 0 <= n -> exists b p, fread f pos n = Ok (b, p).
Proof. intros H. unfold fread. replace (n <? -1) with false by (symmetry; apply Z.ltb_ge; lia). eauto. Qed.
Lemma fread_bytes f pos n b p : bytes f -> fread f pos n = Ok (b, p) -> bytes b.
Proof.
  intros HB. unfold fread. destruct (n <? -1); [discriminate|]. intros E; injection E as <- _.
  assert (bytes (skipn (Z.to_nat (Z.min pos (zlen f))) f)) as H1.
  { unfold bytes in *. rewrite Forall_forall in *. intros x Hx. apply HB. rewrite <- (firstn_skipn (Z.to_nat (Z.min pos (zlen f))) f). apply in_or_app. now right. }
  destruct (n =? -1); [exact H1|]. unfold bytes in *. rewrite Forall_forall in *. intros x Hx. apply H1.
  rewrite <- (firstn_skipn (Z.to_nat (Z.min n (zlen (skipn (Z.to_nat (Z.min pos (zlen f))) f)))) (skipn (Z.to_nat (Z.min pos (zlen f))) f)). apply in_or_app. now left.
Qed.

(** ** integers *)
Lemma le_range bs : bytes bs -> 0 <= le bs < 256 ^ zlen bs.
Proof.
  induction bs as [|b bs IH]; intros H; [cbn; lia|]. inversion_clear H as [|? ? Hb HB]. cbn [le]. rewrite zlen_cons, Z.pow_add_r by (try apply zlen_nonneg; lia).
  specialize (IH HB). change (256 ^ 1) with 256. lia.
Qed.
Lemma read_le_at f pre mid post : f = pre ++ mid ++ post -> read_le f (zlen pre) (zlen mid) = Ok (le mid, zlen pre + zlen mid).
Proof. intros E. unfold read_le. rewrite (fread_at f pre mid post) by auto. cbn [rbind]. unfold unpack_le. now rewrite Z.eqb_refl. Qed.
Lemma read_le_short f pos n : 0 <= pos -> 0 < n -> zlen f < pos + n -> read_le f pos n = Err StructError.
Proof.
  intros Hp Hn HL. unfold read_le. destruct (fread_ok f pos n) as (b & p & E); [lia|]. rewrite E. cbn [rbind].
  destruct (fread_len f pos n b p Hp ltac:(lia) E) as [L _]. unfold unpack_le. now replace (zlen b =? n) with false by (symmetry; apply Z.eqb_neq; lia).
Qed.
Lemma signed_spec k n : 0 < k -> 0 <= n < 2 ^ k -> - 2 ^ (k - 1) <= signed k n < 2 ^ (k - 1) /\ (signed k n) mod 2 ^ k = n.
Proof.
  intros Hk Hn. unfold signed. assert (2 ^ k = 2 * 2 ^ (k - 1)) as E by (rewrite <- Z.pow_succ_r by lia; f_equal; lia).
  assert (0 < 2 ^ (k - 1)) by (apply Z.pow_pos_nonneg; lia).
  destruct (Z.ltb_spec n (2 ^ (k - 1))).
  - split; [lia|]. apply Z.mod_small. lia.
  - split; [lia|]. rewrite <- (Z.mod_add _ 1) by lia. rewrite Z.mod_small; lia.
Qed.
Lemma le_le_bytes k : forall n, 0 <= n < 2 ^ (8 * Z.of_nat k) -> le (le_bytes k n) = n.
Proof.
  induction k as [|k IH]; intros n H; [cbn in *; lia|]. cbn [le_bytes le].
  assert (2 ^ (8 * Z.of_nat (S k)) = 256 * 2 ^ (8 * Z.of_nat k)) as E by (rewrite Nat2Z.inj_succ, <- Z.add_1_r, Z.mul_add_distr_l, Z.pow_add_r by lia; change (2 ^ (8 * 1)) with 256; lia).
  rewrite IH; [pose proof (Z.div_mod n 256); lia|]. split; [apply Z.div_pos; lia|apply Z.div_lt_upper_bound; lia].
Qed.
Lemma le_bytes_length k : forall n, length (le_bytes k n) = k.
Proof. induction k as [|k IH]; intros n; [reflexivity|]. cbn. now rewrite IH. Qed.
Lemma pack_u_spec k n bs : pack_u k n = Ok bs -> bs = le_bytes k n /\ le bs = n /\ zlen bs = Z.of_nat k /\ 0 <= n < 2 ^ (8 * Z.of_nat k).
Proof.
  unfold pack_u. destruct (Z.ltb_spec n 0); [discriminate|]. destruct (Z.leb_spec (2 ^ (8 * Z.of_nat k)) n); [discriminate|]. cbn [orb].
  intros E; injection E as <-. repeat split; try lia. apply le_le_bytes; lia. unfold zlen. now rewrite le_bytes_length.
Qed.

(** ** names *)
Lemma snoc_ne {A} (l : list A) a : l ++ [a] <> []. Proof. destruct l; discriminate. Qed.
Lemma until_null_sound fuel : forall f pos str s p, str <> [] -> until_null fuel f pos str = Some (Ok (s, p)) ->
  0 <= pos -> (forall c, In c (removelast str) -> c <> 0) ->
  exists t, s ++ [0] = str ++ t /\ (forall c, In c s -> c <> 0) /\ (length t < fuel)%nat.
Proof.
  induction fuel as [|k IH]; intros f pos str s p Hne E Hp Hz; [discriminate|]. cbn [until_null] in E.
  destruct (rev str) as [|c r] eqn:ER.
  { apply (f_equal (@rev Z)) in ER. rewrite rev_involutive in ER. now rewrite ER in Hne. }
  assert (str = rev r ++ [c]) as ES by (apply (f_equal (@rev Z)) in ER; rewrite rev_involutive in ER; exact ER).
  destruct (Z.eqb_spec c 0) as [->|Hc].
  - injection E as <- <-. exists []. rewrite app_nil_r. split; [now rewrite ES|]. split; [|cbn; lia].
    intros x Hx. apply Hz. rewrite ES, removelast_last. exact Hx.
  - destruct (fread_ok f pos 1) as (b & p1 & EF); [lia|]. rewrite EF in E.
    destruct (fread_len f pos 1 b p1 Hp ltac:(lia) EF) as [L1 L2]. pose proof (zlen_nonneg b).
    assert (forall x, In x str -> x <> 0) as HA.
    { intros x Hx. rewrite ES in Hx. apply in_app_or in Hx as [Hx|[<-|[]]]; [|exact Hc]. apply Hz. rewrite ES, removelast_last. exact Hx. }
    destruct b as [|b0 [|b1 b]]; [| |unfold zlen in *; cbn [length] in *; lia].
    + rewrite app_nil_r in E. destruct (IH _ _ _ _ _ Hne E ltac:(lia) Hz) as (t & T1 & T2 & T3). exists t. split; [exact T1|]. split; [exact T2|lia].
    + destruct (IH _ _ _ _ _ (snoc_ne _ _) E ltac:(lia)) as (t & T1 & T2 & T3).
      { rewrite removelast_last. exact HA. }
      exists (b0 :: t). split; [now rewrite T1, <- app_assoc|]. split; [exact T2|cbn; lia].
Qed.
Lemma until_null_run post : forall t fuel pre str, (forall c, In c (str ++ t) -> c <> 0) -> (length t + 1 < fuel)%nat -> str <> [] ->
  until_null fuel (pre ++ t ++ 0 :: post) (zlen pre) str = Some (Ok (str ++ t, zlen pre + zlen t + 1)).
Proof.
  induction t as [|c t IH]; intros [|fuel] pre str Hz HF Hne; cbn [length] in HF; try lia; cbn [until_null].
  - destruct (rev str) as [|c r] eqn:ER; [apply (f_equal (@rev Z)) in ER; rewrite rev_involutive in ER; now rewrite ER in Hne|].
    assert (str = rev r ++ [c]) as ES by (apply (f_equal (@rev Z)) in ER; rewrite rev_involutive in ER; exact ER).
    rewrite app_nil_r in *. replace (c =? 0) with false by (symmetry; apply Z.eqb_neq, Hz; rewrite ES; apply in_or_app; cbn; auto).
    cbn [app]. rewrite (fread_at _ pre [0] post) by reflexivity. destruct fuel as [|fuel]; [lia|]. cbn [until_null].
    rewrite rev_app_distr. cbn [rev app]. rewrite Z.eqb_refl, rev_involutive. do 3 f_equal. unfold zlen. cbn [length]. lia.
  - destruct (rev str) as [|d r] eqn:ER; [apply (f_equal (@rev Z)) in ER; rewrite rev_involutive in ER; now rewrite ER in Hne|].
    assert (str = rev r ++ [d]) as ES by (apply (f_equal (@rev Z)) in ER; rewrite rev_involutive in ER; exact ER).
    replace (d =? 0) with false by (symmetry; apply Z.eqb_neq, Hz; rewrite ES; apply in_or_app; left; apply in_or_app; cbn; auto).
    rewrite (fread_at _ pre [c] (t ++ 0 :: post)) by reflexivity.
    replace (pre ++ (c :: t) ++ 0 :: post) with ((pre ++ [c]) ++ t ++ 0 :: post) by (now rewrite <- app_assoc).
    replace (zlen pre + 1) with (zlen (pre ++ [c])) by (rewrite zlen_app; reflexivity).
    rewrite IH; [|rewrite <- app_assoc; exact Hz|lia|apply snoc_ne].
    rewrite <- app_assoc. do 3 f_equal. rewrite zlen_app, zlen_cons. unfold zlen. cbn [length]. lia.
Qed.
Lemma name_run fuel pre s post : (forall c, In c s -> c <> 0) -> (length s < fuel)%nat ->
  read_until_null fuel (pre ++ s ++ 0 :: post) (zlen pre) = Some (Ok (s, zlen pre + zlen s + 1)).
Proof.
  intros Hz HF. unfold read_until_null. destruct s as [|c s].
  - cbn [app]. rewrite (fread_at _ pre [0] post) by reflexivity. destruct fuel; [cbn in HF; lia|]. cbn [until_null rev app]. rewrite Z.eqb_refl. cbn [rev]. do 3 f_equal. unfold zlen. cbn [length]. lia.
  - rewrite (fread_at _ pre [c] (s ++ 0 :: post)) by reflexivity.
    replace (pre ++ (c :: s) ++ 0 :: post) with ((pre ++ [c]) ++ s ++ 0 :: post) by (now rewrite <- app_assoc).
    replace (zlen pre + 1) with (zlen (pre ++ [c])) by (rewrite zlen_app; reflexivity).
    rewrite until_null_run; [|exact Hz|cbn in HF; lia|discriminate]. cbn [app]. do 3 f_equal. rewrite zlen_app, zlen_cons. unfold zlen. cbn [length]. lia.
Qed.

Lemma name_sound fuel f pos s p : 0 <= pos -> read_until_null fuel f pos = Some (Ok (s, p)) -> (forall c, In c s -> c <> 0) /\ (length s < fuel)%nat.
Proof.
  intros Hp. unfold read_until_null. destruct (fread_ok f pos 1) as (b & p1 & EF); [lia|]. rewrite EF.
  destruct (fread_len f pos 1 b p1 Hp ltac:(lia) EF) as [L1 L2]. pose proof (zlen_nonneg b).
  destruct b as [|c [|b1 b]]; [destruct fuel; discriminate| |unfold zlen in *; cbn [length] in *; lia].
  intros E. destruct (until_null_sound _ _ _ [c] _ _ (snoc_ne [] c) E ltac:(lia)) as (t & T1 & T2 & T3); [intros ? []|].
  split; [exact T2|]. apply (f_equal (@length Z)) in T1. rewrite app_length in T1. cbn in T1. lia.
Qed.
Lemma until_null_stuck f : forall fuel pos str c, zlen f <= pos -> c <> 0 -> until_null fuel f pos (str ++ [c]) = None.
Proof.
  induction fuel as [|k IH]; intros pos str c Hp Hc; [reflexivity|]. cbn [until_null]. rewrite rev_app_distr. cbn [rev app].
  replace (c =? 0) with false by (symmetry; now apply Z.eqb_neq). destruct (fread_ok f pos 1) as (b & p1 & EF); [lia|]. rewrite EF.
  pose proof (zlen_nonneg f). destruct (fread_len f pos 1 b p1 ltac:(lia) ltac:(lia) EF) as [L1 L2]. destruct b; [|rewrite zlen_cons in L1; pose proof (zlen_nonneg b); lia].
  rewrite app_nil_r. apply IH; [|exact Hc]. change (zlen (@nil Z)) with 0 in L2. lia.
Qed.
Lemma until_null_hang : forall t fuel pre str c, (forall x, In x (c :: t) -> x <> 0) ->
  until_null fuel (pre ++ t) (zlen pre) (str ++ [c]) = None.
Proof.
  induction t as [|d t IH]; intros fuel pre str c Hz.
  - apply until_null_stuck; [rewrite app_nil_r; lia|apply Hz; now left].
  - destruct fuel as [|fuel]; [reflexivity|]. cbn [until_null]. rewrite rev_app_distr. cbn [rev app].
    replace (c =? 0) with false by (symmetry; apply Z.eqb_neq, Hz; now left). rewrite (fread_at _ pre [d] t) by reflexivity.
    replace (pre ++ d :: t) with ((pre ++ [d]) ++ t) by (now rewrite <- app_assoc).
    replace (zlen pre + 1) with (zlen (pre ++ [d])) by (rewrite zlen_app; reflexivity). apply IH. intros x Hx. apply Hz. now right.
Qed.
Lemma name_hang fuel pre c t : (forall x, In x (c :: t) -> x <> 0) -> read_until_null fuel (pre ++ c :: t) (zlen pre) = None.
Proof.
  intros Hz. unfold read_until_null. rewrite (fread_at _ pre [c] t) by reflexivity.
  replace (pre ++ c :: t) with ((pre ++ [c]) ++ t) by (now rewrite <- app_assoc).
  replace (zlen pre + 1) with (zlen (pre ++ [c])) by (rewrite zlen_app; reflexivity). exact (until_null_hang t fuel (pre ++ [c]) [] c Hz).
Qed.

(** ** extraction *)
Lemma sub_mid (pre mid post : list Z) a n : length pre = a -> length mid = n -> sub (pre ++ mid ++ post) a n = mid.
Proof. intros <- <-. unfold sub. rewrite skipn_app, skipn_all, Nat.sub_diag. cbn [app skipn]. now rewrite firstn_app, firstn_all, Nat.sub_diag, firstn_O, app_nil_r. Qed.
Lemma out_header_spec bl nl hd : out_header bl nl = Ok hd -> zlen hd = 41 /\
  forall rest, read_header (hd ++ rest) = Ok (mkHdr 1 0 (41 + bl + nl) (41 + bl) nl).
Proof.
  unfold out_header. intros H.
  destruct (pack_u 2 1) as [a|] eqn:Ea; [|discriminate H]. destruct (pack_u 2 0) as [b|] eqn:Eb; [|discriminate H].
  destruct (pack_u 4 (41 + bl + nl)) as [c|] eqn:Ec; [|discriminate H]. destruct (pack_u 4 (41 + bl)) as [d|] eqn:Ed; [|discriminate H].
  destruct (pack_u 4 nl) as [e|] eqn:Ee; [|discriminate H]. cbn [rbind] in H.
  apply pack_u_spec in Ea as (_ & Va & La & _), Eb as (_ & Vb & Lb & _), Ec as (_ & Vc & Lc & _), Ed as (_ & Vd & Ld & _), Ee as (_ & Ve & Le & _).
  destruct (checksum_calc _) as [ck|] eqn:Ek; [|discriminate H]. cbn [rbind] in H. destruct (pack_u 2 ck) as [ckb|] eqn:Eck; [|discriminate H]. cbn [rbind] in H.
  apply pack_u_spec in Eck as (_ & Vk & Lk & _). injection H as <-.
  set (body := identifier ++ zeros 2 ++ a ++ b ++ c ++ d ++ e ++ zeros 16) in *.
  assert (length body = 37%nat) as LB by (unfold body, zlen, identifier, zeros in *; rewrite !app_length, !repeat_length; cbn [length]; lia).
  assert (zlen (body ++ zeros 2 ++ ckb) = 41) as LH by (unfold zlen, zeros in *; rewrite !app_length, repeat_length; lia).
  split; [exact LH|]. intros rest. unfold read_header. rewrite (fread_at _ [] (body ++ zeros 2 ++ ckb) rest) by auto. cbn [rbind]. rewrite LH. cbn [Z.ltb Z.compare].
  replace (41 <? 41) with false by reflexivity.
  assert (sub (body ++ zeros 2 ++ ckb) 0 3 = identifier) as -> by (unfold body; rewrite <- !app_assoc; apply (sub_mid []); reflexivity).
  change (pystr_eqb identifier encrypted_identifier) with false. change (negb (pystr_eqb identifier identifier)) with false. cbv iota.
  assert (sub (body ++ zeros 2 ++ ckb) 0 37 = body) as -> by (apply (sub_mid []); [reflexivity|exact LB]). rewrite Ek. cbn [rbind].
  assert (forall n (bs : list Z), zlen bs = Z.of_nat n -> length bs = n) as HL by (unfold zlen; intros; lia).
  assert (sub (body ++ zeros 2 ++ ckb) 39 2 = ckb) as ->.
  { replace (body ++ zeros 2 ++ ckb) with ((body ++ zeros 2) ++ ckb ++ []) by (now rewrite app_nil_r, <- app_assoc). apply sub_mid; [rewrite app_length, LB; reflexivity|auto]. }
  rewrite Vk, Z.eqb_refl. cbn [negb].
  assert (forall pre mid post a n, body ++ zeros 2 ++ ckb = pre ++ mid ++ post -> length pre = a -> length mid = n -> sub (body ++ zeros 2 ++ ckb) a n = mid) as HS
    by (intros pre mid post ? ? -> ? ?; now apply sub_mid).
  rewrite (HS (identifier ++ zeros 2) a (b ++ c ++ d ++ e ++ zeros 16 ++ zeros 2 ++ ckb)); [|unfold body; now rewrite <- !app_assoc|reflexivity|auto].
  rewrite (HS (identifier ++ zeros 2 ++ a) b (c ++ d ++ e ++ zeros 16 ++ zeros 2 ++ ckb)); [|unfold body; now rewrite <- !app_assoc|rewrite !app_length, (HL 2%nat a) by auto; reflexivity|auto].
  rewrite (HS (identifier ++ zeros 2 ++ a ++ b) c (d ++ e ++ zeros 16 ++ zeros 2 ++ ckb)); [|unfold body; now rewrite <- !app_assoc|rewrite !app_length, (HL 2%nat a), (HL 2%nat b) by auto; reflexivity|auto].
  rewrite (HS (identifier ++ zeros 2 ++ a ++ b ++ c) d (e ++ zeros 16 ++ zeros 2 ++ ckb)); [|unfold body; now rewrite <- !app_assoc|rewrite !app_length, (HL 2%nat a), (HL 2%nat b), (HL 4%nat c) by auto; reflexivity|auto].
  rewrite (HS (identifier ++ zeros 2 ++ a ++ b ++ c ++ d) e (zeros 16 ++ zeros 2 ++ ckb)); [|unfold body; now rewrite <- !app_assoc|rewrite !app_length, (HL 2%nat a), (HL 2%nat b), (HL 4%nat c), (HL 4%nat d) by auto; reflexivity|auto].
  now rewrite Va, Vb, Vc, Vd, Ve.
Qed.
Lemma out_file_spec f e dirname filename out : out_file f e dirname filename = Ok out -> e_type e = 0 ->
  0 <= e_start e <= e_stop e -> e_stop e <= zlen f ->
  (forall c, In c dirname -> c <> 0) -> (forall c, In c filename -> c <> 0) ->
  exists pre block post tail, f = pre ++ block ++ post /\ zlen pre = e_start e /\ zlen block = e_stop e - e_start e /\
    (exists hd, zlen hd = 41 /\ out = hd ++ block ++ tail) /\
    forall fuel, (length dirname < fuel)%nat -> (length filename < fuel)%nat -> fxp_read fuel out = Some (Ok [mkMem 0 dirname filename out]).
Proof.
  intros H HT HS HL Hd Hf. unfold out_file in H. set (bl := e_stop e - e_start e) in *. set (nl := zlen dirname + zlen filename + 3) in *.
  destruct (fread_split f (e_start e) bl) as (pre & block & post & EF & Lp & Lb & ER); [lia|unfold bl; lia|unfold bl; lia|].
  destruct (out_header bl nl) as [hd|] eqn:EH; [|discriminate H]. cbn [rbind] in H. rewrite ER in H. cbn [rbind] in H.
  destruct (pack_u 1 (e_type e)) as [t|] eqn:Et; [|discriminate H]. destruct (pack_u 4 41) as [a|] eqn:Ea; [|discriminate H].
  destruct (pack_u 4 (41 + zlen block)) as [b|] eqn:Eb; [|discriminate H]. destruct (pack_u 4 1) as [c|] eqn:Ec; [|discriminate H].
  destruct (pack_u 4 (1 + zlen dirname + 1)) as [d|] eqn:Ed; [|discriminate H]. cbn [rbind] in H.
  assert (HH := H). injection HH as HO. clear H.
  pose proof (out_header_spec _ _ _ EH) as [LH RH].
  set (tail := [0] ++ dirname ++ [0] ++ filename ++ [0] ++ t ++ a ++ b ++ c ++ d ++ zeros 8) in *.
  exists pre, block, post, tail. split; [exact EF|]. split; [exact Lp|]. split; [exact Lb|]. split; [exists hd; now split|].
  intros fuel Fd Ff. unfold fxp_read. rewrite <- HO at 1. rewrite RH. cbn [h_files h_footer h_names]. change (Z.to_nat 1) with 1%nat.
  pose proof Et as Kt; pose proof Ea as Ka; pose proof Eb as Kb; pose proof Ec as Kc; pose proof Ed as Kd.
  apply pack_u_spec in Et as (_ & Vt & Lt & _), Ea as (_ & Va & La & _), Eb as (_ & Vb & Lb' & _), Ec as (_ & Vc & Lc & _), Ed as (_ & Vd & Ld & _).
  assert (forall n (bs : list Z), zlen bs = Z.of_nat n -> length bs = n) as HLn by (unfold zlen; intros; lia).
  set (ent := t ++ a ++ b ++ c ++ d ++ zeros 8) in *.
  assert (zlen ent = 25) as Lent by (unfold ent, zlen, zeros in *; rewrite !app_length, repeat_length; lia).
  cbn [read_entries]. unfold read_entry.
  rewrite (fread_at out (hd ++ block ++ [0] ++ dirname ++ [0] ++ filename ++ [0]) ent []).
  2: { rewrite <- HO. unfold tail. now rewrite app_nil_r, <- !app_assoc. }
  2: { rewrite !zlen_app, LH, Lb. unfold nl. change (zlen [0]) with 1. lia. }
  2: now rewrite Lent.
  cbn [rbind]. rewrite Lent. change (25 =? 25) with true. cbv iota. cbn [rbind].
  assert (forall p m q a n, ent = p ++ m ++ q -> length p = a -> length m = n -> sub ent a n = m) as HSub by (intros p m q ? ? -> ? ?; now apply sub_mid).
  rewrite (HSub [] t (a ++ b ++ c ++ d ++ zeros 8)); [|reflexivity|reflexivity|auto].
  rewrite (HSub t a (b ++ c ++ d ++ zeros 8)); [|reflexivity|auto|auto].
  rewrite (HSub (t ++ a) b (c ++ d ++ zeros 8)); [|unfold ent; now rewrite <- !app_assoc|rewrite !app_length, (HLn 1%nat t), (HLn 4%nat a) by auto; reflexivity|auto].
  rewrite (HSub (t ++ a ++ b) c (d ++ zeros 8)); [|unfold ent; now rewrite <- !app_assoc|rewrite !app_length, (HLn 1%nat t), (HLn 4%nat a), (HLn 4%nat b) by auto; reflexivity|auto].
  rewrite (HSub (t ++ a ++ b ++ c) d (zeros 8)); [|unfold ent; now rewrite <- !app_assoc|rewrite !app_length, (HLn 1%nat t), (HLn 4%nat a), (HLn 4%nat b), (HLn 4%nat c) by auto; reflexivity|auto].
  rewrite Vt, Va, Vb, Vc, Vd, HT. cbn [read_members]. unfold read_member. cbn [e_dir e_file e_type e_start e_stop].
  assert (read_until_null fuel out (41 + bl + 1) = Some (Ok (dirname, 41 + bl + 1 + zlen dirname + 1))) as R1.
  { replace (41 + bl + 1) with (zlen (hd ++ block ++ [0])) by (rewrite !zlen_app, LH, Lb; change (zlen [0]) with 1; lia).
    replace out with ((hd ++ block ++ [0]) ++ dirname ++ 0 :: (filename ++ [0] ++ ent)) by (rewrite <- HO; unfold tail; now rewrite <- !app_assoc).
    now apply name_run. }
  assert (read_until_null fuel out (41 + bl + (1 + zlen dirname + 1)) = Some (Ok (filename, 41 + bl + (1 + zlen dirname + 1) + zlen filename + 1))) as R2.
  { replace (41 + bl + (1 + zlen dirname + 1)) with (zlen (hd ++ block ++ [0] ++ dirname ++ [0])) by (rewrite !zlen_app, LH, Lb; change (zlen [0]) with 1; lia).
    replace out with ((hd ++ block ++ [0] ++ dirname ++ [0]) ++ filename ++ 0 :: ent) by (rewrite <- HO; unfold tail; now rewrite <- !app_assoc).
    now apply name_run. }
  rewrite R1, R2. cbn [Z.eqb].
  assert (out_file out (mkEnt 0 41 (41 + zlen block) 1 (1 + zlen dirname + 1)) dirname filename = Ok out) as RO.
  { unfold out_file. cbn [e_start e_stop e_type]. replace (41 + zlen block - 41) with bl by lia. fold nl. rewrite EH. cbn [rbind].
    rewrite (fread_at out hd block tail) by auto. cbn [rbind].
    rewrite HT in Kt. rewrite Kt, Ka, Kb, Kc, Kd. cbn [rbind]. now rewrite <- HO. }
  rewrite RO. reflexivity.
Qed.

(** ** damaged headers *)
From Verif Require Import P_Fxp.
Lemma split_len {A} (a b c d : list A) : a ++ b = c ++ d -> length a = length c -> a = c /\ b = d.
Proof.
  revert c; induction a as [|x a IH]; intros [|y c] E L; cbn in *; try discriminate; [now split|].
  injection E as -> E. injection L as L. destruct (IH _ E L) as [-> ->]. now split.
Qed.
Lemma bytes_app a b : bytes (a ++ b) <-> bytes a /\ bytes b. Proof. apply Forall_app. Qed.
Lemma read_header_inv f h : bytes f -> read_header f = Ok h ->
  exists p m c rest, f = p ++ m ++ c ++ rest /\ length p = 37%nat /\ length m = 2%nat /\ length c = 2%nat /\
    firstn 3 p = identifier /\ le c = crc16 (skipn 2 p).
Proof.
  intros HB. unfold read_header. destruct (Z.le_gt_cases 41 (zlen f)) as [HL|HL].
  2: { unfold fread. cbn [Z.ltb Z.compare Z.eqb]. rewrite (Z.min_l 0 (zlen f)) by (apply zlen_nonneg). cbn [Z.to_nat skipn rbind].
       rewrite Z.min_r by lia. replace (zlen (firstn (Z.to_nat (zlen f)) f) <? 41) with true; [discriminate|].
       symmetry; apply Z.ltb_lt. unfold zlen in *. rewrite firstn_length. lia. }
  destruct (fread_split f 0 41) as (pre & hb & rest & EF & Lp & Lh & ER); [lia|lia|lia|]. rewrite ER. cbn [rbind]. rewrite Lh. change (41 <? 41) with false. cbv iota.
  destruct pre as [|? ?]; [|rewrite zlen_cons in Lp; pose proof (zlen_nonneg pre); lia]. cbn [app] in EF.
  set (p := firstn 37 hb). set (m := firstn 2 (skipn 37 hb)). set (c := skipn 2 (skipn 37 hb)).
  assert (hb = p ++ m ++ c) as EH.
  { unfold p, m, c. rewrite firstn_skipn, firstn_skipn. reflexivity. }
  assert (length hb = 41%nat) as LH by (unfold zlen in Lh; lia).
  assert (length p = 37%nat) as L1 by (unfold p; rewrite firstn_length; lia).
  assert (length m = 2%nat) as L2 by (unfold m; rewrite firstn_length, skipn_length; lia).
  assert (length c = 2%nat) as L3 by (unfold c; rewrite !skipn_length; lia).
  destruct (pystr_eqb (sub hb 0 3) encrypted_identifier); [discriminate|].
  destruct (pystr_eqb_spec (sub hb 0 3) identifier) as [EI|]; [|discriminate]. cbn [negb].
  assert (sub hb 0 37 = p) as -> by reflexivity.
  assert (bytes p) as Bp by (rewrite EF, EH in HB; rewrite !bytes_app in HB; tauto).
  assert (exists x y q, p = x :: y :: q) as (x & y & q & Ep) by (destruct p as [|x [|y q]]; try discriminate; eauto).
  rewrite Ep, checksum_crc by (now rewrite <- Ep). cbn [rbind].
  assert (sub hb 39 2 = c) as ->.
  { rewrite EH. replace (p ++ m ++ c) with ((p ++ m) ++ c ++ []) by (now rewrite app_nil_r, <- app_assoc). apply sub_mid; [rewrite app_length, L1, L2; reflexivity|exact L3]. }
  destruct (Z.eqb_spec (le c) (crc16 q)) as [EC|]; [|discriminate]. intros _.
  exists p, m, c, rest. rewrite EF, EH, <- !app_assoc. repeat split; auto.
  - rewrite <- EI. unfold sub, p. cbn [skipn]. rewrite firstn_firstn. reflexivity.
  - rewrite Ep. exact EC.
Qed.
Lemma le_inj a : forall b, length a = length b -> bytes a -> bytes b -> le a = le b -> a = b.
Proof.
  induction a as [|x a IH]; intros [|y b] L Ha Hb E; try discriminate; [reflexivity|]. inversion_clear Ha as [|? ? Hx Ha']. inversion_clear Hb as [|? ? Hy Hb'].
  cbn [le] in E. injection L as L. assert (x = y) as -> by lia. f_equal. apply IH; auto. lia.
Qed.
Lemma at_index {A} (p q r s : list A) b n : p ++ b :: q = r ++ s -> length r = n -> (length p < n)%nat -> exists t, r = p ++ b :: t /\ q = t ++ s.
Proof.
  revert r n; induction p as [|x p IH]; intros [|y r] n E L H; cbn in *; subst n; try (cbn in *; lia).
  - injection E as -> ->. eauto.
  - injection E as -> E. destruct (IH r (length r) E eq_refl ltac:(lia)) as (t & -> & ->). eauto.
Qed.
Lemma header_damage pre b b' post h : bytes (pre ++ b :: post) -> 0 <= b' < 256 -> b <> b' ->
  (length pre < 37 \/ 39 <= length pre < 41)%nat -> read_header (pre ++ b :: post) = Ok h ->
  forall h', read_header (pre ++ b' :: post) <> Ok h'.
Proof.
  intros HB Hb' Hne HI R h' R'.
  assert (bytes (pre ++ b' :: post)) as HB' by (rewrite bytes_app in *; destruct HB as [H1 H2]; split; [exact H1|inversion_clear H2; constructor; auto]).
  destruct (read_header_inv _ _ HB R) as (p & m & c & rest & E & Lp & Lm & Lc & I & C).
  destruct (read_header_inv _ _ HB' R') as (p' & m' & c' & rest' & E' & Lp' & Lm' & Lc' & I' & C').
  destruct HI as [HI|HI].
  - destruct (at_index _ _ _ _ _ _ E Lp HI) as (t & Ep & Et). destruct (at_index _ _ _ _ _ _ E' Lp' HI) as (t' & Ep' & Et').
    assert (length t = length t') as Lt by (apply (f_equal (@length Z)) in Ep, Ep'; rewrite app_length in *; cbn [length] in *; lia).
    rewrite Et in Et'. apply split_len in Et' as [Ett Er]; [|exact Lt]. subst t'.
    apply split_len in Er as [Em Er]; [|lia]. apply split_len in Er as [Ec Er]; [|lia]. subst c'. rewrite C in C'.
    destruct (le_lt_dec 2 (length pre)) as [H2|H2].
    + rewrite Ep, Ep', !skipn_app in C'. replace (2 - length pre)%nat with 0%nat in C' by lia. cbn [skipn] in C'.
      assert (bytes (skipn 2 pre)) as B1.
      { rewrite bytes_app in HB. destruct HB as [HB _]. rewrite <- (firstn_skipn 2 pre), bytes_app in HB. tauto. }
      assert (bytes t) as B2. { rewrite E, Ep in HB. rewrite !bytes_app in HB. destruct HB as [[_ HB] _]. now inversion HB. }
      assert (0 <= b < 256) as B3. { rewrite bytes_app in HB. destruct HB as [_ HB]. now inversion HB. }
      apply Hne. exact (single_detected _ _ _ _ B1 B2 B3 Hb' C').
    + rewrite Ep in I. rewrite Ep' in I'. destruct pre as [|x [|y pre]]; cbn in H2; try lia; cbn in I, I'; congruence.
  - set (a := firstn 39 pre). set (x := skipn 39 pre). assert (pre = a ++ x) as Ea by (symmetry; apply firstn_skipn).
    assert (length a = 39%nat) as La by (unfold a; rewrite firstn_length; lia). assert (length x < 2)%nat as Lx by (unfold x; rewrite skipn_length; lia).
    rewrite Ea, <- app_assoc, (app_assoc p m) in E. rewrite Ea, <- app_assoc, (app_assoc p' m') in E'.
    apply split_len in E as [E1 E2]; [|rewrite app_length; lia]. apply split_len in E' as [E1' E2']; [|rewrite app_length; lia].
    rewrite E1 in E1'. apply split_len in E1' as [Ep _]; [|lia]. subst p'. rewrite <- C' in C.
    destruct (at_index _ _ _ _ _ _ E2 Lc Lx) as (t & Ec & Et). destruct (at_index _ _ _ _ _ _ E2' Lc' Lx) as (t' & Ec' & Et').
    assert (bytes c) as Bc. { rewrite Ea, <- app_assoc, E2, !bytes_app in HB. tauto. }
    assert (bytes c') as Bc'. { rewrite Ea, <- app_assoc, E2', !bytes_app in HB'. tauto. }
    apply le_inj in C; [|lia|exact Bc|exact Bc']. rewrite Ec, Ec' in C. apply split_len in C as [_ C]; [|reflexivity]. congruence.
Qed.

(** ** members *)
Lemma read_entries_in n : forall f pos es e, 0 <= pos -> bytes f -> read_entries n f pos = Ok es -> In e es -> 0 <= e_start e /\ 0 <= e_stop e /\ 0 <= e_dir e /\ 0 <= e_file e.
Proof.
  induction n as [|n IH]; intros f pos es e Hp HB E I; cbn [read_entries] in E; [injection E as <-; destruct I|].
  unfold read_entry in E. destruct (fread_ok f pos 25) as (b & p & EF); [lia|]. rewrite EF in E. cbn [rbind] in E.
  destruct (fread_len f pos 25 b p Hp ltac:(lia) EF) as [_ Lp]. pose proof (zlen_nonneg b).
  destruct (zlen b =? 25); [|discriminate E]. cbn [rbind] in E. destruct (read_entries n f p) as [r|] eqn:ER; [|discriminate E]. cbn [rbind] in E. injection E as <-.
  destruct I as [<-|I]; [|apply (IH f p r e); [lia|exact HB|exact ER|exact I]].
  pose proof (fread_bytes _ _ _ _ _ HB EF) as Bb.
  assert (forall a k, 0 <= le (sub b a k)) as HN.
  { intros a k. apply (le_range (sub b a k)). unfold sub, bytes in *. rewrite Forall_forall in *. intros x Hx. apply Bb.
    rewrite <- (firstn_skipn a b). apply in_or_app. right. rewrite <- (firstn_skipn k (skipn a b)). apply in_or_app. now left. }
  cbn [e_start e_stop e_dir e_file]. repeat split; apply HN.
Qed.
Lemma read_members_nth fuel f np : forall es ms k e m, read_members fuel f np es = Some (Ok ms) -> nth_error es k = Some e -> nth_error ms k = Some m ->
  read_member fuel f np e = Some (Ok m).
Proof.
  induction es as [|e0 es IH]; intros ms k e m E He Hm; [destruct k; discriminate He|]. cbn [read_members] in E.
  destruct (read_member fuel f np e0) as [[m0|]|] eqn:E0; try discriminate E. destruct (read_members fuel f np es) as [[ms'|]|] eqn:E1; try discriminate E.
  injection E as <-. destruct k as [|k]; cbn in He, Hm; [congruence|eauto].
Qed.
Lemma reread fuel f h es ms k e m : bytes f -> fxp_read fuel f = Some (Ok ms) -> read_header f = Ok h ->
  read_entries (Z.to_nat (h_files h)) f (h_footer h) = Ok es -> nth_error es k = Some e -> nth_error ms k = Some m ->
  e_type e = 0 -> e_start e <= e_stop e <= zlen f -> 0 <= h_footer h -> 0 <= h_names h ->
  (exists pre block post hd tail, f = pre ++ block ++ post /\ zlen pre = e_start e /\ zlen block = e_stop e - e_start e /\
     zlen hd = 41 /\ m_out m = hd ++ block ++ tail) /\
  fxp_read fuel (m_out m) = Some (Ok [m]).
Proof.
  intros HB HR HH HE Ne Nm HT HS HF HN. unfold fxp_read in HR. rewrite HH, HE in HR. pose proof (read_members_nth _ _ _ _ _ _ _ _ HR Ne Nm) as RM.
  destruct (read_entries_in _ _ _ _ e HF HB HE (nth_error_In _ _ Ne)) as (P1 & P2 & P3 & P4).
  unfold read_member in RM. destruct (read_until_null fuel f (h_names h + e_dir e)) as [[[dn pd]|]|] eqn:ED; try discriminate RM.
  destruct (read_until_null fuel f (h_names h + e_file e)) as [[[fn pf]|]|] eqn:EFn; try discriminate RM. rewrite HT in RM. cbn [Z.eqb] in RM.
  destruct (out_file f e dn fn) as [out|] eqn:EO; [|discriminate RM]. cbn [rbind] in RM. injection RM as <-. cbn [m_out].
  apply name_sound in ED as [Zd Fd]; [|lia]. apply name_sound in EFn as [Zf Ff]; [|lia].
  destruct (out_file_spec _ _ _ _ _ EO HT ltac:(lia) ltac:(lia) Zd Zf) as (pre & block & post & tail & E1 & E2 & E3 & (hd & E4 & E5) & E6).
  split; [exists pre, block, post, hd, tail; tauto|]. now apply E6.
Qed.
Lemma sub_bytes f a k : bytes f -> bytes (sub f a k).
Proof.
  unfold sub, bytes. rewrite !Forall_forall. intros H x Hx. apply H. rewrite <- (firstn_skipn a f). apply in_or_app. right.
  rewrite <- (firstn_skipn k (skipn a f)). apply in_or_app. now left.
Qed.
Lemma header_nonneg f h : bytes f -> read_header f = Ok h -> 0 <= h_footer h /\ 0 <= h_names h.
Proof.
  intros HB. unfold read_header. destruct (fread f 0 41) as [[b p]|] eqn:EF; [|discriminate]. cbn [rbind]. pose proof (fread_bytes _ _ _ _ _ HB EF) as Bb.
  destruct (zlen b <? 41); [discriminate|]. destruct (pystr_eqb _ _); [discriminate|]. destruct (negb _); [discriminate|].
  destruct (checksum_calc _); [|discriminate]. cbn [rbind]. destruct (negb _); [discriminate|]. intros E; injection E as <-. cbn [h_footer h_names].
  split; apply le_range, sub_bytes, Bb.
Qed.
Lemma extract_get dir p : forall ms fs,
  dget pystr_eqb (extract dir ms fs) p =
  match find (fun m => pystr_eqb p (out_path dir m)) (rev ms) with Some m => Some (m_out m) | None => dget pystr_eqb fs p end.
Proof.
  induction ms as [|m ms IH]; intros fs; [reflexivity|]. unfold extract in *. cbn [fold_left]. rewrite IH. cbn [rev].
  rewrite (dget_dset _ pystr_eqb_spec). clear. induction (rev ms) as [|x l IH]; cbn [find app].
  - destruct (pystr_eqb p (out_path dir m)); reflexivity.
  - destruct (pystr_eqb p (out_path dir x)); [reflexivity|exact IH].
Qed.

(** ** money *)
Lemma digits_len fuel : forall n, 0 <= n -> Z.log2 n < Z.of_nat fuel ->
  n < 10 ^ zlen (digits fuel n) /\ (0 < n -> 10 ^ (zlen (digits fuel n) - 1) <= n).
Proof.
  induction fuel as [|k IH]; intros n H HL; [pose proof (Z.log2_nonneg n); lia|]. cbn [digits]. destruct (Z.ltb_spec n 10) as [H10|H10].
  - change (zlen [48 + n]) with 1. cbn. lia.
  - pose proof (log2_div10 n ltac:(lia)) as HD. destruct (IH (n / 10)) as [H1 H2]; [apply Z.div_pos; lia|lia|].
    rewrite zlen_app. change (zlen [48 + n mod 10]) with 1. set (L := zlen (digits k (n / 10))) in *. assert (0 <= L) by apply zlen_nonneg.
    pose proof (Z.div_mod n 10 ltac:(lia)). pose proof (Z.mod_pos_bound n 10 ltac:(lia)). assert (0 < n / 10) as HP by (apply Z.div_str_pos; lia). specialize (H2 HP).
    assert (1 <= L) by (destruct (Z.eq_dec L 0) as [E|]; [rewrite E in H1; cbn in H1; lia|lia]).
    rewrite Z.pow_add_r by lia. replace (L + 1 - 1) with (Z.succ (L - 1)) by lia. rewrite Z.pow_succ_r by lia. change (10 ^ 1) with 10. split; [|intros _]; nia.
Qed.
Lemma dec_nat_len n : 0 <= n -> n < 10 ^ zlen (dec_nat n) /\ (0 < n -> 10 ^ (zlen (dec_nat n) - 1) <= n).
Proof. intros H. apply digits_len; [lia|]. pose proof (Z.log2_nonneg n). lia. Qed.
Lemma digits_val_eq s : digits_val s = digits_value s.
Proof. unfold digits_val, digits_value. generalize 0. induction s as [|c s IH]; intros a; [reflexivity|]. cbn [fold_left]. rewrite IH. f_equal. lia. Qed.
Lemma dec_nat_digits n : 0 <= n -> all_digits (dec_nat n) /\ digits_val (dec_nat n) = n.
Proof.
  intros H. destruct (dec_nat_spec n H) as (V & D & N). rewrite digits_val_eq. split; [split; [exact N|]|exact V].
  apply Forall_forall. intros c Hc. rewrite forallb_forall in D. specialize (D c Hc). unfold is_digit in D. rewrite andb_true_iff, !Z.leb_le in D. lia.
Qed.
Lemma split_dot : forall a a' b b', all_digits a -> all_digits a' -> a ++ u "." ++ b = a' ++ u "." ++ b' -> a = a' /\ b = b'.
Proof.
  intros a a' b b' [_ Da] [_ Da']. revert a' Da'. induction Da as [|c a Hc Da IH]; intros a' Da' E.
  - destruct Da' as [|c' a' Hc' Da']; cbn in E; [injection E as ->; now split|injection E as E1 E2; lia].
  - destruct Da' as [|c' a' Hc' Da']; cbn in E; [injection E as E1 E2; lia|]. injection E as -> E. destruct (IH _ Da' E) as [-> ->]. now split.
Qed.
Lemma money_unique t n d n' d' : money_denotes t n d -> money_denotes t n' d' -> n = n' /\ d = d'.
Proof.
  intros (a & b & Da & Db & Ed & H) (a' & b' & Da' & Db' & Ed' & H').
  assert (forall x y y', all_digits x -> u "$" ++ x ++ y = u "$-" ++ y' -> False) as HX.
  { intros x y y' [N D] E. destruct D as [|c x Hc D]; [congruence|]. cbn in E. injection E as E _. lia. }
  destruct H as [[E N]|[E N]], H' as [[E' N']|[E' N']]; subst n n'; rewrite E in E'.
  - apply app_inv_head in E'. apply split_dot in E' as [-> ->]; auto. subst. now split.
  - exfalso. eapply HX; [exact Da|exact E'].
  - exfalso. eapply HX; [exact Da'|symmetry; exact E'].
  - apply app_inv_head in E'. apply split_dot in E' as [-> ->]; auto. subst. now split.
Qed.
Lemma currency_denotes n k : 0 <= k -> let base := 10 ^ k in let r := n mod base in let L := zlen (dec_nat r) in
  money_denotes (currency_text n k) (if n <? 0 then - (- (n / base) * 10 ^ L + r) else n / base * 10 ^ L + r) L.
Proof.
  intros Hk base r L. assert (0 < base) as HB by (apply Z.pow_pos_nonneg; lia). assert (0 <= r < base) as Hr by (apply Z.mod_pos_bound; lia).
  unfold currency_text. fold base. fold r. unfold dec at 2. replace (r <? 0) with false by (symmetry; apply Z.ltb_ge; lia).
  destruct (dec_nat_digits r) as [D1 V1]; [lia|]. unfold money_denotes. destruct (Z.ltb_spec n 0).
  - assert (n / base < 0) as HQ by (apply Z.div_lt_upper_bound; lia). unfold dec. replace (n / base <? 0) with true by (symmetry; now apply Z.ltb_lt).
    destruct (dec_nat_digits (- (n / base))) as [D2 V2]; [lia|]. exists (dec_nat (- (n / base))), (dec_nat r). repeat split; auto; try apply D1; try apply D2.
    right. split; [reflexivity|]. rewrite V1, V2. reflexivity.
  - assert (0 <= n / base) as HQ by (apply Z.div_pos; lia). unfold dec. replace (n / base <? 0) with false by (symmetry; now apply Z.ltb_ge).
    destruct (dec_nat_digits (n / base)) as [D2 V2]; [lia|]. exists (dec_nat (n / base)), (dec_nat r). repeat split; auto; try apply D1; try apply D2.
    left. split; [reflexivity|]. rewrite V1, V2. reflexivity.
Qed.
Lemma currency_iff n k : 0 <= k ->
  (exists num dec, money_denotes (currency_text n k) num dec /\ num * 10 ^ k = n * 10 ^ dec) <->
  (n mod 10 ^ k = 0 \/ 0 <= n /\ 10 ^ k <= 10 * (n mod 10 ^ k)).
Proof.
  intros Hk. pose proof (currency_denotes n k Hk) as HD. cbv zeta in HD. set (base := 10 ^ k) in *. set (r := n mod base) in *. set (L := zlen (dec_nat r)) in *.
  assert (0 < base) as HB by (apply Z.pow_pos_nonneg; lia). assert (0 <= r < base) as Hr by (apply Z.mod_pos_bound; lia).
  destruct (dec_nat_len r) as [L1 L2]; [lia|]. fold L in L1, L2. assert (0 <= L) as HL by apply zlen_nonneg.
  assert (0 < 10 ^ L) as HPL by (apply Z.pow_pos_nonneg; lia).
  assert (n = base * (n / base) + r) as En by (apply Z.div_mod; lia). set (q := n / base) in *.
  assert ((if n <? 0 then - (- q * 10 ^ L + r) else q * 10 ^ L + r) * base = n * 10 ^ L <-> (r = 0 \/ 0 <= n /\ base <= 10 * r)) as HI.
  { destruct (Z.eq_dec r 0) as [E0|N0].
    - split; [now left|]. intros _. destruct (n <? 0); nia.
    - specialize (L2 ltac:(lia)). destruct (Z.ltb_spec n 0).
      + split; [intros E; exfalso; nia|intros [?|?]; lia].
      + assert ((q * 10 ^ L + r) * base = n * 10 ^ L <-> base = 10 ^ L) as -> by (clearbody base; split; intros E; nia).
        assert (1 <= L) by (destruct (Z.eq_dec L 0) as [E|]; [rewrite E in L1; cbn in L1; lia|lia]).
        split.
        * intros EB. right. split; [lia|]. assert (10 ^ L = 10 * 10 ^ (L - 1)) by (rewrite <- Z.pow_succ_r by lia; f_equal; lia). lia.
        * intros [?|[_ HH]]; [lia|]. unfold base. f_equal. assert (10 ^ (L - 1) < 10 ^ k) as A1 by (fold base; lia). apply Z.pow_lt_mono_r_iff in A1; [|lia|lia].
          assert (10 ^ k < 10 ^ (L + 1)) as A2 by (fold base; rewrite Z.pow_add_r by lia; change (10 ^ 1) with 10; lia). apply Z.pow_lt_mono_r_iff in A2; lia. }
  split.
  - intros (num & d & HD' & E). destruct (money_unique _ _ _ _ _ HD HD') as [<- <-]. now apply HI.
  - intros H. exists (if n <? 0 then - (- q * 10 ^ L + r) else q * 10 ^ L + r), L. split; [exact HD|]. now apply HI.
Qed.
