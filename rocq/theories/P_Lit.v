(** Lemmas about constants. *)
From Verif Require Import PyBase PyStr M_Lit S_Lit P_Dates.
Open Scope Z_scope.

Lemma numeral_snoc_inv s c n : numeral (s ++ [c]) n -> exists m, numeral s m /\ 48 <= c <= 57 /\ n = 10 * m + (c - 48).
Proof.
  intros H. inversion H as [E|s' c' m N R E].
  - symmetry in E. apply app_eq_nil in E. destruct E as [_ E]. discriminate.
  - apply app_inj_tail in E. destruct E as [-> ->]. eauto.
Qed.
Lemma numeral_iff s n : numeral s n <-> decimal s /\ n = digits_value s.
Proof.
  unfold decimal. revert n. induction s as [|c s IH] using rev_ind; intros n.
  - split; [|intros [_ ->]; constructor]. intros H. inversion H as [E|s' c' m N R E].
    + split; [constructor|reflexivity].
    + apply app_eq_nil in E. destruct E as [_ E]. discriminate.
  - rewrite digits_value_snoc, Forall_app. split.
    + intros H. apply numeral_snoc_inv in H. destruct H as (m & N & R & ->). apply IH in N. destruct N as [D ->]. repeat split; [exact D|constructor; [lia|constructor]|lia].
    + intros ((D & C) & ->). inversion C; subst.
      replace (digits_value s * 10 + (c - 48)) with (10 * digits_value s + (c - 48)) by lia. constructor; [apply IH; auto|lia].
Qed.
Lemma decimal_forallb s : decimal s <-> forallb is_digit s = true.
Proof.
  unfold decimal. rewrite forallb_forall, Forall_forall. unfold is_digit. split; intros H c I; specialize (H c I); [rewrite andb_true_iff, !Z.leb_le; lia|].
  rewrite andb_true_iff, !Z.leb_le in H. lia.
Qed.
Lemma numeral_0 : numeral (u "0") 0.
Proof. exact (nu_snoc [] 48 0 nu_nil ltac:(lia)). Qed.
Lemma digits_no_zero fuel : forall n, 0 < n -> Z.log2 n < Z.of_nat fuel -> hd 0 (digits fuel n) <> 48.
Proof.
  induction fuel as [|f IH]; intros n H L; [pose proof (Z.log2_nonneg n); lia|]. cbn [digits]. destruct (Z.ltb_spec n 10); [cbn [hd]; lia|].
  pose proof (log2_div10 n ltac:(lia)). assert (0 < n / 10) by (apply Z.div_str_pos; lia). specialize (IH (n / 10) ltac:(lia) ltac:(lia)).
  destruct (digits f (n / 10)) as [|d l] eqn:E; [|exact IH]. exfalso. destruct (digits_spec f (n / 10)) as (_ & _ & N); [lia|lia|]. exact (N E).
Qed.
Lemma dec_reads n : 0 <= n -> py_reads (dec n) (PI n).
Proof.
  intros H. rewrite dec_nonneg by exact H. destruct (dec_nat_spec n H) as (V & D & N). apply py_int; [exact N| |].
  - apply numeral_iff. split; [apply decimal_forallb; exact D|symmetry; exact V].
  - destruct (Z.eq_dec n 0) as [->|]; [right; reflexivity|left]. apply digits_no_zero; [lia|]. pose proof (Z.log2_nonneg n). lia.
Qed.
Lemma numeral_nonneg s n : numeral s n -> 0 <= n.
Proof. induction 1; lia. Qed.

Definition plain (s : pystr) : Prop := Forall (fun c => c = 46 \/ 48 <= c <= 57) s.
Lemma decimal_plain s : decimal s -> plain s.
Proof. intros H. eapply Forall_impl; [|exact H]. cbn. intros. right. assumption. Qed.
Lemma numeral_decimal s n : numeral s n -> decimal s.
Proof. intros H. apply numeral_iff in H. apply H. Qed.
Lemma mantissa_plain s m e : mantissa s m e -> plain s.
Proof.
  intros [(_ & N & _)|(a & b & -> & _ & N & _)]; [apply decimal_plain; apply numeral_decimal in N; exact N|].
  apply numeral_decimal in N. apply Forall_app in N. destruct N as [A B]. apply Forall_app. split; [apply decimal_plain; exact A|constructor; [left; reflexivity|apply decimal_plain; exact B]].
Qed.
Lemma plain_lower s : plain s -> map lower_char s = s.
Proof.
  induction 1 as [|c s H _ IH]; [reflexivity|]. cbn [map]. rewrite IH. f_equal. unfold lower_char. destruct (Z.leb_spec 65 c); [|reflexivity]. lia.
Qed.
Lemma has_false c s : Forall (fun d => d <> c) s -> has c s = false.
Proof. induction 1 as [|d s H _ IH]; [reflexivity|]. unfold has in *. cbn [existsb]. rewrite IH. destruct (Z.eqb_spec c d); [congruence|reflexivity]. Qed.
Lemma has_app c a b : has c (a ++ b) = has c a || has c b.
Proof. apply existsb_app. Qed.
Lemma has_true c s : In c s -> has c s = true.
Proof. intros H. apply existsb_exists. exists c. split; [exact H|apply Z.eqb_refl]. Qed.
Lemma plain_has c s : plain s -> 58 <= c -> has c s = false.
Proof. intros H L. apply has_false. eapply Forall_impl; [|exact H]. cbn. lia. Qed.

Lemma convert_plain {F} (flt : pystr -> F) s : plain s -> convert_number flt s = match int_text s with Some n => NInt n | None => NFloat (flt s) end.
Proof. intros H. unfold convert_number. rewrite plain_lower by exact H. rewrite !plain_has by (exact H || lia). reflexivity. Qed.
Lemma int_text_numeral s n : s <> [] -> numeral s n -> int_text s = Some n.
Proof.
  intros E H. apply numeral_iff in H. destruct H as [D ->]. apply decimal_forallb in D. unfold int_text. destruct s; [congruence|]. rewrite D. reflexivity.
Qed.
Lemma int_text_point s : In 46 s -> int_text s = None.
Proof.
  intros H. unfold int_text. destruct s; [reflexivity|]. destruct (forallb is_digit (z :: s)) eqn:E; [|reflexivity].
  rewrite forallb_forall in E. specialize (E 46 H). discriminate E.
Qed.
Lemma convert_int {F} (flt : pystr -> F) s n : s <> [] -> numeral s n -> convert_number flt s = NInt n.
Proof. intros E H. rewrite convert_plain by (apply decimal_plain; apply numeral_decimal in H; exact H). rewrite (int_text_numeral s n E H). reflexivity. Qed.

Lemma hexadecimal_chars s n : hexadecimal s n -> Forall (fun c => exists d, hex_value1 c d) s.
Proof. induction 1; [constructor|]. apply Forall_app. split; [assumption|constructor; [eauto|constructor]]. Qed.
Lemma hexadecimal_lower s n : hexadecimal s n -> hexadecimal (map lower_char s) n.
Proof.
  induction 1 as [|s c n d H IH V]; [constructor|]. rewrite map_app. cbn [map]. constructor; [exact IH|]. unfold hex_value1, lower_char in *.
  destruct (Z.leb_spec 65 c); destruct (Z.leb_spec c 90); cbn [andb]; lia.
Qed.
Lemma exp_sign_lower sg n : exp_sign sg n -> map lower_char sg = sg /\ has 120 sg = false /\ has 101 sg = false.
Proof. intros [(-> & _)|[(-> & _)|(-> & _)]]; repeat split; reflexivity. Qed.
Lemma last_app (a b : pystr) d : b <> [] -> last (a ++ b) d = last b d.
Proof.
  intros H. induction a as [|x a IH]; [reflexivity|]. cbn [app]. destruct (a ++ b) eqn:E; [apply app_eq_nil in E; destruct E; congruence|].
  cbn [last]. exact IH.
Qed.
Lemma numeral_last s n : numeral s n -> s <> [] -> 48 <= last s 0 <= 57.
Proof. intros H E. destruct H as [|s c n H R]; [congruence|]. rewrite last_app by discriminate. exact R. Qed.

(** How the text of an exponent literal comes out *)
Lemma convert_exp {F} (flt : pystr -> F) s m e c sg n x k : mantissa s m e -> c = 101 \/ c = 69 -> exp_sign sg n -> numeral x k ->
  convert_number flt (s ++ c :: sg ++ x) = NCode (s ++ 101 :: sg ++ x ++ match sg ++ x with [] => u "0" | _ => [] end).
Proof.
  intros M C S X. unfold convert_number. pose proof (mantissa_plain _ _ _ M) as P. pose proof (decimal_plain _ (numeral_decimal _ _ X)) as PX.
  destruct (exp_sign_lower _ _ S) as (L & S1 & S2).
  assert (E : map lower_char (s ++ c :: sg ++ x) = s ++ 101 :: sg ++ x).
  { rewrite map_app. cbn [map]. rewrite map_app, L, !plain_lower by assumption. f_equal. f_equal. destruct C as [-> | ->]; reflexivity. }
  rewrite E. clear E. rewrite (has_app 120), (has_app 101). cbn [has existsb]. fold (has 120 (sg ++ x)). fold (has 101 (sg ++ x)). rewrite !has_app, S1, S2, !plain_has by (assumption || lia).
  rewrite last_app by discriminate. cbn -[last u]. rewrite orb_false_r. f_equal.
  destruct (sg ++ x) as [|y l] eqn:Q.
  - apply app_eq_nil in Q. destruct Q as [-> ->]. cbn [last]. rewrite Z.eqb_refl. rewrite <- app_assoc. reflexivity.
  - destruct (Z.eqb_spec (last (101 :: y :: l) 0) 101) as [H|_]; [|rewrite app_assoc, app_nil_r, Q; reflexivity]. exfalso. change (last (y :: l) 0 = 101) in H. rewrite <- Q in H.
    destruct x as [|x0 x'] eqn:EX; [|rewrite last_app in H by discriminate; pose proof (numeral_last _ _ X ltac:(discriminate)); lia].
    rewrite app_nil_r in *. destruct S as [(-> & _)|[(-> & _)|(-> & _)]]; cbn in H; try discriminate.
Qed.
Lemma convert_hex {F} (flt : pystr -> F) x s n : x = 120 \/ x = 88 -> hexadecimal s n ->
  convert_number flt (48 :: x :: s) = NCode (48 :: 120 :: map lower_char s ++ match s with [] => u "0" | _ => [] end).
Proof.
  intros X H. unfold convert_number. assert (E : map lower_char (48 :: x :: s) = 48 :: 120 :: map lower_char s) by (cbn [map]; destruct X as [-> | ->]; reflexivity).
  rewrite E. clear E. cbn -[u Nat.eqb lower_char]. f_equal. destruct s as [|c s]; [reflexivity|]. cbn -[u lower_char]. rewrite app_nil_r. reflexivity.
Qed.

(** Python's reading of str_repr *)
Lemma hexv_digit d : 0 <= d < 16 -> hexv (hex_digit d) = Some d.
Proof.
  intros H. unfold hex_digit, hexv. destruct (Z.ltb_spec d 10).
  - destruct (Z.leb_spec 48 (48 + d)); destruct (Z.leb_spec (48 + d) 57); cbn [andb]; try lia. f_equal. lia.
  - destruct (Z.leb_spec 48 (87 + d)); destruct (Z.leb_spec (87 + d) 57); destruct (Z.leb_spec 97 (87 + d)); destruct (Z.leb_spec (87 + d) 102); cbn [andb]; try lia. f_equal. lia.
Qed.
Lemma hexes_snoc a c l : hexes a (l ++ [c]) = match hexes a l with Some n => match hexv c with Some d => Some (16 * n + d) | None => None end | None => None end.
Proof. revert a. induction l as [|x l IH]; intros a; cbn [app hexes]; [reflexivity|]. destruct (hexv x); [apply IH|reflexivity]. Qed.
Lemma hex_n_spec k : forall c, 0 <= c < 16 ^ Z.of_nat k -> hexes 0 (hex_n k c) = Some c /\ length (hex_n k c) = k.
Proof.
  induction k as [|k IH]; intros c H; [cbn in H; cbn; split; [f_equal; lia|reflexivity]|]. cbn [hex_n]. rewrite Nat2Z.inj_succ, Z.pow_succ_r in H by lia.
  destruct (IH (c / 16)) as [E L]; [split; [apply Z.div_pos; lia|apply Z.div_lt_upper_bound; lia]|]. rewrite hexes_snoc, E, hexv_digit by (apply Z.mod_pos_bound; lia).
  rewrite app_length, L. cbn [length]. split; [|lia]. f_equal. pose proof (Z.div_mod c 16). lia.
Qed.
Lemma hex_n_shape k c : 0 <= c < 16 ^ Z.of_nat k -> exists l, hex_n k c = l /\ length l = k /\ hexes 0 l = Some c.
Proof. intros H. destruct (hex_n_spec k c H). eauto. Qed.
Lemma body_char wide p q c r : (q = 39 \/ q = 34) -> 0 <= c <= 1114111 -> (wide = true \/ c < 256) ->
  lit_body wide q (repr_char p q c ++ r) = push c (lit_body wide q r).
Proof.
  intros Q C W. unfold repr_char.
  destruct (Z.eqb_spec c q) as [->|NQ]. { cbn [orb app lit_body]. destruct Q as [-> | ->]; reflexivity. }
  destruct (Z.eqb_spec c 92) as [->|N92]; [reflexivity|]. cbn [orb].
  destruct (Z.eqb_spec c 9) as [->|N9]; [reflexivity|]. destruct (Z.eqb_spec c 10) as [->|N10]; [reflexivity|]. destruct (Z.eqb_spec c 13) as [->|N13]; [reflexivity|].
  assert (HX : forall (H : c <= 255), lit_body wide q ((u "\x" ++ hex_n 2 c) ++ r) = push c (lit_body wide q r)).
  { intros H. destruct (hex_n_shape 2 c) as (l & -> & L & V); [cbn; lia|]. destruct l as [|a [|b [|? ?]]]; try discriminate L. rewrite <- app_assoc. cbn -[hexes]. rewrite V. reflexivity. }
  assert (HP : c <> 0 -> lit_body wide q ([c] ++ r) = push c (lit_body wide q r)).
  { intros H0. cbn [app lit_body]. destruct (Z.eqb_spec c 92); [congruence|]. destruct (Z.eqb_spec c q); [congruence|].
    destruct (Z.eqb_spec c 10); [congruence|]. destruct (Z.eqb_spec c 13); [congruence|]. destruct (Z.eqb_spec c 0); [congruence|]. reflexivity. }
  destruct (Z.ltb_spec c 32); cbn [orb]; [apply HX; lia|]. destruct (Z.eqb_spec c 127); [apply HX; lia|]. destruct (Z.ltb_spec c 127); [apply HP; lia|].
  destruct (p c); [apply HP; lia|]. destruct (Z.leb_spec c 255); [apply HX; lia|]. destruct W as [-> |W]; [|lia].
  destruct (Z.leb_spec c 65535).
  - destruct (hex_n_shape 4 c) as (l & -> & L & V); [cbn; lia|]. destruct l as [|a1 [|a2 [|a3 [|a4 [|? ?]]]]]; try discriminate L. rewrite <- app_assoc. cbn -[hexes]. rewrite V. reflexivity.
  - destruct (hex_n_shape 8 c) as (l & -> & L & V); [cbn; lia|]. destruct l as [|a1 [|a2 [|a3 [|a4 [|a5 [|a6 [|a7 [|a8 [|? ?]]]]]]]]]; try discriminate L.
    rewrite <- app_assoc. cbn -[hexes Z.leb]. rewrite V. destruct (Z.leb_spec c 1114111); [reflexivity|lia].
Qed.
Lemma quote_cases s : quote_of s = 39 \/ quote_of s = 34.
Proof. unfold quote_of. destruct (has 39 s && negb (has 34 s)); auto. Qed.
Lemma repr_reads wide p s : Forall (fun c => 0 <= c <= 1114111) s -> (wide = true \/ Forall (fun c => c < 256) s) -> string_literal wide (str_repr p s) = Some s.
Proof.
  intros H W. unfold str_repr. pose proof (quote_cases s) as Q. set (q := quote_of s) in *. unfold string_literal. replace ((q =? 39) || (q =? 34)) with true by (destruct Q as [-> | ->]; reflexivity).
  clearbody q. induction s as [|c s IH].
  - cbn [map concat app lit_body]. destruct Q as [-> | ->]; reflexivity.
  - cbn [map concat]. rewrite <- app_assoc. inversion H; subst. rewrite body_char; [|exact Q|assumption|destruct W as [W|W]; [auto|right; inversion W; assumption]].
    rewrite IH; [reflexivity|assumption|destruct W as [W|W]; [auto|right; inversion W; assumption]].
Qed.
