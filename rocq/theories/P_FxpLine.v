(** Proofs about the lines of a code area. *)
From Verif Require Import PyBase PyStr M_FxpTab M_Fxp M_FxpCode S_Fxp P_FxpBin P_FxpCode.
Open Scope Z_scope.
Open Scope res_scope.

Lemma hex_digit_char n : 0 <= n < 16 -> hex_digit n = hex_char n.
Proof.
  intros H. unfold hex_digit, hex_char.
  assert (n = 0 \/ n = 1 \/ n = 2 \/ n = 3 \/ n = 4 \/ n = 5 \/ n = 6 \/ n = 7 \/ n = 8 \/ n = 9 \/ n = 10 \/ n = 11 \/ n = 12 \/ n = 13 \/ n = 14 \/ n = 15) as K by lia.
  repeat destruct K as [->|K]; try reflexivity. subst n. reflexivity.
Qed.
Lemma hex2_spec b : 0 <= b < 256 -> hex2 b = [hex_char (b / 16); hex_char (b mod 16)].
Proof.
  intros H. unfold hex2. rewrite !hex_digit_char; [reflexivity|apply Z.mod_pos_bound; lia|split; [apply Z.div_pos; lia|apply Z.div_lt_upper_bound; lia]].
Qed.
Lemma raw_text l : bytes l -> join (u " ") (map hex2 l) = hex_dump l.
Proof.
  intros H. destruct l as [|b l]; [reflexivity|]. revert b H. induction l as [|c l IH]; intros b H; inversion_clear H as [|? ? Hb Hl].
  - cbn [map join]. rewrite hex2_spec by exact Hb. reflexivity.
  - change (map hex2 (b :: c :: l)) with (hex2 b :: hex2 c :: map hex2 l). change (join (u " ") (hex2 b :: hex2 c :: map hex2 l)) with (hex2 b ++ u " " ++ join (u " ") (map hex2 (c :: l))).
    rewrite (IH c Hl), (hex2_spec b Hb). reflexivity.
Qed.
Lemma len_prefix n : 0 <= n < 65536 -> bytes [n mod 256; n / 256] /\ le [n mod 256; n / 256] = n.
Proof.
  intros H. pose proof (Z.mod_pos_bound n 256 ltac:(lia)). pose proof (Z.div_mod n 256 ltac:(lia)).
  assert (0 <= n / 256 < 256) by (split; [apply Z.div_pos; lia|apply Z.div_lt_upper_bound; lia]). split; [repeat constructor; lia|cbn [le]; lia].
Qed.
Lemma ushort_at pre n post : 0 <= n < 65536 -> read_ushort (pre ++ [n mod 256; n / 256] ++ post) (zlen pre) = Ok (n, zlen pre + 2).
Proof.
  intros H. unfold read_ushort. rewrite (read_le_at _ pre [n mod 256; n / 256] post eq_refl : read_le (pre ++ [n mod 256; n / 256] ++ post) (zlen pre) 2 = _).
  now rewrite (proj2 (len_prefix n H)).
Qed.
Lemma command_pos cv f p n line q : bytes f -> 0 <= p -> command_of cv f p n = Ok (line, q) -> p <= q.
Proof.
  intros HB Hp.
  assert (forall b r, fread f p n = Ok (b, r) -> p <= r) as HF.
  { intros b r. unfold fread. destruct (n <? -1); [discriminate|]. intros E; injection E as _ <-.
    match goal with |- _ <= _ + zlen ?x => pose proof (zlen_nonneg x) end. lia. }
  unfold command_of. cbv zeta. intros E.
  repeat match type of E with
  | match ?x with Z0 => _ | Zpos _ => _ | Zneg _ => _ end = _ => destruct x
  | match ?x with xH => _ | xO _ => _ | xI _ => _ end = _ => destruct x
  end.
  all: try (match type of E with match lookup ?t ?x with _ => _ end = _ => destruct (lookup t x); [injection E as _ <-; lia|discriminate E] end).
  all: try (injection E as _ <-; lia).
  all: try (destruct (fread f p n) as [[b r]|] eqn:EF; [|discriminate E]; cbn [rbind] in E; injection E as _ <-; now apply (HF b)).
  all: try (destruct (table_byte t_setcodes f p) as [[b r]|] eqn:EF; [|discriminate E]; cbn [rbind] in E; injection E as _ <-; now apply (table_fwd f HB) in EF).
  all: try (destruct (read_string f p) as [[b r]|] eqn:EF; [|discriminate E]; cbn [rbind] in E; injection E as _ <-; now apply (string_fwd f HB) in EF).
Qed.
Lemma line_step fuel o names pre l post : let f := pre ++ line_bytes l ++ post in
  bytes f -> zlen l + 2 < 65536 -> (2 * length f + 2 <= fuel)%nat ->
  exists t, code_line fuel o names f (zlen pre) = Some (Ok (t, zlen pre + zlen l + 2)) /\
    ((exists p, parse_line fuel o names f (zlen pre + 2) (zlen l) = Some (Ok (t, p))) \/
     (exists e, parse_line fuel o names f (zlen pre + 2) (zlen l) = Some (Err e)) /\ t = hex_dump l).
Proof.
  intros f HB HL HF. assert (0 <= zlen l) as Hl by apply zlen_nonneg. assert (0 <= zlen pre) as Hpre by apply zlen_nonneg.
  set (n := zlen l + 2) in *. assert (f = pre ++ [n mod 256; n / 256] ++ l ++ post) as Ef by (unfold f, line_bytes; fold n; now rewrite <- app_assoc).
  assert (read_ushort f (zlen pre) = Ok (n, zlen pre + 2)) as RU by (rewrite Ef; apply ushort_at; lia).
  assert (zlen f = zlen pre + 2 + zlen l + zlen post) as Lf by (rewrite Ef, !zlen_app; change (zlen [n mod 256; n / 256]) with 2; lia). pose proof (zlen_nonneg post).
  unfold code_line. rewrite RU. replace (n - 2) with (zlen l) by lia.
  assert (parse_line fuel o names f (zlen pre + 2) (zlen l) <> None) as NN.
  { unfold parse_line. destruct (read_byte f (zlen pre + 2)) as [[cv p1]|] eqn:EB; [|discriminate]. apply (byte_strict f HB) in EB as (-> & _ & _); [|lia]. cbn [rbind].
    destruct (command_of cv f (zlen pre + 2 + 1) (zlen l - 1)) as [[line q]|] eqn:EC; [|discriminate]. apply command_pos in EC; [|exact HB|lia].
    apply (proj2 (proj2 (enough o names f HB fuel))); [lia|]. unfold left, zlen in *. lia. }
  destruct (parse_line fuel o names f (zlen pre + 2) (zlen l)) as [[[t p]|e]|] eqn:EP; [| |congruence].
  - exists t. assert (p = zlen pre + 2 + zlen l) as ->.
    { unfold parse_line in EP. destruct (do (cv, p1) <- read_byte f (zlen pre + 2); command_of cv f p1 (zlen l - 1)) as [[line q]|]; [|discriminate EP].
      apply sub_pos in EP; lia. }
    split; [do 3 f_equal; lia|]. left. eauto.
  - exists (hex_dump l). cbn [rbind]. replace (n - 2) with (zlen l) by lia. unfold read_raw.
    rewrite (fread_at f (pre ++ [n mod 256; n / 256]) l post); [|rewrite Ef; now rewrite <- app_assoc|rewrite zlen_app; reflexivity|reflexivity]. cbn [rbind].
    rewrite raw_text by (rewrite Ef, !bytes_app in HB; tauto). split; [do 3 f_equal; lia|]. right. eauto.
Qed.
Lemma area_step fuel o names f : forall ls pre post, f = pre ++ area_bytes ls ++ post ->
  bytes f -> Forall (fun l => zlen l + 2 < 65536) ls -> (2 * length f + 2 <= fuel)%nat ->
  exists ts, line_area (length ls) fuel o names f (zlen pre) (zlen pre + zlen (area_bytes ls)) = Some (Ok ts) /\
    Forall2 (fun b t => let '(p, l) := b in (exists q, parse_line fuel o names f (p + 2) (zlen l) = Some (Ok (t, q))) \/
               (exists e, parse_line fuel o names f (p + 2) (zlen l) = Some (Err e)) /\ t = hex_dump l)
      (combine (map (fun k => zlen pre + zlen (area_bytes (firstn k ls))) (seq 0 (length ls))) ls) ts.
Proof.
  induction ls as [|l ls IH]; intros pre post Ef HB HL HF.
  - exists []. change (zlen (area_bytes [])) with 0. cbn [length line_area seq map combine]. rewrite Z.add_0_r, Z.ltb_irrefl. split; [reflexivity|constructor].
  - inversion_clear HL as [|? ? H1 H2]. assert (area_bytes (l :: ls) = line_bytes l ++ area_bytes ls) as EA by reflexivity.
    assert (zlen (line_bytes l) = zlen l + 2) as LL by (unfold line_bytes; rewrite zlen_app; change (zlen [_; _]) with 2; lia).
    rewrite EA, <- app_assoc in Ef. assert (f = (pre ++ line_bytes l) ++ area_bytes ls ++ post) as Ef2 by (rewrite Ef; now rewrite <- !app_assoc).
    destruct (IH _ _ Ef2 HB H2 HF) as (ts & R & F).
    destruct (line_step fuel o names pre l (area_bytes ls ++ post)) as (t & R1 & F1); [now rewrite <- Ef|exact H1|now rewrite <- Ef|]. rewrite <- Ef in R1, F1.
    exists (t :: ts). rewrite EA, zlen_app. pose proof (zlen_nonneg l). pose proof (zlen_nonneg (area_bytes ls)). cbn [length line_area].
    replace (negb (zlen pre <? zlen pre + (zlen (line_bytes l) + zlen (area_bytes ls)))) with false by (symmetry; apply negb_false_iff, Z.ltb_lt; lia).
    rewrite R1. rewrite zlen_app, LL in R. replace (zlen pre + (zlen (line_bytes l) + zlen (area_bytes ls))) with (zlen pre + (zlen l + 2) + zlen (area_bytes ls)) by lia.
    replace (zlen pre + zlen l + 2) with (zlen pre + (zlen l + 2)) by lia. rewrite R. split; [reflexivity|].
    cbn [seq map combine]. constructor.
    + change (zlen (area_bytes (firstn 0 (l :: ls)))) with 0. rewrite Z.add_0_r. exact F1.
    + rewrite <- seq_shift, map_map. erewrite map_ext; [exact F|]. intros k. cbn [firstn]. change (area_bytes (l :: firstn k ls)) with (line_bytes l ++ area_bytes (firstn k ls)).
      rewrite !zlen_app. lia.
Qed.
Lemma bad_prefix fuel o names pre n post : let f := pre ++ [n; 0] ++ post in bytes f -> (0 < fuel)%nat -> 0 <= n < 2 ->
  (exists e, parse_line fuel o names f (zlen pre + 2) (n - 2) = Some (Err e)) \/
  (exists t, parse_line fuel o names f (zlen pre + 2) (n - 2) = Some (do (_, p) <- fread f (zlen pre + 2) (n - 2); Ok (t, p))).
Proof.
  intros f HB HF Hn. unfold parse_line. pose proof (zlen_nonneg pre). destruct (read_byte f (zlen pre + 2)) as [[cv p1]|] eqn:EB; cbn [rbind]; [|left; eauto].
  apply (byte_strict f HB) in EB as (-> & _ & _); [|lia]. destruct (command_of cv f (zlen pre + 2 + 1) (n - 2 - 1)) as [[line q]|] eqn:EC; [|left; eauto].
  apply command_pos in EC; [|exact HB|lia]. destruct fuel as [|k]; [lia|]. cbn [subline].
  replace (negb (q <? zlen pre + 2 + (n - 2))) with true by (symmetry; apply negb_true_iff, Z.ltb_ge; lia).
  right. exists (subline_text line). now replace (zlen pre + 2 + (n - 2) - (n - 2)) with (zlen pre + 2) by lia.
Qed.
Lemma zero_prefix fuel o names pre post : bytes (pre ++ [0; 0] ++ post) -> (0 < fuel)%nat ->
  code_line fuel o names (pre ++ [0; 0] ++ post) (zlen pre) = Some (Err ValueError).
Proof.
  intros HB HF. assert (read_ushort (pre ++ [0; 0] ++ post) (zlen pre) = Ok (0, zlen pre + 2)) as RU by exact (ushort_at pre 0 post ltac:(lia)).
  unfold code_line. rewrite RU. destruct (bad_prefix fuel o names pre 0 post HB HF ltac:(lia)) as [[e ->]|[t ->]]; reflexivity.
Qed.
Lemma one_prefix fuel o names pre post : bytes (pre ++ [1; 0] ++ post) -> (0 < fuel)%nat ->
  exists t, code_line fuel o names (pre ++ [1; 0] ++ post) (zlen pre) = Some (Ok (t, zlen (pre ++ [1; 0] ++ post))).
Proof.
  intros HB HF. assert (read_ushort (pre ++ [1; 0] ++ post) (zlen pre) = Ok (1, zlen pre + 2)) as RU by exact (ushort_at pre 1 post ltac:(lia)).
  assert (exists b, fread (pre ++ [1; 0] ++ post) (zlen pre + 2) (-1) = Ok (b, zlen (pre ++ [1; 0] ++ post))) as [b EF].
  { unfold fread. cbn [Z.ltb Z.compare Z.eqb Pos.compare Pos.compare_cont CompOpp Pos.eqb]. exists post. pose proof (zlen_nonneg post).
    assert (zlen (pre ++ [1; 0]) = zlen pre + 2) as L by (rewrite zlen_app; reflexivity).
    rewrite Z.min_l by (rewrite !zlen_app; change (zlen [1; 0]) with 2; lia). rewrite <- L. replace (pre ++ [1; 0] ++ post) with ((pre ++ [1; 0]) ++ post) by (now rewrite <- app_assoc).
    rewrite skipn_zlen, (zlen_app (pre ++ [1; 0])). reflexivity. }
  unfold code_line. rewrite RU. destruct (bad_prefix fuel o names pre 1 post HB HF ltac:(lia)) as [[e ->]|[t ->]]; cbn [rbind]; change (1 - 2) with (-1).
  - unfold read_raw. rewrite EF. cbn [rbind]. eauto.
  - rewrite EF. cbn [rbind]. eauto.
Qed.

(** ** decoding ends on any bytes *)
Lemma fread_ge f p n b q : fread f p n = Ok (b, q) -> p <= q.
Proof. unfold fread. destruct (n <? -1); [discriminate|]. intros E; injection E as _ <-. match goal with |- _ <= _ + zlen ?x => pose proof (zlen_nonneg x) end. lia. Qed.
Lemma sub_ge o names f k p n e line prev t p' : subline k o names f p n e line prev = Some (Ok (t, p')) -> e - n <= p'.
Proof.
  revert p line prev; induction k as [|k IH]; intros p line prev E; [discriminate|]. cbn [subline] in E. cbv zeta in E.
  destruct (negb (p <? e)).
  - injection E as E. destruct (fread f (e - n) n) as [[b q]|] eqn:EF; [|discriminate E]. cbn [rbind] in E. injection E as _ <-. now apply fread_ge in EF.
  - destruct (read_byte f p) as [[cv q]|]; [|discriminate E].
    destruct (match clause_of o names cv with Some c => Some c | None => match prev with Some i => Some (CStale i) | None => None end end) as [c|]; [|discriminate E].
    destruct c; try (now apply IH in E).
    + destruct (r f q) as [[i q']|]; [|discriminate E]. destruct i; try (now apply IH in E).
      destruct ((cv =? 246) || (cv =? 247)); [|now apply IH in E]. destruct (merge_aliases line s). now apply IH in E.
    + destruct (next_code k o names f q []) as [[[[? ?] ?]|]|]; try discriminate E. now apply IH in E.
    + destruct (expr_loop k o names f q []) as [[[? ?]|]|]; try discriminate E. now apply IH in E.
Qed.
Lemma code_line_total o names f fuel p : bytes f -> 0 <= p -> (2 * length f + 2 <= fuel)%nat ->
  code_line fuel o names f p <> None /\ forall t q, code_line fuel o names f p = Some (Ok (t, q)) -> p + 2 <= q /\ p + 2 <= zlen f.
Proof.
  intros HB Hp HF. unfold code_line. destruct (read_ushort f p) as [[n p1]|] eqn:EU; [|split; [discriminate|intros t q E; discriminate E]].
  assert (p + 2 <= zlen f) as HL.
  { unfold read_ushort, read_le in EU. destruct (fread f p 2) as [[b q]|] eqn:E1; [|discriminate EU]. cbn [rbind] in EU. destruct (fread_len f p 2 b q Hp ltac:(lia) E1) as [L1 L2].
    unfold unpack_le in EU. destruct (Z.eqb_spec (zlen b) 2); [lia|discriminate EU]. }
  apply (ushort_spec f HB) in EU as [-> Hn]; [|exact Hp].
  assert (parse_line fuel o names f (p + 2) (n - 2) <> None) as NN.
  { unfold parse_line. destruct (read_byte f (p + 2)) as [[cv p1]|] eqn:EB; [|discriminate]. apply (byte_strict f HB) in EB as (-> & _ & _); [|lia]. cbn [rbind].
    destruct (command_of cv f (p + 2 + 1) (n - 2 - 1)) as [[line q]|] eqn:EC; [|discriminate]. apply command_pos in EC; [|exact HB|lia].
    apply (proj2 (proj2 (enough o names f HB fuel))); [lia|]. unfold left, zlen in *. lia. }
  destruct (parse_line fuel o names f (p + 2) (n - 2)) as [[[t q]|e]|] eqn:EP; [| |congruence].
  - split; [discriminate|]. intros t' q' E. injection E as <- <-. split; [|exact HL].
    unfold parse_line in EP. destruct (do (cv, p1) <- read_byte f (p + 2); command_of cv f p1 (n - 2 - 1)) as [[line q0]|]; [|discriminate EP]. apply sub_ge in EP; lia.
  - split; [discriminate|]. intros t' q' E. split; [|exact HL]. injection E as E. cbn [rbind] in E. unfold read_raw in E.
    destruct (fread f (p + 2) (n - 2)) as [[b q]|] eqn:EF; [|discriminate E]. cbn [rbind] in E. injection E as _ <-. now apply fread_ge in EF.
Qed.
Lemma area_total o names f fuel final : bytes f -> (2 * length f + 2 <= fuel)%nat -> forall rounds p, 0 <= p -> (Z.to_nat (zlen f - p) < rounds)%nat ->
  line_area rounds fuel o names f p final <> None.
Proof.
  intros HB HF rounds. induction rounds as [|k IH]; intros p Hp HR; [lia|]. cbn [line_area]. destruct (negb (p <? final)); [discriminate|].
  destruct (code_line_total o names f fuel p HB Hp HF) as [H1 H2]. destruct (code_line fuel o names f p) as [[[t q]|]|]; [|discriminate|congruence].
  destruct (H2 t q eq_refl) as [H3 H4]. specialize (IH q ltac:(lia) ltac:(lia)). destruct (line_area k fuel o names f q final) as [[|]|]; [discriminate|discriminate|congruence].
Qed.
(** A line whose length prefix is [n] >= 2: whatever it holds, the next line is [n] bytes further (or the file has ended) *)
Lemma code_line_sync o names f fuel p n t q : bytes f -> 0 <= p -> read_ushort f p = Ok (n, p + 2) -> 2 <= n ->
  code_line fuel o names f p = Some (Ok (t, q)) -> q = Z.min (p + n) (Z.max (p + 2) (zlen f)).
Proof.
  intros HB Hp EU Hn E. unfold code_line in E. rewrite EU in E.
  destruct (parse_line fuel o names f (p + 2) (n - 2)) as [[[t' q']|e]|] eqn:EP; [| |discriminate].
  - injection E as <- <-. unfold parse_line in EP. destruct (do (cv, p1) <- read_byte f (p + 2); command_of cv f p1 (n - 2 - 1)) as [[line q0]|]; [|discriminate EP].
    apply sub_pos in EP; lia.
  - cbn [rbind] in E. injection E as E. unfold read_raw in E. destruct (fread f (p + 2) (n - 2)) as [[b r]|] eqn:EF; [|discriminate E]. cbn [rbind] in E. injection E as _ <-.
    destruct (fread_len f (p + 2) (n - 2) b r ltac:(lia) ltac:(lia) EF). lia.
Qed.
