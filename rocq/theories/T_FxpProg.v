(** Property C99: decompiling the procedures and classes of a compiled program. *)
From Verif Require Import PyBase PyStr M_Dates M_Fxp M_FxpCode M_FxpProg S_Fxp S_FxpExpr P_Dates P_FxpBin P_FxpExpr T_Fxp T_FxpCode.
Open Scope Z_scope.
Open Scope res_scope.

(** The parts of a compiled program as bytes: signed numbers, the headers of procedures and classes, the header of the program. *)
Definition s16 (n : Z) : list Z := le16 (n mod 65536).
Definition s32 (n : Z) : list Z := le32 (n mod 2 ^ 32).
Record phead := mkPH { ph_name : pystr; ph_pos : Z; ph_flag : Z; ph_class : Z }.
Record chead := mkCH { ch_name : pystr; ch_parent : pystr; ch_pos : Z; ch_rest : Z }.
Definition phead_bytes (h : phead) : list Z := name_bytes (ph_name h) ++ le32 (ph_pos h) ++ s16 (ph_flag h) ++ s16 (ph_class h).
Definition chead_bytes (h : chead) : list Z := name_bytes (ch_name h) ++ name_bytes (ch_parent h) ++ le32 (ch_pos h) ++ s16 (ch_rest h).
Definition block_head (np nc main pp cp sp nl lp date op page : Z) : list Z :=
  s16 np ++ s16 nc ++ s32 main ++ s32 pp ++ s32 cp ++ s32 sp ++ s32 nl ++ s32 lp ++ le32 date ++ le32 op ++ [page].
Definition int16 n := - 32768 <= n < 32768.
Definition int32 n := - 2 ^ 31 <= n < 2 ^ 31.
Definition ok_phead (h : phead) : Prop := zlen (ph_name h) < 65536 /\ 0 <= ph_pos h < 2 ^ 32 /\ int16 (ph_flag h) /\ int16 (ph_class h).
Definition ok_chead (h : chead) : Prop := zlen (ch_name h) < 65536 /\ zlen (ch_parent h) < 65536 /\ 0 <= ch_pos h < 2 ^ 32.
(** A compiled program in a file: its header at start, the headers of its procedures and classes and its line information where the
    header says, the name of its source in the table of names. *)
Record layout (f : list Z) (start name_pos : Z) (pages : Z -> bool) (main : Z) (ps : list phead) (cs : list chead) : Prop := {
  l_start : 0 <= start;
  l_main : int32 main /\ 0 <= start + main;
  l_ps : Forall ok_phead ps /\ zlen ps < 32768;
  l_cs : Forall ok_chead cs /\ zlen cs < 32768;
  l_head : exists pp cp sp nl lp y mo d h mi s op page,
    At f start (block_head (zlen ps) (zlen cs) main pp cp sp nl lp (dos_pack y mo d h mi s) op page) /\
    int32 pp /\ int32 cp /\ int32 sp /\ int32 nl /\ int32 lp /\ 0 <= start + lp /\
    (1980 <= y <= 2107 /\ 1 <= mo <= 12 /\ 1 <= d <= month_length y mo /\ 0 <= h <= 23 /\ 0 <= mi <= 59 /\ 0 <= s <= 59 /\ s mod 2 = 0) /\
    0 <= op < 2 ^ 32 /\ pages (255 - page) = true /\
    At f (start + pp) (concat (map phead_bytes ps)) /\ At f (start + cp) (concat (map chead_bytes cs)) /\
    (exists info, At f (start + sp) info /\ zlen info = 16 * (zlen ps + zlen cs + 1)) /\
    (exists name, At f (name_pos + op) (name ++ [0]) /\ ~ In 0 name) }.

Lemma At_nonneg f p bs : At f p bs -> 0 <= p. Proof. intros (pre & post & _ & <-). apply zlen_nonneg. Qed.
Lemma seek_ok {A} p (r : res A) : 0 <= p -> seek p r = r. Proof. intros H. unfold seek. destruct (Z.ltb_spec p 0); [lia|reflexivity]. Qed.
Lemma le_le16 n : 0 <= n < 65536 -> le (le16 n) = n. Proof. intros H. unfold le16. cbn [le]. pose proof (Z.div_mod n 256 ltac:(lia)). lia. Qed.
Lemma le_le32 n : 0 <= n < 2 ^ 32 -> le (le32 n) = n.
Proof.
  intros H. unfold le32. cbn [le]. pose proof (Z.div_mod n 256 ltac:(lia)). pose proof (Z.div_mod (n / 256) 256 ltac:(lia)). pose proof (Z.div_mod (n / 65536) 256 ltac:(lia)).
  replace (n / 65536) with (n / 256 / 256) in * by (rewrite Z.div_div by lia; reflexivity). replace (n / 16777216) with (n / 256 / 256 / 256) in * by (rewrite !Z.div_div by lia; reflexivity). lia.
Qed.
Lemma s16_val n : int16 n -> signed 16 (le (s16 n)) = n.
Proof.
  intros H. unfold int16 in H. unfold s16. rewrite le_le16 by (apply Z.mod_pos_bound; lia). unfold signed. change (2 ^ (16 - 1)) with 32768. change (2 ^ 16) with 65536.
  destruct (Z.lt_ge_cases n 0).
  - replace (n mod 65536) with (n + 65536) by (symmetry; rewrite <- (Z.mod_add n 1) by lia; apply Z.mod_small; lia). destruct (Z.ltb_spec (n + 65536) 32768); lia.
  - rewrite Z.mod_small by lia. destruct (Z.ltb_spec n 32768); lia.
Qed.
Lemma s32_val n : int32 n -> signed 32 (le (s32 n)) = n.
Proof.
  intros H. unfold int32 in H. change (2 ^ 31) with 2147483648 in H. unfold s32. change (2 ^ 32) with 4294967296. rewrite le_le32 by (change (2 ^ 32) with 4294967296; apply Z.mod_pos_bound; lia). unfold signed. change (2 ^ (32 - 1)) with 2147483648. change (2 ^ 32) with 4294967296.
  destruct (Z.lt_ge_cases n 0).
  - replace (n mod 4294967296) with (n + 4294967296) by (symmetry; rewrite <- (Z.mod_add n 1) by lia; apply Z.mod_small; lia). destruct (Z.ltb_spec (n + 4294967296) 2147483648); lia.
  - rewrite Z.mod_small by lia. destruct (Z.ltb_spec n 2147483648); lia.
Qed.
Lemma At_short f p n : At f p (s16 n) -> int16 n -> read_short f p = Ok (n, p + 2).
Proof.
  intros A H. unfold read_short, read_le. change 2 with (zlen (s16 n)). rewrite (At_read f p (s16 n) A). cbn [rbind]. unfold unpack_le. rewrite Z.eqb_refl. cbn [rbind]. now rewrite s16_val.
Qed.
Lemma phead_at f p h : At f p (phead_bytes h) -> ok_phead h -> proc_head f p = Ok ((ph_name h, ph_pos h, ph_flag h), p + zlen (phead_bytes h)).
Proof.
  intros A (H1 & H2 & H3 & H4). unfold phead_bytes in *. apply At_app in A as [A1 A]. apply At_app in A as [A2 A]. apply At_app in A as [A3 A4].
  unfold proc_head. rewrite (string_at f p _ A1 H1). cbn [rbind]. unfold name_bytes in A2, A3, A4. rewrite zlen_app in A2, A3, A4. change (zlen (le16 (zlen (ph_name h)))) with 2 in *. change (zlen (le32 (ph_pos h))) with 4 in *. change (zlen (s16 (ph_flag h))) with 2 in *.
  rewrite (T_FxpCode.At_uint f (p + 2 + zlen (ph_name h)) (ph_pos h)); [|replace (p + 2 + zlen (ph_name h)) with (p + (2 + zlen (ph_name h))) by lia; exact A2|exact H2]. cbn [rbind].
  rewrite (At_short f _ (ph_flag h)); [|replace (p + 2 + zlen (ph_name h) + 4) with (p + (2 + zlen (ph_name h)) + 4) by lia; exact A3|exact H3]. cbn [rbind].
  rewrite (At_short f _ (ph_class h)); [|replace (p + 2 + zlen (ph_name h) + 4 + 2) with (p + (2 + zlen (ph_name h)) + 4 + 2) by lia; exact A4|exact H4]. cbn [rbind].
  do 2 f_equal. unfold name_bytes. rewrite !zlen_app. change (zlen (le16 (zlen (ph_name h)))) with 2. change (zlen (le32 (ph_pos h))) with 4. change (zlen (s16 (ph_flag h))) with 2. change (zlen (s16 (ph_class h))) with 2. lia.
Qed.
Lemma chead_at f p h : At f p (chead_bytes h) -> ok_chead h -> class_head f p = Ok ((ch_name h, ch_parent h, ch_pos h), p + zlen (chead_bytes h)).
Proof.
  intros A (H1 & H2 & H3). unfold chead_bytes in *. apply At_app in A as [A1 A]. apply At_app in A as [A2 A]. apply At_app in A as [A3 A4].
  unfold class_head. rewrite (string_at f p _ A1 H1). cbn [rbind]. unfold name_bytes in A2, A3, A4. rewrite (zlen_app (le16 (zlen (ch_name h)))) in A2, A3, A4. rewrite (zlen_app (le16 (zlen (ch_parent h)))) in A3, A4. change (zlen (le16 (zlen (ch_name h)))) with 2 in *. change (zlen (le16 (zlen (ch_parent h)))) with 2 in *. change (zlen (le32 (ch_pos h))) with 4 in *.
  rewrite (string_at f (p + 2 + zlen (ch_name h)) (ch_parent h)); [|replace (p + 2 + zlen (ch_name h)) with (p + (2 + zlen (ch_name h))) by lia; exact A2|exact H2]. cbn [rbind].
  rewrite (T_FxpCode.At_uint f _ (ch_pos h)); [|replace (p + 2 + zlen (ch_name h) + 2 + zlen (ch_parent h)) with (p + (2 + zlen (ch_name h)) + (2 + zlen (ch_parent h))) by lia; exact A3|exact H3]. cbn [rbind].
  change 2 with (zlen (s16 (ch_rest h))) at 3. rewrite (At_read f _ (s16 (ch_rest h))); [|replace (p + 2 + zlen (ch_name h) + 2 + zlen (ch_parent h) + 4) with (p + (2 + zlen (ch_name h)) + (2 + zlen (ch_parent h)) + 4) by lia; exact A4]. cbn [rbind].
  do 2 f_equal. unfold name_bytes. rewrite !zlen_app. change (zlen (le16 (zlen (ch_name h)))) with 2. change (zlen (le16 (zlen (ch_parent h)))) with 2. change (zlen (le32 (ch_pos h))) with 4. change (zlen (s16 (ch_rest h))) with 2. lia.
Qed.
Lemma many_at {A H} (rd : list Z -> Z -> res (A * Z)) (enc : H -> list Z) (val : H -> A) (ok : H -> Prop) f :
  (forall p h, At f p (enc h) -> ok h -> rd f p = Ok (val h, p + zlen (enc h))) ->
  forall hs, Forall ok hs -> forall p, At f p (concat (map enc hs)) -> many rd (length hs) f p = Ok (map val hs).
Proof.
  intros R. induction 1 as [|h hs Hh F IH]; intros p P; [reflexivity|]. cbn [map concat] in P. apply At_app in P as [P1 P2]. cbn [length many map].
  rewrite (R p h P1 Hh). cbn [rbind]. now rewrite (IH _ P2).
Qed.
Lemma info_at f : forall n p info, At f p info -> zlen info = 16 * Z.of_nat n -> exists l, many source_info n f p = Ok l.
Proof.
  induction n as [|n IH]; intros p info A L; [eexists; reflexivity|].
  assert (E : info = firstn 16 info ++ skipn 16 info) by (symmetry; apply firstn_skipn). rewrite E in A. apply At_app in A as [A1 A2].
  assert (L1 : zlen (firstn 16 info) = 16) by (unfold zlen in *; rewrite firstn_length; lia). assert (L2 : zlen (skipn 16 info) = 16 * Z.of_nat n) by (unfold zlen in *; rewrite skipn_length; lia).
  assert (R : source_info f p = Ok (firstn 16 info, p + 16)).
  { unfold source_info, exactly. pose proof (At_read f p _ A1) as R. rewrite L1 in R. rewrite R. cbn [rbind]. rewrite L1. reflexivity. }
  cbn [many]. rewrite R. cbn [rbind]. rewrite L1 in A2.
  destruct (IH _ _ A2 L2) as [l ->]. eexists. reflexivity.
Qed.
Lemma codes_at rounds fuel o f start : forall ps ts, Forall2 (fun p t => 0 <= p + start /\ code_block rounds fuel o f (p + start) = Some (Ok t)) ps ts -> codes rounds fuel o f start ps = Some (Ok ts).
Proof. induction 1 as [|p t ps ts [H E] F IH]; [reflexivity|]. cbn [codes]. destruct (Z.ltb_spec (p + start) 0); [lia|]. now rewrite E, IH. Qed.
Lemma sub_app_l a b n : length a = n -> sub (a ++ b) 0 n = a.
Proof. intros <-. unfold sub. cbn [skipn]. rewrite firstn_app, Nat.sub_diag, firstn_all. cbn. apply app_nil_r. Qed.
Lemma sub_app_r a b i n : (length a <= i)%nat -> sub (a ++ b) i n = sub b (i - length a) n.
Proof. intros H. unfold sub. rewrite skipn_app. rewrite skipn_all2 by exact H. reflexivity. Qed.
Lemma F2_length {A B} (R : A -> B -> Prop) l m : Forall2 R l m -> length l = length m. Proof. induction 1; cbn; congruence. Qed.
Lemma block_read rounds fuel o f start name_pos pages main ps cs tm tps tcs :
  layout f start name_pos pages main ps cs -> (length f < fuel)%nat ->
  code_block rounds fuel o f (main + start) = Some (Ok tm) ->
  Forall2 (fun h t => code_block rounds fuel o f (ph_pos h + start) = Some (Ok t)) ps tps ->
  Forall2 (fun h t => code_block rounds fuel o f (ch_pos h + start) = Some (Ok t)) cs tcs ->
  file_block rounds fuel o f start pages name_pos =
    Some (Ok (mkProc [] 0 tm :: map (fun x => mkProc (ph_name (fst x)) (ph_flag (fst x)) (snd x)) (combine ps tps),
              map (fun x => mkCls (ch_name (fst x)) (ch_parent (fst x)) (snd x)) (combine cs tcs))).
Proof.
  intros [L0 [Lm Lm'] [Lp Lp'] [Lc Lc'] LH] HF Em Fp Fc. destruct LH as (pp & cp & sp & nl & lp & y & mo & d & h & mi & s & op & page & A & I1 & I2 & I3 & I4 & I5 & I6 & D & O & PG & AP & AC & (info & AI & LI) & (name & AN & NN)).
  unfold file_block. set (dt := dos_pack y mo d h mi s) in *.
  pose proof (C31_inverts_packing y mo d h mi s) as CD. fold dt in CD. specialize (CD ltac:(lia) ltac:(lia) ltac:(lia) ltac:(lia) ltac:(lia) ltac:(lia) ltac:(lia)).
  assert (Hdt : 0 <= dt < 2 ^ 32). { unfold dt. destruct D as (D1 & D2 & D3 & D4 & D5 & D6 & D7). rewrite <- days_in_month_spec in D3 by lia. assert (days_in_month y mo <= 31) by (unfold days_in_month; destruct (mo =? 2), (is_leap y); try lia; destruct (_ || _); lia). 
    destruct (P_Fxp.pack_inj y mo d h mi s) as (Hw & _); try lia; exact Hw. }
  rewrite seek_ok by exact L0. set (hb := block_head (zlen ps) (zlen cs) main pp cp sp nl lp dt op page) in *.
  assert (Z37 : zlen hb = 37) by reflexivity. pose proof (At_read f start hb A) as R. rewrite Z37 in R. rewrite R. cbn [rbind]. rewrite Z37. cbn [Z.eqb Pos.eqb].
  assert (B0 : sub hb 0 2 = s16 (zlen ps)) by reflexivity. assert (B2 : sub hb 2 2 = s16 (zlen cs)) by reflexivity. assert (B4 : sub hb 4 4 = s32 main) by reflexivity. assert (B8 : sub hb 8 4 = s32 pp) by reflexivity.
  assert (B12 : sub hb 12 4 = s32 cp) by reflexivity. assert (B16 : sub hb 16 4 = s32 sp) by reflexivity. assert (B24 : sub hb 24 4 = s32 lp) by reflexivity. assert (B28 : sub hb 28 4 = le32 dt) by reflexivity. assert (B32 : sub hb 32 4 = le32 op) by reflexivity. assert (B36 : sub hb 36 1 = [page]) by reflexivity.
  rewrite B0, B2, B4, B8, B12, B16, B24, B28, B32, B36. pose proof (zlen_nonneg ps). pose proof (zlen_nonneg cs). rewrite !s16_val by (unfold int16; lia). rewrite !s32_val by assumption. rewrite !le_le32 by assumption.
  rewrite CD. cbn [le]. replace (page + 256 * 0) with page by lia. rewrite PG. cbn [negb].
  assert (RN : read_until_null fuel f (name_pos + op) = Some (Ok (name, name_pos + op + zlen name + 1))).
  { destruct AN as (pre & post & E & E'). rewrite <- E'. rewrite E. rewrite <- app_assoc. apply name_run; [intros c Hc ->; contradiction|]. rewrite E in HF. rewrite !app_length in HF. lia. }
  rewrite RN. rewrite !seek_ok by (try exact I6; eapply At_nonneg; eassumption).
  assert (E1 : Z.to_nat (zlen ps) = length ps) by (unfold zlen; lia). assert (E2 : Z.to_nat (zlen cs) = length cs) by (unfold zlen; lia). rewrite E1, E2.
  rewrite (many_at proc_head phead_bytes (fun h => (ph_name h, ph_pos h, ph_flag h)) ok_phead f (phead_at f) ps Lp _ AP). cbn [rbind].
  rewrite (many_at class_head chead_bytes (fun h => (ch_name h, ch_parent h, ch_pos h)) ok_chead f (chead_at f) cs Lc _ AC). cbn [rbind].
  destruct (info_at f (Z.to_nat (zlen ps + zlen cs + 1)) (start + sp) info AI ltac:(lia)) as [l Hl]. rewrite Hl. cbn [rbind].
  cbn [map fst snd app]. rewrite !map_map. cbn [fst snd].
  rewrite (codes_at rounds fuel o f start (main :: map (fun h => ph_pos h) ps ++ map (fun h => ch_pos h) cs) (tm :: tps ++ tcs)).
  - cbn [combine map fst snd]. do 4 f_equal; [f_equal|].
    + clear -Fp. revert tcs. induction Fp as [|p t ps ts E F IH]; intros tcs; [destruct tcs; reflexivity|]. cbn [map combine app fst snd]. f_equal. apply IH.
    + cbn [length skipn]. rewrite map_length, (F2_length _ _ _ Fp), skipn_app, skipn_all, Nat.sub_diag. cbn [skipn app].
      clear -Fc. induction Fc as [|p t ps ts E F IH]; [reflexivity|]. cbn [map combine fst snd]. f_equal. exact IH.
  - constructor; [split; [lia|exact Em]|]. apply Forall2_app.
    + clear -Fp Lp L0. induction Fp as [|p t ps ts E F IH]; [constructor|]. inversion Lp as [|? ? (_ & K & _) K']; subst. cbn [map]. constructor; [split; [lia|exact E]|apply IH; exact K'].
    + clear -Fc Lc L0. induction Fc as [|p t ps ts E F IH]; [constructor|]. inversion Lc as [|? ? (_ & _ & K) K']; subst. cbn [map]. constructor; [split; [lia|exact E]|apply IH; exact K'].
Qed.

(** ** C99.  The source written for a compiled program: the code of the program, then every procedure under its name, in order.
    (Code at a position is what C35 and C32 are about.) *)
Definition code_at rounds fuel o f start (p : Z) (t : pystr) : Prop := code_block rounds fuel o f (p + start) = Some (Ok t).
Definition wanted (x : phead * pystr) : pystr := u "PROCEDURE " ++ ph_name (fst x) ++ [10] ++ snd x.
Lemma procs_text l : Forall (fun x => ph_name (fst x) <> []) l ->
  concat (map proc_text (map (fun x : phead * pystr => mkProc (ph_name (fst x)) (ph_flag (fst x)) (snd x)) l)) = concat (map wanted (filter (fun x => ph_flag (fst x) =? 0) l)).
Proof.
  induction 1 as [|[h t] l N F IH]; [reflexivity|]. cbn [map concat filter fst snd] in *. rewrite IH. unfold proc_text. cbn [p_flag p_name p_code]. destruct (ph_flag h =? 0); [|reflexivity].
  cbn [map concat]. unfold wanted at 2. cbn [fst snd]. destruct (ph_name h) as [|c n] eqn:E; [congruence|]. rewrite <- !app_assoc. reflexivity.
Qed.
Theorem C99_procedures_partial : forall rounds fuel o f start name_pos pages main ps tm tps,
  layout f start name_pos pages main ps [] -> (length f < fuel)%nat -> code_at rounds fuel o f start main tm ->
  Forall2 (fun h t => code_at rounds fuel o f start (ph_pos h) t) ps tps -> Forall (fun h => ph_name h <> []) ps ->
  decompile rounds fuel o f start pages name_pos = Some (Some (tm ++ concat (map wanted (filter (fun x => ph_flag (fst x) =? 0) (combine ps tps))), None)).
Proof.
  intros rounds fuel o f start name_pos pages main ps tm tps L HF Em Fp Hn. unfold decompile. rewrite (block_read rounds fuel o f start name_pos pages main ps [] tm tps [] L HF Em Fp (Forall2_nil _)).
  cbn [combine map]. unfold prg_text, write. cbn [fold_right fst snd map concat]. rewrite app_nil_r. change (proc_text (mkProc [] 0 tm)) with tm. do 3 f_equal. f_equal. apply procs_text.
  apply Forall_forall. intros [h t] I. apply in_combine_l in I. rewrite Forall_forall in Hn. exact (Hn h I).
Qed.
Print Assumptions C99_procedures_partial.

(** Classes that have nothing but methods: every class with its methods, in order, each with its qualifier and code. *)
Record mline := mkML { ml_qual : pystr; ml_num : Z; ml_tail : pystr }.
Definition mline_text (m : mline) : pystr := u "add " ++ ml_qual m ++ u "method " ++ dec_nat (ml_num m) ++ ml_tail m ++ [10].
Definition ok_mline (n : Z) (m : mline) : Prop :=
  In (ml_qual m) [[]; u "hidden "; u "protected "] /\ 0 <= ml_num m < n /\ Forall (fun c => is_break c = false) (ml_tail m) /\ match ml_tail m with c :: _ => is_digit c = false | [] => True end.
Definition method_text (procs : list (pystr * pystr)) (m : mline) : pystr :=
  match nth_error procs (Z.to_nat (ml_num m)) with Some (n, t) => ml_qual m ++ u "PROCEDURE " ++ n ++ [10] ++ t | None => [] end.
Lemma keep_line l : Forall (fun c => is_break c = false) l -> forall cur r, keep_lines cur (l ++ 10 :: r) = (cur ++ l ++ [10]) :: keep_lines [] r.
Proof.
  induction 1 as [|c l H F IH]; intros cur r; cbn [app keep_lines].
  - reflexivity.
  - rewrite H. cbn [andb]. rewrite IH. rewrite <- app_assoc. reflexivity.
Qed.
Lemma digit_no_break c : is_digit c = true -> is_break c = false.
Proof.
  unfold is_digit. rewrite andb_true_iff, !Z.leb_le. intros H. unfold is_break. cbn [existsb]. repeat (match goal with |- context [c =? ?k] => destruct (Z.eqb_spec c k); [lia|] end). reflexivity.
Qed.
Lemma dec_no_break n : 0 <= n -> Forall (fun c => is_break c = false) (dec_nat n).
Proof. intros H. destruct (dec_nat_spec n H) as (_ & D & _). apply Forall_forall. intros c I. rewrite forallb_forall in D. apply digit_no_break, D, I. Qed.
Lemma after_app p s : after p (p ++ s) = Some s.
Proof. induction p as [|c p IH]; [reflexivity|]. cbn [app after]. now rewrite Z.eqb_refl. Qed.
Lemma leading_app d t : forallb is_digit d = true -> match t with c :: _ => is_digit c = false | [] => True end -> leading_digits (d ++ t) = d.
Proof.
  induction d as [|c d IH]; cbn [forallb app leading_digits].
  - intros _ H. destruct t as [|c t]; [reflexivity|]. cbn [leading_digits]. unfold is_digit in H. now rewrite H.
  - rewrite andb_true_iff. intros [H1 H2] H. unfold is_digit in H1. rewrite H1. now rewrite IH.
Qed.
Lemma add_method_text n m : ok_mline n m -> add_method (mline_text m) = Some (ml_qual m, dec_nat (ml_num m)).
Proof.
  intros (Q & N & _ & T). unfold add_method, mline_text. rewrite after_app. destruct (dec_nat_spec (ml_num m) ltac:(lia)) as (_ & D & _).
  assert (LD : leading_digits (dec_nat (ml_num m) ++ ml_tail m ++ [10]) = dec_nat (ml_num m)) by (apply leading_app; [exact D|destruct (ml_tail m); [reflexivity|exact T]]).
  destruct Q as [<-|[<-|[<-|[]]]].
  - change (after (u "hidden " ++ u "method ") ([] ++ u "method " ++ dec_nat (ml_num m) ++ ml_tail m ++ [10])) with (@None pystr). change (after (u "protected " ++ u "method ") ([] ++ u "method " ++ dec_nat (ml_num m) ++ ml_tail m ++ [10])) with (@None pystr).
    cbv iota. rewrite !app_nil_l, after_app, LD. reflexivity.
  - rewrite (app_assoc (u "hidden ")), after_app, LD. reflexivity.
  - change (after (u "hidden " ++ u "method ") (u "protected " ++ u "method " ++ dec_nat (ml_num m) ++ ml_tail m ++ [10])) with (@None pystr). cbv iota. rewrite (app_assoc (u "protected ")), after_app, LD. reflexivity.
Qed.
Lemma number_dec n : 0 <= n -> number (dec_nat n) = Ok n.
Proof. intros H. destruct (dec_nat_spec n H) as (V & _ & N). unfold number. destruct (dec_nat n) eqn:E; [congruence|]. unfold digits_value in V. now rewrite V. Qed.
Lemma mline_no_break n m : ok_mline n m -> Forall (fun c => is_break c = false) (u "add " ++ ml_qual m ++ u "method " ++ dec_nat (ml_num m) ++ ml_tail m).
Proof.
  intros (Q & N & B & T). rewrite !Forall_app. split; [repeat constructor|]. split; [destruct Q as [<-|[<-|[<-|[]]]]; repeat constructor|]. split; [repeat constructor|]. split; [apply dec_no_break; lia|exact B].
Qed.
Lemma mline_lines ms n : Forall (ok_mline n) ms -> keep_lines [] (concat (map mline_text ms)) = map mline_text ms.
Proof.
  induction 1 as [|m ms H F IH]; [reflexivity|]. cbn [map concat]. destruct H as (Q & N & B & T).
  assert (E : mline_text m = (u "add " ++ ml_qual m ++ u "method " ++ dec_nat (ml_num m) ++ ml_tail m) ++ [10]) by (unfold mline_text; rewrite <- !app_assoc; reflexivity).
  rewrite E at 1. rewrite <- app_assoc. cbn [app]. rewrite keep_line; [rewrite IH; cbn [app]; now rewrite E|].
  apply (mline_no_break n). repeat split; assumption || lia.
Qed.
Lemma class_lines_text (procs : list proc) ms : Forall (ok_mline (zlen procs)) ms ->
  class_lines procs (map mline_text ms) = (concat (map (method_text (map (fun p => (p_name p, p_code p)) procs)) ms), None).
Proof.
  induction 1 as [|m ms H F IH]; [reflexivity|]. cbn [map class_lines concat]. rewrite (add_method_text _ m H). destruct H as (_ & N & _). rewrite number_dec by lia. cbn [rbind].
  rewrite py_nth_nonneg by lia. unfold method_text at 1. rewrite nth_error_map. destruct (nth_error procs (Z.to_nat (ml_num m))) as [p|] eqn:E; [|apply nth_error_None in E; unfold zlen in N; lia].
  cbn [option_map]. rewrite IH. unfold write. cbn [fst snd]. rewrite <- !app_assoc. reflexivity.
Qed.
Definition class_text_of (procs : list (pystr * pystr)) (c : chead * list mline) : pystr :=
  u "DEFINE CLASS " ++ ch_name (fst c) ++ u " AS " ++ ch_parent (fst c) ++ [10] ++ concat (map (method_text procs) (snd c)).
Theorem C99_methods_partial : forall rounds fuel o f start name_pos pages main ps cs tm tps mss,
  layout f start name_pos pages main ps cs -> (length f < fuel)%nat -> code_at rounds fuel o f start main tm ->
  Forall2 (fun h t => code_at rounds fuel o f start (ph_pos h) t) ps tps -> Forall (fun h => ph_name h <> []) ps ->
  Forall2 (fun h ms => code_at rounds fuel o f start (ch_pos h) (concat (map mline_text ms)) /\ Forall (ok_mline (zlen ps + 1)) ms) cs mss ->
  let procs := ([], tm) :: map (fun x => (ph_name (fst x), snd x)) (combine ps tps) in
  decompile rounds fuel o f start pages name_pos =
    Some (Some (tm ++ concat (map wanted (filter (fun x => ph_flag (fst x) =? 0) (combine ps tps))) ++ concat (map (class_text_of procs) (combine cs mss)), None)).
Proof.
  intros rounds fuel o f start name_pos pages main ps cs tm tps mss L HF Em Fp Hn Fc procs. unfold decompile.
  rewrite (block_read rounds fuel o f start name_pos pages main ps cs tm tps (map (fun ms => concat (map mline_text ms)) mss) L HF Em Fp); [|clear -Fc; induction Fc as [|h ms cs mss [E _] F IH]; cbn [map]; constructor; assumption].
  unfold prg_text. set (P := mkProc [] 0 tm :: map _ (combine ps tps)). 
  assert (EP : map (fun p => (p_name p, p_code p)) P = procs) by (unfold P, procs; cbn [map p_name p_code]; now rewrite map_map).
  assert (ZP : zlen P = zlen ps + 1) by (unfold P, zlen; cbn [length]; rewrite map_length, combine_length, <- (F2_length _ _ _ Fp); lia).
  assert (T1 : concat (map proc_text P) = tm ++ concat (map wanted (filter (fun x => ph_flag (fst x) =? 0) (combine ps tps)))).
  { unfold P. cbn [map concat]. change (proc_text (mkProc [] 0 tm)) with tm. f_equal. apply procs_text. apply Forall_forall. intros [h t] I. apply in_combine_l in I. rewrite Forall_forall in Hn. exact (Hn h I). }
  rewrite T1.
  assert (T2 : fold_right (class_text P) ([], None) (map (fun x => mkCls (ch_name (fst x)) (ch_parent (fst x)) (snd x)) (combine cs (map (fun ms => concat (map mline_text ms)) mss))) = (concat (map (class_text_of procs) (combine cs mss)), None)).
  { clear -Fc EP ZP. induction Fc as [|h ms cs mss [E K] F IH]; [reflexivity|]. cbn [map combine fold_right fst snd concat]. rewrite IH. unfold class_text. cbn [c_name c_parent c_code].
    rewrite (mline_lines ms _ K). rewrite <- ZP in K. rewrite (class_lines_text P ms K), EP. unfold write, class_text_of. cbn [fst snd]. rewrite <- !app_assoc. reflexivity. }
  match goal with |- Some (Some (write ?x ?y)) = _ => replace y with (concat (map (class_text_of procs) (combine cs mss)), @None exc) by (symmetry; exact T2) end.
  unfold write. cbn [fst snd]. rewrite <- app_assoc. reflexivity.
Qed.
Print Assumptions C99_methods_partial.

(** A property, or anything but a method, in a class stops the decompiler: what follows is not written. *)
Theorem C99_property_refuted : forall procs before c after ms line rest,
  Forall (fun x => keep_lines [] (c_code x) = []) before ->
  Forall (ok_mline (zlen procs)) ms -> c_code c = concat (map mline_text ms) ++ line ++ 10 :: rest -> Forall (fun x => is_break x = false) line -> prefixb (u "add ") (line ++ [10]) = false ->
  exists text, prg_text procs (before ++ c :: after) = (text, Some TypeError) /\
    text = concat (map proc_text procs) ++ concat (map (fun x => u "DEFINE CLASS " ++ c_name x ++ u " AS " ++ c_parent x ++ [10]) (before ++ [c])) ++ concat (map (method_text (map (fun p => (p_name p, p_code p)) procs)) ms).
Proof.
  intros procs before c after ms line rest HB HM HC HL HP. eexists. split; [|reflexivity]. unfold prg_text.
  assert (X : fold_right (class_text procs) ([], None) (before ++ c :: after) = (concat (map (fun x => u "DEFINE CLASS " ++ c_name x ++ u " AS " ++ c_parent x ++ [10]) (before ++ [c])) ++ concat (map (method_text (map (fun p => (p_name p, p_code p)) procs)) ms), Some TypeError)).
  { induction HB as [|b before Eb F IH].
    - cbn [app fold_right map concat]. unfold class_text. rewrite HC.
      assert (K : keep_lines [] (concat (map mline_text ms) ++ line ++ 10 :: rest) = map mline_text ms ++ (line ++ [10]) :: keep_lines [] rest).
      { clear -HM HL. induction HM as [|m ms H F IH]; [cbn [map concat app]; now rewrite keep_line|]. cbn [map concat]. destruct H as (Q & N & B & T).
        assert (E : mline_text m = (u "add " ++ ml_qual m ++ u "method " ++ dec_nat (ml_num m) ++ ml_tail m) ++ [10]) by (unfold mline_text; rewrite <- !app_assoc; reflexivity).
        rewrite E at 1. rewrite <- !(app_assoc _ [10]). cbn [app]. rewrite <- app_assoc. cbn [app]. rewrite keep_line; [rewrite IH; cbn [app]; now rewrite E|].
        apply (mline_no_break (zlen procs)). repeat split; assumption || lia. }
      rewrite K. assert (Y : forall r, class_lines procs (map mline_text ms ++ (line ++ [10]) :: r) = (concat (map (method_text (map (fun p => (p_name p, p_code p)) procs)) ms), Some TypeError)).
      { intros r. clear -HM HP. induction HM as [|m ms H F IH].
        - cbn [map app class_lines concat]. assert (A : add_method (line ++ [10]) = None); [|now rewrite A]. unfold add_method. assert (Z : after (u "add ") (line ++ [10]) = None); [|now rewrite Z].
          revert HP. generalize (line ++ [10]). generalize (u "add "). induction p as [|a p IHp]; intros [|b l]; cbn [prefixb after]; try discriminate; [reflexivity|]. destruct (a =? b); [apply IHp|reflexivity].
        - cbn [map app class_lines concat]. rewrite (add_method_text _ m H). destruct H as (_ & N & _). rewrite number_dec by lia. cbn [rbind]. rewrite py_nth_nonneg by lia. unfold method_text at 1. rewrite nth_error_map.
          destruct (nth_error procs (Z.to_nat (ml_num m))) as [p|] eqn:E; [|apply nth_error_None in E; unfold zlen in N; lia]. cbn [option_map]. rewrite IH. unfold write. cbn [fst snd]. rewrite <- !app_assoc. reflexivity. }
      rewrite Y. unfold write. cbn [fst snd]. rewrite app_nil_r. reflexivity.
    - cbn [app fold_right map concat]. rewrite IH. unfold class_text at 1. rewrite Eb. cbn [class_lines]. unfold write. cbn [fst snd]. rewrite <- !app_assoc. reflexivity. }
  rewrite X. unfold write. cbn [fst snd]. reflexivity.
Qed.
Print Assumptions C99_property_refuted.
(** No class is ended: a class without methods is a line, and the next class begins inside it. *)
Theorem C99_end_refuted : forall a b c d, prg_text [] [mkCls a b []; mkCls c d []] = ((u "DEFINE CLASS " ++ a ++ u " AS " ++ b ++ [10]) ++ u "DEFINE CLASS " ++ c ++ u " AS " ++ d ++ [10], None).
Proof. intros. unfold prg_text, class_text, write. cbn [fold_right fst snd map concat keep_lines c_code class_lines c_name c_parent app]. rewrite !app_nil_r. reflexivity. Qed.
Print Assumptions C99_end_refuted.
(** A program whose date stamp is not a date is not decompiled at all. *)
Theorem C99_date_refuted : forall rounds fuel o f start name_pos pages np nc main pp cp sp nl lp op page,
  0 <= start -> At f start (block_head np nc main pp cp sp nl lp 0 op page) -> decompile rounds fuel o f start pages name_pos = Some None.
Proof.
  intros rounds fuel o f start name_pos pages np nc main pp cp sp nl lp op page H A. unfold decompile, file_block. rewrite seek_ok by exact H. set (hb := block_head np nc main pp cp sp nl lp 0 op page) in *.
  assert (Z37 : zlen hb = 37) by reflexivity. pose proof (At_read f start hb A) as R. rewrite Z37 in R. rewrite R. cbn [rbind]. rewrite Z37. cbn [Z.eqb Pos.eqb]. assert (B28 : sub hb 28 4 = [0; 0; 0; 0]) by reflexivity. rewrite B28. reflexivity.
Qed.
Print Assumptions C99_date_refuted.
Definition C99_ps : list phead := [mkPH (u "p") 45 0 (-1)].
Definition C99_file : list Z :=
  block_head 1 0 37 52 63 63 0 63 (dos_pack 2020 2 29 23 59 58) 0 252 ++ block_bytes [[0x1E; 0xFE]] [] ++ block_bytes [[0x55]] [] ++ concat (map phead_bytes C99_ps) ++ repeat 0 32 ++ u "a.prg" ++ [0].
Lemma At_cut f p n : (n + p <= length f)%nat -> At f (Z.of_nat p) (firstn n (skipn p f)).
Proof.
  intros H. exists (firstn p f), (skipn n (skipn p f)). split; [now rewrite !firstn_skipn|]. unfold zlen. rewrite firstn_length. lia.
Qed.
Example C99_example : layout C99_file 0 95 (fun k => k =? 3) 37 C99_ps [] /\ decompile 10 200 C35_o C99_file 0 (fun k => k =? 3) 95 = Some (Some (u "ENDIF " ++ [10] ++ u "PROCEDURE p" ++ [10] ++ u "ENDPROC" ++ [10], None)).
Proof.
  split; [|vm_compute; reflexivity]. constructor; try (unfold int32; cbn; lia).
  - split; [|cbn; lia]. repeat constructor; cbn; lia.
  - split; [constructor|cbn; lia].
  - exists 52, 63, 63, 0, 63, 2020, 2, 29, 23, 59, 58, 0, 252. unfold int32.
    split; [exact (At_cut C99_file 0 37 ltac:(vm_compute; lia))|]. do 5 (split; [lia|]). split; [lia|]. split; [vm_compute; repeat split; congruence|]. split; [lia|]. split; [reflexivity|].
    split; [exact (At_cut C99_file 52 11 ltac:(vm_compute; lia))|]. split; [exact (At_cut C99_file 63 0 ltac:(vm_compute; lia))|].
    split; [exists (repeat 0 32); split; [exact (At_cut C99_file 63 32 ltac:(vm_compute; lia))|reflexivity]|exists (u "a.prg"); split; [exact (At_cut C99_file 95 6 ltac:(vm_compute; lia))|vm_compute; intuition congruence]].
Qed.
Example C99_class_example : prg_text [mkProc (u "init") 1 (u "x" ++ [10])] [mkCls (u "c") (u "custom") (u "add hidden method 0" ++ [10]); mkCls (u "d") (u "custom") (u "p = 1" ++ [10]); mkCls (u "e") (u "custom") []]
  = (u "DEFINE CLASS c AS custom" ++ [10] ++ u "hidden PROCEDURE init" ++ [10] ++ u "x" ++ [10] ++ u "DEFINE CLASS d AS custom" ++ [10], Some TypeError).
Proof. reflexivity. Qed.
