(** C32, C35, C67: decompiling code. *)
From Verif Require Import PyBase PyStr M_FxpTab M_Fxp M_FxpCode S_Fxp S_FxpExpr P_FxpBin P_FxpCode P_FxpLine P_FxpExpr.
Open Scope Z_scope.
Open Scope res_scope.

(** ** C32.  The byte code of any expression tree, anywhere in a file and followed by the end mark, is decompiled to the fully
    parenthesised text of that tree; exactly its bytes and the end mark are consumed.  Partial: without the jump codes of IIF (see
    below), floating-point, date and currency literals. *)
Theorem C32_decompile_partial : forall o names pre t post, bytes (pre ++ enc t ++ [0xFD] ++ post) -> wf names t ->
  forall fuel, (2 * length (enc t ++ [0xFD%Z] ++ post) + 2 <= fuel)%nat ->
  read_expr fuel o names (pre ++ enc t ++ [0xFD] ++ post) (zlen pre) = Some (Ok (IName (text names t), zlen pre + zlen (enc t) + 1)).
Proof.
  intros o names pre t post HB W fuel HF. set (f := pre ++ enc t ++ [0xFD] ++ post) in *.
  assert (At f (zlen pre) (enc t ++ [0xFD])) as HA by (exists pre, post; split; [unfold f; now rewrite <- app_assoc|reflexivity]).
  destruct (expr_read o names f t (zlen pre) W HA) as [k E]. unfold read_expr in *.
  assert (expr_loop fuel o names f (zlen pre) [] <> None) as NN.
  { apply (enough o names f HB fuel); [apply zlen_nonneg|]. unfold left. unfold f. rewrite zlen_app. replace (zlen pre + zlen (enc t ++ [0xFD] ++ post) - zlen pre) with (zlen (enc t ++ [0xFD] ++ post)) by lia.
    unfold zlen. rewrite Nat2Z.id. exact HF. }
  destruct (expr_loop fuel o names f (zlen pre) []) as [r|] eqn:EF; [|congruence].
  apply (expr_mono o names f _ (Nat.max k fuel)) in E; [|lia]. apply (expr_mono o names f _ (Nat.max k fuel)) in EF; [|lia]. congruence.
Qed.
Print Assumptions C32_decompile_partial.
(* (NOT (obj.items(1).x <= MAX(n, "ab"))) *)
Definition C32_names : list pystr := [u "obj"; u "items"; u "x"; u "n"].
Definition C32_tree : tree :=
  TUn 0x0A (TBin 0x0E (TName (CLink CNil (LCall (CLink CNil (LName 0)) 1 (TCons (TInt 8 1 1) TNil))) 2)
              (TParen (TFun 0x44 (u "MAX") (TCons (TName CNil 3) (TCons (TStr false (u "ab")) TNil))))).
Lemma bytes_b l : forallb (fun b => (0 <=? b) && (b <? 256)) l = true -> bytes l.
Proof. intros H. apply Forall_forall. intros b Hb. rewrite forallb_forall in H. specialize (H b Hb). lia. Qed.
Example C32_example : forall o, wf C32_names C32_tree /\ bytes ([7] ++ enc C32_tree ++ [0xFD] ++ [8]) /\
  text C32_names C32_tree = u "(NOT (obj.items(1).x <= MAX(n, ""ab"")))" /\
  read_expr 100 o C32_names ([7] ++ enc C32_tree ++ [0xFD] ++ [8]) 1 = Some (Ok (IName (u "(NOT (obj.items(1).x <= MAX(n, ""ab"")))"), 28)).
Proof.
  intros o. assert (wf C32_names C32_tree) as W by (cbn; unfold good_name; cbn; repeat split; auto; try lia; try discriminate; apply bytes_b; reflexivity).
  assert (bytes ([7] ++ enc C32_tree ++ [0xFD] ++ [8])) as HB by (apply bytes_b; reflexivity).
  split; [exact W|]. split; [exact HB|]. split; [reflexivity|].
  exact (C32_decompile_partial o C32_names [7] C32_tree [8] HB W 100 ltac:(vm_compute; lia)).
Qed.

(** The parameters of every IIF( ) compiled with jumps come out wrong: the jumps are listed as parameters. *)
Theorem C32_iif_jumps_refuted : forall o names pre c a b n m post, let code := 0x43 :: enc c ++ (0xF2 :: le16 n) ++ enc a ++ (0xF3 :: le16 m) ++ enc b ++ [0x36] in
  bytes (pre ++ code ++ [0xFD] ++ post) -> wf names c -> wf names a -> wf names b -> 0 <= n < 65536 -> 0 <= m < 65536 ->
  forall fuel, (2 * length (code ++ [0xFD%Z] ++ post) + 2 <= fuel)%nat ->
  exists jump_n jump_m,
  read_expr fuel o names (pre ++ code ++ [0xFD] ++ post) (zlen pre) =
    Some (Ok (IName (u "IIF(" ++ text names c ++ u ", (SHORT CIRCUIT IIF IN " ++ jump_n ++ u "), " ++ text names a ++ u ", (SHORT CIRCUIT IIF IN " ++ jump_m ++ u "), "
      ++ text names b ++ u ")"), zlen pre + zlen code + 1)).
Proof.
  intros o names pre c a b n m post code HB Wc Wa Wb Hn Hm fuel HF. set (f := pre ++ code ++ [0xFD] ++ post) in *. exists (dec n), (dec m).
  assert (At f (zlen pre) (code ++ [0xFD])) as HA by (exists pre, post; split; [unfold f; now rewrite <- app_assoc|reflexivity]).
  assert (exists k, expr_loop k o names f (zlen pre) [] = Some (Ok (IName (u "IIF(" ++ text names c ++ u ", (SHORT CIRCUIT IIF IN " ++ dec n ++ u "), " ++ text names a ++ u ", (SHORT CIRCUIT IIF IN " ++ dec m ++ u "), "
      ++ text names b ++ u ")"), zlen pre + zlen code + 1))) as [k E].
  { apply At_app in HA as [HA A9]. unfold code in HA. apply At_cons in HA as [A1 HA]. apply At_app in HA as [A2 HA]. apply At_app in HA as [A3 HA]. apply At_app in HA as [A4 HA].
    apply At_app in HA as [A5 HA]. apply At_app in HA as [A6 A7]. change (zlen (0xF2 :: le16 n)) with 3 in *. change (zlen (0xF3 :: le16 m)) with 3 in *.
    assert (forall p st cv j, cv = 0xF2 \/ cv = 0xF3 -> At f p (cv :: le16 j) -> 0 <= j < 65536 ->
      Run o names f p st (p + 3) (IName (u "(SHORT CIRCUIT IIF IN " ++ dec j ++ u ")") :: st)) as HJ.
    { intros p st cv j Hcv B Hj. apply At_cons in B as [B1 B2]. eapply run_next; [|discriminate]. instantiate (1 := 1%nat). cbn [next_code]. rewrite (At_byte f _ _ B1). cbv zeta.
      replace (p + 3) with (p + 1 + 2) by lia.
      destruct Hcv as [-> | ->];
      [replace (lookup t_functions 242) with (@None pystr) by (vm_compute; reflexivity); replace (lookup t_operators 242) with (@None (pystr * Z)) by (vm_compute; reflexivity)
      |replace (lookup t_functions 243) with (@None pystr) by (vm_compute; reflexivity); replace (lookup t_operators 243) with (@None (pystr * Z)) by (vm_compute; reflexivity)];
      cbn [value_reader]; unfold short_circuit; rewrite (At_ushort f _ _ B2 Hj); reflexivity. }
    pose proof (expr_run o names f) as (HT & _).
    set (T := _ ++ text names c ++ _).
    assert (Run o names f (zlen pre) [] (zlen pre + zlen code) [IName T]) as HR.
    { eapply run_trans; [eapply run_next; [apply (next_mark o names f 0 _ _ A1)|discriminate]|].
      eapply run_trans; [apply HT; [exact Wc|exact A2|exact I]|]. eapply run_trans; [apply (HJ _ _ 0xF2 n (or_introl eq_refl) A3 Hn)|].
      eapply run_trans; [apply HT; [exact Wa|exact A4|exact I]|]. eapply run_trans; [apply (HJ _ _ 0xF3 m (or_intror eq_refl) A5 Hm)|].
      eapply run_trans; [apply HT; [exact Wb|exact A6|exact I]|].
      eapply run_to; [eapply run_next|].
      - etransitivity; [refine (next_fun o names f 0 _ [] 0x36 (u "IIF") [text names c; u "(SHORT CIRCUIT IIF IN " ++ dec n ++ u ")"; text names a; u "(SHORT CIRCUIT IIF IN " ++ dec m ++ u ")"; text names b] A7 _ _); [discriminate|vm_compute; reflexivity]|].
        cbn [join]. unfold T. rewrite <- !app_assoc. reflexivity.
      - discriminate.
      - unfold code. rewrite zlen_cons1, !zlen_app, !zlen_cons1, !le16_len. change (zlen (@nil Z)) with 0. lia. }
    exact (HR _ _ (loop_end o names f 0 _ [IName T] A9)). }
  unfold read_expr. assert (expr_loop fuel o names f (zlen pre) [] <> None) as NN.
  { apply (enough o names f HB fuel); [apply zlen_nonneg|]. unfold left. unfold f. rewrite zlen_app. replace (zlen pre + zlen (code ++ [0xFD] ++ post) - zlen pre) with (zlen (code ++ [0xFD] ++ post)) by lia.
    unfold zlen. rewrite Nat2Z.id. exact HF. }
  destruct (expr_loop fuel o names f (zlen pre) []) as [r|] eqn:EF; [|congruence].
  apply (expr_mono o names f _ (Nat.max k fuel)) in E; [|lia]. apply (expr_mono o names f _ (Nat.max k fuel)) in EF; [|lia]. congruence.
Qed.
Print Assumptions C32_iif_jumps_refuted.

(** ** C35.  Decoding the code lines of any file, from any position, ends. *)
Theorem C35_terminates : forall o names f p final, bytes f -> 0 <= p ->
  forall rounds fuel, (Z.to_nat (zlen f - p) < rounds)%nat -> (2 * length f + 2 <= fuel)%nat -> line_area rounds fuel o names f p final <> None.
Proof. intros o names f p final HB Hp rounds fuel HR HF. now apply area_total. Qed.
Print Assumptions C35_terminates.
Lemma forall2_nth {A B} (R : A -> B -> Prop) l l' : Forall2 R l l' -> forall k x y, nth_error l k = Some x -> nth_error l' k = Some y -> R x y.
Proof. induction 1 as [|a b l l' H F IH]; intros [|k] x y Hx Hy; try discriminate; [cbn in Hx, Hy; congruence|exact (IH k x y Hx Hy)]. Qed.
(** A code area is any sequence of lines, each preceded by its length.  Whatever the lines contain, decoding the area gives one text
    per line: the decompiled text of exactly that line, or, if the line cannot be decompiled, its bytes in hexadecimal. *)
Theorem C35_lines_partial : forall o names pre ls post, let f := pre ++ area_bytes ls ++ post in
  bytes f -> Forall (fun l => zlen l + 2 < 65536) ls -> forall fuel, (2 * length f + 2 <= fuel)%nat ->
  exists ts, line_area (length ls) fuel o names f (zlen pre) (zlen pre + zlen (area_bytes ls)) = Some (Ok ts) /\ length ts = length ls /\
    forall k l t, nth_error ls k = Some l -> nth_error ts k = Some t ->
      let start := zlen pre + zlen (area_bytes (firstn k ls)) + 2 in
      (exists q, parse_line fuel o names f start (zlen l) = Some (Ok (t, q))) \/ (exists e, parse_line fuel o names f start (zlen l) = Some (Err e)) /\ t = hex_dump l.
Proof.
  intros o names pre ls post f HB HL fuel HF. destruct (area_step fuel o names f ls pre post eq_refl HB HL HF) as (ts & R & F). exists ts. split; [exact R|].
  assert (length (combine (map (fun k => zlen pre + zlen (area_bytes (firstn k ls))) (seq 0 (length ls))) ls) = length ls) as LC by (rewrite combine_length, map_length, seq_length; lia).
  split; [rewrite <- LC; symmetry; clear -F; induction F; cbn [length]; congruence|].
  intros k l t Hl Ht start.
  assert (nth_error (combine (map (fun k => zlen pre + zlen (area_bytes (firstn k ls))) (seq 0 (length ls))) ls) k = Some (zlen pre + zlen (area_bytes (firstn k ls)), l)) as HC.
  { assert (k < length ls)%nat as Hk by (apply nth_error_Some; congruence).
    rewrite (nth_error_nth' _ (zlen pre + zlen (area_bytes (firstn k ls)), l)) by lia. rewrite combine_nth by (rewrite map_length, seq_length; reflexivity). do 2 f_equal.
    - rewrite (nth_indep _ _ ((fun k => zlen pre + zlen (area_bytes (firstn k ls))) O)) by (rewrite map_length, seq_length; exact Hk).
      rewrite (map_nth (fun k => zlen pre + zlen (area_bytes (firstn k ls)))). rewrite seq_nth by exact Hk. reflexivity.
    - now apply nth_error_nth. }
  exact (forall2_nth _ _ _ F k _ _ HC Ht).
Qed.
Print Assumptions C35_lines_partial.
(** A code block: the length of its lines in two bytes (or two zero bytes and four), the lines, and the names it uses, each with
    its length in front.  It is decoded to the texts of its lines, with exactly these names. *)
Definition name_bytes (s : pystr) : list Z := le16 (zlen s) ++ s.
Definition block_bytes (ls : list (list Z)) (names : list pystr) : list Z :=
  let n := zlen (area_bytes ls) in
  (if n <? 65536 then le16 n else [0; 0] ++ le32 n) ++ area_bytes ls ++ le16 (zlen names) ++ concat (map name_bytes names).
Lemma strings_at f names : Forall (fun s => zlen s < 65536) names -> forall p, At f p (concat (map name_bytes names)) -> read_strings (length names) f p = Ok names.
Proof.
  induction 1 as [|s names Hs F IH]; intros p H; [reflexivity|]. cbn [length read_strings]. cbn [map concat] in H. apply At_app in H as [H1 H2].
  rewrite (string_at f p s H1 Hs). cbn [rbind]. rewrite (IH (p + 2 + zlen s)); [reflexivity|]. unfold name_bytes in H2 at 1. rewrite zlen_app in H2. replace (p + (zlen (le16 (zlen s)) + zlen s)) with (p + 2 + zlen s) in H2 by (change (zlen (le16 (zlen s))) with 2; lia). exact H2.
Qed.
Lemma At_uint f p n : At f p (le32 n) -> 0 <= n < 2 ^ 32 -> read_uint f p = Ok (n, p + 4).
Proof.
  intros (pre & post & E & <-) H. unfold read_uint. change 4 with (zlen (le32 n)). rewrite (read_le_at f pre (le32 n) post E). do 2 f_equal. unfold le32. cbn [le fold_right]. 
  pose proof (Z.div_mod n 256 ltac:(lia)). pose proof (Z.div_mod (n / 256) 256 ltac:(lia)). pose proof (Z.div_mod (n / 65536) 256 ltac:(lia)).
  replace (n / 65536) with (n / 256 / 256) in * by (rewrite Z.div_div by lia; reflexivity). replace (n / 16777216) with (n / 256 / 256 / 256) in * by (rewrite !Z.div_div by lia; reflexivity). lia.
Qed.
Theorem C35_block_partial : forall o names pre ls post, let f := pre ++ block_bytes ls names ++ post in
  bytes f -> ls <> [] -> Forall (fun l => zlen l + 2 < 65536) ls -> zlen (area_bytes ls) < 2 ^ 32 ->
  zlen names < 65536 -> Forall (fun s => zlen s < 65536) names -> forall fuel, (2 * length f + 2 <= fuel)%nat ->
  exists ts, code_block (length ls) fuel o f (zlen pre) = Some (Ok (concat ts)) /\ length ts = length ls /\
    forall k l t, nth_error ls k = Some l -> nth_error ts k = Some t ->
      let start := zlen pre + (if zlen (area_bytes ls) <? 65536 then 2 else 6) + zlen (area_bytes (firstn k ls)) + 2 in
      (exists q, parse_line fuel o names f start (zlen l) = Some (Ok (t, q))) \/ (exists e, parse_line fuel o names f start (zlen l) = Some (Err e)) /\ t = hex_dump l.
Proof.
  intros o names pre ls post f HB NE HL HA HN HS fuel HF. set (n := zlen (area_bytes ls)) in *. set (h := if n <? 65536 then le16 n else [0; 0] ++ le32 n).
  assert (Hn : 0 < n). { unfold n. destruct ls as [|l ls]; [congruence|]. unfold area_bytes. cbn [map concat]. unfold line_bytes. rewrite !zlen_app. pose proof (zlen_nonneg l). pose proof (zlen_nonneg (concat (map line_bytes ls))). change (zlen [(zlen l + 2) mod 256; (zlen l + 2) / 256]) with 2. unfold line_bytes in *. lia. }
  assert (Ef : f = (pre ++ h) ++ area_bytes ls ++ (le16 (zlen names) ++ concat (map name_bytes names) ++ post)).
  { unfold f, block_bytes. fold n. fold h. rewrite <- !app_assoc. reflexivity. }
  assert (Zh : zlen (pre ++ h) = zlen pre + (if n <? 65536 then 2 else 6)) by (rewrite zlen_app; unfold h; destruct (n <? 65536); reflexivity).
  assert (Ah : At f (zlen pre) h). { exists pre, (area_bytes ls ++ le16 (zlen names) ++ concat (map name_bytes names) ++ post). split; [rewrite Ef, <- !app_assoc; reflexivity|reflexivity]. }
  assert (Ar : At f (zlen (pre ++ h) + n) (le16 (zlen names) ++ concat (map name_bytes names))).
  { exists ((pre ++ h) ++ area_bytes ls), post. split; [rewrite Ef, <- !app_assoc; reflexivity|]. rewrite (zlen_app (pre ++ h)). reflexivity. }
  apply At_app in Ar as [A1 A2]. change (zlen (le16 (zlen names))) with 2 in A2.
  pose proof (zlen_nonneg names) as Zn.
  destruct (C35_lines_partial o names (pre ++ h) ls (le16 (zlen names) ++ concat (map name_bytes names) ++ post)) with (fuel := fuel) as (ts & R & L & K); [rewrite <- Ef; exact HB|exact HL|rewrite <- Ef; exact HF|].
  rewrite <- Ef in R, K. fold n in R. exists ts. split; [|split; [exact L|]].
  - assert (E : (do (n0, p) <- read_ushort f (zlen pre); do (n0, p) <- (if n0 =? 0 then read_uint f p else Ok (n0, p)); do (k, q) <- read_ushort f (p + n0); do nm <- read_strings (Z.to_nat k) f q; Ok (n0, p, nm)) = Ok (n, zlen (pre ++ h), names)).
    { assert (E0 : (do (n0, p) <- read_ushort f (zlen pre); (if n0 =? 0 then read_uint f p else Ok (n0, p))) = Ok (n, zlen (pre ++ h))).
      { rewrite Zh. unfold h in Ah. destruct (Z.ltb_spec n 65536) as [Hlt|Hge].
        - rewrite (At_ushort _ _ _ Ah) by lia. cbn [rbind]. destruct (Z.eqb_spec n 0); [lia|reflexivity].
        - apply At_app in Ah as [Ah1 Ah2]. change [0; 0] with (le16 0) in Ah1. rewrite (At_ushort _ _ _ Ah1) by lia. cbn [rbind Z.eqb]. change (zlen [0; 0]) with 2 in Ah2. rewrite (At_uint _ _ _ Ah2) by lia. do 2 f_equal. lia. }
      destruct (read_ushort f (zlen pre)) as [[n0 p0]|]; [|discriminate E0]. cbn [rbind] in E0 |- *. rewrite E0. cbn [rbind].
      rewrite (At_ushort _ _ _ A1) by lia. cbn [rbind]. assert (En : Z.to_nat (zlen names) = length names) by (unfold zlen; lia). rewrite En. assert (ES : read_strings (@length pystr names) f (zlen (pre ++ h) + n + 2) = Ok names) by exact (strings_at f names HS _ A2). rewrite ES. reflexivity. }
    unfold code_block. rewrite E, R. reflexivity.
  - intros k l t Hl Ht. specialize (K k l t Hl Ht). rewrite Zh in K. exact K.
Qed.
Print Assumptions C35_block_partial.
Definition C35_o : oracle := mkO (fun _ _ _ => []) (fun _ => []) (fun _ => []) (fun _ => []).
Example C35_block_example : code_block 2 100 C35_o ([7] ++ block_bytes [[0x1E]; [0x1E]] [u "x"] ++ [1]) 1 = Some (Ok (u "ENDIFENDIF")).
Proof. vm_compute. reflexivity. Qed.
(** One line of a file whose length prefix is n >= 2, read at any position: the next line starts n bytes further, or at the end of
    the file if that comes first. *)
Theorem C35_sync_partial : forall o names f fuel p n t q, bytes f -> 0 <= p -> read_ushort f p = Ok (n, p + 2) -> 2 <= n ->
  code_line fuel o names f p = Some (Ok (t, q)) -> q = Z.min (p + n) (zlen f).
Proof.
  intros o names f fuel p n t q HB Hp EU Hn E.
  assert (p + 2 <= zlen f) as HL.
  { unfold read_ushort, read_le in EU. destruct (fread f p 2) as [[b r]|] eqn:E1; [|discriminate EU]. cbn [rbind] in EU. destruct (fread_len f p 2 b r Hp ltac:(lia) E1) as [L1 L2].
    unfold unpack_le in EU. destruct (Z.eqb_spec (zlen b) 2); [lia|discriminate EU]. }
  rewrite (code_line_sync o names f fuel p n t q HB Hp EU Hn E). lia.
Qed.
Print Assumptions C35_sync_partial.
Example C35_example : (* a line that cannot be decompiled between two that can *)
  line_area 3 100 C35_o [] ([9] ++ area_bytes [[0x1E]; [0x1E; 0xFC; 0x77]; [0x1E]]) 1 (1 + zlen (area_bytes [[0x1E]; [0x1E; 0xFC; 0x77]; [0x1E]])) =
    Some (Ok [u "ENDIF"; u "1e fc 77"; u "ENDIF"]).
Proof. vm_compute. reflexivity. Qed.

(** A length prefix of 0 loses every line of the code block, a prefix of 1 every line after it. *)
Theorem C35_zero_length_refuted : forall o names pre post fuel rounds final, bytes (pre ++ [0; 0] ++ post) -> (0 < fuel)%nat -> zlen pre < final ->
  line_area (S rounds) fuel o names (pre ++ [0; 0] ++ post) (zlen pre) final = Some (Err ValueError).
Proof.
  intros o names pre post fuel rounds final HB HF Hf. cbn [line_area]. replace (zlen pre <? final) with true by (symmetry; now apply Z.ltb_lt). cbn [negb].
  now rewrite (zero_prefix fuel o names pre post HB HF).
Qed.
Print Assumptions C35_zero_length_refuted.
Theorem C35_one_length_refuted : forall o names pre post fuel, bytes (pre ++ [1; 0] ++ post) -> (0 < fuel)%nat ->
  exists t, forall rounds, line_area (S (S rounds)) fuel o names (pre ++ [1; 0] ++ post) (zlen pre) (zlen (pre ++ [1; 0] ++ post)) = Some (Ok [t]).
Proof.
  intros o names pre post fuel HB HF. destruct (one_prefix fuel o names pre post HB HF) as [t E]. exists t. intros rounds. cbn [line_area]. rewrite E, Z.ltb_irrefl. cbn [negb].
  replace (zlen pre <? zlen (pre ++ [1; 0] ++ post)) with true; [reflexivity|]. symmetry. apply Z.ltb_lt. rewrite zlen_app. change ([1; 0] ++ post) with (1 :: 0 :: post). unfold zlen. cbn [length]. lia.
Qed.
Print Assumptions C35_one_length_refuted.

(** ** C67.  A byte from 98 to 186 is not the code of any clause.  As the first clause of a command it makes the line be reported
    in hexadecimal ... *)
Lemma unknown_clause o names b : 98 <= b <= 186 -> clause_of o names b = None.
Proof.
  intros H. assert (In b (map Z.of_nat (seq 98 89))) as HI by (apply in_map_iff; exists (Z.to_nat b); split; [lia|apply in_seq; lia]).
  vm_compute in HI. repeat (destruct HI as [<-|HI]; [vm_compute; reflexivity|]). destruct HI.
Qed.
Lemma dget_in {A} (t : list (Z * A)) k v : lookup t k = Some v -> In (k, v) t.
Proof.
  unfold lookup. induction t as [|[a b] t IH]; [discriminate|]. cbn [dget]. destruct (Z.eqb_spec k a) as [->|]; intros E; [injection E as ->; now left|right; now apply IH].
Qed.
Lemma plain_command cmd s f p n : lookup t_commands cmd = Some s -> command_of cmd f p n = Ok ([IName s], p).
Proof.
  intros H. assert (negb (existsb (Z.eqb cmd) [0x01; 0xB4; 0x30; 0x47; 0x54; 0x99; 0xFB]) = true) as HX.
  { refine (lookup_sweep t_commands (fun cmd => negb (existsb (Z.eqb cmd) [0x01; 0xB4; 0x30; 0x47; 0x54; 0x99; 0xFB])) cmd s _ H). vm_compute. reflexivity. }
  unfold command_of. rewrite H. cbn [existsb] in HX. rewrite !orb_false_r, negb_true_iff, !orb_false_iff, !Z.eqb_neq in HX.
  destruct cmd as [|q|q]; try reflexivity. repeat (try reflexivity; destruct q as [q|q|]; try reflexivity; try (exfalso; lia)).
Qed.
Theorem C67_first_clause_partial : forall o names pre cmd b rest post, let l := cmd :: b :: rest in let f := pre ++ line_bytes l ++ post in
  bytes f -> zlen l + 2 < 65536 -> (exists s, lookup t_commands cmd = Some s) -> 98 <= b <= 186 ->
  forall fuel, (2 * length f + 2 <= fuel)%nat -> code_line fuel o names f (zlen pre) = Some (Ok (hex_dump l, zlen pre + zlen l + 2)).
Proof.
  intros o names pre cmd b rest post l f HB HL [s Hs] Hb fuel HF. destruct (line_step fuel o names pre l post HB HL HF) as (t & R & [[p E]|[[e E] ->]]); [|exact R].
  exfalso. revert E. unfold parse_line.
  assert (At f (zlen pre + 2) (cmd :: b :: rest)) as HA.
  { exists (pre ++ [(zlen l + 2) mod 256; (zlen l + 2) / 256]), post. split; [unfold f, line_bytes; cbv zeta; now rewrite <- !app_assoc|rewrite zlen_app; reflexivity]. }
  apply At_cons in HA as [A1 HA]. apply At_cons in HA as [A2 _]. fold f. rewrite (At_byte f _ _ A1). cbn [rbind]. rewrite (plain_command cmd s _ _ _ Hs).
  destruct fuel as [|k]; [lia|]. cbn [subline]. pose proof (zlen_nonneg rest).
  replace (zlen pre + 2 + 1 <? zlen pre + 2 + zlen l) with true by (symmetry; apply Z.ltb_lt; unfold l; rewrite !zlen_cons; lia). cbn [negb].
  rewrite (At_byte f _ _ A2), (unknown_clause o names b Hb). discriminate.
Qed.
Print Assumptions C67_first_clause_partial.
(** ... but after a known clause it is decompiled as that clause once more. *)
Lemma repeat_shift {A} (x : A) n l : repeat x n ++ x :: l = x :: repeat x n ++ l.
Proof. induction n as [|n IH]; [reflexivity|]. cbn [repeat app]. now rewrite IH. Qed.
Theorem C67_repeats_clause_refuted : forall o names pre cmd s c t bs post, let l := cmd :: c :: bs in let f := pre ++ line_bytes l ++ post in
  bytes f -> zlen l + 2 < 65536 -> lookup t_commands cmd = Some s -> clause_of o names c = Some (CText t) -> Forall (fun b => 98 <= b <= 186) bs ->
  forall fuel, (2 * length f + 2 <= fuel)%nat ->
  code_line fuel o names f (zlen pre) = Some (Ok (s ++ u " " ++ t ++ concat (map (fun _ => u " " ++ t) bs), zlen pre + zlen l + 2)).
Proof.
  intros o names pre cmd s c t bs post l f HB HL Hs Hc Hbs fuel HF.
  destruct (line_step fuel o names pre l post HB HL HF) as (t' & R & HP). fold f in HP, R.
  assert (At f (zlen pre + 2) (cmd :: c :: bs)) as HA.
  { exists (pre ++ [(zlen l + 2) mod 256; (zlen l + 2) / 256]), post. split; [unfold f, line_bytes; cbv zeta; now rewrite <- !app_assoc|rewrite zlen_app; reflexivity]. }
  assert (forall k xs p line, At f p xs -> Forall (fun b => 98 <= b <= 186) xs -> p + zlen xs = zlen pre + 2 + zlen l -> (length xs < k)%nat ->
    (match line with IInt _ :: _ => False | _ => True end) ->
    exists q, subline k o names f p (zlen l) (zlen pre + 2 + zlen l) (IName t :: line) (Some (IName t)) =
      Some (Ok (join (u " ") (map irepr (rev (repeat (IName t) (length xs) ++ IName t :: line))), q))) as HS.
  { clear -Hs. induction k as [|k IH]; intros xs p line A F L HK HL; [lia|]. cbn [subline]. destruct xs as [|b xs].
    - change (zlen (@nil Z)) with 0 in L. replace (p <? zlen pre + 2 + zlen l) with false by (symmetry; apply Z.ltb_ge; lia). cbn [negb].
      destruct (fread_ok f (zlen pre + 2 + zlen l - zlen l) (zlen l)) as (b & q & ->); [pose proof (zlen_nonneg l); lia|]. exists q. cbn [rbind]. do 3 f_equal.
      unfold subline_text. cbn [length repeat app]. destruct line as [|[]]; try reflexivity. destruct HL.
    - rewrite zlen_cons in L. pose proof (zlen_nonneg xs). replace (p <? zlen pre + 2 + zlen l) with true by (symmetry; apply Z.ltb_lt; lia). cbn [negb].
      apply At_cons in A as [A1 A2]. inversion_clear F as [|? ? F1 F2]. rewrite (At_byte f _ _ A1), (unknown_clause o names b F1). cbn [istr irepr].
      destruct (IH xs (p + 1) (IName t :: line) A2 F2 ltac:(lia) ltac:(cbn in HK; lia) I) as [q E]. exists q. rewrite E. cbn [length repeat app]. now rewrite repeat_shift. }
  assert (exists q, parse_line fuel o names f (zlen pre + 2) (zlen l) = Some (Ok (s ++ u " " ++ t ++ concat (map (fun _ => u " " ++ t) bs), q))) as [q EP].
  { apply At_cons in HA as [A1 HA]. apply At_cons in HA as [A2 A3]. unfold parse_line. rewrite (At_byte f _ _ A1). cbn [rbind]. rewrite (plain_command cmd s _ _ _ Hs).
    assert (length bs < length f)%nat as LB by (unfold f, line_bytes, l; rewrite !app_length; cbn [length]; lia).
    destruct fuel as [|k]; [lia|]. cbn [subline]. pose proof (zlen_nonneg bs).
    assert (zlen l = zlen bs + 2) as LL by (unfold l; rewrite !zlen_cons; lia).
    replace (zlen pre + 2 + 1 <? zlen pre + 2 + zlen l) with true by (symmetry; apply Z.ltb_lt; lia). cbn [negb]. rewrite (At_byte f _ _ A2), Hc.
    destruct (HS k bs (zlen pre + 2 + 1 + 1) [IName s] A3 Hbs ltac:(lia) ltac:(lia) I) as [q E]. exists q. rewrite E. do 3 f_equal.
    replace (rev (repeat (IName t) (length bs) ++ [IName t; IName s])) with (IName s :: IName t :: repeat (IName t) (length bs)).
    2:{ rewrite rev_app_distr. cbn [rev app]. do 2 f_equal. clear. induction (length bs) as [|n IH]; [reflexivity|]. cbn [repeat rev]. rewrite <- IH. clear. induction n as [|n IH]; [reflexivity|]. cbn [repeat app]. now rewrite <- IH. }
    cbn [map irepr]. clear. change (join (u " ") (s :: t :: map irepr (repeat (IName t) (length bs)))) with (s ++ u " " ++ join (u " ") (t :: map irepr (repeat (IName t) (length bs)))).
    do 2 f_equal. induction bs as [|b bs IH]; [cbn; now rewrite app_nil_r|]. cbn [length repeat map irepr concat].
    change (join (u " ") (t :: t :: map irepr (repeat (IName t) (length bs)))) with (t ++ u " " ++ join (u " ") (t :: map irepr (repeat (IName t) (length bs)))). rewrite IH. now rewrite <- !app_assoc. }
  rewrite EP in HP. destruct HP as [[p E]|[[e E] _]]; [|discriminate E]. injection E as <- _. exact R.
Qed.
Print Assumptions C67_repeats_clause_refuted.
Example C67_example : (* CLOSE ALL, with two bytes 0x70 after the clause *)
  code_line 100 C35_o [] ([9] ++ line_bytes [0x0F; 0x03; 0x70; 0x70]) 1 = Some (Ok (u "CLOSE ALL ALL ALL", 7)) /\
  code_line 100 C35_o [] ([9] ++ line_bytes [0x0F; 0x70; 0x03]) 1 = Some (Ok (u "0f 70 03", 6)).
Proof. split; vm_compute; reflexivity. Qed.
