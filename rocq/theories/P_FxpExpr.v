(** Decompiling the byte code of an expression gives back its text. *)
From Verif Require Import PyBase PyStr M_FxpTab M_Fxp M_FxpCode S_Fxp S_FxpExpr P_FxpBin P_FxpCode P_FxpLine.
Open Scope Z_scope.
Open Scope res_scope.

Scheme tree_mind := Induction for tree Sort Prop
with trees_mind := Induction for trees Sort Prop
with chain_mind := Induction for chain Sort Prop
with link_mind := Induction for link Sort Prop.
Combined Scheme expr_ind from tree_mind, trees_mind, chain_mind, link_mind.

Lemma lookup_sweep {A} (t : list (Z * A)) (P : Z -> bool) k v : forallb (fun kv => P (fst kv)) t = true -> lookup t k = Some v -> P k = true.
Proof.
  unfold lookup. induction t as [|[a b] t IH]; [discriminate|]. cbn [forallb dget fst]. intros H E. apply andb_true_iff in H as [H1 H2].
  destruct (Z.eqb_spec k a) as [->|]; [exact H1|now apply IH].
Qed.
Definition special (k : Z) : bool :=
  (k =? END_EXPR) || (k =? SQL_SUBQUERY) || (k =? 0xE5) || (k =? 0xF6) || (k =? 0x1A) || (k =? 0xEA).
Definition unseen {A} (t : list (Z * A)) (k : Z) : bool := match lookup t k with None => true | Some _ => false end.

Section Run.
Variables (o : oracle) (names : list pystr) (f : list Z).
Definition At (p : Z) (bs : list Z) : Prop := exists pre post, f = pre ++ bs ++ post /\ zlen pre = p.
Lemma At_app p a b : At p (a ++ b) -> At p a /\ At (p + zlen a) b.
Proof.
  intros (pre & post & E & L). split; [exists pre, (b ++ post)|exists (pre ++ a), post]; rewrite E.
  - split; [now rewrite <- app_assoc|exact L].
  - split; [now rewrite <- !app_assoc|rewrite zlen_app; lia].
Qed.
Lemma At_cons p a b : At p (a :: b) -> At p [a] /\ At (p + 1) b. Proof. exact (At_app p [a] b). Qed.
Lemma At_byte p c : At p [c] -> read_byte f p = Ok (c, p + 1).
Proof. intros (pre & post & E & L). unfold read_byte. now rewrite (fread_at f pre [c] post p 1 E (eq_sym L) eq_refl). Qed.
Lemma At_ushort p n : At p (le16 n) -> 0 <= n < 65536 -> read_ushort f p = Ok (n, p + 2).
Proof. intros (pre & post & -> & <-) H. now apply ushort_at. Qed.
Lemma At_read p bs : At p bs -> fread f p (zlen bs) = Ok (bs, p + zlen bs).
Proof. intros (pre & post & E & L). now rewrite (fread_at f pre bs post p (zlen bs) E (eq_sym L) eq_refl). Qed.

Definition Run (p : Z) (st : list item) (p' : Z) (st' : list item) : Prop :=
  forall k r, expr_loop k o names f p' st' = Some r -> exists k', expr_loop k' o names f p st = Some r.
Lemma run_refl p st : Run p st p st. Proof. intros k r E. eauto. Qed.
Lemma run_trans p st p1 st1 p2 st2 : Run p st p1 st1 -> Run p1 st1 p2 st2 -> Run p st p2 st2.
Proof. intros H1 H2 k r E. apply H2 in E as [k1 E]. eauto. Qed.
Lemma run_next k p st i st' p' : next_code k o names f p st = Some (Ok (i, st', p')) -> i <> IInt END_EXPR -> Run p st p' (i :: st').
Proof.
  intros E Hi j r ER. exists (S (Nat.max k j)). cbn [expr_loop]. rewrite (next_mono o names f k (Nat.max k j) p st _ (Nat.le_max_l k j) E).
  apply (expr_mono _ _ _ _ (Nat.max k j)) in ER; [|lia]. destruct i as [s|s|s|n|s|l]; try exact ER. destruct (Z.eqb_spec n END_EXPR); [congruence|exact ER].
Qed.
(* a byte that only makes next_code go on *)
Lemma loop_S k p st : expr_loop (S k) o names f p st =
  match next_code k o names f p st with
  | None => None
  | Some (Err e) => Some (Err e)
  | Some (Ok (IInt n, st, p)) => if n =? END_EXPR then Some (Ok (match st with [i] => i | _ => IList (rev st) end, p)) else expr_loop k o names f p (IInt n :: st)
  | Some (Ok (i, st, p)) => expr_loop k o names f p (i :: st)
  end.
Proof. reflexivity. Qed.
Lemma run_skip p st p' : (forall k, next_code (S k) o names f p st = next_code k o names f p' st) -> Run p st p' st.
Proof.
  intros H [|k] r ER; [discriminate|]. exists (S (S k)). rewrite loop_S in *. rewrite H. destruct (next_code k o names f p' st) as [[[[i s] q]|]|]; try exact ER.
  destruct i as [s0|s0|s0|n|s0|l0]; try (refine (expr_mono _ _ _ k _ _ _ _ _ ER); lia). destruct (n =? END_EXPR); [exact ER|]. refine (expr_mono _ _ _ k _ _ _ _ _ ER); lia.
Qed.
Definition noalias (st : list item) : Prop := match st with IAlias _ :: _ => False | _ => True end.
Lemma noalias_merge st s : noalias st -> merge_aliases st s = (s, st).
Proof. destruct st as [|[] st]; intros H; try reflexivity. destruct H. Qed.

(** stack left by the links of a chain, and by arguments *)
Fixpoint links (c : chain) : list item := match c with CNil => [] | CLink c l => IAlias (text_link names l) :: links c end.
Lemma merge_links c : forall st s, noalias st -> merge_aliases (links c ++ st) s = (text_chain names c ++ s, st).
Proof.
  induction c as [|c IH l]; intros st s H; [now apply noalias_merge|]. cbn [links app merge_aliases]. rewrite IH by exact H. f_equal. cbn [text_chain]. now rewrite <- !app_assoc.
Qed.
Fixpoint arg_texts (ts : trees) : list pystr := match ts with TNil => [] | TCons t ts => text names t :: arg_texts ts end.
Lemma texts_join ts : texts names ts = join (u ", ") (arg_texts ts).
Proof.
  induction ts as [|t ts IH]; [reflexivity|]. destruct ts as [|t2 ts]; [reflexivity|].
  change (texts names (TCons t (TCons t2 ts))) with (text names t ++ u ", " ++ texts names (TCons t2 ts)). rewrite IH. reflexivity.
Qed.
Lemma params_taken l st : take_params (rev (map IName l) ++ IInt PARAMETER_MARK :: st) [] = (map IName l, st).
Proof.
  rewrite <- map_rev. assert (forall l acc, take_params (map IName l ++ IInt PARAMETER_MARK :: st) acc = (map IName (rev l) ++ acc, st)) as H.
  { clear. induction l as [|x l IH]; intros acc; [reflexivity|]. cbn [map app take_params rev]. rewrite IH, map_app, <- app_assoc. reflexivity. }
  now rewrite H, app_nil_r, rev_involutive.
Qed.

(** ** single codes *)
Lemma next_mark k p st : At p [0x43] -> next_code (S k) o names f p st = Some (Ok (IInt PARAMETER_MARK, st, p + 1)).
Proof. intros H. cbn [next_code]. rewrite (At_byte _ _ H). reflexivity. Qed.
Lemma call_name s args : call_text s (map IName args) = s ++ u "(" ++ join (u ", ") args ++ u ")".
Proof. unfold call_text. rewrite map_map. cbn [irepr]. now rewrite map_id. Qed.
Lemma next_fun k p st fc name args : At p [fc] -> fc <> 0x43 -> lookup t_functions fc = Some name ->
  next_code (S k) o names f p (rev (map IName args) ++ IInt PARAMETER_MARK :: st) = Some (Ok (IName (name ++ u "(" ++ join (u ", ") args ++ u ")"), st, p + 1)).
Proof.
  intros H Hm HL. cbn [next_code]. rewrite (At_byte _ _ H). cbv zeta.
  assert (special fc = false) as HS.
  { apply negb_true_iff. refine (lookup_sweep t_functions (fun k => negb (special k)) fc name _ HL). vm_compute. reflexivity. }
  unfold special in HS. rewrite !orb_false_iff in HS. destruct HS as [[[[[-> ->] H1] H2] H3] H4]. rewrite H1, H2, H3, H4. cbn [orb].
  replace (fc =? PARAMETER_MARK) with false by (symmetry; now apply Z.eqb_neq). rewrite HL, params_taken, call_name. reflexivity.
Qed.
Lemma next_ext k p st page fc name args : At p [page; fc] -> (page = 0x1A /\ lookup t_extended1 fc = Some name) \/ (page = 0xEA /\ lookup t_extended2 fc = Some name) ->
  next_code (S k) o names f p (rev (map IName args) ++ IInt PARAMETER_MARK :: st) = Some (Ok (IName (name ++ u "(" ++ join (u ", ") args ++ u ")"), st, p + 2)).
Proof.
  intros H HL. apply At_cons in H as [H1 H2]. cbn [next_code]. rewrite (At_byte _ _ H1). cbv zeta.
  assert ((page =? END_EXPR) = false /\ (page =? PARAMETER_MARK) = false /\ (page =? SQL_SUBQUERY) = false /\ (page =? 229) || (page =? 246) = false /\ (page =? 26) || (page =? 234) = true /\ (page =? 229) = false) as (-> & -> & -> & -> & -> & ->)
    by (destruct HL as [[-> _]|[-> _]]; repeat split).
  unfold table_byte. rewrite (At_byte _ _ H2). cbn [rbind].
  assert (lookup (if page =? 26 then t_extended1 else t_extended2) fc = Some name) as -> by (destruct HL as [[-> HL]|[-> HL]]; exact HL).
  rewrite params_taken, call_name. now replace (p + 1 + 1) with (p + 2) by lia.
Qed.
Lemma name_at p i : At p (le16 i) -> good_name names i -> read_name names f p = Ok (name_of names i, p + 2).
Proof.
  intros H [H1 H2]. unfold read_name. rewrite (At_ushort _ _ H) by lia. cbn [rbind]. unfold py_nth, name_of.
  replace (i <? 0) with false by (symmetry; apply Z.ltb_ge; lia). replace (i <? 0) with false by (symmetry; apply Z.ltb_ge; lia).
  replace (zlen names <=? i) with false by (symmetry; apply Z.leb_gt; lia). cbn [orb].
  destruct (nth_error names (Z.to_nat i)) as [s|] eqn:E; [|apply nth_error_None in E; unfold zlen in H1; lia]. cbn [rbind]. now rewrite (nth_error_nth _ _ _ E).
Qed.
Lemma next_call k p st c i args cv : At p (cv :: le16 i) -> good_name names i -> cv = 0xF6 \/ cv = 0xE5 -> noalias (rev (map IName args) ++ IInt PARAMETER_MARK :: st) ->
  next_code (S k) o names f p (links c ++ rev (map IName args) ++ IInt PARAMETER_MARK :: st) =
  Some (Ok ((if cv =? 0xE5 then IAlias else IName) (text_chain names c ++ name_of names i ++ u "(" ++ join (u ", ") args ++ u ")"), st, p + 3)).
Proof.
  intros H Hi Hc HN. apply At_cons in H as [H1 H2]. cbn [next_code]. rewrite (At_byte _ _ H1). cbv zeta.
  assert ((cv =? END_EXPR) = false /\ (cv =? PARAMETER_MARK) = false /\ (cv =? SQL_SUBQUERY) = false /\ (cv =? 229) || (cv =? 246) = true) as (-> & -> & -> & ->)
    by (destruct Hc as [-> | ->]; repeat split).
  rewrite (name_at _ _ H2 Hi), (merge_links c _ _ HN), params_taken, call_name. replace (p + 1 + 2) with (p + 3) by lia. rewrite <- !app_assoc.
  destruct (cv =? 229); reflexivity.
Qed.
Lemma next_op k p st op : At p [op] -> forall s ar, lookup t_operators op = Some (s, ar) ->
  next_code (S k) o names f p st =
    if ar =? 0 then next_code k o names f (p + 1) st
    else if ar =? 1 then match st with a :: st => Some (Ok (IName (u "(" ++ s ++ u " " ++ irepr a ++ u ")"), st, p + 1)) | [] => Some (Err IndexError) end
    else if ar =? 2 then match st with b :: a :: st => Some (Ok (IName (u "(" ++ irepr a ++ u " " ++ s ++ u " " ++ irepr b ++ u ")"), st, p + 1)) | _ => Some (Err IndexError) end
    else Some (Ok (IStr s, st, p + 1)).
Proof.
  intros H s ar HL. cbn [next_code]. rewrite (At_byte _ _ H). cbv zeta.
  assert (special op = false /\ unseen t_functions op = true /\ (op =? 0x43) = false) as (HS & HU & HM).
  { assert (negb (special op) && unseen t_functions op && negb (op =? 0x43) = true) as HX.
    { refine (lookup_sweep t_operators (fun op => negb (special op) && unseen t_functions op && negb (op =? 0x43)) op (s, ar) _ HL). vm_compute. reflexivity. }
    rewrite !andb_true_iff, !negb_true_iff in HX. tauto. }
  unfold special in HS. rewrite !orb_false_iff in HS. destruct HS as [[[[[-> ->] H1] H2] H3] H4]. rewrite H1, H2, H3, H4. cbn [orb].
  change PARAMETER_MARK with 0x43. rewrite HM. unfold unseen in HU. destruct (lookup t_functions op); [discriminate HU|]. rewrite HL. reflexivity.
Qed.
Lemma next_value k p st cv rd : At p [cv] -> In cv [0xD9; 0xFB; 0xF8; 0xF9; 0xE9; 0xF7; 0xF4; 0xF5; 0xE1] -> value_reader o names cv = Some rd ->
  next_code (S k) o names f p st = match rd f (p + 1) with
    | Err e => Some (Err e)
    | Ok (i, p) => match i with IName s => let (s, st) := merge_aliases st s in Some (Ok (IName s, st, p)) | IAlias s => Some (Ok (IAlias s, st, p)) | i => Some (Ok (IName (istr i), st, p)) end
    end.
Proof.
  intros H HI HV. cbn [next_code]. rewrite (At_byte _ _ H). cbv zeta.
  assert (special cv = false /\ unseen t_functions cv = true /\ unseen t_operators cv = true /\ (cv =? 0x43) = false /\ ((cv =? 240) || (cv =? 241)) = false /\ (cv =? 235) = false /\ (cv =? 252) = false) as (HS & HU & HO & HM & HJ & HE & HF).
  { cbn [In] in HI. repeat (destruct HI as [<-|HI]; [vm_compute; auto 10|]). destruct HI. }
  unfold special in HS. rewrite !orb_false_iff in HS. destruct HS as [[[[[-> ->] H1] H2] H3] H4]. rewrite H1, H2, H3, H4. cbn [orb].
  change PARAMETER_MARK with 0x43. rewrite HM. unfold unseen in *. destruct (lookup t_functions cv); [discriminate HU|]. destruct (lookup t_operators cv); [discriminate HO|].
  rewrite HJ, HE, HF, HV. reflexivity.
Qed.
Lemma next_const k p st b : At p [b] -> In b [0x61; 0x2D; 0xE4] -> next_code (S k) o names f p st = Some (Ok (IName (const_text b), st, p + 1)).
Proof.
  intros H HI. cbn [next_code]. rewrite (At_byte _ _ H). cbv zeta. cbn [In] in HI.
  destruct HI as [<-|[<-|[<-|[]]]].
  - replace (lookup t_functions 97) with (@None pystr) by (vm_compute; reflexivity). replace (lookup t_operators 97) with (@None (pystr * Z)) by (vm_compute; reflexivity). reflexivity.
  - replace (lookup t_functions 45) with (@None pystr) by (vm_compute; reflexivity). replace (lookup t_operators 45) with (@None (pystr * Z)) by (vm_compute; reflexivity). reflexivity.
  - replace (lookup t_functions 228) with (@None pystr) by (vm_compute; reflexivity). replace (lookup t_operators 228) with (@None (pystr * Z)) by (vm_compute; reflexivity). reflexivity.
Qed.
Lemma next_jump k p st (isor : bool) n : At p ((if isor then 0xF1 else 0xF0) :: le16 n) -> 0 <= n < 65536 ->
  next_code (S k) o names f p st = next_code k o names f (p + 3) st.
Proof.
  intros H Hn. apply At_cons in H as [H1 H2]. cbn [next_code]. rewrite (At_byte _ _ H1). cbv zeta. rewrite (At_ushort _ _ H2 Hn). replace (p + 1 + 2) with (p + 3) by lia.
  destruct isor.
  - replace (lookup t_functions 241) with (@None pystr) by (vm_compute; reflexivity). replace (lookup t_operators 241) with (@None (pystr * Z)) by (vm_compute; reflexivity). reflexivity.
  - replace (lookup t_functions 240) with (@None pystr) by (vm_compute; reflexivity). replace (lookup t_operators 240) with (@None (pystr * Z)) by (vm_compute; reflexivity). reflexivity.
Qed.
Lemma next_group k p st i q : At p [0xFC] -> expr_loop k o names f (p + 1) [] = Some (Ok (IName i, q)) -> noalias st ->
  next_code (S k) o names f p st = Some (Ok (IName i, st, q)).
Proof.
  intros H E HN. cbn [next_code]. rewrite (At_byte _ _ H). cbv zeta. rewrite E, (noalias_merge _ _ HN).
  replace (lookup t_functions 252) with (@None pystr) by (vm_compute; reflexivity). replace (lookup t_operators 252) with (@None (pystr * Z)) by (vm_compute; reflexivity). reflexivity.
Qed.
Lemma loop_end k p st : At p [0xFD] -> expr_loop (S (S k)) o names f p st = Some (Ok (match st with [i] => i | _ => IList (rev st) end, p + 1)).
Proof. intros H. cbn [expr_loop next_code]. rewrite (At_byte _ _ H). reflexivity. Qed.
Lemma At_uint p m : At p (le32 m) -> read_le f p 4 = Ok (m, p + 4).
Proof.
  intros H. unfold read_le. rewrite (At_read _ _ H : fread f p 4 = _). cbn [rbind]. unfold unpack_le. change (zlen (le32 m) =? 4) with true. cbv iota. cbn [rbind].
  change (zlen (le32 m)) with 4. replace (le (le32 m)) with m; [reflexivity|].
  unfold le32. cbn [le]. pose proof (Z.div_mod m 256 ltac:(lia)). pose proof (Z.div_mod (m / 256) 256 ltac:(lia)). pose proof (Z.div_mod (m / 65536) 256 ltac:(lia)).
  rewrite !Z.div_div in * by lia. change (256 * 256) with 65536 in *. change (65536 * 256) with 16777216 in *. lia.
Qed.
Lemma int_literal k p st bits w n : At p (int_code bits w n) -> noalias st ->
  0 <= w < 256 /\ ((bits = 8 /\ 0 <= n < 256) \/ (bits = 16 /\ -32768 <= n < 32768) \/ (bits = 32 /\ - 2 ^ 31 <= n < 2 ^ 31)) ->
  next_code (S k) o names f p st = Some (Ok (IName (int_text w n), st, p + zlen (int_code bits w n))).
Proof.
  intros H HN [Hw HI]. assert (number_text w n = int_text w n) as ET by reflexivity.
  assert (forall b k', 0 < k' -> - 2 ^ (k' - 1) <= b < 2 ^ (k' - 1) -> signed k' (b mod 2 ^ k') = b) as HSg.
  { intros b k' Hk Hb. assert (2 ^ k' = 2 * 2 ^ (k' - 1)) as E2 by (rewrite <- Z.pow_succ_r by lia; f_equal; lia). unfold signed.
    destruct (Z.ltb_spec b 0).
    - replace (b mod 2 ^ k') with (b + 2 ^ k') by (apply (Z.mod_unique b (2 ^ k') (-1)); [left; lia|lia]).
      replace (b + 2 ^ k' <? 2 ^ (k' - 1)) with false by (symmetry; apply Z.ltb_ge; lia). lia.
    - rewrite Z.mod_small by lia. now replace (b <? 2 ^ (k' - 1)) with true by (symmetry; apply Z.ltb_lt; lia). }
  destruct HI as [[-> Hn]|[[-> Hn]|[-> Hn]]].
  - change (int_code 8 w n) with [0xF8; w; n] in *. apply At_cons in H as [H1 H]. apply At_cons in H as [H2 H3].
    rewrite (next_value k p st _ (read_number read_byte) H1) by (try reflexivity; cbn; auto 10). unfold read_number. rewrite (At_byte _ _ H2). cbn [rbind].
    rewrite (At_byte _ _ H3). cbn [rbind]. rewrite ET. change (zlen [0xF8; w; n]) with 3. now replace (p + 1 + 1 + 1) with (p + 3) by lia.
  - change (int_code 16 w n) with (0xF9 :: w :: le16 (n mod 65536)) in *. apply At_cons in H as [H1 H]. apply At_cons in H as [H2 H3].
    rewrite (next_value k p st _ (read_number read_short) H1) by (try reflexivity; cbn; auto 10). unfold read_number. rewrite (At_byte _ _ H2). cbn [rbind].
    unfold read_short. change (read_le f (p + 1 + 1) 2) with (read_ushort f (p + 1 + 1)). rewrite (At_ushort _ _ H3) by (apply Z.mod_pos_bound; lia). cbn [rbind].
    rewrite (HSg n 16 eq_refl Hn : signed 16 (n mod 65536) = n). rewrite ET. change (zlen (_ :: w :: le16 _)) with 4. now replace (p + 1 + 1 + 2) with (p + 4) by lia.
  - change (int_code 32 w n) with (0xE9 :: w :: le32 (n mod 2 ^ 32)) in *. apply At_cons in H as [H1 H]. apply At_cons in H as [H2 H3].
    rewrite (next_value k p st _ (read_number read_int) H1) by (try reflexivity; cbn; auto 10). unfold read_number. rewrite (At_byte _ _ H2). cbn [rbind].
    unfold read_int. rewrite (At_uint _ _ H3). cbn [rbind].
    rewrite (HSg n 32 eq_refl Hn). rewrite ET. change (zlen (_ :: w :: le32 _)) with 6. now replace (p + 1 + 1 + 4) with (p + 6) by lia.
Qed.

(** ** whole expressions *)
Lemma zlen_cons1 {A} (a : A) l : zlen (a :: l) = 1 + zlen l. Proof. unfold zlen. cbn [length]. lia. Qed.
Lemma le16_len n : zlen (le16 n) = 2. Proof. reflexivity. Qed.
Lemma run_to p st q q' st' : Run p st q st' -> q = q' -> Run p st q' st'. Proof. now intros H <-. Qed.
Lemma noalias_args l st : noalias st -> noalias (rev (map IName l) ++ st).
Proof. intros H. rewrite <- map_rev. destruct (rev l); [exact H|exact I]. Qed.
Lemma binop_arity op : binop op <> None -> lookup t_operators op = Some (op_text op, 2).
Proof.
  intros H. unfold op_text.
  assert (binop op <> None -> In op [0x01; 0x04; 0x05; 0x06; 0x08; 0x0C; 0x09; 0x0B; 0x0D; 0x0E; 0x0F; 0x10; 0x11; 0x12; 0x14]) as HI.
  { clear. unfold binop. destruct op as [|q|q]; try congruence. do 6 (try (destruct q as [q|q|]; try congruence)); cbn; auto 20. }
  apply HI in H. cbn [In] in H. repeat (destruct H as [<-|H]; [vm_compute; reflexivity|]). destruct H.
Qed.
Lemma string_at p s : At p (le16 (zlen s) ++ s) -> zlen s < 65536 -> read_string f p = Ok (s, p + 2 + zlen s).
Proof. intros H HL. apply At_app in H as [H1 H2]. unfold read_string. rewrite (At_ushort _ _ H1) by (unfold zlen in *; lia). cbn [rbind]. exact (At_read _ _ H2). Qed.
Lemma table_at t p b s : At p [b] -> lookup t b = Some s -> table_byte t f p = Ok (s, p + 1).
Proof. intros H HL. unfold table_byte. rewrite (At_byte _ _ H). cbn [rbind]. now rewrite HL. Qed.

Lemma run_call c i ts cv p st :
  (forall p st, wfs names ts -> At p (encs ts) -> noalias st -> Run p st (p + zlen (encs ts)) (rev (map IName (arg_texts ts)) ++ st)) ->
  (forall p st, wf_chain names c -> At p (enc_chain c) -> Run p st (p + zlen (enc_chain c)) (links c ++ st)) ->
  cv = 0xF6 \/ cv = 0xE5 -> wf_chain names c -> good_name names i -> wfs names ts -> At p (0x43 :: encs ts ++ enc_chain c ++ cv :: le16 i) ->
  Run p st (p + zlen (0x43 :: encs ts ++ enc_chain c ++ cv :: le16 i))
    ((if cv =? 0xE5 then IAlias else IName) (text_chain names c ++ name_of names i ++ u "(" ++ texts names ts ++ u ")") :: st).
Proof.
  intros HT HC Hcv Wc Wi Ws HA. rewrite texts_join. apply At_cons in HA as [A1 HA]. apply At_app in HA as [A2 HA]. apply At_app in HA as [A3 A4].
  eapply run_trans; [eapply run_next; [apply (next_mark 0 _ _ A1)|discriminate]|].
  eapply run_trans; [apply HT; [exact Ws|exact A2|exact I]|]. eapply run_trans; [apply (HC _ _ Wc A3)|].
  eapply run_to; [eapply run_next; [apply (next_call 0 _ _ c i (arg_texts ts) cv A4 Wi Hcv); now apply noalias_args|]|].
  - destruct (cv =? 229); discriminate.
  - rewrite !zlen_cons1, !zlen_app, zlen_cons1, le16_len. lia.
Qed.
Ltac fin := cbn [encs enc_chain]; rewrite ?zlen_cons1, ?zlen_app, ?zlen_cons1, ?zlen_app, ?zlen_cons1, ?le16_len; change (zlen (@nil Z)) with 0; lia.
Lemma expr_run :
  (forall t p st, wf names t -> At p (enc t) -> noalias st -> Run p st (p + zlen (enc t)) (IName (text names t) :: st)) /\
  (forall ts p st, wfs names ts -> At p (encs ts) -> noalias st -> Run p st (p + zlen (encs ts)) (rev (map IName (arg_texts ts)) ++ st)) /\
  (forall c p st, wf_chain names c -> At p (enc_chain c) -> Run p st (p + zlen (enc_chain c)) (links c ++ st)) /\
  (forall l p st, wf_link names l -> At p (enc_link l) -> Run p st (p + zlen (enc_link l)) (IAlias (text_link names l) :: st)).
Proof.
  apply expr_ind.
  - (* TStr *) intros single s p st [HL HB] HA HN. cbn [enc text] in *. apply At_cons in HA as [A1 A2].
    eapply run_to; [eapply run_next|]; [|destruct single; discriminate|].
    + erewrite (next_value 0 _ _ _ _ A1); [| |destruct single; reflexivity]; [|destruct single; cbn; auto 10].
      destruct single; cbv beta; rewrite (string_at _ _ A2 HL); cbn [rbind]; rewrite (noalias_merge _ _ HN); reflexivity.
    + fin.
  - (* TInt *) intros bits w n p st HW HA HN. eapply run_next; [exact (int_literal 0 p st bits w n HA HN HW)|discriminate].
  - (* TConst *) intros b p st HW HA HN. eapply run_next; [exact (next_const 0 p st b HA HW)|discriminate].
  - (* TName *) intros c IH i p st [Wc Wi] HA HN. cbn [enc text] in *. apply At_app in HA as [A1 A2]. apply At_cons in A2 as [A2 A3].
    eapply run_trans; [apply (IH _ _ Wc A1)|]. eapply run_to; [eapply run_next|].
    + rewrite (next_value 0 _ _ _ _ A2 ltac:(cbn; auto 10) eq_refl). cbv beta. rewrite (name_at _ _ A3 Wi). cbn [rbind]. rewrite (merge_links _ _ _ HN). reflexivity.
    + discriminate.
    + fin.
  - (* TUn *) intros op a IH p st [-> Wa] HA HN. cbn [enc text] in *. apply At_app in HA as [A1 A2].
    eapply run_trans; [apply (IH _ _ Wa A1 HN)|]. eapply run_to; [eapply run_next|].
    + rewrite (next_op 0 _ _ _ A2 (u "NOT") 1) by (vm_compute; reflexivity). cbn [irepr]. reflexivity.
    + discriminate.
    + fin.
  - (* TBin *) intros op a IHa b IHb p st (Wo & Wa & Wb) HA HN. cbn [enc text] in *. apply At_app in HA as [A1 HA]. apply At_app in HA as [A2 A3].
    eapply run_trans; [apply (IHa _ _ Wa A1 HN)|]. eapply run_trans; [apply IHb; [exact Wb|exact A2|exact I]|]. eapply run_to; [eapply run_next|].
    + rewrite (next_op 0 _ _ _ A3 _ _ (binop_arity op Wo)). cbn [irepr]. reflexivity.
    + discriminate.
    + fin.
  - (* TFun *) intros fc name ts IH p st (Wm & Wn & Ws) HA HN. cbn [enc text] in *. apply At_cons in HA as [A1 HA]. apply At_app in HA as [A2 A3].
    eapply run_trans; [eapply run_next; [apply (next_mark 0 _ _ A1)|discriminate]|].
    eapply run_trans; [apply IH; [exact Ws|exact A2|exact I]|]. eapply run_to; [eapply run_next|].
    + rewrite (next_fun 0 _ _ _ _ _ A3 Wm Wn), texts_join. reflexivity.
    + discriminate.
    + fin.
  - (* TExt *) intros page fc name ts IH p st (Wn & Ws) HA HN. cbn [enc text] in *. apply At_cons in HA as [A1 HA]. apply At_app in HA as [A2 A3].
    eapply run_trans; [eapply run_next; [apply (next_mark 0 _ _ A1)|discriminate]|].
    eapply run_trans; [apply IH; [exact Ws|exact A2|exact I]|]. eapply run_to; [eapply run_next|].
    + rewrite (next_ext 0 _ _ _ _ _ _ A3 Wn), texts_join. reflexivity.
    + discriminate.
    + fin.
  - (* TCall *) intros c IHc i ts IHs p st (Wc & Wi & Ws) HA HN. exact (run_call c i ts 0xF6 p st IHs IHc (or_introl eq_refl) Wc Wi Ws HA).
  - (* TJump *) intros isor n t IH p st [Wn Wt] HA HN. cbn [enc text] in *. change (?a :: le16 n ++ enc t) with ((a :: le16 n) ++ enc t) in HA. apply At_app in HA as [A1 A2].
    change (zlen ((if isor then 241 else 240) :: le16 n)) with 3 in A2.
    eapply run_trans; [apply (run_skip p st (p + 3)); intros k; exact (next_jump k p st isor n A1 Wn)|]. eapply run_to; [apply (IH _ _ Wt A2 HN)|fin].
  - (* TParen *) intros t IH p st Wt HA HN. cbn [enc text] in *. apply At_app in HA as [A1 A2].
    eapply run_trans; [apply (IH _ _ Wt A1 HN)|]. eapply run_to; [apply run_skip; intros k; rewrite (next_op k _ _ _ A2 (u "END PAREN") 0) by (vm_compute; reflexivity); reflexivity|fin].
  - (* TGroup *) intros t IH p st Wt HA HN. cbn [enc text] in *. apply At_cons in HA as [A1 HA]. apply At_app in HA as [A2 A3].
    destruct (IH _ [] Wt A2 I _ _ (loop_end 0 _ [IName (text names t)] A3)) as [k E].
    eapply run_to; [eapply run_next; [apply (next_group k _ _ _ _ A1 E HN)|discriminate]|fin].
  - intros p st _ _ _. eapply run_to; [apply run_refl|fin].
  - intros t IHt ts IHs p st [Wt Ws] HA HN. cbn [encs] in *. apply At_app in HA as [A1 A2]. eapply run_trans; [apply (IHt _ _ Wt A1 HN)|].
    cbn [arg_texts map rev]. rewrite <- app_assoc. cbn [app]. eapply run_to; [apply IHs; [exact Ws|exact A2|exact I]|fin].
  - intros p st _ _. eapply run_to; [apply run_refl|fin].
  - intros c IHc l IHl p st [Wc Wl] HA. cbn [enc_chain links] in *. apply At_app in HA as [A1 A2]. eapply run_trans; [apply (IHc _ _ Wc A1)|].
    cbn [app]. eapply run_to; [apply (IHl _ _ Wl A2)|fin].
  - (* LName *) intros i p st Wi HA. cbn [enc_link text_link] in *. apply At_cons in HA as [A1 A2]. eapply run_to; [eapply run_next|].
    + rewrite (next_value 0 _ _ _ _ A1 ltac:(cbn; auto 10) eq_refl). cbv beta. rewrite (name_at _ _ A2 Wi). reflexivity.
    + discriminate.
    + fin.
  - (* LSpecial *) intros b s p st Wb HA. cbn [enc_link text_link] in *. apply At_cons in HA as [A1 A2]. eapply run_to; [eapply run_next|].
    + rewrite (next_value 0 _ _ _ _ A1 ltac:(cbn; auto 10) eq_refl). cbv beta. rewrite (table_at _ _ _ _ A2 Wb). reflexivity.
    + discriminate.
    + fin.
  - (* LSystem *) intros b s p st Wb HA. cbn [enc_link text_link] in *. apply At_cons in HA as [A1 A2]. eapply run_to; [eapply run_next|].
    + rewrite (next_value 0 _ _ _ _ A1 ltac:(cbn; auto 10) eq_refl). cbv beta. rewrite (table_at _ _ _ _ A2 Wb). reflexivity.
    + discriminate.
    + fin.
  - (* LCall *) intros c IHc i ts IHs p st (Wc & Wi & Ws) HA. exact (run_call c i ts 0xE5 p st IHs IHc (or_intror eq_refl) Wc Wi Ws HA).
Qed.
Lemma expr_read t p : wf names t -> At p (enc t ++ [0xFD]) -> exists k, read_expr k o names f p = Some (Ok (IName (text names t), p + zlen (enc t) + 1)).
Proof.
  intros W HA. apply At_app in HA as [A1 A2]. exact (proj1 expr_run t p [] W A1 I _ _ (loop_end 0 _ [IName (text names t)] A2)).
Qed.
End Run.
