(** Work areas: USE, SELECT, names. *)
From Verif Require Import PyBase PyStr M_Strings P_Strings M_Db P_Db.
Open Scope Z_scope.

Lemma used_name d s : s <> [] -> (used d (TName s) = true <-> exists w, In (Some w) (areas d) /\ is_alias w s = true).
Proof.
  intros Hs. unfold used, get_workarea. destruct s as [|c s]; [congruence|].
  destruct (index_of _ _ _) as [k|] eqn:E; cbn [is_ok]; split; intros H; try reflexivity; try discriminate.
  - apply index_of_some in E. destruct E as (n & _ & _ & ([w|] & Hn & Ha) & _); [|discriminate].
    exists w. split; [eapply nth_error_In; eauto|exact Ha].
  - destruct H as (w & Hin & Ha). pose proof (index_of_none _ _ _ E (Some w) Hin) as Hf. cbn [answers] in Hf. congruence.
Qed.
Lemma not_used_name d s : s <> [] -> (forall w, In (Some w) (areas d) -> is_alias w s = false) -> used d (TName s) = false.
Proof.
  intros Hs H. destruct (used d (TName s)) eqn:E; [|reflexivity]. apply used_name in E; [|exact Hs].
  destruct E as (w & Hin & Ha). rewrite H in Ha; [discriminate|exact Hin].
Qed.
Lemma use_in_0 d s al file rs k : s <> [] ->
  (forall w, In (Some w) (areas d) -> is_alias w s = false) ->
  nth_error (areas d) k = Some None -> (forall m, (m < k)%nat -> nth_error (areas d) m <> Some None) ->
  use d (Some s) (TNum 0) al (Ok (file, rs)) = (Ok tt, mkDb (list_upd (areas d) k (Some (new_ws al file rs))) (cur d)).
Proof.
  intros Hs Hu Hk Hm. unfold use. rewrite not_used_name by assumption.
  rewrite (index_of_intro free (areas d) 0 k None Hk eq_refl).
  - rewrite py_set_nth_slot, Z.add_0_l, slot_nonneg by (apply nth_error_Some; congruence). reflexivity.
  - intros m [w|] Hlt Ho; [reflexivity|]. now specialize (Hm m Hlt).
Qed.
Lemma get_area_name d s k w : s <> [] -> nth_error (areas d) k = Some (Some w) -> is_alias w s = true ->
  (forall m w', (m < k)%nat -> nth_error (areas d) m = Some (Some w') -> is_alias w' s = false) ->
  get_workarea d (TName s) = Ok (Z.of_nat k).
Proof.
  intros Hs Hk Ha Hm. unfold get_workarea. destruct s as [|c s]; [congruence|].
  rewrite (index_of_intro (answers (c :: s)) (areas d) 0 k (Some w) Hk Ha); [reflexivity|].
  intros m [w'|] Hlt Ho; [now apply (Hm m)|reflexivity].
Qed.
Lemma get_area_name_inv d s i : s <> [] -> get_workarea d (TName s) = Ok i ->
  exists k w, i = Z.of_nat k /\ nth_error (areas d) k = Some (Some w) /\ is_alias w s = true /\
  (forall m w', (m < k)%nat -> nth_error (areas d) m = Some (Some w') -> is_alias w' s = false).
Proof.
  intros Hs. unfold get_workarea. destruct s as [|c s]; [congruence|].
  destruct (index_of _ _ _) as [j|] eqn:E; [|discriminate]. intros [= <-].
  apply index_of_some in E. destruct E as (n & -> & _ & ([w|] & Hn & Ha) & Hm); [|discriminate].
  exists n, w. split; [lia|]. split; [exact Hn|]. split; [exact Ha|]. intros m w' Hlt Hw. exact (Hm m (Some w') Hlt Hw).
Qed.

(** ** Names *)
Lemma lower_app a b : lower (a ++ b) = lower a ++ lower b. Proof. apply map_app. Qed.
Lemma lower_char_sep c n : (n = 46 \/ n = 47) -> lower_char c = n -> c = n.
Proof. unfold lower_char. intros Hn. destruct (Z.leb_spec 65 c), (Z.leb_spec c 90); cbn; lia. Qed.
Lemma lower_no_sep s n : (n = 46 \/ n = 47) -> ~ In n s -> ~ In n (lower s).
Proof. intros Hn H Hin. apply in_map_iff in Hin. destruct Hin as (c & Hc & Hc'). apply lower_char_sep in Hc; [subst; auto|exact Hn]. Qed.
Lemma lower_idem s : lower (lower s) = lower s.
Proof.
  unfold lower. rewrite map_map. apply map_ext. intros c. unfold lower_char.
  destruct (Z.leb_spec 65 c), (Z.leb_spec c 90); cbn;
    repeat match goal with |- context[?a <=? ?b] => destruct (Z.leb_spec a b) end; cbn; lia.
Qed.
Lemma prefixb_single c x r : prefixb [c] (x :: r) = (c =? x).
Proof. cbn. now rewrite andb_true_r. Qed.
Lemma rfind_single_none s c : ~ In c s -> rfind_nat s [c] = None.
Proof.
  induction s as [|x s IH]; intros H; cbn [rfind_nat prefixb]; [reflexivity|].
  rewrite IH by (intros Hi; apply H; now right). destruct (Z.eqb_spec c x) as [->|]; [exfalso; apply H; now left|reflexivity].
Qed.
Lemma rfind_single_app a b c : ~ In c b -> rfind_nat (a ++ c :: b) [c] = Some (length a).
Proof.
  intros H. induction a as [|x a IH].
  - cbn [app rfind_nat length]. rewrite rfind_single_none by exact H. cbn [prefixb]. now rewrite Z.eqb_refl.
  - cbn [app rfind_nat length]. now rewrite IH.
Qed.
Lemma str_rfind_none s c : ~ In c s -> str_rfind s [c] = -1.
Proof. intros H. unfold str_rfind. now rewrite rfind_single_none. Qed.
Lemma str_rfind_app a b c : ~ In c b -> str_rfind (a ++ c :: b) [c] = zlen a.
Proof. intros H. unfold str_rfind. now rewrite rfind_single_app. Qed.
Lemma slice_all_from (s : pystr) k : 0 <= k <= zlen s -> py_slice s (Some k) None = skipn (Z.to_nat k) s.
Proof.
  intros H. unfold py_slice, slice_bound. destruct (Z.ltb_spec k 0); [lia|]. rewrite firstn_all2; [f_equal; lia|].
  rewrite skipn_length. unfold zlen in *. lia.
Qed.
Lemma slice_upto (s : pystr) k : 0 <= k <= zlen s -> py_slice s None (Some k) = firstn (Z.to_nat k) s.
Proof.
  intros H. unfold py_slice, slice_bound. destruct (Z.ltb_spec k 0); [lia|]. cbn [Z.to_nat skipn]. f_equal. lia.
Qed.
Lemma slice_mid (a b c : pystr) : py_slice (a ++ b ++ c) (Some (zlen a)) (Some (zlen a + zlen b)) = b.
Proof.
  unfold py_slice, slice_bound. pose proof (zlen_nonneg a). pose proof (zlen_nonneg b). pose proof (zlen_nonneg c).
  rewrite !zlen_app.
  destruct (Z.ltb_spec (zlen a) 0); [lia|]. destruct (Z.ltb_spec (zlen a + zlen b) 0); [lia|].
  replace (Z.max 0 (Z.min (zlen a + (zlen b + zlen c)) (zlen a))) with (zlen a) by lia.
  replace (Z.max 0 (Z.min (zlen a + (zlen b + zlen c)) (zlen a + zlen b)) - zlen a) with (zlen b) by lia.
  unfold zlen. rewrite !Nat2Z.id, skipn_app, skipn_all, Nat.sub_diag. cbn [skipn app].
  rewrite firstn_app, Nat.sub_diag, firstn_all. cbn. now rewrite app_nil_r.
Qed.
Definition dirpart (dir : option pystr) : pystr := match dir with Some p => p ++ [47] | None => [] end.
Lemma basename_dir dir s : ~ In 47 s -> basename (dirpart dir ++ s) = s.
Proof.
  intros H. unfold basename. destruct dir as [p|]; cbn [dirpart].
  - rewrite <- app_assoc. cbn [app]. rewrite str_rfind_app by exact H.
    rewrite slice_all_from by (rewrite zlen_app, zlen_cons; pose proof (zlen_nonneg p); pose proof (zlen_nonneg s); lia).
    replace (Z.to_nat (zlen p + 1)) with (length (p ++ [47])) by (rewrite app_length; cbn; unfold zlen; lia).
    rewrite (app_assoc p [47] s : p ++ 47 :: s = (p ++ [47]) ++ s), skipn_app, skipn_all, Nat.sub_diag. reflexivity.
  - cbn [app]. rewrite str_rfind_none by exact H. now rewrite slice_all_from by (pose proof (zlen_nonneg s); lia).
Qed.
Lemma has_nondot_true s c : In c s -> c <> 46 -> has_nondot s = true.
Proof.
  induction s as [|x s IH]; [intros []|]. cbn. intros [->|H] Hc; [destruct (Z.eqb_spec c 46); [congruence|reflexivity]|].
  rewrite IH by auto. apply orb_true_r.
Qed.
Lemma splitext_dir dir stem ext c : ~ In 47 stem -> In c stem -> c <> 46 -> ~ In 47 ext -> ~ In 46 ext ->
  splitext (dirpart dir ++ stem ++ 46 :: ext) = dirpart dir ++ stem.
Proof.
  intros H1 H2 H3 H4 H5. unfold splitext.
  assert (~ In 47 (stem ++ 46 :: ext)) as Hn.
  { intros Hi. apply in_app_iff in Hi. destruct Hi as [Hi|[Hi|Hi]]; [auto|discriminate|auto]. }
  set (p := dirpart dir ++ stem ++ 46 :: ext).
  assert (str_rfind p [47] + 1 = zlen (dirpart dir)) as Es.
  { unfold p. destruct dir as [q|]; cbn [dirpart].
    - rewrite <- app_assoc. cbn [app]. rewrite str_rfind_app by exact Hn. rewrite zlen_app. reflexivity.
    - cbn [app]. now rewrite str_rfind_none. }
  assert (str_rfind p [46] = zlen (dirpart dir ++ stem)) as Ed.
  { unfold p. rewrite app_assoc. now apply str_rfind_app. }
  rewrite Ed. assert (str_rfind p [47] = zlen (dirpart dir) - 1) as Es' by lia. rewrite Es'. rewrite zlen_app.
  pose proof (zlen_nonneg (dirpart dir)). pose proof (zlen_nonneg stem).
  destruct (Z.ltb_spec (zlen (dirpart dir) - 1) (zlen (dirpart dir) + zlen stem)); [|lia]. cbn [andb].
  replace (zlen (dirpart dir) - 1 + 1) with (zlen (dirpart dir)) by lia.
  unfold p at 1. rewrite slice_mid. rewrite (has_nondot_true stem c) by assumption.
  unfold p. rewrite slice_upto by (rewrite !zlen_app, zlen_cons; pose proof (zlen_nonneg ext); lia).
  rewrite app_assoc, <- zlen_app. unfold zlen. rewrite Nat2Z.id, firstn_app, Nat.sub_diag, firstn_all. cbn. now rewrite app_nil_r.
Qed.
Lemma lower_dirpart dir : lower (dirpart dir) = dirpart (option_map lower dir).
Proof. destruct dir; [cbn; now rewrite lower_app|reflexivity]. Qed.
Lemma is_alias_file w dir stem c s :
  w_file w = dirpart dir ++ stem ++ u ".dbf" -> ~ In 47 stem -> In c stem -> c <> 46 ->
  is_alias w s = true <->
  lower s = w_name w \/ exists n, In n [dirpart dir ++ stem ++ u ".dbf"; dirpart dir ++ stem; stem ++ u ".dbf"; stem] /\ lower s = lower n.
Proof.
  intros Hf H1 H2 H3. unfold is_alias. rewrite Hf. cbv zeta.
  assert (~ In 47 (lower stem)) as L1 by (apply lower_no_sep; [now right|exact H1]).
  assert (In (lower_char c) (lower stem)) as L2 by (now apply in_map).
  assert (lower_char c <> 46) as L3 by (intros E; apply lower_char_sep in E; [congruence|now left]).
  rewrite !lower_app, lower_dirpart. change (lower (u ".dbf")) with (46 :: u "dbf").
  assert (~ In 47 (u "dbf") /\ ~ In 46 (u "dbf")) as [N1 N2] by (split; cbn; intuition discriminate).
  rewrite splitext_dir with (c := lower_char c) by assumption.
  rewrite (basename_dir _ (lower stem)) by exact L1.
  rewrite basename_dir by (intros Hi; apply in_app_iff in Hi; destruct Hi as [Hi|[Hi|Hi]]; [auto|discriminate|auto]).
  rewrite existsb_exists. cbn [In]. split.
  - intros (x & Hx & Ex). destruct (pystr_eqb_spec (lower s) x) as [<-|]; [|discriminate].
    destruct Hx as [Hx|[Hx|[Hx|[Hx|[Hx|[]]]]]]; [left; auto|right..].
    + exists (dirpart dir ++ stem ++ u ".dbf"). split; [now left|]. rewrite <- Hx, !lower_app, lower_dirpart. reflexivity.
    + exists (dirpart dir ++ stem). split; [right; now left|]. rewrite <- Hx, !lower_app, lower_dirpart. reflexivity.
    + exists (stem ++ u ".dbf"). split; [do 2 right; now left|]. rewrite <- Hx, !lower_app. reflexivity.
    + exists stem. split; [do 3 right; now left|]. now rewrite <- Hx.
  - intros [E|(n & Hn & E)].
    + exists (w_name w). split; [now left|]. rewrite E. now destruct (pystr_eqb_spec (w_name w) (w_name w)).
    + exists (lower s). split; [|now destruct (pystr_eqb_spec (lower s) (lower s))]. rewrite E. right.
      destruct Hn as [<-|[<-|[<-|[<-|[]]]]]; rewrite ?lower_app, ?lower_dirpart; cbn; auto 10.
Qed.
Lemma is_alias_own al file rs : al <> [] -> is_alias (new_ws (Some al) file rs) al = true.
Proof. intros H. unfold is_alias. cbn [new_ws w_name existsb]. destruct (pystr_eqb_spec (lower al) (lower al)); [reflexivity|congruence]. Qed.

(** ** Closing *)
Lemma close_number d n k : 1 <= n -> n = Z.of_nat k + 1 -> (k < length (areas d))%nat ->
  forall al o, use d None (TNum n) al o = (Ok tt, mkDb (list_upd (areas d) k None) (cur d)).
Proof.
  intros H1 -> Hk al o. unfold use. destruct (Z.of_nat k + 1) eqn:E; try lia.
  unfold get_workarea. destruct (Z.eqb_spec (Z.pos p) 0); [lia|]. rewrite <- E.
  rewrite py_set_nth_slot. replace (Z.of_nat k + 1 - 1) with (Z.of_nat k) by lia. now rewrite slot_nonneg.
Qed.
Lemma close_alias d s i al o : s <> [] -> get_workarea d (TName s) = Ok i -> (2 <= length (areas d))%nat ->
  exists j, snd (use d None (TName s) al o) = mkDb (list_upd (areas d) j None) (cur d) /\ Z.of_nat j <> i.
Proof.
  intros Hs Hg Hl. unfold use. rewrite Hg. destruct (get_area_name_inv _ _ _ Hs Hg) as (k & w & -> & Hk & _).
  assert (k < length (areas d))%nat as Hlt by (apply nth_error_Some; congruence).
  rewrite py_set_nth_slot. destruct k as [|k].
  - exists (length (areas d) - 1)%nat. split; [|lia]. unfold slot. change (Z.of_nat 0 - 1) with (-1). change (-1 <? 0) with true. cbv iota zeta.
    destruct (Z.ltb_spec (-1 + Z.of_nat (length (areas d))) 0); [lia|].
    destruct (Z.leb_spec (Z.of_nat (length (areas d))) (-1 + Z.of_nat (length (areas d)))); [lia|]. cbn [orb snd].
    replace (Z.to_nat (-1 + Z.of_nat (length (areas d)))) with (length (areas d) - 1)%nat by lia. reflexivity.
  - exists k. replace (Z.of_nat (S k) - 1) with (Z.of_nat k) by lia. rewrite slot_nonneg by lia. split; [reflexivity|lia].
Qed.
Lemma use_at_most_one d t w al o : exists k, forall m, m <> k -> nth_error (areas (snd (use d t w al o))) m = nth_error (areas d) m.
Proof.
  assert (forall (l : list (option ws)) k x m, m <> k -> nth_error (list_upd l k x) m = nth_error l m) as HU.
  { intros l k x m H. rewrite nth_error_list_upd. now destruct (Nat.eqb_spec m k). }
  unfold use. destruct t as [s|].
  - destruct (used d (TName s)); [exists O; reflexivity|]. cbv zeta.
    set (sl := match w with TNum 0 => _ | TNum n => Ok n | _ => Err TypeError end). clearbody sl.
    destruct (match w with TNum 0 => _ | _ => _ end); [|exists O; reflexivity].
    destruct o as [[f rs]|]; [|exists O; reflexivity]. destruct sl as [i|]; [|exists O; reflexivity].
    rewrite py_set_nth_slot. destruct (slot _ i) as [k|]; [|exists O; reflexivity]. exists k. intros m Hm. now apply HU.
  - destruct w as [|n|s]; try (destruct n); try (exists O; reflexivity);
    (destruct (get_workarea d _); [|exists O; reflexivity]); rewrite py_set_nth_slot; (destruct (slot _ _) as [k|]; [|exists O; reflexivity]);
      exists k; intros m Hm; now apply HU.
Qed.
Lemma use_cur d t w al o : cur (snd (use d t w al o)) = cur d.
Proof.
  unfold use. destruct t as [s|].
  - destruct (used d (TName s)); [reflexivity|]. cbv zeta.
    set (sl := match w with TNum 0 => _ | TNum n => Ok n | _ => Err TypeError end). clearbody sl.
    destruct (match w with TNum 0 => _ | _ => _ end); [|reflexivity].
    destruct o as [[f rs]|]; [|reflexivity]. destruct sl as [i|]; [|reflexivity]. now destruct (py_set_nth _ _ _).
  - destruct w as [|n|s]; try (destruct n); try reflexivity; (destruct (get_workarea d _); [|reflexivity]); now destruct (py_set_nth _ _ _).
Qed.
(** ** SELECT() *)
Lemma nth_error_rev {A} (l : list A) n : (n < length l)%nat -> nth_error (rev l) n = nth_error l (length l - S n).
Proof.
  intros H. destruct l as [|x l]; [cbn in H; lia|]. rewrite (nth_error_nth' (rev (x :: l)) x) by (now rewrite rev_length).
  rewrite rev_nth by exact H. symmetry. apply nth_error_nth'. lia.
Qed.
Lemma select_lowest d k : nth_error (areas d) k = Some None -> (forall m, (m < k)%nat -> nth_error (areas d) m <> Some None) ->
  select_function d (TName []) = Z.of_nat k + 1 /\ select_function d TNone = Z.of_nat k + 1.
Proof.
  intros Hk Hm. cbn [select_function]. rewrite (index_of_intro free (areas d) 0 k None Hk eq_refl); [split; lia|].
  intros m [w|] Hlt Ho; [reflexivity|]. now specialize (Hm m Hlt).
Qed.
Lemma select_highest d k : nth_error (areas d) k = Some None -> (forall m, (k < m)%nat -> nth_error (areas d) m <> Some None) ->
  select_function d (TNum 1) = Z.of_nat k + 1.
Proof.
  intros Hk Hm. cbn [select_function]. assert (k < length (areas d))%nat as Hlt by (apply nth_error_Some; congruence).
  rewrite (index_of_intro free (rev (areas d)) 0 (length (areas d) - S k) None); [unfold zlen; lia| |reflexivity|].
  - rewrite nth_error_rev by lia. rewrite <- Hk. f_equal. lia.
  - intros m [w|] Hlt' Ho; [reflexivity|]. rewrite nth_error_rev in Ho by lia. exfalso. revert Ho. apply Hm. lia.
Qed.
Lemma select_name d s : s <> [] ->
  select_function d (TName s) = match get_workarea d (TName s) with Ok i => i + 1 | Err _ => 0 end.
Proof. destruct s; [congruence|]. reflexivity. Qed.
Lemma select_number d n : 2 <= n ->
  (select_function d (TNum n) = n /\ exists w, nth_error (areas d) (Z.to_nat (n - 1)) = Some (Some w)) \/
  (select_function d (TNum n) = 0 /\ forall w, nth_error (areas d) (Z.to_nat (n - 1)) <> Some (Some w)).
Proof.
  intros H. destruct n as [|[p|p|]|p]; try lia; cbn [select_function]; rewrite py_nth_nonneg by lia;
    match goal with |- context[nth_error ?l ?k] => destruct (nth_error l k) as [[w|]|] eqn:E end; try (left; split; [reflexivity|eauto; fail]);
    right; (split; [reflexivity|intros w; congruence]).
Qed.
