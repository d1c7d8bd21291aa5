(** Properties C22-C28, C58-C63: tables and work areas. *)
From Coq Require Import Sorted.
From Verif Require Import PyBase PyStr M_Strings M_Db S_Db P_Db P_DbArea P_DbRec P_DbScan.
Open Scope Z_scope.

(** Tables used in the examples: field st, four and two records; the second table is in work area 2. *)
Definition row (s : string) : rec := mkRec false [(u "st", FChr (u s))].
Definition four : list rec := [row "ID"; row "WA"; row "ID"; row "OR"].
Definition two : list rec := [row "XX"; row "YY"].
Definition demo : db := drun db_init
  [CUse (Some (u "four")) (TNum 0) None (Ok (u "data/four.dbf", four)); CUse (Some (u "two")) (TNum 0) (Some (u "Second")) (Ok (u "data/two.dbf", two))].
Definition st_of (r : rec) : option fval := dget pystr_eqb (r_flds r) (u "st").
Definition st_is (s : string) (r : rec) : bool := match st_of r with Some (FChr x) => pystr_eqb x (u s) | _ => false end.
(** `st == 'ID'` as a condition of a converted command *)
Definition cond_st (s : string) : cond_fn := fun d =>
  match ws_at d (cur d) with
  | Ok w => match t_record (w_tab w) with Some r => Ok (st_is s r) | None => Ok false end
  | Err e => Err e
  end.
Lemma cond_st_reads s : reads_record (Some (cond_st s)) (fun _ => st_is s).
Proof. intros d w r Hw Hr. cbn. unfold cond_st. now rewrite Hw, Hr. Qed.
Definition cursor (d : db) (i : Z) : res (Z * list bool) :=
  match ws_at d i with Ok w => Ok (t_idx (w_tab w) + 1, map r_del (t_recs (w_tab w))) | Err e => Err e end.

(** C22: USE file IN 0 puts the table in the lowest free work area, at its first record, and changes nothing else. *)
Theorem C22_use_lowest_free :
  forall d s al file rs k, s <> [] ->
  (forall w, In (Some w) (areas d) -> is_alias w s = false) ->
  nth_error (areas d) k = Some None -> (forall m, (m < k)%nat -> nth_error (areas d) m <> Some None) ->
  exists d' w, use d (Some s) (TNum 0) al (Ok (file, rs)) = (Ok tt, d') /\
    nth_error (areas d') k = Some (Some w) /\ t_recs (w_tab w) = rs /\ w_file w = file /\
    t_idx (w_tab w) = (match rs with [] => -1 | _ => 0 end) /\ w_found w = false /\
    (forall m, m <> k -> nth_error (areas d') m = nth_error (areas d) m) /\ cur d' = cur d.
Proof.
  intros d s al file rs k Hs Hu Hk Hm. rewrite (use_in_0 d s al file rs k Hs Hu Hk Hm).
  eexists. exists (new_ws al file rs). split; [reflexivity|]. cbn [areas cur].
  assert (k < length (areas d))%nat as Hl by (apply nth_error_Some; congruence).
  split; [rewrite nth_error_list_upd, Nat.eqb_refl; destruct (Nat.ltb_spec k (length (areas d))); [reflexivity|lia]|].
  split; [reflexivity|]. split; [reflexivity|]. split; [destruct rs; [reflexivity|]; cbn; destruct (Z.ltb_spec 0 (zlen (r :: rs))); [reflexivity|rewrite zlen_cons in *; pose proof (zlen_nonneg rs); lia]|].
  split; [reflexivity|]. split; [|reflexivity]. intros m Hne. rewrite nth_error_list_upd. destruct (Nat.eqb_spec m k); [congruence|reflexivity].
Qed.
Print Assumptions C22_use_lowest_free.

(** C22: the table is then found under its alias, if no table in a lower area answers to it. *)
Theorem C22_found_under_alias_partial :
  forall d s al file rs k, s <> [] -> al <> [] ->
  (forall w, In (Some w) (areas d) -> is_alias w s = false /\ is_alias w al = false) ->
  nth_error (areas d) k = Some None -> (forall m, (m < k)%nat -> nth_error (areas d) m <> Some None) ->
  get_workarea (snd (use d (Some s) (TNum 0) (Some al) (Ok (file, rs)))) (TName al) = Ok (Z.of_nat k).
Proof.
  intros d s al file rs k Hs Ha Hu Hk Hm. rewrite (use_in_0 d s (Some al) file rs k Hs (fun w H => proj1 (Hu w H)) Hk Hm). cbn [snd].
  assert (k < length (areas d))%nat as Hl by (apply nth_error_Some; congruence).
  apply (get_area_name _ al k (new_ws (Some al) file rs) Ha); cbn [areas].
  - rewrite nth_error_list_upd, Nat.eqb_refl. destruct (Nat.ltb_spec k (length (areas d))); [reflexivity|lia].
  - now apply is_alias_own.
  - intros m w' Hlt. rewrite nth_error_list_upd. destruct (Nat.eqb_spec m k); [lia|]. intros H. apply (Hu w'). eapply nth_error_In; eauto.
Qed.
Print Assumptions C22_found_under_alias_partial.

(** C22: the names a table in dir/stem.dbf answers to (dir may be absent). *)
Theorem C22_names :
  forall w dir stem c s, w_file w = dirpart dir ++ stem ++ u ".dbf" -> ~ In 47 stem -> In c stem -> c <> 46 ->
  is_alias w s = true <->
  lower s = w_name w \/ exists n, In n [dirpart dir ++ stem ++ u ".dbf"; dirpart dir ++ stem; stem ++ u ".dbf"; stem] /\ lower s = lower n.
Proof. exact is_alias_file. Qed.
Print Assumptions C22_names.

(** C22: a table already open under that name is refused and nothing changes; USE changes at most one area and never the selection. *)
Theorem C22_refuses_and_frame :
  (forall d s w wa al o, s <> [] -> In (Some w) (areas d) -> is_alias w s = true ->
     use d (Some s) wa al o = (Err GenericException, d)) /\
  (forall d t wa al o, cur (snd (use d t wa al o)) = cur d /\
     exists k, forall m, m <> k -> nth_error (areas (snd (use d t wa al o))) m = nth_error (areas d) m).
Proof.
  split.
  - intros d s w wa al o Hs Hin Ha. unfold use. assert (used d (TName s) = true) as -> by (apply used_name; eauto). reflexivity.
  - intros. split; [apply use_cur|apply use_at_most_one].
Qed.
Print Assumptions C22_refuses_and_frame.

(** C22: USE IN n frees exactly work area n; USE IN SELECT("alias") frees exactly the area of the alias. *)
Theorem C22_close_by_number :
  (forall d k al o, (k < length (areas d))%nat ->
     use d None (TNum (Z.of_nat k + 1)) al o = (Ok tt, mkDb (list_upd (areas d) k None) (cur d))) /\
  (forall d s k al o, s <> [] -> get_workarea d (TName s) = Ok (Z.of_nat k) ->
     use d None (TNum (select_function d (TName s))) al o = (Ok tt, mkDb (list_upd (areas d) k None) (cur d))).
Proof.
  split.
  - intros d k al o Hk. apply close_number; lia.
  - intros d s k al o Hs Hg. rewrite select_name, Hg by exact Hs. destruct (get_area_name_inv d s _ Hs Hg) as (k' & w & E & Hn & _).
    apply Nat2Z.inj in E. subst k'. apply close_number; try lia. apply nth_error_Some. congruence.
Qed.
Print Assumptions C22_close_by_number.
Example C22_example :
  get_workarea demo (TName (u "SECOND")) = Ok 1 /\ get_workarea demo (TName (u "two")) = Ok 1 /\ get_workarea demo (TName (u "Data/Four.DBF")) = Ok 0 /\
  fst (use demo (Some (u "four")) (TNum 0) None (Ok (u "data/four.dbf", four))) = Err GenericException /\
  get_workarea (snd (use demo None (TNum (select_function demo (TName (u "second")))) None (Err ValueError))) (TName (u "second")) = Err GenericException.
Proof. vm_compute. repeat split. Qed.

(** C22: USE IN alias never closes the table with that alias: another area is cleared. *)
Theorem C22_close_by_alias_refuted :
  forall d s k w al o, s <> [] -> (2 <= length (areas d))%nat ->
  get_workarea d (TName s) = Ok (Z.of_nat k) -> nth_error (areas d) k = Some (Some w) ->
  nth_error (areas (snd (use d None (TName s) al o))) k = Some (Some w).
Proof.
  intros d s k w al o Hs Hl Hg Hk. destruct (close_alias d s (Z.of_nat k) al o Hs Hg Hl) as (j & E & Hj). rewrite E. cbn [areas].
  rewrite nth_error_list_upd. destruct (Nat.eqb_spec k j); [subst; lia|exact Hk].
Qed.
Print Assumptions C22_close_by_alias_refuted.
Example C22_close_by_alias_example :
  get_workarea (snd (use demo None (TName (u "second")) None (Err ValueError))) (TName (u "second")) = Ok 1 /\
  get_workarea (snd (use demo None (TName (u "second")) None (Err ValueError))) (TName (u "four")) = Err GenericException.
Proof. vm_compute. split; reflexivity. Qed.
(** C22: USE file without IN cannot open anything. *)
Theorem C22_use_current_refuted :
  forall d s al file rs, s <> [] -> (forall w, In (Some w) (areas d) -> is_alias w s = false) ->
  use d (Some s) TNone al (Ok (file, rs)) = (Err TypeError, d).
Proof. intros d s al file rs Hs Hu. unfold use. now rewrite not_used_name. Qed.
Print Assumptions C22_use_current_refuted.
(** C22: USE file IN n followed by USE IN n leaves the file open; two tables may get the same alias and the second is then not found. *)
Theorem C22_numbers_and_duplicates_refuted :
  (let d := drun db_init [CUse (Some (u "four")) (TNum 3) None (Ok (u "four.dbf", four)); CUse None (TNum 3) None (Err ValueError)] in
   get_workarea d (TName (u "four")) = Ok 3) /\
  (let d := drun db_init [CUse (Some (u "four")) (TNum 0) (Some (u "x")) (Ok (u "four.dbf", four)); CUse (Some (u "two")) (TNum 0) (Some (u "x")) (Ok (u "two.dbf", two))] in
   get_workarea d (TName (u "x")) = Ok 0 /\ get_workarea d (TName (u "two")) = Ok 1).
Proof. vm_compute. repeat split. Qed.
Print Assumptions C22_numbers_and_duplicates_refuted.

(** C23: SELECT alias selects the first work area that answers to the alias; SELECT() gives the documented numbers. *)
Theorem C23_select_alias_partial :
  forall d s k w, s <> [] -> nth_error (areas d) k = Some (Some w) -> is_alias w s = true ->
  (forall m w', (m < k)%nat -> nth_error (areas d) m = Some (Some w') -> is_alias w' s = false) ->
  select d (TName s) = (Ok tt, mkDb (areas d) (Z.of_nat k)) /\ select_function d (TName s) = Z.of_nat k + 1.
Proof.
  intros d s k w Hs Hk Ha Hm. rewrite select_name by exact Hs. unfold select. now rewrite (get_area_name d s k w Hs Hk Ha Hm).
Qed.
Print Assumptions C23_select_alias_partial.
Theorem C23_select_function_values :
  (forall d, select_function d (TNum 0) = cur d + 1) /\
  (forall d k, nth_error (areas d) k = Some None -> (forall m, (k < m)%nat -> nth_error (areas d) m <> Some None) ->
     select_function d (TNum 1) = Z.of_nat k + 1) /\
  (forall d n, 2 <= n ->
     (select_function d (TNum n) = n /\ exists w, nth_error (areas d) (Z.to_nat (n - 1)) = Some (Some w)) \/
     (select_function d (TNum n) = 0 /\ forall w, nth_error (areas d) (Z.to_nat (n - 1)) <> Some (Some w))) /\
  (forall d s, s <> [] -> (forall w, In (Some w) (areas d) -> is_alias w s = false) -> select_function d (TName s) = 0) /\
  select_function db_init (TNum 1) = 32767.
Proof.
  split; [reflexivity|]. split; [exact select_highest|]. split; [exact select_number|]. split; [|vm_compute; reflexivity].
  intros d s Hs Hu. rewrite select_name by exact Hs. pose proof (not_used_name d s Hs Hu) as E. unfold used in E.
  destruct (get_workarea d (TName s)); [discriminate|reflexivity].
Qed.
Print Assumptions C23_select_function_values.
Example C23_example : select_function demo (TNum 1) = 32767 /\ select_function demo (TName (u "second")) = 2 /\ select_function demo (TNum 3) = 0 /\
  select_function demo (TName (u "no")) = 0.
Proof. vm_compute. repeat split. Qed.
(** C23: selecting the number given by SELECT("alias") selects the following work area, never the one with the alias. *)
Theorem C23_select_round_trip_refuted :
  forall d s i, s <> [] -> get_workarea d (TName s) = Ok i ->
  cur (snd (select d (TNum (select_function d (TName s))))) = i + 1.
Proof.
  intros d s i Hs Hg. rewrite select_name, Hg by exact Hs. destruct (get_area_name_inv d s i Hs Hg) as (k & _ & -> & _).
  unfold select, get_workarea. destruct (Z.eqb_spec (Z.of_nat k + 1) 0); [lia|]. reflexivity.
Qed.
Print Assumptions C23_select_round_trip_refuted.
Example C23_round_trip_example : cur (snd (select demo (TNum (select_function demo (TName (u "second")))))) = 2 /\ cur (snd (select demo (TName (u "second")))) = 1.
Proof. vm_compute. split; reflexivity. Qed.

(** C24: in every state reached by table commands, every record pointer is between before-first and after-last, and
    0 <= RECNO() <= RECCOUNT() + 1. *)
Theorem C24_pointer_legal :
  forall cs, let d := drun db_init cs in
  (forall w, In (Some w) (areas d) -> -1 <= t_idx (w_tab w) <= zlen (t_recs (w_tab w))) /\
  0 <= recno d <= reccount d + 1.
Proof.
  intros cs d. assert (valid d) as V by (apply valid_run, valid_init). split; [exact V|].
  unfold reccount. destruct (ws_at d (cur d)) as [w|e] eqn:E.
  - rewrite (recno_valid d w E); pose proof (valid_at d _ w V E) as Vw; unfold valid_tab in Vw; [lia|exact Vw].
  - unfold recno. rewrite E. lia.
Qed.
Print Assumptions C24_pointer_legal.
(** C24: GO n for an existing record. *)
Theorem C24_goto :
  forall cs n, let d := drun db_init cs in 1 <= n <= reccount d ->
  exists d', goto d TNone n = (Ok tt, d') /\ recno d' = n /\ reccount d' = reccount d /\ cur d' = cur d.
Proof.
  intros cs n d Hn. unfold reccount in *. destruct (ws_at d (cur d)) as [w|e] eqn:E; [|lia].
  unfold goto, table_of. cbn [get_workarea]. rewrite E. destruct (Z.ltb_spec 0 n); [|lia]. unfold t_goto.
  destruct (Z.ltb_spec (n - 1) (- t_len (w_tab w))); [lia|]. destruct (Z.leb_spec (t_len (w_tab w)) (n - 1)); [lia|]. cbn [orb].
  destruct (Z.ltb_spec (n - 1) 0); [lia|]. eexists. split; [reflexivity|].
  assert (cur (put_tab d (cur d) w (t_at (w_tab w) (n - 1))) = cur d) as Hc by (unfold put_tab; now rewrite put_ws_cur).
  assert (ws_at (put_tab d (cur d) w (t_at (w_tab w) (n - 1))) (cur d) = Ok (with_tab w (t_at (w_tab w) (n - 1)))) as Hw
    by (unfold put_tab; now rewrite (ws_at_put _ _ _ _ E)).
  rewrite Hc, Hw. split; [|split; reflexivity]. rewrite (recno_valid _ (with_tab w (t_at (w_tab w) (n - 1)))).
  - cbn. lia.
  - now rewrite Hc.
  - unfold valid_tab, t_at, t_len in *. cbn. lia.
Qed.
Print Assumptions C24_goto.
(** C24: SKIP k moves exactly k records or stops after the last; moving before the first record raises dbf's Bof. *)
Theorem C24_skip_partial :
  forall cs k w, let d := drun db_init cs in ws_at d (cur d) = Ok w ->
  exists d', skip d TNone k = (if recno d + k <? 1 then Err DbfBof else Ok tt, d') /\
    recno d' = Z.max 0 (Z.min (reccount d + 1) (recno d + k)) /\ reccount d' = reccount d /\ cur d' = cur d.
Proof.
  intros cs k w d E. assert (valid d) as V by (apply valid_run, valid_init). pose proof (valid_at d _ w V E) as Vw.
  rewrite (recno_valid d w E Vw). unfold reccount. rewrite E. unfold skip, table_of. cbn [get_workarea]. rewrite E.
  destruct (t_skip (w_tab w) k) as [r t] eqn:Es. pose proof (valid_skip (w_tab w) k) as Vt. rewrite Es in Vt. cbn [snd] in Vt.
  eexists. split; [f_equal|].
  2: { assert (cur (put_tab d (cur d) w t) = cur d) as Hc by (unfold put_tab; now rewrite put_ws_cur).
       assert (ws_at (put_tab d (cur d) w t) (cur d) = Ok (with_tab w t)) as Hw by (unfold put_tab; now rewrite (ws_at_put _ _ _ _ E)).
       rewrite Hc, Hw. split; [|split; [|reflexivity]].
       - rewrite (recno_valid _ (with_tab w t)); [|now rewrite Hc|exact Vt]. unfold t_skip in Es. injection Es as _ <-. cbn. lia.
       - unfold t_skip in Es. injection Es as _ <-. reflexivity. }
  unfold t_skip in Es. injection Es as <- _. unfold valid_tab in *.
  destruct (Z.ltb_spec (Z.max (-1) (Z.min (t_len (w_tab w)) (t_idx (w_tab w) + k))) 0).
  - destruct (Z.ltb_spec (t_idx (w_tab w) + 1 + k) 1); [reflexivity|]. pose proof (t_len_nonneg (w_tab w)). lia.
  - destruct (Z.ltb_spec (t_idx (w_tab w) + 1 + k) 1); [lia|].
    destruct (t_len (w_tab w) <=? _); reflexivity.
Qed.
Print Assumptions C24_skip_partial.
(** C24: APPEND puts the pointer on the new last record. *)
Theorem C24_append :
  forall cs b w, let d := drun db_init cs in ws_at d (cur d) = Ok w ->
  exists d', append d TNone b = (Ok tt, d') /\ reccount d' = reccount d + 1 /\ recno d' = reccount d + 1 /\ cur d' = cur d.
Proof.
  intros cs b w d E. unfold append, table_of. cbn [get_workarea]. rewrite E.
  set (d1 := put_tab d (cur d) w (t_append (w_tab w) b)).
  assert (cur d1 = cur d) as Hc by (unfold d1, put_tab; now rewrite put_ws_cur).
  assert (ws_at d1 (cur d1) = Ok (with_tab w (t_append (w_tab w) b))) as Hw by (rewrite Hc; unfold d1, put_tab; now rewrite (ws_at_put _ _ _ _ E)).
  unfold goto, table_of. cbn [get_workarea]. rewrite Hw. cbn [Z.ltb Z.compare]. rewrite with_tab_tab.
  assert (t_len (t_append (w_tab w) b) = t_len (w_tab w) + 1) as HL by (unfold t_len, t_append; cbn; rewrite zlen_app; reflexivity).
  pose proof (t_len_nonneg (w_tab w)). unfold t_goto. rewrite HL.
  destruct (Z.ltb_spec (-1) (- (t_len (w_tab w) + 1))); [lia|]. destruct (Z.leb_spec (t_len (w_tab w) + 1) (-1)); [lia|]. cbn [orb Z.ltb Z.compare].
  eexists. split; [reflexivity|]. set (t2 := t_at (t_append (w_tab w) b) (-1 + (t_len (w_tab w) + 1))).
  set (d2 := put_tab d1 (cur d1) _ t2).
  assert (cur d2 = cur d) as Hc2 by (unfold d2, put_tab; now rewrite put_ws_cur).
  assert (ws_at d2 (cur d2) = Ok (with_tab w t2)) as Hw2.
  { rewrite Hc2, <- Hc. unfold d2, put_tab. rewrite (ws_at_put _ _ _ _ Hw). reflexivity. }
  assert (reccount d = t_len (w_tab w)) as Hr by (unfold reccount; now rewrite E).
  rewrite Hr. split; [|split; [|exact Hc2]].
  - unfold reccount. rewrite Hw2. cbn. exact HL.
  - assert (t_idx t2 = t_len (w_tab w)) as Hx by (unfold t2, t_at; cbn [t_idx]; lia).
    rewrite (recno_valid _ _ Hw2); cbn [with_tab w_tab]; [lia|]. unfold valid_tab. change (t_len t2) with (t_len (t_append (w_tab w) b)). lia.
Qed.
Print Assumptions C24_append.
Example C24_example :
  recno (snd (goto demo TNone 3)) = 3 /\ recno (snd (skip (snd (goto demo TNone 3)) TNone 7)) = 5 /\
  recno (drun demo [CGoto TNone 3; CSkip TNone (-2); CDelete TNone ScAll false None None]) = 5.
Proof. vm_compute. repeat split. Qed.
(** C24: SKIP before the first record raises. *)
Theorem C24_skip_backward_refuted : exists cs, fst (skip (drun db_init cs) TNone (-1)) = Err DbfBof /\ reccount (drun db_init cs) = 4.
Proof. exists [CUse (Some (u "four")) (TNum 0) None (Ok (u "data/four.dbf", four))]. vm_compute. split; reflexivity. Qed.
Print Assumptions C24_skip_backward_refuted.

(** C25: the scoped commands process exactly the records the scope, WHILE and FOR select, each once and in order.  `ready`: the
    table is open, the pointer is on a record or after the last, and NEXT / RECORD stay within the file. *)
Theorem C25_count_partial :
  forall d tn i w sc fc wc p q, ready d tn i w sc -> reads_record fc p -> reads_record wc q ->
  fst (count d tn sc fc wc) = Ok (zlen (selected sc (t_idx (w_tab w) + 1) p q (t_recs (w_tab w)))) /\
  (forall k, nth_error (areas (snd (count d tn sc fc wc))) k = nth_error (areas d) k \/ slot (length (areas d)) i = Some k) /\
  (exists w', ws_at (snd (count d tn sc fc wc)) i = Ok w' /\ t_recs (w_tab w') = t_recs (w_tab w)).
Proof.
  intros d tn i w sc fc wc p q R Hp Hq. rewrite (count_spec d tn i w sc fc wc p q R Hp Hq). cbn [fst snd]. rewrite touch_id.
  destruct R as (Hg & Hw & _). split; [reflexivity|]. split.
  - intros k. rewrite restore_put. destruct (slot (length (areas d)) i) as [j|] eqn:Ej.
    + destruct (Nat.eq_dec j k) as [->|Hne]; [now right|]. left. apply put_ws_nth. congruence.
    + left. apply put_ws_nth. congruence.
  - eexists. rewrite restore_put. unfold put_tab. rewrite (ws_at_put _ _ _ _ Hw). split; reflexivity.
Qed.
Print Assumptions C25_count_partial.
Theorem C25_sum_partial :
  forall d tn i w sc fc wc p q se e, ready d tn i w sc -> reads_record fc p -> reads_record wc q ->
  (forall d w r, ws_at d (cur d) = Ok w -> t_record (w_tab w) = Some r -> se d = Ok (e (t_idx (w_tab w) + 1) r)) ->
  fst (sum d tn sc se fc wc) =
    Ok (fold_right (fun x s => e (fst x) (snd x) + s) 0 (selected sc (t_idx (w_tab w) + 1) p q (t_recs (w_tab w)))).
Proof.
  intros d tn i w sc fc wc p q se e R Hp Hq He. rewrite (sum_spec d tn i w sc fc wc p q R Hp Hq e se He). cbn [fst]. f_equal.
  generalize (selected sc (t_idx (w_tab w) + 1) p q (t_recs (w_tab w))). intros l.
  enough (forall a, fold_left Z.add (map (fun x => e (fst x) (snd x)) l) a = a + fold_right (fun x s => e (fst x) (snd x) + s) 0 l) as H by apply H.
  induction l as [|x l IH]; intros a; cbn; [lia|]. rewrite IH. lia.
Qed.
Print Assumptions C25_sum_partial.
(** The records of area i after the command: those selected are changed by f, the others are as before; all other areas are as before. *)
Definition changes_only (d : db) (i : Z) (w : ws) (f : rec -> rec) (chosen : list (Z * rec)) (d' : db) : Prop :=
  (exists w', ws_at d' i = Ok w' /\ length (t_recs (w_tab w')) = length (t_recs (w_tab w)) /\
    forall n r, nth_error (t_recs (w_tab w)) n = Some r ->
      (In (Z.of_nat n + 1, r) chosen -> nth_error (t_recs (w_tab w')) n = Some (f r)) /\
      ((forall r', ~ In (Z.of_nat n + 1, r') chosen) -> nth_error (t_recs (w_tab w')) n = Some r)) /\
  (forall k, slot (length (areas d)) i <> Some k -> nth_error (areas d') k = nth_error (areas d) k) /\ cur d' = cur d.
Lemma nth_number n rs k : nth_error (number n rs) k = match nth_error rs k with Some r => Some (n + Z.of_nat k, r) | None => None end.
Proof.
  revert n k; induction rs as [|r rs IH]; intros n [|k]; cbn [number nth_error]; try reflexivity; [now rewrite Z.add_0_r|].
  rewrite IH. destruct (nth_error rs k); [|reflexivity]. do 2 f_equal. lia.
Qed.
Lemma changes_final d i w f chosen j : ws_at d i = Ok w ->
  changes_only d i w f chosen (mkDb (areas (put_tab d i w (mkT (touch f chosen (t_recs (w_tab w))) j))) (cur d)).
Proof.
  intros Hw. rewrite restore_put. split; [|split; [intros k Hk; now apply put_ws_nth|unfold put_tab; now rewrite put_ws_cur]].
  eexists. unfold put_tab. rewrite (ws_at_put _ _ _ _ Hw). split; [reflexivity|]. cbn [with_tab w_tab t_recs].
  assert (forall l n, length (number n l) = length l) as HL by (induction l; intros; cbn; auto).
  split; [unfold touch; now rewrite map_length, HL|]. intros n r Hn. unfold touch. rewrite nth_error_map, nth_number, Hn. cbn [option_map fst snd].
  replace (1 + Z.of_nat n) with (Z.of_nat n + 1) by lia. split.
  - intros Hin. assert (existsb (Z.eqb (Z.of_nat n + 1)) (map fst chosen) = true) as ->; [|reflexivity].
    apply existsb_exists. exists (Z.of_nat n + 1). split; [|apply Z.eqb_refl]. apply in_map_iff. exists (Z.of_nat n + 1, r). auto.
  - intros Hno. destruct (existsb _ _) eqn:Ex; [|reflexivity]. exfalso. apply existsb_exists in Ex. destruct Ex as (x & Hx & Ex).
    apply Z.eqb_eq in Ex. subst x. apply in_map_iff in Hx. destruct Hx as ([m r'] & Hm & Hin). cbn in Hm. subst m. now apply (Hno r').
Qed.
Theorem C25_delete_partial :
  forall d tn i w sc b fc wc p q, ready d tn i w sc -> reads_record fc p -> reads_record wc q ->
  fst (delete_record d tn sc b fc wc) = Ok tt /\
  changes_only d i w (fun r => mkRec (negb b) (r_flds r)) (selected sc (t_idx (w_tab w) + 1) p q (t_recs (w_tab w)))
    (snd (delete_record d tn sc b fc wc)).
Proof.
  intros d tn i w sc b fc wc p q R Hp Hq. rewrite (delete_spec d tn i w sc fc wc p q R Hp Hq b). split; [reflexivity|].
  apply changes_final. apply R.
Qed.
Print Assumptions C25_delete_partial.
Theorem C25_replace_partial :
  forall d t i w sc field v, t <> [] -> ready d (TName t) i w sc ->
  Forall (fun r => exists old, dget pystr_eqb (r_flds r) field = Some old) (t_recs (w_tab w)) ->
  fst (replace d (TName t) sc field v) = Ok tt /\
  changes_only d i w (fun r => mkRec (r_del r) (dset pystr_eqb (r_flds r) field v))
    (selected sc (t_idx (w_tab w) + 1) (fun _ _ => true) (fun _ _ => true) (t_recs (w_tab w))) (snd (replace d (TName t) sc field v)).
Proof.
  intros d t i w sc field v Ht R HF. rewrite (replace_spec d (TName t) i w sc field v R).
  - split; [reflexivity|]. apply (changes_final d i w (set_field field v)). apply R.
  - now destruct t.
  - eapply Forall_impl; [|exact HF]. intros r [old Ho]. unfold has_field, dmem. now rewrite Ho.
Qed.
Print Assumptions C25_replace_partial.
(** the usual form, on the selected table and without an alias in front of the field name (which may be in any case) *)
Theorem C25_replace_selected_table_partial :
  forall d i w sc field v, ~ In 46 field -> ready d TNone i w sc ->
  Forall (fun r => exists old, dget pystr_eqb (r_flds r) (lower field) = Some old) (t_recs (w_tab w)) ->
  fst (replace d TNone sc field v) = Ok tt /\
  changes_only d i w (fun r => mkRec (r_del r) (dset pystr_eqb (r_flds r) (lower field) v))
    (selected sc (t_idx (w_tab w) + 1) (fun _ _ => true) (fun _ _ => true) (t_recs (w_tab w))) (snd (replace d TNone sc field v)).
Proof.
  intros d i w sc field v Hf R HF. rewrite (replace_none d i w sc field v R Hf).
  - split; [reflexivity|]. apply (changes_final d i w (set_field (lower field) v)). apply R.
  - eapply Forall_impl; [|exact HF]. intros r [old Ho]. unfold has_field, dmem. now rewrite Ho.
Qed.
Print Assumptions C25_replace_selected_table_partial.
Example C25_replace_example :
  rmap (fun w => map st_of (t_recs (w_tab w))) (ws_at (snd (replace (snd (goto demo TNone 3)) TNone ScRest (u "ST") (FChr (u "CA")))) 0) =
    Ok [Some (FChr (u "ID")); Some (FChr (u "WA")); Some (FChr (u "CA")); Some (FChr (u "CA"))].
Proof. vm_compute. reflexivity. Qed.
(** where the pointer of a non-empty table is left: after the last record (ALL, REST), on the last record of the NEXT range, on the
    record named by RECORD *)
Theorem C25_pointer_partial :
  forall d tn i w sc b fc wc p q, ready d tn i w sc -> reads_record fc p -> reads_record wc q -> t_recs (w_tab w) <> [] ->
  0 <= t_idx (w_tab w) < t_len (w_tab w) -> (forall n, sc = ScNext n -> 1 <= n) ->
  exists w', ws_at (snd (delete_record d tn sc b fc wc)) i = Ok w' /\
    t_idx (w_tab w') + 1 = match sc with ScAll | ScRest => t_len (w_tab w) + 1 | ScNext n => t_idx (w_tab w) + n | ScRecord n => n end.
Proof.
  intros d tn i w sc b fc wc p q R Hp Hq Hne Hi Hn. rewrite (delete_spec d tn i w sc fc wc p q R Hp Hq b). cbn [snd].
  eexists. rewrite restore_put. unfold put_tab. rewrite (ws_at_put _ _ _ _ (proj1 (proj2 R))). split; [reflexivity|].
  cbn [with_tab w_tab t_idx]. unfold after. fold (t_len (w_tab w)). destruct (Z.eqb_spec (t_len (w_tab w)) 0); [lia|].
  destruct sc as [| |m|m]; cbv beta iota.
  - reflexivity.
  - reflexivity.
  - specialize (Hn m eq_refl). destruct (Z.eqb_spec (t_idx (w_tab w)) (t_len (w_tab w))); lia.
  - lia.
Qed.
Print Assumptions C25_pointer_partial.
(** The selected records: in scope, WHILE true up to and including it, FOR true; in increasing order, without repetition. *)
Theorem C25_selected_meaning :
  forall sc here p q rs n r,
  (In (n, r) (selected sc here p q rs) <->
   1 <= n /\ nth_error rs (Z.to_nat (n - 1)) = Some r /\ in_scope sc here n = true /\ p n r = true /\
   (forall m r', 1 <= m <= n -> nth_error rs (Z.to_nat (m - 1)) = Some r' -> in_scope sc here m = true -> q m r' = true)) /\
  (forall i j a b, (i < j)%nat -> nth_error (map fst (selected sc here p q rs)) i = Some a ->
                   nth_error (map fst (selected sc here p q rs)) j = Some b -> a < b).
Proof.
  assert (forall (q : Z * rec -> bool) (P : Z * rec -> bool) rs n,
     forall x, In x (take_while q (filter P (number n rs))) <->
       In x (number n rs) /\ P x = true /\ forall y, In y (number n rs) -> fst y <= fst x -> P y = true -> q y = true) as HT.
  { intros q P. induction rs as [|r0 rs IH]; intros n x; cbn [number filter take_while].
    - cbn. split; [intros []|intros [[] _]].
    - destruct (P (n, r0)) eqn:EP.
      + cbn [take_while]. destruct (q (n, r0)) eqn:Eq.
        * cbn [In]. rewrite IH. split.
          -- intros [<-|(H1 & H2 & H3)].
             ++ split; [now left|]. split; [exact EP|]. intros y [<-|Hy] Hle HP; [exact Eq|]. destruct y as [m r']. apply number_in in Hy. cbn in Hle. lia.
             ++ split; [now right|]. split; [exact H2|]. intros y [<-|Hy] Hle HP; [exact Eq|]. now apply H3.
          -- intros (H1 & H2 & H3). destruct H1 as [<-|H1]; [now left|right]. split; [exact H1|]. split; [exact H2|].
             intros y Hy. apply H3. now right.
        * split; [intros []|]. intros (H1 & H2 & H3). specialize (H3 (n, r0) (or_introl eq_refl)). cbn [fst] in H3. rewrite Eq in H3.
          assert (n <= fst x) as Hle by (destruct x as [m r']; destruct H1 as [[= <- <-]|H1]; [cbn; lia|apply number_in in H1; cbn; lia]).
          specialize (H3 Hle EP). discriminate.
      + rewrite IH. split.
        * intros (H1 & H2 & H3). split; [now right|]. split; [exact H2|]. intros y [<-|Hy]; [intros; congruence|now apply H3].
        * intros (H1 & H2 & H3). destruct H1 as [<-|H1]; [congruence|]. split; [exact H1|]. split; [exact H2|]. intros y Hy. apply H3. now right. }
  intros sc here p q rs n r. split.
  - unfold selected. rewrite filter_In, HT. cbn [fst snd]. rewrite number_in_nth. split.
    + intros (((H1 & H1') & H2 & H3) & H4). repeat split; auto. intros m r' [Hm1 Hm2] Hn Hs. apply (H3 (m, r')); cbn; auto.
      apply number_in_nth. split; [lia|exact Hn].
    + intros (H1 & H1' & H2 & H4 & H3). repeat split; auto. intros [m r'] Hin Hle HP. cbn in *. apply number_in_nth in Hin. apply H3; [lia| |exact HP]. apply Hin.
  - assert (forall n rs, StronglySorted Z.lt (map fst (number n rs))) as HS.
    { intros n0 rs0. revert n0; induction rs0 as [|r0 rs0 IH]; intros n0; cbn; constructor; [apply IH|]. apply Forall_forall. intros x Hx.
      apply in_map_iff in Hx. destruct Hx as ([m r'] & <- & Hx). apply number_in in Hx. cbn. lia. }
    assert (forall (P : Z * rec -> bool) l, StronglySorted Z.lt (map fst l) -> StronglySorted Z.lt (map fst (filter P l))) as HSF.
    { intros P l; induction l as [|x l IH]; intros H; [constructor|]. inversion_clear H as [|? ? H1 H2]. cbn. destruct (P x); [|now apply IH].
      cbn. constructor; [now apply IH|]. rewrite Forall_forall in *. intros y Hy. apply H2. apply in_map_iff in Hy. destruct Hy as (z & <- & Hz).
      apply in_map. now apply filter_In in Hz. }
    assert (forall (P : Z * rec -> bool) l, StronglySorted Z.lt (map fst l) -> StronglySorted Z.lt (map fst (take_while P l))) as HST.
    { intros P l; induction l as [|x l IH]; intros H; [constructor|]. inversion_clear H as [|? ? H1 H2]. cbn. destruct (P x); [|constructor].
      cbn. constructor; [now apply IH|]. rewrite Forall_forall in *. intros y Hy. apply H2. apply in_map_iff in Hy. destruct Hy as (z & <- & Hz).
      apply in_map. now apply take_while_in in Hz. }
    assert (StronglySorted Z.lt (map fst (selected sc here p q rs))) as HSS by (unfold selected; apply HSF, HST, HSF, HS).
    revert HSS. generalize (map fst (selected sc here p q rs)). intros l HSS. induction HSS as [|x l HSS IH HF]; intros i j a b Hij Ha Hb.
    + now destruct i.
    + destruct j as [|j]; [lia|]. destruct i as [|i]; cbn in Ha, Hb.
      * injection Ha as <-. rewrite Forall_forall in HF. apply HF. eapply nth_error_In; eauto.
      * apply (IH i j); auto. lia.
Qed.
Print Assumptions C25_selected_meaning.
Example C25_example :
  let d := snd (goto demo TNone 2) in
  fst (count d TNone ScAll (Some (cond_st "ID")) None) = Ok 2 /\ fst (count d TNone ScRest (Some (cond_st "ID")) None) = Ok 1 /\
  fst (count d TNone (ScNext 2) None None) = Ok 2 /\ fst (count d TNone ScRest None (Some (cond_st "WA"))) = Ok 1 /\
  cursor (snd (delete_record d TNone (ScNext 2) false None None)) 0 = Ok (3, [false; true; true; false]).
Proof. vm_compute. repeat split. Qed.
(** C25: NEXT n running past the last record raises after having done its work. *)
Theorem C25_next_past_end_refuted :
  let d := snd (goto demo TNone 3) in
  fst (delete_record d TNone (ScNext 10) false None None) = Err IndexError /\
  cursor (snd (delete_record d TNone (ScNext 10) false None None)) 0 = Ok (5, [false; false; true; true]).
Proof. vm_compute. split; reflexivity. Qed.
Print Assumptions C25_next_past_end_refuted.

(** C26: whenever a scoped command finishes without an exception the selected work area is the one from before. *)
Theorem C26_selection_restored_partial :
  forall d,
  (forall tn sc fc wc n d', count d tn sc fc wc = (Ok n, d') -> cur d' = cur d) /\
  (forall tn sc se fc wc n d', sum d tn sc se fc wc = (Ok n, d') -> cur d' = cur d) /\
  (forall tn sc b fc wc d', delete_record d tn sc b fc wc = (Ok tt, d') -> cur d' = cur d) /\
  (forall tn sc field v d', replace d tn sc field v = (Ok tt, d') -> cur d' = cur d).
Proof.
  intros d. repeat split.
  - intros tn sc fc wc n d'. unfold count. destruct (get_records _ _ _ _ _ _) as [[l|] d1] eqn:E; [|discriminate]. intros [= _ <-]. eapply get_records_restores; eauto.
  - intros tn sc se fc wc n d'. unfold sum. destruct (get_records _ _ _ _ _ _) as [[l|] d1] eqn:E; [|discriminate]. intros [= _ <-]. eapply get_records_restores; eauto.
  - intros tn sc b fc wc d'. unfold delete_record. destruct (get_records _ _ _ _ _ _) as [[l|] d1] eqn:E; [|discriminate]. intros [= <-]. eapply get_records_restores; eauto.
  - intros tn sc field v d'. unfold replace. destruct (if match tn with TNone | TNum 0 | TName [] => true | _ => false end then _ else _) as [tn' f'].
    destruct (get_records _ _ _ _ _ _) as [[l|] d1] eqn:E; [|discriminate]. intros [= <-]. eapply get_records_restores; eauto.
Qed.
Print Assumptions C26_selection_restored_partial.
Example C26_example :
  let r := delete_record demo (TName (u "second")) ScAll false None None in fst r = Ok tt /\ cur (snd r) = 0 /\ cursor (snd r) 1 = Ok (3, [true; true]).
Proof. vm_compute. repeat split. Qed.
(** C26: a command addressed to another work area that raises leaves that area selected: RECORD n past the end, always. *)
Theorem C26_record_out_of_range_refuted :
  forall d tn i w n b fc wc, get_workarea d tn = Ok i -> ws_at d i = Ok w -> 0 < t_len (w_tab w) < n ->
  fst (delete_record d tn (ScRecord n) b fc wc) = Err IndexError /\ cur (snd (delete_record d tn (ScRecord n) b fc wc)) = i.
Proof. intros d tn i w n b fc wc Hg Hw Hn. unfold delete_record. rewrite (record_out_of_range d tn i w n fc wc _ Hg Hw Hn). split; reflexivity. Qed.
Print Assumptions C26_record_out_of_range_refuted.
Theorem C26_raising_condition_refuted :
  cur demo = 0 /\
  (let r := delete_record demo (TName (u "second")) ScAll false (Some (fun _ => Err (UserError 1))) None in fst r = Err (UserError 1) /\ cur (snd r) = 1) /\
  (let r := delete_record demo (TName (u "second")) (ScNext 9) false None None in fst r = Err IndexError /\ cur (snd r) = 1).
Proof. vm_compute. repeat split. Qed.
Print Assumptions C26_raising_condition_refuted.

(** C27: SCAN runs its body for exactly the matching records, in order, and puts the pointer back.  `tidy`: the body does not raise,
    does not move the pointer or change the selection or the records after the current one. *)
Theorem C27_scan_partial :
  forall d w c p sc body fuel, (sc = ScAll \/ sc = ScRest) -> reads_record (Some c) p -> tidy (cur d) body ->
  ws_at d (cur d) = Ok w -> 1 <= recno d <= reccount d -> (length (t_recs (w_tab w)) < fuel)%nat ->
  exists d', scanner fuel d (Some c) sc body =
      Some (Ok tt, d', map fst (selected sc (recno d) p (fun _ _ => true) (t_recs (w_tab w)))) /\
    recno d' = recno d /\ cur d' = cur d.
Proof.
  intros d w c p sc body fuel Hsc Hp Hb Hw Hr Hf. assert (0 <= t_idx (w_tab w) < t_len (w_tab w)) as Hi.
  { unfold recno, reccount in Hr. rewrite Hw in Hr. unfold t_recno in Hr. destruct (Z.ltb_spec (t_idx (w_tab w)) 0); [lia|].
    destruct (Z.leb_spec (t_len (w_tab w)) (t_idx (w_tab w))); lia. }
  assert (recno d = t_idx (w_tab w) + 1) as Hrn by (apply recno_valid; [exact Hw|unfold valid_tab; lia]).
  destruct (scanner_spec d w c p sc body fuel) as (d' & w' & E & C & W & I & L); auto; [destruct Hsc as [-> | ->]; exact Logic.I|].
  exists d'. rewrite Hrn. split; [exact E|]. split; [|exact C]. rewrite (recno_valid d' w'); [lia|now rewrite C|unfold valid_tab; lia].
Qed.
Print Assumptions C27_scan_partial.
(** the loop body that deletes the current record *)
Definition delete_body (d : db) : res unit * db := delete_record d TNone (ScNext 1) false None None.
Example C27_example :
  let d := snd (goto demo TNone 2) in
  (match scanner 10 d (Some (cond_st "ID")) ScAll delete_body with Some (r, d', tr) => Some (r, cursor d' 0, tr) | None => None end)
    = Some (Ok tt, Ok (2, [true; false; true; false]), [1; 3]) /\
  (match scanner 10 d (Some (cond_st "ID")) ScRest delete_body with Some (r, d', tr) => Some tr | None => None end) = Some [3].
Proof. vm_compute. split; reflexivity. Qed.
(** C27: an empty table makes SCAN raise; at end of file the body runs once without a record; NEXT is ignored; a body that selects another
    table makes SCAN continue on that table. *)
Definition nobody (d : db) : res unit * db := (Ok tt, d).
Theorem C27_scan_refuted :
  (let d := drun db_init [CUse (Some (u "e")) (TNum 0) None (Ok (u "e.dbf", []))] in
   option_map (fun x => fst (fst x)) (scanner 5 d None ScRest nobody) = Some (Err IndexError)) /\
  (let d := snd (skip demo TNone 4) in option_map snd (scanner 5 d None ScRest nobody) = Some [5] /\ reccount d = 4) /\
  option_map snd (scanner 9 demo None (ScNext 2) nobody) = Some [1; 2; 3; 4] /\
  option_map snd (scanner 9 demo None ScAll (fun d => select d (TName (u "second")))) = Some [1; 2].
Proof. vm_compute. repeat split. Qed.
Print Assumptions C27_scan_refuted.

(** C28: after LOCATE and k CONTINUEs the pointer is on match number k (counting from 0), FOUND() true; when the matches are exhausted
    the pointer is after the last record and FOUND() false.  The matches are taken from the current record on. *)
Theorem C28_locate_continue_partial :
  forall d tn i w fc wc p q k, reads_record fc p -> reads_record wc q -> get_workarea d tn = Ok i -> ws_at d i = Ok w ->
  0 <= t_idx (w_tab w) <= t_len (w_tab w) \/ t_recs (w_tab w) = [] ->
  let matches := selected ScRest (t_idx (w_tab w) + 1) p q (t_recs (w_tab w)) in
  exists d0 d', locate d tn fc wc = (Ok tt, d0) /\ continue_n k d0 tn = (Ok tt, d') /\
    (exists w', ws_at d' i = Ok w' /\ t_recs (w_tab w') = t_recs (w_tab w) /\
       match nth_error matches k with
       | Some (m, _) => t_idx (w_tab w') + 1 = m /\ found d' tn = Ok true
       | None => t_idx (w_tab w') = t_len (w_tab w') /\ found d' tn = Ok false
       end) /\
    cur d' = cur d /\ (forall j, slot (length (areas d)) i <> Some j -> nth_error (areas d') j = nth_error (areas d) j).
Proof.
  intros d tn i w fc wc p q k Hp Hq Hg Hw Hi matches.
  destruct (locate_spec d tn i w fc wc p q Hp Hq Hg Hw Hi) as (d0 & E0 & L0 & G0 & F0).
  destruct (continue_n_spec k d0 tn i w matches G0 L0) as (d' & E1 & L1 & G1 & F1); [apply selected_range|].
  exists d0, d'. split; [exact E0|]. split; [exact E1|]. destruct L1 as (sk & L1).
  pose proof (frame_trans _ _ _ _ F0 F1) as (FL & FC & FR). split; [|split; [exact FC|exact FR]].
  assert (forall ww, ws_at d' i = Ok ww -> found d' tn = Ok (w_found ww)) as HF.
  { intros ww H. unfold found. rewrite G1. unfold ws_at in H. destruct (py_nth (areas d') i) as [[x|]|]; try discriminate. congruence. }
  eexists. split; [exact L1|]. specialize (HF _ L1).
  destruct (nth_error matches k) as [[m r]|] eqn:En.
  - assert (exists rest, skipn k matches = (m, r) :: rest) as [rest Er].
    { clear -En. revert k En. generalize matches. intros l; induction l as [|x l IH]; intros [|k] En; cbn in *; try discriminate; [injection En as ->; eauto|now apply IH]. }
    rewrite Er in *. cbn. split; [reflexivity|]. split; [lia|exact HF].
  - assert (skipn k matches = []) as Er by (apply skipn_all2; now apply nth_error_None). rewrite Er in *. cbn. split; [reflexivity|]. split; [reflexivity|exact HF].
Qed.
Print Assumptions C28_locate_continue_partial.
Example C28_example :
  let d0 := snd (locate demo TNone (Some (cond_st "ID")) None) in let d1 := snd (continue_locate d0 TNone) in let d2 := snd (continue_locate d1 TNone) in
  (recno d0, found d0 TNone, recno d1, found d1 TNone, recno d2, found d2 TNone) = (1, Ok true, 3, Ok true, 5, Ok false).
Proof. vm_compute. reflexivity. Qed.
(** C28 (LOCATE as converted): a LOCATE without a scope clause does not start at the first record, and a scope clause is ignored. *)
Theorem C28_locate_from_top_refuted :
  let d := snd (goto demo TNone 4) in
  let d' := snd (conv_locate d (mkQ (Some ScAll) (Some (cond_st "ID")) None)) in
  found d' TNone = Ok false /\ recno d' = 5 /\ fst (count d TNone ScAll (Some (cond_st "ID")) None) = Ok 2.
Proof. vm_compute. repeat split. Qed.
Print Assumptions C28_locate_from_top_refuted.

(** C58: EOF() as computed: true on the last record already. *)
Theorem C58_eof_value_partial :
  forall cs w, let d := drun db_init cs in ws_at d (cur d) = Ok w ->
  eof d TNone = Ok (reccount d <=? recno d) /\ bof d TNone = Ok (recno d <=? 1).
Proof.
  intros cs w d E. assert (valid d) as V by (apply valid_run, valid_init). pose proof (valid_at d _ w V E) as Vw.
  rewrite (recno_valid d w E Vw). unfold reccount, eof, bof, table_of. cbn [get_workarea]. rewrite E. cbn [rmap rbind snd]. unfold t_eof, t_bof.
  split; f_equal. destruct (Z.leb_spec (t_idx (w_tab w)) 0), (Z.leb_spec (t_idx (w_tab w) + 1) 1); try reflexivity; lia.
Qed.
Print Assumptions C58_eof_value_partial.
(** C58: EOF() with the pointer on an existing record, in every table with a record; a DO WHILE NOT EOF() loop misses the last record. *)
Theorem C58_eof_on_last_record_refuted :
  (forall cs, let d := drun db_init cs in 1 <= reccount d -> eof (snd (goto d TNone (reccount d))) TNone = Ok true) /\
  eof_loop 10 demo [] = Some [1; 2; 3].
Proof.
  split; [|vm_compute; reflexivity]. intros cs d H. destruct (C24_goto cs (reccount d)) as (d' & E & R & C & _); [fold d; lia|]. fold d in E, C. rewrite E. cbn [snd].
  assert (d' = drun db_init (cs ++ [CGoto TNone (reccount d)])) as Hd.
  { unfold drun. rewrite fold_left_app. cbn [fold_left dstep]. change (fold_left dstep cs db_init) with d. now rewrite E. }
  rewrite Hd in *. unfold reccount in C at 1.
  destruct (ws_at (drun db_init (cs ++ [CGoto TNone (reccount d)])) (cur (drun db_init (cs ++ [CGoto TNone (reccount d)])))) as [w|e] eqn:Ew; [|lia].
  destruct (C58_eof_value_partial (cs ++ [CGoto TNone (reccount d)]) w Ew) as [-> _]. rewrite R. unfold reccount at 1. rewrite Ew, C. now rewrite Z.leb_refl.
Qed.
Print Assumptions C58_eof_on_last_record_refuted.

(** C59: ZAP empties the table of the selected work area; the table named by ZAP IN is ignored. *)
Theorem C59_zap_current_partial :
  forall d w, ws_at d (cur d) = Ok w ->
  exists d' w', zap d TNone = (Ok tt, d') /\ ws_at d' (cur d) = Ok w' /\ t_recs (w_tab w') = [] /\ cur d' = cur d /\
    forall k, slot (length (areas d)) (cur d) <> Some k -> nth_error (areas d') k = nth_error (areas d) k.
Proof.
  intros d w Hw. unfold zap, table_of. cbn [get_workarea]. rewrite Hw. eexists. eexists. split; [reflexivity|].
  unfold put_tab. rewrite (ws_at_put _ _ _ _ Hw). split; [reflexivity|]. split; [reflexivity|]. split; [now rewrite put_ws_cur|]. intros k Hk. now apply put_ws_nth.
Qed.
Print Assumptions C59_zap_current_partial.
Theorem C59_zap_in_refuted :
  (forall d tn, zap d tn = zap d TNone) /\
  (let d := snd (zap demo (TName (u "second"))) in cursor d 0 = Ok (0, []) /\ cursor d 1 = Ok (1, [false; false])).
Proof. split; [reflexivity|]. vm_compute. split; reflexivity. Qed.
Print Assumptions C59_zap_in_refuted.

(** C60: the first SEEK goes to the first record the index gives for the key, or past the end. *)
Theorem C60_first_seek_partial :
  forall d tn i w ms, get_workarea d tn = Ok i -> ws_at d i = Ok w -> w_seek w = None ->
  Forall (fun m => 0 <= m < t_len (w_tab w)) ms ->
  exists d' w', seek d tn ms = (Ok tt, d') /\ ws_at d' i = Ok w' /\ t_recs (w_tab w') = t_recs (w_tab w) /\
    match ms with [] => t_idx (w_tab w') = t_len (w_tab w) /\ w_found w' = false | m :: _ => t_idx (w_tab w') = m /\ w_found w' = true end.
Proof.
  intros d tn i w ms Hg Hw Hs HF. unfold seek, table_of. rewrite Hg, Hw, Hs. destruct ms as [|m ms].
  - eexists. eexists. split; [reflexivity|]. rewrite (ws_at_put _ _ _ _ Hw). repeat split.
  - inversion_clear HF as [|? ? H1 _]. unfold t_goto. destruct (Z.ltb_spec m (- t_len (w_tab w))); [lia|].
    destruct (Z.leb_spec (t_len (w_tab w)) m); [lia|]. cbn [orb]. destruct (Z.ltb_spec m 0); [lia|].
    eexists. eexists. split; [reflexivity|]. rewrite (ws_at_put _ _ _ _ Hw). repeat split.
Qed.
Print Assumptions C60_first_seek_partial.
(** C60: after any earlier SEEK in the area the key is ignored. *)
Theorem C60_second_seek_refuted :
  (forall d tn i w l, get_workarea d tn = Ok i -> ws_at d i = Ok w -> w_seek w = Some l -> forall ms ms', seek d tn ms = seek d tn ms') /\
  (let d1 := snd (seek demo TNone [0; 2]) in let d2 := snd (seek d1 TNone [3]) in recno d1 = 1 /\ recno d2 = 3).
Proof.
  split; [|vm_compute; split; reflexivity]. intros d tn i w l Hg Hw Hs ms ms'. unfold seek, table_of. rewrite Hg, Hw, Hs. reflexivity.
Qed.
Print Assumptions C60_second_seek_refuted.

(** C61: REPLACE of the current record of a named table: exactly that record changes, to the value of the expression. *)
Theorem C61_replace_current_partial :
  forall d t i w field value v, t <> [] -> get_workarea d (TName t) = Ok i -> ws_at d i = Ok w -> 0 <= t_idx (w_tab w) < t_len (w_tab w) ->
  Forall (fun r => exists old, dget pystr_eqb (r_flds r) field = Some old) (t_recs (w_tab w)) -> value d = Ok v ->
  forall r, t_record (w_tab w) = Some r ->
  fst (conv_replace d (TName t) (mkQ None None None) field value) = Ok tt /\
  changes_only d i w (fun r => mkRec (r_del r) (dset pystr_eqb (r_flds r) field v)) [(t_idx (w_tab w) + 1, r)]
    (snd (conv_replace d (TName t) (mkQ None None None) field value)).
Proof.
  intros d t i w field value v Ht Hg Hw Hi HF Hv r Hr. unfold conv_replace. rewrite Hv. cbn [q_scope].
  assert (ready d (TName t) i w (ScNext 1)) as R by (repeat split; auto; right; cbn; lia).
  destruct (C25_replace_partial d t i w (ScNext 1) field v Ht R HF) as [E C]. split; [exact E|].
  replace [(t_idx (w_tab w) + 1, r)] with (selected (ScNext 1) (t_idx (w_tab w) + 1) (fun _ _ => true) (fun _ _ => true) (t_recs (w_tab w))); [exact C|].
  destruct (split_at (t_recs (w_tab w)) (t_idx (w_tab w)) Hi) as (pre & r0 & post & Ers & Hpre).
  rewrite Ers. rewrite (selected_sel (ScNext 1) (t_idx (w_tab w))) by (symmetry; exact Hpre). rewrite sel_cons. cbn [cc_of].
  destruct (Z.ltb_spec (zlen pre + 1) (t_idx (w_tab w) + 1 + 1)); [|lia]. cbn [andb].
  assert (sel (fun _ _ => true) (fun _ _ => true) (cc_of (ScNext 1) (t_idx (w_tab w) + 1)) (zlen pre + 1 + 1) post = []) as ->.
  { destruct post as [|r1 post]; [reflexivity|]. rewrite sel_cons. cbn [cc_of]. destruct (Z.ltb_spec (zlen pre + 1 + 1) (t_idx (w_tab w) + 1 + 1)); [lia|reflexivity]. }
  rewrite Hpre. cbn [app]. f_equal. f_equal. unfold t_record in Hr. destruct (_ || _); [discriminate|]. rewrite Ers, <- Hpre in Hr.
  unfold zlen in Hr. rewrite Nat2Z.id, nth_error_app2, Nat.sub_diag in Hr by lia. cbn in Hr. congruence.
Qed.
Print Assumptions C61_replace_current_partial.
(** C25: DELETE and RECALL without a scope and conditions concern the current record only; COUNT without a scope all records,
    with WHILE those from the current one on. *)
Lemma selected_current w r : 0 <= t_idx (w_tab w) < t_len (w_tab w) -> t_record (w_tab w) = Some r ->
  selected (ScNext 1) (t_idx (w_tab w) + 1) (fun _ _ => true) (fun _ _ => true) (t_recs (w_tab w)) = [(t_idx (w_tab w) + 1, r)].
Proof.
  intros Hi Hr. destruct (split_at (t_recs (w_tab w)) (t_idx (w_tab w)) Hi) as (pre & r0 & post & Ers & Hpre).
  rewrite Ers. rewrite (selected_sel (ScNext 1) (t_idx (w_tab w))) by (symmetry; exact Hpre). rewrite sel_cons. cbn [cc_of].
  destruct (Z.ltb_spec (zlen pre + 1) (t_idx (w_tab w) + 1 + 1)); [|lia]. cbn [andb].
  assert (sel (fun _ _ => true) (fun _ _ => true) (cc_of (ScNext 1) (t_idx (w_tab w) + 1)) (zlen pre + 1 + 1) post = []) as ->.
  { destruct post as [|r1 post]; [reflexivity|]. rewrite sel_cons. cbn [cc_of]. destruct (Z.ltb_spec (zlen pre + 1 + 1) (t_idx (w_tab w) + 1 + 1)); [lia|reflexivity]. }
  rewrite Hpre. cbn [app]. f_equal. f_equal. unfold t_record in Hr. destruct (_ || _); [discriminate|]. rewrite Ers, <- Hpre in Hr.
  unfold zlen in Hr. rewrite Nat2Z.id, nth_error_app2, Nat.sub_diag in Hr by lia. cbn in Hr. congruence.
Qed.
Theorem C25_delete_current_partial :
  forall d tn i w b r, get_workarea d tn = Ok i -> ws_at d i = Ok w -> 0 <= t_idx (w_tab w) < t_len (w_tab w) -> t_record (w_tab w) = Some r ->
  fst (conv_delete d tn (mkQ None None None) b) = Ok tt /\
  changes_only d i w (fun r => mkRec (negb b) (r_flds r)) [(t_idx (w_tab w) + 1, r)] (snd (conv_delete d tn (mkQ None None None) b)).
Proof.
  intros d tn i w b r Hg Hw Hi Hr. unfold conv_delete. cbn [q_scope q_for q_while].
  assert (ready d tn i w (ScNext 1)) as R by (repeat split; auto; right; cbn; lia).
  rewrite <- (selected_current w r Hi Hr). apply C25_delete_partial; [exact R|intros ? ? ? _ _; reflexivity|intros ? ? ? _ _; reflexivity].
Qed.
Print Assumptions C25_delete_current_partial.
Theorem C25_count_defaults_partial :
  forall d i w fc wc p q, ready d TNone i w ScAll -> reads_record fc p -> reads_record (Some wc) q ->
  fst (conv_count d (mkQ None fc None)) = Ok (zlen (filter (fun x => p (fst x) (snd x)) (number 1 (t_recs (w_tab w))))) /\
  fst (conv_count d (mkQ None fc (Some wc))) = Ok (zlen (selected ScRest (t_idx (w_tab w) + 1) p q (t_recs (w_tab w)))).
Proof.
  intros d i w fc wc p q R Hp Hq. unfold conv_count, default_scope. cbn [q_scope q_for q_while]. split.
  - destruct (C25_count_partial d TNone i w ScAll fc None p (fun _ _ => true) R Hp) as [-> _]; [intros ? ? ? _ _; reflexivity|].
    unfold selected. rewrite take_while_true. rewrite (filter_all (fun x : Z * rec => in_scope ScAll _ (fst x))) by reflexivity. reflexivity.
  - destruct (C25_count_partial d TNone i w ScRest fc (Some wc) p q) as [-> _]; [exact R|exact Hp|exact Hq|reflexivity].
Qed.
Print Assumptions C25_count_defaults_partial.
(** C61: FOR is lost in conversion, and the expression is evaluated once: REPLACE ALL st WITH expression FOR st = "ID". *)
Definition field_st (d : db) : res fval :=
  match ws_at d (cur d) with
  | Ok w => match t_record (w_tab w) with Some r => match st_of r with Some v => Ok v | None => Err KeyError end | None => Err KeyError end
  | Err e => Err e
  end.
Theorem C61_replace_for_refuted :
  let d := snd (goto demo TNone 2) in
  let d' := snd (conv_replace d TNone (mkQ (Some ScAll) (Some (cond_st "ID")) None) (u "st") field_st) in
  rmap (fun w => map st_of (t_recs (w_tab w))) (ws_at d' 0) =
    Ok [Some (FChr (u "WA")); Some (FChr (u "WA")); Some (FChr (u "WA")); Some (FChr (u "WA"))].
Proof. vm_compute. reflexivity. Qed.
Print Assumptions C61_replace_for_refuted.

(** C62: calls emitted for table commands that the runtime does not accept: there is no such method, or it does not know the keyword. *)
Definition no_method (c : string * (nat * list string)) : bool := negb (existsb (String.eqb (fst c)) (map fst db_methods)).
Definition bad_keywords (c : string * (nat * list string)) : list string :=
  filter (fun k => negb (existsb (fun m => String.eqb (fst m) (fst c) && existsb (String.eqb k) (snd (snd m))) db_methods)) (snd (snd c)).
Theorem C62_emitted_calls_refuted :
  map fst (filter (fun c => negb (call_accepted c)) db_emitted) =
  ["create_dbf"; "create_cursor"; "close_indexes"; "close_databases"; "close_all"; "append_from"; "count"; "sum"; "pack_database"; "sqlselect"; "update"]%string /\
  map fst (filter no_method db_emitted) = ["create_dbf"; "create_cursor"; "close_indexes"; "close_databases"; "close_all"; "pack_database"; "sqlselect"; "update"]%string /\
  flat_map (fun c => map (pair (fst c)) (bad_keywords c)) (filter (fun c => negb (no_method c)) db_emitted) =
  [("append_from", "for_cond"); ("append_from", "filetype"); ("count", "nooptimize"); ("sum", "nooptimize")]%string.
Proof. vm_compute. repeat split. Qed.
Print Assumptions C62_emitted_calls_refuted.

(** C63: APPEND and INSERT add the new records at the end in order, keep all others, touch no other table and leave the pointer on
    the last record. *)
Lemma fold_append rows t : fold_left t_append rows t = mkT (t_recs t ++ rows) (t_idx t).
Proof.
  revert t; induction rows as [|r rows IH]; intros t; cbn; [rewrite app_nil_r; now destruct t|]. rewrite IH. cbn. now rewrite <- app_assoc.
Qed.
Theorem C63_insert :
  forall d tn i w rows, get_workarea d tn = Ok i -> ws_at d i = Ok w -> t_recs (w_tab w) ++ rows <> [] ->
  exists d' w', insert d tn rows = (Ok tt, d') /\ ws_at d' i = Ok w' /\ t_recs (w_tab w') = t_recs (w_tab w) ++ rows /\
    t_idx (w_tab w') + 1 = zlen (t_recs (w_tab w')) /\ cur d' = cur d /\
    (forall k, slot (length (areas d)) i <> Some k -> nth_error (areas d') k = nth_error (areas d) k).
Proof.
  intros d tn i w rows Hg Hw Hne. unfold insert, table_of. rewrite Hg, Hw, fold_append. set (t := mkT _ _).
  assert (get_workarea (put_tab d i w t) tn = Ok i) as Hg' by (unfold put_tab; rewrite (get_workarea_put d tn i w); auto).
  unfold goto, table_of. rewrite Hg'. unfold put_tab at 1. rewrite (ws_at_put _ _ _ _ Hw). cbn [Z.ltb Z.compare]. rewrite with_tab_tab.
  assert (1 <= t_len t) as HL. { unfold t_len, t. cbn [t_recs]. destruct (t_recs (w_tab w) ++ rows); [congruence|]. rewrite zlen_cons. pose proof (zlen_nonneg l). lia. }
  unfold t_goto. destruct (Z.ltb_spec (-1) (- t_len t)); [lia|]. destruct (Z.leb_spec (t_len t) (-1)); [lia|]. cbn [orb Z.ltb Z.compare].
  eexists. eexists. split; [reflexivity|]. unfold put_tab. rewrite put_ws_twice, (ws_at_put _ _ _ _ Hw). split; [reflexivity|].
  split; [reflexivity|]. split; [cbn [with_tab w_tab t_at t_idx t_recs]; change (zlen (t_recs t)) with (t_len t); lia|]. split; [now rewrite put_ws_cur|]. intros k Hk. now apply put_ws_nth.
Qed.
Print Assumptions C63_insert.
Theorem C63_append :
  forall d tn i w b, get_workarea d tn = Ok i -> ws_at d i = Ok w ->
  exists d' w', append d tn b = (Ok tt, d') /\ ws_at d' i = Ok w' /\ t_recs (w_tab w') = t_recs (w_tab w) ++ [b] /\
    t_idx (w_tab w') + 1 = zlen (t_recs (w_tab w')) /\ cur d' = cur d /\
    (forall k, slot (length (areas d)) i <> Some k -> nth_error (areas d') k = nth_error (areas d) k).
Proof. intros d tn i w b Hg Hw. apply (C63_insert d tn i w [b] Hg Hw). now destruct (t_recs (w_tab w)). Qed.
Print Assumptions C63_append.
Example C63_example :
  let d := snd (insert demo (TName (u "second")) [row "ZZ"; row "AA"]) in
  rmap (fun w => (map st_of (t_recs (w_tab w)), t_idx (w_tab w))) (ws_at d 1) =
    Ok ([Some (FChr (u "XX")); Some (FChr (u "YY")); Some (FChr (u "ZZ")); Some (FChr (u "AA"))], 3) /\ cur d = 0 /\ cursor d 0 = cursor demo 0.
Proof. vm_compute. repeat split. Qed.

(** C64: ALIAS() of a table opened with an alias is that alias in lower case and finds the table again; without an alias it is the
    name of the file without directory and extension. *)
Theorem C64_alias :
  forall d s al file rs k, s <> [] -> al <> [] ->
  (forall w, In (Some w) (areas d) -> is_alias w s = false /\ is_alias w al = false) ->
  nth_error (areas d) k = Some None -> (forall m, (m < k)%nat -> nth_error (areas d) m <> Some None) ->
  let d' := snd (use d (Some s) (TNum 0) (Some al) (Ok (file, rs))) in
  alias d' (TName al) = Ok (map lower_char al) /\ get_workarea d' (TName (map lower_char al)) = Ok (Z.of_nat k).
Proof.
  intros d s al file rs k Hs Ha Hu Hk Hm d'.
  pose proof (C22_found_under_alias_partial d s al file rs k Hs Ha Hu Hk Hm) as Hg. fold d' in Hg.
  assert (k < length (areas d))%nat as Hl by (apply nth_error_Some; congruence).
  assert (areas d' = list_upd (areas d) k (Some (new_ws (Some al) file rs))) as HA
    by (unfold d'; rewrite (use_in_0 d s (Some al) file rs k Hs (fun w H => proj1 (Hu w H)) Hk Hm); reflexivity).
  assert (ws_at d' (Z.of_nat k) = Ok (new_ws (Some al) file rs)) as Hw.
  { unfold ws_at. rewrite HA, py_nth_nonneg by lia.
    rewrite Nat2Z.id, nth_error_list_upd, Nat.eqb_refl. destruct (Nat.ltb_spec k (length (areas d))); [reflexivity|lia]. }
  split.
  - unfold alias, table_of. rewrite Hg, Hw. cbn [new_ws w_name]. now destruct al.
  - change (map lower_char al) with (lower al).
    assert (forall w, is_alias w (lower al) = is_alias w al) as Hlow by (intros w; unfold is_alias; now rewrite lower_idem).
    apply (get_area_name _ (lower al) k (new_ws (Some al) file rs)); [now destruct al| | |].
    + rewrite HA, nth_error_list_upd, Nat.eqb_refl. destruct (Nat.ltb_spec k (length (areas d))); [reflexivity|lia].
    + rewrite Hlow. now apply is_alias_own.
    + intros m w' Hlt. rewrite HA, nth_error_list_upd, Hlow. destruct (Nat.eqb_spec m k); [lia|]. intros H. apply (Hu w'). eapply nth_error_In; eauto.
Qed.
Print Assumptions C64_alias.
Theorem C64_file_name :
  forall d tn i w dir stem c, get_workarea d tn = Ok i -> ws_at d i = Ok w -> w_name w = [] ->
  w_file w = dirpart dir ++ stem ++ u ".dbf" -> ~ In 47 stem -> In c stem -> c <> 46 ->
  alias d tn = Ok stem.
Proof.
  intros d tn i w dir stem c Hg Hw Hn Hf H47 Hc H46. unfold alias, table_of. rewrite Hg, Hw, Hn, Hf. f_equal.
  rewrite (basename_dir dir (stem ++ u ".dbf")).
  - apply (splitext_dir None stem (u "dbf") c); auto; cbn; intuition lia.
  - intros Hin. apply in_app_or in Hin. destruct Hin as [Hin|Hin]; [auto|]. cbn in Hin. intuition lia.
Qed.
Print Assumptions C64_file_name.
Example C64_example : alias demo TNone = Ok (u "four") /\ alias demo (TName (u "TWO")) = Ok (u "second").
Proof. vm_compute. split; reflexivity. Qed.
