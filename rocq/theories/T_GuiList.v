(** Properties C105 (choices) and C106 (lists and grids of a table). *)
From Verif Require Import PyBase PyStr M_Strings M_Db S_Db P_Db P_DbArea P_DbScan T_Db M_GuiList.
Open Scope Z_scope.
Open Scope res_scope.

(** ** C105.  A combo box whose current item is one of its items or none: AddItem puts the items behind the others; the value stays and no event method is called. *)
Definition sound (c : combo) : Prop := c_blocked c = false /\ -1 <= c_index c < zlen (c_items c).
Lemma set_index_ok i c : 0 <= i < zlen (c_items c) -> c_blocked c = true -> set_index i c = mkC (c_items c) i true (c_log c).
Proof. intros H B. unfold set_index. destruct (Z.leb_spec 0 i); [|lia]. destruct (Z.ltb_spec i (zlen (c_items c))); [|lia]. cbn [andb]. rewrite B. cbn [orb]. now rewrite app_nil_r. Qed.
Lemma set_index_none i c : i = -1 -> c_blocked c = true -> set_index i c = mkC (c_items c) (-1) true (c_log c).
Proof. intros -> B. unfold set_index. cbn. rewrite B. cbn [orb]. now rewrite app_nil_r. Qed.
Lemma additem_eq s c : sound c -> additem s c = mkC (c_items c ++ [s]) (c_index c) false (c_log c).
Proof.
  intros [B I]. unfold additem. set (c1 := add_item s (block true c)). assert (E : c_items c1 = c_items c ++ [s] /\ c_blocked c1 = true /\ c_log c1 = c_log c).
  { unfold c1, add_item. cbn [block c_items c_index c_blocked c_log]. destruct (c_items c) eqn:Ei; cbn; rewrite ?app_nil_r; auto. }
  destruct E as (E1 & E2 & E3). destruct (Z.eq_dec (c_index c) (-1)) as [N|N].
  - rewrite (set_index_none _ _ N E2), E1, E3, N. reflexivity.
  - rewrite set_index_ok; [now rewrite E1, E3| |exact E2]. rewrite E1, zlen_app. unfold zlen in *. cbn [length]. lia.
Qed.
Theorem C105_additem : forall l c, sound c ->
  let c' := fold_left (fun c s => additem s c) l c in
  c_items c' = c_items c ++ l /\ get_value c' = get_value c /\ c_log c' = c_log c /\ sound c'.
Proof.
  induction l as [|s l IH]; intros c S; cbn [fold_left]; [cbn; rewrite app_nil_r; auto|]. rewrite (additem_eq s c S).
  destruct (IH (mkC (c_items c ++ [s]) (c_index c) false (c_log c))) as (A & B & C & D).
  { destruct S as [S1 S2]. split; [reflexivity|]. cbn [c_index c_items]. rewrite zlen_app. unfold zlen in *. cbn [length]. lia. }
  split; [rewrite A; cbn [c_items]; now rewrite <- app_assoc|]. split; [|split; [exact C|exact D]]. rewrite B. unfold get_value, current_text. cbn [c_index c_items]. f_equal.
  destruct (Z.ltb_spec (c_index c) 0); [reflexivity|]. rewrite nth_error_app1; [reflexivity|]. destruct S as [_ S]. unfold zlen in S. lia.
Qed.
Print Assumptions C105_additem.
Lemma find_first fold s l : forall n i, nth_error l i = Some s \/ (exists x, nth_error l i = Some x /\ fold x = fold s) ->
  (forall m x, (m < i)%nat -> nth_error l m = Some x -> fold x <> fold s) -> find_text fold s l n = n + Z.of_nat i.
Proof.
  induction l as [|x l IH]; intros n i H M; [destruct H as [H|(y & H & _)]; destruct i; discriminate|]. cbn [find_text]. destruct i as [|i].
  - assert (E : fold x = fold s) by (destruct H as [H|(y & H & H2)]; cbn in H; injection H as ->; [reflexivity|exact H2]). rewrite E. destruct (pystr_eqb_spec (fold s) (fold s)); [lia|congruence].
  - destruct (pystr_eqb_spec (fold x) (fold s)) as [E|_]; [exfalso; apply (M O x); [lia|reflexivity|exact E]|]. rewrite (IH (n + 1) i); [lia|exact H|]. intros m y Hm Hy. apply (M (S m) y); [lia|exact Hy].
Qed.
Lemma find_absent fold s l : forall n, (forall x, In x l -> fold x <> fold s) -> find_text fold s l n = -1.
Proof. induction l as [|x l IH]; intros n H; [reflexivity|]. cbn [find_text]. destruct (pystr_eqb_spec (fold x) (fold s)) as [E|_]; [exfalso; apply (H x); [left; reflexivity|exact E]|]. apply IH. intros y I. apply H. right. exact I. Qed.
Lemma put_found fold s c i x : sound c -> nth_error (c_items c) i = Some x -> fold x = fold s -> (forall m y, (m < i)%nat -> nth_error (c_items c) m = Some y -> fold y <> fold s) ->
  put_value fold (VText s) c = Ok (mkC (c_items c) (Z.of_nat i) false (c_log c ++ [Programmatic])) /\ get_value (mkC (c_items c) (Z.of_nat i) false (c_log c ++ [Programmatic])) = VText x.
Proof.
  intros [B I] Hx Hf M. assert (L : (i < length (c_items c))%nat) by (apply nth_error_Some; congruence). split.
  - unfold put_value. rewrite (find_first fold s (c_items c) 0 i); [|right; exists x; auto|exact M]. rewrite set_index_ok; [reflexivity|cbn [block c_items]; unfold zlen; lia|reflexivity].
  - unfold get_value, current_text. cbn [c_index c_items]. destruct (Z.ltb_spec (Z.of_nat i) 0); [lia|]. now rewrite Nat2Z.id, Hx.
Qed.
(** Assigning an item to Value (no item before it being the same but for case) selects it; ProgrammaticChange is called once, InteractiveChange is not. *)
Theorem C105_value_partial : forall fold s c i, sound c -> nth_error (c_items c) i = Some s -> (forall m y, (m < i)%nat -> nth_error (c_items c) m = Some y -> fold y <> fold s) ->
  exists c', put_value fold (VText s) c = Ok c' /\ get_value c' = VText s /\ c_index c' = Z.of_nat i /\ c_items c' = c_items c /\ c_log c' = c_log c ++ [Programmatic] /\ sound c'.
Proof.
  intros fold s c i S H M. destruct (put_found fold s c i s S H eq_refl M) as [A B]. eexists. split; [exact A|]. split; [exact B|]. repeat split; cbn [c_index c_items]; try lia.
  assert (L : (i < length (c_items c))%nat) by (apply nth_error_Some; congruence). unfold zlen. lia.
Qed.
Print Assumptions C105_value_partial.
(** Choosing another item calls InteractiveChange once, choosing the same does nothing. *)
Theorem C105_choose : forall c i s, sound c -> nth_error (c_items c) i = Some s ->
  get_value (choose (Z.of_nat i) c) = VText s /\ c_items (choose (Z.of_nat i) c) = c_items c /\ sound (choose (Z.of_nat i) c) /\
  c_log (choose (Z.of_nat i) c) = c_log c ++ (if Z.of_nat i =? c_index c then [] else [Interactive]).
Proof.
  intros c i s [B I] H. assert (L : (i < length (c_items c))%nat) by (apply nth_error_Some; congruence). unfold choose, set_index.
  destruct (Z.leb_spec 0 (Z.of_nat i)); [|lia]. destruct (Z.ltb_spec (Z.of_nat i) (zlen (c_items c))); [|unfold zlen in *; lia]. cbn [andb]. rewrite B. cbn [orb].
  split; [|split; [reflexivity|split; [|reflexivity]]].
  - unfold get_value, current_text. cbn [c_index c_items]. destruct (Z.ltb_spec (Z.of_nat i) 0); [lia|]. now rewrite Nat2Z.id, H.
  - split; [reflexivity|]. cbn [c_index c_items]. lia.
Qed.
Print Assumptions C105_choose.
(** A text that is an item but for the case selects that item. *)
Theorem C105_case_refuted : forall fold s c i x, sound c -> nth_error (c_items c) i = Some x -> fold x = fold s -> (forall m y, (m < i)%nat -> nth_error (c_items c) m = Some y -> fold y <> fold s) -> x <> s ->
  exists c', put_value fold (VText s) c = Ok c' /\ get_value c' <> VText s.
Proof. intros fold s c i x S H F M N. destruct (put_found fold s c i x S H F M) as [A B]. eexists. split; [exact A|]. rewrite B. congruence. Qed.
Print Assumptions C105_case_refuted.
(** A text that is no item empties the value; a number cannot be assigned. *)
Theorem C105_absent_refuted : forall fold s c, sound c -> (forall x, In x (c_items c) -> fold x <> fold s) ->
  exists c', put_value fold (VText s) c = Ok c' /\ get_value c' = VText [] /\ c_index c' = -1 /\ c_log c' = c_log c ++ [Programmatic].
Proof.
  intros fold s c [B I] H. unfold put_value. rewrite (find_absent fold s _ 0 H). rewrite set_index_none by reflexivity. eexists. split; [reflexivity|]. repeat split.
Qed.
Print Assumptions C105_absent_refuted.
Theorem C105_number_refuted : forall fold n c, exists e, put_value fold (VNumber n) c = Err e.
Proof. intros fold n c. eexists. reflexivity. Qed.
Print Assumptions C105_number_refuted.
Definition C105_c : combo := fold_left (fun c s => additem s c) [u "Boise"; u "Salem"; u "SALEM"] (mkC [] (-1) false []).
Example C105_example : get_value C105_c = VText [] /\ sound C105_c /\
  rmap (fun c => (get_value c, c_log c)) (do c <- put_value lower (VText (u "Salem")) (choose 0 C105_c); put_value lower (VText (u "boise")) c) = Ok (VText (u "Boise"), [Interactive; Programmatic; Programmatic]) /\
  rmap get_value (put_value lower (VText (u "SALEM")) C105_c) = Ok (VText (u "Salem")).
Proof. split; [reflexivity|]. split; [split; [reflexivity|]; cbn; lia|]. split; reflexivity. Qed.

(** An option group that is given more buttons keeps those it has, and the new ones follow, numbered on. *)
Lemma new_buttons l : forall g, fold_left new_button l g = mkG (g_buttons g ++ map (fun i => (option_name (i + 1), option_caption (i + 1))) l) (g_dying g).
Proof. induction l as [|i l IH]; intros g; cbn [fold_left map]; [destruct g; cbn; now rewrite app_nil_r|]. rewrite IH. cbn [new_button g_buttons g_dying]. now rewrite <- app_assoc. Qed.
Theorem C105_more_buttons_partial : forall g n, buttoncount g <= n ->
  buttoncount (set_buttoncount n g) = n /\ g_dying (set_buttoncount n g) = g_dying g /\ (exists new, g_buttons (set_buttoncount n g) = g_buttons g ++ new) /\
  forall k, buttoncount g <= k < n -> nth_error (g_buttons (set_buttoncount n g)) (Z.to_nat k) = Some (u "option" ++ dec_nat (k + 1), u "option " ++ dec_nat (k + 1)).
Proof.
  intros g n H. unfold set_buttoncount. replace (Z.to_nat (buttoncount g - n)) with O by lia. cbn [repeat_do]. rewrite new_buttons. cbn [g_buttons g_dying]. unfold buttoncount in *. cbn [g_buttons].
  pose proof (zlen_nonneg (g_buttons g)). unfold range. rewrite map_map. split; [|split; [reflexivity|split; [eexists; reflexivity|]]].
  - rewrite zlen_app. unfold zlen in *. rewrite map_length, seq_length. lia.
  - intros k Hk. rewrite nth_error_app2 by (unfold zlen in *; lia). rewrite nth_error_map. rewrite nth_error_nth' with (d := O); [|rewrite seq_length; unfold zlen in *; lia]. rewrite seq_nth by (unfold zlen in *; lia). cbn [option_map]. unfold option_name, option_caption.
    replace (zlen (g_buttons g) + Z.of_nat (0 + (Z.to_nat k - length (g_buttons g)))) with k by (unfold zlen in *; lia). reflexivity.
Qed.
Print Assumptions C105_more_buttons_partial.
Lemma delete_many n : forall g bs b, g_buttons g = bs ++ [b] -> repeat_do n delete_later g = mkG (bs ++ [b]) (repeat (fst b) n ++ g_dying g).
Proof.
  induction n as [|n IH]; intros [l dy] bs b E; cbn [g_buttons g_dying] in *; [cbn; now rewrite E|]. cbn [repeat_do]. subst l. assert (D : delete_later (mkG (bs ++ [b]) dy) = mkG (bs ++ [b]) (fst b :: dy)) by (unfold delete_later; cbn [g_buttons g_dying]; now rewrite rev_unit). rewrite D, (IH (mkG (bs ++ [b]) (fst b :: dy)) bs b eq_refl). cbn [g_dying].
  f_equal. clear. induction n as [|n IH]; [reflexivity|]. cbn [repeat app] in *. now rewrite IH.
Qed.
Lemma settle_last bs b n : (0 < n)%nat -> NoDup (map fst (bs ++ [b])) -> settle (mkG (bs ++ [b]) (repeat (fst b) n ++ [])) = mkG bs [].
Proof.
  intros Hn ND. unfold settle. cbn [g_buttons g_dying]. rewrite app_nil_r. f_equal. rewrite filter_app.
  assert (X : forall y : pystr, existsb (pystr_eqb y) (repeat (fst b) n) = pystr_eqb y (fst b)).
  { intros y. destruct n as [|n]; [lia|]. clear. induction n as [|n IH]; cbn [repeat existsb] in *; [apply orb_false_r|]. rewrite IH. now destruct (pystr_eqb y (fst b)). }
  cbn [filter]. rewrite X. destruct (pystr_eqb_spec (fst b) (fst b)); [|congruence]. cbn [negb]. rewrite app_nil_r.
  rewrite map_app in ND. cbn [map] in ND. apply NoDup_remove_2 in ND. rewrite app_nil_r in ND. induction bs as [|y bs IH]; [reflexivity|]. cbn [filter map] in *. rewrite X.
  destruct (pystr_eqb_spec (fst y) (fst b)) as [E|_]; [exfalso; apply ND; left; exact E|]. cbn [negb]. f_equal. apply IH. intros I. apply ND. right. exact I.
Qed.
(** Given fewer buttons, it loses the last one only, however many are too many, and even that not at once: the program reads the old number. *)
Theorem C105_fewer_buttons_refuted : forall bs b n, NoDup (map fst (bs ++ [b])) -> 0 <= n < zlen (bs ++ [b]) ->
  buttoncount (set_buttoncount n (mkG (bs ++ [b]) [])) = zlen (bs ++ [b]) /\ settle (set_buttoncount n (mkG (bs ++ [b]) [])) = mkG bs [].
Proof.
  intros bs b n ND H. unfold set_buttoncount. rewrite (delete_many _ (mkG (bs ++ [b]) []) bs b eq_refl). unfold buttoncount. cbn [g_buttons g_dying]. unfold range. replace (Z.to_nat (n - zlen (bs ++ [b]))) with O by lia. cbn [seq map fold_left g_buttons].
  split; [reflexivity|]. apply settle_last; [lia|exact ND].
Qed.
Print Assumptions C105_fewer_buttons_refuted.
Example C105_buttons_example :
  let g := set_buttoncount 4 (mkG [] []) in
  map fst (g_buttons g) = [u "option1"; u "option2"; u "option3"; u "option4"] /\ map fst (g_buttons (settle (set_buttoncount 1 g))) = [u "option1"; u "option2"; u "option3"].
Proof. split; reflexivity. Qed.

(** ** C106.  What a grid shows: the values of every record in order, and a mark at the record the pointer is on. *)
Section C106.
Variable show : fval -> pystr.
Definition shows (g : grid) (t : table) : Prop :=
  gr_rows g = map (fun r => map (fun p => show (snd p)) (r_flds r)) (t_recs t) /\ length (gr_marks g) = length (t_recs t) /\
  forall i, (i < length (t_recs t))%nat -> nth_error (gr_marks g) i = Some (Z.of_nat i =? t_idx t).
Lemma marks_shown t rows src : rows = map (row_texts show) (t_recs t) -> shows (mkGr rows (marks t) src) t.
Proof.
  intros ->. split; [reflexivity|]. cbn [gr_marks]. unfold marks. split; [rewrite map_length, seq_length; reflexivity|]. intros i Hi. rewrite nth_error_map, nth_error_nth' with (d := O) by (rewrite seq_length; exact Hi).
  rewrite seq_nth by exact Hi. reflexivity.
Qed.
Lemma refresh_shows d g i w : table_of d (TName (gr_source g)) = Ok (i, w) -> exists g', refresh show d g = Ok g' /\ gr_source g' = gr_source g /\ shows g' (w_tab w).
Proof. intros E. unfold refresh. rewrite E. cbn [rbind snd]. eexists. split; [reflexivity|]. split; [reflexivity|]. apply marks_shown. reflexivity. Qed.
(** Assigning RecordSource shows the table, and every later refresh shows it as it is then. *)
Theorem C106_grid_partial : forall d s i w g, table_of d (TName s) = Ok (i, w) ->
  exists g', set_recordsource show d s g = Ok g' /\ gr_source g' = s /\ shows g' (w_tab w) /\
  forall d2 i2 w2, table_of d2 (TName s) = Ok (i2, w2) -> exists g2, refresh show d2 g' = Ok g2 /\ gr_source g2 = s /\ shows g2 (w_tab w2).
Proof.
  intros d s i w g E. unfold set_recordsource. destruct (refresh_shows d (mkGr (gr_rows g) (gr_marks g) s) i w E) as (g' & R & S & H). cbn [gr_source] in S. exists g'. split; [exact R|]. split; [exact S|]. split; [exact H|].
  intros d2 i2 w2 E2. rewrite <- S in E2. destruct (refresh_shows d2 g' i2 w2 E2) as (g2 & R2 & S2 & H2). exists g2. split; [exact R2|]. split; [congruence|exact H2].
Qed.
(** A click on a row moves the pointer of this table to the record, and no other; the mark moves with it. *)
Theorem C106_click_partial : forall d g i w row, table_of d (TName (gr_source g)) = Ok (i, w) -> 0 <= row < zlen (t_recs (w_tab w)) ->
  exists d' g' w', click_row show d row g = Ok (d', g') /\ ws_at d' i = Ok w' /\ t_recs (w_tab w') = t_recs (w_tab w) /\ t_idx (w_tab w') = row /\ cur d' = cur d /\
    (forall k, slot (length (areas d)) i <> Some k -> nth_error (areas d') k = nth_error (areas d) k) /\ gr_source g' = gr_source g /\ shows g' (w_tab w').
Proof.
  intros d g i w row E H. destruct (table_of_at d _ i w E) as [E1 E2]. unfold click_row. rewrite E. cbn [rbind fst snd]. unfold t_goto, t_len. destruct (Z.ltb_spec row (- zlen (t_recs (w_tab w)))); [lia|]. destruct (Z.leb_spec (zlen (t_recs (w_tab w))) row); [lia|]. cbn [orb rbind].
  destruct (Z.ltb_spec row 0); [lia|]. set (w' := with_tab w (t_at (w_tab w) row)). unfold put_tab. fold w'.
  assert (W : ws_at (put_ws d i w') i = Ok w') by (apply (ws_at_put d i w), E2).
  assert (E' : table_of (put_ws d i w') (TName (gr_source g)) = Ok (i, w')).
  { unfold table_of. assert (G : get_workarea (put_ws d i w') (TName (gr_source g)) = Ok i) by (rewrite (get_workarea_put d _ i w w' E2 eq_refl eq_refl); exact E1). rewrite G, W. reflexivity. }
  destruct (refresh_shows _ g i w' E') as (g' & R & S & Sh). rewrite R. cbn [rbind]. exists (put_ws d i w'), g', w'. split; [reflexivity|]. split; [exact W|]. split; [reflexivity|]. split; [reflexivity|]. split; [apply put_ws_cur|]. split; [intros k; apply put_ws_nth|]. split; [exact S|exact Sh].
Qed.
(** A grid made with a record source (ADD OBJECT ... WITH RecordSource = ...) shows the table at first, but has forgotten the source: RecordSource is empty, a refresh shows the table of the
    current work area, and a click moves the pointer of that table. *)
Theorem C106_created_grid_refuted : forall d s i w, table_of d (TName s) = Ok (i, w) ->
  exists g, new_grid show d (Some s) = Ok g /\ shows g (w_tab w) /\ gr_source g = [] /\
  forall d2 wc, ws_at d2 (cur d2) = Ok wc -> (exists g2, refresh show d2 g = Ok g2 /\ shows g2 (w_tab wc)) /\
    forall row, 0 <= row < zlen (t_recs (w_tab wc)) -> exists d3 g3 w3, click_row show d2 row g = Ok (d3, g3) /\ ws_at d3 (cur d2) = Ok w3 /\ t_idx (w_tab w3) = row /\
      forall k, slot (length (areas d2)) (cur d2) <> Some k -> nth_error (areas d3) k = nth_error (areas d2) k.
Proof.
  intros d s i w E. destruct (C106_grid_partial d s i w (mkGr [] [] []) E) as (g' & R & _ & (S1 & S2) & _). unfold new_grid. rewrite R. cbn [rbind]. eexists. split; [reflexivity|]. split; [split; [exact S1|exact S2]|]. split; [reflexivity|].
  intros d2 wc H. assert (T : table_of d2 (TName (gr_source (mkGr (gr_rows g') (gr_marks g') []))) = Ok (cur d2, wc)) by (unfold table_of; cbn [gr_source get_workarea]; now rewrite H). split.
  - destruct (refresh_shows d2 _ (cur d2) wc T) as (g2 & A & _ & B). exists g2. split; [exact A|exact B].
  - intros row Hr. destruct (C106_click_partial d2 _ (cur d2) wc row T Hr) as (d3 & g3 & w3 & A & B & _ & C & _ & D & _). exists d3, g3, w3. split; [exact A|]. split; [exact B|]. split; [exact C|exact D].
Qed.
(** An empty list box that is given a row source has the first field of every record. *)
Lemma firsts l : Forall (fun r => r_flds r <> []) l -> first_texts show l = Ok (map (fun r => match r_flds r with p :: _ => show (snd p) | [] => [] end) l).
Proof. induction 1 as [|r l H F IH]; [reflexivity|]. cbn [first_texts map]. unfold first_text, row_texts. destruct (r_flds r) as [|p f] eqn:Ef; [congruence|]. cbn [map rbind]. now rewrite IH. Qed.
Theorem C106_list_partial : forall d s i w old, table_of d (TName s) = Ok (i, w) -> Forall (fun r => r_flds r <> []) (t_recs (w_tab w)) ->
  exists l, set_rowsource show d s (mkL [] old) = Ok l /\ l_source l = s /\ l_items l = map (fun r => match r_flds r with p :: _ => show (snd p) | [] => [] end) (t_recs (w_tab w)).
Proof. intros d s i w old E F. unfold set_rowsource. rewrite E. cbn [rbind snd]. rewrite (firsts _ F). cbn [rbind]. eexists. repeat split. Qed.
(** Assigned once more (after the table has changed, or with another table) the old items stay. *)
Theorem C106_list_again_refuted : forall d s i w l, table_of d (TName s) = Ok (i, w) -> Forall (fun r => r_flds r <> []) (t_recs (w_tab w)) ->
  exists l', set_rowsource show d s l = Ok l' /\ l_items l' = l_items l ++ map (fun r => match r_flds r with p :: _ => show (snd p) | [] => [] end) (t_recs (w_tab w)).
Proof. intros d s i w l E F. unfold set_rowsource. rewrite E. cbn [rbind snd]. rewrite (firsts _ F). cbn [rbind]. eexists. repeat split. Qed.
Theorem C106_created_list_refuted : forall d s l, new_listbox show d (Some s) = Ok l -> l_source l = [].
Proof. intros d s l. unfold new_listbox. destruct (set_rowsource show d s (mkL [] [])) as [x|e]; cbn [rbind]; [intros [= <-]; reflexivity|discriminate]. Qed.
End C106.
Print Assumptions C106_grid_partial.
Print Assumptions C106_click_partial.
Print Assumptions C106_created_grid_refuted.
Print Assumptions C106_list_partial.
Print Assumptions C106_list_again_refuted.
Print Assumptions C106_created_list_refuted.
Definition C106_show (v : fval) : pystr := match v with FChr s => s | _ => [] end.
Example C106_example :
  rmap (fun g => (gr_rows g, gr_marks g, gr_source g)) (set_recordsource C106_show demo (u "second") (mkGr [] [] [])) = Ok ([[u "XX"]; [u "YY"]], [true; false], u "second") /\
  rmap (fun g => gr_rows g) (do g <- new_grid C106_show demo (Some (u "second")); refresh C106_show demo g) = Ok [[u "ID"]; [u "WA"]; [u "ID"]; [u "OR"]] /\
  rmap (fun p => (cursor (fst p) 1, gr_marks (snd p))) (do g <- set_recordsource C106_show demo (u "second") (mkGr [] [] []); click_row C106_show demo 1 g) = Ok (Ok (2, [false; false]), [false; true]) /\
  rmap l_items (do l <- set_rowsource C106_show demo (u "second") (mkL [] []); set_rowsource C106_show demo (u "second") l) = Ok [u "XX"; u "YY"; u "XX"; u "YY"].
Proof. vm_compute. repeat split. Qed.
