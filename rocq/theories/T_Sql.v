(** Property C101: SQLEXEC puts the rows of a result in a cursor. *)
From Verif Require Import PyBase PyStr M_Strings M_Db S_Db P_Db P_DbArea T_Db M_Sql.
Open Scope Z_scope.

(** how a column is declared, by its type; the name has at most ten characters *)
Definition column_text (c : column) : pystr :=
  firstn 10 (k_name c) ++
  match k_type c with
  | TyInt | TyFloat => u " N(" ++ dec_nat (k_size c) ++ u ", " ++ dec_nat (k_dec c) ++ u ")"
  | TyStr => u " C(" ++ dec_nat (k_size c) ++ u ")"
  | TyBool => u " L"
  | TyOther => []
  end.
Definition plain (c : column) : Prop := k_type c <> TyOther /\ 0 <= k_size c /\ 0 <= k_dec c.

Section C101.
Context {R : Type}.
Variables (create : pystr -> list pystr -> res pystr) (store : R -> res rec).

Lemma int_text_pos n : 0 <= n -> dec n = dec_nat n.
Proof. intros H. unfold dec. destruct (Z.ltb_spec n 0); [lia|reflexivity]. Qed.
Lemma specs_ok cs : Forall plain cs -> field_specs cs = Ok (map column_text cs).
Proof.
  induction 1 as [|c cs (T & A & B) F IH]; [reflexivity|]. cbn [field_specs map]. rewrite IH. unfold field_spec, column_text. destruct (k_type c); try congruence; cbn [rbind Z.eqb Pos.eqb]; rewrite ?int_text_pos by assumption; reflexivity.
Qed.
Lemma specs_err cs c : In c cs -> k_type c = TyOther -> exists e, field_specs cs = Err e.
Proof.
  intros I T. induction cs as [|x cs IH]; [contradiction|]. cbn [field_specs]. destruct (field_spec x) as [s|e] eqn:S; cbn [rbind]; [|eauto].
  destruct I as [->|I]; [unfold field_spec in S; rewrite T in S; discriminate|]. destruct (IH I) as [e ->]. cbn. eauto.
Qed.
(** one record added to the table in area k *)
Lemma insert_one l c name k w x : name <> [] -> nth_error l k = Some (Some w) -> is_alias w name = true ->
  (forall m w', (m < k)%nat -> nth_error l m = Some (Some w') -> is_alias w' name = false) ->
  exists t, insert (mkDb l c) (TName name) [x] = (Ok tt, mkDb (list_upd l k (Some (with_tab w t))) c) /\ t_recs t = t_recs (w_tab w) ++ [x].
Proof.
  intros Hn Hk Ha Hm. pose proof (get_area_name (mkDb l c) name k w Hn Hk Ha Hm) as G.
  assert (L : (k < length l)%nat) by (apply nth_error_Some; congruence).
  assert (W : ws_at (mkDb l c) (Z.of_nat k) = Ok w) by (apply ws_at_slot; exists k; split; [apply slot_nonneg; exact L|exact Hk]).
  assert (P : forall l' w', length l' = length l -> put_ws (mkDb l' c) (Z.of_nat k) w' = mkDb (list_upd l' k (Some w')) c) by (intros l' w' E; rewrite put_ws_slot; cbn [areas cur]; rewrite slot_nonneg by lia; reflexivity).
  unfold insert, table_of. rewrite G, W. cbn [fold_left]. unfold put_tab. rewrite P by reflexivity.
  set (t := t_append (w_tab w) x). set (l' := list_upd l k (Some (with_tab w t))).
  assert (K' : nth_error l' k = Some (Some (with_tab w t))) by (unfold l'; rewrite nth_error_list_upd, Nat.eqb_refl; destruct (Nat.ltb_spec k (length l)); [reflexivity|lia]).
  assert (L' : length l' = length l) by (unfold l'; apply list_upd_length).
  assert (G' : get_workarea (mkDb l' c) (TName name) = Ok (Z.of_nat k)).
  { apply (get_area_name (mkDb l' c) name k (with_tab w t) Hn K'); [exact Ha|]. intros m w' Hlt. cbn [areas]. unfold l'. rewrite nth_error_list_upd. destruct (Nat.eqb_spec m k); [lia|]. now apply Hm. }
  assert (W' : ws_at (mkDb l' c) (Z.of_nat k) = Ok (with_tab w t)) by (apply ws_at_slot; exists k; split; [apply slot_nonneg; cbn [areas]; lia|exact K']).
  unfold goto, table_of. rewrite G', W'. change (if 0 <? -1 then -1 - 1 else -1) with (-1). unfold t_goto. rewrite with_tab_tab.
  assert (1 <= t_len t) by (unfold t, t_append, t_len; cbn [t_recs]; rewrite zlen_app; pose proof (zlen_nonneg (t_recs (w_tab w))); change (zlen [x]) with 1; lia).
  destruct (Z.ltb_spec (-1) (- t_len t)); [lia|]. destruct (Z.leb_spec (t_len t) (-1)); [lia|]. cbn [orb]. unfold put_tab. rewrite P by exact L'. unfold l'. rewrite list_upd_twice, with_tab_twice.
  eexists. split; reflexivity.
Qed.
Lemma insert_list : forall rows recs tail l c name k w, Forall2 (fun r x => store r = Ok x) rows recs ->
  name <> [] -> nth_error l k = Some (Some w) -> is_alias w name = true ->
  (forall m w', (m < k)%nat -> nth_error l m = Some (Some w') -> is_alias w' name = false) ->
  exists t, insert_rows R store (mkDb l c) name (rows ++ tail) = insert_rows R store (mkDb (list_upd l k (Some (with_tab w t))) c) name tail /\ t_recs t = t_recs (w_tab w) ++ recs.
Proof.
  intros rows recs tail l c name k w F Hn. revert l w. induction F as [|r x rows recs E F IH]; intros l w Hk Ha Hm.
  - exists (w_tab w). split; [|now rewrite app_nil_r]. cbn [app]. rewrite with_tab_same, list_upd_same by exact Hk. reflexivity.
  - cbn [app insert_rows]. pose proof (get_area_name (mkDb l c) name k w Hn Hk Ha Hm) as G. assert (L : (k < length l)%nat) by (apply nth_error_Some; congruence).
    unfold table_of at 1. rewrite G. replace (ws_at (mkDb l c) (Z.of_nat k)) with (Ok w) by (symmetry; apply ws_at_slot; exists k; split; [apply slot_nonneg; exact L|exact Hk]). rewrite E.
    destruct (insert_one l c name k w x Hn Hk Ha Hm) as (t & -> & Et). destruct (IH (list_upd l k (Some (with_tab w t))) (with_tab w t)) as (t' & -> & Et').
    + rewrite nth_error_list_upd, Nat.eqb_refl. destruct (Nat.ltb_spec k (length l)); [reflexivity|lia].
    + exact Ha.
    + intros m w' Hlt. rewrite nth_error_list_upd. destruct (Nat.eqb_spec m k); [lia|]. now apply Hm.
    + exists t'. rewrite list_upd_twice, with_tab_twice. split; [reflexivity|]. rewrite Et', with_tab_tab, Et, <- app_assoc. reflexivity.
Qed.
(** what is left open when the cursor of that name has been closed *)
Definition without (d : db) (name : pystr) (base : list (option ws)) : Prop :=
  (base = areas d \/ exists i w, nth_error (areas d) i = Some (Some w) /\ is_alias w name = true /\ base = list_upd (areas d) i None) /\
  (forall w, In (Some w) base -> is_alias w name = false).
Lemma close_cursor d name base : name <> [] -> without d name base ->
  use d None (TNum (select_function d (TName name))) None (Err GenericException) = (Ok tt, mkDb base (cur d)).
Proof.
  intros Hn [[->|(i & w & Hi & Ha & ->)] Hb].
  - rewrite select_name by exact Hn. pose proof (not_used_name d name Hn Hb) as U. unfold used in U. destruct (get_workarea d (TName name)); [discriminate|]. destruct d; reflexivity.
  - assert (G : get_workarea d (TName name) = Ok (Z.of_nat i)).
    { apply (get_area_name d name i w Hn Hi Ha). intros m w' Hlt Hw. apply Hb. apply nth_error_In with m. rewrite nth_error_list_upd. destruct (Nat.eqb_spec m i); [lia|exact Hw]. }
    apply (proj2 C22_close_by_number d name i None (Err GenericException) Hn G).
Qed.
Lemma created d name base specs dir c k : name <> [] -> ~ In 47 name -> In c name -> c <> 46 -> without d name base ->
  (forall w, In (Some w) base -> is_alias w (name ++ u ".dbf") = false) ->
  create (name ++ u ".dbf") specs = Ok (dirpart dir ++ name ++ u ".dbf") ->
  nth_error base k = Some None -> (forall m, (m < k)%nat -> nth_error base m <> Some None) ->
  let w := new_ws None (dirpart dir ++ name ++ u ".dbf") [] in
  create_table create (mkDb base (cur d)) (name ++ u ".dbf") specs = (Ok tt, mkDb (list_upd base k (Some w)) (cur d)) /\ is_alias w name = true /\
  nth_error (list_upd base k (Some w)) k = Some (Some w) /\
  (forall m w', (m < k)%nat -> nth_error (list_upd base k (Some w)) m = Some (Some w') -> is_alias w' name = false).
Proof.
  intros Hn H47 Hc H46 Hw Hb Hcr Hk Hm w. split.
  - unfold create_table. rewrite Hcr. apply (use_in_0 (mkDb base (cur d))); [destruct name; discriminate|exact Hb|exact Hk|exact Hm].
  - split; [apply (is_alias_file w dir name c name); auto; right; exists name; split; [cbn; tauto|reflexivity]|]. split.
    + rewrite nth_error_list_upd, Nat.eqb_refl. assert ((k < length base)%nat) by (apply nth_error_Some; congruence). destruct (Nat.ltb_spec k (length base)); [reflexivity|lia].
    + intros m w' Hlt. rewrite nth_error_list_upd. destruct (Nat.eqb_spec m k); [lia|]. intros H. apply (proj2 Hw). eapply nth_error_In; exact H.
Qed.
(** When the columns are numbers, texts and truth values and there is at least one row, the rows are in the cursor afterwards, all of
    them and in order, the pointer on the first; a cursor of that name is replaced and all other tables stay as they are. *)
Theorem C101_cursor_partial : forall d cols rows recs name base dir c k,
  rows <> [] -> Forall plain cols -> Forall2 (fun r x => store r = Ok x) rows recs ->
  ~ In 47 name -> In c name -> c <> 46 -> without d name base -> (forall w, In (Some w) base -> is_alias w (name ++ u ".dbf") = false) ->
  create (name ++ u ".dbf") (map column_text cols) = Ok (dirpart dir ++ name ++ u ".dbf") ->
  nth_error base k = Some None -> (forall m, (m < k)%nat -> nth_error base m <> Some None) ->
  exists d' w, sqlexec R create store d (Ok (Ok (cols, rows))) name = (1, d') /\ cur d' = cur d /\
    nth_error (areas d') k = Some (Some w) /\ t_recs (w_tab w) = recs /\ t_idx (w_tab w) = 0 /\ get_workarea d' (TName name) = Ok (Z.of_nat k) /\
    (forall m, m <> k -> nth_error (areas d') m = nth_error base m).
Proof.
  intros d cols rows recs name base dir c k Hr Hc Hs H47 Hi H46 Hw Hb Hcr Hk Hm. assert (Hn : name <> []) by (destruct name; [contradiction|discriminate]).
  destruct (created d name base _ dir c k Hn H47 Hi H46 Hw Hb Hcr Hk Hm) as (CT & A & K & M). set (w := new_ws None _ []) in *. set (l := list_upd base k (Some w)) in *.
  assert (L : (k < length base)%nat) by (apply nth_error_Some; congruence). assert (LL : length l = length base) by (unfold l; apply list_upd_length).
  destruct (insert_list rows recs [] l (cur d) name k w Hs Hn K A M) as (t & IR & Et). rewrite app_nil_r in IR. cbn [insert_rows] in IR.
  unfold sqlexec, cursor_to_db. replace (match name with [] => u "sqlresult" | n => n end) with name by (destruct name; congruence).
  destruct rows as [|r rows]; [congruence|]. rewrite (specs_ok cols Hc), (close_cursor d name base Hn Hw), CT, IR. cbn [snd]. set (l2 := list_upd l k (Some (with_tab w t))) in *.
  assert (K2 : nth_error l2 k = Some (Some (with_tab w t))) by (unfold l2; rewrite nth_error_list_upd, Nat.eqb_refl; destruct (Nat.ltb_spec k (length l)); [reflexivity|lia]).
  assert (M2 : forall l3 w3, l3 = list_upd l2 k (Some w3) \/ l3 = l2 -> forall m w', (m < k)%nat -> nth_error l3 m = Some (Some w') -> is_alias w' name = false).
  { intros l3 w3 E m w' Hlt H. apply (M m w' Hlt). destruct E as [-> | ->]; unfold l2 in H; rewrite !nth_error_list_upd in H; destruct (Nat.eqb_spec m k); try lia; exact H. }
  pose proof (get_area_name (mkDb l2 (cur d)) name k _ Hn K2 A (M2 l2 w (or_intror eq_refl))) as G2.
  assert (W2 : ws_at (mkDb l2 (cur d)) (Z.of_nat k) = Ok (with_tab w t)) by (apply ws_at_slot; exists k; split; [apply slot_nonneg; cbn [areas]; unfold l2; rewrite list_upd_length; lia|exact K2]).
  unfold goto, table_of. rewrite G2, W2. cbn [Z.ltb Z.compare]. unfold t_goto. rewrite with_tab_tab. assert (1 <= t_len t).
  { unfold t_len. rewrite Et. cbn [new_ws w w_tab t_recs app]. inversion Hs; subst. rewrite zlen_cons. pose proof (zlen_nonneg l'). lia. }
  destruct (Z.ltb_spec 0 (- t_len t)); [lia|]. destruct (Z.leb_spec (t_len t) 0); [lia|]. cbn [orb snd Z.ltb Z.compare]. unfold put_tab. rewrite put_ws_slot. cbn [areas cur].
  rewrite slot_nonneg by (unfold l2; rewrite list_upd_length; lia). rewrite with_tab_twice. set (w3 := with_tab w (t_at t 0)). set (l3 := list_upd l2 k (Some w3)).
  assert (K3 : nth_error l3 k = Some (Some w3)) by (unfold l3; rewrite nth_error_list_upd, Nat.eqb_refl; destruct (Nat.ltb_spec k (length l2)); [reflexivity|unfold l2 in *; rewrite list_upd_length in *; lia]).
  exists (mkDb l3 (cur d)), w3. split; [reflexivity|]. split; [reflexivity|]. split; [exact K3|]. split; [unfold w3; rewrite with_tab_tab; cbn [t_at t_recs]; rewrite Et; reflexivity|]. split; [reflexivity|]. split.
  - apply (get_area_name (mkDb l3 (cur d)) name k w3 Hn K3 A). apply (M2 l3 w3). left. reflexivity.
  - intros m Ne. cbn [areas]. unfold l3, l2, l. rewrite !nth_error_list_upd. destruct (Nat.eqb_spec m k); [congruence|reflexivity].
Qed.
(** A result without rows makes no cursor, and a cursor of that name keeps the rows of the result before: the answer is 1. *)
Theorem C101_empty_refuted : forall d cols name, sqlexec R create store d (Ok (Ok (cols, []))) name = (1, d).
Proof. reflexivity. Qed.
(** The same if one column is of another type, such as a decimal number or a date. *)
Theorem C101_type_refuted : forall d cols c rows name, In c cols -> k_type c = TyOther -> sqlexec R create store d (Ok (Ok (cols, rows))) name = (1, d).
Proof. intros d cols c rows name I T. unfold sqlexec, cursor_to_db. destruct rows; [reflexivity|]. destruct (specs_err cols c I T) as [e ->]. reflexivity. Qed.
(** A row that the table cannot take: 1 is answered, and the cursor has the rows before it only, the pointer on the last of them. *)
Theorem C101_row_refuted : forall d cols rows recs bad e tail name base dir c k,
  Forall plain cols -> Forall2 (fun r x => store r = Ok x) rows recs -> store bad = Err e ->
  ~ In 47 name -> In c name -> c <> 46 -> without d name base -> (forall w, In (Some w) base -> is_alias w (name ++ u ".dbf") = false) ->
  create (name ++ u ".dbf") (map column_text cols) = Ok (dirpart dir ++ name ++ u ".dbf") ->
  nth_error base k = Some None -> (forall m, (m < k)%nat -> nth_error base m <> Some None) ->
  exists d' w, sqlexec R create store d (Ok (Ok (cols, rows ++ bad :: tail))) name = (1, d') /\ nth_error (areas d') k = Some (Some w) /\ t_recs (w_tab w) = recs.
Proof.
  intros d cols rows recs bad e tail name base dir c k Hc Hs He H47 Hi H46 Hw Hb Hcr Hk Hm. assert (Hn : name <> []) by (destruct name; [contradiction|discriminate]).
  destruct (created d name base _ dir c k Hn H47 Hi H46 Hw Hb Hcr Hk Hm) as (CT & A & K & M). set (w := new_ws None _ []) in *. set (l := list_upd base k (Some w)) in *.
  assert (L : (k < length base)%nat) by (apply nth_error_Some; congruence). assert (LL : length l = length base) by (unfold l; apply list_upd_length).
  destruct (insert_list rows recs (bad :: tail) l (cur d) name k w Hs Hn K A M) as (t & IR & Et). set (l2 := list_upd l k (Some (with_tab w t))) in *.
  assert (K2 : nth_error l2 k = Some (Some (with_tab w t))) by (unfold l2; rewrite nth_error_list_upd, Nat.eqb_refl; destruct (Nat.ltb_spec k (length l)); [reflexivity|lia]).
  unfold sqlexec, cursor_to_db. replace (match name with [] => u "sqlresult" | n => n end) with name by (destruct name; congruence).
  destruct (rows ++ bad :: tail) as [|r rest] eqn:ER; [destruct rows; discriminate|]. rewrite <- ER. rewrite <- ER in IR. rewrite (specs_ok cols Hc), (close_cursor d name base Hn Hw), CT, IR. cbn [insert_rows]. rewrite He.
  exists (mkDb l2 (cur d)), (with_tab w t). destruct (table_of (mkDb l2 (cur d)) (TName name)); (split; [reflexivity|]); (split; [exact K2|]); rewrite with_tab_tab, Et; reflexivity.
Qed.
(** If the table cannot be created (two columns whose names begin with the same ten characters), the old cursor is gone and 1 is answered. *)
Theorem C101_create_refuted : forall d cols rows name base e, rows <> [] -> name <> [] -> Forall plain cols -> without d name base ->
  create (name ++ u ".dbf") (map column_text cols) = Err e -> sqlexec R create store d (Ok (Ok (cols, rows))) name = (1, mkDb base (cur d)).
Proof.
  intros d cols rows name base e Hr Hn Hc Hw He. unfold sqlexec, cursor_to_db. replace (match name with [] => u "sqlresult" | n => n end) with name by (destruct name; congruence).
  destruct rows; [congruence|]. rewrite (specs_ok cols Hc), (close_cursor d name base Hn Hw). unfold create_table. rewrite He. reflexivity.
Qed.
(** The answer is 1 exactly if the server ran the command; if it did not, the work areas are as before. *)
Theorem C101_answer : forall d run name, (fst (sqlexec R create store d run name) = 1 <-> exists x, run = Ok x) /\
  (forall e, run = Err e -> sqlexec R create store d run name = (-1, d)).
Proof.
  intros d [x|e] name; (split; [split|]); try (intros; discriminate); cbn [sqlexec fst].
  - intros _. exists x. reflexivity.
  - reflexivity.
  - intros [x X]. discriminate.
  - reflexivity.
Qed.
(** Without a name the cursor is called sqlresult. *)
Theorem C101_default : forall d run, sqlexec R create store d run [] = sqlexec R create store d run (u "sqlresult").
Proof. intros d [[[cols [|r rows]]|e]|e]; reflexivity. Qed.
End C101.
Print Assumptions C101_cursor_partial.
Print Assumptions C101_empty_refuted.
Print Assumptions C101_type_refuted.
Print Assumptions C101_row_refuted.
Print Assumptions C101_create_refuted.
Print Assumptions C101_answer.
Print Assumptions C101_default.
(** the second result replaces the first in the same work area; the table opened before is not touched *)
Definition C101_create (f : pystr) (_ : list pystr) : res pystr := Ok (u "/home/" ++ f).
Definition C101_store (s : string) : res rec := if String.eqb s "" then Err DbfError else Ok (row s).
Definition C101_cols : list column := [mkCol (u "customer_name") TyStr 20 0; mkCol (u "n") TyFloat 10 2; mkCol (u "ok") TyBool 1 0].
Definition C101_run (d : db) (rows : list string) := snd (sqlexec string C101_create C101_store d (Ok (Ok (C101_cols, rows))) (u "Res")).
Definition C101_rows (d : db) := rmap (fun w => (map st_of (t_recs (w_tab w)), t_idx (w_tab w))) (ws_at d 2).
Example C101_example :
  map column_text C101_cols = [u "customer_n C(20)"; u "n N(10, 2)"; u "ok L"] /\
  let d1 := C101_run demo ["a"; "b"]%string in let d2 := C101_run d1 ["c"; "d"; "e"]%string in let d3 := C101_run d2 ["f"; ""; "g"]%string in
  C101_rows d1 = Ok ([Some (FChr (u "a")); Some (FChr (u "b"))], 0) /\ C101_rows d2 = Ok ([Some (FChr (u "c")); Some (FChr (u "d")); Some (FChr (u "e"))], 0) /\
  C101_rows (C101_run d2 []) = C101_rows d2 /\ C101_rows d3 = Ok ([Some (FChr (u "f"))], 0) /\ get_workarea d3 (TName (u "res")) = Ok 2 /\ cursor d3 0 = cursor demo 0.
Proof. vm_compute. repeat split. Qed.
