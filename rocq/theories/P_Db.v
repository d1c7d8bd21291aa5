(** Facts about work areas and navigation. *)
From Verif Require Import PyBase PyStr M_Strings P_Strings M_Db.
Open Scope Z_scope.

(** ** Positions in the list of work areas *)
Definition slot (n : nat) (a : Z) : option nat :=
  let j := if a <? 0 then a + Z.of_nat n else a in
  if (j <? 0) || (Z.of_nat n <=? j) then None else Some (Z.to_nat j).
Lemma slot_lt n a k : slot n a = Some k -> (k < n)%nat.
Proof.
  unfold slot. destruct (a <? 0); match goal with |- context[(?x <? 0) || _] => destruct (Z.ltb_spec x 0) end; cbn [orb]; try discriminate;
    match goal with |- context[?x <=? ?y] => destruct (Z.leb_spec x y) end; try discriminate; intros [= <-]; lia.
Qed.
Lemma slot_nonneg n k : (k < n)%nat -> slot n (Z.of_nat k) = Some k.
Proof.
  intros H. unfold slot. destruct (Z.ltb_spec (Z.of_nat k) 0); [lia|]. destruct (Z.ltb_spec (Z.of_nat k) 0); [lia|].
  destruct (Z.leb_spec (Z.of_nat n) (Z.of_nat k)); [lia|]. cbn [orb]. now rewrite Nat2Z.id.
Qed.
Lemma py_nth_slot {A} (l : list A) a :
  py_nth l a = match slot (length l) a with Some k => match nth_error l k with Some x => Ok x | None => Err IndexError end | None => Err IndexError end.
Proof. unfold py_nth, slot, zlen. destruct (_ || _); reflexivity. Qed.
Lemma py_set_nth_slot {A} (l : list A) a x :
  py_set_nth l a x = match slot (length l) a with Some k => Ok (list_upd l k x) | None => Err IndexError end.
Proof. unfold py_set_nth, slot, zlen. destruct (_ || _); reflexivity. Qed.
Lemma ws_at_slot d a w : ws_at d a = Ok w <-> exists k, slot (length (areas d)) a = Some k /\ nth_error (areas d) k = Some (Some w).
Proof.
  unfold ws_at. rewrite py_nth_slot. destruct (slot _ a) as [k|].
  - destruct (nth_error (areas d) k) as [[w'|]|] eqn:E.
    + split; [intros [= ->]; eauto|intros (k' & [= <-] & E'); congruence].
    + split; [discriminate|intros (k' & [= <-] & E'); congruence].
    + split; [discriminate|intros (k' & [= <-] & E'); congruence].
  - split; [discriminate|intros (k' & E & _); discriminate].
Qed.
Lemma put_ws_slot d a w : put_ws d a w = match slot (length (areas d)) a with Some k => mkDb (list_upd (areas d) k (Some w)) (cur d) | None => d end.
Proof. unfold put_ws. rewrite py_set_nth_slot. destruct (slot _ a); reflexivity. Qed.
Lemma put_ws_length d a w : length (areas (put_ws d a w)) = length (areas d).
Proof. rewrite put_ws_slot. destruct (slot _ a); [cbn; apply list_upd_length|reflexivity]. Qed.
Lemma put_ws_cur d a w : cur (put_ws d a w) = cur d.
Proof. rewrite put_ws_slot. destruct (slot _ a); reflexivity. Qed.
Lemma ws_at_put d a w w' : ws_at d a = Ok w -> ws_at (put_ws d a w') a = Ok w'.
Proof.
  intros H. apply ws_at_slot in H. destruct H as (k & Hk & Hn). apply ws_at_slot. exists k. rewrite put_ws_length. split; [exact Hk|].
  rewrite put_ws_slot, Hk. cbn [areas]. rewrite nth_error_list_upd, Nat.eqb_refl.
  destruct (Nat.ltb_spec k (length (areas d))); [reflexivity|]. apply slot_lt in Hk. lia.
Qed.
Lemma list_upd_twice {A} (l : list A) k x y : list_upd (list_upd l k x) k y = list_upd l k y.
Proof. revert k; induction l as [|z l IH]; intros [|k]; cbn; congruence. Qed.
Lemma list_upd_same {A} (l : list A) k x : nth_error l k = Some x -> list_upd l k x = l.
Proof. revert k; induction l as [|z l IH]; intros [|k]; cbn; try congruence. intros H. now rewrite IH. Qed.
Lemma put_ws_twice d a w w' : put_ws (put_ws d a w) a w' = put_ws d a w'.
Proof.
  rewrite (put_ws_slot (put_ws d a w)), put_ws_length, (put_ws_slot d a w'), put_ws_cur.
  rewrite put_ws_slot. destruct (slot _ a); [cbn; now rewrite list_upd_twice|reflexivity].
Qed.
Lemma put_ws_same d a w : ws_at d a = Ok w -> put_ws d a w = d.
Proof. intros H. apply ws_at_slot in H. destruct H as (k & Hk & Hn). rewrite put_ws_slot, Hk, list_upd_same by exact Hn. now destruct d. Qed.
Lemma put_ws_nth d a w k : slot (length (areas d)) a <> Some k -> nth_error (areas (put_ws d a w)) k = nth_error (areas d) k.
Proof.
  intros H. rewrite put_ws_slot. destruct (slot _ a) as [j|]; [|reflexivity]. cbn [areas]. rewrite nth_error_list_upd.
  destruct (Nat.eqb_spec k j); [congruence|reflexivity].
Qed.
Lemma with_tab_tab w t : w_tab (with_tab w t) = t. Proof. reflexivity. Qed.
Lemma with_tab_twice w t t' : with_tab (with_tab w t) t' = with_tab w t'. Proof. reflexivity. Qed.
Lemma with_tab_same w : with_tab w (w_tab w) = w. Proof. now destruct w. Qed.
Lemma ws_at_cur_irrel l c c' a : ws_at (mkDb l c) a = ws_at (mkDb l c') a. Proof. reflexivity. Qed.

(** ** index_of *)
Lemma index_of_some p l i k : index_of p l i = Some k -> exists n, k = i + Z.of_nat n /\ (n < length l)%nat /\
  (exists o, nth_error l n = Some o /\ p o = true) /\ (forall m o, (m < n)%nat -> nth_error l m = Some o -> p o = false).
Proof.
  revert i; induction l as [|o l IH]; intros i; cbn [index_of]; [discriminate|].
  destruct (p o) eqn:E.
  - intros [= <-]. exists O. split; [lia|]. split; [cbn; lia|]. split; [exists o; auto|]. intros m o' Hm; lia.
  - intros H. destruct (IH _ H) as (n & -> & Hn & He & Hm). exists (S n). split; [lia|]. split; [cbn; lia|]. split; [exact He|].
    intros [|m] o' Hm' Ho; cbn in Ho; [congruence|]. apply (Hm m); [lia|exact Ho].
Qed.
Lemma index_of_none p l i : index_of p l i = None -> forall o, In o l -> p o = false.
Proof.
  revert i; induction l as [|o l IH]; intros i; cbn [index_of]; [intros _ o []|].
  destruct (p o) eqn:E; [discriminate|]. intros H o' [->|Hin]; [exact E|now apply (IH _ H)].
Qed.
Lemma index_of_intro p l i n o : nth_error l n = Some o -> p o = true ->
  (forall m o', (m < n)%nat -> nth_error l m = Some o' -> p o' = false) -> index_of p l i = Some (i + Z.of_nat n).
Proof.
  revert l i; induction n as [|n IH]; intros [|o' l] i Hn Hp Hm; cbn in Hn; try discriminate; cbn [index_of].
  - injection Hn as ->. rewrite Hp. f_equal. lia.
  - rewrite (Hm O o') by (try lia; reflexivity). rewrite (IH l (i + 1)); auto; [f_equal; lia|].
    intros m o'' Hlt Ho. apply (Hm (S m)); [lia|exact Ho].
Qed.

(** ** Validity of the record pointers *)
Definition valid_tab (t : table) : Prop := -1 <= t_idx t <= t_len t.
Definition valid (d : db) : Prop := forall w, In (Some w) (areas d) -> valid_tab (w_tab w).
Lemma valid_at d a w : valid d -> ws_at d a = Ok w -> valid_tab (w_tab w).
Proof. intros V H. apply ws_at_slot in H. destruct H as (k & _ & Hn). apply V. eapply nth_error_In; eauto. Qed.
Lemma in_list_upd {A} (l : list A) k x y : In y (list_upd l k x) -> y = x \/ In y l.
Proof.
  revert k; induction l as [|z l IH]; intros [|k]; cbn; auto; intros [H|H]; auto. destruct (IH _ H); auto.
Qed.
Lemma valid_put d a w : valid d -> valid_tab (w_tab w) -> valid (put_ws d a w).
Proof.
  intros V Hw w' Hin. rewrite put_ws_slot in Hin. destruct (slot _ a); [|now apply V]. cbn [areas] in Hin.
  apply in_list_upd in Hin. destruct Hin as [[= ->]|Hin]; [exact Hw|now apply V].
Qed.
Lemma valid_cur l c c' : valid (mkDb l c) -> valid (mkDb l c').
Proof. intros V w. apply V. Qed.
Lemma t_len_nonneg t : 0 <= t_len t. Proof. apply zlen_nonneg. Qed.
Lemma valid_goto t n t' : t_goto t n = Ok t' -> valid_tab t'.
Proof.
  unfold t_goto. destruct (Z.ltb_spec n (- t_len t)); cbn [orb]; [discriminate|].
  destruct (Z.leb_spec (t_len t) n); [discriminate|]. intros [= <-]. unfold valid_tab, t_at, t_len in *. cbn [t_idx t_recs].
  destruct (Z.ltb_spec n 0); lia.
Qed.
Lemma valid_skip t n : valid_tab (snd (t_skip t n)).
Proof. unfold t_skip, valid_tab, t_at. cbn [snd t_idx]. unfold t_len. cbn [t_recs]. pose proof (zlen_nonneg (t_recs t)). lia. Qed.
Lemma valid_bottom t : valid_tab (t_bottom t).
Proof. unfold valid_tab, t_bottom, t_at, t_len. cbn. pose proof (zlen_nonneg (t_recs t)). lia. Qed.
Lemma valid_top t : valid_tab (t_top t).
Proof. unfold valid_tab, t_top, t_at, t_len. cbn. pose proof (zlen_nonneg (t_recs t)). lia. Qed.
Lemma valid_append t r : valid_tab t -> valid_tab (t_append t r).
Proof. unfold valid_tab, t_append, t_len. cbn [t_idx t_recs]. rewrite zlen_app. unfold zlen at 3; cbn [length]. lia. Qed.
Lemma valid_update t i f : valid_tab t -> valid_tab (t_update t i f).
Proof.
  unfold valid_tab, t_update, t_len. destruct (nth_error _ _); [|auto]. cbn [t_idx t_recs]. unfold zlen. rewrite list_upd_length. auto.
Qed.
Lemma valid_reset t s t' : reset t s = Ok t' -> valid_tab t'.
Proof.
  unfold reset. destruct (s <? 0); [intros [= <-]; apply valid_top|].
  destruct (s =? t_len t); [intros [= <-]; apply valid_bottom|]. apply valid_goto.
Qed.
Lemma valid_goto_cmd d tn n : valid d -> valid (snd (goto d tn n)).
Proof.
  intros V. unfold goto. destruct (table_of d tn) as [[i w]|]; [|exact V]. destruct (t_goto _ _) eqn:E; [|exact V].
  cbn [snd]. apply valid_put; [exact V|]. cbn. eapply valid_goto; eauto.
Qed.
Lemma table_of_at d tn i w : table_of d tn = Ok (i, w) -> get_workarea d tn = Ok i /\ ws_at d i = Ok w.
Proof.
  unfold table_of. destruct (get_workarea d tn); [|discriminate]. destruct (ws_at d a) eqn:E; [|discriminate].
  intros [= -> ->]. auto.
Qed.
Lemma valid_update_rec d a i f : valid d -> valid (update_rec a i f d).
Proof.
  intros V. unfold update_rec. destruct (ws_at d a) eqn:E; [|exact V]. apply valid_put; [exact V|]. cbn.
  apply valid_update. eapply valid_at; eauto.
Qed.

Definition keeps_valid {A} (body : Z -> Z -> db -> res A * db) := forall a i d, valid d -> valid (snd (body a i d)).
Lemma valid_loop {A} fuel a c fc wc (body : Z -> Z -> db -> res A * db) acc d :
  keeps_valid body -> valid d -> valid (snd (rec_loop fuel a c fc wc body acc d)).
Proof.
  intros KV. revert acc d; induction fuel as [|k IH]; intros acc d V; [exact V|]. cbn [rec_loop].
  destruct (ws_at d a) as [w|] eqn:E; [|exact V]. destruct (negb _); [exact V|].
  destruct (run_cond wc d) as [[|]|]; [|exact V|exact V]. destruct (run_cond fc d) as [b|]; [|exact V].
  assert (forall (x : list A) d1, valid d1 ->
    valid (snd (match ws_at d1 a with
                        | Err e => (Err e, d1)
                        | Ok w1 =>
                            let '(sr, t2) := t_skip (w_tab w1) 1 in
                            let d2 := put_tab d1 a w1 t2 in
                            match sr with
                            | Err _ => (Ok (acc ++ x), d2)
                            | Ok _ => rec_loop k a c fc wc body (acc ++ x) d2
                            end
                        end))) as HN.
  { intros x d1 V1. destruct (ws_at d1 a) as [w1|] eqn:E1; [|exact V1]. pose proof (valid_skip (w_tab w1) 1) as Vs.
    destruct (t_skip (w_tab w1) 1) as [sr t2]. cbn [snd] in Vs.
    assert (valid (put_tab d1 a w1 t2)) as V2 by (apply valid_put; [exact V1|exact Vs]).
    cbv zeta. destruct sr; [now apply IH|exact V2]. }
  destruct b.
  - pose proof (KV a (t_idx (w_tab w)) d V) as V1. destruct (body a (t_idx (w_tab w)) d) as [[x|e] d1]; cbn [rmap rbind]; [now apply HN|exact V1].
  - now apply HN.
Qed.
Lemma valid_get_records {A} d tn sc fc wc (body : Z -> Z -> db -> res A * db) :
  keeps_valid body -> valid d -> valid (snd (get_records d tn sc fc wc body)).
Proof.
  intros KV V. unfold get_records, select. destruct (get_workarea d tn) as [i|]; [|exact V].
  set (d0 := mkDb (areas d) i). assert (valid d0) as V0 by (intros w; apply V).
  destruct (table_of d0 TNone) as [[a w]|] eqn:Et; [|exact V0]. cbv zeta.
  destruct (t_len (w_tab w) =? 0); [exact V|].
  destruct (match sc with ScAll => _ | ScRecord n => _ | _ => _ end) as [t1|] eqn:Eg; [|exact V0].
  assert (valid_tab (w_tab w)) as Vw by (apply table_of_at in Et; destruct Et; eapply valid_at; eauto).
  assert (valid_tab t1) as V1 by (destruct sc; try (eapply valid_goto; eassumption); injection Eg as <-; exact Vw).
  assert (valid (put_tab d0 a w t1)) as Vd1 by (now apply valid_put).
  destruct (t_record t1); [|intros w' H; now apply Vd1].
  match goal with |- context[rec_loop ?f ?a ?c fc wc body [] ?dd] => pose proof (valid_loop f a c fc wc body [] dd KV Vd1) as Vl;
    destruct (rec_loop f a c fc wc body [] dd) as [[l|e] d2] end; cbn [snd] in Vl; [|exact Vl].
  destruct (ws_at d2 a) as [w2|] eqn:E2; [|exact Vl].
  match goal with |- context[match ?x with Ok t2 => (Ok l, _) | Err e => (Err e, d2) end] => destruct x as [t2|] eqn:Er end; [|exact Vl].
  assert (valid_tab t2) as V2 by (destruct sc; try (eapply valid_reset; eassumption); injection Er as <-; apply valid_bottom).
  assert (valid (put_tab d2 a w2 t2)) as V3 by (now apply valid_put). intros w' H; now apply V3.
Qed.
Lemma valid_new al f rs : valid_tab (w_tab (new_ws al f rs)).
Proof. unfold valid_tab, t_len. cbn. destruct (Z.ltb_spec 0 (zlen rs)); pose proof (zlen_nonneg rs); lia. Qed.
Lemma valid_use d t w a o : valid d -> valid (snd (use d t w a o)).
Proof.
  intros V. unfold use. destruct t as [s|].
  - destruct (used d (TName s)); [exact V|]. cbv zeta.
    set (sl := match w with TNum 0 => _ | TNum n => Ok n | _ => Err TypeError end). clearbody sl.
    destruct (match w with TNum 0 => _ | _ => _ end); [|exact V].
    destruct o as [[f rs]|]; [|exact V]. destruct sl as [i|]; [|exact V]. rewrite py_set_nth_slot. destruct (slot _ i); [|exact V].
    cbn [snd]. intros w' H. cbn [areas] in H. apply in_list_upd in H. destruct H as [[= ->]|H]; [apply valid_new|now apply V].
  - destruct w as [|n|s]; try (destruct n); try exact V;
    (destruct (get_workarea d _); [|exact V]); rewrite py_set_nth_slot; (destruct (slot _ _); [|exact V]);
      intros w' H; cbn [snd areas] in H; apply in_list_upd in H; (destruct H as [[=]|H]; now apply V).
Qed.
Lemma valid_repeat c : valid (mkDb (repeat None (Z.to_nat n_areas)) c).
Proof. intros w H. apply repeat_spec in H. discriminate. Qed.
Lemma valid_fold_append rows t : valid_tab t -> valid_tab (fold_left t_append rows t).
Proof. revert t; induction rows as [|r rows IH]; intros t V; [exact V|]. cbn. apply IH. now apply valid_append. Qed.
Lemma valid_continue d tn : valid d -> valid (snd (continue_locate d tn)).
Proof.
  intros V. unfold continue_locate. destruct (get_workarea d tn) as [i|]; [|exact V].
  destruct (py_nth (areas d) i) as [[w|]|] eqn:E; [|exact V|exact V].
  assert (valid_tab (w_tab w)) as Vw by (apply (valid_at d i); [exact V|unfold ws_at; now rewrite E]).
  destruct (w_locate w) as [[|r rest]|]; [| |exact V].
  - apply valid_put; [exact V|apply valid_bottom].
  - destruct (t_goto (w_tab w) r) eqn:Eg; cbn [snd]; (apply valid_put; [exact V|]); cbn; [eapply valid_goto; eauto|exact Vw].
Qed.
Lemma valid_seek d tn m : valid d -> valid (snd (seek d tn m)).
Proof.
  intros V. unfold seek. destruct (table_of d tn) as [[i w]|] eqn:E; [|exact V].
  assert (valid_tab (w_tab w)) as Vw by (apply table_of_at in E; destruct E; eapply valid_at; eauto).
  destruct (match w_seek w with Some l => l | None => m end) as [|r rest].
  - apply valid_put; [exact V|apply valid_bottom].
  - destruct (t_goto (w_tab w) r) eqn:Eg; cbn [snd]; (apply valid_put; [exact V|]); cbn; [eapply valid_goto; eauto|exact Vw].
Qed.
Lemma snd_let {A B C} (p : A * B) (f : A -> C) : snd (let '(r, d') := p in (f r, d')) = snd p.
Proof. now destruct p. Qed.
Lemma valid_step d c : valid d -> valid (dstep d c).
Proof.
  intros V. destruct c; cbn [dstep].
  - now apply valid_use.
  - unfold select. destruct (get_workarea d tn); [intros w; apply V|exact V].
  - now apply valid_goto_cmd.
  - unfold skip. destruct (table_of d tn) as [[i w]|]; [|exact V]. pose proof (valid_skip (w_tab w) n) as Vs.
    destruct (t_skip (w_tab w) n). cbn [snd] in *. now apply valid_put.
  - unfold append. destruct (table_of d tn) as [[i w]|] eqn:E; [|exact V]. apply valid_goto_cmd. apply valid_put; [exact V|].
    apply valid_append. apply table_of_at in E. destruct E. eapply valid_at; eauto.
  - unfold insert. destruct (table_of d tn) as [[i w]|] eqn:E; [|exact V]. apply valid_goto_cmd. apply valid_put; [exact V|].
    apply valid_fold_append. apply table_of_at in E. destruct E. eapply valid_at; eauto.
  - unfold zap. destruct (table_of d TNone) as [[i w]|] eqn:E; [|exact V]. cbn [snd]. apply valid_put; [exact V|].
    cbn. unfold valid_tab, t_len, zlen. cbn. lia.
  - apply valid_repeat.
  - unfold count. rewrite snd_let. apply valid_get_records; [|exact V]. intros a i d0 V0. exact V0.
  - unfold delete_record. rewrite snd_let. apply valid_get_records; [|exact V]. intros a i d0 V0. now apply valid_update_rec.
  - unfold replace. cbv zeta. match goal with |- context[if ?b then ?x else (tn, field)] => destruct (if b then x else (tn, field)) as [tn' f'] end. rewrite snd_let.
    apply valid_get_records; [|exact V]. intros a i d0 V0. destruct (ws_at d0 a); [|exact V0]. destruct (t_record _); [|exact V0].
    destruct (has_field _ _); [|exact V0]. now apply valid_update_rec.
  - unfold sum. rewrite snd_let. apply valid_get_records; [|exact V]. intros a i d0 V0. exact V0.
  - unfold locate. match goal with |- context[get_records ?a ?b ?c ?e ?f ?g] => pose proof (valid_get_records a b c e f g) as H;
      destruct (get_records a b c e f g) as [[l|] d1] end; cbn [snd] in *.
    + assert (valid d1) as V1 by (apply H; [intros ? ? ? V0; exact V0|exact V]).
      destruct (table_of d1 tn) as [[i w]|] eqn:E; [|exact V1]. apply valid_continue. apply valid_put; [exact V1|]. cbn.
      apply table_of_at in E. destruct E. eapply valid_at; eauto.
    + apply H; [intros ? ? ? V0; exact V0|exact V].
  - now apply valid_continue.
  - now apply valid_seek.
Qed.
Lemma valid_run cs : forall d, valid d -> valid (drun d cs).
Proof. induction cs as [|c cs IH]; intros d V; [exact V|]. apply IH. now apply valid_step. Qed.
Lemma valid_init : valid db_init. Proof. apply valid_repeat. Qed.
