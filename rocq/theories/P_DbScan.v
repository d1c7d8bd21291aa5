(** SCAN, LOCATE/CONTINUE, REPLACE, EOF() loops, and what a scoped command does to the selected work area. *)
From Verif Require Import PyBase PyStr M_Strings P_Strings M_Db S_Db P_Db P_DbArea P_DbRec.
Open Scope Z_scope.

Lemma get_records_restores {A} d tn sc fc wc (body : Z -> Z -> db -> res A * db) l d' :
  get_records d tn sc fc wc body = (Ok l, d') -> cur d' = cur d.
Proof.
  unfold get_records, select. destruct (get_workarea d tn) as [i|]; [|discriminate].
  destruct (table_of _ TNone) as [[a w]|]; [|discriminate]. cbv zeta.
  destruct (t_len (w_tab w) =? 0); [intros [= _ <-]; reflexivity|].
  match goal with |- context[match ?x with Ok t1 => _ | Err e => (Err e, _) end] => destruct x as [t1|] end; [|discriminate].
  destruct (t_record t1); [|intros [= _ <-]; reflexivity].
  match goal with |- context[rec_loop ?f ?a ?c fc wc body [] ?dd] => destruct (rec_loop f a c fc wc body [] dd) as [[l'|e] d2] end; [|discriminate].
  destruct (ws_at d2 a) as [w2|]; [|discriminate].
  match goal with |- context[match ?x with Ok t2 => (Ok l', _) | Err e => (Err e, d2) end] => destruct x as [t2|] end; [|discriminate].
  intros [= _ <-]. reflexivity.
Qed.
Lemma record_out_of_range {A} d tn i w n fc wc (body : Z -> Z -> db -> res A * db) :
  get_workarea d tn = Ok i -> ws_at d i = Ok w -> 0 < t_len (w_tab w) < n ->
  get_records d tn (ScRecord n) fc wc body = (Err IndexError, mkDb (areas d) i).
Proof.
  intros Hg Hw Hn. unfold get_records, select. rewrite Hg. unfold table_of. cbn [get_workarea cur].
  change (ws_at (mkDb (areas d) i) i) with (ws_at d i). rewrite Hw. cbv zeta. destruct (Z.eqb_spec (t_len (w_tab w)) 0); [lia|].
  unfold t_goto. destruct (Z.leb_spec (t_len (w_tab w)) (n - 1)); [|lia]. now rewrite orb_true_r.
Qed.

(** ** REPLACE *)
Lemma replace_spec d tn i w sc field v : ready d tn i w sc ->
  match tn with TNone | TNum 0 | TName [] => False | _ => True end ->
  Forall (fun r => has_field r field = true) (t_recs (w_tab w)) ->
  let chosen := selected sc (t_idx (w_tab w) + 1) (fun _ _ => true) (fun _ _ => true) (t_recs (w_tab w)) in
  replace d tn sc field v =
  (Ok tt, mkDb (areas (put_tab d i w (mkT (touch (set_field field v) chosen (t_recs (w_tab w)))
                                         (after sc (t_idx (w_tab w)) (t_len (w_tab w)))))) (cur d)).
Proof.
  intros R Ht HQ chosen. unfold replace. cbv zeta.
  match goal with |- context[if ?b then ?x else (tn, field)] => replace (if b then x else (tn, field)) with (tn, field) end.
  2: { destruct tn as [|[]|[]]; try contradiction; reflexivity. }
  rewrite (run_records d tn i w sc None None (fun _ _ => true) (fun _ _ => true) R ltac:(intros ? ? ? ? ?; reflexivity) ltac:(intros ? ? ? ? ?; reflexivity)
             (fun r => has_field r field = true) (set_field field v) (fun _ _ => tt)); [reflexivity| |exact HQ].
  intros d0 w0 r0 H0 H1 H2. rewrite H0, H1, H2. unfold update_rec. now rewrite H0.
Qed.
Lemma replace_none d i w sc field v : ready d TNone i w sc -> ~ In 46 field ->
  Forall (fun r => has_field r (lower field) = true) (t_recs (w_tab w)) ->
  let chosen := selected sc (t_idx (w_tab w) + 1) (fun _ _ => true) (fun _ _ => true) (t_recs (w_tab w)) in
  replace d TNone sc field v =
  (Ok tt, mkDb (areas (put_tab d i w (mkT (touch (set_field (lower field) v) chosen (t_recs (w_tab w)))
                                         (after sc (t_idx (w_tab w)) (t_len (w_tab w)))))) (cur d)).
Proof.
  intros R Hd HQ chosen. unfold replace, split_field. cbv zeta.
  assert (rfind_nat (lower field) [46] = None) as ->.
  { apply rfind_single_none. apply lower_no_sep; [now left|exact Hd]. }
  rewrite (run_records d TNone i w sc None None (fun _ _ => true) (fun _ _ => true) R ltac:(intros ? ? ? ? ?; reflexivity) ltac:(intros ? ? ? ? ?; reflexivity)
             (fun r => has_field r (lower field) = true) (set_field (lower field) v) (fun _ _ => tt)); [reflexivity| |exact HQ].
  intros d0 w0 r0 H0 H1 H2. rewrite H0, H1, H2. unfold update_rec. now rewrite H0.
Qed.

(** ** Names survive changes of the table *)
Lemma answers_same s w w' : w_name w = w_name w' -> w_file w = w_file w' -> answers s (Some w) = answers s (Some w').
Proof. intros H1 H2. cbn. unfold is_alias. now rewrite H1, H2. Qed.
Lemma index_of_upd p l k o o' i : nth_error l k = Some o -> p o = p o' -> index_of p (list_upd l k o') i = index_of p l i.
Proof.
  revert k i; induction l as [|x l IH]; intros [|k] i Hk Hp; cbn in Hk; try discriminate; cbn [list_upd index_of].
  - injection Hk as ->. now rewrite Hp.
  - destruct (p x); [reflexivity|]. now apply IH.
Qed.
Lemma get_workarea_put d tn i w w' : ws_at d i = Ok w -> w_name w = w_name w' -> w_file w = w_file w' ->
  get_workarea (put_ws d i w') tn = get_workarea d tn.
Proof.
  intros Hw Hn Hf. unfold get_workarea. rewrite put_ws_cur. destruct tn as [|n|[|c s]]; try reflexivity.
  apply ws_at_slot in Hw. destruct Hw as (k & Hk & Hnth). rewrite put_ws_slot, Hk. cbn [areas].
  now rewrite (index_of_upd _ _ _ _ _ _ Hnth (answers_same (c :: s) w w' Hn Hf)).
Qed.

(** ** LOCATE and CONTINUE *)
Fixpoint continue_n (k : nat) (d : db) (tn : tref) : res unit * db :=
  match k with
  | O => (Ok tt, d)
  | S k => match continue_locate d tn with (Ok _, d') => continue_n k d' tn | r => r end
  end.
(** area i is at the head of `l`, a list of matching records, or past it *)
Definition located (d : db) (i : Z) (w : ws) (l : list (Z * rec)) : Prop :=
  exists sk, ws_at d i = Ok (match l with
    | [] => mkW (w_name w) (w_file w) (mkT (t_recs (w_tab w)) (t_len (w_tab w))) None false sk
    | (m, _) :: l' => mkW (w_name w) (w_file w) (mkT (t_recs (w_tab w)) (m - 1)) (Some (map (fun x => fst x - 1) l')) true sk
    end).
Lemma located_name d i w l : located d i w l -> exists w', ws_at d i = Ok w' /\ w_name w' = w_name w /\ w_file w' = w_file w.
Proof. intros (sk & H). eexists. split; [exact H|]. now destruct l as [|[m r] l]. Qed.
Lemma put_frame d i w' k : slot (length (areas d)) i <> Some k -> nth_error (areas (put_ws d i w')) k = nth_error (areas d) k.
Proof. apply put_ws_nth. Qed.
Definition frame (d d' : db) (i : Z) : Prop :=
  length (areas d') = length (areas d) /\ cur d' = cur d /\
  forall k, slot (length (areas d)) i <> Some k -> nth_error (areas d') k = nth_error (areas d) k.
Lemma frame_refl d i : frame d d i. Proof. repeat split. Qed.
Lemma frame_put d d' i w : frame d d' i -> frame d (put_ws d' i w) i.
Proof.
  intros (H1 & H2 & H3). split; [now rewrite put_ws_length|]. split; [now rewrite put_ws_cur|].
  intros k Hk. rewrite put_ws_nth by (rewrite H1; exact Hk). now apply H3.
Qed.
Lemma continue_step d tn i w l : get_workarea d tn = Ok i -> located d i w l ->
  Forall (fun x => 1 <= fst x <= t_len (w_tab w)) l ->
  exists d', continue_locate d tn = (Ok tt, d') /\ located d' i w (tl l) /\ get_workarea d' tn = Ok i /\ frame d d' i.
Proof.
  intros Hg (sk & Hl) HF. unfold continue_locate. rewrite Hg.
  assert (forall ww, ws_at d i = Ok ww -> py_nth (areas d) i = Ok (Some ww)) as HP.
  { intros ww H. unfold ws_at in H. destruct (py_nth (areas d) i) as [[x|]|]; try discriminate. congruence. }
  rewrite (HP _ Hl). destruct l as [|[m r] l].
  - cbn [w_locate]. exists d. repeat split; auto. exists sk. exact Hl.
  - cbn [w_locate]. destruct l as [|[m' r'] l]; cbn [map].
    + eexists. split; [reflexivity|]. cbn [tl w_tab w_name w_file w_seek]. split; [|split].
      * exists sk. rewrite (ws_at_put _ _ _ _ Hl). reflexivity.
      * now rewrite (get_workarea_put _ _ _ _ _ Hl).
      * apply frame_put, frame_refl.
    + cbn [w_tab w_name w_file w_seek fst]. unfold t_goto, t_len. cbn [t_recs]. fold (t_len (w_tab w)).
      inversion_clear HF as [|? ? H1 HF']. inversion_clear HF' as [|? ? H2 HF'']. cbn [fst] in *.
      destruct (Z.ltb_spec (m' - 1) (- t_len (w_tab w))); [lia|]. destruct (Z.leb_spec (t_len (w_tab w)) (m' - 1)); [lia|]. cbn [orb].
      destruct (Z.ltb_spec (m' - 1) 0); [lia|]. eexists. split; [reflexivity|]. split; [|split].
      * exists sk. rewrite (ws_at_put _ _ _ _ Hl). reflexivity.
      * now rewrite (get_workarea_put _ _ _ _ _ Hl).
      * apply frame_put, frame_refl.
Qed.
Lemma frame_trans d d1 d2 i : frame d d1 i -> frame d1 d2 i -> frame d d2 i.
Proof.
  intros (A1 & A2 & A3) (B1 & B2 & B3). split; [congruence|]. split; [congruence|]. intros k Hk. rewrite B3, A3; auto. now rewrite A1.
Qed.
Lemma continue_n_spec k : forall d tn i w l, get_workarea d tn = Ok i -> located d i w l ->
  Forall (fun x => 1 <= fst x <= t_len (w_tab w)) l ->
  exists d', continue_n k d tn = (Ok tt, d') /\ located d' i w (skipn k l) /\ get_workarea d' tn = Ok i /\ frame d d' i.
Proof.
  induction k as [|k IH]; intros d tn i w l Hg Hl HF.
  - exists d. repeat split; auto.
  - cbn [continue_n]. destruct (continue_step d tn i w l Hg Hl HF) as (d1 & -> & Hl1 & Hg1 & F1).
    destruct (IH d1 tn i w (tl l) Hg1 Hl1) as (d2 & -> & Hl2 & Hg2 & F2); [destruct l; [constructor|now inversion HF]|].
    exists d2. split; [reflexivity|]. split; [destruct l; [now rewrite skipn_nil in *|exact Hl2]|]. split; [exact Hg2|]. now apply (frame_trans _ d1).
Qed.
Lemma selected_range sc here p q rs : Forall (fun x => 1 <= fst x <= zlen rs) (selected sc here p q rs).
Proof.
  apply Forall_forall. intros [m r] H. unfold selected in H. apply filter_In in H. destruct H as [H _]. apply take_while_in in H.
  apply filter_In in H. destruct H as [H _]. apply number_in in H. cbn. lia.
Qed.
Lemma get_workarea_restore d tn i w t : get_workarea d tn = Ok i -> ws_at d i = Ok w ->
  get_workarea (mkDb (areas (put_tab d i w t)) (cur d)) tn = Ok i.
Proof.
  intros Hg Hw. rewrite <- Hg. replace (mkDb (areas (put_tab d i w t)) (cur d)) with (put_tab d i w t).
  - now apply (get_workarea_put d tn i w).
  - unfold put_tab. rewrite put_ws_slot. destruct (slot _ _); [reflexivity|now destruct d].
Qed.
Lemma restore_put d i w t : mkDb (areas (put_tab d i w t)) (cur d) = put_tab d i w t.
Proof. unfold put_tab. rewrite put_ws_slot. destruct (slot _ _); [reflexivity|now destruct d]. Qed.
Lemma locate_spec d tn i w fc wc p q : reads_record fc p -> reads_record wc q ->
  get_workarea d tn = Ok i -> ws_at d i = Ok w -> 0 <= t_idx (w_tab w) <= t_len (w_tab w) \/ t_recs (w_tab w) = [] ->
  exists d', locate d tn fc wc = (Ok tt, d') /\
    located d' i w (selected ScRest (t_idx (w_tab w) + 1) p q (t_recs (w_tab w))) /\ get_workarea d' tn = Ok i /\ frame d d' i.
Proof.
  intros Hp Hq Hg Hw Hi. unfold locate.
  assert (ready d tn i w ScRest) as R.
  { repeat split; auto. destruct Hi as [Hi|Hi]; [right; split; [exact Hi|exact I]|now left]. }
  rewrite (run_records d tn i w ScRest fc wc p q R Hp Hq anyrec (fun r => r) (fun n _ => n - 1)); [|intros d0 w0 r0 H0 _ _|apply any_all].
  2: { rewrite t_update_id, put_same by exact H0. f_equal. f_equal. lia. }
  set (l := selected ScRest (t_idx (w_tab w) + 1) p q (t_recs (w_tab w))).
  rewrite touch_id, restore_put.
  set (t1 := mkT (t_recs (w_tab w)) (after ScRest (t_idx (w_tab w)) (zlen (t_recs (w_tab w))))).
  unfold table_of. rewrite (get_workarea_put d tn i w (with_tab w t1) Hw eq_refl eq_refl : get_workarea (put_tab d i w t1) tn = _), Hg.
  unfold put_tab at 1. rewrite (ws_at_put _ _ _ _ Hw).
  set (d1 := put_ws (put_tab d i w t1) i _).
  assert (ws_at d1 i = Ok (mkW (w_name w) (w_file w) t1 (Some (map (fun x => fst x - 1) l)) (w_found w) (w_seek w))) as Hd1.
  { unfold d1, put_tab. rewrite put_ws_twice. rewrite (ws_at_put _ _ _ _ Hw). reflexivity. }
  assert (get_workarea d1 tn = Ok i) as Hg1.
  { unfold d1, put_tab. rewrite put_ws_twice. rewrite <- Hg. now apply (get_workarea_put d tn i w). }
  assert (frame d d1 i) as F1 by (unfold d1, put_tab; apply frame_put, frame_put, frame_refl).
  pose proof (selected_range ScRest (t_idx (w_tab w) + 1) p q (t_recs (w_tab w))) as HR. fold l in HR.
  unfold continue_locate. rewrite Hg1.
  assert (py_nth (areas d1) i = Ok (Some (mkW (w_name w) (w_file w) t1 (Some (map (fun x => fst x - 1) l)) (w_found w) (w_seek w)))) as ->.
  { unfold ws_at in Hd1. destruct (py_nth (areas d1) i) as [[x|]|]; try discriminate. congruence. }
  cbn [w_locate]. destruct l as [|[m r] l']; cbn [map fst].
  - eexists. split; [reflexivity|]. split; [|split].
    + exists (w_seek w). rewrite (ws_at_put _ _ _ _ Hd1). reflexivity.
    + now rewrite (get_workarea_put _ _ _ _ _ Hd1).
    + now apply frame_put.
  - inversion_clear HR as [|? ? H1 HR']. cbn [fst] in H1. cbn [w_tab]. unfold t_goto, t_len, t1. cbn [t_recs].
    destruct (Z.ltb_spec (m - 1) (- zlen (t_recs (w_tab w)))); [lia|]. destruct (Z.leb_spec (zlen (t_recs (w_tab w))) (m - 1)); [lia|]. cbn [orb].
    destruct (Z.ltb_spec (m - 1) 0); [lia|]. eexists. split; [reflexivity|]. split; [|split].
    + exists (w_seek w). rewrite (ws_at_put _ _ _ _ Hd1). reflexivity.
    + now rewrite (get_workarea_put _ _ _ _ _ Hd1).
    + now apply frame_put.
Qed.

(** ** SCAN *)
(** A loop body that does not raise, leaves the work area selected, its record pointer and number of records alone and
    does not change records after the current one. *)
Definition tidy (a : Z) (body : db -> res unit * db) : Prop :=
  forall d w pre post, cur d = a -> ws_at d a = Ok w -> t_recs (w_tab w) = pre ++ post -> t_idx (w_tab w) = zlen pre - 1 ->
  exists d' w' pre', body d = (Ok tt, d') /\ cur d' = a /\ ws_at d' a = Ok w' /\
    t_recs (w_tab w') = pre' ++ post /\ zlen pre' = zlen pre /\ t_idx (w_tab w') = t_idx (w_tab w).
Lemma table_of_num d a w : cur d = a -> ws_at d a = Ok w -> table_of d (TNum a) = Ok (a, w).
Proof.
  intros Hc Hw. unfold table_of, get_workarea. replace (if a =? 0 then cur d else a) with a; [now rewrite Hw|].
  destruct (Z.eqb_spec a 0); congruence.
Qed.
Lemma recno_valid d w : ws_at d (cur d) = Ok w -> valid_tab (w_tab w) -> recno d = t_idx (w_tab w) + 1.
Proof.
  intros Hw V. unfold recno. rewrite Hw. unfold t_recno, valid_tab in *.
  destruct (Z.ltb_spec (t_idx (w_tab w)) 0); [lia|]. destruct (Z.leb_spec (t_len (w_tab w)) (t_idx (w_tab w))); lia.
Qed.
Lemma goto_num d a w n : cur d = a -> ws_at d a = Ok w -> 1 <= n <= t_len (w_tab w) ->
  goto d (TNum a) n = (Ok tt, put_tab d a w (mkT (t_recs (w_tab w)) (n - 1))).
Proof.
  intros Hc Hw Hn. unfold goto. rewrite (table_of_num _ _ _ Hc Hw). destruct (Z.ltb_spec 0 n); [|lia]. unfold t_goto.
  destruct (Z.ltb_spec (n - 1) (- t_len (w_tab w))); [lia|]. destruct (Z.leb_spec (t_len (w_tab w)) (n - 1)); [lia|]. cbn [orb].
  destruct (Z.ltb_spec (n - 1) 0); [lia|]. reflexivity.
Qed.
Section Scan.
  Context (a : Z) (c : cond_fn) (p : Z -> rec -> bool) (body : db -> res unit * db) (record : Z).
  Context (Hp : reads_record (Some c) p) (Hb : tidy a body).
  Lemma scan_loop_spec : forall post fuel pre d w tr, (length post < fuel)%nat ->
    cur d = a -> ws_at d a = Ok w -> t_recs (w_tab w) = pre ++ post -> t_idx (w_tab w) = zlen pre - 1 -> 0 < zlen pre ->
    1 <= record <= zlen (pre ++ post) ->
    exists d' w', scan_loop fuel a record c body d tr =
        Some (Ok tt, d', tr ++ map fst (filter (fun x => p (fst x) (snd x)) (number (zlen pre + 1) post))) /\
      cur d' = a /\ ws_at d' a = Ok w' /\ t_idx (w_tab w') = record - 1 /\ t_len (w_tab w') = zlen (pre ++ post).
  Proof.
    induction post as [|r post IH]; intros fuel pre d w tr Hf Hc Hw Hrs Hi Hpre Hrec; (destruct fuel as [|fuel]; [cbn in Hf; lia|]);
      cbn [scan_loop]; unfold eof; rewrite (table_of_num d a w Hc Hw); cbn [rmap rbind snd]; unfold t_eof, t_len; rewrite Hrs, Hi.
    - rewrite app_nil_r in *. destruct (Z.leb_spec (zlen pre) (zlen pre - 1 + 1)); [|lia].
      rewrite (goto_num d a w record Hc Hw) by (unfold t_len; now rewrite Hrs). cbn [number filter map]. rewrite app_nil_r.
      eexists. eexists. split; [reflexivity|]. split; [unfold put_tab; now rewrite put_ws_cur|].
      split; [unfold put_tab; now rewrite (ws_at_put _ _ _ _ Hw)|]. cbn. split; [reflexivity|]. unfold t_len. cbn. now rewrite Hrs.
    - pose proof (zlen_nonneg post) as Hpo. rewrite zlen_app, zlen_cons. destruct (Z.leb_spec (zlen pre + (1 + zlen post)) (zlen pre - 1 + 1)); [lia|].
      unfold skip. rewrite (table_of_num d a w Hc Hw). unfold t_skip, t_len. rewrite Hrs, Hi, zlen_app, zlen_cons.
      replace (Z.max (-1) (Z.min (zlen pre + (1 + zlen post)) (zlen pre - 1 + 1))) with (zlen pre) by lia.
      destruct (Z.ltb_spec (zlen pre) 0); [lia|]. destruct (Z.leb_spec (zlen pre + (1 + zlen post)) (zlen pre)); [lia|].
      unfold t_at. rewrite Hrs.
      set (d1 := put_tab d a w (mkT (pre ++ r :: post) (zlen pre))).
      assert (cur d1 = a) as Hc1 by (unfold d1, put_tab; now rewrite put_ws_cur).
      assert (ws_at d1 a = Ok (with_tab w (mkT (pre ++ r :: post) (zlen pre)))) as Hw1 by (unfold d1, put_tab; now rewrite (ws_at_put _ _ _ _ Hw)).
      pose proof (Hp d1 (with_tab w (mkT (pre ++ r :: post) (zlen pre))) r) as Hcond. rewrite Hc1 in Hcond.
      specialize (Hcond Hw1 (t_record_mid pre r post)). cbn [run_cond with_tab w_tab t_idx] in Hcond. rewrite Hcond.
      cbn [number filter fst snd].
      assert (recno d1 = zlen pre + 1) as Hrn.
      { rewrite (recno_valid d1 (with_tab w (mkT (pre ++ r :: post) (zlen pre)))); [reflexivity|now rewrite Hc1|].
        unfold valid_tab, t_len. cbn. rewrite zlen_app, zlen_cons. lia. }
      destruct (p (zlen pre + 1) r).
      + destruct (Hb d1 _ (pre ++ [r]) post Hc1 Hw1) as (d2 & w2 & pre2 & E2 & C2 & W2 & R2 & L2 & I2).
        * cbn. now rewrite <- app_assoc.
        * cbn. rewrite zlen_app. unfold zlen at 3. cbn. lia.
        * rewrite E2, Hrn.
          assert (zlen (pre ++ [r]) = zlen pre + 1) as Hp1 by (rewrite zlen_app; reflexivity).
          destruct (IH fuel pre2 d2 w2 (tr ++ [zlen pre + 1])) as (d' & w' & E' & C' & W' & I' & L'); auto.
          -- cbn in Hf. lia.
          -- rewrite I2. cbn. lia.
          -- lia.
          -- rewrite !zlen_app in *. rewrite zlen_cons in *. lia.
          -- exists d', w'. rewrite L2, Hp1 in E'. rewrite E'. split; [cbn [map fst]; rewrite <- app_assoc; reflexivity|].
             split; [exact C'|]. split; [exact W'|]. split; [exact I'|]. unfold t_len in L'. rewrite L', !zlen_app, L2, Hp1. lia.
      + destruct (IH fuel (pre ++ [r]) d1 (with_tab w (mkT (pre ++ r :: post) (zlen pre))) tr) as (d' & w' & E' & C' & W' & I' & L'); auto.
        * cbn in Hf. lia.
        * cbn. now rewrite <- app_assoc.
        * cbn. rewrite zlen_app. unfold zlen at 3. cbn. lia.
        * rewrite zlen_app. pose proof (zlen_nonneg [r]). lia.
        * rewrite <- app_assoc. exact Hrec.
        * exists d', w'. rewrite E'. rewrite zlen_app. cbn [zlen length]. split; [reflexivity|].
          split; [exact C'|]. split; [exact W'|]. split; [exact I'|]. unfold t_len in L'. rewrite L', <- app_assoc. cbn [app]. rewrite zlen_app, zlen_cons. lia.
  Qed.
End Scan.
Lemma scanner_spec d w c p sc body fuel : match sc with ScAll | ScRest => True | _ => False end ->
  reads_record (Some c) p -> tidy (cur d) body ->
  ws_at d (cur d) = Ok w -> 0 <= t_idx (w_tab w) < t_len (w_tab w) -> (length (t_recs (w_tab w)) < fuel)%nat ->
  exists d' w', scanner fuel d (Some c) sc body =
      Some (Ok tt, d', map fst (selected sc (t_idx (w_tab w) + 1) p (fun _ _ => true) (t_recs (w_tab w)))) /\
    cur d' = cur d /\ ws_at d' (cur d) = Ok w' /\ t_idx (w_tab w') = t_idx (w_tab w) /\ t_len (w_tab w') = t_len (w_tab w).
Proof.
  intros Hsc Hp Hb Hw Hi Hf. unfold scanner. rewrite (table_of_num d (cur d) w eq_refl Hw).
  assert (recno d = t_idx (w_tab w) + 1) as Hrn by (apply recno_valid; [exact Hw|unfold valid_tab; lia]). rewrite Hrn.
  set (rs := t_recs (w_tab w)) in *. set (idx := t_idx (w_tab w)) in *. set (s := start_of sc idx).
  assert (0 <= s < zlen rs) as Hs by (unfold s, t_len in *; destruct sc; cbn; try contradiction; fold rs in Hi; lia).
  set (d1 := put_tab d (cur d) w (mkT rs s)).
  replace (match sc with ScAll => goto d (TNum (cur d)) 0 | _ => (Ok tt, d) end) with (@Ok unit tt, d1).
  2: { destruct sc; try contradiction.
       - unfold goto. rewrite (table_of_num d (cur d) w eq_refl Hw). cbn [Z.ltb Z.compare]. unfold t_goto.
         destruct (Z.ltb_spec 0 (- t_len (w_tab w))); [lia|]. destruct (Z.leb_spec (t_len (w_tab w)) 0); [lia|]. reflexivity.
       - unfold d1, s. cbn [start_of]. unfold rs, idx. f_equal. unfold put_tab. replace (mkT _ _) with (w_tab w) by now destruct (w_tab w).
         rewrite with_tab_same. now apply put_ws_same. }
  destruct (Z.ltb_spec 0 (t_len (w_tab w))); [|lia].
  destruct (split_at rs s Hs) as (pre & r & post & Hrs & Hpre).
  assert (cur d1 = cur d) as Hc1 by (unfold d1, put_tab; now rewrite put_ws_cur).
  assert (ws_at d1 (cur d) = Ok (with_tab w (mkT (pre ++ r :: post) (zlen pre)))) as Hw1.
  { unfold d1, put_tab. rewrite (ws_at_put _ _ _ _ Hw). now rewrite <- Hrs, Hpre. }
  pose proof (Hp d1 (with_tab w (mkT (pre ++ r :: post) (zlen pre))) r) as Hcond. rewrite Hc1 in Hcond.
  specialize (Hcond Hw1 (t_record_mid pre r post)). cbn [run_cond with_tab w_tab t_idx] in Hcond. rewrite Hcond.
  rewrite Hrs. rewrite (selected_sel sc idx p (fun _ _ => true) pre r post) by (symmetry; exact Hpre || exact Hpre).
  assert (sel p (fun _ _ => true) (cc_of sc (idx + 1)) (zlen pre + 1) (r :: post) = filter (fun x => p (fst x) (snd x)) (number (zlen pre + 1) (r :: post))) as ->.
  { unfold sel. f_equal. rewrite <- (take_while_true (number (zlen pre + 1) (r :: post))) at 2. apply take_while_ext.
    intros x _. unfold cc_of. destruct sc; try contradiction; reflexivity. }
  assert (zlen (pre ++ [r]) = zlen pre + 1) as Hp1 by (rewrite zlen_app; reflexivity).
  assert (recno d1 = zlen pre + 1) as Hrn1.
  { rewrite (recno_valid d1 (with_tab w (mkT (pre ++ r :: post) (zlen pre)))); [reflexivity|now rewrite Hc1|].
    unfold valid_tab, t_len. cbn. rewrite zlen_app, zlen_cons. pose proof (zlen_nonneg pre). pose proof (zlen_nonneg post). lia. }
  assert (t_len (w_tab w) = zlen (pre ++ r :: post)) as Hlen by (unfold t_len; fold rs; now rewrite Hrs).
  assert (length post < fuel)%nat as Hf' by (rewrite Hrs, app_length in Hf; cbn in Hf; lia).
  cbn [number filter fst snd]. pose proof (zlen_nonneg pre) as Hpn.
  destruct (p (zlen pre + 1) r).
  - destruct (Hb d1 _ (pre ++ [r]) post Hc1 Hw1) as (d2 & w2 & pre2 & E2 & C2 & W2 & R2 & L2 & I2).
    + cbn. now rewrite <- app_assoc.
    + cbn. lia.
    + rewrite E2, Hrn1. destruct (scan_loop_spec (cur d) c p body (idx + 1) Hp Hb post fuel pre2 d2 w2 [zlen pre + 1]) as (d' & w' & E' & C' & W' & I' & L'); auto.
      * rewrite I2. cbn. lia.
      * lia.
      * rewrite zlen_app, L2, Hp1. rewrite Hlen, zlen_app, zlen_cons in Hi. lia.
      * exists d', w'. rewrite L2, Hp1 in E'. rewrite E'. split; [reflexivity|]. split; [exact C'|]. split; [exact W'|]. split; [lia|].
        rewrite L', Hlen, !zlen_app, L2, Hp1, zlen_cons. lia.
  - destruct (scan_loop_spec (cur d) c p body (idx + 1) Hp Hb post fuel (pre ++ [r]) d1 (with_tab w (mkT (pre ++ r :: post) (zlen pre))) []) as (d' & w' & E' & C' & W' & I' & L'); auto.
    + cbn. now rewrite <- app_assoc.
    + cbn. lia.
    + lia.
    + rewrite <- app_assoc. cbn [app]. rewrite <- Hlen. lia.
    + exists d', w'. rewrite Hp1 in E'. rewrite E'. split; [reflexivity|]. split; [exact C'|]. split; [exact W'|]. split; [lia|].
      rewrite L', Hlen, <- app_assoc. reflexivity.
Qed.
