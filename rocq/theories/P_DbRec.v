(** Scoped commands against the rules in S_Db.v *)
From Verif Require Import PyBase PyStr M_Strings P_Strings M_Db S_Db P_Db.
Open Scope Z_scope.

(** ** Lists *)
Lemma number_app a b n : number n (a ++ b) = number n a ++ number (n + zlen a) b.
Proof.
  revert n; induction a as [|x a IH]; intros n; cbn [app number]; [cbn; now rewrite Z.add_0_r|].
  rewrite IH, zlen_cons. do 2 f_equal. f_equal. lia.
Qed.
Lemma number_in n rs m r : In (m, r) (number n rs) -> n <= m < n + zlen rs.
Proof.
  revert n; induction rs as [|x rs IH]; intros n; cbn [number]; [intros []|]. rewrite zlen_cons. intros [[= <- _]|H].
  - pose proof (zlen_nonneg rs). lia.
  - apply IH in H. lia.
Qed.
Lemma number_in_nth n rs m r : In (m, r) (number n rs) <-> n <= m /\ nth_error rs (Z.to_nat (m - n)) = Some r.
Proof.
  revert n; induction rs as [|x rs IH]; intros n; cbn [number In].
  - split; [intros []|intros [_ H]; now destruct (Z.to_nat (m - n))].
  - rewrite IH. split.
    + intros [[= <- <-]|[H1 H2]]; [split; [lia|]; now rewrite Z.sub_diag|].
      split; [lia|]. replace (Z.to_nat (m - n)) with (S (Z.to_nat (m - (n + 1)))) by lia. exact H2.
    + intros [H1 H2]. destruct (Z.eq_dec m n) as [->|Hne].
      * left. rewrite Z.sub_diag in H2. cbn in H2. congruence.
      * right. split; [lia|]. replace (Z.to_nat (m - n)) with (S (Z.to_nat (m - (n + 1)))) in H2 by lia. exact H2.
Qed.
Lemma number_snd n rs : map snd (number n rs) = rs.
Proof. revert n; induction rs as [|r rs IH]; intros n; cbn; [reflexivity|now rewrite IH]. Qed.
Lemma take_while_in {A} (q : A -> bool) l x : In x (take_while q l) -> In x l.
Proof. induction l as [|y l IH]; cbn; [auto|]. destruct (q y); [intros [->|H]; auto|intros []]. Qed.
Lemma take_while_and {A} (q1 q2 : A -> bool) l : take_while (fun x => q1 x && q2 x) l = take_while q2 (take_while q1 l).
Proof. induction l as [|x l IH]; cbn; [reflexivity|]. destruct (q1 x); cbn; [destruct (q2 x); [now rewrite IH|reflexivity]|reflexivity]. Qed.
Lemma take_while_ext {A} (q1 q2 : A -> bool) l : (forall x, In x l -> q1 x = q2 x) -> take_while q1 l = take_while q2 l.
Proof.
  induction l as [|x l IH]; intros H; cbn; [reflexivity|]. rewrite (H x) by now left. destruct (q2 x); [|reflexivity].
  f_equal. apply IH. intros y Hy. apply H. now right.
Qed.
Lemma take_while_true {A} (l : list A) : take_while (fun _ => true) l = l.
Proof. induction l as [|x l IH]; cbn; congruence. Qed.
Lemma filter_none {A} (p : A -> bool) l : (forall x, In x l -> p x = false) -> filter p l = [].
Proof. induction l as [|x l IH]; intros H; cbn; [reflexivity|]. rewrite H by now left. apply IH. intros y Hy; apply H; now right. Qed.
Lemma filter_all {A} (p : A -> bool) l : (forall x, In x l -> p x = true) -> filter p l = l.
Proof. induction l as [|x l IH]; intros H; cbn; [reflexivity|]. rewrite H by now left. f_equal. apply IH. intros y Hy; apply H; now right. Qed.
(** on increasing numbers, a downward closed filter is a take_while *)
Lemma filter_below n rs b : filter (fun x : Z * rec => fst x <? b) (number n rs) = take_while (fun x => fst x <? b) (number n rs).
Proof.
  revert n; induction rs as [|r rs IH]; intros n; cbn [number filter take_while fst]; [reflexivity|].
  destruct (Z.ltb_spec n b); [now rewrite IH|]. apply filter_none. intros [m r'] Hin. apply number_in in Hin. cbn. apply Z.ltb_ge. lia.
Qed.
Lemma filter_eq_take n rs k : n = k \/ rs = [] ->
  filter (fun x : Z * rec => fst x =? k) (number n rs) = take_while (fun x => fst x =? k) (number n rs).
Proof.
  destruct rs as [|r rs]; [reflexivity|]. intros [->|[=]]. cbn [number filter take_while fst]. rewrite Z.eqb_refl. f_equal.
  destruct rs as [|r' rs]; [reflexivity|]. cbn [number filter take_while fst]. destruct (Z.eqb_spec (k + 1) k); [lia|].
  apply filter_none. intros [m r''] Hin. apply number_in in Hin. cbn. apply Z.eqb_neq. lia.
Qed.

Section Loop.
  Context {A : Type} (Q : rec -> Prop) (f : rec -> rec) (g : Z -> rec -> A).
  Context (p q : Z -> rec -> bool) (fc wc : option cond_fn) (body : Z -> Z -> db -> res A * db).
  Definition does_on : Prop := forall d w r, ws_at d (cur d) = Ok w -> t_record (w_tab w) = Some r -> Q r ->
    body (cur d) (t_idx (w_tab w)) d = (Ok (g (t_idx (w_tab w) + 1) r), put_tab d (cur d) w (t_update (w_tab w) (t_idx (w_tab w)) f)).
  Context (Hp : reads_record fc p) (Hq : reads_record wc q) (Hb : does_on).
  Context (cc : Z -> bool).
  Fixpoint proc (n : Z) (post : list rec) : list rec :=
    match post with
    | [] => []
    | r :: post' => if cc n && q n r then (if p n r then f r else r) :: proc (n + 1) post' else r :: post'
    end.
  Definition sel (n : Z) (post : list rec) : list (Z * rec) :=
    filter (fun x => p (fst x) (snd x)) (take_while (fun x => cc (fst x) && q (fst x) (snd x)) (number n post)).
  Lemma sel_cons n r post : sel n (r :: post) = if cc n && q n r then (if p n r then [(n, r)] else []) ++ sel (n + 1) post else [].
  Proof.
    unfold sel. cbn [number take_while fst snd]. destruct (cc n && q n r); [|reflexivity]. cbn [filter fst snd].
    destruct (p n r); reflexivity.
  Qed.
  Lemma sel_in n post m r : In (m, r) (sel n post) -> n <= m < n + zlen post.
  Proof. unfold sel. intros H. apply filter_In in H. destruct H as [H _]. apply take_while_in in H. now apply number_in in H. Qed.
  Lemma existsb_sel_false n post m : m < n -> existsb (Z.eqb m) (map fst (sel n post)) = false.
  Proof.
    intros H. apply not_true_iff_false. intros E. apply existsb_exists in E. destruct E as (x & Hin & Ex).
    apply in_map_iff in Hin. destruct Hin as ([m' r] & <- & Hin). apply sel_in in Hin. cbn in Ex. apply Z.eqb_eq in Ex. lia.
  Qed.
  Lemma proc_touch n post :
    proc n post = map (fun x => if existsb (Z.eqb (fst x)) (map fst (sel n post)) then f (snd x) else snd x) (number n post).
  Proof.
    revert n; induction post as [|r post IH]; intros n; [reflexivity|]. cbn [proc]. rewrite sel_cons.
    destruct (cc n && q n r).
    - cbn [number map fst snd]. f_equal.
      + destruct (p n r); cbn [app map existsb fst]; [now rewrite Z.eqb_refl|now rewrite existsb_sel_false by lia].
      + rewrite IH. apply map_ext_in. intros [m r'] Hin. apply number_in in Hin. cbn [fst snd].
        destruct (p n r); [|reflexivity]. cbn [app map existsb fst]. destruct (Z.eqb_spec m n); [lia|reflexivity].
    - cbn [number map existsb fst snd]. f_equal. symmetry. rewrite <- (number_snd (n + 1) post) at 2. apply map_ext. now intros [m r'].
  Qed.
  Lemma t_record_mid pre r post : t_record (mkT (pre ++ r :: post) (zlen pre)) = Some r.
  Proof.
    unfold t_record, t_len. cbn [t_idx t_recs]. rewrite zlen_app, zlen_cons. pose proof (zlen_nonneg pre). pose proof (zlen_nonneg post).
    destruct (Z.ltb_spec (zlen pre) 0); [lia|]. destruct (Z.leb_spec (zlen pre + (1 + zlen post)) (zlen pre)); [lia|]. cbn [orb].
    unfold zlen. rewrite Nat2Z.id, nth_error_app2, Nat.sub_diag by lia. reflexivity.
  Qed.
  Lemma list_upd_mid {B} (pre : list B) r post x : list_upd (pre ++ r :: post) (length pre) x = pre ++ x :: post.
  Proof. induction pre as [|y pre IH]; cbn; [reflexivity|now rewrite IH]. Qed.
  Lemma t_update_mid pre r post : t_update (mkT (pre ++ r :: post) (zlen pre)) (zlen pre) f = mkT (pre ++ f r :: post) (zlen pre).
  Proof.
    unfold t_update. cbn [t_recs t_idx]. unfold zlen. rewrite Nat2Z.id, nth_error_app2, Nat.sub_diag by lia. cbn [nth_error].
    now rewrite list_upd_mid.
  Qed.
  Context (L : Z) (c : table -> bool).
  Context (HC : forall rs j, zlen rs = L -> 0 <= j < L -> c (mkT rs j) = cc (j + 1)).
  Lemma rec_loop_spec fuel : forall post pre r acc d w,
    ws_at d (cur d) = Ok (with_tab w (mkT (pre ++ r :: post) (zlen pre))) -> zlen (pre ++ r :: post) = L -> (length post < fuel)%nat -> Forall Q (r :: post) ->
    exists j, rec_loop fuel (cur d) c fc wc body acc d =
      (Ok (acc ++ map (fun x => g (fst x) (snd x)) (sel (zlen pre + 1) (r :: post))),
       put_tab d (cur d) w (mkT (pre ++ proc (zlen pre + 1) (r :: post)) j)).
  Proof.
    induction fuel as [|k IH]; intros post pre r acc d w Hw HL Hf HQ; [lia|]. inversion_clear HQ as [|? ? HQr HQp]. cbn [rec_loop]. rewrite Hw. rewrite with_tab_tab.
    assert (zlen pre < L) as Hlt by (rewrite <- HL, zlen_app, zlen_cons; pose proof (zlen_nonneg post); lia).
    rewrite HC by (try exact HL; pose proof (zlen_nonneg pre); lia).
    rewrite sel_cons. cbn [proc].
    assert (put_tab d (cur d) w (mkT (pre ++ r :: post) (zlen pre)) = d) as Hsame by (now apply put_ws_same).
    destruct (cc (zlen pre + 1)) eqn:Ec; cbn [negb andb].
    2: { exists (zlen pre). cbn [map]. rewrite app_nil_r. now rewrite Hsame. }
    pose proof (t_record_mid pre r post) as Hr.
    specialize (Hq d _ r Hw Hr). rewrite with_tab_tab in Hq. cbn [t_idx] in Hq. rewrite Hq.
    destruct (q (zlen pre + 1) r) eqn:Eq.
    2: { exists (zlen pre). cbn [map]. rewrite app_nil_r. now rewrite Hsame. }
    specialize (Hp d _ r Hw Hr). rewrite with_tab_tab in Hp. cbn [t_idx] in Hp. rewrite Hp.
    assert (forall (x : list A) r', exists j,
      match ws_at (put_tab d (cur d) w (mkT (pre ++ r' :: post) (zlen pre))) (cur d) with
                        | Err e => (Err e, put_tab d (cur d) w (mkT (pre ++ r' :: post) (zlen pre)))
                        | Ok w1 =>
                            let '(sr, t2) := t_skip (w_tab w1) 1 in
                            let d2 := put_tab (put_tab d (cur d) w (mkT (pre ++ r' :: post) (zlen pre))) (cur d) w1 t2 in
                            match sr with
                            | Err _ => (Ok (acc ++ x), d2)
                            | Ok _ => rec_loop k (cur d) c fc wc body (acc ++ x) d2
                            end
                        end =
      (Ok (acc ++ x ++ map (fun x => g (fst x) (snd x)) (sel (zlen pre + 1 + 1) post)),
       put_tab d (cur d) w (mkT (pre ++ r' :: proc (zlen pre + 1 + 1) post) j))) as HN.
    { intros x r'. unfold put_tab at 1. rewrite (ws_at_put _ _ _ _ Hw). rewrite with_tab_tab.
      unfold t_skip. cbn [t_idx]. unfold t_len. cbn [t_recs]. rewrite zlen_app, zlen_cons.
      pose proof (zlen_nonneg pre). pose proof (zlen_nonneg post).
      replace (Z.max (-1) (Z.min (zlen pre + (1 + zlen post)) (zlen pre + 1))) with (zlen pre + 1) by lia.
      destruct (Z.ltb_spec (zlen pre + 1) 0); [lia|].
      cbv zeta. unfold put_tab. rewrite with_tab_twice, put_ws_twice. unfold t_at. cbn [t_recs].
      destruct post as [|r2 post].
      - destruct (Z.leb_spec (zlen pre + (1 + zlen (@nil rec))) (zlen pre + 1)) as [|Hbad]; [|unfold zlen in Hbad; cbn in Hbad; lia].
        exists (zlen pre + 1). cbn [sel number take_while filter map proc]. now rewrite app_nil_r.
      - destruct (Z.leb_spec (zlen pre + (1 + zlen (r2 :: post))) (zlen pre + 1)) as [Hbad|]; [rewrite zlen_cons in Hbad; pose proof (zlen_nonneg post); lia|].
        set (d2 := put_ws d (cur d) (with_tab w (mkT (pre ++ r' :: r2 :: post) (zlen pre + 1)))).
        assert (cur d2 = cur d) as Hc by apply put_ws_cur.
        destruct (IH post (pre ++ [r']) r2 (acc ++ x) d2 w) as [j Hj].
        + rewrite Hc. unfold d2. rewrite (ws_at_put _ _ _ _ Hw), zlen_app, <- app_assoc. reflexivity.
        + rewrite <- app_assoc. cbn [app]. rewrite <- HL, !zlen_app, !zlen_cons. reflexivity.
        + cbn [length] in Hf. lia.
        + exact HQp.
        + exists j. rewrite Hc in Hj. rewrite Hj, zlen_app, <- !app_assoc. f_equal. unfold d2, put_tab. now rewrite put_ws_twice. }
    destruct (p (zlen pre + 1) r) eqn:Ep.
    - cbn [t_idx]. pose proof (Hb d _ r Hw Hr HQr) as Hbd. rewrite with_tab_tab in Hbd. cbn [t_idx] in Hbd. rewrite Hbd. cbn [rmap rbind].
      rewrite t_update_mid. unfold put_tab at 1 2. rewrite with_tab_twice.
      fold (put_tab d (cur d) w (mkT (pre ++ f r :: post) (zlen pre))).
      destruct (HN [g (zlen pre + 1) r] (f r)) as [j Hj]. exists j. exact Hj.
    - destruct (HN [] r) as [j Hj]. rewrite Hsame in Hj. exists j. exact Hj.
  Qed.
End Loop.

(** ** get_records *)
Definition scope_ok (sc : scope) (idx len : Z) : Prop :=
  match sc with ScNext k => idx + k <= len + 1 \/ idx = len | ScRecord k => 1 <= k <= len | _ => True end.
Definition after (sc : scope) (idx len : Z) : Z :=
  if len =? 0 then idx else
  match sc with
  | ScAll | ScRest => len
  | ScNext k => if idx =? len then idx else Z.max (-1) (idx + k - 1)
  | ScRecord k => k - 1
  end.
Lemma split_at {A} (l : list A) s : 0 <= s < zlen l -> exists pre r post, l = pre ++ r :: post /\ zlen pre = s.
Proof.
  intros H. unfold zlen in *. destruct (nth_error l (Z.to_nat s)) as [r|] eqn:E.
  - apply nth_error_split in E. destruct E as (pre & post & -> & Hl). exists pre, r, post. split; [reflexivity|lia].
  - apply nth_error_None in E. lia.
Qed.
Definition cc_of (sc : scope) (here : Z) (n : Z) : bool :=
  match sc with ScNext k => n <? here + k | ScRecord k => n =? k | _ => true end.
Definition start_of (sc : scope) (idx : Z) : Z := match sc with ScAll => 0 | ScRecord k => k - 1 | _ => idx end.
Lemma window sc idx pre r post : start_of sc idx = zlen pre ->
  filter (fun x => in_scope sc (idx + 1) (fst x)) (number 1 (pre ++ r :: post)) =
  take_while (fun x => cc_of sc (idx + 1) (fst x)) (number (zlen pre + 1) (r :: post)).
Proof.
  intros Hs. rewrite number_app, filter_app. replace (1 + zlen pre) with (zlen pre + 1) by lia. destruct sc; cbn [start_of in_scope cc_of] in *.
  - rewrite filter_all by auto. destruct pre; [|exfalso; rewrite zlen_cons in Hs; pose proof (zlen_nonneg pre); lia].
    cbn [number filter app]. now rewrite (filter_all _ (number _ _)), take_while_true by auto.
  - subst idx. rewrite (filter_none _ (number 1 pre)).
    + rewrite filter_all, take_while_true; [reflexivity|]. intros [m r'] Hin. apply number_in in Hin. cbn. apply Z.leb_le. lia.
    + intros [m r'] Hin. apply number_in in Hin. cbn. apply Z.leb_gt. lia.
  - subst idx. rewrite (filter_none _ (number 1 pre)).
    + cbn [app]. rewrite <- filter_below. apply filter_ext_in. intros [m r'] Hin. apply number_in in Hin. cbn [fst].
      destruct (Z.leb_spec (zlen pre + 1) m); [reflexivity|lia].
    + intros [m r'] Hin. apply number_in in Hin. cbn. destruct (Z.leb_spec (zlen pre + 1) m); [lia|reflexivity].
  - rewrite (filter_none _ (number 1 pre)).
    + cbn [app]. apply filter_eq_take. left. lia.
    + intros [m r'] Hin. apply number_in in Hin. cbn. apply Z.eqb_neq. lia.
Qed.
Lemma selected_sel sc idx p q pre r post : start_of sc idx = zlen pre ->
  selected sc (idx + 1) p q (pre ++ r :: post) = sel p q (cc_of sc (idx + 1)) (zlen pre + 1) (r :: post).
Proof.
  intros Hs. unfold selected, sel. rewrite (window sc idx pre r post Hs). f_equal.
  rewrite <- take_while_and. reflexivity.
Qed.
Lemma touch_split f p q cc pre r post :
  touch f (sel p q cc (zlen pre + 1) (r :: post)) (pre ++ r :: post) = pre ++ proc f p q cc (zlen pre + 1) (r :: post).
Proof.
  unfold touch. rewrite number_app, map_app. f_equal.
  - transitivity (map snd (number 1 pre)); [|apply number_snd]. apply map_ext_in. intros [m r'] Hin. apply number_in in Hin.
    cbn [fst snd]. now rewrite existsb_sel_false by lia.
  - rewrite proc_touch. replace (1 + zlen pre) with (zlen pre + 1) by lia. reflexivity.
Qed.
Lemma touch_nil f rs : touch f [] rs = rs.
Proof. unfold touch. cbn [map existsb]. rewrite <- (number_snd 1 rs) at 2. apply map_ext. now intros [m r]. Qed.
Lemma selected_empty sc here p q : selected sc here p q [] = []. Proof. reflexivity. Qed.
Lemma selected_past sc idx p q rs : idx = zlen rs -> match sc with ScRest | ScNext _ => True | _ => False end ->
  selected sc (idx + 1) p q rs = [].
Proof.
  intros -> H. unfold selected. rewrite (filter_none (fun x => in_scope sc (zlen rs + 1) (fst x))); [reflexivity|]. intros [m r] Hin. apply number_in in Hin.
  destruct sc; try contradiction; cbn; destruct (Z.leb_spec (zlen rs + 1) m); try reflexivity; lia.
Qed.
Lemma t_record_some t : 0 <= t_idx t < t_len t -> exists r, t_record t = Some r.
Proof.
  intros H. unfold t_record. destruct (Z.ltb_spec (t_idx t) 0); [lia|]. destruct (Z.leb_spec (t_len t) (t_idx t)); [lia|]. cbn [orb].
  destruct (nth_error _ _) eqn:E; [eauto|]. apply nth_error_None in E. unfold t_len, zlen in *. lia.
Qed.
Lemma proc_length f p q cc n post : length (proc f p q cc n post) = length post.
Proof. revert n; induction post as [|r post IH]; intros n; cbn; [reflexivity|]. destruct (_ && _); cbn; now rewrite ?IH. Qed.

Lemma get_records_spec {A} d tn sc fc wc (body : Z -> Z -> db -> res A * db) Q p q f g i w rs idx :
  reads_record fc p -> reads_record wc q -> does_on Q f g body -> Forall Q rs ->
  get_workarea d tn = Ok i -> ws_at d i = Ok w -> w_tab w = mkT rs idx ->
  rs = [] \/ 0 <= idx <= zlen rs -> rs = [] \/ scope_ok sc idx (zlen rs) ->
  get_records d tn sc fc wc body =
    (Ok (map (fun x => g (fst x) (snd x)) (selected sc (idx + 1) p q rs)),
     mkDb (areas (put_tab d i w (mkT (touch f (selected sc (idx + 1) p q rs) rs) (after sc idx (zlen rs))))) (cur d)).
Proof.
  intros Hp Hq Hb HQ Hg Hw Ht Hi Hok. unfold get_records, select. rewrite Hg. set (d0 := mkDb (areas d) i).
  assert (ws_at d0 i = Ok w) as Hw0 by exact Hw.
  unfold table_of. cbn [get_workarea]. change (cur d0) with i. rewrite Hw0. cbv beta iota zeta.
  rewrite Ht. unfold t_len at 1. cbn [t_recs].
  assert (put_tab d i w (mkT rs idx) = d) as Hsame by (unfold put_tab; rewrite <- Ht, with_tab_same; now apply put_ws_same).
  destruct (Z.eqb_spec (zlen rs) 0) as [E0|E0].
  { assert (rs = []) as -> by (destruct rs; [reflexivity|rewrite zlen_cons in E0; pose proof (zlen_nonneg rs); lia]).
    rewrite selected_empty, touch_nil. cbn [map]. unfold after. rewrite Z.eqb_refl, Hsame. reflexivity. }
  destruct Hi as [->|Hi]; [cbn in E0; lia|]. destruct Hok as [->|Hok]; [cbn in E0; lia|].
  pose proof (zlen_nonneg rs) as Hlen.
  set (s := start_of sc idx).
  replace (match sc with ScAll => t_goto (mkT rs idx) 0 | ScRecord n => t_goto (mkT rs idx) (n - 1) | _ => Ok (mkT rs idx) end)
    with (Ok (mkT rs s)).
  2: { unfold t_goto, t_len. cbn [t_recs]. destruct sc; cbn [start_of] in s; unfold s; try reflexivity.
       - destruct (Z.ltb_spec 0 (- zlen rs)); [lia|]. destruct (Z.leb_spec (zlen rs) 0); [lia|]. reflexivity.
       - cbn in Hok. destruct (Z.ltb_spec (n - 1) (- zlen rs)); [lia|]. destruct (Z.leb_spec (zlen rs) (n - 1)); [lia|].
         cbn [orb]. destruct (Z.ltb_spec (n - 1) 0); [lia|]. reflexivity. }
  destruct (Z.eq_dec s (zlen rs)) as [Es|Es].
  - (* at end of file *)
    assert (t_record (mkT rs s) = None) as ->.
    { unfold t_record, t_len. cbn [t_idx t_recs]. destruct (Z.leb_spec (zlen rs) s); [now rewrite orb_true_r|lia]. }
    assert (s = idx /\ match sc with ScRest | ScNext _ => True | _ => False end) as [Hsi Hsc].
    { unfold s in *. destruct sc; cbn in *; try (split; [reflexivity|exact I]); lia. }
    rewrite selected_past by (try exact Hsc; lia). rewrite touch_nil. cbn [map].
    f_equal. unfold after. destruct (Z.eqb_spec (zlen rs) 0); [lia|].
    assert (match sc with ScAll | ScRest => zlen rs | ScNext k => if idx =? zlen rs then idx else Z.max (-1) (idx + k - 1) | ScRecord k => k - 1 end = idx) as ->.
    { destruct sc; try contradiction; [lia|]. destruct (Z.eqb_spec idx (zlen rs)); [reflexivity|lia]. }
    rewrite Hsame. unfold put_tab. rewrite put_ws_slot. cbn [areas].
    unfold put_tab in Hsame. rewrite put_ws_slot in Hsame. rewrite Hsi. change (areas d0) with (areas d).
    destruct (slot _ _); [|reflexivity]. apply (f_equal areas) in Hsame. cbn [areas] in Hsame |- *. now rewrite Hsame.
  - assert (0 <= s < zlen rs) as Hs.
    { unfold s in *. destruct sc; cbn in *; lia. }
    destruct (t_record_some (mkT rs s)) as [r0 Hr0]; [exact Hs|]. rewrite Hr0.
    destruct (split_at rs s Hs) as (pre & r & post & -> & Hpre).
    set (c := fun t => match sc with ScRecord n => t_current t =? n - 1 | ScNext _ => t_current t <? _ | _ => _ end).
    set (d1 := put_tab d0 i w (mkT (pre ++ r :: post) s)).
    assert (cur d1 = i) as Hc1 by (unfold d1, put_tab; now rewrite put_ws_cur).
    assert (forall rs' j, zlen rs' = zlen (pre ++ r :: post) -> 0 <= j < zlen (pre ++ r :: post) ->
              c (mkT rs' j) = cc_of sc (idx + 1) (j + 1)) as HC.
    { intros rs' j Hl Hj. unfold c, cc_of, t_current. cbn [t_idx].
      destruct (t_record_some (mkT rs' j)) as [rr Hrr]; [unfold t_len; cbn; lia|]. unfold s, start_of.
      destruct sc; rewrite ?Hrr; try reflexivity.
      - destruct (Z.ltb_spec j (idx + n)), (Z.ltb_spec (j + 1) (idx + 1 + n)); try reflexivity; lia.
      - destruct (Z.eqb_spec j (n - 1)), (Z.eqb_spec (j + 1) n); try reflexivity; lia. }
    destruct (rec_loop_spec Q f g p q fc wc body Hp Hq Hb (cc_of sc (idx + 1)) _ c HC (records_fuel (mkT (pre ++ r :: post) s)) post pre r [] d1 w) as [j Hj].
    + rewrite Hc1. unfold d1, put_tab. rewrite (ws_at_put _ _ _ _ Hw0). now rewrite Hpre.
    + reflexivity.
    + unfold records_fuel. cbn [t_recs]. rewrite app_length. cbn. lia.
    + now apply Forall_app in HQ.
    + rewrite Hc1 in Hj. rewrite Hj. cbn [app].
      rewrite (selected_sel sc idx p q pre r post) by (symmetry; exact Hpre || exact Hpre).
      unfold put_tab at 1. unfold d1 at 1, put_tab at 1. rewrite put_ws_twice, (ws_at_put _ _ _ _ Hw0), with_tab_tab.
      set (rs2 := pre ++ proc f p q (cc_of sc (idx + 1)) (zlen pre + 1) (r :: post)).
      assert (zlen rs2 = zlen (pre ++ r :: post)) as Hl2.
      { unfold rs2, zlen. rewrite !app_length, proc_length. reflexivity. }
      set (res2 := match sc with ScAll | ScRest => Ok _ | _ => _ end).
      assert (res2 = Ok (mkT rs2 (after sc idx (zlen (pre ++ r :: post))))) as ->.
      { unfold res2, after. destruct (Z.eqb_spec (zlen (pre ++ r :: post)) 0); [lia|].
        unfold reset, t_bottom, t_top, t_at, t_len, t_current, t_goto. cbn [t_recs t_idx]. rewrite Hl2. unfold t_len. cbn [t_recs]. rewrite Hl2.
        destruct sc as [| |k|k]; try reflexivity.
        - cbn in s. cbn in Hok. destruct (Z.eqb_spec idx (zlen (pre ++ r :: post))); [unfold s in Hs; lia|].
          destruct (Z.ltb_spec (idx + k - 1) 0); [f_equal; f_equal; lia|].
          destruct (Z.eqb_spec (idx + k - 1) (zlen (pre ++ r :: post))); [f_equal; f_equal; lia|].
          destruct (Z.ltb_spec (idx + k - 1) (- zlen (pre ++ r :: post))); [lia|].
          destruct (Z.leb_spec (zlen (pre ++ r :: post)) (idx + k - 1)); [lia|]. cbn [orb].
          unfold t_at. cbn [t_recs]. f_equal. f_equal. lia.
        - cbn in s, Hok. destruct (Z.ltb_spec (k - 1) 0); [lia|]. destruct (Z.eqb_spec (k - 1) (zlen (pre ++ r :: post))); [lia|].
          destruct (Z.ltb_spec (k - 1) (- zlen (pre ++ r :: post))); [lia|].
          destruct (Z.leb_spec (zlen (pre ++ r :: post)) (k - 1)); [lia|]. cbn [orb]. reflexivity. }
      rewrite touch_split. fold rs2.
      unfold d1, put_tab. rewrite !put_ws_twice, !with_tab_twice. f_equal.
      rewrite !put_ws_slot. change (areas d0) with (areas d). destruct (slot _ _); reflexivity.
Qed.

(** ** The commands *)
Lemma t_update_id t i : t_update t i (fun r => r) = t.
Proof. unfold t_update. destruct (nth_error _ _) eqn:E; [|reflexivity]. rewrite list_upd_same by exact E. now destruct t. Qed.
Lemma put_same d a w : ws_at d a = Ok w -> put_tab d a w (w_tab w) = d.
Proof. intros H. unfold put_tab. rewrite with_tab_same. now apply put_ws_same. Qed.
Lemma touch_id sel rs : touch (fun r => r) sel rs = rs.
Proof. unfold touch. transitivity (map snd (number 1 rs)); [|apply number_snd]. apply map_ext. intros [m r]. cbn. now destruct (existsb _ _). Qed.
Definition anyrec (r : rec) : Prop := True.
Lemma any_all rs : Forall anyrec rs. Proof. apply Forall_forall. intros; exact I. Qed.
Definition ready (d : db) (tn : tref) (i : Z) (w : ws) (sc : scope) : Prop :=
  get_workarea d tn = Ok i /\ ws_at d i = Ok w /\
  (t_recs (w_tab w) = [] \/ (0 <= t_idx (w_tab w) <= t_len (w_tab w) /\ scope_ok sc (t_idx (w_tab w)) (t_len (w_tab w)))).
Section Commands.
  Context d tn i w sc fc wc p q (R : ready d tn i w sc) (Hp : reads_record fc p) (Hq : reads_record wc q).
  Let rs := t_recs (w_tab w).
  Let idx := t_idx (w_tab w).
  Let chosen := selected sc (idx + 1) p q rs.
  Let final (f : rec -> rec) := mkDb (areas (put_tab d i w (mkT (touch f chosen rs) (after sc idx (zlen rs))))) (cur d).
  Lemma run_records {A} Q f g (body : Z -> Z -> db -> res A * db) : does_on Q f g body -> Forall Q rs ->
    get_records d tn sc fc wc body = (Ok (map (fun x => g (fst x) (snd x)) chosen), final f).
  Proof.
    intros Hb HQ. destruct R as (Hg & Hw & Hr). unfold final, chosen.
    apply (get_records_spec d tn sc fc wc body Q p q f g i w rs idx); auto.
    - unfold rs, idx. now destruct (w_tab w).
    - destruct Hr as [Hr|[Hr _]]; [now left|right; exact Hr].
    - destruct Hr as [Hr|[_ Hr]]; [now left|right; exact Hr].
  Qed.
  Lemma count_spec : count d tn sc fc wc = (Ok (zlen chosen), final (fun r => r)).
  Proof.
    unfold count. rewrite (run_records anyrec (fun r => r) (fun n _ => n - 1)); [|intros d0 w0 r0 H0 _ _|apply any_all].
    - cbn [rmap rbind]. f_equal. f_equal. unfold zlen. now rewrite map_length.
    - rewrite t_update_id, put_same by exact H0. f_equal. f_equal. lia.
  Qed.
  Lemma sum_spec e se : (forall d w r, ws_at d (cur d) = Ok w -> t_record (w_tab w) = Some r -> se d = Ok (e (t_idx (w_tab w) + 1) r)) ->
    sum d tn sc se fc wc = (Ok (fold_left Z.add (map (fun x => e (fst x) (snd x)) chosen) 0), final (fun r => r)).
  Proof.
    intros He. unfold sum. rewrite (run_records anyrec (fun r => r) e); [|intros d0 w0 r0 H0 H1 _|apply any_all].
    - reflexivity.
    - rewrite t_update_id, put_same by exact H0. f_equal. now apply He.
  Qed.
  Lemma delete_spec b : delete_record d tn sc b fc wc = (Ok tt, final (mark (negb b))).
  Proof.
    unfold delete_record. rewrite (run_records anyrec (mark (negb b)) (fun _ _ => tt)); [|intros d0 w0 r0 H0 H1 _|apply any_all].
    - reflexivity.
    - unfold update_rec. now rewrite H0.
  Qed.
End Commands.
