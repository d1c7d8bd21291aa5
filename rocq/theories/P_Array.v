From Verif Require Import PyBase M_Array S_Array.
Open Scope res_scope.

Section P.
  Context {A : Type} (pyfalse : A) (aeqb : A -> A -> bool).
  Notation arr := (array A).

  (** Shape invariant: r rows and c >= 1 effective columns. *)
  Definition shaped (r c : Z) (a : arr) : Prop :=
    dim1 a = r /\ array_len a = r * c /\ offset a = Some 0.

  Lemma zlen_repeat_concat (x : A) (r c : Z) : 0 <= r -> 0 <= c ->
    zlen (concat (repeat (py_repeat x r) (Z.to_nat c))) = r * c.
  Proof.
    intros Hr Hc. unfold py_repeat.
    assert (forall n, zlen (concat (repeat (repeat x (Z.to_nat r)) n)) = r * Z.of_nat n) as H.
    { induction n as [|n IH].
      - cbn. lia.
      - cbn [repeat concat]. rewrite zlen_app, IH. unfold zlen. rewrite repeat_length. lia. }
    rewrite H. rewrite Z2Nat.id; lia.
  Qed.

  Definition eff (c : Z) := if c =? 0 then 1 else c.

  Lemma init_shaped r c : 0 <= r -> 0 <= c -> shaped r (eff c) (array_init pyfalse r c (Some 0)).
  Proof.
    intros Hr Hc. unfold shaped, array_init, array_len, eff; cbn [dim1 data offset].
    repeat split. destruct (Z.eqb_spec c 0) as [->|Hn].
    - rewrite zlen_repeat_concat; lia.
    - rewrite zlen_repeat_concat; lia.
  Qed.

  Lemma get_index_shaped r c (a : arr) i j : 1 <= r -> shaped r c a ->
    get_index a [i; j] =
    (if c * (i - 1) + (j - 1) <? 0 then Err IndexError else Ok (c * (i - 1) + (j - 1))).
  Proof.
    intros Hr (H1 & H2 & H3). unfold get_index; cbn [rbind]. unfold py_floordiv.
    rewrite H1, H2, H3. destruct (Z.eqb_spec r 0); [lia|]. cbn [rbind].
    replace (r * c / r) with c by (rewrite Z.mul_comm, Z.div_mul; lia).
    rewrite Z.sub_0_r. reflexivity.
  Qed.

  Lemma get_index_one (a : arr) i : get_index a [i] = get_index a [i; 1].
  Proof. reflexivity. Qed.

  Lemma array_get_shaped r c a i j : 1 <= r -> shaped r c a ->
    array_get a [i; j] =
    (if c * (i - 1) + (j - 1) <? 0 then Err IndexError
     else match nth_error (data a) (Z.to_nat (c * (i - 1) + (j - 1))) with Some x => Ok x | None => Err IndexError end).
  Proof.
    intros Hr Hs. unfold array_get. rewrite (get_index_shaped r c) by assumption.
    destruct (Z.ltb_spec (c * (i - 1) + (j - 1)) 0); cbn [rbind]; [reflexivity|].
    apply py_nth_nonneg; assumption.
  Qed.

  Lemma array_set_shaped r c a i j v : 1 <= r -> shaped r c a ->
    array_set a [i; j] v =
    (if c * (i - 1) + (j - 1) <? 0 then Err IndexError
     else if r * c <=? c * (i - 1) + (j - 1) then Err IndexError
     else Ok {| data := list_upd (data a) (Z.to_nat (c * (i - 1) + (j - 1))) v; dim1 := dim1 a;
                columns := columns a; offset := offset a |}).
  Proof.
    intros Hr Hs. unfold array_set. rewrite (get_index_shaped r c) by assumption.
    destruct (Z.ltb_spec (c * (i - 1) + (j - 1)) 0) as [|Hk]; cbn [rbind]; [reflexivity|].
    rewrite py_set_nth_nonneg by assumption. destruct Hs as (H1 & H2 & H3).
    unfold array_len in H2. rewrite H2.
    destruct (r * c <=? c * (i - 1) + (j - 1)); reflexivity.
  Qed.

  Lemma upd_shaped r c a k v : shaped r c a ->
    shaped r c {| data := list_upd (data a) k v; dim1 := dim1 a; columns := columns a; offset := offset a |}.
  Proof.
    intros (H1 & H2 & H3). repeat split; cbn; auto.
    unfold array_len in *; cbn [data]. unfold zlen. rewrite list_upd_length. exact H2.
  Qed.

  Lemma inb_index r c i j : in_bounds r c i j -> 0 <= c * (i - 1) + (j - 1) < r * c.
  Proof. intros [Hi Hj]. nia. Qed.

  Lemma inb_inj r c i j i' j' : in_bounds r c i j -> in_bounds r c i' j' ->
    c * (i - 1) + (j - 1) = c * (i' - 1) + (j' - 1) -> i = i' /\ j = j'.
  Proof.
    intros [Hi Hj] [Hi' Hj'] E.
    assert (i = i') by nia. subst. split; [reflexivity|nia].
  Qed.

  Lemma array_set_inb r c a i j v : 1 <= r -> shaped r c a -> in_bounds r c i j ->
    exists a', array_set a [i; j] v = Ok a' /\ shaped r c a' /\ columns a' = columns a /\
      forall i' j', in_bounds r c i' j' ->
        array_get a' [i'; j'] = if (i =? i') && (j =? j') then Ok v else array_get a [i'; j'].
  Proof.
    intros Hr Hs Hb. pose proof (inb_index _ _ _ _ Hb) as Hk.
    rewrite (array_set_shaped r c) by assumption.
    destruct (Z.ltb_spec (c * (i - 1) + (j - 1)) 0); [lia|].
    destruct (Z.leb_spec (r * c) (c * (i - 1) + (j - 1))); [lia|].
    eexists; split; [reflexivity|]. split; [apply upd_shaped; assumption|]. split; [reflexivity|].
    intros i' j' Hb'. pose proof (inb_index _ _ _ _ Hb') as Hk'.
    rewrite (array_get_shaped r c) by (try assumption; apply upd_shaped; assumption).
    rewrite (array_get_shaped r c) by assumption.
    destruct (Z.ltb_spec (c * (i' - 1) + (j' - 1)) 0); [lia|]. cbn [data].
    rewrite nth_error_list_upd.
    destruct (Nat.eqb_spec (Z.to_nat (c * (i' - 1) + (j' - 1))) (Z.to_nat (c * (i - 1) + (j - 1)))) as [E|E].
    - assert (c * (i' - 1) + (j' - 1) = c * (i - 1) + (j - 1)) as E' by lia.
      destruct (inb_inj _ _ _ _ _ _ Hb' Hb E') as [-> ->]. rewrite !Z.eqb_refl. cbn [andb].
      destruct Hs as (_ & Hl & _). unfold array_len, zlen in Hl.
      destruct (Nat.ltb_spec (Z.to_nat (c * (i - 1) + (j - 1))) (length (data a))) as [|Hx]; [reflexivity|].
      exfalso. clear - Hx Hl Hk. lia.
    - destruct (Z.eqb_spec i i') as [->|]; cbn [andb]; [|reflexivity].
      destruct (Z.eqb_spec j j') as [->|]; [|reflexivity]. congruence.
  Qed.

  Definition inds_of (w : (Z * Z) * A) : list Z * A := ([fst (fst w); snd (fst w)], snd w).

  (** all writes succeed in sequence *)
  Fixpoint set_all (a : arr) (ws : list (list Z * A)) : res arr :=
    match ws with
    | [] => Ok a
    | (i, v) :: r => do a' <- array_set a i v; set_all a' r
    end.

  Lemma set_all_spec r c ws : 1 <= r -> forall a f,
    shaped r c a ->
    (forall i j, in_bounds r c i j -> array_get a [i; j] = Ok (f i j)) ->
    Forall (fun w => in_bounds r c (fst (fst w)) (snd (fst w))) ws ->
    exists a', set_all a (map inds_of ws) = Ok a' /\ shaped r c a' /\ columns a' = columns a /\
      forall i j, in_bounds r c i j -> array_get a' [i; j] = Ok (cell_after (f i j) ws i j).
  Proof.
    intros Hr. induction ws as [|[[a0 b0] v] ws IH]; intros a f Hs Hf Hall.
    - exists a. cbn. repeat split; auto; apply Hs.
    - inversion_clear Hall as [|? ? Hb Hall']. cbn [fst snd] in Hb.
      destruct (array_set_inb r c a a0 b0 v Hr Hs Hb) as (a1 & E1 & Hs1 & Hc1 & Hg1).
      destruct (IH a1 (fun i j => if (a0 =? i) && (b0 =? j) then v else f i j) Hs1) as (a2 & E2 & Hs2 & Hc2 & Hg2).
      + intros i j Hij. rewrite Hg1 by assumption. destruct ((a0 =? i) && (b0 =? j)); [reflexivity|]. auto.
      + assumption.
      + exists a2. cbn [map inds_of fst snd set_all]. rewrite E1. cbn [rbind]. rewrite E2.
        split; [reflexivity|]. split; [assumption|]. split; [congruence|].
        intros i j Hij. rewrite Hg2 by assumption. cbn [cell_after]. reflexivity.
  Qed.

  Lemma init_get r c i j : 1 <= r -> 0 <= c -> in_bounds r (eff c) i j ->
    array_get (array_init pyfalse r c (Some 0)) [i; j] = Ok pyfalse.
  Proof.
    intros Hr Hc Hb. pose proof (init_shaped r c ltac:(lia) Hc) as Hs.
    rewrite (array_get_shaped r (eff c)) by (try assumption; lia).
    pose proof (inb_index _ _ _ _ Hb) as Hk.
    destruct (Z.ltb_spec (eff c * (i - 1) + (j - 1)) 0); [lia|].
    destruct (nth_error _ _) as [x|] eqn:E.
    - apply nth_error_In in E. unfold array_init in E; cbn [data] in E.
      apply in_concat in E. destruct E as (l & Hl & Hx). apply repeat_spec in Hl. subst l.
      apply repeat_spec in Hx. subst; reflexivity.
    - apply nth_error_None in E. destruct Hs as (_ & Hl & _). unfold array_len, zlen in Hl. lia.
  Qed.

  (** C01 *)
  Lemma read_after_writes r c ws : 1 <= r -> 0 <= c ->
    Forall (fun w => in_bounds r (Z.max c 1) (fst (fst w)) (snd (fst w))) ws ->
    exists a', set_all (array_init pyfalse r c (Some 0)) (map inds_of ws) = Ok a' /\
      forall i j, in_bounds r (Z.max c 1) i j -> array_get a' [i; j] = Ok (cell_after pyfalse ws i j).
  Proof.
    intros Hr Hc Hall. assert (Z.max c 1 = eff c) as He.
    { unfold eff. destruct (Z.eqb_spec c 0); lia. }
    rewrite He in *.
    destruct (set_all_spec r (eff c) ws Hr _ (fun _ _ => pyfalse) (init_shaped r c ltac:(lia) Hc)
                (fun i j => init_get r c i j Hr Hc) Hall) as (a' & E & _ & _ & Hg).
    exists a'. split; assumption.
  Qed.

  (** C02 *)
  Lemma get_ok_iff r c a i j : 1 <= r -> shaped r c a ->
    (exists v, array_get a [i; j] = Ok v) <-> 0 <= c * (i - 1) + (j - 1) < r * c.
  Proof.
    intros Hr Hs. rewrite (array_get_shaped r c) by assumption.
    pose proof Hs as (_ & Hl & _). unfold array_len, zlen in Hl.
    destruct (Z.ltb_spec (c * (i - 1) + (j - 1)) 0) as [Hk|Hk].
    - split; [intros (v & E); discriminate|lia].
    - destruct (nth_error (data a) _) as [x|] eqn:E.
      + split; [|eauto]. intros _.
        assert (nth_error (data a) (Z.to_nat (c * (i - 1) + (j - 1))) <> None) as Hn by congruence.
        apply nth_error_Some in Hn. lia.
      + split; [intros (v & E'); discriminate|].
        intros Hk2. apply nth_error_None in E. lia.
  Qed.

  Lemma row_out_of_range_rejected r c a i j v : 1 <= r -> 1 <= c -> shaped r c a ->
    1 <= j <= c -> (i < 1 \/ r < i) ->
    array_get a [i; j] = Err IndexError /\ array_set a [i; j] v = Err IndexError.
  Proof.
    intros Hr Hc Hs Hj Hi.
    rewrite (array_get_shaped r c), (array_set_shaped r c) by assumption.
    pose proof Hs as (_ & Hl & _). unfold array_len, zlen in Hl.
    destruct (Z.ltb_spec (c * (i - 1) + (j - 1)) 0) as [Hk|Hk]; [auto|].
    assert (r * c <= c * (i - 1) + (j - 1)) as Hge by nia.
    destruct (Z.leb_spec (r * c) (c * (i - 1) + (j - 1))); [|lia].
    split; [|reflexivity].
    replace (nth_error (data a) _) with (@None A); [reflexivity|].
    symmetry. apply nth_error_None. lia.
  Qed.

  (** Reachability: every array obtained by writes from an initial one is shaped. *)
  Lemma write_shape (a : arr) w : dim1 (array_write a w) = dim1 a /\ array_len (array_write a w) = array_len a /\
    columns (array_write a w) = columns a /\ offset (array_write a w) = offset a.
  Proof.
    unfold array_write, array_set. destruct (get_index a (fst w)) as [k|e]; cbn [rbind]; [|auto].
    unfold py_set_nth. destruct ((_ <? 0) || _); cbn [rbind]; [auto|].
    unfold array_len; cbn. repeat split; auto. unfold zlen. rewrite list_upd_length. reflexivity.
  Qed.

  Lemma writes_shape ws : forall a : arr, dim1 (array_writes a ws) = dim1 a /\ array_len (array_writes a ws) = array_len a /\
    columns (array_writes a ws) = columns a /\ offset (array_writes a ws) = offset a.
  Proof.
    induction ws as [|w ws IH]; intros a; [auto|].
    unfold array_writes in *; cbn [fold_left]. destruct (IH (array_write a w)) as (H1 & H2 & H3 & H4).
    destruct (write_shape a w) as (G1 & G2 & G3 & G4). repeat split; congruence.
  Qed.

  Lemma writes_shaped r c ws : 0 <= r -> 0 <= c ->
    shaped r (eff c) (array_writes (array_init pyfalse r c (Some 0)) ws).
  Proof.
    intros Hr Hc. destruct (writes_shape ws (array_init pyfalse r c (Some 0))) as (H1 & H2 & _ & H4).
    destruct (init_shaped r c Hr Hc) as (G1 & G2 & G3).
    unfold shaped. repeat split; congruence.
  Qed.

  (** C03 *)
  Lemma alen_after_writes r c ws : 1 <= r -> 0 <= c ->
    let a := array_writes (array_init pyfalse r c (Some 0)) ws in
    alen a 0 = Ok (r * Z.max c 1) /\ alen a 1 = Ok r /\ alen a 2 = Ok c /\ array_len a = r * Z.max c 1.
  Proof.
    intros Hr Hc a. assert (Z.max c 1 = eff c) as He.
    { unfold eff. destruct (Z.eqb_spec c 0); lia. }
    rewrite He. destruct (writes_shaped r c ws ltac:(lia) Hc) as (H1 & H2 & H3). fold a in H1, H2, H3.
    destruct (writes_shape ws (array_init pyfalse r c (Some 0))) as (_ & _ & H4 & _). fold a in H4.
    cbn [columns array_init] in H4.
    unfold alen, py_floordiv. rewrite H1, H2, H4. destruct (Z.eqb_spec r 0); [lia|].
    cbn [rbind]. replace (r * eff c / r) with (eff c) by (rewrite Z.mul_comm, Z.div_mul; lia).
    cbn [Z.eqb andb Pos.eqb]. unfold eff. destruct (Z.eqb_spec c 0) as [->|]; cbn [negb]; repeat split; reflexivity.
  Qed.

  (** C04 *)
  Lemma list_index_spec l v :
    match list_index aeqb l v with
    | Some k => first_at (fun x => aeqb x v) l (k + 1)
    | None => forall x, In x l -> aeqb x v = false
    end.
  Proof.
    induction l as [|x l IH]; cbn [list_index].
    - intros x [].
    - destruct (aeqb x v) eqn:E.
      + exists [], x, l. cbn. repeat split; auto. intros y [].
      + destruct (list_index aeqb l v) as [k|]; cbn [option_map].
        * destruct IH as (l1 & y & l2 & -> & Hy & Hn & Hk).
          exists (x :: l1), y, l2. rewrite zlen_cons. repeat split; auto; [|lia].
          intros z [<-|Hz]; auto.
        * intros z [<-|Hz]; auto.
  Qed.

  Lemma first_at_bounds (p : A -> bool) l k : first_at p l k -> 1 <= k <= zlen l.
  Proof.
    intros (l1 & x & l2 & -> & _ & _ & ->). rewrite zlen_app, zlen_cons.
    pose proof (zlen_nonneg l1). pose proof (zlen_nonneg l2). lia.
  Qed.

  Lemma array_index_spec (a : arr) v : offset a = Some 0 ->
    exists k, array_index aeqb a v = Ok k /\
      ((k = 0 /\ forall x, In x (data a) -> aeqb x v = false) \/ first_at (fun x => aeqb x v) (data a) k).
  Proof.
    intros Ho. unfold array_index. pose proof (list_index_spec (data a) v) as H.
    destruct (list_index aeqb (data a) v) as [k|].
    - rewrite Ho. exists (k + 1 + 0). split; [reflexivity|]. right. rewrite Z.add_0_r. exact H.
    - exists 0. split; [reflexivity|]. left. auto.
  Qed.

  (** Windows: a[s:s+n].index(v) *)
  Lemma slice_window (l : list A) s n : 1 <= s -> 0 <= n ->
    py_slice l (Some (s - 1)) (Some (s + n - 1)) =
    firstn (Z.to_nat n) (skipn (Z.to_nat (s - 1)) l).
  Proof.
    intros Hs Hn. unfold py_slice, slice_bound.
    destruct (Z.ltb_spec (s - 1) 0); [lia|]. destruct (Z.ltb_spec (s + n - 1) 0); [lia|].
    pose proof (zlen_nonneg l) as Hz.
    set (lo := Z.max 0 (Z.min (zlen l) (s - 1))). set (hi := Z.max 0 (Z.min (zlen l) (s + n - 1))).
    destruct (Z.le_gt_cases (zlen l) (s - 1)) as [H1|H1].
    - assert (lo = zlen l) as -> by lia. assert (hi = zlen l) as -> by lia.
      rewrite Z.sub_diag. rewrite (@skipn_all2 A (Z.to_nat (s - 1)) l) by (unfold zlen in *; lia).
      destruct (Z.to_nat n); reflexivity.
    - assert (lo = s - 1) as -> by lia.
      destruct (Z.le_gt_cases (zlen l) (s + n - 1)) as [H2|H2].
      + assert (hi = zlen l) as -> by lia.
        rewrite !firstn_all2; [reflexivity| |]; rewrite skipn_length; unfold zlen in *; lia.
      + assert (hi = s + n - 1) as -> by lia. f_equal. lia.
  Qed.

  Lemma array_index_window (a : arr) v s n : 1 <= s -> 0 <= n ->
    exists k, array_index aeqb (subarray pyfalse a (Some s) (Some (s + n))) v = Ok k /\
      let w := firstn (Z.to_nat n) (skipn (Z.to_nat (s - 1)) (data a)) in
      ((k = 0 /\ forall x, In x w -> aeqb x v = false) \/
       (first_at (fun x => aeqb x v) w (k - (s - 1)) /\
        exists x, nth_error (data a) (Z.to_nat (k - 1)) = Some x /\ aeqb x v = true)).
  Proof.
    intros Hs Hn. unfold array_index, subarray; cbn [data offset array_init option_map].
    rewrite slice_window by assumption.
    set (w := firstn _ _). pose proof (list_index_spec w v) as H.
    destruct (list_index aeqb w v) as [k|].
    - exists (k + 1 + (s - 1)). split; [reflexivity|]. right. cbn zeta. split.
      + replace (k + 1 + (s - 1) - (s - 1)) with (k + 1) by lia. exact H.
      + destruct H as (l1 & x & l2 & Hw & Hx & _ & Hk).
        exists x. split; [|exact Hx].
        assert (nth_error w (length l1) = Some x) as E.
        { rewrite Hw, nth_error_app2, Nat.sub_diag by lia. reflexivity. }
        assert (length l1 < length w)%nat as Hlt by (apply nth_error_Some; congruence).
        unfold w in E, Hlt.
        replace (Z.to_nat (k + 1 + (s - 1) - 1)) with (Z.to_nat (s - 1) + length l1)%nat by (unfold zlen in Hk; lia).
        rewrite firstn_length, skipn_length in Hlt.
        rewrite <- (firstn_skipn (Z.to_nat n) (skipn (Z.to_nat (s - 1)) (data a))) in *.
        rewrite <- (firstn_skipn (Z.to_nat (s - 1)) (data a)) at 1.
        rewrite nth_error_app2 by (rewrite firstn_length; lia).
        rewrite firstn_length.
        replace (Z.to_nat (s - 1) + length l1 - Nat.min (Z.to_nat (s - 1)) (length (data a)))%nat with (length l1) by lia.
        rewrite <- (firstn_skipn (Z.to_nat n) (skipn (Z.to_nat (s - 1)) (data a))).
        rewrite nth_error_app1 by (rewrite firstn_length, skipn_length; lia).
        rewrite firstn_skipn in E. exact E.
    - exists 0. split; [reflexivity|]. left. auto.
  Qed.

  (** Elements of a window are addressed by their positions in the whole one-dimensional array. *)
  Lemma window_get r a s n k : 1 <= r -> shaped r 1 a -> 1 <= s -> 1 <= n -> s + n - 1 <= r ->
    s <= k < s + n ->
    array_get (subarray pyfalse a (Some s) (Some (s + n))) [k] = array_get a [k].
  Proof.
    intros Hr Hsh Hs Hn Hle Hk. unfold array_get at 2. rewrite get_index_one.
    rewrite (get_index_shaped r 1) by assumption.
    destruct Hsh as (H1 & H2 & H3). unfold array_len, zlen in H2.
    unfold array_get, get_index, subarray; cbn [data offset array_init option_map dim1 rbind].
    rewrite slice_window by lia.
    set (w := firstn _ _).
    assert (length w = Z.to_nat n) as Hw.
    { unfold w. rewrite firstn_length, skipn_length. lia. }
    unfold array_len, py_floordiv; cbn [data dim1].
    destruct (Z.eqb_spec (zlen w) 0) as [E|E]; [unfold zlen in E; lia|].
    rewrite Z.div_same by assumption. cbn [rbind].
    destruct (Z.ltb_spec (1 * (k - 1) + (1 - 1) - (s - 1)) 0); [lia|].
    destruct (Z.ltb_spec (1 * (k - 1) + (1 - 1)) 0); [lia|]. cbn [rbind].
    rewrite !py_nth_nonneg by lia.
    replace (nth_error w _) with (nth_error (data a) (Z.to_nat (1 * (k - 1) + (1 - 1)))); [reflexivity|].
    unfold w.
    rewrite <- (firstn_skipn (Z.to_nat (s - 1)) (data a)) at 1.
    rewrite nth_error_app2 by (rewrite firstn_length; lia).
    rewrite firstn_length.
    rewrite <- (firstn_skipn (Z.to_nat n) (skipn (Z.to_nat (s - 1)) (data a))) at 1.
    rewrite nth_error_app1 by (rewrite firstn_length, skipn_length; lia).
    f_equal. lia.
  Qed.
End P.
