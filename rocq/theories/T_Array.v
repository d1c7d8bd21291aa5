(** Property theorems C01-C04: FoxPro arrays. *)
From Verif Require Import PyBase M_Array S_Array P_Array.

(** C01: after any sequence of in-range element writes (all of which succeed), reading (i,j) gives the latest
    value written to (i,j), or False when there was none.  c = 0 is the one-dimensional declaration. *)
Theorem C01_read_after_writes :
  forall (A : Type) (pyfalse : A) (r c : Z) (ws : list (@write2 A)),
  1 <= r -> 0 <= c ->
  Forall (fun w => in_bounds r (Z.max c 1) (fst (fst w)) (snd (fst w))) ws ->
  exists a', set_all (array_init pyfalse r c (Some 0)) (map inds_of ws) = Ok a' /\
    forall i j, in_bounds r (Z.max c 1) i j -> array_get a' [i; j] = Ok (cell_after pyfalse ws i j).
Proof. intros A pyfalse. exact (read_after_writes pyfalse). Qed.
Print Assumptions C01_read_after_writes.

Example C01_example :
  exists a', set_all (array_init 0 2 3 (Some 0)) (map inds_of [((2, 3), 7); ((1, 3), 8); ((2, 3), 9)]) = Ok a' /\
    array_get a' [2; 3] = Ok 9 /\ array_get a' [1; 3] = Ok 8 /\ array_get a' [2; 2] = Ok 0.
Proof. eexists. vm_compute. repeat split. Qed.

(** C01, second half: FoxPro lets a two-dimensional array be addressed with one subscript counting elements row by
    row.  The code treats one subscript k as (k, 1), so the claim is false for every array with two columns. *)
Theorem C01_linear_subscript_refuted :
  exists (r c i j : Z) (a : array Z), in_bounds r c i j /\
    set_all (array_init 0 r c (Some 0)) [([i; j], 7)] = Ok a /\
    array_get a [i; j] = Ok 7 /\ array_get a [(i - 1) * c + j] <> Ok 7.
Proof.
  exists 2, 2, 1, 2. eexists. split; [unfold in_bounds; lia|].
  split; [vm_compute; reflexivity|]. split; vm_compute; [reflexivity|discriminate].
Qed.
Print Assumptions C01_linear_subscript_refuted.

(** What does hold: one subscript is row k, column 1; in a one-column array this is element k. *)
Theorem C01_linear_subscript_partial :
  forall (A : Type) (pyfalse : A) (r : Z) (ws : list (list Z * A)) (k : Z), 1 <= r -> 1 <= k <= r ->
  let a := array_writes (array_init pyfalse r 0 (Some 0)) ws in
  array_get a [k] = array_get a [k; 1] /\
  exists v, nth_error (data a) (Z.to_nat (k - 1)) = Some v /\ array_get a [k] = Ok v.
Proof.
  intros A pyfalse r ws k Hr Hk a.
  assert (shaped r 1 a) as Hs by (exact (writes_shaped pyfalse r 0 ws ltac:(lia) ltac:(lia))).
  split; [reflexivity|].
  assert (exists v, array_get a [k; 1] = Ok v) as (v & Hv) by (apply (get_ok_iff r 1); try assumption; lia).
  exists v. split; [|exact Hv].
  rewrite (array_get_shaped r 1) in Hv by assumption.
  destruct (1 * (k - 1) + (1 - 1) <? 0); [discriminate|].
  replace (1 * (k - 1) + (1 - 1)) with (k - 1) in Hv by lia.
  destruct (nth_error (data a) (Z.to_nat (k - 1))); congruence.
Qed.
Print Assumptions C01_linear_subscript_partial.

(** C02 as stated (every out-of-range subscript is rejected) is false: a column subscript beyond the last column
    silently addresses, and overwrites, an element of the next row. *)
Theorem C02_out_of_range_rejected_refuted :
  exists (r c i j : Z) (a a' : array Z), ~ in_bounds r c i j /\
    a = array_init 0 r c (Some 0) /\ array_set a [i; j] 7 = Ok a' /\
    exists i' j', in_bounds r c i' j' /\ array_get a [i'; j'] = Ok 0 /\ array_get a' [i'; j'] = Ok 7.
Proof.
  exists 2, 3, 1, 4. eexists; eexists. split; [unfold in_bounds; lia|].
  split; [reflexivity|]. split; [vm_compute; reflexivity|].
  exists 2, 1. split; [unfold in_bounds; lia|]. split; vm_compute; reflexivity.
Qed.
Print Assumptions C02_out_of_range_rejected_refuted.

(** What holds: with the column in range, a row outside 1..r is rejected with IndexError for reads and writes, in
    every array reachable by writes; and the exact set of accepted pairs is characterised. *)
Theorem C02_row_out_of_range_partial :
  forall (A : Type) (pyfalse : A) (r c : Z) (ws : list (list Z * A)) (i j : Z) (v : A),
  1 <= r -> 0 <= c -> 1 <= j <= Z.max c 1 -> (i < 1 \/ r < i) ->
  let a := array_writes (array_init pyfalse r c (Some 0)) ws in
  array_get a [i; j] = Err IndexError /\ array_set a [i; j] v = Err IndexError.
Proof.
  intros A pyfalse r c ws i j v Hr Hc Hj Hi a.
  assert (Z.max c 1 = eff c) as He by (unfold eff; destruct (Z.eqb_spec c 0); lia).
  rewrite He in Hj.
  apply (row_out_of_range_rejected r (eff c)); try assumption; try lia.
  exact (writes_shaped pyfalse r c ws ltac:(lia) Hc).
Qed.
Print Assumptions C02_row_out_of_range_partial.

Theorem C02_accepted_subscripts :
  forall (A : Type) (pyfalse : A) (r c : Z) (ws : list (list Z * A)) (i j : Z),
  1 <= r -> 0 <= c ->
  let a := array_writes (array_init pyfalse r c (Some 0)) ws in
  let c' := Z.max c 1 in
  (exists v, array_get a [i; j] = Ok v) <-> 0 <= (i - 1) * c' + (j - 1) < r * c'.
Proof.
  intros A pyfalse r c ws i j Hr Hc a c'.
  assert (c' = eff c) as He by (unfold c', eff; destruct (Z.eqb_spec c 0); lia).
  rewrite He, (Z.mul_comm (i - 1)). apply (get_ok_iff r (eff c)); [assumption|].
  exact (writes_shaped pyfalse r c ws ltac:(lia) Hc).
Qed.
Print Assumptions C02_accepted_subscripts.

Example C02_example : array_get (array_init 0 2 3 (Some 0)) [3; 1] = Err IndexError.
Proof. reflexivity. Qed.

(** C03: the shape reported by ALEN() and len() survives any sequence of writes, successful or not. *)
Theorem C03_shape_invariant :
  forall (A : Type) (pyfalse : A) (r c : Z) (ws : list (list Z * A)), 1 <= r -> 0 <= c ->
  let a := array_writes (array_init pyfalse r c (Some 0)) ws in
  alen a 0 = Ok (r * Z.max c 1) /\ alen a 1 = Ok r /\ alen a 2 = Ok c /\ array_len a = r * Z.max c 1.
Proof. intros A pyfalse. exact (alen_after_writes pyfalse). Qed.
Print Assumptions C03_shape_invariant.

Example C03_example :
  alen (array_writes (array_init 0 3 7 (Some 0)) [([1; 4], 5); ([9; 9], 6); ([0], 6)]) 2 = Ok 7.
Proof. vm_compute. reflexivity. Qed.

(** C04: ASCAN. *)
Theorem C04_index_first_match :
  forall (A : Type) (aeqb : A -> A -> bool) (a : array A) (v : A), offset a = Some 0 ->
  exists k, array_index aeqb a v = Ok k /\
    ((k = 0 /\ forall x, In x (data a) -> aeqb x v = false) \/ first_at (fun x => aeqb x v) (data a) k).
Proof. intros A aeqb. exact (array_index_spec aeqb). Qed.
Print Assumptions C04_index_first_match.

(** ASCAN(a, v, s, n): emitted as a[s:(s + n)].index(v) (vfp2py_convert_visitor.py:675-681). *)
Theorem C04_index_window :
  forall (A : Type) (pyfalse : A) (aeqb : A -> A -> bool) (a : array A) (v : A) (s n : Z), 1 <= s -> 0 <= n ->
  exists k, array_index aeqb (subarray pyfalse a (Some s) (Some (s + n))) v = Ok k /\
    let w := firstn (Z.to_nat n) (skipn (Z.to_nat (s - 1)) (data a)) in
    ((k = 0 /\ forall x, In x w -> aeqb x v = false) \/
     (first_at (fun x => aeqb x v) w (k - (s - 1)) /\
      exists x, nth_error (data a) (Z.to_nat (k - 1)) = Some x /\ aeqb x v = true)).
Proof. intros A pyfalse aeqb. exact (array_index_window pyfalse aeqb). Qed.
Print Assumptions C04_index_window.

(** The window a[s:s+n] of a one-dimensional array is addressed with the positions of the whole array. *)
Theorem C04_window_elements :
  forall (A : Type) (pyfalse : A) (r : Z) (ws : list (list Z * A)) (s n k : Z),
  1 <= r -> 1 <= s -> 1 <= n -> s + n - 1 <= r -> s <= k < s + n ->
  let a := array_writes (array_init pyfalse r 0 (Some 0)) ws in
  array_get (subarray pyfalse a (Some s) (Some (s + n))) [k] = array_get a [k].
Proof.
  intros A pyfalse r ws s n k Hr Hs Hn Hle Hk a.
  apply (window_get pyfalse r); try assumption.
  exact (writes_shaped pyfalse r 0 ws ltac:(lia) ltac:(lia)).
Qed.
Print Assumptions C04_window_elements.

Example C04_example :
  let a := array_writes (array_init 0 6 0 (Some 0)) [([2], 5); ([5], 5)] in
  array_index Z.eqb a 5 = Ok 2 /\ array_index Z.eqb (subarray 0 a (Some 3) (Some (3 + 3))) 5 = Ok 5 /\
  array_index Z.eqb (subarray 0 a (Some 3) (Some (3 + 2))) 5 = Ok 0.
Proof. vm_compute. repeat split. Qed.
