(** FoxPro's FOR loop and Python's range. *)
From Verif Require Import PyBase.
Open Scope Z_scope.

(** The values the loop variable takes in FOR i = a TO b STEP s *)
Inductive fox_for : Z -> Z -> Z -> list Z -> Prop :=
| for_end i b s : (0 < s -> b < i) -> (s < 0 -> i < b) -> fox_for i b s []
| for_step i b s l : (0 < s -> i <= b) -> (s < 0 -> b <= i) -> fox_for (i + s) b s l -> fox_for i b s (i :: l).
(** range(a, b, s) *)
Definition py_range (a b s : Z) : list Z :=
  let n := if 0 <? s then (b - a + s - 1) / s else (a - b - s - 1) / (- s) in
  map (fun k => a + Z.of_nat k * s) (seq 0 (Z.to_nat n)).

Lemma py_range_nil a b s : 0 < s -> b <= a -> py_range a b s = [].
Proof.
  intros H H'. unfold py_range. destruct (Z.ltb_spec 0 s); [|lia].
  replace (Z.to_nat ((b - a + s - 1) / s)) with 0%nat; [reflexivity|]. assert ((b - a + s - 1) / s <= 0); [|lia].
  assert ((b - a + s - 1) / s < 1); [|lia]. apply Z.div_lt_upper_bound; lia.
Qed.
Lemma range_shift a s n : map (fun k => a + Z.of_nat k * s) (seq 1 n) = map (fun k => a + s + Z.of_nat k * s) (seq 0 n).
Proof. rewrite <- seq_shift, map_map. apply map_ext. intros k. lia. Qed.
Lemma py_range_cons a b s : 0 < s -> a < b -> py_range a b s = a :: py_range (a + s) b s.
Proof.
  intros H H'. unfold py_range. destruct (Z.ltb_spec 0 s); [|lia].
  replace ((b - a + s - 1) / s) with ((b - (a + s) + s - 1) / s + 1) by (rewrite <- Z.div_add by lia; f_equal; lia).
  assert (0 <= (b - (a + s) + s - 1) / s) by (apply Z.div_pos; lia).
  rewrite Z2Nat.inj_add by lia. rewrite Nat.add_comm. cbn [Nat.add seq map Z.to_nat]. change (Pos.to_nat 1) with 1%nat. cbn [Nat.add seq map].
  rewrite range_shift. f_equal. cbn. lia.
Qed.
Lemma for_up va vb s : 0 < s -> fox_for va vb s (py_range va (vb + 1) s).
Proof.
  intros H. remember (Z.to_nat (vb + 1 - va)) as n eqn:En. revert va En. induction n as [n IH] using (well_founded_induction lt_wf). intros va En.
  destruct (Z.le_gt_cases (vb + 1) va).
  - rewrite py_range_nil by lia. apply for_end; lia.
  - rewrite py_range_cons by lia. apply for_step; [lia|lia|]. apply (IH (Z.to_nat (vb + 1 - (va + s)))); [lia|reflexivity].
Qed.
Lemma py_range_down a b s v : s < 0 -> In v (py_range a b s) -> b < v.
Proof.
  intros H. unfold py_range. destruct (Z.ltb_spec 0 s); [lia|]. intros Hv. apply in_map_iff in Hv as (k & <- & Hk). apply in_seq in Hk.
  assert (Hk' : Z.of_nat k < (a - b - s - 1) / - s) by lia. clear Hk.
  assert (Z.of_nat k + 1 <= (a - b - s - 1) / - s) by lia.
  assert (- s * ((a - b - s - 1) / - s) <= a - b - s - 1) by (apply Z.mul_div_le; lia). nia.
Qed.
Lemma for_down va vb s : s < 0 -> forall l, fox_for va vb s l -> (exists v, In v l /\ v <= vb + 1) -> l <> py_range va (vb + 1) s.
Proof. intros H l _ (v & Hv & L) ->. pose proof (py_range_down _ _ _ _ H Hv). lia. Qed.
