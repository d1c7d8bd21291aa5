(** Inlined string and bit functions (vfp2py_convert_visitor.py, func_call): properties C43 and C44. *)
From Verif Require Import PyBase PyStr S_Py P_Py S_PyEval M_Conv S_Conv P_Conv S_Inline P_Inline.
Open Scope Z_scope.

Lemma meth_ok env a ea s m l es vs v : Pr 13 a ea -> pev env ea = Some (PS s) -> Forall2 (Pr 0) (map repr l) es -> evall env es = Some vs ->
  meth s (u m) vs = Some v -> exists e, Pr 13 (repr (method a m l)) e /\ pev env e = Some v.
Proof.
  intros P V F A M. exists (ECall (EAttr ea (u m)) es). split; [|rewrite pev_call, A, V; exact M].
  unfold method, func_code. cbn [repr]. rewrite sep_commas. apply Pr_call; [apply Pr_attr; exact P|exact F].
Qed.
Lemma Pr0_num env lib t n : number lib env t n -> exists e, Pr 0 (repr (conv lib false (clean t))) e /\ pev env e = Some (PI n).
Proof. intros (P & T & H). exact (any0 env lib t _ P T H). Qed.
Lemma Pr0_str env lib t s : string_ lib env t s -> exists e, Pr 0 (repr (conv lib false (clean t))) e /\ pev env e = Some (PS s).
Proof. intros (P & T & H). exact (any0 env lib t _ P T H). Qed.
Lemma text_string env lib t s : text lib env t s -> string_ lib env t s.
Proof. intros (P & T & H & _). exact (conj P (conj T H)). Qed.

(** * C43 *)
Theorem C43_left lib env a b s n : text lib env a s -> number lib env b n -> 0 <= n ->
  py_value env (code lib (call "left" [a; b])) (PS (fox_left s n)).
Proof.
  intros Ha Hb Hn. destruct (atomic_clean_atomic env lib a s Ha) as (ea & Pa & Va). destruct (ti_ok env lib b n Hb) as (eb & Pb & Vb).
  apply (value_of env 13 _ (ESlice ea None (Some eb))); [lia| |].
  - exact (Pr_upto _ _ _ _ Pa (Pr_down 0 11 _ _ ltac:(lia) ltac:(lia) Pb)).
  - cbn [pev]. rewrite Va, Vb, py_slice_to by exact Hn. reflexivity.
Qed.
Print Assumptions C43_left.

Lemma py_slice_last {A} (l : list A) n : 1 <= n -> py_slice l (Some (- n)) None = skipn (length l - Z.to_nat n) l.
Proof.
  intros H. unfold py_slice, slice_bound. set (L := zlen l).
  assert (HL : L = Z.of_nat (length l)) by reflexivity. cbn zeta.
  destruct (Z.ltb_spec (- n) 0); [|lia].
  set (st := Z.max 0 (Z.min L (- n + L))).
  replace (Z.to_nat st) with (length l - Z.to_nat n)%nat by (unfold st; lia).
  apply firstn_all2. rewrite skipn_length. unfold st. lia.
Qed.
Theorem C43_right_partial lib env a b s n : text lib env a s -> number lib env b n -> 1 <= n ->
  py_value env (code lib (call "right" [a; b])) (PS (fox_right s n)).
Proof.
  intros Ha Hb Hn. destruct (atomic_clean_atomic env lib a s Ha) as (ea & Pa & Va). destruct (ti_ok env lib b n Hb) as (eb & Pb & Vb).
  apply (value_of env 13 _ (ESlice ea (Some (EUn UNeg eb)) None)); [lia| |].
  - refine (Pr_from _ _ _ _ Pa (Pr_down 0 11 _ _ ltac:(lia) ltac:(lia) _)). exact (Pr_un (Op OSub) UNeg _ _ eq_refl Pb).
  - cbn [pev]. rewrite Va, Vb. cbn [un]. rewrite py_slice_last by exact Hn. reflexivity.
Qed.
Print Assumptions C43_right_partial.
(** RIGHT(s, 0) gives all of s instead of the empty string. *)
Theorem C43_right_zero_refuted lib env a b s : text lib env a s -> number lib env b 0 ->
  py_value env (code lib (call "right" [a; b])) (PS s) /\ (s <> [] -> forall v, py_value env (code lib (call "right" [a; b])) v -> v <> PS (fox_right s 0)).
Proof.
  intros Ha Hb. destruct (atomic_clean_atomic env lib a s Ha) as (ea & Pa & Va). destruct (ti_ok env lib b 0 Hb) as (eb & Pb & Vb).
  assert (X : py_value env (code lib (call "right" [a; b])) (PS s)).
  { apply (value_of env 13 _ (ESlice ea (Some (EUn UNeg eb)) None)); [lia| |].
    - refine (Pr_from _ _ _ _ Pa (Pr_down 0 11 _ _ ltac:(lia) ltac:(lia) _)). exact (Pr_un (Op OSub) UNeg _ _ eq_refl Pb).
    - cbn [pev]. rewrite Va, Vb. cbn [un]. rewrite py_slice_from by lia. reflexivity. }
  split; [exact X|]. intros Hs v [e [Pe Ve]] ->. destruct X as [e' [Pe' Ve']]. rewrite (py_parse_det _ _ _ Pe Pe') in Ve. rewrite Ve' in Ve.
  injection Ve as E. unfold fox_right in E. cbn [Z.to_nat] in E. rewrite Nat.sub_0_r, skipn_all in E. contradiction.
Qed.
Print Assumptions C43_right_zero_refuted.

Theorem C43_substr_rest lib env a b s k : text lib env a s -> number lib env b k -> 1 <= k ->
  py_value env (code lib (call "substr" [a; b])) (PS (fox_substr_rest s k)).
Proof.
  intros Ha Hb Hk. destruct (atomic_clean_atomic env lib a s Ha) as (ea & Pa & Va).
  change (code lib (call "substr" [a; b])) with (slice_from (repr (conv lib false (clean a))) (repr (minus (int_of (conv lib false (clean b))) (VInt 1)))).
  assert (X : exists e, Pr 0 (repr (minus (int_of (conv lib false (clean b))) (VInt 1))) e /\ pev env e = Some (PI (k - 1))).
  { destruct (int_of_ok env lib b k Hb) as [-> | (ts & e & -> & P & V)].
    - cbn [minus repr]. destruct (repr_int_ok env (k - 1)) as (e & P & V). exists e. split; [exact (Pr_down 0 11 _ _ ltac:(lia) ltac:(lia) P)|exact V].
    - exists (EBin OSub e (EInt 1)). cbn [minus repr]. split; [|cbn [pev]; rewrite V; reflexivity].
      apply (Pr_down 0 9); [lia|lia|]. apply (Pr_bin OSub); [reflexivity|exact (Pr_down 9 13 _ _ ltac:(lia) ltac:(lia) P)|].
      exact (Pr_down 10 13 _ _ ltac:(lia) ltac:(lia) (Pr_intt 1)). }
  destruct X as (e & P & V). apply (value_of env 13 _ (ESlice ea (Some e) None)); [lia|exact (Pr_from _ _ _ _ Pa P)|].
  cbn [pev]. rewrite Va, V, py_slice_from by lia. reflexivity.
Qed.
Print Assumptions C43_substr_rest.

Lemma py_slice_mid {A} (l : list A) i n : 0 <= i -> 0 <= n -> py_slice l (Some i) (Some (n + i)) = firstn (Z.to_nat n) (skipn (Z.to_nat i) l).
Proof.
  intros Hi Hn. unfold py_slice, slice_bound. set (L := zlen l). assert (HL : L = Z.of_nat (length l)) by reflexivity. cbn zeta.
  destruct (Z.ltb_spec i 0); [lia|]. destruct (Z.ltb_spec (n + i) 0); [lia|].
  destruct (Z.le_gt_cases L i) as [Hg|Hg].
  - replace (skipn (Z.to_nat i) l) with (@nil A) by (symmetry; apply skipn_all2; lia). rewrite firstn_nil.
    replace (skipn (Z.to_nat (Z.max 0 (Z.min L i))) l) with (@nil A) by (symmetry; apply skipn_all2; lia). apply firstn_nil.
  - replace (Z.max 0 (Z.min L i)) with i by lia.
    destruct (Z.le_gt_cases (n + i) L) as [Hm|Hm].
    + replace (Z.to_nat (Z.max 0 (Z.min L (n + i)) - i)) with (Z.to_nat n) by lia. reflexivity.
    + rewrite !firstn_all2; [reflexivity| |]; rewrite skipn_length; lia.
Qed.
Lemma firstn1_nth (s : pystr) k : 0 <= k < zlen s -> exists c, py_nth s k = Ok c /\ firstn 1 (skipn (Z.to_nat k) s) = [c].
Proof.
  intros [H1 H2]. rewrite py_nth_nonneg by exact H1. unfold zlen in H2.
  destruct (nth_error s (Z.to_nat k)) as [c|] eqn:E; [|apply nth_error_None in E; lia].
  exists c. split; [reflexivity|]. apply nth_error_split in E as (l1 & l2 & -> & <-). rewrite skipn_app, skipn_all, Nat.sub_diag. reflexivity.
Qed.
(** SUBSTR with a length.  A literal length of 1 becomes an index, which needs the position to exist. *)
Theorem C43_substr_partial lib env a b c s k n : text lib env a s -> number lib env b k -> number lib env c n -> 1 <= k -> 0 <= n ->
  (k <= zlen s \/ n <> 1) ->
  py_value env (code lib (call "substr" [a; b; c])) (PS (fox_substr s k n)).
Proof.
  intros Ha Hb Hc Hk Hn Hx. destruct (atomic_clean_atomic env lib a s Ha) as (ea & Pa & Va).
  set (va := conv lib false (clean a)) in *. set (from := minus (int_of (conv lib false (clean b))) (VInt 1)). set (len := int_of (conv lib false (clean c))).
  change (code lib (call "substr" [a; b; c])) with
    (repr (if is_int len 1 then VCode (index (repr va) (repr from)) else if is_int from 0 then VCode (slice_to (repr va) (repr len))
           else VCode (slice (repr va) (repr from) (repr (plus len from))))).
  assert (Xf : from = VInt (k - 1) \/ exists ts e, from = VCode (ts ++ [Op OSub; IntT 1]) /\ Pr 13 ts e /\ pev env e = Some (PI k)).
  { unfold from. destruct (int_of_ok env lib b k Hb) as [-> | (ts & e & -> & P & V)]; [left; reflexivity|right; exists ts, e; split; [reflexivity|split; assumption]]. }
  assert (Xl : exists e, Pr 11 (repr len) e /\ pev env e = Some (PI n)) by exact (ti_ok env lib c n Hc).
  assert (Xl' : len = VInt n \/ exists ts, len = VCode ts).
  { unfold len. destruct (int_of_ok env lib c n Hc) as [-> | (ts & e & -> & _)]; [left; reflexivity|right; exists ts; reflexivity]. }
  destruct Xl as (el & Pl & Vl).
  assert (Xe : exists e, Pr 9 (repr from) e /\ pev env e = Some (PI (k - 1))).
  { destruct Xf as [-> | (ts & e & -> & P & V)].
    - destruct (repr_int_ok env (k - 1)) as (e & P & V). exists e. split; [exact (Pr_down 9 11 _ _ ltac:(lia) ltac:(lia) P)|exact V].
    - exists (EBin OSub e (EInt 1)). split; [|cbn [pev]; rewrite V; reflexivity].
      apply (Pr_bin OSub); [reflexivity|exact (Pr_down 9 13 _ _ ltac:(lia) ltac:(lia) P)|exact (Pr_down 10 13 _ _ ltac:(lia) ltac:(lia) (Pr_intt 1))]. }
  destruct Xe as (ef & Pf & Vf). pose proof (Pr_down 0 9 _ _ ltac:(lia) ltac:(lia) Pf) as Pf0. pose proof (Pr_down 0 11 _ _ ltac:(lia) ltac:(lia) Pl) as Pl0.
  destruct (is_int len 1) eqn:E1.
  - assert (n = 1). { destruct Xl' as [E|[ts E]]; rewrite E in E1; [apply Z.eqb_eq in E1; exact E1|discriminate E1]. } subst n.
    destruct Hx as [Hx|Hx]; [|contradiction]. destruct (firstn1_nth s (k - 1) ltac:(lia)) as (ch & N & F).
    apply (value_of env 13 _ (EIdx ea ef)); [lia|exact (Pr_idx _ _ _ _ Pa Pf0)|]. cbn [pev]. rewrite Va, Vf, N. unfold fox_substr. cbn [Z.to_nat] in *.
    change (Pos.to_nat 1) with 1%nat. rewrite F. reflexivity.
  - destruct (is_int from 0) eqn:E0.
    + assert (k = 1). { destruct Xf as [E|(ts & e & E & _)]; rewrite E in E0; [apply Z.eqb_eq in E0; lia|discriminate E0]. } subst k.
      apply (value_of env 13 _ (ESlice ea None (Some el))); [lia|exact (Pr_upto _ _ _ _ Pa Pl0)|]. cbn [pev]. rewrite Va, Vl, py_slice_to by exact Hn. reflexivity.
    + assert (Xs : exists e, Pr 0 (repr (plus len from)) e /\ pev env e = Some (PI (n + (k - 1)))).
      { assert (L9 : Pr 9 (repr len) el) by exact (Pr_down 9 11 _ _ ltac:(lia) ltac:(lia) Pl).
        destruct Xf as [E|(ts & e & E & P & V)]; rewrite E in *.
        - destruct Xl' as [E'|[ts' E']]; rewrite E' in *.
          + cbn [plus repr]. destruct (repr_int_ok env (n + (k - 1))) as (e & P & V). exists e. split; [exact (Pr_down 0 11 _ _ ltac:(lia) ltac:(lia) P)|exact V].
          + cbn [plus repr] in *. destruct (repr_int_ok env (k - 1)) as (e & P & V). exists (EBin OAdd el e). split.
            * apply (Pr_down 0 9); [lia|lia|]. apply (Pr_bin OAdd); [reflexivity|exact L9|exact (Pr_down 10 11 _ _ ltac:(lia) ltac:(lia) P)].
            * cbn [pev]. rewrite Vl, V. reflexivity.
        - exists (EBin OSub (EBin OAdd el e) (EInt 1)). split.
          + assert (Q : repr (plus len (VCode (ts ++ [Op OSub; IntT 1]))) = (repr len ++ Op OAdd :: ts) ++ [Op OSub; IntT 1]).
            { destruct Xl' as [E'|[ts' E']]; rewrite E'; cbn [plus repr]; rewrite <- app_assoc; reflexivity. }
            rewrite Q. apply (Pr_down 0 9); [lia|lia|]. apply (Pr_bin OSub); [reflexivity| |exact (Pr_down 10 13 _ _ ltac:(lia) ltac:(lia) (Pr_intt 1))].
            apply (Pr_bin OAdd); [reflexivity|exact L9|exact (Pr_down 10 13 _ _ ltac:(lia) ltac:(lia) P)].
          + cbn [pev]. rewrite Vl, V. cbn [bin]. do 2 f_equal. lia. }
      destruct Xs as (es & Ps & Vs). apply (value_of env 13 _ (ESlice ea (Some ef) (Some es))); [lia|exact (Pr_slice _ _ _ _ _ _ Pa Pf0 Ps)|].
      cbn [pev]. rewrite Va, Vf, Vs, py_slice_mid by lia. reflexivity.
Qed.
Print Assumptions C43_substr_partial.
(** SUBSTR(s, k, 1) behind the end of s: FoxPro gives the empty string, the emitted code raises. *)
Theorem C43_substr_one_refuted lib env a b s k : text lib env a s -> number lib env b k -> zlen s < k ->
  fox_substr s k 1 = [] /\ forall v, ~ py_value env (code lib (call "substr" [a; b; CInt 1])) v.
Proof.
  intros Ha Hb Hk. split.
  - unfold fox_substr. rewrite skipn_all2; [apply firstn_nil|]. unfold zlen in Hk. lia.
  - destruct (atomic_clean_atomic env lib a s Ha) as (ea & Pa & Va). set (va := conv lib false (clean a)) in *.
    assert (X : exists e, Pr 0 (repr (minus (int_of (conv lib false (clean b))) (VInt 1))) e /\ pev env e = Some (PI (k - 1))).
    { destruct (int_of_ok env lib b k Hb) as [-> | (ts & e & -> & P & V)].
      - cbn [minus repr]. destruct (repr_int_ok env (k - 1)) as (e & P & V). exists e. split; [exact (Pr_down 0 11 _ _ ltac:(lia) ltac:(lia) P)|exact V].
      - exists (EBin OSub e (EInt 1)). cbn [minus repr]. split; [|cbn [pev]; rewrite V; reflexivity].
        apply (Pr_down 0 9); [lia|lia|]. apply (Pr_bin OSub); [reflexivity|exact (Pr_down 9 13 _ _ ltac:(lia) ltac:(lia) P)|].
        exact (Pr_down 10 13 _ _ ltac:(lia) ltac:(lia) (Pr_intt 1)). }
    destruct X as (e & P & V). intros v [e' [Pe' Ve']].
    change (code lib (call "substr" [a; b; CInt 1])) with (index (repr va) (repr (minus (int_of (conv lib false (clean b))) (VInt 1)))) in Pe'.
    pose proof (Pr_parse 13 _ _ ltac:(lia) (Pr_idx _ _ _ _ Pa P)) as Q. unfold index in Pe'. rewrite (py_parse_det _ _ _ Pe' Q) in Ve'.
    cbn [pev] in Ve'. rewrite Va, V in Ve'. rewrite py_nth_nonneg in Ve' by (pose proof (zlen_nonneg s); lia).
    destruct (nth_error s (Z.to_nat (k - 1))) eqn:E; [|discriminate Ve']. assert (N : (Z.to_nat (k - 1) < length s)%nat) by (apply nth_error_Some; congruence).
    unfold zlen in Hk. lia.
Qed.
Print Assumptions C43_substr_one_refuted.

Lemma find_at s x : fox_at x s (str_find s x + 1).
Proof.
  pose proof (find_nat_spec s x) as H. unfold str_find. destruct (find_nat s x) as [k|]; cbn [z_of_find].
  - right. exists k. split; [reflexivity|]. exact H.
  - left. split; [lia|]. exact H.
Qed.
Lemma rfind_rat s x : fox_rat x s (str_rfind s x + 1).
Proof.
  pose proof (rfind_nat_spec s x) as H. unfold str_rfind. destruct (rfind_nat s x) as [k|]; cbn [z_of_find].
  - right. exists k. split; [reflexivity|]. exact H.
  - left. split; [lia|]. exact H.
Qed.
Lemma at_code lib env a b s x m v : string_ lib env a x -> text lib env b s -> meth s (u m) [PS x] = Some (PI v) ->
  py_value env (repr (method (repr (conv lib false (clean b))) m [conv lib false (clean a)]) ++ [Op OAdd; IntT 1]) (PI (v + 1)).
Proof.
  intros Ha Hb M. destruct (atomic_clean_atomic env lib b s Hb) as (eb & Pb & Vb). destruct (Pr0_str env lib a x Ha) as (ea & Pa & Va).
  destruct (meth_ok env _ eb s m [conv lib false (clean a)] [ea] [PS x] (PI v) Pb Vb) as (e & P & V).
  - repeat constructor; [exact (proj1 Pa)|exact (proj2 Pa)].
  - cbn [evall]. rewrite Va. reflexivity.
  - exact M.
  - apply (value_of env 9 _ (EBin OAdd e (EInt 1))); [lia| |cbn [pev]; rewrite V; reflexivity].
    apply (Pr_bin OAdd); [reflexivity|exact (Pr_down 9 13 _ _ ltac:(lia) ltac:(lia) P)|exact (Pr_down 10 13 _ _ ltac:(lia) ltac:(lia) (Pr_intt 1))].
Qed.
Theorem C43_at lib env a b s x : string_ lib env a x -> text lib env b s -> x <> [] ->
  exists p, py_value env (code lib (call "at" [a; b])) (PI p) /\ fox_at x s p.
Proof. intros Ha Hb _. exists (str_find s x + 1). split; [|apply find_at]. exact (at_code lib env a b s x "find" _ Ha Hb eq_refl). Qed.
Print Assumptions C43_at.
Theorem C43_rat lib env a b s x : string_ lib env a x -> text lib env b s -> x <> [] ->
  exists p, py_value env (code lib (call "rat" [a; b])) (PI p) /\ fox_rat x s p.
Proof. intros Ha Hb _. exists (str_rfind s x + 1). split; [|apply rfind_rat]. exact (at_code lib env a b s x "rfind" _ Ha Hb eq_refl). Qed.
Print Assumptions C43_rat.
(** AT(x, s, n): the occurrence number is dropped; the result is never the position of a second or later occurrence. *)
Theorem C43_at_occurrence_refuted lib env a b c s x : string_ lib env a x -> text lib env b s -> x <> [] ->
  forall p k, py_value env (code lib (call "at" [a; b; c])) (PI p) -> occurs_at s x k -> (exists j, (j < k)%nat /\ occurs_at s x j) -> p <> Z.of_nat k + 1.
Proof.
  intros Ha Hb Hx p k [e [Pe Ve]] Hk [j [Hj Oj]].
  destruct (at_code lib env a b s x "find" _ Ha Hb eq_refl) as [e' [Pe' Ve']].
  change (code lib (call "at" [a; b; c])) with (repr (method (repr (conv lib false (clean b))) "find" [conv lib false (clean a)]) ++ [Op OAdd; IntT 1]) in Pe.
  rewrite (py_parse_det _ _ _ Pe Pe'), Ve' in Ve. injection Ve as <-. destruct (find_at s x) as [[_ N]|(i & E & O & N)].
  - exfalso. exact (N k Hk).
  - intros E'. assert (i = k) by lia. subst i. exact (N j Hj Oj).
Qed.
Print Assumptions C43_at_occurrence_refuted.
Example C43_at_occurrence_example : occurs_at (u "banana") (u "an") 3 /\ exists j, (j < 3)%nat /\ occurs_at (u "banana") (u "an") j.
Proof. split; [exists (u "ban"), (u "a"); split; reflexivity|]. exists 1%nat. split; [lia|]. exists (u "b"), (u "ana"). split; reflexivity. Qed.
(** AT of an empty string is 1 instead of 0. *)
Theorem C43_at_empty_refuted lib env a b s : string_ lib env a [] -> text lib env b s -> py_value env (code lib (call "at" [a; b])) (PI 1).
Proof.
  intros Ha Hb. replace 1 with (str_find s [] + 1) by (destruct s; reflexivity). exact (at_code lib env a b s [] "find" _ Ha Hb eq_refl).
Qed.
Print Assumptions C43_at_empty_refuted.

Lemma count_skip x (s : pystr) k : count_from k s x = count_from 0 (skipn k s) x.
Proof. revert k. induction s as [|c s IH]; intros k; [destruct k; reflexivity|]. destruct k; [reflexivity|]. cbn [count_from skipn]. apply IH. Qed.
Lemma count_occurs x (Hx : x <> []) : forall n s, (length s <= n)%nat -> fox_occurs x s (count_from 0 s x).
Proof.
  induction n as [|n IH]; intros s Hl.
  - destruct s; [|cbn in Hl; lia]. apply occ_none. intros k H. apply occurs_at_nil in H as [H _]. contradiction.
  - assert (G : forall s, (length s <= S n)%nat -> (exists a b, s = a ++ x ++ b /\ (forall j, (j < length a)%nat -> ~ occurs_at s x j) /\ count_from 0 s x = 1 + count_from 0 b x)
              \/ ((forall k, ~ occurs_at s x k) /\ count_from 0 s x = 0)).
    { clear s Hl. induction s as [|c s IHs]; intros Hl.
      - right. split; [|reflexivity]. intros k H. apply occurs_at_nil in H as [H _]. contradiction.
      - destruct (prefixb x (c :: s)) eqn:Ep.
        + left. apply prefixb_spec in Ep as E. destruct E as [t E]. exists [], t. split; [exact E|]. split; [cbn; lia|]. cbn [count_from]. rewrite Ep.
          f_equal. rewrite count_skip. f_equal. destruct x as [|d x]; [contradiction|]. cbn [app] in E. injection E as _ ->. cbn [length].
          replace (S (length x) - 1)%nat with (length x) by lia. rewrite skipn_app, skipn_all, Nat.sub_diag. reflexivity.
        + cbn [length] in Hl. destruct (IHs ltac:(lia)) as [(a & b & E & N & C)|[N C]].
          * left. exists (c :: a), b. split; [rewrite E; reflexivity|]. split.
            -- intros j Hj O. destruct j as [|j]; [apply occurs_at_0 in O; congruence|]. apply (proj1 (occurs_at_S c s x j)) in O. cbn [length] in Hj. apply (N j); [lia|exact O].
            -- cbn [count_from]. rewrite Ep. exact C.
          * right. split; [|cbn [count_from]; rewrite Ep; exact C]. intros [|j] O; [apply occurs_at_0 in O; congruence|]. apply (proj1 (occurs_at_S c s x j)) in O. exact (N j O). }
    destruct (G s Hl) as [(a & b & E & N & C)|[N C]].
    + rewrite C, Z.add_comm, E. apply occ_one; [rewrite <- E; exact N|]. apply IH. rewrite E, !app_length in Hl. destruct x; [contradiction|]. cbn [length] in Hl. lia.
    + rewrite C. apply occ_none. exact N.
Qed.
Theorem C43_occurs lib env a b s x : string_ lib env a x -> text lib env b s -> x <> [] ->
  exists n, py_value env (code lib (call "occurs" [a; b])) (PI n) /\ fox_occurs x s n.
Proof.
  intros Ha Hb Hx. exists (str_count s x). split.
  - destruct (atomic_clean_atomic env lib b s Hb) as (eb & Pb & Vb). destruct (Pr0_str env lib a x Ha) as (ea & Pa & Va).
    destruct (meth_ok env _ eb s "count" [conv lib false (clean a)] [ea] [PS x] (PI (str_count s x)) Pb Vb) as (e & P & V).
    + repeat constructor; [exact (proj1 Pa)|exact (proj2 Pa)].
    + cbn [evall]. rewrite Va. reflexivity.
    + reflexivity.
    + exact (value_of env 13 _ e _ ltac:(lia) P V).
  - unfold str_count. destruct x as [|c x]; [contradiction|]. apply (count_occurs (c :: x) Hx (length s)). lia.
Qed.
Print Assumptions C43_occurs.

Lemma concat_single (n : nat) : concat (repeat [32] n) = repeat 32 n.
Proof. induction n as [|n IH]; [reflexivity|]. cbn [repeat concat app]. rewrite IH. reflexivity. Qed.
Theorem C43_space lib env a n : number lib env a n -> 0 <= n -> py_value env (code lib (call "space" [a])) (PS (repeat 32 (Z.to_nat n))).
Proof.
  intros Ha Hn. change (code lib (call "space" [a])) with (repr (match int_of (conv lib false (clean a)) with
    | VInt k => if 8 <? k then VCode (IntT k :: Op OMul :: [StrT (u " ")]) else VStr (py_repeat 32 k) | v => VCode (bin_code OMul (repr v) [StrT (u " ")]) end)).
  assert (S10 : Pr 11 [StrT (u " ")] (EStr (u " "))) by exact (Pr_down 11 13 _ _ ltac:(lia) ltac:(lia) (Pr_str _)).
  destruct (int_of_ok env lib a n Ha) as [-> | (ts & e & -> & P & V)].
  - destruct (8 <? n).
    + apply (value_of env 10 _ (EBin OMul (EInt n) (EStr (u " ")))); [lia| |].
      * exact (Pr_bin OMul [IntT n] _ _ _ eq_refl (Pr_down 10 13 _ _ ltac:(lia) ltac:(lia) (Pr_intt n)) S10).
      * cbn [pev bin]. unfold py_repeat. change (u " ") with [32]. rewrite concat_single. reflexivity.
    + exact (value_of env 13 _ (EStr (py_repeat 32 n)) _ ltac:(lia) (Pr_str _) eq_refl).
  - apply (value_of env 10 _ (EBin OMul e (EStr (u " ")))); [lia| |].
    + exact (Pr_bin OMul _ _ _ _ eq_refl (Pr_down 10 13 _ _ ltac:(lia) ltac:(lia) P) S10).
    + cbn [pev]. rewrite V. cbn [bin]. unfold py_repeat. change (u " ") with [32]. rewrite concat_single. reflexivity.
Qed.
Print Assumptions C43_space.
Theorem C43_replicate lib env a b s n : text lib env a s -> number lib env b n -> 0 <= n ->
  py_value env (code lib (call "replicate" [a; b])) (PS (fox_replicate s n)).
Proof.
  intros Ha Hb Hn. destruct (atomic_clean_atomic env lib a s Ha) as (ea & Pa & Va). destruct (ti_ok env lib b n Hb) as (eb & Pb & Vb).
  apply (value_of env 10 _ (EBin OMul ea eb)); [lia| |].
  - exact (Pr_bin OMul _ _ _ _ eq_refl (Pr_down 10 13 _ _ ltac:(lia) ltac:(lia) Pa) Pb).
  - cbn [pev]. rewrite Va, Vb. reflexivity.
Qed.
Print Assumptions C43_replicate.

(** PADL and PADR, with and without a fill character, when the result is not shorter than the text *)
Lemma pad_code lib env f m a b s n v : (forall args, func_call lib (u f) args = method (arg args 0) m (tl args)) -> text lib env a s -> number lib env b n ->
  meth s (u m) [PI n] = Some v -> py_value env (code lib (call f [a; b])) v.
Proof.
  intros F Ha Hb M. destruct (atomic_clean_atomic env lib a s Ha) as (ea & Pa & Va). destruct (Pr0_num env lib b n Hb) as (eb & Pb & Vb).
  destruct (meth_ok env _ ea s m [conv lib false (clean b)] [eb] [PI n] v Pa Va) as (e & P & V).
  - repeat constructor; [exact (proj1 Pb)|exact (proj2 Pb)].
  - cbn [evall]. rewrite Vb. reflexivity.
  - exact M.
  - change (code lib (call f [a; b])) with (repr (func_call lib (u f) [conv lib false (clean a); conv lib false (clean b)])). rewrite F. exact (value_of env 13 _ e _ ltac:(lia) P V).
Qed.
Lemma pad_code2 lib env f m a b c s n x v : (forall args, func_call lib (u f) args = method (arg args 0) m (tl args)) -> text lib env a s -> number lib env b n -> string_ lib env c x ->
  meth s (u m) [PI n; PS x] = Some v -> py_value env (code lib (call f [a; b; c])) v.
Proof.
  intros F Ha Hb Hc M. destruct (atomic_clean_atomic env lib a s Ha) as (ea & Pa & Va). destruct (Pr0_num env lib b n Hb) as (eb & Pb & Vb). destruct (Pr0_str env lib c x Hc) as (ec & Pc & Vc).
  destruct (meth_ok env _ ea s m [conv lib false (clean b); conv lib false (clean c)] [eb; ec] [PI n; PS x] v Pa Va) as (e & P & V).
  - constructor; [exact Pb|constructor; [exact Pc|constructor]].
  - cbn [evall]. rewrite Vb, Vc. reflexivity.
  - exact M.
  - change (code lib (call f [a; b; c])) with (repr (func_call lib (u f) [conv lib false (clean a); conv lib false (clean b); conv lib false (clean c)])). rewrite F. exact (value_of env 13 _ e _ ltac:(lia) P V).
Qed.
Lemma padl_long s n c : zlen s <= n -> py_repeat c (n - zlen s) ++ s = fox_padl s n c.
Proof.
  intros H. unfold fox_padl, py_repeat. destruct (Z.ltb_spec (zlen s) n); [reflexivity|]. assert (n = zlen s) by lia. subst n. rewrite Z.sub_diag. cbn. unfold zlen. rewrite Nat2Z.id, firstn_all. reflexivity.
Qed.
Lemma padr_long s n c : zlen s <= n -> s ++ py_repeat c (n - zlen s) = fox_padr s n c.
Proof.
  intros H. unfold fox_padr, py_repeat. destruct (Z.ltb_spec (zlen s) n); [reflexivity|]. assert (n = zlen s) by lia. subst n. rewrite Z.sub_diag. cbn. unfold zlen. rewrite Nat2Z.id, firstn_all, app_nil_r. reflexivity.
Qed.
Theorem C43_pad_partial lib env a b s n : text lib env a s -> number lib env b n -> zlen s <= n ->
  py_value env (code lib (call "padl" [a; b])) (PS (fox_padl s n 32)) /\ py_value env (code lib (call "padr" [a; b])) (PS (fox_padr s n 32)) /\
  forall c x, string_ lib env c [x] ->
    py_value env (code lib (call "padl" [a; b; c])) (PS (fox_padl s n x)) /\ py_value env (code lib (call "padr" [a; b; c])) (PS (fox_padr s n x)).
Proof.
  intros Ha Hb Hn. split; [|split].
  - rewrite <- padl_long by exact Hn. exact (pad_code lib env "padl" "rjust" a b s n _ (fun _ => eq_refl) Ha Hb eq_refl).
  - rewrite <- padr_long by exact Hn. exact (pad_code lib env "padr" "ljust" a b s n _ (fun _ => eq_refl) Ha Hb eq_refl).
  - intros c x Hc. split.
    + rewrite <- padl_long by exact Hn. exact (pad_code2 lib env "padl" "rjust" a b c s n [x] _ (fun _ => eq_refl) Ha Hb Hc eq_refl).
    + rewrite <- padr_long by exact Hn. exact (pad_code2 lib env "padr" "ljust" a b c s n [x] _ (fun _ => eq_refl) Ha Hb Hc eq_refl).
Qed.
Print Assumptions C43_pad_partial.
(** Neither truncates a longer text, as FoxPro does. *)
Theorem C43_pad_truncation_refuted lib env a b s n : text lib env a s -> number lib env b n -> 0 <= n < zlen s ->
  (py_value env (code lib (call "padl" [a; b])) (PS s) /\ py_value env (code lib (call "padr" [a; b])) (PS s)) /\
  fox_padl s n 32 <> s /\ fox_padr s n 32 <> s.
Proof.
  intros Ha Hb Hn. assert (R : py_repeat 32 (n - zlen s) = []) by (unfold py_repeat; replace (Z.to_nat (n - zlen s)) with 0%nat by lia; reflexivity).
  split; [split|].
  - replace s with (py_repeat 32 (n - zlen s) ++ s) at 1 by (rewrite R; reflexivity). exact (pad_code lib env "padl" "rjust" a b s n _ (fun _ => eq_refl) Ha Hb eq_refl).
  - replace s with (s ++ py_repeat 32 (n - zlen s)) at 1 by (rewrite R; apply app_nil_r). exact (pad_code lib env "padr" "ljust" a b s n _ (fun _ => eq_refl) Ha Hb eq_refl).
  - assert (X : firstn (Z.to_nat n) s <> s). { intros E. apply (f_equal (@length Z)) in E. rewrite firstn_length in E. unfold zlen in Hn. lia. }
    unfold fox_padl, fox_padr. destruct (Z.ltb_spec (zlen s) n); [lia|]. split; exact X.
Qed.
Print Assumptions C43_pad_truncation_refuted.

Definition no_lib : pystr -> bool := fun _ => false.
Definition abc_env : pystr -> option pval := fun x => if pystr_eqb x (u "s") then Some (PS (u "banana")) else if pystr_eqb x (u "n") then Some (PI 3) else None.
Example C43_text_example : text no_lib abc_env (CVar (u "s")) (u "banana") /\ text no_lib abc_env (CStr (u "an")) (u "an") /\
  number no_lib abc_env (CVar (u "n")) 3 /\ number no_lib abc_env (CBin OAdd (CVar (u "n")) (CInt 1)) 4 /\ number no_lib abc_env (CInt 10) 10.
Proof. unfold text, number. repeat split; cbn; try lia; auto. Qed.
Example C43_example :
  py_value abc_env (code no_lib (call "substr" [CVar (u "s"); CBin OSub (CVar (u "n")) (CInt 1); CInt 2])) (PS (u "an")) /\
  py_value abc_env (code no_lib (call "rat" [CStr (u "an"); CVar (u "s")])) (PI 4) /\
  py_value abc_env (code no_lib (call "padl" [CVar (u "s"); CInt 8; CStr (u "*")])) (PS (u "**banana")).
Proof.
  split; [|split]; eexists; (split; [apply (parses 200); intros m; vm_compute; reflexivity|vm_compute; reflexivity]).
Qed.

(** * C44 *)
Lemma paren_bin env o a ea b eb x y v : loopb (level o) = true -> match o with OAnd | OOr => false | _ => true end = true ->
  Pr (level o) a ea -> Pr (S (level o)) b eb -> pev env ea = Some x -> pev env eb = Some y -> bin o x y = Some v ->
  exists e, Pr 13 (paren (bin_code o a b)) e /\ pev env e = Some v.
Proof.
  intros L N Pa Pb Va Vb B. exists (EBin o ea eb). split; [|rewrite pev_bin, Va, Vb by exact N; exact B].
  apply Pr_paren. apply (Pr_down 0 (level o)); [lia|destruct o; cbn; lia|]. exact (Pr_bin o _ _ _ _ L Pa Pb).
Qed.
Lemma one_shl env lib b k : number lib env b k -> 0 <= k ->
  exists e, Pr 13 (paren (bin_code OShl [IntT 1] (repr (int_of (conv lib false (clean b)))))) e /\ pev env e = Some (PI (2 ^ k)).
Proof.
  intros Hb Hk. destruct (ti_ok env lib b k Hb) as (eb & Pb & Vb).
  apply (paren_bin env OShl [IntT 1] (EInt 1) _ eb (PI 1) (PI k)); try reflexivity.
  - exact (Pr_down 8 13 _ _ ltac:(lia) ltac:(lia) (Pr_intt 1)).
  - exact (Pr_down 9 11 _ _ ltac:(lia) ltac:(lia) Pb).
  - exact Vb.
  - cbn [bin]. destruct (Z.ltb_spec k 0); [lia|]. rewrite Z.mul_1_l. reflexivity.
Qed.
Lemma pow2_bit k i : 0 <= k -> Z.testbit (2 ^ k) i = (i =? k).
Proof. intros H. rewrite Z.pow2_bits_eqb by exact H. apply Z.eqb_sym. Qed.
(** BITSET sets bit k and leaves the others. *)
Theorem C44_bitset lib env a b x k : number lib env a x -> number lib env b k -> 0 <= k ->
  exists r, py_value env (code lib (call "bitset" [a; b])) (PI r) /\ forall i, 0 <= i -> Z.testbit r i = if i =? k then true else Z.testbit x i.
Proof.
  intros Ha Hb Hk. destruct (ti_ok env lib a x Ha) as (ea & Pa & Va). destruct (one_shl env lib b k Hb Hk) as (eb & Pb & Vb).
  destruct (paren_bin env OBor _ ea _ eb _ _ (PI (Z.lor x (2 ^ k))) eq_refl eq_refl (Pr_down 5 11 _ _ ltac:(lia) ltac:(lia) Pa) (Pr_down 6 13 _ _ ltac:(lia) ltac:(lia) Pb) Va Vb eq_refl) as (e & P & V).
  exists (Z.lor x (2 ^ k)). split; [exact (value_of env 13 _ e _ ltac:(lia) P V)|].
  intros i Hi. rewrite Z.lor_spec, pow2_bit by exact Hk. destruct (i =? k); [apply orb_true_r|apply orb_false_r].
Qed.
Print Assumptions C44_bitset.
(** BITCLEAR clears bit k and leaves the other 32 bits. *)
Lemma bitclear_code lib env a b x k : number lib env a x -> number lib env b k -> 0 <= k ->
  py_value env (code lib (call "bitclear" [a; b])) (PI (Z.land x (Z.lxor (2 ^ k) 4294967295))).
Proof.
  intros Ha Hb Hk. destruct (ti_ok env lib a x Ha) as (ea & Pa & Va). destruct (one_shl env lib b k Hb Hk) as (eb & Pb & Vb).
  destruct (paren_bin env OBxor _ eb [IntT 4294967295] (EInt 4294967295) _ (PI 4294967295) (PI (Z.lxor (2 ^ k) 4294967295)) eq_refl eq_refl
    (Pr_down 6 13 _ _ ltac:(lia) ltac:(lia) Pb) (Pr_down 7 13 _ _ ltac:(lia) ltac:(lia) (Pr_intt _)) Vb eq_refl eq_refl) as (em & Pm & Vm).
  destruct (paren_bin env OBand _ ea _ em _ _ (PI (Z.land x (Z.lxor (2 ^ k) 4294967295))) eq_refl eq_refl (Pr_down 7 11 _ _ ltac:(lia) ltac:(lia) Pa) (Pr_down 8 13 _ _ ltac:(lia) ltac:(lia) Pm) Va Vm eq_refl) as (e & P & V).
  exact (value_of env 13 _ e _ ltac:(lia) P V).
Qed.
Lemma mask_bit i : 0 <= i -> Z.testbit 4294967295 i = (i <? 32).
Proof.
  intros H. change 4294967295 with (Z.ones 32). destruct (Z.ltb_spec i 32); [apply Z.ones_spec_low; lia|apply Z.ones_spec_high; lia].
Qed.
Theorem C44_bitclear_partial lib env a b x k : number lib env a x -> number lib env b k -> 0 <= k < 32 ->
  exists r, py_value env (code lib (call "bitclear" [a; b])) (PI r) /\
    (forall i, 0 <= i < 32 -> Z.testbit r i = if i =? k then false else Z.testbit x i) /\
    (0 <= x < 2 ^ 32 -> forall i, 0 <= i -> Z.testbit r i = if i =? k then false else Z.testbit x i).
Proof.
  intros Ha Hb Hk. eexists. split; [apply bitclear_code; [exact Ha|exact Hb|lia]|].
  assert (X : forall i, 0 <= i < 32 -> Z.testbit (Z.land x (Z.lxor (2 ^ k) 4294967295)) i = if i =? k then false else Z.testbit x i).
  { intros i Hi. rewrite Z.land_spec, Z.lxor_spec, pow2_bit, mask_bit by lia. destruct (Z.ltb_spec i 32); [|lia].
    destruct (i =? k); cbn; [apply andb_false_r|apply andb_true_r]. }
  split; [exact X|]. intros Hx i Hi. destruct (Z.lt_ge_cases i 32); [apply X; lia|].
  assert (B : Z.testbit x i = false).
  { destruct (Z.eq_dec x 0) as [->|]; [apply Z.bits_0|]. apply Z.bits_above_log2; [lia|]. assert (Z.log2 x < 32) by (apply Z.log2_lt_pow2; lia). lia. }
  rewrite Z.land_spec, B. destruct (i =? k); reflexivity.
Qed.
Print Assumptions C44_bitclear_partial.
(** FoxPro's integers are signed 32-bit numbers: BITCLEAR of a negative one comes out as a number beyond their range. *)
Theorem C44_bitclear_negative_refuted lib env a b x k : number lib env a x -> number lib env b k -> 0 <= k < 31 -> - 2 ^ 31 <= x < 0 ->
  exists r, py_value env (code lib (call "bitclear" [a; b])) (PI r) /\ 2 ^ 31 <= r.
Proof.
  intros Ha Hb Hk Hx. eexists. split; [apply bitclear_code; [exact Ha|exact Hb|lia]|].
  set (r := Z.land x (Z.lxor (2 ^ k) 4294967295)).
  assert (B : Z.testbit r 31 = true).
  { unfold r. rewrite Z.land_spec, Z.lxor_spec, pow2_bit, mask_bit by lia. destruct (Z.eqb_spec 31 k); [lia|]. change (31 <? 32) with true. rewrite xorb_false_l, andb_true_r.
    apply Z.testbit_true; [lia|]. replace (x / 2 ^ 31) with (-1); [reflexivity|]. apply (Z.div_unique_pos x (2 ^ 31) (-1) (x + 2 ^ 31)); lia. }
  assert (N : 0 <= r). { unfold r. apply Z.land_nonneg. right. apply Z.lxor_nonneg. split; intros _; [lia|apply Z.pow_nonneg; lia]. }
  destruct (Z.lt_ge_cases r (2 ^ 31)) as [L|L]; [|exact L]. exfalso. apply Z.testbit_true in B; [|lia]. rewrite Z.div_small in B by lia. discriminate B.
Qed.
Print Assumptions C44_bitclear_negative_refuted.
(** BITTEST tests bit k. *)
Theorem C44_bittest lib env a b x k : number lib env a x -> number lib env b k -> 0 <= k ->
  py_value env (code lib (call "bittest" [a; b])) (PB (Z.testbit x k)).
Proof.
  intros Ha Hb Hk. destruct (ti_ok env lib a x Ha) as (ea & Pa & Va). destruct (one_shl env lib b k Hb Hk) as (eb & Pb & Vb).
  destruct (paren_bin env OBand _ ea _ eb _ _ (PI (Z.land x (2 ^ k))) eq_refl eq_refl (Pr_down 7 11 _ _ ltac:(lia) ltac:(lia) Pa) (Pr_down 8 13 _ _ ltac:(lia) ltac:(lia) Pb) Va Vb eq_refl) as (e & P & V).
  apply (value_of env 13 _ (ECmp e [(OGt, EInt 0)])); [lia| |].
  - apply Pr_paren. apply (Pr_down 0 4); [lia|lia|]. exact (Pr_cmp OGt _ _ _ _ eq_refl (Pr_down 5 13 _ _ ltac:(lia) ltac:(lia) P) (Pr_down 5 13 _ _ ltac:(lia) ltac:(lia) (Pr_intt 0))).
  - rewrite pev_cmp. cbn [chain]. rewrite V. cbn [pev cmp].
    assert (X : (0 <? Z.land x (2 ^ k)) = Z.testbit x k).
    { destruct (Z.testbit x k) eqn:B.
      - assert (E : Z.land x (2 ^ k) = 2 ^ k).
        { apply Z.bits_inj'. intros i Hi. rewrite Z.land_spec, pow2_bit by exact Hk. destruct (Z.eqb_spec i k) as [-> |]; [rewrite B; reflexivity|apply andb_false_r]. }
        rewrite E. apply Z.ltb_lt. apply Z.pow_pos_nonneg; lia.
      - assert (E : Z.land x (2 ^ k) = 0).
        { apply Z.bits_inj'. intros i Hi. rewrite Z.land_spec, pow2_bit, Z.bits_0 by exact Hk. destruct (Z.eqb_spec i k) as [-> |]; [rewrite B; reflexivity|apply andb_false_r]. }
        rewrite E. reflexivity. }
    rewrite X. destruct (Z.testbit x k); reflexivity.
Qed.
Print Assumptions C44_bittest.
(** BITAND, BITOR, BITXOR work bit by bit. *)
Theorem C44_bitwise lib env a b x y : number lib env a x -> number lib env b y ->
  exists r1 r2 r3, py_value env (code lib (call "bitand" [a; b])) (PI r1) /\ py_value env (code lib (call "bitor" [a; b])) (PI r2) /\ py_value env (code lib (call "bitxor" [a; b])) (PI r3) /\
    forall i, 0 <= i -> Z.testbit r1 i = (Z.testbit x i && Z.testbit y i)%bool /\ Z.testbit r2 i = (Z.testbit x i || Z.testbit y i)%bool /\ Z.testbit r3 i = xorb (Z.testbit x i) (Z.testbit y i).
Proof.
  intros Ha Hb. destruct (ti_ok env lib a x Ha) as (ea & Pa & Va). destruct (ti_ok env lib b y Hb) as (eb & Pb & Vb).
  destruct (paren_bin env OBand _ ea _ eb _ _ (PI (Z.land x y)) eq_refl eq_refl (Pr_down 7 11 _ _ ltac:(lia) ltac:(lia) Pa) (Pr_down 8 11 _ _ ltac:(lia) ltac:(lia) Pb) Va Vb eq_refl) as (e1 & P1 & V1).
  destruct (paren_bin env OBor _ ea _ eb _ _ (PI (Z.lor x y)) eq_refl eq_refl (Pr_down 5 11 _ _ ltac:(lia) ltac:(lia) Pa) (Pr_down 6 11 _ _ ltac:(lia) ltac:(lia) Pb) Va Vb eq_refl) as (e2 & P2 & V2).
  destruct (paren_bin env OBxor _ ea _ eb _ _ (PI (Z.lxor x y)) eq_refl eq_refl (Pr_down 6 11 _ _ ltac:(lia) ltac:(lia) Pa) (Pr_down 7 11 _ _ ltac:(lia) ltac:(lia) Pb) Va Vb eq_refl) as (e3 & P3 & V3).
  exists (Z.land x y), (Z.lor x y), (Z.lxor x y).
  split; [exact (value_of env 13 _ e1 _ ltac:(lia) P1 V1)|]. split; [exact (value_of env 13 _ e2 _ ltac:(lia) P2 V2)|]. split; [exact (value_of env 13 _ e3 _ ltac:(lia) P3 V3)|].
  intros i Hi. rewrite Z.land_spec, Z.lor_spec, Z.lxor_spec. repeat split.
Qed.
Print Assumptions C44_bitwise.
Example C44_example :
  py_value abc_env (code no_lib (call "bitclear" [CInt 255; CVar (u "n")])) (PI 247) /\
  py_value abc_env (code no_lib (call "bitset" [CBin OMul (CVar (u "n")) (CInt 0); CInt 5])) (PI 32) /\
  py_value abc_env (code no_lib (call "bittest" [CSign true (CInt 1); CInt 7])) (PB true).
Proof. split; [|split]; eexists; (split; [apply (parses 200); intros m; vm_compute; reflexivity|vm_compute; reflexivity]). Qed.
