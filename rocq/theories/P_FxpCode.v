(** Proofs about decompiling: fuel, termination, synchronisation of lines. *)
From Verif Require Import PyBase PyStr M_FxpTab M_Fxp M_FxpCode S_Fxp P_FxpBin.
Open Scope Z_scope.
Open Scope res_scope.

(** ** more fuel does not change a result *)
Section Mono.
Variables (o : oracle) (names : list pystr) (f : list Z).
Lemma fuel_mono : forall k,
  (forall k' p st r, (k <= k')%nat -> next_code k o names f p st = Some r -> next_code k' o names f p st = Some r) /\
  (forall k' p st r, (k <= k')%nat -> expr_loop k o names f p st = Some r -> expr_loop k' o names f p st = Some r) /\
  (forall k' p n e line prev r, (k <= k')%nat -> subline k o names f p n e line prev = Some r -> subline k' o names f p n e line prev = Some r).
Proof.
  induction k as [|k (IN & IE & IS)]; [repeat split; intros; discriminate|].
  assert (forall k', (k <= k')%nat -> forall p st r, next_code k o names f p st = Some r -> next_code k' o names f p st = Some r) as JN by eauto.
  assert (forall k', (k <= k')%nat -> forall p st r, expr_loop k o names f p st = Some r -> expr_loop k' o names f p st = Some r) as JE by eauto.
  assert (forall k', (k <= k')%nat -> forall p n e line prev r, subline k o names f p n e line prev = Some r -> subline k' o names f p n e line prev = Some r) as JS by eauto.
  clear IN IE IS.
  repeat split; intros k'; intros; (destruct k' as [|k']; [lia|]);
    (assert (k <= k')%nat as Hk by lia); specialize (JN k' Hk); specialize (JE k' Hk); specialize (JS k' Hk).
  - revert H0. cbn [next_code]. cbv zeta.
    repeat match goal with
    | |- (match next_code k ?a ?b ?c ?d ?e with _ => _ end) = _ -> _ =>
        let E := fresh in destruct (next_code k a b c d e) as [[[[? ?] ?]|]|] eqn:E; [rewrite (JN _ _ _ E)|rewrite (JN _ _ _ E)|discriminate]
    | |- (match expr_loop k ?a ?b ?c ?d ?e with _ => _ end) = _ -> _ =>
        let E := fresh in destruct (expr_loop k a b c d e) as [[[? ?]|]|] eqn:E; [rewrite (JE _ _ _ E)|rewrite (JE _ _ _ E)|discriminate]
    | |- (match subline k ?a ?b ?c ?d ?e ?g ?h ?i with _ => _ end) = _ -> _ =>
        let E := fresh in destruct (subline k a b c d e g h i) as [[[? ?]|]|] eqn:E; [rewrite (JS _ _ _ _ _ _ E)|rewrite (JS _ _ _ _ _ _ E)|discriminate]
    | |- next_code k _ _ _ _ _ = _ -> _ => apply JN
    | |- (match ?x with _ => _ end) = _ -> _ => destruct x
    | |- (if ?x then _ else _) = _ -> _ => destruct x
    | |- (let (_, _) := ?x in _) = _ -> _ => destruct x
    | |- ?x -> ?x => exact (fun h => h)
    end.
  - revert H0. cbn [expr_loop]. destruct (next_code k o names f p st) as [[[[i st'] p']|e]|] eqn:E; [| |discriminate]; rewrite (JN _ _ _ E); [|exact (fun h => h)].
    destruct i; try apply JE. destruct (n =? END_EXPR); [exact (fun h => h)|apply JE].
  - revert H0. cbn [subline]. cbv zeta.
    repeat match goal with
    | |- (match next_code k ?a ?b ?c ?d ?e with _ => _ end) = _ -> _ =>
        let E := fresh in destruct (next_code k a b c d e) as [[[[? ?] ?]|]|] eqn:E; [rewrite (JN _ _ _ E)|rewrite (JN _ _ _ E)|discriminate]
    | |- (match expr_loop k ?a ?b ?c ?d ?e with _ => _ end) = _ -> _ =>
        let E := fresh in destruct (expr_loop k a b c d e) as [[[? ?]|]|] eqn:E; [rewrite (JE _ _ _ E)|rewrite (JE _ _ _ E)|discriminate]
    | |- subline k _ _ _ _ _ _ _ _ = _ -> _ => apply JS
    | |- (match ?x with _ => _ end) = _ -> _ => destruct x
    | |- (if ?x then _ else _) = _ -> _ => destruct x
    | |- (let (_, _) := ?x in _) = _ -> _ => destruct x
    | |- ?x -> ?x => exact (fun h => h)
    end.
Qed.
End Mono.
Lemma next_mono o names f k k' p st r : (k <= k')%nat -> next_code k o names f p st = Some r -> next_code k' o names f p st = Some r.
Proof. apply fuel_mono. Qed.
Lemma expr_mono o names f k k' p st r : (k <= k')%nat -> expr_loop k o names f p st = Some r -> expr_loop k' o names f p st = Some r.
Proof. apply fuel_mono. Qed.

(** ** every reader moves forward *)
Section Progress.
Variables (o : oracle) (names : list pystr) (f : list Z).
Hypothesis HB : bytes f.
Definition fwd {A} (rd : list Z -> Z -> res (A * Z)) : Prop := forall p x p', 0 <= p -> rd f p = Ok (x, p') -> p <= p'.
Lemma fread_fwd n : 0 <= n -> fwd (fun f p => fread f p n).
Proof. intros Hn p x p' Hp E. destruct (fread_len f p n x p' Hp Hn E) as [_ ->]. pose proof (zlen_nonneg x). lia. Qed.
Lemma bind_fwd {A B} (r1 : list Z -> Z -> res (A * Z)) (r2 : A -> list Z -> Z -> res (B * Z)) :
  fwd r1 -> (forall a, fwd (r2 a)) -> fwd (fun f p => do (a, p) <- r1 f p; r2 a f p).
Proof. intros H1 H2 p x p' Hp E. destruct (r1 f p) as [[a q]|] eqn:E1; [|discriminate E]. cbn [rbind] in E. apply H1 in E1; [|exact Hp]. apply H2 in E; lia. Qed.
Lemma ret_fwd {A B} (r : list Z -> Z -> res (A * Z)) (g : A -> B) : fwd r -> fwd (fun f p => do (a, p) <- r f p; Ok (g a, p)).
Proof. intros H p x p' Hp E. destruct (r f p) as [[a q]|] eqn:E1; [|discriminate E]. cbn [rbind] in E. injection E as _ <-. now apply H in E1. Qed.
Lemma byte_strict p x p' : 0 <= p -> read_byte f p = Ok (x, p') -> p' = p + 1 /\ p < zlen f /\ 0 <= x < 256.
Proof.
  intros Hp E. unfold read_byte in E. destruct (fread f p 1) as [[b q]|] eqn:E1; [|discriminate E]. cbn [rbind] in E.
  destruct (fread_len f p 1 b q Hp ltac:(lia) E1) as [L1 L2]. pose proof (fread_bytes _ _ _ _ _ HB E1) as Bb.
  destruct b as [|y b]; [discriminate E|]. injection E as -> <-. rewrite zlen_cons in *. pose proof (zlen_nonneg b). inversion_clear Bb. lia.
Qed.
Lemma byte_fwd : fwd read_byte. Proof. intros p x p' Hp E. apply byte_strict in E; lia. Qed.
Lemma le_fwd n : 0 <= n -> fwd (fun f p => read_le f p n).
Proof. intros Hn p x p' Hp E. unfold read_le in E. destruct (fread f p n) as [[b q]|] eqn:E1; [|discriminate E]. cbn [rbind] in E.
  destruct (unpack_le n b); [|discriminate E]. injection E as _ <-. revert E1. now apply fread_fwd. Qed.
Lemma ushort_spec p x p' : 0 <= p -> read_ushort f p = Ok (x, p') -> p' = p + 2 /\ 0 <= x < 65536.
Proof.
  intros Hp E. unfold read_ushort, read_le in E. destruct (fread f p 2) as [[b q]|] eqn:E1; [|discriminate E]. cbn [rbind] in E.
  pose proof (fread_bytes _ _ _ _ _ HB E1) as Bb. destruct (fread_len f p 2 b q Hp ltac:(lia) E1) as [L1 L2]. unfold unpack_le in E.
  destruct (Z.eqb_spec (zlen b) 2) as [L|]; [|discriminate E]. cbn [rbind] in E. injection E as <- <-. pose proof (le_range b Bb) as R. rewrite L in R. change (256 ^ 2) with 65536 in R. lia.
Qed.
Lemma ushort_fwd : fwd read_ushort. Proof. intros p x p' Hp E. apply ushort_spec in E; lia. Qed.
Lemma string_fwd : fwd read_string.
Proof. intros p x p' Hp E. unfold read_string in E. destruct (read_ushort f p) as [[n q]|] eqn:E1; [|discriminate E]. cbn [rbind] in E.
  apply ushort_spec in E1; [|exact Hp]. apply (fread_fwd n) in E; lia. Qed.
Lemma name_fwd : fwd (read_name names).
Proof. intros p x p' Hp E. unfold read_name in E. destruct (read_ushort f p) as [[n q]|] eqn:E1; [|discriminate E]. cbn [rbind] in E.
  destruct (py_nth names n); [|discriminate E]. injection E as _ <-. apply ushort_spec in E1; lia. Qed.
Lemma table_fwd t : fwd (table_byte t).
Proof. intros p x p' Hp E. unfold table_byte in E. destruct (read_byte f p) as [[n q]|] eqn:E1; [|discriminate E]. cbn [rbind] in E.
  destruct (lookup t n); [|discriminate E]. injection E as _ <-. apply byte_strict in E1; lia. Qed.
Lemma exactly_fwd n : 0 <= n -> fwd (exactly n).
Proof. intros Hn p x p' Hp E. unfold exactly in E. destruct (fread f p n) as [[b q]|] eqn:E1; [|discriminate E]. cbn [rbind] in E.
  destruct (zlen b =? n); [|discriminate E]. injection E as _ <-. revert E1. now apply fread_fwd. Qed.
Lemma number_fwd rd : fwd rd -> fwd (read_number rd).
Proof. intros H. unfold read_number. apply (bind_fwd read_byte (fun d f p => do (n, p) <- rd f p; Ok (INum (number_text d n), p))); [exact byte_fwd|]. intros d. now apply ret_fwd. Qed.
Lemma raw_fwd n : 0 <= n -> fwd (fun f p => read_raw f p n).
Proof. intros H. unfold read_raw. apply (ret_fwd (fun f p => fread f p n) (fun b => join (u " ") (map hex2 b))). now apply fread_fwd. Qed.
Lemma value_fwd cv rd : value_reader o names cv = Some rd -> fwd rd.
Proof.
  assert (fwd read_short) as FS by (apply (ret_fwd read_ushort (signed 16)), ushort_fwd).
  assert (fwd read_int) as FI by (apply (ret_fwd (fun f p => read_le f p 4) (signed 32)), le_fwd; lia).
  unfold value_reader. cbv zeta. intros E.
  repeat match type of E with
  | match ?x with _ => _ end = Some _ => destruct x; try discriminate E
  end; assert (forall A (x y : A), Some x = Some y -> x = y) as Hinj by congruence; apply Hinj in E; clear Hinj; subst rd.
  all: try (apply (ret_fwd (read_name names) IName), name_fwd).
  all: try (apply (ret_fwd (read_name names) IAlias), name_fwd).
  all: try (apply (ret_fwd (table_byte _) IName), table_fwd).
  all: try (apply (ret_fwd (table_byte _) IAlias), table_fwd).
  all: try (apply number_fwd; first [exact byte_fwd|exact FS|exact FI]).
  all: try (unfold short_circuit; eapply (ret_fwd read_ushort), ushort_fwd).
  all: try (apply (ret_fwd (fun f p => read_raw f p 2) (fun s => IStr (u "ff " ++ s))), raw_fwd; lia).
  all: try (apply (ret_fwd (exactly 8) (fun b => IStr (o_datetime o b))), exactly_fwd; lia).
  all: try (apply (ret_fwd (exactly 8) (fun b => IStr (o_date o b))), exactly_fwd; lia).
  all: try (apply (ret_fwd (exactly 4) (fun b => INum (o_fixed o b))), exactly_fwd; lia).
  all: try (apply (ret_fwd (fun f p => do (s, p) <- read_string f p; Ok (u "'" ++ s ++ u "'", p)) IName), (ret_fwd read_string (fun s => u "'" ++ s ++ u "'")), string_fwd).
  all: try (apply (ret_fwd (fun f p => do (s, p) <- read_string f p; Ok (u """" ++ s ++ u """", p)) IName), (ret_fwd read_string (fun s => u """" ++ s ++ u """")), string_fwd).
  - unfold read_currency. apply (bind_fwd read_byte (fun _ f p => do (k, p) <- read_byte f p; do (n, p) <- read_le f p 8; Ok (INum (currency_text (signed 64 n) k), p))); [exact byte_fwd|]. intros _.
    apply (bind_fwd read_byte (fun k f p => do (n, p) <- read_le f p 8; Ok (INum (currency_text (signed 64 n) k), p))); [exact byte_fwd|]. intros k.
    apply (ret_fwd (fun f p => read_le f p 8) (fun n => INum (currency_text (signed 64 n) k))), le_fwd; lia.
  - unfold read_double. apply (bind_fwd read_byte (fun d f p => do (k, p) <- read_byte f p; do (b, p) <- exactly 8 f p; Ok (INum (o_double o (d - 1) k b), p))); [exact byte_fwd|]. intros d.
    apply (bind_fwd read_byte (fun k f p => do (b, p) <- exactly 8 f p; Ok (INum (o_double o (d - 1) k b), p))); [exact byte_fwd|]. intros k.
    apply (ret_fwd (exactly 8) (fun b => INum (o_double o (d - 1) k b))), exactly_fwd; lia.
Qed.

Lemma sub_pos k p n e line prev t p' : 0 <= n -> 0 <= e - n -> subline k o names f p n e line prev = Some (Ok (t, p')) ->
  p' = e - n + Z.min n (Z.max 0 (zlen f - (e - n))).
Proof.
  revert p line prev; induction k as [|k IH]; intros p line prev Hn He E; [discriminate|]. cbn [subline] in E. cbv zeta in E.
  destruct (negb (p <? e)).
  - injection E as E. destruct (fread_ok f (e - n) n) as (b & q & EF); [lia|]. rewrite EF in E. cbn [rbind] in E. injection E as _ <-.
    destruct (fread_len f (e - n) n b q He Hn EF) as [L1 L2]. lia.
  - destruct (read_byte f p) as [[cv q]|]; [|discriminate E].
    destruct (match clause_of o names cv with Some c => Some c | None => match prev with Some i => Some (CStale i) | None => None end end) as [c|]; [|discriminate E].
    destruct c; try (now apply IH in E).
    + destruct (r f q) as [[i q']|]; [|discriminate E]. destruct i; try (now apply IH in E).
      destruct ((cv =? 246) || (cv =? 247)); [|now apply IH in E]. destruct (merge_aliases line s). now apply IH in E.
    + destruct (next_code k o names f q []) as [[[[? ?] ?]|]|]; try discriminate E. now apply IH in E.
    + destruct (expr_loop k o names f q []) as [[[? ?]|]|]; try discriminate E. now apply IH in E.
Qed.
Lemma progress k :
  (forall p st i st' p', 0 <= p -> next_code k o names f p st = Some (Ok (i, st', p')) -> p < p' /\ p < zlen f) /\
  (forall p st i p', 0 <= p -> expr_loop k o names f p st = Some (Ok (i, p')) -> p < p').
Proof.
  induction k as [|k [IN IE]]; [split; intros; discriminate|]. split.
  - intros p st i st' p' Hp. cbn [next_code]. cbv zeta. destruct (read_byte f p) as [[cv q]|] eqn:EB; [|discriminate]. apply byte_strict in EB as (-> & HL & HC); [|exact Hp].
    assert (forall n s x, p + 1 <= n -> Some (Ok (x, s, n)) = Some (Ok (i, st', p')) -> p < p' /\ p < zlen f) as HR.
    { intros n s x Hn E. injection E as _ _ <-. lia. }
    assert (forall s (y : item) n, p + 1 <= n -> Some (Ok (let (params, s') := take_params s [] in (y, s', n))) = Some (Ok (i, st', p')) -> p < p' /\ p < zlen f) as _.
    { intros s y n Hn E. destruct (take_params s []). injection E as _ _ <-. lia. }
    assert (forall s n t, p + 1 <= n -> (let (params, s') := take_params s [] in Some (Ok (if cv =? 0xE5 then IAlias (call_text t params) else IName (call_text t params), s', n))) = Some (Ok (i, st', p')) -> p < p' /\ p < zlen f) as HF.
    { intros s n t Hn. destruct (take_params s []). now apply HR. }
    assert (forall x n, p + 1 <= n -> match x with IName s => let (s, st) := merge_aliases st s in Some (Ok (IName s, st, n)) | IAlias s => Some (Ok (IAlias s, st, n)) | i => Some (Ok (IName (istr i), st, n)) end = Some (Ok (i, st', p')) -> p < p' /\ p < zlen f) as HV.
    { intros x n Hn. destruct x; try now apply HR. destruct (merge_aliases st s). now apply HR. }
    destruct (cv =? END_EXPR); [apply HR; lia|]. destruct (cv =? PARAMETER_MARK); [apply HR; lia|].
    destruct (cv =? SQL_SUBQUERY).
    { destruct (read_ushort f (p + 1)) as [[n q]|] eqn:EU; [|discriminate]. apply ushort_spec in EU as [-> Hn]; [|lia]. cbn [rbind].
      destruct (fread f (p + 1 + 2) 1) as [[? q]|] eqn:EF; [|discriminate]. cbn [rbind].
      destruct (subline k o names f q n (p + 1 + 2 + n) [] None) as [[[t r]|]|] eqn:ES; try discriminate.
      apply sub_pos in ES; [|lia|lia]. apply HR. lia. }
    destruct ((cv =? 229) || (cv =? 246)).
    { destruct (read_name names f (p + 1)) as [[s q]|] eqn:EU; [|discriminate]. apply name_fwd in EU; [|lia]. destruct (merge_aliases st s). now apply HF. }
    destruct ((cv =? 26) || (cv =? 234)).
    { destruct (table_byte (if cv =? 26 then t_extended1 else t_extended2) f (p + 1)) as [[s q]|] eqn:EU; [|discriminate]. apply table_fwd in EU; [|lia]. now apply HF. }
    destruct (lookup t_functions cv); [apply HF; lia|].
    destruct (lookup t_operators cv) as [[op ar]|].
    { destruct (ar =? 0); [intros E; apply IN in E; lia|]. destruct (ar =? 1); [destruct st; [discriminate|apply HR; lia]|].
      destruct (ar =? 2); [destruct st as [|? [|? ?]]; try discriminate; apply HR; lia|]. apply HR; lia. }
    destruct ((cv =? 240) || (cv =? 241)).
    { destruct (read_ushort f (p + 1)) as [[n q]|] eqn:EU; [|discriminate]. apply ushort_spec in EU as [-> Hn]; [|lia]. intros E. apply IN in E; lia. }
    destruct (cv =? 235). { destruct (next_code k o names f (p + 1) []) as [[[[x ?] q]|]|] eqn:EN; try discriminate. apply IN in EN; [|lia]. apply HV. lia. }
    destruct (cv =? 252). { destruct (expr_loop k o names f (p + 1) []) as [[[x q]|]|] eqn:EN; try discriminate. apply IE in EN; [|lia]. apply HV. lia. }
    destruct (value_reader o names cv) as [rd|] eqn:EV.
    { destruct (rd f (p + 1)) as [[x q]|] eqn:ER; [|discriminate]. apply (value_fwd cv rd EV) in ER; [|lia]. now apply HV. }
    destruct (lookup t_values cv); [apply HR; lia|discriminate].
  - intros p st i p' Hp. cbn [expr_loop]. destruct (next_code k o names f p st) as [[[[x s] q]|]|] eqn:EN; try discriminate. apply IN in EN as [H1 H2]; [|exact Hp].
    destruct x; try (intros E; apply IE in E; lia). destruct (n =? END_EXPR); [intros E; injection E as _ <-; lia|intros E; apply IE in E; lia].
Qed.

(** ** enough fuel *)
Definition left (p : Z) : nat := Z.to_nat (zlen f - p).
Lemma enough k :
  (forall p st, 0 <= p -> (2 * left p + 1 <= k)%nat -> next_code k o names f p st <> None) /\
  (forall p st, 0 <= p -> (2 * left p + 2 <= k)%nat -> expr_loop k o names f p st <> None) /\
  (forall p n e line prev, 0 <= p -> (2 * left p + 2 <= k)%nat -> subline k o names f p n e line prev <> None).
Proof.
  induction k as [|k (IN & IE & IS)]; [repeat split; intros; lia|]. repeat split.
  - intros p st Hp Hk. cbn [next_code]. cbv zeta. destruct (read_byte f p) as [[cv q]|] eqn:EB; [|discriminate]. apply byte_strict in EB as (-> & HL & HC); [|exact Hp].
    assert (forall q, p + 1 <= q -> (2 * left q + 2 <= k)%nat) as HK by (unfold left in *; intros; lia).
    assert (forall s n t, (let (params, s') := take_params s [] in Some (Ok (if cv =? 0xE5 then IAlias (call_text t params) else IName (call_text t params), s', n))) <> @None (res (item * list item * Z))) as HF.
    { intros s n t. destruct (take_params s []). discriminate. }
    assert (forall x (n : Z), match x with IName s => let (s, st) := merge_aliases st s in Some (Ok (IName s, st, n)) | IAlias s => Some (Ok (IAlias s, st, n)) | i => Some (Ok (IName (istr i), st, n)) end <> @None (res (item * list item * Z))) as HV.
    { intros x n. destruct x; try discriminate. destruct (merge_aliases st s). discriminate. }
    destruct (cv =? END_EXPR); [discriminate|]. destruct (cv =? PARAMETER_MARK); [discriminate|].
    destruct (cv =? SQL_SUBQUERY).
    { destruct (read_ushort f (p + 1)) as [[n q]|] eqn:EU; [|discriminate]. apply ushort_spec in EU as [-> Hn]; [|lia]. cbn [rbind].
      destruct (fread f (p + 1 + 2) 1) as [[? q]|] eqn:EF; [|discriminate]. cbn [rbind]. apply fread_fwd in EF; [|lia|lia].
      destruct (subline k o names f q n (p + 1 + 2 + n) [] None) as [[[t r]|]|] eqn:ES; try discriminate. exfalso. revert ES. apply IS; [lia|]. apply HK. lia. }
    destruct ((cv =? 229) || (cv =? 246)).
    { destruct (read_name names f (p + 1)) as [[s q]|] eqn:EU; [|discriminate]. destruct (merge_aliases st s). apply HF. }
    destruct ((cv =? 26) || (cv =? 234)).
    { destruct (table_byte (if cv =? 26 then t_extended1 else t_extended2) f (p + 1)) as [[s q]|] eqn:EU; [|discriminate]. apply HF. }
    destruct (lookup t_functions cv); [apply HF|].
    destruct (lookup t_operators cv) as [[op ar]|].
    { destruct (ar =? 0); [apply IN; [lia|]; pose proof (HK (p + 1) ltac:(lia)); lia|]. destruct (ar =? 1); [destruct st; discriminate|].
      destruct (ar =? 2); [destruct st as [|? [|? ?]]; discriminate|]. discriminate. }
    destruct ((cv =? 240) || (cv =? 241)).
    { destruct (read_ushort f (p + 1)) as [[n q]|] eqn:EU; [|discriminate]. apply ushort_spec in EU as [-> Hn]; [|lia]. apply IN; [lia|]. pose proof (HK (p + 1 + 2) ltac:(lia)). lia. }
    destruct (cv =? 235). { destruct (next_code k o names f (p + 1) []) as [[[[x ?] q]|]|] eqn:EN; try discriminate; [apply HV|]. exfalso. revert EN. apply IN; [lia|]. pose proof (HK (p + 1) ltac:(lia)). lia. }
    destruct (cv =? 252). { destruct (expr_loop k o names f (p + 1) []) as [[[x q]|]|] eqn:EN; try discriminate; [apply HV|]. exfalso. revert EN. apply IE; [lia|]. apply HK. lia. }
    destruct (value_reader o names cv) as [rd|]; [destruct (rd f (p + 1)) as [[x q]|]; [apply HV|discriminate]|].
    destruct (lookup t_values cv); discriminate.
  - intros p st Hp Hk. cbn [expr_loop]. destruct (next_code k o names f p st) as [[[[x s] q]|]|] eqn:EN; [|discriminate|exfalso; revert EN; apply IN; lia].
    apply (proj1 (progress k)) in EN as [H1 H2]; [|exact Hp]. assert (2 * left q + 2 <= k)%nat as HK by (unfold left in *; lia).
    destruct x; try (apply IE; lia). destruct (n =? END_EXPR); [discriminate|apply IE; lia].
  - intros p n e line prev Hp Hk. cbn [subline]. cbv zeta. destruct (negb (p <? e)); [discriminate|].
    destruct (read_byte f p) as [[cv q]|] eqn:EB; [|discriminate]. apply byte_strict in EB as (-> & HL & HC); [|exact Hp].
    assert (forall q, p + 1 <= q -> (2 * left q + 2 <= k)%nat) as HK by (unfold left in *; intros; lia).
    destruct (clause_of o names cv) as [c|] eqn:EC.
    + destruct c.
      * apply IS; [lia|]. apply HK. lia.
      * destruct (r f (p + 1)) as [[i q]|] eqn:ER; [|discriminate].
        assert (p + 1 <= q) as HQ.
        { unfold clause_of in EC. destruct (lookup t_multiclauses cv); [discriminate EC|]. destruct (cv =? 235); [discriminate EC|]. destruct (cv =? 252); [discriminate EC|].
          destruct (value_reader o names cv) as [rd|] eqn:EV; [injection EC as ->; apply (value_fwd cv r EV) in ER; lia|].
          destruct (lookup t_values cv); [discriminate EC|]. destruct ((cv =? 229) || (cv =? 246)); [injection EC as <-|destruct (lookup t_clauses cv); discriminate EC].
          destruct (read_name names f (p + 1)) as [[s q']|] eqn:EN; [|discriminate ER]. cbn [rbind] in ER. injection ER as _ <-. apply name_fwd in EN; lia. }
        assert (forall i line, subline k o names f q n e line i <> None) as HI by (intros; apply IS; [lia|now apply HK]).
        destruct i; try apply HI. destruct ((cv =? 246) || (cv =? 247)); [|apply HI]. destruct (merge_aliases line s). apply HI.
      * destruct (next_code k o names f (p + 1) []) as [[[[x ?] q]|]|] eqn:EN; [|discriminate|exfalso; revert EN; apply IN; [lia|]; pose proof (HK (p + 1) ltac:(lia)); lia].
        apply (proj1 (progress k)) in EN as [H1 H2]; [|lia]. apply IS; [lia|]. apply HK. lia.
      * destruct (expr_loop k o names f (p + 1) []) as [[[x q]|]|] eqn:EN; [|discriminate|exfalso; revert EN; apply IE; [lia|]; apply HK; lia].
        apply (proj2 (progress k)) in EN; [|lia]. apply IS; [lia|]. apply HK. lia.
      * apply IS; [lia|]. apply HK. lia.
    + destruct prev as [i|]; [|discriminate]. apply IS; [lia|]. apply HK. lia.
Qed.
End Progress.
