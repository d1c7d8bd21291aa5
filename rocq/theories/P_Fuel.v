(** The parser of S_Py with a fuel that always suffices. *)
From Verif Require Import PyBase PyStr S_Py.
Open Scope nat_scope.

Lemma pexp_high k : forall lvl ts, 14 <= lvl -> pexp k lvl ts = None.
Proof.
  induction k as [|k IH]; intros lvl ts H; [reflexivity|]. do 14 (destruct lvl as [|lvl]; [lia|]). cbn [pexp]. rewrite IH by lia. reflexivity.
Qed.
Definition B (lvl n : nat) : nat := 20 * n + 15 - lvl.
Definition Be k := forall lvl ts e r, pexp k lvl ts = Some (e, r) -> length r < length ts /\ forall k', B lvl (length ts) <= k' -> pexp k' lvl ts = Some (e, r).
Definition Bl k := forall lvl a ts e r, ploop k lvl a ts = Some (e, r) -> length r <= length ts /\ forall k', 20 * length ts + 1 <= k' -> ploop k' lvl a ts = Some (e, r).
Definition Bc k := forall a l ts e r, pcmp k a l ts = Some (e, r) -> length r <= length ts /\ forall k', 20 * length ts + 1 <= k' -> pcmp k' a l ts = Some (e, r).
Definition Bt k := forall a ts e r, ptrail k a ts = Some (e, r) -> length r <= length ts /\ forall k', 20 * length ts + 1 <= k' -> ptrail k' a ts = Some (e, r).
Definition Ba k := forall ts l r, pargs k ts = Some (l, r) -> length r < length ts /\ forall k', 20 * length ts + 16 <= k' -> pargs k' ts = Some (l, r).

(** The cases of the parser by their first token *)
Definition hd_is (t : tok) (l : list tok) : bool :=
  match t, l with
  | Rp, Rp :: _ | Rb, Rb :: _ | Colon, Colon :: _ | Comma, Comma :: _ | Lp, Lp :: _ | Lb, Lb :: _ | Dot, Dot :: _ | If, If :: _ | Else, Else :: _ | Not, Not :: _ => true
  | Op OPow, Op OPow :: _ => true
  | _, _ => false
  end.
Lemma hd_len t l : hd_is t l = true -> length l = S (length (tl l)).
Proof. destruct l; [destruct t; try discriminate; destruct o; discriminate|reflexivity]. Qed.
Definition after_ (t : tok) {A} (x : option (pe * list tok)) (f : pe -> list tok -> option A) : option A :=
  match x with Some (e, r) => if hd_is t r then f e (tl r) else None | None => None end.
Lemma ptrail_cases k a ts : ptrail (S k) a ts =
  if hd_is Dot ts then match tl ts with Id s :: r => ptrail k (EAttr a s) r | _ => Some (a, ts) end
  else if hd_is Lp ts then match pargs k (tl ts) with Some (l, r) => ptrail k (ECall a l) r | None => None end
  else if hd_is Lb ts then
    if hd_is Colon (tl ts) then
      if hd_is Rb (tl (tl ts)) then ptrail k (ESlice a None None) (tl (tl (tl ts)))
      else after_ Rb (pexp k 0 (tl (tl ts))) (fun e r => ptrail k (ESlice a None (Some e)) r)
    else
      match pexp k 0 (tl ts) with
      | Some (i, q) =>
          if hd_is Rb q then ptrail k (EIdx a i) (tl q)
          else if hd_is Colon q then
            if hd_is Rb (tl q) then ptrail k (ESlice a (Some i) None) (tl (tl q))
            else after_ Rb (pexp k 0 (tl q)) (fun j r => ptrail k (ESlice a (Some i) (Some j)) r)
          else None
      | None => None
      end
  else Some (a, ts).
Proof.
  destruct ts as [|[] ts]; try reflexivity.
  - change (hd_is Dot (Lb :: ts)) with false. change (hd_is Lp (Lb :: ts)) with false. change (hd_is Lb (Lb :: ts)) with true. cbn [tl].
    assert (X : forall r, match pexp k 0 r with
      | Some (i, Rb :: r) => ptrail k (EIdx a i) r
      | Some (i, Colon :: Rb :: r) => ptrail k (ESlice a (Some i) None) r
      | Some (i, Colon :: r) => match pexp k 0 r with Some (j, Rb :: r) => ptrail k (ESlice a (Some i) (Some j)) r | _ => None end
      | _ => None
      end = match pexp k 0 r with
      | Some (i, q) =>
          if hd_is Rb q then ptrail k (EIdx a i) (tl q)
          else if hd_is Colon q then
            if hd_is Rb (tl q) then ptrail k (ESlice a (Some i) None) (tl (tl q))
            else after_ Rb (pexp k 0 (tl q)) (fun j r => ptrail k (ESlice a (Some i) (Some j)) r)
          else None
      | None => None
      end).
    { intros r. destruct (pexp k 0 r) as [[i q]|]; [|reflexivity]. destruct q as [|[] q]; try reflexivity. cbn [hd_is tl]. unfold after_.
      assert (Y : forall q, match pexp k 0 q with Some (j, Rb :: r0) => ptrail k (ESlice a (Some i) (Some j)) r0 | _ => None end =
        match pexp k 0 q with Some (e, r0) => if hd_is Rb r0 then ptrail k (ESlice a (Some i) (Some e)) (tl r0) else None | None => None end).
      { intros q'. destruct (pexp k 0 q') as [[j q2]|]; [|reflexivity]. destruct q2 as [|[] q2]; reflexivity. }
      rewrite <- Y. destruct q as [|[] q]; reflexivity. }
    assert (Y : forall q, match pexp k 0 q with Some (j, Rb :: r0) => ptrail k (ESlice a None (Some j)) r0 | _ => None end =
      match pexp k 0 q with Some (e, r0) => if hd_is Rb r0 then ptrail k (ESlice a None (Some e)) (tl r0) else None | None => None end).
    { intros q'. destruct (pexp k 0 q') as [[j q2]|]; [|reflexivity]. destruct q2 as [|[] q2]; reflexivity. }
    unfold after_ in *. rewrite <- X. rewrite <- Y. destruct ts as [|[] ts]; try reflexivity. cbn [hd_is tl]. destruct ts as [|[] ts]; reflexivity.
Qed.
Lemma pargs_cases k ts : pargs (S k) ts =
  if hd_is Rp ts then Some ([], tl ts)
  else match pexp k 0 ts with
       | Some (e, q) => if hd_is Rp q then Some ([e], tl q) else if hd_is Comma q then match pargs k (tl q) with Some (l, r) => Some (e :: l, r) | None => None end else None
       | None => None
       end.
Proof.
  assert (X : match pexp k 0 ts with Some (e, Rp :: r) => Some ([e], r) | Some (e, Comma :: r) => match pargs k r with Some (l, r) => Some (e :: l, r) | None => None end | _ => None end =
    match pexp k 0 ts with
       | Some (e, q) => if hd_is Rp q then Some ([e], tl q) else if hd_is Comma q then match pargs k (tl q) with Some (l, r) => Some (e :: l, r) | None => None end else None
       | None => None
       end) by (destruct (pexp k 0 ts) as [[e q]|]; [|reflexivity]; destruct q as [|[] q]; reflexivity).
  rewrite <- X. destruct ts as [|[] ts]; reflexivity.
Qed.
Definition atom_of (t : tok) : option pe := match t with Id s => Some (EName s) | IntT n => Some (EInt n) | StrT s => Some (EStr s) | _ => None end.
Lemma pexp13_cases k ts : pexp (S k) 13 ts =
  match ts with
  | [] => None
  | t :: r =>
      match atom_of t with
      | Some e => ptrail k e r
      | None =>
          if hd_is Lp ts then
            if hd_is Rp r then ptrail k (ETuple []) (tl r)
            else match pexp k 0 r with
                 | Some (e, q) => if hd_is Rp q then ptrail k e (tl q) else if hd_is Comma q then match pargs k (tl q) with Some (l, r) => ptrail k (ETuple (e :: l)) r | None => None end else None
                 | None => None
                 end
          else None
      end
  end.
Proof.
  destruct ts as [|[] r]; try reflexivity. cbn [atom_of]. change (hd_is Lp (Lp :: r)) with true.
  assert (X : match pexp k 0 r with Some (e, Rp :: r) => ptrail k e r | Some (e, Comma :: r) => match pargs k r with Some (l, r) => ptrail k (ETuple (e :: l)) r | None => None end | _ => None end =
    match pexp k 0 r with
    | Some (e, q) => if hd_is Rp q then ptrail k e (tl q) else if hd_is Comma q then match pargs k (tl q) with Some (l, r) => ptrail k (ETuple (e :: l)) r | None => None end else None
    | None => None
    end) by (destruct (pexp k 0 r) as [[e q]|]; [|reflexivity]; destruct q as [|[] q]; reflexivity).
  rewrite <- X. destruct r as [|[] r]; reflexivity.
Qed.
Lemma pexp12_cases k ts : pexp (S k) 12 ts =
  match pexp k 13 ts with
  | Some (a, q) => if hd_is (Op OPow) q then match pexp k 11 (tl q) with Some (b, r) => Some (EBin OPow a b, r) | None => None end else Some (a, q)
  | None => None
  end.
Proof. cbn [pexp]. destruct (pexp k 13 ts) as [[a q]|]; [|reflexivity]. destruct q as [|[] q]; try reflexivity. destruct o; reflexivity. Qed.
Lemma pexp0_cases k ts : pexp (S k) 0 ts =
  match pexp k 1 ts with
  | Some (a, q) => if hd_is If q then match pexp k 1 (tl q) with Some (c, q2) => if hd_is Else q2 then match pexp k 0 (tl q2) with Some (b, r) => Some (EIf c a b, r) | None => None end else None | None => None end else Some (a, q)
  | None => None
  end.
Proof.
  cbn [pexp]. destruct (pexp k 1 ts) as [[a q]|]; [|reflexivity]. destruct q as [|[] q]; try reflexivity. cbn [hd_is tl]. destruct (pexp k 1 q) as [[c q2]|]; [|reflexivity]. destruct q2 as [|[] q2]; reflexivity.
Qed.
Lemma pexp3_cases k ts : pexp (S k) 3 ts = if hd_is Not ts then match pexp k 3 (tl ts) with Some (e, r) => Some (ENot e, r) | None => None end else pexp k 4 ts.
Proof. destruct ts as [|[] ts]; reflexivity. Qed.

(* results of the recursive calls in the hypothesis H, then those of the goal *)
Ltac side :=
  repeat match goal with E : hd_is _ ?l = true |- _ => apply hd_len in E end; unfold B in *; cbn [length] in *; lia.
Ltac calls Ie Il Ic It Ia H :=
  repeat (match type of H with
  | context [match pexp ?k ?l ?t with _ => _ end] => let X := fresh "X" in destruct (pexp k l t) as [[? ?]|] eqn:X; [apply Ie in X as [? X]|discriminate H]
  | context [match pargs ?k ?t with _ => _ end] => let X := fresh "X" in destruct (pargs k t) as [[? ?]|] eqn:X; [apply Ia in X as [? X]|discriminate H]
  | ploop _ _ _ _ = Some _ => apply Il in H as [? H]
  | pcmp _ _ _ _ = Some _ => apply Ic in H as [? H]
  | ptrail _ _ _ = Some _ => apply It in H as [? H]
  | pexp _ _ _ = Some _ => apply Ie in H as [? H]
  | None = Some _ => discriminate H
  | (if ?b then _ else _) = Some _ => destruct b eqn:?
  | match sign ?t with _ => _ end = Some _ => destruct (sign t) eqn:?
  | match atom_of ?t with _ => _ end = Some _ => destruct (atom_of t) eqn:?
  end; try discriminate H); try (injection H as <- <-).
Ltac finish U :=
  split; [side|]; intros k' ?; (destruct k' as [|k']; [side|]); U;
  repeat (match goal with
  | X : forall k', _ -> pexp k' ?l ?t = _ |- context [pexp ?k ?l ?t] => rewrite (X k) by side
  | X : forall k', _ -> pargs k' ?t = _ |- context [pargs ?k ?t] => rewrite (X k) by side
  | E : ?b = _ |- context [if ?b then _ else _] => rewrite E
  | E : sign ?b = _ |- context [sign ?b] => rewrite E
  | E : atom_of ?b = _ |- context [atom_of ?b] => rewrite E
  end); try reflexivity; try match goal with X : forall k', _ -> _ |- _ => apply X; side end.

Lemma stable k : Be k /\ Bl k /\ Bc k /\ Bt k /\ Ba k.
Proof.
  induction k as [|k (Ie & Il & Ic & It & Ia)]; [repeat split; discriminate|].
  assert (Jl : Bl (S k)).
  { intros lvl a ts e r H. destruct ts as [|[] ts]; cbn [ploop] in H; calls Ie Il Ic It Ia H; finish ltac:(cbn [ploop]). }
  assert (Jc : Bc (S k)).
  { intros a l ts e r H. destruct ts as [|[] ts]; cbn [pcmp] in H; calls Ie Il Ic It Ia H; finish ltac:(cbn [pcmp]). }
  assert (Jt : Bt (S k)).
  { intros a ts e r H. rewrite ptrail_cases in H. unfold after_ in H.
    destruct (hd_is Dot ts) eqn:D.
    - pose proof (hd_len _ _ D) as DL. destruct (tl ts) as [|[] q] eqn:Q; calls Ie Il Ic It Ia H; finish ltac:(rewrite ptrail_cases, D, Q).
    - calls Ie Il Ic It Ia H; finish ltac:(rewrite ptrail_cases, D; unfold after_). }
  assert (Ja : Ba (S k)).
  { intros ts l r H. rewrite pargs_cases in H. calls Ie Il Ic It Ia H; finish ltac:(rewrite pargs_cases). }
  assert (Je : Be (S k)).
  { intros lvl ts e r H. destruct (Nat.leb_spec 14 lvl) as [L|L]; [rewrite pexp_high in H by exact L; discriminate|].
    destruct lvl as [|lvl]; [rewrite pexp0_cases in H; calls Ie Il Ic It Ia H; finish ltac:(rewrite pexp0_cases)|].
    do 2 (destruct lvl as [|lvl]; [cbn [pexp] in H; calls Ie Il Ic It Ia H; finish ltac:(cbn [pexp])|]).
    destruct lvl as [|lvl]; [rewrite pexp3_cases in H; calls Ie Il Ic It Ia H; finish ltac:(rewrite pexp3_cases)|].
    do 7 (destruct lvl as [|lvl]; [cbn [pexp] in H; calls Ie Il Ic It Ia H; finish ltac:(cbn [pexp])|]).
    destruct lvl as [|lvl]; [destruct ts as [|t ts]; [discriminate|]; cbn [pexp] in H; calls Ie Il Ic It Ia H; finish ltac:(cbn [pexp])|].
    destruct lvl as [|lvl]; [rewrite pexp12_cases in H; calls Ie Il Ic It Ia H; finish ltac:(rewrite pexp12_cases)|].
    destruct lvl as [|lvl]; [destruct ts as [|t ts]; [discriminate|]; rewrite pexp13_cases in H; calls Ie Il Ic It Ia H; finish ltac:(rewrite pexp13_cases)|]. lia. }
  auto.
Qed.
(** The parser as a function *)
Definition parse (ts : list tok) : option pe := match pexp (20 * length ts + 15) 0 ts with Some (e, []) => Some e | _ => None end.
Theorem parse_spec ts e : py_parse ts e <-> parse ts = Some e.
Proof.
  unfold parse, py_parse. split.
  - intros [k H]. destruct (stable k) as (S & _). specialize (H k (le_n k)). apply S in H as [_ H]. rewrite H by (unfold B; lia). reflexivity.
  - intros H. destruct (pexp (20 * length ts + 15) 0 ts) as [[e' r]|] eqn:X; [|discriminate]. destruct r; [|discriminate]. injection H as ->.
    destruct (stable (20 * length ts + 15)) as (S & _). apply S in X as [_ X]. exists (B 0 (length ts)). exact X.
Qed.
