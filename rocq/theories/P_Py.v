(** How the Python parser of S_Py composes: one lemma per emitted construct. *)
From Verif Require Import PyBase PyStr S_Py.
Open Scope nat_scope.

Definition E l ts out := exists k, forall m, k <= m -> pexp m l ts = Some out.
Definition EL l a ts out := exists k, forall m, k <= m -> ploop m l a ts = Some out.
Definition EC a l ts out := exists k, forall m, k <= m -> pcmp m a l ts = Some out.
Definition ET a ts out := exists k, forall m, k <= m -> ptrail m a ts = Some out.
Definition EA ts out := exists k, forall m, k <= m -> pargs m ts = Some out.

Definition loopb l := match l with 1 | 2 | 5 | 6 | 7 | 8 | 9 | 10 => true | _ => false end.

(** [stops l rest]: an expression of level l or more ends before [rest]. *)
Definition stops (l : nat) (rest : list tok) : Prop :=
  match rest with
  | Op o :: _ => level o < l
  | (Lp | Lb | Dot) :: _ => 13 < l
  | If :: _ => 0 < l
  | _ => True
  end.
Lemma stops_mono l l' rest : l <= l' -> stops l rest -> stops l' rest.
Proof. intros H. destruct rest as [|[]]; cbn; auto; lia. Qed.
Lemma stops14 rest : stops 14 rest.
Proof. destruct rest as [|[s|n|s|o| | | | | | | | | | |]]; cbn; auto; try lia. destruct o; cbn; lia. Qed.

Ltac step n k := exists (S k); intros n ?; destruct n as [|n]; [lia|].

Lemma E_loop l ts a r out : loopb l = true -> E (S l) ts (a, r) -> EL l a r out -> E l ts out.
Proof.
  intros Hl [k H] [k' H']. step n (Nat.max k k'). specialize (H n ltac:(lia)). specialize (H' n ltac:(lia)).
  do 14 (destruct l as [|l]; [try discriminate Hl; cbn [pexp]; rewrite H; exact H'|]). discriminate.
Qed.
Lemma EL_stop l a ts : loopb l = true -> stops l ts -> EL l a ts (a, ts).
Proof.
  intros Hl Hs. step n 0. cbn [ploop]. destruct ts as [|t ts]; [reflexivity|]. destruct t; try reflexivity. cbn in Hs.
  destruct (Nat.eqb_spec (level o) l); [lia|reflexivity].
Qed.
Lemma EL_op l o a r b r' out : level o = l -> E (S l) r (b, r') -> EL l (EBin o a b) r' out -> EL l a (Op o :: r) out.
Proof.
  intros Ho [k H] [k' H']. step n (Nat.max k k'). cbn [ploop]. rewrite (proj2 (Nat.eqb_eq _ _) Ho).
  rewrite (H n) by lia. apply H'. lia.
Qed.
Lemma EC_stop a l ts : stops 4 ts -> EC a l ts (match l with [] => a | _ => ECmp a l end, ts).
Proof.
  intros Hs. step n 0. cbn [pcmp]. destruct ts as [|t ts]; [reflexivity|]. destruct t; try reflexivity. cbn in Hs.
  destruct (Nat.eqb_spec (level o) 4); [lia|reflexivity].
Qed.
Lemma EC_op o a l r b r' out : level o = 4 -> E 5 r (b, r') -> EC a (l ++ [(o, b)]) r' out -> EC a l (Op o :: r) out.
Proof.
  intros Ho [k H] [k' H']. step n (Nat.max k k'). cbn [pcmp]. rewrite Ho. cbn [Nat.eqb].
  rewrite (H n) by lia. apply H'. lia.
Qed.
Lemma E_cmp ts a r out : E 5 ts (a, r) -> EC a [] r out -> E 4 ts out.
Proof. intros [k H] [k' H']. step n (Nat.max k k'). cbn [pexp]. rewrite (H n) by lia. apply H'. lia. Qed.
Lemma E_not ts e r : E 3 ts (e, r) -> E 3 (Not :: ts) (ENot e, r).
Proof. intros [k H]. step n k. cbn [pexp]. rewrite (H n) by lia. reflexivity. Qed.
Lemma E_3 ts out : hd_error ts <> Some Not -> E 4 ts out -> E 3 ts out.
Proof.
  intros Hh [k H]. step n k. cbn [pexp]. specialize (H n ltac:(lia)). destruct ts as [|t ts]; [exact H|].
  destruct t; try exact H. exfalso. apply Hh. reflexivity.
Qed.
Lemma E_un t o ts e r : sign t = Some o -> E 11 ts (e, r) -> E 11 (t :: ts) (EUn o e, r).
Proof. intros Ho [k H]. step n k. cbn [pexp]. rewrite Ho, (H n) by lia. reflexivity. Qed.
Lemma E_11 t ts out : sign t = None -> E 12 (t :: ts) out -> E 11 (t :: ts) out.
Proof. intros Ho [k H]. step n k. cbn [pexp]. rewrite Ho. apply H. lia. Qed.
Lemma E_12 ts e r : (forall q, r <> Op OPow :: q) -> E 13 ts (e, r) -> E 12 ts (e, r).
Proof.
  intros Hh [k H]. step n k. cbn [pexp]. rewrite (H n) by lia. destruct r as [|t r]; [reflexivity|]. destruct t; try reflexivity.
  destruct o; try reflexivity. exfalso. eapply Hh. reflexivity.
Qed.
Lemma E_pow ts a r b r' : E 13 ts (a, Op OPow :: r) -> E 11 r (b, r') -> E 12 ts (EBin OPow a b, r').
Proof. intros [k H] [k' H']. step n (Nat.max k k'). cbn [pexp]. rewrite (H n), (H' n) by lia. reflexivity. Qed.
Lemma E_0 ts e r : hd_error r <> Some If -> E 1 ts (e, r) -> E 0 ts (e, r).
Proof.
  intros Hh [k H]. step n k. cbn [pexp]. rewrite (H n) by lia. destruct r as [|t r]; [reflexivity|]. destruct t; try reflexivity.
  exfalso. apply Hh. reflexivity.
Qed.
Lemma E_if ts a r c r1 b r2 : E 1 ts (a, If :: r) -> E 1 r (c, Else :: r1) -> E 0 r1 (b, r2) -> E 0 ts (EIf c a b, r2).
Proof.
  intros [k H] [k' H'] [k2 H2]. step n (Nat.max k (Nat.max k' k2)). cbn [pexp]. rewrite (H n), (H' n), (H2 n) by lia. reflexivity.
Qed.
Definition starter t := match t with Id _ | IntT _ | StrT _ | Lp => true | _ => false end.
Definition atom_e t := match t with Id s => EName s | IntT n => EInt n | StrT s => EStr s | _ => EInt 0 end.
Lemma E_atom t r out : starter t = true -> t <> Lp -> ET (atom_e t) r out -> E 13 (t :: r) out.
Proof. intros Ht Hn [k H]. step n k. specialize (H n ltac:(lia)). destruct t; try discriminate Ht; try contradiction; exact H. Qed.
Lemma E_paren ts e r out : hd_error ts <> Some Rp -> E 0 ts (e, Rp :: r) -> ET e r out -> E 13 (Lp :: ts) out.
Proof.
  intros Hh [k H] [k' H']. step n (Nat.max k k'). specialize (H n ltac:(lia)). specialize (H' n ltac:(lia)). cbn [pexp].
  destruct ts as [|t ts]; [rewrite H; exact H'|]. destruct t; try (rewrite H; exact H'). exfalso. apply Hh. reflexivity.
Qed.
Lemma E_tuple ts e r l r' out : hd_error ts <> Some Rp -> E 0 ts (e, Comma :: r) -> EA r (l, r') -> ET (ETuple (e :: l)) r' out -> E 13 (Lp :: ts) out.
Proof.
  intros Hh [k H] [k1 H1] [k' H']. step n (Nat.max k (Nat.max k1 k')). specialize (H n ltac:(lia)). specialize (H' n ltac:(lia)).
  specialize (H1 n ltac:(lia)). cbn [pexp].
  destruct ts as [|t ts]; [rewrite H, H1; exact H'|]. destruct t; try (rewrite H, H1; exact H'). exfalso. apply Hh. reflexivity.
Qed.
Lemma ET_stop a ts : stops 13 ts -> ET a ts (a, ts).
Proof. intros Hs. step n 0. cbn [ptrail]. destruct ts as [|t ts]; [reflexivity|]. destruct t; try reflexivity; cbn in Hs; lia. Qed.
Lemma ET_attr a s r out : ET (EAttr a s) r out -> ET a (Dot :: Id s :: r) out.
Proof. intros [k H]. step n k. cbn [ptrail]. apply H. lia. Qed.
Lemma ET_call a r l r' out : EA r (l, r') -> ET (ECall a l) r' out -> ET a (Lp :: r) out.
Proof. intros [k H] [k' H']. step n (Nat.max k k'). cbn [ptrail]. rewrite (H n) by lia. apply H'. lia. Qed.
Lemma ET_idx a r i r' out : hd_error r <> Some Colon -> E 0 r (i, Rb :: r') -> ET (EIdx a i) r' out -> ET a (Lb :: r) out.
Proof.
  intros Hh [k H] [k' H']. step n (Nat.max k k'). specialize (H n ltac:(lia)). specialize (H' n ltac:(lia)). cbn [ptrail].
  destruct r as [|t r]; [rewrite H; exact H'|]. destruct t; try (rewrite H; exact H'). exfalso. apply Hh. reflexivity.
Qed.
Lemma ET_from a r i r' out : hd_error r <> Some Colon -> E 0 r (i, Colon :: Rb :: r') -> ET (ESlice a (Some i) None) r' out -> ET a (Lb :: r) out.
Proof.
  intros Hh [k H] [k' H']. step n (Nat.max k k'). specialize (H n ltac:(lia)). specialize (H' n ltac:(lia)). cbn [ptrail].
  destruct r as [|t r]; [rewrite H; exact H'|]. destruct t; try (rewrite H; exact H'). exfalso. apply Hh. reflexivity.
Qed.
Lemma ET_upto a r i r' out : hd_error r <> Some Rb -> E 0 r (i, Rb :: r') -> ET (ESlice a None (Some i)) r' out -> ET a (Lb :: Colon :: r) out.
Proof.
  intros Hh [k H] [k' H']. step n (Nat.max k k'). specialize (H n ltac:(lia)). specialize (H' n ltac:(lia)). cbn [ptrail].
  destruct r as [|t r]; [rewrite H; exact H'|]. destruct t; try (rewrite H; exact H'). exfalso. apply Hh. reflexivity.
Qed.
Lemma ET_slice a r i r1 j r' out : hd_error r <> Some Colon -> hd_error r1 <> Some Rb -> E 0 r (i, Colon :: r1) -> E 0 r1 (j, Rb :: r') ->
  ET (ESlice a (Some i) (Some j)) r' out -> ET a (Lb :: r) out.
Proof.
  intros Hh Hh1 [k H] [k1 H1] [k' H']. step n (Nat.max k (Nat.max k1 k')). specialize (H n ltac:(lia)). specialize (H' n ltac:(lia)).
  specialize (H1 n ltac:(lia)). cbn [ptrail].
  assert (X : match pexp n 0 r with
    | Some (i, Rb :: r) => ptrail n (EIdx a i) r
    | Some (i, Colon :: Rb :: r) => ptrail n (ESlice a (Some i) None) r
    | Some (i, Colon :: r) => match pexp n 0 r with Some (j, Rb :: r) => ptrail n (ESlice a (Some i) (Some j)) r | _ => None end
    | _ => None end = Some out).
  { rewrite H. destruct r1 as [|t1 r1]; [rewrite H1; exact H'|]. destruct t1; try (rewrite H1; exact H'). exfalso. apply Hh1. reflexivity. }
  destruct r as [|t r]; [exact X|]. destruct t; try exact X. exfalso. apply Hh. reflexivity.
Qed.
Lemma EA_nil r : EA (Rp :: r) ([], r).
Proof. step n 0. reflexivity. Qed.
Lemma EA_last ts e r : hd_error ts <> Some Rp -> E 0 ts (e, Rp :: r) -> EA ts ([e], r).
Proof.
  intros Hh [k H]. step n k. specialize (H n ltac:(lia)). cbn [pargs]. destruct ts as [|t ts]; [rewrite H; reflexivity|].
  destruct t; try (rewrite H; reflexivity). exfalso. apply Hh. reflexivity.
Qed.
Lemma EA_cons ts e r l r' : hd_error ts <> Some Rp -> E 0 ts (e, Comma :: r) -> EA r (l, r') -> EA ts (e :: l, r').
Proof.
  intros Hh [k H] [k' H']. step n (Nat.max k k'). specialize (H n ltac:(lia)). specialize (H' n ltac:(lia)). cbn [pargs].
  destruct ts as [|t ts]; [rewrite H, H'; reflexivity|].
  destruct t; try (rewrite H, H'; reflexivity). exfalso. apply Hh. reflexivity.
Qed.

(** ** Continuation form *)
Definition Cont l e rest out :=
  if loopb l then EL l e rest out else if Nat.eqb l 13 then ET e rest out else stops l rest /\ out = (e, rest).
Definition headb (l : nat) (t : tok) : bool :=
  starter t || (Nat.leb l 11 && match sign t with Some _ => true | None => false end) || (Nat.leb l 3 && match t with Not => true | _ => false end).
Definition hd_ok l ts := match ts with t :: _ => headb l t = true | [] => False end.
Definition Pr l ts e := hd_ok l ts /\ forall rest out, stops (S l) rest -> Cont l e rest out -> E l (ts ++ rest) out.

Lemma Cont_stop l e rest : stops l rest -> Cont l e rest (e, rest).
Proof.
  intros H. unfold Cont. destruct (loopb l) eqn:El; [exact (EL_stop l e rest El H)|]. destruct (Nat.eqb_spec l 13) as [->|_]; [exact (ET_stop e rest H)|].
  split; [exact H|reflexivity].
Qed.
Lemma Pr_end l ts e rest : Pr l ts e -> stops l rest -> E l (ts ++ rest) (e, rest).
Proof. intros [_ H] Hs. apply H; [exact (stops_mono l (S l) rest ltac:(lia) Hs)|exact (Cont_stop l e rest Hs)]. Qed.
Lemma hd_mono l l' ts : l <= l' -> hd_ok l' ts -> hd_ok l ts.
Proof.
  intros H. destruct ts as [|t ts]; [exact (fun x => x)|]. unfold hd_ok, headb. intros K.
  apply orb_true_iff in K as [K|K]; [apply orb_true_iff in K as [K|K]|].
  - rewrite K. reflexivity.
  - apply andb_true_iff in K as [K1 K2]. apply Nat.leb_le in K1. rewrite K2, (proj2 (Nat.leb_le l 11)) by lia. rewrite orb_true_r. reflexivity.
  - apply andb_true_iff in K as [K1 K2]. apply Nat.leb_le in K1. rewrite K2, (proj2 (Nat.leb_le l 3)) by lia. rewrite !orb_true_r. reflexivity.
Qed.
Lemma hd_not l ts t : hd_ok l ts -> headb l t = false -> hd_error ts <> Some t.
Proof. intros H K. destruct ts as [|x ts]; [destruct H|]. cbn. intros X. injection X as ->. cbn in H. congruence. Qed.
Lemma hd_app l ts r : hd_ok l ts -> hd_ok l (ts ++ r).
Proof. destruct ts; [intros []|exact (fun x => x)]. Qed.

Lemma Pr_down1 l ts e : l <= 12 -> Pr (S l) ts e -> Pr l ts e.
Proof.
  intros Hl HP. pose proof HP as [Hh _]. split; [exact (hd_mono l (S l) ts ltac:(lia) Hh)|]. intros rest out Hs Hc.
  pose proof (Pr_end (S l) ts e rest HP Hs) as HE. unfold Cont in Hc.
  destruct (loopb l) eqn:El; [exact (E_loop l _ _ _ _ El HE Hc)|].
  assert (Hn : Nat.eqb l 13 = false) by (apply Nat.eqb_neq; lia). rewrite Hn in Hc. destruct Hc as [Hs' ->].
  assert (Hx : l = 0 \/ l = 3 \/ l = 4 \/ l = 11 \/ l = 12).
  { do 13 (destruct l as [|l]; [try discriminate El; lia|]). lia. }
  destruct Hx as [-> | [-> | [-> | [-> | ->]]]].
  - apply E_0; [|exact HE]. destruct rest as [|[]]; cbn in *; try discriminate; lia.
  - apply E_3; [|exact HE]. apply (hd_not 4); [apply hd_app; exact Hh|reflexivity].
  - apply (E_cmp _ _ _ _ HE). apply (EC_stop e []). exact Hs'.
  - destruct ts as [|t ts]; [destruct Hh|]. cbn [app] in *. apply E_11; [|exact HE]. cbn in Hh. destruct t; try discriminate Hh; reflexivity.
  - apply E_12; [|exact HE]. intros q ->. cbn in Hs'. lia.
Qed.
Lemma Pr_down l l' ts e : l <= l' -> l' <= 13 -> Pr l' ts e -> Pr l ts e.
Proof.
  intros H H' P. remember (l' - l) as d eqn:Ed. revert l H Ed. induction d as [|d IH]; intros l H Ed.
  - replace l with l' by lia. exact P.
  - apply Pr_down1; [lia|]. apply IH; lia.
Qed.

(** ** Constructs *)
Lemma Pr_id s : Pr 13 [Id s] (EName s).
Proof. split; [reflexivity|]. intros rest out _ Hc. apply E_atom; [reflexivity|discriminate|exact Hc]. Qed.
Lemma Pr_intt n : Pr 13 [IntT n] (EInt n).
Proof. split; [reflexivity|]. intros rest out _ Hc. apply E_atom; [reflexivity|discriminate|exact Hc]. Qed.
Lemma Pr_str s : Pr 13 [StrT s] (EStr s).
Proof. split; [reflexivity|]. intros rest out _ Hc. apply E_atom; [reflexivity|discriminate|exact Hc]. Qed.
Lemma Pr_paren ts e : Pr 0 ts e -> Pr 13 (Lp :: ts ++ [Rp]) e.
Proof.
  intros P. split; [reflexivity|]. intros rest out _ Hc. cbn [app]. rewrite <- app_assoc. cbn [app].
  apply (E_paren _ e rest); [|apply Pr_end; [exact P|exact I]|exact Hc]. apply (hd_not 0); [apply hd_app, P|reflexivity].
Qed.
Lemma Pr_trail ts e extra e' :
  (forall rest out, ET e' rest out -> ET e (extra ++ rest) out) -> Pr 13 ts e -> Pr 13 (ts ++ extra) e'.
Proof.
  intros X [Hh P]. split; [apply hd_app; exact Hh|]. intros rest out _ Hc. rewrite <- app_assoc. apply P; [apply stops14|]. exact (X _ _ Hc).
Qed.
Lemma Pr_attr ts e s : Pr 13 ts e -> Pr 13 (ts ++ [Dot; Id s]) (EAttr e s).
Proof. apply Pr_trail. intros rest out H. exact (ET_attr _ _ _ _ H). Qed.
Fixpoint commas (l : list (list tok)) : list tok := match l with [] => [] | [x] => x | x :: l => x ++ Comma :: commas l end.
Lemma EA_commas l es rest : Forall2 (Pr 0) l es -> EA (commas l ++ Rp :: rest) (es, rest).
Proof.
  intros H. induction H as [|x e l es Hx Hl IH]; [apply EA_nil|]. cbn [commas]. destruct Hl as [|y e' l es Hy Hl].
  - apply EA_last; [apply (hd_not 0); [apply hd_app, Hx|reflexivity]|]. apply Pr_end; [exact Hx|exact I].
  - rewrite <- app_assoc. cbn [app]. apply (EA_cons _ e (commas (y :: l) ++ Rp :: rest) _ rest); [apply (hd_not 0); [apply hd_app, Hx|reflexivity]| |exact IH].
    apply Pr_end; [exact Hx|exact I].
Qed.
Lemma Pr_call ts e l es : Pr 13 ts e -> Forall2 (Pr 0) l es -> Pr 13 (ts ++ Lp :: commas l ++ [Rp]) (ECall e es).
Proof.
  intros P H. revert P. apply Pr_trail. intros rest out X. cbn [app]. rewrite <- app_assoc. cbn [app]. exact (ET_call _ _ _ _ _ (EA_commas _ _ _ H) X).
Qed.
Lemma Pr_idx ts e i ei : Pr 13 ts e -> Pr 0 i ei -> Pr 13 (ts ++ Lb :: i ++ [Rb]) (EIdx e ei).
Proof.
  intros P H. revert P. apply Pr_trail. intros rest out X. cbn [app]. rewrite <- app_assoc. cbn [app].
  apply (ET_idx _ _ ei rest); [apply (hd_not 0); [apply hd_app, H|reflexivity]|apply Pr_end; [exact H|exact I]|exact X].
Qed.
Lemma Pr_from ts e i ei : Pr 13 ts e -> Pr 0 i ei -> Pr 13 (ts ++ Lb :: i ++ [Colon; Rb]) (ESlice e (Some ei) None).
Proof.
  intros P H. revert P. apply Pr_trail. intros rest out X. cbn [app]. rewrite <- app_assoc. cbn [app].
  apply (ET_from _ _ ei rest); [apply (hd_not 0); [apply hd_app, H|reflexivity]|apply Pr_end; [exact H|exact I]|exact X].
Qed.
Lemma Pr_upto ts e i ei : Pr 13 ts e -> Pr 0 i ei -> Pr 13 (ts ++ Lb :: Colon :: i ++ [Rb]) (ESlice e None (Some ei)).
Proof.
  intros P H. revert P. apply Pr_trail. intros rest out X. cbn [app]. rewrite <- app_assoc. cbn [app].
  apply (ET_upto _ _ ei rest); [apply (hd_not 0); [apply hd_app, H|reflexivity]|apply Pr_end; [exact H|exact I]|exact X].
Qed.
Lemma Pr_slice ts e i ei j ej : Pr 13 ts e -> Pr 0 i ei -> Pr 0 j ej -> Pr 13 (ts ++ Lb :: i ++ Colon :: j ++ [Rb]) (ESlice e (Some ei) (Some ej)).
Proof.
  intros P H H'. revert P. apply Pr_trail. intros rest out X. cbn [app]. rewrite <- app_assoc. cbn [app]. rewrite <- app_assoc. cbn [app].
  apply (ET_slice _ _ ei (j ++ Rb :: rest) ej rest); [apply (hd_not 0); [apply hd_app, H|reflexivity]|apply (hd_not 0); [apply hd_app, H'|reflexivity]| | |exact X];
    (apply Pr_end; [assumption|exact I]).
Qed.
Lemma Pr_pow a ea b eb : Pr 13 a ea -> Pr 11 b eb -> Pr 12 (a ++ Op OPow :: b) (EBin OPow ea eb).
Proof.
  intros Pa Pb. split; [apply hd_app; destruct Pa as [Hh _]; exact (hd_mono 12 13 _ ltac:(lia) Hh)|].
  intros rest out Hs [Hs' ->]. rewrite <- app_assoc. cbn [app]. apply (E_pow _ ea (b ++ rest)).
  - apply Pr_end; [exact Pa|cbn; lia].
  - destruct Pb as [Hb Pb]. apply Pb; [exact Hs'|]. split; [|reflexivity].
    destruct rest as [|[s|n|s|o| | | | | | | | | | |]]; cbn in *; auto; try lia. destruct o; cbn in *; lia.
Qed.
Lemma Pr_un t o a ea : sign t = Some o -> Pr 11 a ea -> Pr 11 (t :: a) (EUn o ea).
Proof.
  intros Ho Pa. split; [unfold hd_ok, headb; rewrite Ho; apply orb_true_iff; left; apply orb_true_iff; right; reflexivity|].
  intros rest out Hs [Hs' ->]. cbn [app]. apply (E_un _ _ _ _ _ Ho). apply Pr_end; [exact Pa|exact Hs'].
Qed.
Lemma Pr_bin o a ea b eb : loopb (level o) = true -> Pr (level o) a ea -> Pr (S (level o)) b eb -> Pr (level o) (a ++ Op o :: b) (EBin o ea eb).
Proof.
  intros Hl [Ha Pa] Pb. split; [apply hd_app; exact Ha|]. intros rest out Hs Hc. rewrite <- app_assoc. cbn [app].
  apply Pa; [cbn; lia|]. unfold Cont in *. rewrite Hl in *. apply (EL_op _ _ _ _ eb rest); [reflexivity| |exact Hc].
  apply Pr_end; [exact Pb|exact Hs].
Qed.
Lemma Pr_cmp o a ea b eb : level o = 4 -> Pr 5 a ea -> Pr 5 b eb -> Pr 4 (a ++ Op o :: b) (ECmp ea [(o, eb)]).
Proof.
  intros Ho Pa Pb. split; [apply hd_app; destruct Pa as [Hh _]; exact (hd_mono 4 5 _ ltac:(lia) Hh)|].
  intros rest out Hs [Hs' ->]. rewrite <- app_assoc. cbn [app]. apply (E_cmp _ ea (Op o :: b ++ rest)).
  - apply Pr_end; [exact Pa|cbn; lia].
  - apply (EC_op _ _ _ _ eb rest); [exact Ho| |apply (EC_stop ea ([] ++ [(o, eb)])); exact Hs']. apply Pr_end; [exact Pb|exact Hs].
Qed.
Lemma Pr_cmp2 o o' a ea b eb c ec : level o = 4 -> level o' = 4 -> Pr 5 a ea -> Pr 5 b eb -> Pr 5 c ec ->
  Pr 4 (a ++ Op o :: b ++ Op o' :: c) (ECmp ea [(o, eb); (o', ec)]).
Proof.
  intros Ho Ho' Pa Pb Pc. split; [apply hd_app; destruct Pa as [Hh _]; exact (hd_mono 4 5 _ ltac:(lia) Hh)|].
  intros rest out Hs [Hs' ->]. rewrite <- app_assoc. cbn [app]. rewrite <- app_assoc. cbn [app]. apply (E_cmp _ ea (Op o :: b ++ Op o' :: c ++ rest)).
  - apply Pr_end; [exact Pa|cbn; lia].
  - apply (EC_op _ _ _ _ eb (Op o' :: c ++ rest)); [exact Ho| |].
    + apply Pr_end; [exact Pb|cbn; lia].
    + apply (EC_op _ _ _ _ ec rest); [exact Ho'| |apply (EC_stop ea (([] ++ [(o, eb)]) ++ [(o', ec)])); exact Hs'].
      apply Pr_end; [exact Pc|exact Hs].
Qed.
Lemma Pr_not a ea : Pr 3 a ea -> Pr 3 (Not :: a) (ENot ea).
Proof.
  intros Pa. split; [reflexivity|]. intros rest out Hs [Hs' ->]. cbn [app]. apply E_not. apply Pr_end; [exact Pa|exact Hs'].
Qed.
Lemma Pr_if a ea c ec b eb : Pr 1 a ea -> Pr 1 c ec -> Pr 0 b eb -> Pr 0 (a ++ If :: c ++ Else :: b) (EIf ec ea eb).
Proof.
  intros Pa Pc Pb. split; [apply hd_app; destruct Pa as [Hh _]; exact (hd_mono 0 1 _ ltac:(lia) Hh)|].
  intros rest out Hs [Hs' ->]. rewrite <- app_assoc. cbn [app]. rewrite <- app_assoc. cbn [app].
  apply (E_if _ ea (c ++ Else :: b ++ rest) ec (b ++ rest) eb).
  - apply Pr_end; [exact Pa|cbn; lia].
  - apply Pr_end; [exact Pc|exact I].
  - apply Pr_end; [exact Pb|exact Hs'].
Qed.
Lemma Pr_tuple x ex l es : Pr 0 x ex -> Forall2 (Pr 0) l es -> l <> [] -> Pr 13 (Lp :: x ++ Comma :: commas l ++ [Rp]) (ETuple (ex :: es)).
Proof.
  intros P H Hl. split; [reflexivity|]. intros rest out _ Hc. cbn [app]. rewrite <- app_assoc. cbn [app]. rewrite <- app_assoc. cbn [app].
  apply (E_tuple _ ex (commas l ++ Rp :: rest) es rest); [apply (hd_not 0); [apply hd_app, P|reflexivity]| |exact (EA_commas _ _ _ H)|exact Hc].
  apply Pr_end; [exact P|exact I].
Qed.
Lemma Pr_tuple1 x ex : Pr 0 x ex -> Pr 13 (Lp :: x ++ [Comma; Rp]) (ETuple [ex]).
Proof.
  intros P. split; [reflexivity|]. intros rest out _ Hc. cbn [app]. rewrite <- app_assoc. cbn [app].
  apply (E_tuple _ ex (Rp :: rest) [] rest); [apply (hd_not 0); [apply hd_app, P|reflexivity]| |apply EA_nil|exact Hc].
  apply Pr_end; [exact P|exact I].
Qed.
Lemma Pr_parse l ts e : l <= 13 -> Pr l ts e -> py_parse ts e.
Proof.
  intros Hl P. pose proof (Pr_end 0 ts e [] (Pr_down 0 l ts e ltac:(lia) Hl P) I) as [k H]. rewrite app_nil_r in H. exists k. exact H.
Qed.

(** ** Parsing given tokens: the parser never gets near the end of a large enough amount of fuel *)
Lemma parses n ts e : (forall m, pexp (n + m) 0 ts = Some (e, [])) -> py_parse ts e.
Proof. intros H. exists n. intros k Hk. specialize (H (k - n)). replace (n + (k - n)) with k in H by lia. exact H. Qed.
