(** What the grammar of the language allows *)
From Verif Require Import PyBase PyStr M_Lexer S_Lexer S_Py P_Py M_Lit M_Conv S_Conv P_Conv S_Expr P_Parse P_Parse2 P_Parse3 P_Expr.
From Coq Require Import Lia.
Open Scope Z_scope.

Definition bound (n : nat) : nat := match n with 0 => 1 | 1 => 2 | 2 => 3 | 3 => 3 | 4 => 4 | 5 => 5 | 6 => 6 | 7 => 7 | 8 => 9 | _ => 10 end%nat.
Lemma bound_up : forall n, (bound n <= bound (S n))%nat.
Proof. intros n. do 9 (destruct n as [|n]; [cbn; lia|]). cbn. lia. Qed.
Lemma digits_nonneg : forall ds, forallb digit ds = true -> 0 <= digits_value ds.
Proof.
  intros ds H. unfold digits_value. assert (G : forall a, 0 <= a -> 0 <= fold_left (fun a c => a * 10 + (c - 48)) ds a); [|apply G; lia].
  induction ds as [|c ds IH]; intros a Ha; [exact Ha|]. cbn [forallb] in H. apply andb_prop in H as [A B]. cbn [fold_left]. apply IH; auto. unfold digit in A. apply andb_prop in A as [A1 A2]. apply Z.leb_le in A1. lia.
Qed.
Lemma binary_level : forall n o f, binary n o f -> forall x y lib, tame lib (f x y) ->
  tame lib x /\ tame lib y /\ tight (f x y) = bound n /\ (bound n < bound (S n))%nat /\
  (produced x -> produced y -> (tight (f x y) <= tight x)%nat -> (tight (f x y) < tight y)%nat -> produced (f x y)).
Proof.
  intros n o f B x y lib T. destruct B as [w E | w E | w E | w E | t o I | t o I | | t o I | |]; cbn [tame] in T; try contradiction; destruct T as (Tx & Ty & _);
    try (cbn [In] in I; repeat (destruct I as [I | I]; [injection I as <- <-; (repeat split; auto; cbn; lia)|]); destruct I); repeat split; auto; cbn; lia.
Qed.
Lemma says_produced : forall lib n ps t, says n ps t -> Forall piece_ok ps -> tame lib t -> produced t /\ (bound n <= tight t)%nat.
Proof.
  intros lib. apply (says_mut (fun n ps t _ => Forall piece_ok ps -> tame lib t -> produced t /\ (bound n <= tight t)%nat)
                              (fun ps l _ => Forall piece_ok ps -> Forall (fun x => tame lib x -> produced x) l)).
  - intros n ps t _ IH OK T. destruct (IH OK T) as [A B]. assert (U := bound_up n). split; [auto | lia].
  - intros n o f a x b y Bi _ IHa _ IHb OK T. apply Forall_app in OK as [Oa O]. apply Forall_app in O as [_ Ob].
    destruct (binary_level n o f Bi x y lib T) as (Tx & Ty & E & L & P). destruct (IHa Oa Tx) as [Px Lx]. destruct (IHb Ob Ty) as [Py Ly]. split; [apply P; auto; lia | lia].
  - intros p a x _ _ _ _ T. destruct T.
  - intros m a x _ IH OK T. inversion OK; subst. destruct T as (T & _). destruct (IH H2 T) as [P L]. cbn [bound] in L. split; [split; [lia | auto] | cbn; lia].
  - intros a x _ IH OK T. inversion OK as [|? ? _ Oa]; subst. apply Forall_app in Oa as [Oa _]. destruct (IH Oa T) as [P _]. split; [exact P | cbn; lia].
  - intros ds OK _. inversion OK as [|? ? Hn _]; subst. cbn [piece_ok] in Hn. destruct Hn as (_ & D & _). split; [apply digits_nonneg; auto | cbn; lia].
  - intros; split; [exact I | cbn; lia].
  - intros; split; [exact I | cbn; lia].
  - intros; split; [exact I | cbn; lia].
  - intros; split; [exact I | cbn; lia].
  - intros; split; [exact I | cbn; lia].
  - intros w ps l _ _ IH OK T. inversion OK as [|? ? _ OK']; subst. inversion OK' as [|? ? _ Ol]; subst. apply Forall_app in Ol as [Ol _]. destruct T as [_ T]. split; [|cbn; lia].
    specialize (IH Ol). cbn [produced]. clear - IH T. induction l as [|x l IHl]; [exact I|]. inversion IH; subst. destruct T as [Tx Tl]. split; [apply H1; exact Tx | apply IHl; assumption].
  - intros; constructor.
  - intros ps t _ IH OK. repeat constructor. intros T. apply (IH OK T).
  - intros ps t qs l _ IHp _ IHq _ OK. apply Forall_app in OK as [Op Oq]. inversion Oq; subst. constructor; auto. intros T. apply (IHp Op T).
Qed.
Lemma says_shaped : forall n ps t, says n ps t -> shaped t /\ ((2 <= n)%nat -> match t with CAnd _ _ | COr _ _ => False | _ => True end).
Proof.
  intros n ps t H. induction H as [n ps t _ IH | n o f a x b y B _ IHa _ IHb | p a x N _ IH | m a x _ IH | a x _ IH | ds | q s | w c b E I0 | w E | w E | w N | w ps l N A]; try (split; [exact I | intros; exact I]).
  - destruct IH as [A B]. split; auto. intros L. apply B. lia.
  - destruct B; try (split; [exact I | intros; exact I]); (split; [split; [apply IHa | apply IHb] | lia]).
  - destruct IH as [A B]. split; [split; [apply B; lia | exact A] | intros; exact I].
  - destruct IH as [A _]. split; [exact A | intros; exact I].
Qed.
Lemma says_boolean : forall lib n ps t, says n ps t -> Forall piece_ok ps -> conditions lib t -> boolean lib t.
Proof.
  intros lib n ps t H. assert (H0 := H). induction H as [n ps t Hu IH | n o f a x b y B Ha IHa Hb IHb | p a x N Ha IH | m a x Ha IH | a x Ha IH | ds | q s | w c b E I0 | w E | w E | w N | w ps l N A]; intros OK C;
    try (cbn [conditions boolean] in *; destruct C as [T J]; split; [apply (says_produced lib _ _ _ H0 OK T) | split; assumption]).
  - apply IH; auto.
  - apply Forall_app in OK as [Oa O]. apply Forall_app in O as [Oo Ob].
    assert (Lf : produced (f x y) -> tame lib (f x y) -> (forall s, joined (mean (f x y)) <> EStr s) -> produced (f x y) /\ tame lib (f x y) /\ forall s, joined (mean (f x y)) <> EStr s) by auto.
    assert (OK' : Forall piece_ok (a ++ o ++ b)) by (repeat (apply Forall_app; split; auto)).
    destruct B; cbn [conditions boolean] in *; destruct C as [C1 C2]; try (split; [apply IHa | apply IHb]; assumption); (apply Lf; [apply (says_produced lib _ _ _ H0 OK' C1) | exact C1 | exact C2]).
  - inversion OK; subst. cbn [conditions boolean] in *. apply IH; auto.
  - inversion OK as [|? ? _ Oa]; subst. apply Forall_app in Oa as [Oa _]. cbn [conditions boolean] in *. apply IH; auto.
Qed.
