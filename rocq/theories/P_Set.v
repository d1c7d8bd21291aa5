From Verif Require Import PyBase M_Procs M_Set.
Open Scope res_scope.

Lemma pget_pset p k v k' : pget (pset p k v) k' = if String.eqb k' k then Some v else pget p k'.
Proof. apply (dget_dset String.eqb String.eqb_spec). Qed.

Ltac crush_set :=
  repeat match goal with
  | |- context [match ?x with _ => _ end] => destruct x eqn:?; cbn [fst snd sprops smods] in *
  | |- context [if ?x then _ else _] => destruct x eqn:?; cbn [fst snd sprops smods] in *
  end.

(** Frame: a call changes at most the entry of its own word. *)
Lemma set_write_frame imp st w a k w' : slower w' <> slower w ->
  pget (sprops (snd (set_write imp st w a k))) (slower w') = pget (sprops st) (slower w').
Proof.
  intros Hne. unfold set_write.
  assert (String.eqb (slower w') (slower w) = false) as E by (apply String.eqb_neq; exact Hne).
  crush_set; cbn [fst snd sprops smods]; rewrite ?pget_pset, ?E; try reflexivity.
Qed.

Lemma set_read_frame imp st w a k w' i : slower w' <> slower w ->
  set_read (sprops (snd (set_write imp st w a k))) w' i = set_read (sprops st) w' i.
Proof. intros H. unfold set_read. rewrite (set_write_frame imp st w a k w' H). reflexivity. Qed.

Lemma slower_upper_a a : lower_ascii (upper_ascii a) = lower_ascii a.
Proof. destruct a as [[] [] [] [] [] [] [] []]; vm_compute; reflexivity. Qed.
Lemma upper_lower_a a : upper_ascii (lower_ascii a) = upper_ascii a.
Proof. destruct a as [[] [] [] [] [] [] [] []]; vm_compute; reflexivity. Qed.
Lemma lower_lower_a a : lower_ascii (lower_ascii a) = lower_ascii a.
Proof. destruct a as [[] [] [] [] [] [] [] []]; vm_compute; reflexivity. Qed.
Lemma slower_idem s : slower (slower s) = slower s.
Proof. unfold slower. induction s as [|a s IH]; cbn [smap]; [reflexivity|]. rewrite lower_lower_a, IH. reflexivity. Qed.
Lemma supper_slower s : supper (slower s) = supper s.
Proof. unfold supper, slower. induction s as [|a s IH]; cbn [smap]; [reflexivity|]. rewrite upper_lower_a, IH. reflexivity. Qed.

Lemma in_words_spec ws s : in_words ws s = true <-> In s ws.
Proof.
  unfold in_words. rewrite existsb_exists. split.
  - intros (x & Hx & E). apply String.eqb_eq in E. subst. exact Hx.
  - intros H. exists s. split; [exact H|apply String.eqb_refl].
Qed.

Lemma onoff_upper s : in_words ["on"; "off"]%string (slower s) = true -> supper s = "ON"%string \/ supper s = "OFF"%string.
Proof.
  intros H. apply in_words_spec in H. rewrite <- supper_slower.
  destruct H as [<-|[<-|[]]]; [left|right]; reflexivity.
Qed.

Lemma upd0 (x v : sval) l : upd (x :: l) 0 v = Ok (v :: l).
Proof.
  unfold upd. rewrite py_set_nth_nonneg by lia. rewrite zlen_cons. pose proof (zlen_nonneg l).
  destruct (Z.leb_spec (1 + zlen l) 0); [lia|]. reflexivity.
Qed.
Lemma upd1 (x y v : sval) l : upd (x :: y :: l) 1 v = Ok (x :: v :: l).
Proof.
  unfold upd. rewrite py_set_nth_nonneg by lia. rewrite !zlen_cons. pose proof (zlen_nonneg l).
  destruct (Z.leb_spec (1 + (1 + zlen l)) 1); [lia|]. reflexivity.
Qed.
Lemma upd2 (x y z v : sval) l : upd (x :: y :: z :: l) 2 v = Ok (x :: y :: v :: l).
Proof.
  unfold upd. rewrite py_set_nth_nonneg by lia. rewrite !zlen_cons. pose proof (zlen_nonneg l).
  destruct (Z.leb_spec (1 + (1 + (1 + zlen l))) 2); [lia|]. reflexivity.
Qed.

Definition is_onoff (v : sval) := v = on \/ v = off.

(** Shape of every entry in every reachable state. *)
Definition entry_ok (w : string) (e : option (list sval)) : Prop :=
  if in_words onoff_words w then exists v, e = Some [v] /\ is_onoff v
  else if String.eqb w "bell" then exists a b, e = Some [a; b]
  else if String.eqb w "century" then exists a b c d, e = Some [a; b; c; d]
  else if String.eqb w "compatible" then exists a b, e = Some [a; b] /\ is_onoff a
  else if String.eqb w "notify" then exists a b, e = Some [a; b]
  else if String.eqb w "procedure" then e = None
  else exists l, e = Some l.
Definition inv (st : sstate) : Prop := forall w e, pget (sprops st) w = Some e -> entry_ok w e.

Lemma inv_store st w e m : inv st -> entry_ok w e -> inv (mkS (pset (sprops st) w e) m).
Proof.
  intros Hi He w' e'. cbn [sprops]. rewrite pget_pset. destruct (String.eqb_spec w' w) as [->|].
  - intros [= <-]. exact He.
  - apply Hi.
Qed.

Lemma inv_init m : inv (mkS set_props_init m).
Proof.
  intros w e. cbn [sprops]. unfold set_props_init, pget, entry_ok.
  assert (forall v, v = on \/ v = off -> is_onoff v) as Hoo by auto.
  repeat (cbn [dget]; match goal with |- context [String.eqb w ?c] => destruct (String.eqb_spec w c) as [->|] end;
    [intros [= <-]; vm_compute; eauto 10 | ]).
  intros; discriminate.
Qed.

(** One call in a state satisfying the invariant: either nothing changed, or a new well-shaped entry was stored. *)
Lemma set_write_inv imp st w a k : inv st -> inv (snd (set_write imp st w a k)).
Proof.
  intros Hi. unfold set_write. remember (slower w) as x eqn:Ex. clear Ex.
  destruct (pget (sprops st) x) as [settings|] eqn:Ep; [|exact Hi].
  pose proof (Hi x settings Ep) as Hs. unfold entry_ok in Hs.
  destruct (String.eqb_spec x "bell") as [->|Hb].
  { cbn in Hs. destruct Hs as (p & q & ->). destruct (arg_lower a 0) as [s|]; [|exact Hi].
    destruct (in_words _ s); [|exact Hi]. destruct a as [|[y| |] a]; try exact Hi.
    destruct (String.eqb y "TO").
    - rewrite upd1. apply inv_store; [exact Hi|]. vm_compute. eauto.
    - rewrite upd0. apply inv_store; [exact Hi|]. vm_compute. eauto. }
  destruct (String.eqb_spec x "century") as [->|Hc].
  { cbn in Hs. destruct Hs as (p & q & r & t & ->).
    assert (exists p', match a with [] => Ok [p; q; r; t] | v :: _ => upd [p; q; r; t] 0 v end = Ok [p'; q; r; t]) as (p' & ->).
    { destruct a; [eauto|rewrite upd0; eauto]. }
    assert (exists q', match dget String.eqb k "century"%string with None => Ok [p'; q; r; t] | Some v => upd [p'; q; r; t] 1 v end
      = Ok [p'; q'; r; t]) as (q' & ->).
    { destruct (dget _ k _); [rewrite upd1|]; eauto. }
    assert (exists r', match dget String.eqb k "rollover"%string with None => Ok [p'; q'; r; t] | Some v => upd [p'; q'; r; t] 2 v end
      = Ok [p'; q'; r'; t]) as (r' & ->).
    { destruct (dget _ k _); [rewrite upd2|]; eauto. }
    apply inv_store; [exact Hi|]. vm_compute. eauto 10. }
  destruct (String.eqb_spec x "compatible") as [->|Hco].
  { cbn in Hs. destruct Hs as (p & q & -> & Hp). unfold arg_lower, arg_at. destruct a as [|v a]; [exact Hi|].
    rewrite py_nth_nonneg by lia. cbn [Z.to_nat nth_error rbind]. destruct v as [s| |]; try exact Hi.
    destruct (in_words ["on"; "off"]%string (slower s)) eqn:Es; [|exact Hi].
    cbn [as_upper]. rewrite upd0.
    assert (is_onoff (VStr (supper s))) as Hs2 by (destruct (onoff_upper s Es) as [->| ->]; [left|right]; reflexivity).
    destruct a as [|[s2| |] a].
    - apply inv_store; [exact Hi|]. cbn. eauto.
    - destruct (in_words _ (slower s2)).
      + apply inv_store; [exact Hi|]. cbn. eauto.
      + rewrite upd1. apply inv_store; [exact Hi|]. cbn. eauto.
    - apply inv_store; [exact Hi|]. cbn. eauto.
    - apply inv_store; [exact Hi|]. cbn. eauto. }
  destruct (String.eqb_spec x "notify") as [->|Hn].
  { cbn in Hs. destruct Hs as (p & q & ->). destruct (dget _ k _).
    - rewrite upd1. apply inv_store; [exact Hi|]. cbn. eauto.
    - destruct a; [exact Hi|]. rewrite upd0. apply inv_store; [exact Hi|]. cbn. eauto. }
  destruct (in_words onoff_words x) eqn:Eo.
  { destruct Hs as (v0 & -> & Hv0). unfold arg_lower, arg_at. destruct a as [|v a]; [exact Hi|].
    rewrite py_nth_nonneg by lia. cbn [Z.to_nat nth_error rbind]. destruct v as [s| |]; try exact Hi.
    destruct (in_words ["on"; "off"]%string (slower s)) eqn:Es; [|exact Hi]. cbn [as_upper]. rewrite upd0.
    apply inv_store; [exact Hi|]. unfold entry_ok. rewrite Eo. exists (VStr (supper s)). split; [reflexivity|].
    destruct (onoff_upper s Es) as [->| ->]; [left|right]; reflexivity. }
  destruct (in_words ["index"; "refresh"]%string x) eqn:Ei.
  { apply inv_store; [exact Hi|]. unfold entry_ok. rewrite Eo.
    destruct (String.eqb_spec x "bell"); [congruence|]. destruct (String.eqb_spec x "century"); [congruence|].
    destruct (String.eqb_spec x "compatible"); [congruence|]. destruct (String.eqb_spec x "notify"); [congruence|].
    destruct (String.eqb_spec x "procedure") as [->|]; [discriminate Ei|]. eauto. }
  destruct (String.eqb_spec x "procedure") as [->|Hpr].
  { destruct a as [|[n| |] a]; try exact Hi. destruct (imp n); [|exact Hi].
    apply inv_store; [exact Hi|]. apply (Hi _ _ Ep). }
  apply inv_store; [exact Hi|]. apply (Hi _ _ Ep).
Qed.

Lemma set_run_inv imp cs : forall st, inv st -> inv (set_run imp st cs).
Proof.
  unfold set_run. induction cs as [|[w a k] cs IH]; intros st Hi; cbn [fold_left]; [exact Hi|].
  apply IH, set_write_inv, Hi.
Qed.

(** The set of known words never changes. *)
Lemma set_write_keys imp st w a k x : pget (sprops (snd (set_write imp st w a k))) x = None <-> pget (sprops st) x = None.
Proof.
  assert (forall e, pget (sprops st) (slower w) <> None ->
    pget (pset (sprops st) (slower w) e) x = None <-> pget (sprops st) x = None) as H.
  { intros e Hn. rewrite pget_pset. destruct (String.eqb_spec x (slower w)) as [->|]; [|tauto].
    split; [discriminate|congruence]. }
  unfold set_write. destruct (pget (sprops st) (slower w)) as [settings|] eqn:Ep; [|tauto].
  crush_set; try tauto; apply H; congruence.
Qed.
Lemma set_run_keys imp cs : forall st x, pget (sprops (set_run imp st cs)) x = None <-> pget (sprops st) x = None.
Proof.
  unfold set_run. induction cs as [|[w a k] cs IH]; intros st x; cbn [fold_left]; [tauto|].
  rewrite IH. apply set_write_keys.
Qed.

Section Reach.
  Variable imp : string -> bool.
  Variable mods : list pyobj.
  Variable cs : list set_call.
  Let st := set_run imp (mkS set_props_init mods) cs.
  Lemma reach_inv : inv st.
  Proof. apply set_run_inv, inv_init. Qed.
  Lemma reach_entry w : pget set_props_init w <> None -> exists e, pget (sprops st) w = Some e /\ entry_ok w e.
  Proof.
    intros H. destruct (pget (sprops st) w) as [e|] eqn:E.
    - exists e. split; [reflexivity|]. apply (reach_inv _ _ E).
    - apply set_run_keys in E. contradiction.
  Qed.
  Lemma onoff_known w : In w onoff_words -> pget set_props_init w <> None.
  Proof. cbn [onoff_words In]. intuition subst; vm_compute; discriminate. Qed.

  Lemma onoff_always w : In (slower w) onoff_words -> set_read (sprops st) w None = Ok on \/ set_read (sprops st) w None = Ok off.
  Proof.
    intros H. destruct (reach_entry (slower w) (onoff_known _ H)) as (e & Ee & He). unfold set_read. rewrite Ee.
    unfold entry_ok in He. apply in_words_spec in H. rewrite H in He. destruct He as (v & -> & [-> | ->]); [left|right]; reflexivity.
  Qed.

  Lemma onoff_words_not_special w : In w onoff_words ->
    String.eqb w "bell" = false /\ String.eqb w "century" = false /\ String.eqb w "compatible" = false /\ String.eqb w "notify" = false.
  Proof. cbn [onoff_words In]. intuition subst; reflexivity. Qed.

  Lemma onoff_write w s a k : In (slower w) onoff_words ->
    (slower s = "on"%string \/ slower s = "off"%string) ->
    exists st', set_write imp st w (VStr s :: a) k = (Ok tt, st') /\
      set_read (sprops st') w None = Ok (VStr (supper s)) /\ smods st' = smods st.
  Proof.
    intros H Hs. destruct (reach_entry (slower w) (onoff_known _ H)) as (e & Ee & He).
    unfold entry_ok in He. pose proof (proj2 (in_words_spec _ _) H) as Hw. rewrite Hw in He.
    destruct He as (v & -> & Hv).
    destruct (onoff_words_not_special _ H) as (E1 & E2 & E3 & E4).
    unfold set_write. rewrite Ee, E1, E2, E3, E4, Hw. unfold arg_lower, arg_at. rewrite py_nth_nonneg by lia.
    cbn [Z.to_nat nth_error rbind].
    assert (in_words ["on"; "off"]%string (slower s) = true) as ->.
    { apply in_words_spec. destruct Hs as [-> | ->]; cbn; auto. }
    rewrite upd0. eexists. split; [reflexivity|]. cbn [sprops smods]. split; [|reflexivity].
    unfold set_read. rewrite pget_pset, String.eqb_refl. reflexivity.
  Qed.

  Lemma onoff_invalid w args k : In (slower w) onoff_words ->
    (forall s a, args = VStr s :: a -> slower s <> "on"%string /\ slower s <> "off"%string) ->
    exists e, set_write imp st w args k = (Err e, st).
  Proof.
    intros H Hs. destruct (reach_entry (slower w) (onoff_known _ H)) as (e & Ee & He).
    unfold entry_ok in He. pose proof (proj2 (in_words_spec _ _) H) as Hw. rewrite Hw in He.
    destruct He as (v & -> & Hv).
    destruct (onoff_words_not_special _ H) as (E1 & E2 & E3 & E4).
    unfold set_write. rewrite Ee, E1, E2, E3, E4, Hw. unfold arg_lower, arg_at.
    destruct args as [|v0 a]; [eexists; reflexivity|]. rewrite py_nth_nonneg by lia.
    cbn [Z.to_nat nth_error rbind]. destruct v0 as [s| |]; try (eexists; reflexivity).
    destruct (Hs s a eq_refl) as [N1 N2].
    assert (in_words ["on"; "off"]%string (slower s) = false) as ->; [|eauto].
    apply not_true_iff_false. intros E. apply in_words_spec in E. cbn in E. intuition congruence.
  Qed.

  (** With string arguments a failing call changes nothing, whatever the word. *)
  Lemma failed_unchanged w args k e st' : (forall v, In v args -> exists s, v = VStr s) ->
    set_write imp st w args k = (Err e, st') -> st' = st.
  Proof.
    intros Hstr. unfold set_write. remember (slower w) as x eqn:Ex. clear Ex.
    destruct (pget (sprops st) x) as [settings|] eqn:Ep; [|intros [= _ <-]; reflexivity].
    pose proof (reach_inv x settings Ep) as Hs. unfold entry_ok in Hs.
    destruct (String.eqb_spec x "bell") as [->|Hb].
    { cbn in Hs. destruct Hs as (p & q & ->). destruct (arg_lower args 0) as [s|]; [|congruence].
      destruct (in_words _ s); [|congruence]. destruct args as [|[y| |] a]; try congruence.
      destruct (String.eqb y "TO"); [rewrite upd1|rewrite upd0]; discriminate. }
    destruct (String.eqb_spec x "century") as [->|Hc].
    { cbn in Hs. destruct Hs as (p & q & r & t & ->).
      assert (exists p', match args with [] => Ok [p; q; r; t] | v :: _ => upd [p; q; r; t] 0 v end = Ok [p'; q; r; t]) as (p' & ->).
      { destruct args; [eauto|rewrite upd0; eauto]. }
      assert (exists q', match dget String.eqb k "century"%string with None => Ok [p'; q; r; t] | Some v => upd [p'; q; r; t] 1 v end
        = Ok [p'; q'; r; t]) as (q' & ->).
      { destruct (dget _ k _); [rewrite upd1|]; eauto. }
      assert (exists r', match dget String.eqb k "rollover"%string with None => Ok [p'; q'; r; t] | Some v => upd [p'; q'; r; t] 2 v end
        = Ok [p'; q'; r'; t]) as (r' & ->).
      { destruct (dget _ k _); [rewrite upd2|]; eauto. }
      discriminate. }
    destruct (String.eqb_spec x "compatible") as [->|Hco].
    { cbn in Hs. destruct Hs as (p & q & -> & Hp). unfold arg_lower, arg_at. destruct args as [|v a]; [cbn; congruence|].
      rewrite py_nth_nonneg by lia. cbn [Z.to_nat nth_error rbind]. destruct v as [s| |]; try congruence.
      destruct (in_words ["on"; "off"]%string (slower s)); [|congruence]. rewrite upd0.
      destruct a as [|v2 a]; [discriminate|]. destruct (Hstr v2) as (s2 & ->); [right; left; reflexivity|].
      destruct (in_words _ (slower s2)); [discriminate|]. rewrite upd1. discriminate. }
    destruct (String.eqb_spec x "notify") as [->|Hn].
    { cbn in Hs. destruct Hs as (p & q & ->). destruct (dget _ k _); [rewrite upd1; discriminate|].
      destruct args; [congruence|]. rewrite upd0. discriminate. }
    destruct (in_words onoff_words x) eqn:Eo.
    { destruct Hs as (v0 & -> & Hv0). destruct (arg_lower args 0) as [s|]; [|congruence].
      destruct (in_words _ s); [|congruence]. destruct args; [congruence|]. rewrite upd0. discriminate. }
    destruct (in_words ["index"; "refresh"]%string x); [discriminate|].
    destruct (String.eqb x "procedure"); [|discriminate].
    destruct args as [|[n| |] a]; try congruence. destruct (imp n); congruence.
  Qed.

  (** Slots of the settings that are not plain ON/OFF switches. *)
  Lemma read_slots st' w l i : pget (sprops st') (slower w) = Some (Some l) ->
    set_read (sprops st') w i = py_nth l (match i with Some i => i | None => 0 end).
  Proof. intros E. unfold set_read. rewrite E. reflexivity. Qed.
  Lemma bell_write w s a k : slower w = "bell"%string ->
    (slower s = "on" \/ slower s = "off")%string ->
    exists st', set_write imp st w (VStr s :: a) k = (Ok tt, st') /\
      set_read (sprops st') w None = Ok (VStr (supper s)) /\ set_read (sprops st') w (Some 1) = set_read (sprops st) w (Some 1).
  Proof.
    intros Hw Hs. destruct (reach_entry (slower w)) as (e & Ee & He); [rewrite Hw; vm_compute; discriminate|].
    rewrite Hw in He. cbn in He. destruct He as (p & q & ->).
    assert (String.eqb s "TO" = false) as ET by (apply String.eqb_neq; intros ->; destruct Hs; discriminate).
    assert (in_words ["to"; "on"; "off"]%string (slower s) = true) as EI by (apply in_words_spec; cbn; intuition).
    unfold set_write. rewrite Ee. rewrite Hw in *. cbn [String.eqb Ascii.eqb Bool.eqb]. unfold arg_lower, arg_at.
    rewrite py_nth_nonneg by lia. cbn [Z.to_nat nth_error rbind]. rewrite EI, ET, upd0. eexists. split; [reflexivity|].
    unfold set_read. cbn [sprops]. rewrite Hw, pget_pset, String.eqb_refl, Ee. split; reflexivity.
  Qed.
  Lemma bell_to w v a k : slower w = "bell"%string ->
    exists st', set_write imp st w (VStr "TO"%string :: v :: a) k = (Ok tt, st') /\
      set_read (sprops st') w (Some 1) = Ok v /\ set_read (sprops st') w None = set_read (sprops st) w None.
  Proof.
    intros Hw. destruct (reach_entry (slower w)) as (e & Ee & He); [rewrite Hw; vm_compute; discriminate|].
    rewrite Hw in He. cbn in He. destruct He as (p & q & ->).
    unfold set_write. rewrite Ee. rewrite Hw in *. cbn [String.eqb Ascii.eqb Bool.eqb]. unfold arg_lower, arg_at.
    rewrite py_nth_nonneg by lia. cbn [Z.to_nat nth_error rbind].
    change (in_words ["to"; "on"; "off"]%string (slower "TO")) with true. cbv iota. rewrite upd1. eexists. split; [reflexivity|].
    unfold set_read. cbn [sprops]. rewrite Hw, pget_pset, String.eqb_refl, Ee. split; reflexivity.
  Qed.
  Definition slot (v : option sval) (old : res sval) : res sval := match v with Some v => Ok v | None => old end.
  Lemma century_write w args k : slower w = "century"%string ->
    exists st', set_write imp st w args k = (Ok tt, st') /\
      set_read (sprops st') w None = slot (hd_error args) (set_read (sprops st) w None) /\
      set_read (sprops st') w (Some 1) = slot (dget String.eqb k "century"%string) (set_read (sprops st) w (Some 1)) /\
      set_read (sprops st') w (Some 2) = slot (dget String.eqb k "rollover"%string) (set_read (sprops st) w (Some 2)) /\
      set_read (sprops st') w (Some 3) = set_read (sprops st) w (Some 3).
  Proof.
    intros Hw. destruct (reach_entry (slower w)) as (e & Ee & He); [rewrite Hw; vm_compute; discriminate|].
    rewrite Hw in He. cbn in He. destruct He as (p & q & r & t & ->).
    unfold set_write. rewrite Ee. rewrite Hw in *. cbn [String.eqb Ascii.eqb Bool.eqb].
    destruct args as [|v args]; destruct (dget String.eqb k "century"%string) as [v1|]; destruct (dget String.eqb k "rollover"%string) as [v2|];
      rewrite ?upd0, ?upd1, ?upd2; (eexists; split; [reflexivity|]);
      unfold set_read; cbn [sprops]; rewrite Hw, pget_pset, String.eqb_refl, Ee; repeat split; reflexivity.
  Qed.
  Lemma compatible_write w s k : slower w = "compatible"%string -> (slower s = "on" \/ slower s = "off")%string ->
    exists st', set_write imp st w [VStr s] k = (Ok tt, st') /\
      set_read (sprops st') w None = Ok (VStr (supper s)) /\ set_read (sprops st') w (Some 1) = set_read (sprops st) w (Some 1).
  Proof.
    intros Hw Hs. destruct (reach_entry (slower w)) as (e & Ee & He); [rewrite Hw; vm_compute; discriminate|].
    rewrite Hw in He. cbn in He. destruct He as (p & q & -> & _).
    assert (in_words ["on"; "off"]%string (slower s) = true) as EI by (apply in_words_spec; cbn; intuition).
    unfold set_write. rewrite Ee. rewrite Hw in *. cbn [String.eqb Ascii.eqb Bool.eqb]. unfold arg_lower, arg_at.
    rewrite py_nth_nonneg by lia. cbn [Z.to_nat nth_error rbind as_upper]. rewrite EI, upd0. eexists. split; [reflexivity|].
    unfold set_read. cbn [sprops]. rewrite Hw, pget_pset, String.eqb_refl, Ee. split; reflexivity.
  Qed.
  Lemma notify_write w v k : slower w = "notify"%string ->
    exists st', set_write imp st w [v] k = (Ok tt, st') /\
      set_read (sprops st') w None = (if dmem String.eqb k "cursor"%string then set_read (sprops st) w None else Ok v) /\
      set_read (sprops st') w (Some 1) = slot (dget String.eqb k "cursor"%string) (set_read (sprops st) w (Some 1)).
  Proof.
    intros Hw. destruct (reach_entry (slower w)) as (e & Ee & He); [rewrite Hw; vm_compute; discriminate|].
    rewrite Hw in He. cbn in He. destruct He as (p & q & ->).
    unfold set_write. rewrite Ee. rewrite Hw in *. cbn [String.eqb Ascii.eqb Bool.eqb]. unfold dmem.
    destruct (dget String.eqb k "cursor"%string) as [v1|]; rewrite ?upd0, ?upd1; (eexists; split; [reflexivity|]);
      unfold set_read; cbn [sprops]; rewrite Hw, pget_pset, String.eqb_refl, Ee; split; reflexivity.
  Qed.
  Lemma index_write w args k i : (slower w = "index" \/ slower w = "refresh")%string ->
    exists st', set_write imp st w args k = (Ok tt, st') /\
      set_read (sprops st') w i = py_nth args (match i with Some i => i | None => 0 end).
  Proof.
    intros Hw. destruct (reach_entry (slower w)) as (e & Ee & He); [destruct Hw as [-> | ->]; vm_compute; discriminate|].
    unfold set_write. rewrite Ee.
    destruct Hw as [Hw|Hw]; rewrite Hw in *; cbn; (eexists; split; [reflexivity|]);
      unfold set_read; cbn [sprops]; rewrite Hw, pget_pset, String.eqb_refl; reflexivity.
  Qed.
  Lemma procedure_read w i : slower w = "procedure"%string -> set_read (sprops st) w i = Err TypeError.
  Proof.
    intros Hw. destruct (reach_entry (slower w)) as (e & Ee & He); [rewrite Hw; vm_compute; discriminate|].
    rewrite Hw in He. cbn in He. subst e. unfold set_read. rewrite Ee. reflexivity.
  Qed.
End Reach.
