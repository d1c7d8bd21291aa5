(** Properties C80 (names in expressions) and C81 (SCATTER and GATHER). *)
From Verif Require Import PyBase PyStr M_Db P_Db P_DbArea M_Memvar S_Memvar P_Memvar M_Vars.
Open Scope Z_scope.

Lemma mem_str_in k l : mem_str k l = true <-> In k l.
Proof. unfold mem_str. rewrite existsb_exists. split; [intros (x & I & E); destruct (pystr_eqb_spec k x); [subst; exact I|discriminate]|intros I; exists k; split; [exact I|destruct (pystr_eqb_spec k k); congruence]]. Qed.

(** * C80 *)
(** no table is open under this name *)
Definition no_alias (d : db) (k : name) : Prop := u k <> [] /\ forall w, In (Some w) (areas d) -> is_alias w (u k) = false.
(** the table open in the selected work area *)
Definition selected (d : db) (w : ws) : Prop := exists k, cur d = Z.of_nat k /\ nth_error (areas d) k = Some (Some w).
Definition nothing_selected (d : db) : Prop := exists k, cur d = Z.of_nat k /\ nth_error (areas d) k = Some None.
(** the variables have at least one scope, and as many of both kinds *)
Definition has_scope {V} (m : memvar V) : Prop := public_scopes m <> [] /\ length (public_scopes m) = length (local_scopes m).

Lemma py_nth_nat {A} (l : list A) k x : nth_error l k = Some x -> py_nth l (Z.of_nat k) = Ok x.
Proof.
  intros E. assert (k < length l)%nat by (apply nth_error_Some; congruence). unfold py_nth, zlen. replace (Z.of_nat k <? 0) with false by (symmetry; apply Z.ltb_ge; lia).
  replace (Z.of_nat (length l) <=? Z.of_nat k) with false by (symmetry; apply Z.leb_gt; lia). replace (Z.of_nat k <? 0) with false by (symmetry; apply Z.ltb_ge; lia). cbn [orb]. rewrite Nat2Z.id, E. reflexivity.
Qed.
Lemma no_alias_area d k : no_alias d k -> exists e, table_of d (TName (u k)) = Err e.
Proof.
  intros [NE N]. unfold table_of. destruct (get_workarea d (TName (u k))) as [i|e] eqn:E; [|exists e; reflexivity].
  pose proof (not_used_name d (u k) NE N) as U. unfold used in U. rewrite E in U. discriminate.
Qed.

Section C80.
Context {V : Type}.
Variable fields : ws -> list pystr.
Implicit Types (m : memvar V) (d : db).

(** A name that is a field of the selected table gives the field of the current record, whatever the variables are *)
Theorem C80_field_partial d m k w r f : no_alias d k -> selected d w -> In (u k) (fields w) -> t_record (w_tab w) = Some r -> dget pystr_eqb (r_flds r) (u k) = Some f ->
  get_var fields d m k = Ok (SField f).
Proof.
  intros N (j & Ej & Hj) I E F. unfold get_var. destruct (no_alias_area d k N) as (e & ->). rewrite Ej, (py_nth_nat _ _ _ Hj). cbn [rbind]. rewrite (proj2 (mem_str_in _ _) I).
  unfold get_field. rewrite E, F. reflexivity.
Qed.
(** any other name gives the variable *)
Theorem C80_variable_partial d m k : no_alias d k -> nothing_selected d \/ (exists w, selected d w /\ ~ In (u k) (fields w)) ->
  get_var fields d m k = rmap SVar (mem_get m k).
Proof.
  intros N H. unfold get_var. destruct (no_alias_area d k N) as (e & ->). destruct H as [(j & Ej & Hj)|(w & (j & Ej & Hj) & I)]; rewrite Ej, (py_nth_nat _ _ _ Hj); cbn [rbind]; [reflexivity|].
  destruct (mem_str (u k) (fields w)) eqn:M; [apply mem_str_in in M; contradiction|reflexivity].
Qed.

Lemma frames_of m : has_scope m -> exists f r, R m (f :: r).
Proof.
  intros [NE L]. unfold R, Rl. assert (G : forall ps ls : list (@scope V), length ps = length ls -> exists c, Forall2 (fun (d : @scope V) f => agrees d (priv f)) ps c /\ Forall2 (fun (d : @scope V) f => agrees d (loc f)) ls c).
  { induction ps as [|p ps IH]; intros [|l ls] E; try discriminate; [exists []; split; constructor|]. destruct (IH ls) as (c & H1 & H2); [cbn in E; lia|].
    exists (mkFrame (fun k => sget l k) (fun k => sget p k) :: c). split; constructor; try assumption; intros k; reflexivity. }
  destruct (G (rev (public_scopes m)) (rev (local_scopes m))) as (c & H1 & H2); [rewrite !rev_length; exact L|]. destruct c as [|f r]; [|exists f, r; split; assumption].
  inversion H1 as [E|]. apply (f_equal (@rev _)) in E. rewrite rev_involutive in E. cbn in E. congruence.
Qed.
Lemma priv_lookup_rebind (c : @chain V) k v k' : priv_lookup c k <> None -> priv_lookup (priv_rebind c k (Some v)) k' = if String.eqb k' k then Some v else priv_lookup c k'.
Proof.
  induction c as [|f r IH]; intros H; [cbn in H; congruence|]. cbn [priv_lookup priv_rebind] in *. destruct (priv f k) as [x|] eqn:E.
  - cbn [priv_lookup set_priv priv]. unfold bind. destruct (String.eqb k' k); reflexivity.
  - cbn [priv_lookup]. rewrite IH by exact H. destruct (String.eqb_spec k' k) as [Ek|N]; [rewrite Ek, E; reflexivity|reflexivity].
Qed.
Lemma lookup_loc f r k : @lookup V (f :: r) k = match loc f k with Some v => Some v | None => priv_lookup (f :: r) k end. Proof. reflexivity. Qed.
Lemma loc_priv_rebind f r k v : exists f' r', priv_rebind (f :: r) k v = f' :: r' /\ @loc V f' = loc f.
Proof. cbn [priv_rebind]. destruct (priv f k); eexists; eexists; split; reflexivity. Qed.
Lemma lookup_rebind (c : @chain V) k v k' : lookup c k <> None -> lookup (rebind c k (Some v)) k' = if String.eqb k' k then Some v else lookup c k'.
Proof.
  destruct c as [|f r]; intros H; [cbn in H; congruence|]. unfold rebind. destruct (loc f k) as [x|] eqn:E.
  - rewrite !lookup_loc. cbn [set_loc loc]. unfold bind. destruct (String.eqb_spec k' k); [reflexivity|]. destruct (loc f k'); [reflexivity|]. reflexivity.
  - rewrite lookup_loc, E in H. pose proof (priv_lookup_rebind (f :: r) k v k' H) as P. destruct (loc_priv_rebind f r k (Some v)) as (f' & r' & E2 & L). rewrite E2 in *. rewrite !lookup_loc, P, L.
    destruct (String.eqb_spec k' k) as [Ek|N]; [rewrite Ek, E; reflexivity|reflexivity].
Qed.
Lemma get_set m k v : has_scope m -> exists m', mem_set m k v = Ok m' /\ forall k', mem_get m' k' = if String.eqb k' k then Ok v else mem_get m k'.
Proof.
  intros H. destruct (frames_of m H) as (f & r & Rm). destruct (set_R m f r k v Rm) as (m' & E & Rm'). exists m'. split; [exact E|]. intros k'. rewrite (get_refines _ _ _ Rm'), (get_refines _ _ _ Rm).
  destruct (lookup (f :: r) k) as [x|] eqn:L.
  - rewrite lookup_rebind by congruence. destruct (String.eqb k' k); reflexivity.
  - rewrite lookup_loc. cbn [set_priv loc]. rewrite lookup_loc in L. rewrite lookup_loc. destruct (String.eqb_spec k' k) as [Ek|N].
    + rewrite Ek. destruct (loc f k); [discriminate|]. cbn [priv_lookup set_priv priv]. unfold bind. rewrite String.eqb_refl. reflexivity.
    + cbn [priv_lookup set_priv priv]. unfold bind. destruct (String.eqb_spec k' k); [congruence|]. reflexivity.
Qed.
(** An assignment sets the variable of that name: it is read back wherever the name is not a field or alias, and no other name changes its value *)
Theorem C80_assign_partial m k v : has_scope m -> exists m', set_var m k v = Ok m' /\
  (forall d, no_alias d k -> nothing_selected d \/ (exists w, selected d w /\ ~ In (u k) (fields w)) -> get_var fields d m' k = Ok (SVar v)) /\
  forall d k', k' <> k -> get_var fields d m' k' = get_var fields d m k'.
Proof.
  intros H. destruct (get_set m k v H) as (m' & E & G). exists m'. split; [exact E|]. split.
  - intros d N S. rewrite C80_variable_partial by assumption. rewrite G, String.eqb_refl. reflexivity.
  - intros d k' N. unfold get_var. rewrite (G k'). destruct (String.eqb_spec k' k); [congruence|]. reflexivity.
Qed.
(** A variable or field with the name of an open table is never read: the record is *)
Theorem C80_alias_refuted d w k m : u k <> [] -> In (Some w) (areas d) -> is_alias w (u k) = true -> exists w', In (Some w') (areas d) /\ get_var fields d m k = Ok (SRec (t_record (w_tab w'))).
Proof.
  intros NE I A. apply In_nth_error in I as (j & Hj). unfold get_var, table_of. unfold get_workarea. destruct (u k) as [|c s] eqn:E; [congruence|].
  destruct (index_of (answers (c :: s)) (areas d) 0) as [i|] eqn:X.
  - apply index_of_some in X as (n & -> & L & (o & Y & H) & _). rewrite Z.add_0_l.
    unfold ws_at. rewrite (py_nth_nat _ _ _ Y). destruct o as [w'|]; [|discriminate]. exists w'. split; [apply nth_error_In in Y; exact Y|reflexivity].
  - exfalso. pose proof (index_of_none _ _ _ X (Some w) (nth_error_In _ _ Hj)) as Y. cbn [answers] in Y. congruence.
Qed.
(** past the last record a field cannot be read, though FoxPro gives its blank value *)
Theorem C80_eof_refuted d m k w : no_alias d k -> selected d w -> In (u k) (fields w) -> t_len (w_tab w) <= t_idx (w_tab w) -> 0 <= t_idx (w_tab w) -> get_var fields d m k = Err DbfEof.
Proof.
  intros N (j & Ej & Hj) I E P. unfold get_var. destruct (no_alias_area d k N) as (e & ->). rewrite Ej, (py_nth_nat _ _ _ Hj). cbn [rbind]. rewrite (proj2 (mem_str_in _ _) I).
  unfold get_field, t_record. replace (t_idx (w_tab w) <? 0) with false by (symmetry; apply Z.ltb_ge; lia). replace (t_len (w_tab w) <=? t_idx (w_tab w)) with true by (symmetry; apply Z.leb_le; lia). reflexivity.
Qed.
(** m.name is never the variable: without a variable, table or field called m it cannot be read at all *)
Theorem C80_m_refuted attr d m k : no_alias d "m"%string -> nothing_selected d \/ (exists w, selected d w /\ ~ In (u "m") (fields w)) -> mem_contains m "m"%string = false ->
  exists e, get_m fields attr d m k = Err e.
Proof.
  intros N S C. unfold get_m. rewrite C80_variable_partial by assumption. unfold mem_contains in C. destruct (mem_get m "m"%string); [discriminate|]. eexists. reflexivity.
Qed.
End C80.
(** ** C81 *)
Section C81.
Variable fields : ws -> list pystr.
(** every field of the table is in every record *)
Definition complete (w : ws) : Prop := Forall (fun r => forall f, In f (fields w) -> dget pystr_eqb (r_flds r) f <> None) (t_recs (w_tab w)).
(** the selected table is on record number n, which is r *)
Definition on_record (d : db) (w : ws) (n : nat) (r : rec) : Prop := selected d w /\ t_idx (w_tab w) = Z.of_nat n /\ nth_error (t_recs (w_tab w)) n = Some r.
(** d' is d with record r' in place of the current record; everything else is as before *)
Definition changed_to (d : db) (w : ws) (n : nat) (r' : rec) (d' : db) : Prop :=
  cur d' = cur d /\ length (areas d') = length (areas d) /\
  (forall k, Z.of_nat k <> cur d -> nth_error (areas d') k = nth_error (areas d) k) /\
  exists w', selected d' w' /\ w_name w' = w_name w /\ w_file w' = w_file w /\ t_idx (w_tab w') = t_idx (w_tab w) /\ t_recs (w_tab w') = list_upd (t_recs (w_tab w)) n r'.

Lemma on_record_current d w n r : on_record d w n r -> t_record (w_tab w) = Some r /\ table_of d TNone = Ok (cur d, w).
Proof.
  intros ((k & Ek & Hk) & E & H). split.
  - unfold t_record, t_len, zlen. rewrite E, Nat2Z.id. assert (n < length (t_recs (w_tab w)))%nat by (apply nth_error_Some; congruence).
    replace (Z.of_nat n <? 0) with false by (symmetry; apply Z.ltb_ge; lia). replace (Z.of_nat (length (t_recs (w_tab w))) <=? Z.of_nat n) with false by (symmetry; apply Z.leb_gt; lia). exact H.
  - unfold table_of. cbn [get_workarea]. unfold ws_at. rewrite Ek, (py_nth_nat _ _ _ Hk). reflexivity.
Qed.
Lemma copy_fields_ok t r fs : t_record t = Some r -> (forall f, In f fs -> dget pystr_eqb (r_flds r) f <> None) -> forall o,
  exists o', copy_fields t fs o = Ok o' /\ forall f, dget pystr_eqb o' f = if mem_str f fs then dget pystr_eqb (r_flds r) f else dget pystr_eqb o f.
Proof.
  intros E. induction fs as [|f fs IH]; intros H o; [exists o; split; [reflexivity|]; intros f; reflexivity|]. cbn [copy_fields]. unfold get_field. rewrite E.
  destruct (dget pystr_eqb (r_flds r) f) as [v|] eqn:F; [|exfalso; exact (H f (or_introl eq_refl) F)]. cbn [rbind].
  destruct (IH (fun g I => H g (or_intror I)) (dset pystr_eqb o f v)) as (o' & C & G). exists o'. split; [exact C|]. intros g. rewrite G, (dget_dset pystr_eqb pystr_eqb_spec). cbn [mem_str existsb].
  fold (mem_str g fs). destruct (pystr_eqb_spec g f) as [-> | N]; cbn [orb]; [rewrite F; destruct (mem_str f fs); reflexivity|reflexivity].
Qed.
Lemma write_fields_get upd : forall r f, dget pystr_eqb (r_flds (write_fields upd r)) f =
  match dget pystr_eqb (rev upd) f with Some v => Some v | None => dget pystr_eqb (r_flds r) f end /\ r_del (write_fields upd r) = r_del r.
Proof.
  unfold write_fields. induction upd as [|[g v] upd IH] using rev_ind; intros r f; [split; reflexivity|]. rewrite fold_left_app. cbn [fold_left]. destruct (IH r f) as [A B]. split; [|exact B].
  unfold set_field at 1. cbn [r_flds]. rewrite (dget_dset pystr_eqb pystr_eqb_spec), rev_app_distr. cbn [rev app dget]. destruct (pystr_eqb f g); [reflexivity|exact A].
Qed.
Lemma update_changed d w n r l : on_record d w n r -> changed_to d w n (write_fields l r) (put_tab d (cur d) w (t_update (w_tab w) (t_current (w_tab w)) (write_fields l))).
Proof.
  intros ((k & Ek & Hk) & E & H). unfold put_tab. assert (K : (k < length (areas d))%nat) by (apply nth_error_Some; congruence). rewrite put_ws_slot, Ek, slot_nonneg by exact K. unfold changed_to. cbn [cur areas].
  split; [symmetry; exact Ek|]. split; [apply list_upd_length|]. split; [intros j N; rewrite nth_error_list_upd; destruct (Nat.eqb_spec j k) as [-> | _]; [exfalso; apply N; symmetry; exact Ek|reflexivity]|].
  exists (with_tab w (t_update (w_tab w) (t_current (w_tab w)) (write_fields l))). unfold t_update, t_current. rewrite E, Nat2Z.id, H. cbn [w_name w_file w_tab with_tab t_idx t_recs].
  split; [exists k; split; [reflexivity|cbn [areas]; rewrite nth_error_list_upd, Nat.eqb_refl; apply Nat.ltb_lt in K; rewrite K; reflexivity]|]. repeat split.
Qed.
(** SCATTER NAME copies all fields of the current record; GATHER NAME, at any later time and on any record of a table with these fields, puts them back *)
Theorem C81_object_partial d w n r memo v d' w' n' r' : complete w -> on_record d w n r -> on_record d' w' n' r' -> fields w' = fields w -> fields w <> [] ->
  exists o r'' d'', scatter fields d FAll memo false (SName v false) = Ok (Some (v, Some o)) /\
    gather fields d' FAll memo (GName o) = (Ok tt, d'') /\ changed_to d' w' n' r'' d'' /\ r_del r'' = r_del r' /\
    forall f, dget pystr_eqb (r_flds r'') f = dget pystr_eqb (r_flds (if mem_str f (fields w) then r else r')) f.
Proof.
  intros C O O' EF NF. destruct (on_record_current _ _ _ _ O) as [Tr To]. destruct (on_record_current _ _ _ _ O') as [Tr' To'].
  assert (CR : forall f, In f (fields w) -> dget pystr_eqb (r_flds r) f <> None).
  { destruct O as (_ & _ & H). apply nth_error_In in H. unfold complete in C. rewrite Forall_forall in C. exact (C r H). }
  destruct (copy_fields_ok (w_tab w) r (fields w) Tr CR []) as (o & Co & Go). exists o.
  assert (P : forall fs f, (forall g, In g fs -> dget pystr_eqb o g <> None) -> dget pystr_eqb (rev (picked fs o)) f = if mem_str f fs then dget pystr_eqb o f else None).
  { intros fs. induction fs as [|g fs IH] using rev_ind; intros f H; [reflexivity|]. unfold picked. rewrite flat_map_app. cbn [flat_map]. rewrite app_nil_r. destruct (dget pystr_eqb o g) as [x|] eqn:X; [|exfalso; refine (H g _ X); apply in_or_app; right; left; reflexivity].
    rewrite rev_app_distr. cbn [rev app dget]. unfold mem_str. rewrite existsb_app. cbn [existsb]. destruct (pystr_eqb_spec f g) as [-> | N]; [rewrite orb_true_r, X; reflexivity|]; cbn [orb]. rewrite orb_false_r. apply IH. intros h Ih. apply H, in_or_app. left. exact Ih. }
  assert (HO : forall g, In g (fields w) -> dget pystr_eqb o g <> None) by (intros g Ig; rewrite Go, (proj2 (mem_str_in _ _) Ig); apply CR; exact Ig).
  exists (write_fields (picked (fields w) o) r'), (put_tab d' (cur d') w' (t_update (w_tab w') (t_current (w_tab w')) (write_fields (picked (fields w) o)))).
  split; [|split; [|split; [|split]]].
  - unfold scatter. replace (call_ok _ _) with true by (destruct memo; reflexivity). cbn [negb]. unfold scatter_fn, current_record_copy. rewrite To. cbn [rbind]. rewrite Co. reflexivity.
  - unfold gather. replace (call_ok _ _) with true by (destruct memo; reflexivity). cbn [negb]. unfold update_from. rewrite To', Tr', EF. cbn [update_of]. destruct (picked (fields w) o) eqn:Q; [|reflexivity]. exfalso.
    destruct (fields w) as [|g fs]; [congruence|]. specialize (HO g (or_introl eq_refl)). cbn [picked flat_map] in Q. destruct (dget pystr_eqb o g); [discriminate|congruence].
  - apply update_changed. exact O'.
  - apply write_fields_get. exact [].
  - intros f. rewrite (proj1 (write_fields_get _ _ _)), P by exact HO. rewrite Go. destruct (mem_str f (fields w)) eqn:M; [|reflexivity]. destruct (dget pystr_eqb (r_flds r) f) eqn:X; [reflexivity|]. apply mem_str_in in M. exfalso. exact (CR f M X).
Qed.
(** GATHER FROM an array sets the fields in order, as many as there are elements *)
Theorem C81_array_partial d w n r memo l : NoDup (fields w) -> (forall f, In f (fields w) -> ~ In f array_attrs) -> on_record d w n r ->
  exists r' d', gather fields d FAll memo (GFrom l) = (Ok tt, d') /\ changed_to d w n r' d' /\ r_del r' = r_del r /\
    (forall i f v, nth_error (fields w) i = Some f -> nth_error l i = Some v -> dget pystr_eqb (r_flds r') f = Some v) /\
    (forall f, (forall i, (i < length l)%nat -> nth_error (fields w) i <> Some f) -> dget pystr_eqb (r_flds r') f = dget pystr_eqb (r_flds r) f).
Proof.
  intros D N O. destruct (on_record_current _ _ _ _ O) as [Tr To]. eexists. eexists. split; [|split; [apply update_changed; exact O|]].
  - unfold gather. replace (call_ok _ _) with true by (destruct memo; reflexivity). cbn [negb]. unfold update_from. rewrite To, Tr. cbn [update_of].
    replace (existsb (fun f => mem_str f array_attrs) (fields w)) with false; [reflexivity|]. symmetry. apply not_true_is_false. intros X. apply existsb_exists in X as (f & I & M). apply mem_str_in in M. exact (N f I M).
  - assert (G : forall (fs : list pystr) (vs : list fval) f, NoDup fs -> (forall i v, nth_error fs i = Some f -> nth_error vs i = Some v -> dget pystr_eqb (rev (combine fs vs)) f = Some v) /\
      ((forall i, (i < length vs)%nat -> nth_error fs i <> Some f) -> dget pystr_eqb (rev (combine fs vs)) f = None)).
    { assert (A : forall (x y : list (pystr * fval)) f, dget pystr_eqb (x ++ y) f = match dget pystr_eqb x f with Some v => Some v | None => dget pystr_eqb y f end).
      { induction x as [|[g v] x IH]; intros y f; [reflexivity|]. cbn [app dget]. destruct (pystr_eqb f g); [reflexivity|apply IH]. }
      assert (B : forall fs (vs : list fval) f, ~ In f fs -> dget pystr_eqb (rev (combine fs vs)) f = None).
      { induction fs as [|g fs IH]; intros [|v vs] f H; try reflexivity. cbn [combine rev]. rewrite A. cbn [dget]. rewrite IH by (intros X; apply H; right; exact X). destruct (pystr_eqb_spec f g) as [-> | Ne]; [exfalso; apply H; left; reflexivity|reflexivity]. }
      induction fs as [|g fs IH]; intros vs f ND; [split; [intros [|i] v X; discriminate|intros _; reflexivity]|]. inversion ND as [|? ? N1 N2]; subst. destruct vs as [|v vs]; [split; [intros [|i] v _ X; discriminate|intros _; reflexivity]|].
      cbn [combine rev]. split.
      - intros [|i] x X Y; cbn [nth_error] in *; rewrite A; cbn [dget].
        + injection X as ->. injection Y as ->. rewrite B by exact N1. destruct (pystr_eqb_spec f f); [reflexivity|congruence].
        + rewrite (proj1 (IH vs f N2) i x X Y). reflexivity.
      - intros H. rewrite A. rewrite (proj2 (IH vs f N2)); [|intros i Hi; apply (H (S i)); cbn; lia]. cbn [dget]. destruct (pystr_eqb_spec f g) as [-> | Ne]; [|reflexivity]. exfalso. apply (H 0%nat); [cbn; lia|reflexivity]. }
    split; [apply write_fields_get; exact []|]. split.
    + intros i f v X Y. rewrite (proj1 (write_fields_get _ _ _)). rewrite (proj1 (G (fields w) l f D) i v X Y). reflexivity.
    + intros f H. rewrite (proj1 (write_fields_get _ _ _)). rewrite (proj2 (G (fields w) l f D) H). reflexivity.
Qed.
(** SCATTER MEMVAR assigns nothing and GATHER MEMVAR changes nothing *)
Theorem C81_memvar_refuted d f memo blank : (forall o, scatter fields d f memo blank SMemvar = Ok o -> o = None) /\ snd (gather fields d f memo GMemvar) = d.
Proof.
  split.
  - intros o. unfold scatter. destruct (negb _); [discriminate|]. destruct (scatter_fn fields d false); [|discriminate]. cbn [rbind]. intros E. injection E as <-. reflexivity.
  - unfold gather. destruct (negb _); [reflexivity|]. unfold update_from. destruct (table_of d TNone) as [[i w]|]; [|reflexivity]. destruct (t_record (w_tab w)); reflexivity.
Qed.
(** SCATTER TO array replaces the array by None *)
Theorem C81_to_array_refuted d f memo blank v o : scatter fields d f memo blank (STo v) = Ok o -> o = Some (v, None).
Proof. unfold scatter. destruct (negb _); [discriminate|]. unfold scatter_fn. destruct (current_record_copy fields d); [|discriminate]. cbn [rbind]. intros E. injection E as <-. reflexivity. Qed.
(** The FIELDS and BLANK clauses make no difference; FIELDS LIKE, FIELDS EXCEPT and ADDITIVE always fail *)
Theorem C81_clauses_refuted d memo blank l v src : scatter fields d (FList l) memo blank (SName v false) = scatter fields d FAll memo false (SName v false) /\
  gather fields d (FList l) memo src = gather fields d FAll memo src /\
  (forall to, scatter fields d (FLike l) memo blank to = Err TypeError /\ scatter fields d (FExcept l) memo blank to = Err TypeError) /\
  (forall f, scatter fields d f memo blank (SName v true) = Err TypeError) /\
  gather fields d (FLike l) memo src = (Err TypeError, d) /\ gather fields d (FExcept l) memo src = (Err TypeError, d).
Proof.
  split; [destruct memo, blank; reflexivity|]. split; [destruct memo, src; reflexivity|]. split; [intros to; destruct memo, blank, to as [|? [|]|]; split; reflexivity|].
  split; [intros [| | |]; destruct memo, blank; reflexivity|]. split; destruct memo, src; reflexivity.
Qed.
End C81.
Print Assumptions C81_object_partial.
Print Assumptions C81_array_partial.
Print Assumptions C81_memvar_refuted.
Print Assumptions C81_to_array_refuted.
Print Assumptions C81_clauses_refuted.
Print Assumptions C80_field_partial.
Print Assumptions C80_variable_partial.
Print Assumptions C80_assign_partial.
Print Assumptions C80_alias_refuted.
Print Assumptions C80_eof_refuted.
Print Assumptions C80_m_refuted.
(** a table city with the fields name and city; its alias hides its field *)
Definition city_rec (n c : string) : rec := mkRec false [(u "name", FChr (u n)); (u "city", FChr (u c))].
Definition city_ws : ws := mkW [] (u "/data/city.dbf") (mkT [city_rec "a" "x"; city_rec "b" "y"] 1) None false None.
Definition city_db : db := mkDb [None; Some city_ws] 1.
Definition city_fields (w : ws) : list pystr := [u "name"; u "city"].
Definition city_vars : memvar Z := mkMem [[("name"%string, 5); ("x"%string, 7)]] [[]].
Example C80_example : no_alias city_db "name"%string /\ selected city_db city_ws /\ has_scope city_vars /\
  get_var city_fields city_db city_vars "name"%string = Ok (SField (FChr (u "b"))) /\ get_var city_fields city_db city_vars "x"%string = Ok (SVar 7) /\
  get_var city_fields city_db city_vars "city"%string = Ok (SRec (Some (city_rec "b" "y"))) /\
  (exists m', set_var city_vars "x"%string 8 = Ok m' /\ get_var city_fields city_db m' "x"%string = Ok (SVar 8)).
Proof.
  split; [split; [discriminate|]; intros w [E|[E|[]]]; [discriminate|injection E as <-; reflexivity]|]. split; [exists 1%nat; split; reflexivity|]. split; [split; [discriminate|reflexivity]|].
  split; [reflexivity|]. split; [reflexivity|]. split; [reflexivity|]. eexists. split; reflexivity.
Qed.
Example C81_example : complete city_fields city_ws /\ on_record city_db city_ws 1 (city_rec "b" "y") /\
  scatter city_fields city_db FAll false false (SName "o"%string false) = Ok (Some ("o"%string, Some [(u "name", FChr (u "b")); (u "city", FChr (u "y"))])) /\
  fst (gather city_fields city_db FAll false (GFrom [FChr (u "q")])) = Ok tt /\
  table_of (snd (gather city_fields city_db FAll false (GFrom [FChr (u "q")]))) TNone = Ok (1, with_tab city_ws (mkT [city_rec "a" "x"; city_rec "q" "y"] 1)).
Proof.
  split; [repeat (constructor; [intros f [<- | [<- | []]]; discriminate|]); constructor|]. split; [split; [exists 1%nat; split; reflexivity|split; reflexivity]|]. split; [reflexivity|]. split; reflexivity.
Qed.
