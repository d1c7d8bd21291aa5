(** Property C104: a property of a control has the value that was assigned to it. *)
From Verif Require Import PyBase PyStr M_Gui.
Open Scope Z_scope.
Open Scope res_scope.

(** The properties for which this holds, class by class, and the values. *)
Inductive kind := KText | KBool | KSize | KPoints | KEnabled | KVisible | KOneOf (a b : Z) | KSpin.
Definition fits (k : kind) (w : widget) (v : gv) : Prop :=
  match k with
  | KText => exists s, v = GStr s
  | KBool => exists b, v = GBool b
  | KSize => exists n, v = GInt n /\ 0 <= n <= 16777215
  | KPoints => exists n, v = GInt n /\ 0 < n
  | KEnabled => v = GBool false \/ v = GBool true /\ q_up_enabled w = true
  | KVisible => v = GBool false \/ v = GBool true /\ q_up_visible w = true
  | KOneOf a b => v = GInt a \/ v = GInt b
  | KSpin => exists n, v = GInt n /\ 0 <= n <= 99
  end.
Definition fonts : list (pystr * kind) := [(u "fontname", KText); (u "fontbold", KBool); (u "fontitalic", KBool); (u "fontstrikethru", KBool); (u "fontsize", KPoints)].
Definition kept (c : ctl) : list (pystr * kind) :=
  match c with
  | Form | Label | Checkbox => [(u "caption", KText); (u "height", KSize)] ++ fonts
  | Commandbutton => [(u "caption", KText); (u "height", KSize); (u "enabled", KEnabled); (u "visible", KVisible); (u "tooltiptext", KText); (u "specialeffect", KOneOf 0 2)] ++ fonts
  | Textbox => [(u "height", KSize); (u "value", KText); (u "visible", KVisible)] ++ fonts
  | Combobox => [(u "height", KSize); (u "style", KOneOf 0 2)] ++ fonts
  | Spinner => [(u "value", KSpin)] ++ fonts
  | Shape => [(u "height", KSize)]
  | Listbox => [(u "multiselect", KOneOf 0 1)]
  | Grid => [(u "allowrowsizing", KBool)] ++ fonts
  | Optionbutton => [(u "caption", KText); (u "enabled", KEnabled)] ++ fonts
  end.
Lemma dget_in {V} (l : list (pystr * V)) k v : dget pystr_eqb l k = Some v -> In (k, v) l.
Proof. induction l as [|[a b] l IH]; cbn [dget]; [discriminate|]. destruct (pystr_eqb_spec k a) as [->|]; [intros [= ->]; left; reflexivity|right; apply IH; assumption]. Qed.
Lemma dget_dset_same {V} (d : list (pystr * V)) x v : dget pystr_eqb (dset pystr_eqb d x v) x = Some v.
Proof.
  induction d as [|[k v'] d IH]; cbn [dset dget]; [destruct (pystr_eqb_spec x x); [reflexivity|congruence]|].
  destruct (pystr_eqb_spec x k) as [->|]; cbn [dget]; [destruct (pystr_eqb_spec k k); [reflexivity|congruence]|destruct (pystr_eqb_spec x k); [congruence|exact IH]].
Qed.
Lemma dget_dset_other {V} (d : list (pystr * V)) x y v : y <> x -> dget pystr_eqb (dset pystr_eqb d x v) y = dget pystr_eqb d y.
Proof.
  intros N. induction d as [|[k v'] d IH]; cbn [dset dget]; [destruct (pystr_eqb_spec y x); [congruence|reflexivity]|].
  destruct (pystr_eqb_spec x k) as [->|]; cbn [dget]; destruct (pystr_eqb_spec y k); try congruence; reflexivity.
Qed.
(** What a property gives back, and the properties that do not change with it *)
Lemma keep_one c name p v w w' : dget pystr_eqb (props c) name = Some p -> p_set p v w = Ok w' -> p_get p w' = Ok v -> q_attrs w' = q_attrs w ->
  (forall n q, In (n, q) (props c) -> n <> name -> n <> u "width" -> p_get q w' = p_get q w) ->
  set c name v w = Ok w' /\ get c name w' = Ok v /\ forall other, other <> name -> other <> u "width" -> get c other w' = get c other w.
Proof.
  intros D S G A F. unfold set, get. rewrite D. split; [exact S|]. split; [exact G|]. intros other N1 N2. destruct (dget pystr_eqb (props c) other) as [q|] eqn:E.
  - apply dget_in in E. apply (F other q E N1 N2).
  - now rewrite A.
Qed.
Ltac frame := let n := fresh in let q := fresh in let I := fresh in intros n q I ? ?; cbn [props app has_font In] in I;
  repeat (destruct I as [I|I]; [injection I as <- <-; first [reflexivity|exfalso; match goal with H : _ <> _ |- _ => apply H; reflexivity end|cbn; unfold point_size; destruct (Z.ltb _ _); reflexivity]|]); contradiction.
Lemma fixed_id n : 0 <= n <= 16777215 -> fixed n = n. Proof. unfold fixed. lia. Qed.
Lemma spin_id n : 0 <= n <= 99 -> spin n = n. Proof. unfold spin. lia. Qed.
(** Assigning such a value and reading the property gives the value, and the other properties (but the width, see below) and attributes are as before. *)
Theorem C104_kept_partial : forall c name k w v, In (name, k) (kept c) -> fits k w v ->
  exists w', set c name v w = Ok w' /\ get c name w' = Ok v /\ forall other, other <> name -> other <> u "width" -> get c other w' = get c other w.
Proof.
  intros c name k w v I H.
  destruct c; cbn [kept app fonts In] in I;
  repeat (destruct I as [I|I]; [injection I as <- <-; cbn [fits] in H;
    first [destruct H as (x & -> & Hx)|destruct H as (x & ->)|destruct H as [-> | (-> & Hx)]|destruct H as [-> | ->]|idtac];
    (eexists; eapply keep_one; [reflexivity|reflexivity| | |frame]; [|reflexivity]; cbn;
     first [reflexivity|rewrite (fixed_id _ Hx); reflexivity|rewrite (spin_id _ Hx); reflexivity|rewrite Hx; reflexivity|
            unfold point_size; destruct (Z.ltb_spec 0 x); [reflexivity|lia]])|]);
  contradiction.
Qed.
Print Assumptions C104_kept_partial.
Definition w0 : widget := mkW (u "") (u "") 20 100 true true true true false (u "") true false true true 0 (mkFont (u "Arial") false false false false 9) [].
Example C104_kept_example :
  let w := do w <- set Commandbutton (u "caption") (GStr (u "OK")) w0; do w <- set Commandbutton (u "height") (GInt 30) w; do w <- set Commandbutton (u "fontsize") (GInt 12) w; set Commandbutton (u "tag") (GInt 5) w in
  map (fun n => do w <- w; get Commandbutton (u n) w) ["caption"; "height"; "fontsize"; "fontname"; "tag"; "value"]%string =
    [Ok (GStr (u "OK")); Ok (GInt 30); Ok (GInt 12); Ok (GStr (u "Arial")); Ok (GInt 5); Err AttributeError].
Proof. reflexivity. Qed.

(** The width: in the five classes that have one, reading it gives the height, and assigning it does not change what is read. *)
Theorem C104_width_refuted : forall c, In c [Form; Commandbutton; Label; Combobox; Shape] -> forall w n, 0 <= n <= 16777215 ->
  exists w', set c (u "width") (GInt n) w = Ok w' /\ q_w w' = n /\ get c (u "width") w' = get c (u "height") w /\ get c (u "width") w = get c (u "height") w.
Proof.
  intros c I w n H. cbn [In] in I. repeat (destruct I as [<-|I]; [eexists; split; [reflexivity|]; split; [cbn; apply fixed_id, H|]; split; reflexivity|]). contradiction.
Qed.
Print Assumptions C104_width_refuted.
Example C104_width_example : (do w <- set Label (u "width") (GInt 300) w0; get Label (u "width") w) = Ok (GInt 20).
Proof. reflexivity. Qed.
(** FontUnderline can be assigned but not read. *)
Theorem C104_underline_refuted : forall c w, In c [Form; Commandbutton; Label; Textbox; Checkbox; Combobox; Spinner; Grid; Optionbutton] ->
  forall b, exists w', set c (u "fontunderline") (GBool b) w = Ok w' /\ f_under (q_font w') = b /\ exists e, get c (u "fontunderline") w' = Err e.
Proof.
  intros c w I b. cbn [In] in I. repeat (destruct I as [<-|I]; [eexists; split; [reflexivity|]; split; [reflexivity|]; eexists; reflexivity|]). contradiction.
Qed.
Print Assumptions C104_underline_refuted.
(** AllowCellSelection gives the opposite of what was assigned. *)
Theorem C104_cells_refuted : forall w b, exists w', set Grid (u "allowcellselection") (GBool b) w = Ok w' /\ get Grid (u "allowcellselection") w' = Ok (GBool (negb b)).
Proof. intros w b. eexists. split; reflexivity. Qed.
Print Assumptions C104_cells_refuted.
(** The caption of a combo box can neither be assigned nor read. *)
Theorem C104_combo_caption_refuted : forall w v, (exists e, set Combobox (u "caption") v w = Err e) /\ exists e, get Combobox (u "caption") w = Err e.
Proof. intros w v. split; eexists; reflexivity. Qed.
Print Assumptions C104_combo_caption_refuted.
(** A spinner holds 0 to 99 only, whatever limits the program gives it (spinnerlowvalue and spinnerhighvalue are attributes without effect). *)
Theorem C104_spinner_refuted : forall w n lo hi, n < 0 \/ 99 < n ->
  exists w1 w2 w3, set Spinner (u "spinnerlowvalue") (GInt lo) w = Ok w1 /\ set Spinner (u "spinnerhighvalue") (GInt hi) w1 = Ok w2 /\
    set Spinner (u "value") (GInt n) w2 = Ok w3 /\ get Spinner (u "value") w3 = Ok (GInt (if n <? 0 then 0 else 99)).
Proof.
  intros w n lo hi H. do 3 eexists. split; [reflexivity|]. split; [reflexivity|]. split; [reflexivity|]. transitivity (Ok (GInt (spin n))); [reflexivity|]. unfold spin. f_equal. f_equal. destruct (Z.ltb_spec n 0); lia.
Qed.
Print Assumptions C104_spinner_refuted.
(** A property the class has no code for is kept, but nothing happens to the control: a label cannot be hidden, a check box cannot be checked, ... *)
Lemma no_effect : forall c name w v, ~ In name (map fst (props c)) ->
  exists w', set c name v w = Ok w' /\ get c name w' = Ok v /\ set_attrs (q_attrs w) w' = w /\
    (forall n p, In (n, p) (props c) -> p_get p w' = p_get p w) /\ (forall other, other <> name -> get c other w' = get c other w).
Proof.
  intros c name w v N.
  assert (D : dget pystr_eqb (props c) name = None). { destruct (dget pystr_eqb (props c) name) as [p|] eqn:E; [|reflexivity]. exfalso. apply N. apply dget_in in E. apply in_map_iff. exists (name, p). auto. }
  assert (P : forall x n p, In (n, p) (props c) -> p_get p (set_attrs x w) = p_get p w).
  { intros x n p I. destruct c; cbn [props app has_font In] in I; repeat (destruct I as [I|I]; [injection I as <- <-; reflexivity|]); contradiction. }
  exists (set_attrs (dset pystr_eqb (q_attrs w) name v) w). unfold set, get. rewrite D. cbn [q_attrs set_attrs]. rewrite dget_dset_same. split; [reflexivity|]. split; [reflexivity|]. split; [destruct w; reflexivity|]. split; [apply P|].
  intros other No. destruct (dget pystr_eqb (props c) other) as [q|] eqn:E; [apply (P _ other q (dget_in _ _ _ E))|]. rewrite dget_dset_other by exact No. reflexivity.
Qed.
Definition without_code : list (ctl * pystr) :=
  [(Form, u "visible"); (Form, u "enabled"); (Label, u "visible"); (Label, u "enabled"); (Checkbox, u "value"); (Checkbox, u "visible"); (Checkbox, u "enabled"); (Checkbox, u "width");
   (Textbox, u "enabled"); (Textbox, u "width"); (Textbox, u "readonly"); (Combobox, u "visible"); (Combobox, u "enabled"); (Spinner, u "enabled"); (Spinner, u "visible"); (Spinner, u "height");
   (Spinner, u "width"); (Spinner, u "keyboardhighvalue"); (Shape, u "visible"); (Listbox, u "visible"); (Listbox, u "enabled"); (Listbox, u "height"); (Listbox, u "width"); (Grid, u "visible");
   (Grid, u "enabled"); (Grid, u "height"); (Grid, u "width"); (Optionbutton, u "visible"); (Optionbutton, u "value")].
Theorem C104_no_effect_refuted : forall c name w v, In (c, name) without_code ->
  exists w', set c name v w = Ok w' /\ get c name w' = Ok v /\ set_attrs (q_attrs w) w' = w /\
    (forall n p, In (n, p) (props c) -> p_get p w' = p_get p w) /\ (forall other, other <> name -> get c other w' = get c other w).
Proof.
  intros c name w v I. apply no_effect. intros N.
  assert (C : forallb (fun x => negb (existsb (pystr_eqb (snd x)) (map fst (props (fst x))))) without_code = true) by (vm_compute; reflexivity).
  rewrite forallb_forall in C. specialize (C _ I). cbn [fst snd] in C. apply negb_true_iff in C. rewrite (proj2 (existsb_exists _ _)) in C; [discriminate|]. exists name. split; [exact N|].
  destruct (pystr_eqb_spec name name); congruence.
Qed.
Print Assumptions C104_no_effect_refuted.
Example C104_no_effect_example : In (Label, u "visible") without_code /\ In (Checkbox, u "value") without_code.
Proof. unfold without_code. cbn [In]. tauto. Qed.
(** Enabled and Visible are those of the whole chain of containers: on a form that is not shown, a control that was made visible is not. *)
Theorem C104_container_refuted : forall w, q_up_visible w = false ->
  exists w', set Commandbutton (u "visible") (GBool true) w = Ok w' /\ get Commandbutton (u "visible") w' = Ok (GBool false).
Proof. intros w H. eexists. split; [reflexivity|]. transitivity (Ok (GBool (true && q_up_visible w)%bool)); [reflexivity|]. now rewrite H. Qed.
Print Assumptions C104_container_refuted.
(** A button with the third appearance (SpecialEffect 1) is the first one. *)
Theorem C104_effect_refuted : forall w n, n <> 0 -> n <> 2 -> exists w', set Commandbutton (u "specialeffect") (GInt n) w = Ok w' /\ get Commandbutton (u "specialeffect") w' = Ok (GInt 0).
Proof. intros w n H0 H2. eexists. split; [reflexivity|]. cbn. destruct (Z.eqb_spec n 2); [congruence|reflexivity]. Qed.
Print Assumptions C104_effect_refuted.
