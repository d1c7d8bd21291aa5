(** Property theorems C10 and C55: SET and SET(). *)
From Verif Require Import PyBase M_Procs M_Set P_Set.

(** C10: a call, successful or not, changes no other setting (in any state). *)
Theorem C10_other_settings_unchanged :
  forall (imp : string -> bool) (st : sstate) (w : string) (args : list sval) (kw : list (string * sval)) (w' : string) (i : option Z),
  slower w' <> slower w ->
  set_read (sprops (snd (set_write imp st w args kw))) w' i = set_read (sprops st) w' i.
Proof. exact set_read_frame. Qed.
Print Assumptions C10_other_settings_unchanged.

(** C10: after any history, an ON/OFF setting accepts ON and OFF in any case and reads back in capitals. *)
Theorem C10_onoff_read_back :
  forall (imp : string -> bool) (mods : list pyobj) (cs : list set_call) (w s : string) (a : list sval) (kw : list (string * sval)),
  let st := set_run imp (mkS set_props_init mods) cs in
  In (slower w) onoff_words -> (slower s = "on"%string \/ slower s = "off"%string) ->
  exists st', set_write imp st w (VStr s :: a) kw = (Ok tt, st') /\
    set_read (sprops st') w None = Ok (VStr (supper s)) /\ smods st' = smods st.
Proof. exact onoff_write. Qed.
Print Assumptions C10_onoff_read_back.

(** C10: ... holds nothing but ON or OFF after any history ... *)
Theorem C10_onoff_values :
  forall (imp : string -> bool) (mods : list pyobj) (cs : list set_call) (w : string),
  let st := set_run imp (mkS set_props_init mods) cs in
  In (slower w) onoff_words -> set_read (sprops st) w None = Ok on \/ set_read (sprops st) w None = Ok off.
Proof. exact onoff_always. Qed.
Print Assumptions C10_onoff_values.

(** ... and refuses everything else without any change. *)
Theorem C10_onoff_invalid_rejected :
  forall (imp : string -> bool) (mods : list pyobj) (cs : list set_call) (w : string) (args : list sval) (kw : list (string * sval)),
  let st := set_run imp (mkS set_props_init mods) cs in
  In (slower w) onoff_words ->
  (forall s a, args = VStr s :: a -> slower s <> "on"%string /\ slower s <> "off"%string) ->
  exists e, set_write imp st w args kw = (Err e, st).
Proof. exact onoff_invalid. Qed.
Print Assumptions C10_onoff_invalid_rejected.

(** C10, for every word: with string arguments a call that raises has changed nothing. *)
Theorem C10_failure_changes_nothing_partial :
  forall (imp : string -> bool) (mods : list pyobj) (cs : list set_call) (w : string) (args : list sval) (kw : list (string * sval)) e st',
  let st := set_run imp (mkS set_props_init mods) cs in
  (forall v, In v args -> exists s, v = VStr s) ->
  set_write imp st w args kw = (Err e, st') -> st' = st.
Proof. exact failed_unchanged. Qed.
Print Assumptions C10_failure_changes_nothing_partial.

Example C10_example :
  let st := set_run (fun _ => true) (mkS set_props_init []) [SetCall "TALK" [VStr "off"] []; SetCall "Exact" [VStr "maybe"] []; SetCall "exact" [VStr "On"] []]%string in
  set_read (sprops st) "talk"%string None = Ok off /\ set_read (sprops st) "EXACT"%string None = Ok on /\
  set_read (sprops st) "near"%string None = Ok off.
Proof. vm_compute. repeat split. Qed.

(** C10: the settings with several values: each form of the command stores in its own slot and leaves the others. *)
Theorem C10_bell_read_back :
  forall imp mods cs (w s : string) (v : sval) (a : list sval) kw,
  let st := set_run imp (mkS set_props_init mods) cs in
  slower w = "bell"%string ->
  ((slower s = "on" \/ slower s = "off")%string ->
   exists st', set_write imp st w (VStr s :: a) kw = (Ok tt, st') /\ set_read (sprops st') w None = Ok (VStr (supper s)) /\
     set_read (sprops st') w (Some 1) = set_read (sprops st) w (Some 1)) /\
  (exists st', set_write imp st w (VStr "TO"%string :: v :: a) kw = (Ok tt, st') /\ set_read (sprops st') w (Some 1) = Ok v /\
     set_read (sprops st') w None = set_read (sprops st) w None).
Proof. intros imp mods cs w s v a kw st Hw. split; [intros Hs; now apply bell_write|now apply bell_to]. Qed.
Print Assumptions C10_bell_read_back.
Theorem C10_century_read_back :
  forall imp mods cs (w : string) (args : list sval) kw,
  let st := set_run imp (mkS set_props_init mods) cs in
  slower w = "century"%string ->
  exists st', set_write imp st w args kw = (Ok tt, st') /\
    set_read (sprops st') w None = slot (hd_error args) (set_read (sprops st) w None) /\
    set_read (sprops st') w (Some 1) = slot (dget String.eqb kw "century"%string) (set_read (sprops st) w (Some 1)) /\
    set_read (sprops st') w (Some 2) = slot (dget String.eqb kw "rollover"%string) (set_read (sprops st) w (Some 2)) /\
    set_read (sprops st') w (Some 3) = set_read (sprops st) w (Some 3).
Proof. exact century_write. Qed.
Print Assumptions C10_century_read_back.
Theorem C10_compatible_read_back :
  forall imp mods cs (w s : string) kw,
  let st := set_run imp (mkS set_props_init mods) cs in
  slower w = "compatible"%string -> (slower s = "on" \/ slower s = "off")%string ->
  exists st', set_write imp st w [VStr s] kw = (Ok tt, st') /\
    set_read (sprops st') w None = Ok (VStr (supper s)) /\ set_read (sprops st') w (Some 1) = set_read (sprops st) w (Some 1).
Proof. exact compatible_write. Qed.
Print Assumptions C10_compatible_read_back.
Theorem C10_notify_read_back :
  forall imp mods cs (w : string) (v : sval) kw,
  let st := set_run imp (mkS set_props_init mods) cs in
  slower w = "notify"%string ->
  exists st', set_write imp st w [v] kw = (Ok tt, st') /\
    set_read (sprops st') w None = (if dmem String.eqb kw "cursor"%string then set_read (sprops st) w None else Ok v) /\
    set_read (sprops st') w (Some 1) = slot (dget String.eqb kw "cursor"%string) (set_read (sprops st) w (Some 1)).
Proof. exact notify_write. Qed.
Print Assumptions C10_notify_read_back.
Theorem C10_index_refresh_read_back :
  forall imp mods cs (w : string) (args : list sval) kw i,
  let st := set_run imp (mkS set_props_init mods) cs in
  (slower w = "index" \/ slower w = "refresh")%string ->
  exists st', set_write imp st w args kw = (Ok tt, st') /\
    set_read (sprops st') w i = py_nth args (match i with Some i => i | None => 0 end).
Proof. exact index_write. Qed.
Print Assumptions C10_index_refresh_read_back.
Example C10_slots_example :
  let st := set_run (fun _ => true) (mkS set_props_init [])
    [SetCall "century" [VStr "ON"] [("rollover", VInt 50)]; SetCall "bell" [VStr "TO"; VStr "x.wav"] []; SetCall "refresh" [VInt 1; VInt 2] []]%string in
  set_read (sprops st) "century"%string (Some 2) = Ok (VInt 50) /\ set_read (sprops st) "bell"%string (Some 1) = Ok (VStr "x.wav"%string) /\
  set_read (sprops st) "bell"%string None = Ok on /\ set_read (sprops st) "refresh"%string (Some 1) = Ok (VInt 2).
Proof. vm_compute. repeat split. Qed.
(** C10: SET("PROCEDURE") cannot be read at all, before or after SET PROCEDURE. *)
Theorem C10_procedure_read_refuted :
  forall imp mods cs (w : string) i, slower w = "procedure"%string ->
  set_read (sprops (set_run imp (mkS set_props_init mods) cs)) w i = Err TypeError.
Proof. intros. now apply procedure_read. Qed.
Print Assumptions C10_procedure_read_refuted.

(** The read-back claim fails for COMPATIBLE's second value: SET COMPATIBLE ON NOPROMPT is accepted and not recorded. *)
Theorem C10_compatible_prompt_refuted :
  exists st', set_write (fun _ => true) (mkS set_props_init []) "compatible"%string [VStr "ON"; VStr "NOPROMPT"]%string [] = (Ok tt, st') /\
    set_read (sprops st') "compatible"%string (Some 1) = Ok (VStr "PROMPT"%string).
Proof. eexists. split; vm_compute; reflexivity. Qed.
Print Assumptions C10_compatible_prompt_refuted.

(** Not every ON/OFF setting is checked: CENTURY and NOTIFY take anything, BELL can be set to 'TO'. *)
Theorem C10_unchecked_values_refuted :
  exists st', set_run (fun _ => true) (mkS set_props_init [])
     [SetCall "century" [VStr "maybe"] []; SetCall "notify" [VStr "maybe"] []; SetCall "bell" [VStr "to"] []]%string = st' /\
    set_read (sprops st') "century"%string None = Ok (VStr "maybe"%string) /\
    set_read (sprops st') "notify"%string None = Ok (VStr "maybe"%string) /\
    set_read (sprops st') "bell"%string None = Ok (VStr "TO"%string).
Proof. eexists. split; [reflexivity|]. vm_compute. repeat split. Qed.
Print Assumptions C10_unchecked_values_refuted.

(** C55: every SET command the converter emits is accepted by the runtime: false, several words are unknown to it and
    raise KeyError whatever their arguments. *)
Theorem C55_emitted_set_commands_refuted :
  forall w, In w ["printer"; "typeahead"; "exclusive"; "tableprompt"; "classlib"; "sysmenu"; "date"; "clock"; "memowidth";
                  "filter"; "order"; "udfparms"]%string ->
  In w emitted_words /\
  forall imp mods cs args kw, let st := set_run imp (mkS set_props_init mods) cs in
    set_write imp st w args kw = (Err KeyError, st).
Proof.
  intros w Hw. split.
  - cbn in Hw |- *. intuition.
  - intros imp mods cs args kw st. unfold set_write.
    assert (pget (sprops st) (slower w) = None) as ->; [|reflexivity].
    apply set_run_keys. cbn [In] in Hw. intuition subst; reflexivity.
Qed.
Print Assumptions C55_emitted_set_commands_refuted.

(** The others are known: the call never raises KeyError. *)
Theorem C55_known_words_partial :
  forall w, In w emitted_words ->
  ~ In w ["printer"; "typeahead"; "exclusive"; "tableprompt"; "classlib"; "sysmenu"; "date"; "clock"; "memowidth";
          "filter"; "order"; "udfparms"]%string ->
  forall imp mods cs args kw, let st := set_run imp (mkS set_props_init mods) cs in
    fst (set_write imp st w args kw) <> Err KeyError.
Proof.
  intros w Hw Hn imp mods cs args kw st.
  assert (pget (sprops st) (slower w) <> None) as Hp.
  { intros E. apply set_run_keys in E. cbn [In emitted_words] in Hw. cbn [In] in Hn.
    repeat match goal with H : _ \/ _ |- _ => destruct H as [<-|H] end; try contradiction;
      try (vm_compute in E; discriminate); exfalso; apply Hn; tauto. }
  unfold set_write. destruct (pget (sprops st) (slower w)) as [settings|]; [|congruence].
  assert (forall l (v : sval) i, upd l i v <> Err KeyError) as Hu.
  { intros l v i. unfold upd, py_set_nth. destruct (_ || _); discriminate. }
  assert (forall i, arg_lower args i <> Err KeyError) as Ha.
  { intros i. unfold arg_lower, arg_at, py_nth. destruct (_ || _); [discriminate|].
    destruct (nth_error args _) as [[]|]; discriminate. }
  repeat match goal with
  | |- context [upd ?l ?i ?v] => pose proof (Hu l v i); destruct (upd l i v)
  | |- context [arg_lower args ?i] => pose proof (Ha i); destruct (arg_lower args i)
  | |- context [match ?x with _ => _ end] => lazymatch x with context [match _ with _ => _ end] => fail | _ => destruct x end
  end; cbn [fst]; congruence.
Qed.
Print Assumptions C55_known_words_partial.
Example C55_example : In "talk"%string emitted_words /\
  fst (set_write (fun _ => true) (mkS set_props_init []) "talk"%string [VStr "OFF"%string] []) = Ok tt.
Proof. split; [cbn; tauto|reflexivity]. Qed.
