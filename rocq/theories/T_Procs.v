(** Property theorems C09 and C54: finding procedures and arrays. *)
From Verif Require Import PyBase M_Memvar M_Procs S_Procs P_Procs.

(** C09: whatever the history of set_procedure/release_procedure calls, no module is listed twice. *)
Theorem C09_no_duplicates :
  forall (cs : list pcall), NoDup (pcall_run [] cs).
Proof. intros cs. apply run_NoDup. constructor. Qed.
Print Assumptions C09_no_duplicates.

(** C09: after any history of SETs the list is the modules set since the last non-additive SET, most recent first. *)
Theorem C09_search_order :
  forall (h : list (pyobj * bool)), pcall_run [] (map (fun p => PSet (fst p) (snd p)) h) = search_order h.
Proof. exact search_order_run. Qed.
Print Assumptions C09_search_order.

(** C09: releasing modules that are in the list removes exactly them and keeps the order of the rest. *)
Theorem C09_release :
  forall (cs : list pcall) (ms : list pyobj), let l := pcall_run [] cs in
  NoDup ms -> (forall m, In m ms -> In m l) ->
  release_procedure l ms = (Ok tt, filter (fun y => negb (existsb (pyobj_eqb y) ms)) l).
Proof. intros cs ms l Hms Hin. apply release_in; auto. apply run_NoDup. constructor. Qed.
Print Assumptions C09_release.

(** C09: a call resolves to the first listed module that defines the name (as a function, not as a class), unless a
    declared DLL function has that name. *)
Theorem C09_resolution :
  forall (V F : Type) (as_array : V -> option F) attr oth cls (dlls : list (name -> option F)) before md after (m : memvar V) key f,
  (forall d, In d dlls -> d key = None) ->
  (forall x, In x before -> cls x key = true \/ oth x key = true \/ attr x key = None) ->
  cls md key = false -> oth md key = false -> attr md key = Some f ->
  function_get as_array attr oth cls dlls (before ++ md :: after) m key = Ok f.
Proof.
  intros V F as_array attr oth cls dlls before md after m key f Hd Hb Hc Ho Ha. unfold function_get.
  assert (Hf : first_provider (module_provides attr oth cls) (before ++ md :: after) key f).
  { exists before, md, after. split; [reflexivity|]. unfold module_provides. split; [now rewrite Hc, Ho|]. intros x Hx.
    destruct (Hb x Hx) as [-> |[-> | ->]]; [reflexivity|destruct (cls x key); reflexivity|destruct (cls x key), (oth x key); reflexivity]. }
  assert (dll_lookup dlls key = None) as ->.
  { clear - Hd. induction dlls as [|d dlls IH]; [reflexivity|]. cbn [dll_lookup fold_right].
    rewrite (Hd d (or_introl eq_refl)). apply IH. intros; apply Hd; right; assumption. }
  apply module_lookup_first in Hf. rewrite Hf. reflexivity.
Qed.
Print Assumptions C09_resolution.
(** C09: a declared DLL function is found before procedures and arrays, the first declared first. *)
Theorem C09_dll_first :
  forall (V F : Type) (as_array : V -> option F) attr oth cls (pre post : list (name -> option F)) d mods (m : memvar V) key f,
  (forall x, In x pre -> x key = None) -> d key = Some f -> function_get as_array attr oth cls (pre ++ d :: post) mods m key = Ok f.
Proof.
  intros V F as_array attr oth cls pre post d mods m key f Hp Hd. unfold function_get.
  assert (dll_lookup (pre ++ d :: post) key = Some f) as ->; [|reflexivity].
  induction pre as [|x pre IH]; cbn [dll_lookup fold_right app]; [now rewrite Hd|]. rewrite (Hp x (or_introl eq_refl)). apply IH. intros y Hy; apply Hp; now right.
Qed.
Print Assumptions C09_dll_first.

Example C09_example :
  let l := pcall_run [] [PSet (Mod "a"%string) true; PSet (Mod "b"%string) false; PSet (Mod "c"%string) true;
                         PSet (Mod "b"%string) true] in
  l = [Mod "b"%string; Mod "c"%string] /\
  search_order [(Mod "a"%string, true); (Mod "b"%string, false); (Mod "c"%string, true); (Mod "b"%string, true)] = l /\
  release_procedure l [Mod "b"%string] = (Ok tt, [Mod "c"%string]).
Proof. vm_compute. repeat split. Qed.
Example C09_resolution_example :
  first_provider (module_provides (fun m k => match m with Mod "c"%string => Some 3 | Mod "a"%string => Some 1 | _ => None end)
                                  (fun _ _ => false) (fun _ _ => false))
     [Mod "b"%string; Mod "c"%string; Mod "a"%string] "proc"%string 3.
Proof. exists [Mod "b"%string], (Mod "c"%string), [Mod "a"%string]. repeat split. intros m' [<-|[]]; reflexivity. Qed.

(** The commands do not deliver what the methods offer.  RELEASE PROCEDURE passes names where the list holds module
    objects: it always fails and never releases anything. *)
Theorem C09_release_command_refuted :
  forall (importable : name -> bool) (cs : list pcmd) (names : list name),
  names <> [] ->
  let mods := fold_left (fun l c => snd (run_pcmd importable l c)) cs [] in
  run_pcmd importable mods (ReleaseProcedure names) = (Err ValueError, mods).
Proof.
  intros importable cs names Hn mods. cbn [run_pcmd]. apply release_strings_noop; [|exact Hn].
  unfold mods. clear mods Hn names.
  assert (forall l, (forall o, In o l -> exists n, o = Mod n) ->
    forall o, In o (fold_left (fun l c => snd (run_pcmd importable l c)) cs l) -> exists n, o = Mod n) as H.
  { induction cs as [|c cs IH]; intros l Hl; cbn [fold_left]; [exact Hl|]. apply IH.
    destruct c as [[|n ns] a|ns]; cbn [run_pcmd].
    - exact Hl.
    - destruct (importable n); [|exact Hl]. cbn [snd]. intros o [<-|Ho]; [eauto|].
      destruct a; [|destruct Ho]. cbn [negb] in Ho. destruct (existsb _ l); [|auto].
      destruct (py_remove l (Mod n)) as [l'|] eqn:E; [|auto].
      apply Hl. clear - E Ho. revert l' E Ho. induction l as [|y l IH]; intros l'; cbn [py_remove]; [discriminate|].
      destruct (pyobj_eqb y (Mod n)); [intros [= <-] Ho; right; exact Ho|].
      destruct (py_remove l (Mod n)) as [r|]; cbn; [|discriminate]. intros [= <-] [<-|Ho]; [left; reflexivity|right; eauto].
    - destruct ns as [|k ns]; [exact Hl|]. rewrite release_strings_noop by (auto; discriminate). exact Hl. }
  apply H. intros o [].
Qed.
Print Assumptions C09_release_command_refuted.

(** SET PROCEDURE TO a, b loads only a. *)
Theorem C09_set_list_refuted :
  exists (names : list name), length names = 2%nat /\
    run_pcmd (fun _ => true) [] (SetProcedureTo names false) = (Ok tt, [Mod (hd ""%string names)]).
Proof. exists ["a"%string; "b"%string]. split; reflexivity. Qed.
Print Assumptions C09_set_list_refuted.
(** SET PROCEDURE of a file that cannot be imported is an error, and the procedures set before stay in force. *)
Theorem C09_missing_file :
  forall importable mods n ns additive, importable n = false ->
  exists e, run_pcmd importable mods (SetProcedureTo (n :: ns) additive) = (Err e, mods).
Proof. intros importable mods n ns additive H. cbn [run_pcmd]. rewrite H. exists GenericException. reflexivity. Qed.
Print Assumptions C09_missing_file.

(** C54: an array reached with call syntax, arr(i), is the array the plain variable reference would give.  True when one
    frame of the chain binds the name and no LOCAL does ... *)
Theorem C54_call_syntax_single_partial :
  forall (V F : Type) (as_array : V -> option F) (m : memvar V) key v f,
  as_array v = Some f ->
  (exists a d b, public_scopes m = a ++ d :: b /\ sget d key = Some v /\ (forall e, In e (a ++ b) -> sget e key = None)) ->
  (forall d, In d (local_scopes m) -> sget d key = None) ->
  function_get as_array (fun _ _ => None) (fun _ _ => false) (fun _ _ => false) [] [] m key = Ok f /\ mem_get m key = Ok v.
Proof.
  intros V F as_array m key v f Hv He Hl. unfold function_get. cbn [dll_lookup module_lookup fold_right].
  destruct (array_lookup_single as_array m key v f Hv He Hl) as [-> H2]. auto.
Qed.
Print Assumptions C54_call_syntax_single_partial.

(** ... and false when an inner PRIVATE array hides an outer one: the outermost is used.  LOCAL arrays are not found
    at all. *)
Theorem C54_call_syntax_refuted :
  exists (m : memvar Z) key inner outer, inner <> outer /\ mem_get m key = Ok inner /\
    function_get (fun v => Some v) (fun _ _ => None) (fun _ _ => false) (fun _ _ => false) [] [] m key = Ok outer.
Proof.
  exists (mkMem [[("a"%string, 1)]; [("a"%string, 2)]] [[]; []]), "a"%string, 2, 1.
  split; [discriminate|]. split; reflexivity.
Qed.
Print Assumptions C54_call_syntax_refuted.

Theorem C54_local_array_refuted :
  exists (m : memvar Z) key v, mem_get m key = Ok v /\
    function_get (fun v => Some v) (fun _ _ => None) (fun _ _ => false) (fun _ _ => false) [] [] m key = Err GenericException.
Proof. exists (mkMem [[]] [[("a"%string, 1)]]), "a"%string, 1. split; reflexivity. Qed.
Print Assumptions C54_local_array_refuted.

Example C54_example :
  let m := mkMem [[]; [("a"%string, 4)]; []] [[]; []; []] in
  function_get (fun v => Some v) (fun _ _ => None) (fun _ _ => false) (fun _ _ => false) [] [] m "a"%string = Ok 4 /\
  mem_get m "a"%string = Ok 4.
Proof. split; reflexivity. Qed.
