(** Property theorem C05: FoxPro variable scoping. *)
From Verif Require Import PyBase M_Memvar S_Memvar P_Memvar.

(** C05: for every finite history of reads, membership tests, writes, deletes, LOCAL/PRIVATE/PUBLIC declarations,
    RELEASE ALL, calls and returns, every result the variable store hands back (values, NameErrors, rejected
    declarations) is the one given by the scoping rules of S_Memvar on the call chain. *)
Theorem C05_scoping_refinement :
  forall (V : Type) (pyfalse : V) (os : list (op V)),
  fst (mem_run pyfalse mem_init os) = fst (spec_run pyfalse [] os).
Proof. intros V pyfalse os. apply (run_refines pyfalse os mem_init []); [apply init_wf|apply init_R]. Qed.
Print Assumptions C05_scoping_refinement.

Example C05_example :
  fst (mem_run 0 mem_init
    [OPush; OAddPublic ["g"%string] []; OSet "g"%string 1; OAddLocal ["x"%string] []; OSet "x"%string 5;
     OSet "y"%string 7; OPush; OGet "x"%string; OGet "y"%string; OAddPrivate ["y"%string] []; OSet "y"%string 8;
     OGet "y"%string; OSet "g"%string 2; OPop; OGet "x"%string; OGet "y"%string; OGet "g"%string])
  = [Ok RUnit; Ok RUnit; Ok RUnit; Ok RUnit; Ok RUnit; Ok RUnit; Ok RUnit; Err NameError; Ok (RVal 7); Ok RUnit; Ok RUnit;
     Ok (RVal 8); Ok RUnit; Ok RUnit; Ok (RVal 5); Ok (RVal 7); Ok (RVal 2)].
Proof. vm_compute. reflexivity. Qed.

(** The two halves of the English statement, read off the specification: a write changes exactly the binding a read
    would see ... *)
Theorem C05_write_then_read :
  forall (V : Type) (pyfalse : V) (os : list (op V)) (k k' : name) (v : V) (m m' : memvar V),
  snd (mem_run pyfalse mem_init (OPush :: os)) = m -> mem_set m k v = Ok m' ->
  mem_get m' k' = if String.eqb k' k then Ok v else mem_get m k'.
Proof.
  intros V pyfalse os k k' v m m' <- Hset.
  destruct (run_refines pyfalse (OPush :: os) mem_init [] init_wf init_R) as (_ & HR).
  set (m := snd (mem_run pyfalse mem_init (OPush :: os))) in *.
  set (c := snd (spec_run pyfalse [] (OPush :: os))) in *.
  assert (wfm m) as Hwf.
  { unfold m. generalize (OPush :: os). intros l. assert (wfm (V := V) mem_init) as H by apply init_wf. revert H.
    generalize (@mem_init V). induction l as [|o l IH]; intros m0 H0; [exact H0|].
    cbn [mem_run]. pose proof (wf_step pyfalse m0 o H0) as H1. destruct (mem_step pyfalse m0 o) as [x m1].
    specialize (IH m1 H1). destruct (mem_run pyfalse m1 l). exact IH. }
  destruct (step_refines pyfalse m c (OSet k v) Hwf HR) as [_ HR'].
  cbn [mem_step] in HR'. rewrite Hset in HR'. cbn [upd_state snd] in HR'.
  rewrite (get_refines m' _ k' HR'), (get_refines m c k' HR). clear HR'.
  destruct c as [|f r]; cbn [spec_step snd].
  { exfalso. destruct (step_refines pyfalse m [] (OSet k v) Hwf HR) as [H _].
    cbn [mem_step spec_step fst] in H. rewrite Hset in H. discriminate H. }
  destruct (lookup (f :: r) k) as [old|] eqn:El.
  - (* rebinding *)
    assert (forall c, priv_lookup c k <> None -> priv_lookup (priv_rebind c k (Some v)) k' =
              if String.eqb k' k then Some v else priv_lookup c k') as Hp.
    { intros c. induction c as [|g c IH]; intros Hc; [cbn in Hc; congruence|]. cbn [priv_rebind priv_lookup] in *.
      destruct (priv g k) eqn:Eg; cbn [priv_lookup set_priv priv].
      - unfold bind. destruct (String.eqb_spec k' k) as [->|]; reflexivity.
      - rewrite IH by assumption. destruct (String.eqb_spec k' k) as [->|]; [rewrite Eg; reflexivity|reflexivity]. }
    cbn [lookup] in El. unfold rebind. destruct (loc f k) eqn:Elk.
    + cbn [lookup set_loc loc]. unfold bind at 1. destruct (String.eqb_spec k' k) as [->|]; [reflexivity|].
      cbn [priv_lookup set_loc priv]. reflexivity.
    + assert (lookup (priv_rebind (f :: r) k (Some v)) k' =
              match loc f k' with Some w => Some w | None => priv_lookup (priv_rebind (f :: r) k (Some v)) k' end) as ->.
      { cbn [priv_rebind]. destruct (priv f k); reflexivity. }
      rewrite Hp by (rewrite El; discriminate). cbn [lookup].
      destruct (String.eqb_spec k' k) as [->|]; [rewrite Elk; reflexivity|reflexivity].
  - cbn [lookup set_priv loc priv_lookup priv] in *. unfold bind.
    destruct (String.eqb_spec k' k) as [->|].
    + destruct (loc f k); [discriminate|reflexivity].
    + reflexivity.
Qed.
Print Assumptions C05_write_then_read.

Example C05_write_then_read_example :
  let m := snd (mem_run 0 mem_init (OPush :: [OAddLocal ["x"%string] []; OSet "y"%string 3])) in
  exists m', mem_set m "x"%string 4 = Ok m' /\ mem_get m' "x"%string = Ok 4 /\ mem_get m' "y"%string = Ok 3.
Proof. eexists. vm_compute. repeat split. Qed.
