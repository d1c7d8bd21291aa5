(** Property C111: native functions that are functions of the run time take the arguments FoxPro's take. *)
From Verif Require Import PyBase PyStr M_Abbr T_Abbr M_Do M_Call S_Call T_Call M_Sig.
Open Scope Z_scope.

(** FoxPro's functions: how many arguments at least, at most (no limit: None), and the run time's names of what they are *)
Record native_row := Row { n_name : pystr; least : nat; most : option nat; roles : list string }.
Definition row (f : string) (lo : nat) (hi : option nat) (l : list string) : native_row := Row (u f) lo hi l.
Open Scope string_scope.
Definition table : list native_row := [
  row "atline" 2 (Some 2%nat) ["search"; "string"]; row "atcline" 2 (Some 2%nat) ["search"; "string"]; row "capslock" 0 (Some 1%nat) ["on"]; row "cdx" 1 (Some 2%nat) ["index"; "workarea"];
  row "chrtran" 3 (Some 3%nat) ["expr"; "fchrs"; "rchrs"]; row "chrtranc" 3 (Some 3%nat) ["expr"; "fchrs"; "rchrs"]; row "ctod" 1 (Some 1%nat) ["string"];
  row "ddeinitiate" 2 (Some 2%nat) ["service"; "topic"]; row "ddesetoption" 1 (Some 2%nat) ["a"; "b"]; row "ddeterminate" 1 (Some 1%nat) ["a"]; row "ddesetservice" 2 (Some 3%nat) ["a"; "b"; "c"];
  row "ddesettopic" 2 (Some 3%nat) ["a"; "b"; "c"]; row "error" 0 (Some 0%nat) []; row "fdate" 1 (Some 2%nat) ["filename"; "datetype"]; row "ftime" 1 (Some 1%nat) ["filename"];
  row "filetostr" 1 (Some 2%nat) ["filename"]; row "getdir" 0 (Some 5%nat) ["dir"; "text"; "caption"; "flags"; "root_only"];
  row "getfile" 0 (Some 5%nat) ["file_ext"; "text"; "button_caption"; "button_type"; "title"]; row "getwordnum" 2 (Some 3%nat) ["string"; "index"; "delim"];
  row "gomonth" 2 (Some 2%nat) ["dateval"; "delta"]; row "home" 0 (Some 1%nat) ["location"]; row "inkey" 0 (Some 2%nat) ["seconds"; "hide_cursor"]; row "isblank" 1 (Some 1%nat) ["expr"];
  row "like" 2 (Some 2%nat) ["matchstr"; "string"]; row "likec" 2 (Some 2%nat) ["matchstr"; "string"]; row "lineno" 0 (Some 1%nat) ["flag"]; row "locfile" 1 (Some 3%nat) ["filename"; "ext"; "caption"];
  row "message" 0 (Some 1%nat) ["flag"]; row "messagebox" 1 (Some 4%nat) ["msg"; "arg1"; "arg2"; "timeout"]; row "os" 0 (Some 1%nat) []; row "pcount" 0 (Some 0%nat) [];
  row "program" 0 (Some 1%nat) ["level"]; row "quarter" 1 (Some 2%nat) ["datetime"; "start_month"]; row "ratline" 2 (Some 2%nat) ["search"; "string"];
  row "rgb" 3 (Some 3%nat) ["red"; "green"; "blue"]; row "seconds" 0 (Some 0%nat) []; row "set" 1 (Some 2%nat) ["setword"]; row "str" 1 (Some 3%nat) ["num"; "length"; "decimals"];
  row "strextract" 2 (Some 5%nat) ["string"; "begin"; "end"; "occurance"; "flag"]; row "strtofile" 2 (Some 3%nat) ["string"; "filename"; "flag"];
  row "strtran" 4 (Some 6%nat) ["string"; "old"; "new"; "start"; "maxreplace"; "flags"]; row "stuff" 4 (Some 4%nat) ["string"; "start"; "num_replaced"; "repl"];
  row "stuffc" 4 (Some 4%nat) ["string"; "start"; "num_replaced"; "repl"]; row "sqlcommit" 1 (Some 1%nat) ["conn"]; row "sqlconnect" 0 (Some 4%nat) ["name"; "userid"; "password"; "shared"];
  row "sqlstringconnect" 0 (Some 2%nat) []; row "sqlexec" 1 (Some 4%nat) ["conn"; "cmd"; "cursor_name"; "count_info"]; row "sqlrollback" 1 (Some 1%nat) ["conn"];
  row "sqltables" 1 (Some 3%nat) ["conn"; "table_type"; "cursor_name"]; row "sqldisconnect" 1 (Some 1%nat) ["connection"]; row "sys" 1 None ["funcnum"]; row "vartype" 1 (Some 2%nat) ["var"];
  row "version" 0 (Some 1%nat) ["ver_type"]; row "select" 1 (Some 1%nat) ["tablename"]; row "alias" 0 (Some 1%nat) ["tablename"]; row "dbf" 0 (Some 1%nat) ["tablename"];
  row "used" 0 (Some 1%nat) ["tablename"]; row "recno" 0 (Some 1%nat) []; row "reccount" 0 (Some 1%nat) []; row "recsize" 0 (Some 1%nat) ["workarea"]; row "bof" 0 (Some 1%nat) ["workarea"];
  row "eof" 0 (Some 1%nat) ["workarea"]; row "deleted" 0 (Some 1%nat) ["workarea"]; row "seek" 1 (Some 3%nat) ["key_expr"; "tablename"; "key_index"]; row "found" 0 (Some 1%nat) ["tablename"];
  row "field" 1 (Some 3%nat) ["field_item"; "tablename"; "flag"]; row "afields" 1 (Some 2%nat) []; row "fcount" 0 (Some 1%nat) ["tablename"]; row "cpdbf" 0 (Some 1%nat) ["tablename"]].
(** The calls FoxPro takes and the run time does not *)
Definition rejected : list (pystr * nat) := map (fun p => (u (fst p), snd p))
  [("cdx", 1); ("ddesetoption", 1); ("ddesettopic", 2); ("error", 0); ("filetostr", 2); ("os", 0); ("os", 1); ("sqlconnect", 0); ("vartype", 2); ("used", 0); ("recno", 1); ("reccount", 1);
   ("seek", 1); ("afields", 1); ("afields", 2)]%nat.
Definition takes (r : native_row) (n : nat) : Prop := (least r <= n)%nat /\ match most r with Some m => (n <= m)%nat | None => True end.

(** All its functions are native and reach the run time *)
Theorem C111_reaches r by_value n : In r table -> takes r n -> (n_name r = u "strtran" -> by_value (u "strtran") = false) ->
  native (n_name r) /\ exists g, (call_target by_value [] (n_name r) n = CLib g \/ call_target by_value [] (n_name r) n = CDb g) /\ In g (map fst signatures).
Proof.
  intros I T V.
  assert (C : forallb (fun r => let f := n_name r in let g := resolve f in (one_of full_names f || one_of short_natives f) && negb (pystr_eqb g (u "dodefault")) && negb (one_of inlined_always g) &&
    (pystr_eqb f (u "strtran") || negb (one_of inlined_by_value g)) && (pystr_eqb f (u "strtran") || negb (existsb (fun p => pystr_eqb g (fst p)) inlined_with)) &&
    (one_of lib_names g || one_of db_names g) && one_of (map fst signatures) g) table = true) by (vm_compute; reflexivity).
  rewrite forallb_forall in C. specialize (C _ I). cbv zeta in C. repeat (apply andb_prop in C as [C ?]). split; [apply listed_native; exact C|].
  exists (resolve (n_name r)). split; [|apply one_of_spec; assumption].
  assert (L : inlined by_value (resolve (n_name r)) n = false).
  { unfold inlined. match goal with H : negb (one_of inlined_always _) = true |- _ => apply negb_true_iff in H; rewrite H end. cbn [orb].
    destruct (pystr_eqb (n_name r) (u "strtran")) eqn:S.
    - apply eqb_eq in S. rewrite S in *. change (resolve (u "strtran")) with (u "strtran"). rewrite (V eq_refl), andb_false_r, orb_false_r.
      assert (R : forallb (fun r => negb (pystr_eqb (n_name r) (u "strtran")) || (4 <=? least r)%nat) table = true) by (vm_compute; reflexivity).
      rewrite forallb_forall in R. specialize (R _ I). rewrite S in R. change (pystr_eqb (u "strtran") (u "strtran")) with true in R. cbn [negb orb] in R. apply Nat.leb_le in R.
      destruct T as [T _]. destruct n as [|[|[|[|n]]]]; try lia. reflexivity.
    - cbn [orb] in *. repeat match goal with H : negb _ = true |- _ => apply negb_true_iff in H end. match goal with H : one_of inlined_by_value _ = false |- _ => rewrite H end.
      cbn [andb]. rewrite orb_false_r. match goal with |- ?b = false => destruct b eqn:E; [exfalso|reflexivity] end. apply existsb_exists in E as (p & J & E). apply andb_prop in E as [E _].
      match goal with H : existsb _ inlined_with = false |- _ => rewrite (proj2 (existsb_exists _ _)) in H; [discriminate|exists p; auto] end. }
  unfold call_target. cbv zeta. match goal with H : negb (pystr_eqb (resolve _) (u "dodefault")) = true |- _ => apply negb_true_iff in H; rewrite H end. cbn [one_of existsb]. rewrite L.
  destruct (one_of lib_names (resolve (n_name r))); [left; reflexivity|]. right. destruct (one_of db_names (resolve (n_name r))); [reflexivity|]. discriminate.
Qed.
Print Assumptions C111_reaches.

Section Args.
Variable A : Type.
Lemma combine_firstn_any (B : Type) (l : list string) (args : list B) k : (length args <= k)%nat -> combine (firstn k l) args = combine l args.
Proof. revert args k. induction l as [|x l IH]; intros [|a args] [|k] H; cbn in *; try lia; try reflexivity. rewrite IH by lia. reflexivity. Qed.
Definition strings_eqb (a b : list string) : bool := Nat.eqb (length a) (length b) && forallb (fun p => String.eqb (fst p) (snd p)) (combine a b).
Lemma strings_eqb_eq a : forall b, strings_eqb a b = true -> a = b.
Proof.
  unfold strings_eqb. induction a as [|x a IH]; intros [|y b] H; try discriminate; [reflexivity|]. cbn [length combine forallb fst snd Nat.eqb] in H. apply andb_prop in H as [L H].
  apply andb_prop in H as [E H]. apply String.eqb_eq in E. subst. f_equal. apply IH. rewrite L, H. reflexivity.
Qed.
Definition is_rejected (f : pystr) (n : nat) : bool := existsb (fun p => pystr_eqb f (fst p) && Nat.eqb n (snd p)) rejected.
Lemma is_rejected_spec f n : is_rejected f n = true <-> In (f, n) rejected.
Proof.
  unfold is_rejected. rewrite existsb_exists. split.
  - intros ([g m] & I & E). apply andb_prop in E as [E1 E2]. apply eqb_eq in E1. apply Nat.eqb_eq in E2. cbn [fst snd] in *. subst. exact I.
  - intros I. exists (f, n). split; [exact I|]. cbn [fst snd]. rewrite (proj2 (eqb_eq f f) eq_refl), Nat.eqb_refl. reflexivity.
Qed.
Definition row_fits (r : native_row) : bool :=
  let g := resolve (n_name r) in
  match dget pystr_eqb signatures g with
  | Some (Some s) =>
      let params := (required s ++ optional s)%list in
      negb (pystr_eqb g (u "afields")) && strings_eqb (firstn (length (roles r)) params) (roles r) && (negb (rest s) || strings_eqb params (roles r)) && (negb (pystr_eqb g (u "select_function")) || (1 <=? least r)%nat) &&
      match most r with
      | None => rest s && (length (required s) <=? least r)%nat
      | Some m => forallb (fun n => is_rejected (n_name r) n || ((length (required s) <=? n)%nat && (rest s || ((n <=? length params)%nat && (n <=? length (roles r))%nat)))) (seq (least r) (S m - least r))
      end
  | _ => false
  end.
Lemma table_fits : forallb (fun r => pystr_eqb (n_name r) (u "seek") || pystr_eqb (n_name r) (u "afields") || pystr_eqb (n_name r) (u "os") || row_fits r) table = true.
Proof. vm_compute. reflexivity. Qed.

Theorem C111_arguments_partial r (args : list A) : In r table -> takes r (length args) -> ~ In (n_name r, length args) rejected -> n_name r <> u "seek" ->
  call_native (n_name r) args = Ok (combine (roles r) (map Some args), skipn (length (roles r)) (map Some args)).
Proof.
  intros I [T1 T2] R K. pose proof table_fits as F. rewrite forallb_forall in F. specialize (F _ I).
  destruct (pystr_eqb (n_name r) (u "seek")) eqn:E1; [apply eqb_eq in E1; contradiction|]. cbn [orb] in F.
  assert (NR : is_rejected (n_name r) (length args) = false).
  { destruct (is_rejected (n_name r) (length args)) eqn:E; [apply is_rejected_spec in E; contradiction|reflexivity]. }
  assert (D : forall f lo hi, n_name r = f -> least r = lo -> most r = Some hi -> forallb (is_rejected f) (seq lo (S hi - lo)) = true -> False).
  { intros f lo hi <- <- H X. rewrite forallb_forall in X. rewrite X in NR; [discriminate|]. apply in_seq. rewrite H in T2. lia. }
  destruct (pystr_eqb (n_name r) (u "afields")) eqn:E2.
  { exfalso. assert (Q : forallb (fun r => negb (pystr_eqb (n_name r) (u "afields")) || match most r with Some m => forallb (is_rejected (n_name r)) (seq (least r) (S m - least r)) | None => false end) table = true) by (vm_compute; reflexivity).
    rewrite forallb_forall in Q. specialize (Q _ I). rewrite E2 in Q. cbn [negb orb] in Q. destruct (most r) eqn:M; [|discriminate]. exact (D _ _ _ eq_refl eq_refl eq_refl Q). }
  destruct (pystr_eqb (n_name r) (u "os")) eqn:E3.
  { exfalso. assert (Q : forallb (fun r => negb (pystr_eqb (n_name r) (u "os")) || match most r with Some m => forallb (is_rejected (n_name r)) (seq (least r) (S m - least r)) | None => false end) table = true) by (vm_compute; reflexivity).
    rewrite forallb_forall in Q. specialize (Q _ I). rewrite E3 in Q. cbn [negb orb] in Q. destruct (most r) eqn:M; [|discriminate]. exact (D _ _ _ eq_refl eq_refl eq_refl Q). }
  cbn [orb] in F. unfold row_fits in F. cbv zeta in F. unfold call_native. cbv zeta.
  destruct (dget pystr_eqb signatures (resolve (n_name r))) as [[s|]|] eqn:G.
  2:{ discriminate. }
  2:{ discriminate. }
  apply andb_prop in F as [F F5]. apply andb_prop in F as [F F4]. apply andb_prop in F as [F F3]. apply andb_prop in F as [F1 F2]. apply negb_true_iff in F1. apply strings_eqb_eq in F2.
  assert (EM : emitted (resolve (n_name r)) args = map Some args).
  { unfold emitted. rewrite F1. destruct (pystr_eqb (resolve (n_name r)) (u "select_function")); [|reflexivity]. cbn [negb orb] in F4. apply Nat.leb_le in F4.
    destruct args; [cbn [length] in T1; lia|reflexivity]. }
  rewrite EM. set (xs := map Some args). assert (L : length xs = length args) by apply map_length.
  assert (Q : (length (required s) <= length xs)%nat /\ (rest s = true \/ (length xs <= length (required s ++ optional s) /\ length xs <= length (roles r))%nat)).
  { rewrite L. destruct (most r) as [m|].
    - rewrite forallb_forall in F5. specialize (F5 (length args)). rewrite NR in F5. cbn [orb] in F5.
      assert (J : In (length args) (seq (least r) (S m - least r))) by (apply in_seq; lia). specialize (F5 J). apply andb_prop in F5 as [Q1 Q2]. apply Nat.leb_le in Q1. split; [exact Q1|].
      apply orb_prop in Q2 as [Q2 | Q2]; [left; exact Q2|right]. apply andb_prop in Q2 as [Q2 Q3]. apply Nat.leb_le in Q2. apply Nat.leb_le in Q3. auto.
    - apply andb_prop in F5 as [Q1 Q2]. apply Nat.leb_le in Q2. split; [lia|left; exact Q1]. }
  destruct Q as [Q1 Q2].
  assert (BO : bind (Some s) xs = Ok (combine (required s ++ optional s) xs, skipn (length (required s ++ optional s)) xs)).
  { unfold bind. destruct (Nat.ltb_spec (length xs) (length (required s))); [lia|]. destruct (Nat.ltb_spec (length (required s ++ optional s)) (length xs)); cbn [andb]; [|reflexivity].
    destruct Q2 as [-> | [Q2 _]]; [reflexivity|lia]. }
  rewrite BO. destruct (rest s) eqn:RS.
  - cbn [negb orb] in F3. apply strings_eqb_eq in F3. rewrite F3. reflexivity.
  - destruct Q2 as [Q2 | [Q2 Q3]]; [discriminate|]. f_equal. f_equal.
    + rewrite <- F2 at 1. symmetry. apply combine_firstn_any. exact Q3.
    + rewrite (skipn_all2 xs) by exact Q2. symmetry. apply skipn_all2. exact Q3.
Qed.
(** The calls that raise, though FoxPro takes them *)
Theorem C111_rejected_refuted f (args : list A) : In (f, length args) rejected -> (exists r, In r table /\ n_name r = f /\ takes r (length args)) /\ call_native f args = Err TypeError.
Proof.
  intros I.
  assert (C : forallb (fun p => existsb (fun r => pystr_eqb (n_name r) (fst p) && (least r <=? snd p)%nat && match most r with Some m => (snd p <=? m)%nat | None => true end) table) rejected = true) by (vm_compute; reflexivity).
  rewrite forallb_forall in C. specialize (C _ I). cbn [fst snd] in C. split.
  - apply existsb_exists in C as (r & J & E). apply andb_prop in E as [E E3]. apply andb_prop in E as [E1 E2]. apply eqb_eq in E1. apply Nat.leb_le in E2. exists r. split; [exact J|]. split; [exact E1|].
    split; [exact E2|]. destruct (most r); [apply Nat.leb_le; exact E3|exact Logic.I].
  - clear C. unfold rejected in I. cbn [map fst snd] in I.
    repeat (destruct I as [E | I]; [injection E as <- L; destruct args as [|? [|? [|? ?]]]; try discriminate L; vm_compute; reflexivity|]). destruct I.
Qed.
(** SEEK(key, area): the key is taken for the table and the area for the key *)
Theorem C111_seek_refuted (key area : A) more : (length more <= 1)%nat ->
  exists l, call_native (u "seek") (key :: area :: more) = Ok (("tablename", Some key) :: ("key_expr", Some area) :: l, []).
Proof. intros L. destruct more as [|x [|y more]]; [| |cbn in L; lia]; eexists; vm_compute; reflexivity. Qed.
(** SELECT() *)
Theorem C111_select : call_native (u "select") (@nil A) = Ok ([("tablename", None)], []).
Proof. vm_compute. reflexivity. Qed.
End Args.
Print Assumptions C111_arguments_partial.
Print Assumptions C111_rejected_refuted.
Print Assumptions C111_seek_refuted.
Print Assumptions C111_select.

Example C111_example :
  call_native (u "strextract") (map u ["<a>x</a>"; "<a>"; "</a>"]) = Ok (combine ["string"; "begin"; "end"] (map (fun s => Some (u s)) ["<a>x</a>"; "<a>"; "</a>"]), []) /\
  call_native (u "set") [1; 2] = Ok ([("setword", Some 1)], [Some 2]) /\ call_native (u "recno") (@nil Z) = Ok ([], []) /\ call_native (u "recno") [1] = Err TypeError.
Proof. repeat split; vm_compute; reflexivity. Qed.
