(** Property C96: the low-level file functions. *)
From Verif Require Import PyBase PyStr M_LowFile.
Open Scope Z_scope.
Open Scope res_scope.

Definition clean (l : pystr) : Prop := Forall (fun c => c <> 10 /\ c <> 13) l.
Definition no_cr (s : pystr) : Prop := ~ In 13 s.
Lemma get_set (fs : files) x v : dget pystr_eqb (dset pystr_eqb fs x v) x = Some v.
Proof.
  induction fs as [|[k w] d IH]; cbn [dset dget].
  - destruct (pystr_eqb_spec x x); [reflexivity|congruence].
  - destruct (pystr_eqb_spec x k) as [E|N]; cbn [dget].
    + destruct (pystr_eqb_spec x k); [reflexivity|congruence].
    + destruct (pystr_eqb_spec x k); [congruence|exact IH].
Qed.
Lemma next_plain c r : c <> 13 -> next_char (c :: r) = Some (c, r).
Proof. intros H. unfold next_char. destruct (Z.eq_dec c 13); [congruence|]. destruct c as [|p|p]; try reflexivity. repeat (destruct p as [p|p|]; try reflexivity; try congruence). Qed.
Lemma next_out raw c r : next_char raw = Some (c, r) -> c <> 13 /\ (length r < length raw)%nat.
Proof.
  destruct raw as [|a raw]; [discriminate|]. destruct (Z.eq_dec a 13) as [->|N].
  - unfold next_char. destruct raw as [|b raw]; [intros [= <- <-]; split; [lia|cbn; lia]|].
    destruct (Z.eq_dec b 10) as [->|M]; [intros [= <- <-]; split; [lia|cbn; lia]|].
    assert (X : match b with 10 => Some (10, raw) | _ => Some (10, b :: raw) end = Some (10, b :: raw)).
    { destruct b as [|p|p]; try reflexivity. repeat (destruct p as [p|p|]; try reflexivity; try congruence). }
    intros E. assert (Y : Some (10, b :: raw) = Some (c, r)) by (rewrite <- X; exact E). injection Y as <- <-. split; [lia|cbn; lia].
  - rewrite (next_plain a raw N). intros [= <- <-]. split; [exact N|cbn; lia].
Qed.
Lemma take_plain raw : no_cr raw -> forall fuel n, (length raw <= fuel)%nat -> 0 <= n -> take fuel n raw = (firstn (Z.to_nat n) raw, skipn (Z.to_nat n) raw).
Proof.
  induction raw as [|c r IH]; intros NC fuel n HF Hn.
  - destruct fuel; cbn [take next_char]; rewrite firstn_nil, skipn_nil; [reflexivity|]. destruct (n =? 0); reflexivity.
  - destruct fuel as [|k]; [cbn in HF; lia|]. cbn [take]. destruct (Z.eqb_spec n 0) as [->|Nn]; [reflexivity|].
    rewrite next_plain by (intros ->; apply NC; now left). rewrite IH; [|intros X; apply NC; now right|cbn in HF; lia|lia].
    replace (Z.to_nat n) with (S (Z.to_nat (n - 1))) by lia. reflexivity.
Qed.
Lemma take_all raw : no_cr raw -> forall fuel n, (length raw <= fuel)%nat -> n < 0 -> take fuel n raw = (raw, []).
Proof.
  induction raw as [|c r IH]; intros NC fuel n HF Hn.
  - destruct fuel; cbn [take next_char]; [reflexivity|]. destruct (n =? 0); reflexivity.
  - destruct fuel as [|k]; [cbn in HF; lia|]. cbn [take]. destruct (Z.eqb_spec n 0) as [->|Nn]; [lia|].
    rewrite next_plain by (intros ->; apply NC; now left). rewrite IH; [reflexivity|intros X; apply NC; now right|cbn in HF; lia|lia].
Qed.
Lemma take_no_cr fuel : forall n raw, ~ In 13 (fst (take fuel n raw)).
Proof.
  induction fuel as [|k IH]; intros n raw; cbn [take]; [intros []|]. destruct (n =? 0); [intros []|]. destruct (next_char raw) as [[c r]|] eqn:E; [|intros []].
  apply next_out in E as [Nc _]. specialize (IH (n - 1) r). destruct (take k (n - 1) r) as [a b]. cbn [fst] in *. intros [H|H]; [congruence|contradiction].
Qed.
Lemma take_line_end nl l : nl = [10] \/ nl = [13; 10] -> clean l -> forall rest fuel n, (length (l ++ nl ++ rest) <= fuel)%nat -> n < 0 ->
  take_line fuel n (l ++ nl ++ rest) = (l ++ [10], rest).
Proof.
  intros Hnl. induction 1 as [|c l [N1 N2] F IH]; intros rest fuel n HF Hn.
  - destruct fuel as [|k]; [destruct Hnl; subst nl; cbn in HF; lia|]. cbn [take_line]. destruct (Z.eqb_spec n 0); [lia|]. destruct Hnl; subst nl; reflexivity.
  - destruct fuel as [|k]; [cbn in HF; lia|]. cbn [app take_line]. destruct (Z.eqb_spec n 0); [lia|]. rewrite (next_plain c _ N2). destruct (Z.eqb_spec c 10); [congruence|].
    rewrite (IH rest k (n - 1)); [reflexivity|cbn in HF; lia|lia].
Qed.
Lemma lstrip_clean l r : clean l -> l <> [] -> lstrip_by crlf (l ++ r) = l ++ r.
Proof. intros C NE. destruct C as [|c l [N1 N2] F]; [congruence|]. cbn [app lstrip_by]. unfold crlf. destruct (Z.eqb_spec c 13); [congruence|]. destruct (Z.eqb_spec c 10); [congruence|reflexivity]. Qed.
Lemma strip_line l : clean l -> strip_by crlf (l ++ [10]) = l.
Proof.
  intros C. destruct l as [|c l]; [reflexivity|]. unfold strip_by. rewrite lstrip_clean by (auto; congruence). rewrite rev_app_distr. cbn [rev app lstrip_by crlf Z.eqb Pos.eqb orb].
  assert (C' : clean (rev (c :: l))) by (apply Forall_rev, C). rewrite <- (app_nil_r (rev l ++ [c])).
  change (rev l ++ [c]) with (rev (c :: l)). rewrite lstrip_clean; [|exact C'|cbn; intros X; destruct (rev l); discriminate]. now rewrite app_nil_r, rev_involutive.
Qed.
Lemma put_end raw s : put_at raw s (zlen raw) = raw ++ s.
Proof.
  unfold put_at. rewrite Z.sub_diag. unfold zlen. rewrite Nat2Z.id, firstn_all. cbn [py_repeat Z.to_nat repeat app].
  rewrite (skipn_all2 raw) by lia. now rewrite app_nil_r.
Qed.

(** The lines of FPUTS come back with FGETS, whatever they are (without line ends inside); behind the last there is nothing.  Each FPUTS returns the
    number of characters written, its line end included. *)
Fixpoint put_lines (h : handle) (ls : list pystr) : list (res Z) * handle :=
  match ls with [] => ([], h) | l :: r => let (n, h) := fputs h l None in let (ns, h) := put_lines h r in (n :: ns, h) end.
Fixpoint get_lines (h : handle) (n : nat) : list (res pystr) * handle :=
  match n with O => ([], h) | S k => let (l, h) := fgets h None in let (ls, h) := get_lines h k in (l :: ls, h) end.
Definition with_ends (ls : list pystr) : pystr := concat (map (fun l => l ++ [13; 10]) ls).
Lemma put_lines_at name m raw ls : m <> RD -> put_lines (mkH name m raw (zlen raw) false) ls =
  (map (fun l => Ok (zlen l + 2)) ls, mkH name m (raw ++ with_ends ls) (zlen (raw ++ with_ends ls)) false).
Proof.
  intros Hm. revert raw. induction ls as [|l ls IH]; intros raw; cbn [put_lines map].
  - unfold with_ends. cbn [map concat]. now rewrite app_nil_r.
  - unfold fputs, py_write. cbn [h_mode h_seen h_pos h_raw h_name cut].
    assert (X : (match m with RD => (Err ValueError, mkH name m raw (zlen raw) false) | _ => (Ok (zlen (l ++ [13; 10])), mkH name m (put_at raw (l ++ [13; 10]) (zlen raw)) (zlen raw + zlen (l ++ [13; 10])) false) end) =
       (Ok (zlen l + 2), mkH name m (raw ++ l ++ [13; 10]) (zlen (raw ++ l ++ [13; 10])) false)).
    { rewrite put_end, (zlen_app raw), (zlen_app l). destruct m; [congruence| |]; reflexivity. }
    rewrite X, IH. unfold with_ends. cbn [map concat]. rewrite <- !app_assoc. reflexivity.
Qed.
Lemma skipn_pre (pre s : pystr) : skipn (Z.to_nat (zlen pre)) (pre ++ s) = s.
Proof. unfold zlen. rewrite Nat2Z.id, skipn_app, skipn_all, Nat.sub_diag. reflexivity. Qed.
Lemma gets_line nl name m pre l rest seen : nl = [10] \/ nl = [13; 10] -> m <> WR -> clean l ->
  fgets (mkH name m (pre ++ l ++ nl ++ rest) (zlen pre) seen) None = (Ok l, mkH name m (pre ++ l ++ nl ++ rest) (zlen (pre ++ l ++ nl)) true).
Proof.
  intros Hnl Hm C. unfold fgets, reading. cbn [h_mode h_pos h_raw h_name count_of]. rewrite skipn_pre, (take_line_end nl l Hnl C) by lia.
  assert (Z1 : zlen (pre ++ l ++ nl ++ rest) - zlen rest = zlen (pre ++ l ++ nl)) by (rewrite !zlen_app; lia). rewrite Z1.
  destruct m; [|congruence|]; cbn [rmap rbind]; now rewrite strip_line.
Qed.
Lemma get_lines_at name m ls : m <> WR -> Forall clean ls -> forall pre seen, exists seen', get_lines (mkH name m (pre ++ with_ends ls) (zlen pre) seen) (length ls) =
  (map Ok ls, mkH name m (pre ++ with_ends ls) (zlen (pre ++ with_ends ls)) seen').
Proof.
  intros Hm. induction 1 as [|l ls C F IH]; intros pre seen.
  - exists seen. unfold with_ends. cbn [length get_lines map concat]. now rewrite app_nil_r.
  - cbn [length get_lines]. unfold with_ends. cbn [map concat]. fold (with_ends ls). rewrite <- (app_assoc l).
    rewrite (gets_line [13; 10] name m pre l (with_ends ls) seen (or_intror eq_refl) Hm C).
    replace (pre ++ l ++ [13; 10] ++ with_ends ls) with ((pre ++ l ++ [13; 10]) ++ with_ends ls) by (now rewrite <- !app_assoc).
    destruct (IH (pre ++ l ++ [13; 10]) true) as [seen' E]. rewrite E. exists seen'. reflexivity.
Qed.
Theorem C96_lines_partial : forall fs name ls, Forall clean ls ->
  exists h fs1 h1 h2 h3, fcreate fs name None = Ok (h, fs1) /\ put_lines h ls = (map (fun l => Ok (zlen l + 2)) ls, h1) /\
    fopen (fclose h1 fs1) name None = Ok (h2, fclose h1 fs1) /\ get_lines h2 (length ls) = (map Ok ls, h3) /\ fst (fgets h3 None) = Ok [] /\
    dget pystr_eqb (fclose h3 (fclose h1 fs1)) name = Some (concat (map (fun l => l ++ [13; 10]) ls)).
Proof.
  intros fs name ls C. exists (mkH name WR [] 0 false), (dset pystr_eqb fs name []), (mkH name WR (with_ends ls) (zlen (with_ends ls)) false), (mkH name RD (with_ends ls) 0 false).
  destruct (get_lines_at name RD ls ltac:(congruence) C [] false) as [seen' E]. exists (mkH name RD (with_ends ls) (zlen (with_ends ls)) seen').
  assert (D : dget pystr_eqb (dset pystr_eqb (dset pystr_eqb fs name []) name (with_ends ls)) name = Some (with_ends ls)) by apply get_set.
  split; [reflexivity|]. split; [apply (put_lines_at name WR [] ls); congruence|]. split; [|split; [exact E|split; [|exact D]]].
  - unfold fclose. cbn [h_mode h_name h_raw]. unfold fopen. cbn [open_mode fopen_types]. unfold py_open. rewrite D. reflexivity.
  - unfold fgets, reading. cbn [h_mode h_pos h_raw]. assert (S0 : skipn (Z.to_nat (zlen (with_ends ls))) (with_ends ls) = []) by (apply skipn_all2; unfold zlen; lia). rewrite S0. reflexivity.
Qed.
Print Assumptions C96_lines_partial.
Example C96_lines_example : Forall clean [u "one"; []; u " two "] /\
  (do (h, fs) <- fcreate [(u "g", u "x")] (u "f") None; let h1 := snd (put_lines h [u "one"; []; u " two "]) in
   do (h2, fs) <- fopen (fclose h1 fs) (u "f") (Some 0); Ok (fst (get_lines h2 4))) = Ok [Ok (u "one"); Ok []; Ok (u " two "); Ok []].
Proof. split; [|reflexivity]. repeat constructor; vm_compute; congruence. Qed.

(** FREAD gives the next n characters of a file without carriage returns, and leaves the position behind them; FSEEK moves it. *)
Theorem C96_read_partial : forall h n, h_mode h <> WR -> no_cr (h_raw h) -> 0 <= n -> 0 <= h_pos h <= zlen (h_raw h) ->
  exists h', fread h (Some n) = (Ok (firstn (Z.to_nat n) (skipn (Z.to_nat (h_pos h)) (h_raw h))), h') /\
    h_pos h' = Z.min (h_pos h + n) (zlen (h_raw h)) /\ h_raw h' = h_raw h /\ h_mode h' = h_mode h.
Proof.
  intros [name m raw p seen] n Hm NC Hn Hp. cbn [h_mode h_raw h_pos] in *. unfold fread, reading. cbn [h_mode h_pos h_raw h_name count_of].
  assert (NS : no_cr (skipn (Z.to_nat p) raw)) by (intros X; apply NC; rewrite <- (firstn_skipn (Z.to_nat p) raw); apply in_or_app; now right).
  rewrite (take_plain _ NS) by lia. eexists. split; [destruct m; [reflexivity|congruence|reflexivity]|]. cbn [h_pos h_raw h_mode]. split; [|split; reflexivity].
  unfold zlen in *. rewrite !skipn_length. lia.
Qed.
Print Assumptions C96_read_partial.
Theorem C96_seek_partial : forall h k, 0 <= k ->
  (forall w, w = None \/ w = Some 0 -> exists h', fseek h k w = (Ok k, h') /\ h_pos h' = k /\ h_raw h' = h_raw h /\ h_mode h' = h_mode h) /\
  (exists h', fseek h 0 (Some 2) = (Ok (zlen (h_raw h)), h') /\ h_pos h' = zlen (h_raw h) /\ h_raw h' = h_raw h /\ h_mode h' = h_mode h).
Proof.
  intros h k Hk. split.
  - intros w [-> | ->]; unfold fseek; (destruct (Z.ltb_spec k 0); [lia|]); eexists; repeat split.
  - eexists. repeat split.
Qed.
Print Assumptions C96_seek_partial.
(** FWRITE replaces the characters from the position on, makes the file longer if needed and returns the number of characters. *)
Theorem C96_write_partial : forall h s n, h_mode h <> RD -> h_seen h = false -> 0 <= h_pos h <= zlen (h_raw h) -> 0 <= n ->
  exists h', fwrite h s (Some n) = (Ok (Z.min n (zlen s)), h') /\ h_pos h' = h_pos h + Z.min n (zlen s) /\ h_seen h' = false /\
    zlen (h_raw h') = Z.max (zlen (h_raw h)) (h_pos h') /\
    (forall i, h_pos h <= i < h_pos h' -> nth_error (h_raw h') (Z.to_nat i) = nth_error s (Z.to_nat (i - h_pos h))) /\
    (forall i, 0 <= i < h_pos h \/ h_pos h' <= i -> nth_error (h_raw h') (Z.to_nat i) = nth_error (h_raw h) (Z.to_nat i)).
Proof.
  intros [name m raw p seen] s n Hm Hs Hp Hn. cbn [h_mode h_raw h_pos h_seen] in *. subst seen. set (t := firstn (Z.to_nat n) s).
  assert (Ec : cut s (Some n) = t).
  { unfold cut, py_slice. cbn [slice_bound]. unfold slice_bound. destruct (Z.ltb_spec n 0); [lia|]. cbn [skipn Z.to_nat]. unfold t. rewrite ?Z.sub_0_r.
    pose proof (zlen_nonneg s). destruct (Z.le_gt_cases n (zlen s)).
    - replace (Z.max 0 (Z.min (zlen s) n)) with n by lia. reflexivity.
    - replace (Z.max 0 (Z.min (zlen s) n)) with (zlen s) by lia. rewrite !firstn_all2; [reflexivity|unfold zlen in *; lia|unfold zlen in *; lia]. }
  assert (Lt : zlen t = Z.min n (zlen s)) by (unfold t, zlen; rewrite firstn_length; lia).
  unfold fwrite. rewrite Ec. unfold py_write. cbn [h_mode h_seen h_pos h_raw h_name]. rewrite Lt.
  set (raw' := put_at raw t p).
  assert (ER : raw' = firstn (Z.to_nat p) raw ++ t ++ skipn (Z.to_nat (p + zlen t)) raw).
  { unfold raw', put_at. replace (py_repeat 0 (p - zlen raw)) with (@nil Z); [reflexivity|]. unfold py_repeat. replace (Z.to_nat (p - zlen raw)) with O by lia. reflexivity. }
  exists (mkH name m raw' (p + Z.min n (zlen s)) false). split; [destruct m; [congruence|reflexivity|reflexivity]|]. cbn [h_pos h_raw h_seen]. split; [reflexivity|]. split; [reflexivity|].
  assert (Lf : length (firstn (Z.to_nat p) raw) = Z.to_nat p) by (rewrite firstn_length; unfold zlen in *; lia).
  assert (Ltt : length t = Z.to_nat (Z.min n (zlen s))) by (unfold zlen in *; lia).
  split; [|split].
  - rewrite ER, !zlen_app. unfold zlen in *. rewrite Lf, skipn_length. lia.
  - intros i Hi. rewrite ER, nth_error_app2 by lia. rewrite nth_error_app1 by lia. rewrite Lf. replace (Z.to_nat i - Z.to_nat p)%nat with (Z.to_nat (i - p)) by lia.
    unfold t. assert (X : forall (l : pystr) a b, (a < b)%nat -> nth_error (firstn b l) a = nth_error l a).
    { intros l a. revert l. induction a as [|a IH]; intros [|c l] [|b] Hab; try lia; try reflexivity. cbn. apply IH. lia. }
    apply X. lia.
  - intros i [Hi|Hi]; rewrite ER.
    + rewrite nth_error_app1 by lia. assert (X : forall (l : pystr) a b, (a < b)%nat -> nth_error (firstn b l) a = nth_error l a).
      { intros l a. revert l. induction a as [|a IH]; intros [|c l] [|b] Hab; try lia; try reflexivity. cbn. apply IH. lia. }
      apply X. lia.
    + pose proof (zlen_nonneg s). rewrite nth_error_app2 by lia. rewrite nth_error_app2 by (rewrite Lf; lia). rewrite Lf, Ltt, Lt.
      assert (X : forall (l : pystr) a b, nth_error (skipn a l) b = nth_error l (a + b)).
      { intros l a. revert l. induction a as [|a IH]; intros [|c l] b; try reflexivity; [destruct b; reflexivity|]. cbn. apply IH. }
      rewrite X. f_equal. lia.
Qed.
Print Assumptions C96_write_partial.
Example C96_write_example : h_raw (snd (fwrite (mkH (u "f") RW (u "abcdef") 2 false) (u "XYZ") (Some 2))) = u "abXYef".
Proof. reflexivity. Qed.

(** No carriage return is ever read: a file that has one is not read as it is. *)
Theorem C96_carriage_return_refuted : forall h n t h', fread h n = (Ok t, h') -> ~ In 13 t.
Proof.
  intros [name m raw p seen] n t h' E. unfold fread, reading in E. cbn [h_mode h_pos h_raw] in E. destruct m; [|discriminate|];
    (pose proof (take_no_cr (length (skipn (Z.to_nat p) raw)) (count_of n) (skipn (Z.to_nat p) raw)) as H; destruct (take _ _ _) as [a b]; injection E as <- _; exact H).
Qed.
Print Assumptions C96_carriage_return_refuted.
Example C96_carriage_return_example : fst (fread (mkH (u "f") RD ([97; 13; 10; 98]) 0 false) (Some 4)) = Ok [97; 10; 98].
Proof. reflexivity. Qed.
(** Opening a file for writing (FOPEN(f, 1)) empties it. *)
Theorem C96_open_write_refuted : forall fs name raw, dget pystr_eqb fs name = Some raw ->
  exists h fs', fopen fs name (Some 1) = Ok (h, fs') /\ dget pystr_eqb (fclose h fs') name = Some [].
Proof. intros fs name raw _. do 2 eexists. split; [reflexivity|]. cbn [fclose h_mode h_name h_raw]. apply get_set. Qed.
Print Assumptions C96_open_write_refuted.
(** Opening a file that does not exist is an exception instead of the result -1; so are all unbuffered modes (10, 11, 12) and the attributes of
    FCREATE other than 0 and 1, of which 1 (read-only) opens an existing file for reading. *)
Theorem C96_open_refuted :
  (forall fs name, dget pystr_eqb fs name = None -> exists e, fopen fs name (Some 0) = Err e /\ fopen fs name (Some 2) = Err e /\ fcreate fs name (Some 1) = Err e) /\
  (forall fs name n, 3 <= n -> exists e, fopen fs name (Some n) = Err e) /\
  (forall fs name n, 2 <= n -> exists e, fcreate fs name (Some n) = Err e).
Proof.
  split; [|split].
  - intros fs name E. exists GenericException. unfold fopen, fcreate. change (open_mode fopen_types (Some 0)) with (Mode RD). change (open_mode fopen_types (Some 2)) with (Mode RW). change (open_mode fcreate_types (Some 1)) with (Mode RD). unfold py_open. rewrite E. auto.
  - intros fs name n Hn. unfold fopen, open_mode. change (zlen fopen_types) with 3. destruct (Z.leb_spec n 3); [|eexists; reflexivity].
    replace n with 3 by lia. eexists. reflexivity.
  - intros fs name n Hn. unfold fcreate, open_mode. change (zlen fcreate_types) with 2. destruct (Z.leb_spec n 2); [|eexists; reflexivity].
    replace n with 2 by lia. eexists. reflexivity.
Qed.
Print Assumptions C96_open_refuted.
Theorem C96_open_partial : forall fs name raw, dget pystr_eqb fs name = Some raw ->
  fopen fs name None = Ok (mkH name RD raw 0 false, fs) /\ fopen fs name (Some 0) = Ok (mkH name RD raw 0 false, fs) /\ fopen fs name (Some 2) = Ok (mkH name RW raw 0 false, fs).
Proof. intros fs name raw E. unfold fopen. change (open_mode fopen_types None) with (Mode RD). change (open_mode fopen_types (Some 0)) with (Mode RD). change (open_mode fopen_types (Some 2)) with (Mode RW). unfold py_open. rewrite E. auto. Qed.
Print Assumptions C96_open_partial.
(** Reading a line and writing: the text goes to the end of the file instead of behind the line. *)
Theorem C96_update_refuted : forall name l rest s, clean l ->
  let h := mkH name RW (l ++ [10] ++ rest) 0 false in
  exists h1 h2, fgets h None = (Ok l, h1) /\ fwrite h1 s None = (Ok (zlen s), h2) /\ h_raw h2 = (l ++ [10] ++ rest) ++ s.
Proof.
  intros name l rest s C h. pose proof (gets_line [10] name RW [] l rest false (or_introl eq_refl) ltac:(congruence) C) as E. cbn [app] in E.
  eexists. eexists. split; [exact E|]. unfold fwrite, py_write. cbn [h_mode h_seen h_raw h_pos h_name cut]. split; [reflexivity|]. cbn [h_raw]. apply put_end.
Qed.
Print Assumptions C96_update_refuted.
(** With FSEEK in between it is replaced where it should be. *)
Theorem C96_update_partial : forall h k s n, h_mode h = RW -> 0 <= k <= zlen (h_raw h) -> 0 <= n ->
  exists h1 h2, fseek h k None = (Ok k, h1) /\ fwrite h1 s (Some n) = (Ok (Z.min n (zlen s)), h2) /\
    forall i, k <= i < k + Z.min n (zlen s) -> nth_error (h_raw h2) (Z.to_nat i) = nth_error s (Z.to_nat (i - k)).
Proof.
  intros h k s n Hm Hk Hn. assert (E : fseek h k None = (Ok k, mkH (h_name h) (h_mode h) (h_raw h) k false)) by (unfold fseek; destruct (Z.ltb_spec k 0); [lia|reflexivity]).
  destruct (C96_write_partial (mkH (h_name h) (h_mode h) (h_raw h) k false) s n) as (h2 & W & P & _ & _ & A & _); cbn [h_mode h_seen h_pos h_raw] in *; [congruence|reflexivity|lia|lia|].
  eexists. exists h2. split; [exact E|]. split; [exact W|]. intros i Hi. apply A. lia.
Qed.
Print Assumptions C96_update_partial.
Lemma set_other {V} (d : list (pystr * V)) x y v : y <> x -> dget pystr_eqb (dset pystr_eqb d x v) y = dget pystr_eqb d y.
Proof.
  intros N. induction d as [|[k w] d IH]; cbn [dset dget].
  - destruct (pystr_eqb_spec y x); [congruence|reflexivity].
  - destruct (pystr_eqb_spec x k) as [E|E]; cbn [dget].
    + subst k. destruct (pystr_eqb_spec y x); [congruence|reflexivity].
    + rewrite IH. reflexivity.
Qed.
(** A file opened for reading and writing, written to at its beginning and closed: it has the new text, then what was behind it; the other files are as before. *)
Theorem C96_close_partial : forall fs name raw s, dget pystr_eqb fs name = Some raw ->
  exists h1 h2, fopen fs name (Some 2) = Ok (h1, fs) /\ fwrite h1 s None = (Ok (zlen s), h2) /\
    dget pystr_eqb (fclose h2 fs) name = Some (s ++ skipn (length s) raw) /\
    forall other, other <> name -> dget pystr_eqb (fclose h2 fs) other = dget pystr_eqb fs other.
Proof.
  intros fs name raw s E. destruct (C96_open_partial fs name raw E) as (_ & _ & Op). eexists. eexists. split; [exact Op|]. unfold fwrite, py_write. cbn [h_mode h_seen h_raw h_pos h_name cut].
  split; [reflexivity|]. unfold fclose. cbn [h_mode h_name h_raw]. split.
  - rewrite get_set. f_equal. unfold put_at. replace (py_repeat 0 (0 - zlen raw)) with (@nil Z) by (unfold py_repeat; replace (Z.to_nat (0 - zlen raw)) with O by (pose proof (zlen_nonneg raw); lia); reflexivity).
    cbn [Z.to_nat firstn app]. unfold zlen. rewrite Z.add_0_l, Nat2Z.id. reflexivity.
  - intros other N. apply set_other, N.
Qed.
Print Assumptions C96_close_partial.
(** FSEEK relative to the position or the end fails and moves nothing. *)
Theorem C96_relative_seek_refuted : forall h k w, k <> 0 -> w = 1 \/ w = 2 -> exists e, fseek h k (Some w) = (Err e, h).
Proof. intros h k w Hk [-> | ->]; unfold fseek; destruct (Z.eqb_spec k 0); try congruence; eexists; reflexivity. Qed.
Print Assumptions C96_relative_seek_refuted.
