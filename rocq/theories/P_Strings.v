(** Proofs about the string functions. *)
From Verif Require Import PyBase PyStr M_Strings S_Strings.
Open Scope res_scope.

(** ** STUFF *)
Lemma stuff_split a b c t n k : n = zlen a + 1 -> k = zlen b -> stuff (a ++ b ++ c) n k t = a ++ t ++ c.
Proof.
  intros -> ->. unfold stuff. replace (zlen a + 1 - 1) with (zlen a) by lia.
  pose proof (zlen_nonneg a). pose proof (zlen_nonneg b).
  rewrite py_slice_to by lia. rewrite py_slice_from by lia.
  unfold zlen. rewrite Nat2Z.id, firstn_app, Nat.sub_diag, firstn_all. cbn [firstn]. rewrite app_nil_r.
  f_equal. f_equal. rewrite <- Nat2Z.inj_add, Nat2Z.id, app_assoc, <- app_length, skipn_app, skipn_all, Nat.sub_diag.
  reflexivity.
Qed.
Lemma stuff_beyond a b t n k : n = zlen a + 1 -> zlen b <= k -> stuff (a ++ b) n k t = a ++ t.
Proof.
  intros -> Hk. unfold stuff. replace (zlen a + 1 - 1) with (zlen a) by lia.
  pose proof (zlen_nonneg a). pose proof (zlen_nonneg b).
  rewrite py_slice_to by lia. rewrite py_slice_from by lia.
  unfold zlen in *. rewrite Nat2Z.id, firstn_app, Nat.sub_diag, firstn_all. cbn [firstn]. rewrite app_nil_r.
  rewrite skipn_all2; [now rewrite app_nil_r|]. rewrite app_length. lia.
Qed.

(** ** CHRTRAN *)
Lemma char_index_first l c : forall k,
  first_pos l c k = option_map (fun z => (k + Z.to_nat z)%nat) (char_index l c)
  /\ (forall z, char_index l c = Some z -> 0 <= z).
Proof.
  induction l as [|x l IH]; intros k; cbn [first_pos char_index]; [split; [reflexivity|discriminate]|].
  destruct (x =? c).
  - cbn [option_map]. split; [f_equal; lia|]. intros z [= <-]. lia.
  - destruct (IH (S k)) as [H1 H2]. rewrite H1. destruct (char_index l c) as [z|]; cbn [option_map].
    + split; [f_equal; specialize (H2 z eq_refl); lia|]. intros z' [= <-]. specialize (H2 z eq_refl). lia.
    + split; [reflexivity|discriminate].
Qed.
Lemma py_nth_nth_error {A} (l : list A) z : 0 <= z ->
  py_nth l z = match nth_error l (Z.to_nat z) with Some a => Ok a | None => Err IndexError end.
Proof.
  intros Hz. unfold py_nth. destruct (Z.ltb_spec z 0); [lia|].
  destruct (Z.ltb_spec z 0); cbn [orb]; [lia|].
  destruct (nth_error l (Z.to_nat z)) eqn:E.
  - assert (Z.to_nat z < length l)%nat by (apply nth_error_Some; congruence).
    destruct (Z.leb_spec (zlen l) z); unfold zlen in *; [lia|reflexivity].
  - apply nth_error_None in E. destruct (Z.leb_spec (zlen l) z); unfold zlen in *; [reflexivity|lia].
Qed.

Definition chrtran_hits_gap (text from to : pystr) : Prop :=
  exists c k, In c text /\ first_pos from c 0 = Some k /\ nth_error to k = None.
Lemma chrtran_char_cases from to c :
  match char_index from c with Some k => py_nth to k | None => Ok c end =
  match chrtran_char from to c with [d] => Ok d | _ => Err IndexError end
  /\ ((exists d, chrtran_char from to c = [d]) \/
      chrtran_char from to c = [] /\ exists k, first_pos from c 0 = Some k /\ nth_error to k = None).
Proof.
  unfold chrtran_char. destruct (char_index_first from c 0) as [H1 H2]. rewrite H1.
  destruct (char_index from c) as [z|]; cbn [option_map]; [|split; [reflexivity|left; eauto]].
  rewrite py_nth_nth_error by auto. cbn [Nat.add].
  destruct (nth_error to (Z.to_nat z)) eqn:E.
  - split; [reflexivity|left; eauto].
  - split; [reflexivity|right; eauto].
Qed.
Lemma chrtran_ok text from to : ~ chrtran_hits_gap text from to -> chrtran text from to = Ok (chrtran_spec text from to).
Proof.
  unfold chrtran_spec. induction text as [|c r IH]; intros H; cbn [chrtran flat_map]; [reflexivity|].
  destruct (chrtran_char_cases from to c) as [-> [(d & ->)|(-> & k & Hk & Hn)]].
  - cbn [rbind]. rewrite IH; [reflexivity|]. intros (c' & k & Hin & H1 & H2). apply H. exists c', k. cbn. auto.
  - destruct H. exists c, k. cbn. auto.
Qed.
Lemma chrtran_gap text from to : chrtran_hits_gap text from to -> chrtran text from to = Err IndexError.
Proof.
  induction text as [|c r IH]; intros (c' & k & Hin & H1 & H2); [destruct Hin|].
  cbn [chrtran]. destruct (chrtran_char_cases from to c) as [-> [(d & Hd)|(-> & _)]]; [|reflexivity].
  rewrite Hd. cbn [rbind]. destruct Hin as [->|Hin].
  - unfold chrtran_char in Hd. rewrite H1, H2 in Hd. discriminate.
  - rewrite IH; [reflexivity|]. exists c', k. auto.
Qed.
Lemma no_gap_if_long text from to : zlen from <= zlen to -> ~ chrtran_hits_gap text from to.
Proof.
  intros Hl (c & k & _ & H1 & H2). apply nth_error_None in H2.
  assert (G : forall l j m, first_pos l c j = Some m -> (m < j + length l)%nat).
  { induction l as [|x l IH]; intros j m; cbn [first_pos length]; [discriminate|].
    destruct (x =? c); [intros [= <-]; lia|]. intros Hm. apply IH in Hm. lia. }
  apply G in H1. unfold zlen in Hl. lia.
Qed.

(** ** Words *)
Lemma words_of_unique sep s ws1 : words_of sep s ws1 -> forall ws2, words_of sep s ws2 -> ws1 = ws2.
Proof.
  induction 1 as [g Hg|g w rest ws Hg Hw Hn Hr Hws IH]; intros ws2 H2.
  - inversion H2 as [g' Hg'|g' w' rest' ws' Hg' Hw' Hn' Hr' Hws' E]; subst; [reflexivity|].
    destruct w' as [|x w']; [congruence|]. cbn [forallb] in Hn'. rewrite !forallb_app in Hg. cbn [app forallb] in Hg.
    rewrite !andb_true_iff in *. destruct Hn' as [Hx _], Hg as (_ & (Hy & _) & _). rewrite Hy in Hx. discriminate.
  - assert (G : exists g' w' rest' ws', ws2 = w' :: ws' /\ g ++ w ++ rest = g' ++ w' ++ rest' /\
      forallb sep g' = true /\ w' <> [] /\ forallb (fun c => negb (sep c)) w' = true /\
      starts_with_sep sep rest' /\ words_of sep rest' ws').
    { remember (g ++ w ++ rest) as s eqn:Es. destruct H2 as [g' Hg'|g' w' rest' ws' Hg' Hw' Hn' Hr' Hws'].
      - exfalso. subst. destruct w as [|x w]; [congruence|]. rewrite !forallb_app in Hg'. cbn [app forallb] in *.
        rewrite !andb_true_iff in *. destruct Hn as [Hx _], Hg' as (_ & (Hy & _) & _). rewrite Hy in Hx. discriminate.
      - exists g', w', rest', ws'. repeat split; auto. }
    destruct G as (g' & w' & rest' & ws' & -> & E & Hg' & Hw' & Hn' & Hr' & Hws').
    assert (Eg : g = g' /\ w ++ rest = w' ++ rest').
    { clear - E Hg Hg' Hw Hw' Hn Hn'. revert g' Hg' E. induction g as [|x g IH]; intros [|y g'] Hg' E; cbn in *.
      - auto.
      - exfalso. destruct w as [|z w]; [congruence|]. cbn in *. injection E as -> E. rewrite andb_true_iff in *.
        destruct Hg' as [Hy _], Hn as [Hz _]. rewrite Hy in Hz. discriminate.
      - exfalso. destruct w' as [|z w']; [congruence|]. cbn in *. injection E as -> E. rewrite andb_true_iff in *.
        destruct Hg as [Hy _], Hn' as [Hz _]. rewrite Hy in Hz. discriminate.
      - injection E as -> E. rewrite andb_true_iff in *. destruct (IH (proj2 Hg) g' (proj2 Hg') E) as [-> ->]. auto. }
    destruct Eg as [-> Ew].
    assert (Er : w = w' /\ rest = rest').
    { clear - Ew Hn Hn' Hr Hr'. revert w' Hn' Ew. induction w as [|x w IH]; intros [|y w'] Hn' E; cbn in *.
      - auto.
      - exfalso. subst rest. cbn in Hr. rewrite andb_true_iff in Hn'. rewrite Hr in Hn'. destruct Hn'. discriminate.
      - exfalso. subst rest'. cbn in Hr'. rewrite andb_true_iff in Hn. rewrite Hr' in Hn. destruct Hn. discriminate.
      - injection E as -> E. rewrite andb_true_iff in *. destruct (IH (proj2 Hn) w' (proj2 Hn') E) as [-> ->]. auto. }
    destruct Er as [-> ->]. f_equal. apply IH, Hws'.
Qed.

Definition nonempty (w : pystr) : bool := negb (match w with [] => true | _ => false end).
(** a general splitter: pieces between single separators, the current piece (reversed) in front *)
Fixpoint pieces (sep : Z -> bool) (cur s : pystr) : list pystr :=
  match s with
  | [] => [rev cur]
  | c :: r => if sep c then rev cur :: pieces sep [] r else pieces sep (c :: cur) r
  end.
Lemma words_skip sep g s ws : forallb sep g = true -> words_of sep s ws -> words_of sep (g ++ s) ws.
Proof.
  intros Hg H. destruct H as [g' Hg'|g' w rest ws Hg' Hw Hn Hr Hws].
  - constructor. rewrite forallb_app, Hg, Hg'. reflexivity.
  - rewrite app_assoc. constructor; auto. rewrite forallb_app, Hg, Hg'. reflexivity.
Qed.
Lemma pieces_words sep s : forall cur, forallb (fun c => negb (sep c)) cur = true ->
  words_of sep (rev cur ++ s) (filter nonempty (pieces sep cur s)).
Proof.
  induction s as [|c r IH]; intros cur Hc; cbn [pieces].
  - rewrite app_nil_r. cbn [filter]. destruct (rev cur) as [|x w] eqn:E; cbn [nonempty negb].
    + constructor. reflexivity.
    + assert (A : words_of sep ([] ++ (x :: w) ++ []) [x :: w]).
      { constructor; [reflexivity|discriminate| |exact I|constructor; reflexivity].
        rewrite <- E. rewrite forallb_forall in *. intros y Hy. apply Hc. apply in_rev. exact Hy. }
      rewrite app_nil_r in A. exact A.
  - destruct (sep c) eqn:Es.
    + specialize (IH [] eq_refl). cbn [rev app] in IH. cbn [filter].
      destruct (rev cur) as [|x w] eqn:E; cbn [nonempty negb].
      * cbn [app]. change (c :: r) with ([c] ++ r). apply words_skip; [cbn; now rewrite Es|exact IH].
      * change ((x :: w) ++ c :: r) with ([] ++ (x :: w) ++ c :: r). constructor; cbn [starts_with_sep]; auto; try discriminate.
        -- rewrite <- E. rewrite forallb_forall in *. intros y Hy. apply Hc. apply in_rev. exact Hy.
        -- change (c :: r) with ([c] ++ r). apply words_skip; [cbn; now rewrite Es|exact IH].
    + specialize (IH (c :: cur)). cbn [rev] in IH. rewrite <- app_assoc in IH. apply IH. cbn [forallb].
      rewrite Es. exact Hc.
Qed.
Lemma split_ws_pieces s : forall cur, filter nonempty (split_ws cur s) = filter nonempty (pieces is_space cur s).
Proof.
  induction s as [|c r IH]; intros cur; cbn [split_ws pieces].
  - destruct cur; reflexivity.
  - destruct (is_space c); [|apply IH]. destruct cur as [|x cur]; cbn [filter]; rewrite IH.
    + reflexivity.
    + reflexivity.
Qed.
Lemma split_from_pieces d s : forall cur, split_from 0 cur s [d] = pieces (fun c => d =? c) cur s.
Proof.
  induction s as [|c r IH]; intros cur; cbn [split_from pieces prefixb]; [reflexivity|].
  rewrite andb_true_r. destruct (d =? c); cbn [length Nat.sub]; now rewrite IH.
Qed.
(** the separator test a delimiter argument denotes when it has one character, and by default *)
Definition sep_of (delim : option pystr) : option (Z -> bool) :=
  match delim with None => Some is_space | Some [d] => Some (fun c => d =? c) | _ => None end.
Lemma getwords_spec s delim sep : sep_of delim = Some sep ->
  exists ws, getwords s delim = Ok ws /\ words_of sep s ws.
Proof.
  unfold sep_of, getwords. destruct delim as [[|d [|]]|]; try discriminate; intros [= <-].
  - cbn [str_split rbind]. rewrite split_from_pieces. eexists; split; [reflexivity|].
    apply (pieces_words (fun c => d =? c) s []). reflexivity.
  - eexists; split; [reflexivity|]. fold nonempty. rewrite split_ws_pieces.
    apply (pieces_words is_space s []). reflexivity.
Qed.

(** ** STRTRAN *)
Lemma first_occurrence_find s old : match find_nat s old with
  | Some k => exists pre post, first_occurrence s old pre post /\ length pre = k
  | None => forall j, ~ occurs_at s old j
  end.
Proof.
  pose proof (find_nat_spec s old) as H. destruct (find_nat s old) as [k|]; [|exact H].
  destruct H as [(a & b & E & Hl) H]. exists a, b. split; [split; [exact E|rewrite Hl; exact H]|exact Hl].
Qed.
Lemma first_occurrence_unique s old pre1 post1 pre2 post2 :
  first_occurrence s old pre1 post1 -> first_occurrence s old pre2 post2 -> pre1 = pre2 /\ post1 = post2.
Proof.
  intros [E1 H1] [E2 H2].
  assert (L : length pre1 = length pre2).
  { destruct (Nat.lt_trichotomy (length pre1) (length pre2)) as [L|[L|L]]; [|exact L|].
    - destruct (H2 _ L). exists pre1, post1. auto.
    - destruct (H1 _ L). exists pre2, post2. auto. }
  rewrite E1 in E2. clear - E2 L. revert pre2 L E2. induction pre1 as [|x p IH]; intros [|y q] L E; try discriminate.
  - cbn in E. apply app_inv_head in E. auto.
  - cbn in *. injection E as -> E. injection L as L. destruct (IH q L E) as [-> ->]. auto.
Qed.
Lemma occurs_app_r a s old k : occurs_at s old k -> occurs_at (a ++ s) old (length a + k).
Proof. intros (x & y & -> & <-). exists (a ++ x), y. rewrite <- !app_assoc, app_length. auto. Qed.
Lemma replace_from_skip x : forall n post old new,
  replace_from (length x) n (x ++ post) old new = replace_from 0 n post old new.
Proof.
  induction x as [|c x IH]; intros; cbn [length app]; [reflexivity|]. cbn [replace_from]. apply IH.
Qed.
Lemma replace_from_zero s old new : replace_from 0 (Some O) s old new = s.
Proof. destruct s; reflexivity. Qed.
Lemma replace_from_none s old new : forall n, (forall k, ~ occurs_at s old k) -> replace_from 0 n s old new = s.
Proof.
  induction s as [|c s IH]; intros n H; cbn [replace_from]; [reflexivity|].
  assert (E : prefixb old (c :: s) = false).
  { destruct (prefixb old (c :: s)) eqn:E; [|reflexivity]. destruct (H O). now apply occurs_at_0. }
  rewrite E, IH; [destruct n as [[|]|]; reflexivity|].
  intros k Hk. apply (H (S k)). now apply occurs_at_S.
Qed.
Lemma replace_from_found old new n pre : forall s post, old <> [] -> n <> Some O -> first_occurrence s old pre post ->
  replace_from 0 n s old new = pre ++ new ++ replace_from 0 (option_map pred n) post old new.
Proof.
  induction pre as [|c pre IH]; intros s post Ho Hn [E H].
  - cbn [app] in *. subst s. destruct old as [|o old]; [congruence|]. cbn [app].
    cbn [replace_from]. change (o :: old ++ post) with ((o :: old) ++ post). rewrite prefixb_app.
    cbn [length]. replace (S (length old) - 1)%nat with (length old) by lia. rewrite replace_from_skip.
    destruct n as [[|]|]; [congruence|reflexivity|reflexivity].
  - subst s. cbn [app]. cbn [replace_from].
    assert (Ep : prefixb old (c :: pre ++ old ++ post) = false).
    { destruct (prefixb old (c :: pre ++ old ++ post)) eqn:Ep; [|reflexivity].
      destruct (H O); [cbn; lia|]. apply occurs_at_0. exact Ep. }
    rewrite Ep. rewrite (IH _ post Ho Hn).
    + destruct n as [[|]|]; [congruence|reflexivity|reflexivity].
    + split; [reflexivity|]. intros k Hk Hk'. apply (H (S k)); [cbn; lia|]. apply occurs_at_S. exact Hk'.
Qed.
Lemma replace_from_rel old new : old <> [] -> forall m s n, (length s <= m)%nat ->
  strtran_rel old new 0 n s (replace_from 0 n s old new).
Proof.
  intros Ho. induction m as [|m IH]; intros s n Hm.
  - destruct s; [|cbn in Hm; lia]. cbn. apply SR_none. intros k Hk. apply occurs_at_nil in Hk. destruct Hk; congruence.
  - destruct n as [[|n]|].
    + rewrite replace_from_zero. apply SR_done.
    + pose proof (first_occurrence_find s old) as H. destruct (find_nat s old) as [k|].
      * destruct H as (pre & post & H & _). rewrite (replace_from_found old new (Some (S n)) pre s post Ho); [|discriminate|exact H].
        apply SR_replace with (post := post); [exact H|discriminate|]. apply IH.
        destruct H as [-> _]. rewrite !app_length in Hm. destruct old; [congruence|]. cbn in Hm. lia.
      * rewrite replace_from_none by exact H. apply SR_none, H.
    + pose proof (first_occurrence_find s old) as H. destruct (find_nat s old) as [k|].
      * destruct H as (pre & post & H & _). rewrite (replace_from_found old new None pre s post Ho); [|discriminate|exact H].
        apply SR_replace with (post := post); [exact H|discriminate|]. apply IH.
        destruct H as [-> _]. rewrite !app_length in Hm. destruct old; [congruence|]. cbn in Hm. lia.
      * rewrite replace_from_none by exact H. apply SR_none, H.
Qed.
Lemma first_occurs s old pre post : first_occurrence s old pre post -> occurs_at s old (length pre).
Proof. intros [E _]. exists pre, post. auto. Qed.
Lemma strtran_rel_unique old new skip limit s r1 : strtran_rel old new skip limit s r1 ->
  forall r2, strtran_rel old new skip limit s r2 -> r1 = r2.
Proof.
  induction 1 as [skip limit s H|s|skip limit s pre post r H Hr IH|limit s pre post r H Hl Hr IH]; intros r2 H2;
    inversion H2 as [skip' limit' s' H'|s'|skip' limit' s' pre' post' r' H' Hr'|limit' s' pre' post' r' H' Hl' Hr']; subst;
    try reflexivity; try congruence;
    try (exfalso; match goal with
         | A : forall k, ~ occurs_at ?s ?o k, B : first_occurrence ?s ?o _ _ |- _ => apply (A _ (first_occurs _ _ _ _ B)) end).
  - destruct (first_occurrence_unique _ _ _ _ _ _ H H') as [<- <-]. now rewrite (IH r' Hr').
  - destruct (first_occurrence_unique _ _ _ _ _ _ H H') as [<- <-]. now rewrite (IH r' Hr').
Qed.
Lemma strtran_rel_absent old new skip limit s r : (forall k, ~ occurs_at s old k) ->
  strtran_rel old new skip limit s r -> r = s.
Proof. intros H Hr. symmetry. eapply strtran_rel_unique; [apply SR_none, H|exact Hr]. Qed.

Lemma strtran_skip_spec old new : old <> [] -> forall k ret s,
  exists A s', strtran_skip k ret s old = (ret ++ A, s') /\ s = A ++ s' /\
    forall limit X, strtran_rel old new 0 limit s' X -> strtran_rel old new k limit s (A ++ X).
Proof.
  intros Ho. induction k as [|k IH]; intros ret s.
  - exists [], s. cbn. rewrite app_nil_r. auto.
  - cbn [strtran_skip]. unfold str_find. pose proof (first_occurrence_find s old) as H.
    destruct (find_nat s old) as [m|]; cbn [z_of_find].
    + destruct H as (pre & post & H & <-). set (ind := _ + _).
      assert (Hi : ind = Z.of_nat (length (pre ++ old))) by (unfold ind, zlen; rewrite app_length; lia).
      rewrite Hi, py_slice_to, py_slice_from by lia. rewrite Nat2Z.id. destruct H as [E Hf].
      assert (E1 : firstn (length (pre ++ old)) s = pre ++ old).
      { rewrite E, app_assoc, firstn_app, Nat.sub_diag, firstn_all. cbn. now rewrite app_nil_r. }
      assert (E2 : skipn (length (pre ++ old)) s = post).
      { rewrite E, app_assoc, skipn_app, Nat.sub_diag, skipn_all. reflexivity. }
      rewrite E1, E2. destruct (IH (ret ++ pre ++ old) post) as (A & s' & -> & Es & HX).
      exists ((pre ++ old) ++ A), s'. split; [now rewrite <- !app_assoc|]. split; [rewrite E, Es; now rewrite <- !app_assoc|].
      intros limit X HR. rewrite <- !app_assoc. apply SR_keep with (post := post); [split; assumption|]. apply HX, HR.
    + set (ind := _ + _).
      assert (Hi : 0 <= ind) by (unfold ind, zlen; destruct old; [congruence|cbn [length]; lia]).
      rewrite py_slice_to, py_slice_from by lia.
      destruct (IH (ret ++ firstn (Z.to_nat ind) s) (skipn (Z.to_nat ind) s)) as (A & s' & -> & Es & HX).
      exists (firstn (Z.to_nat ind) s ++ A), s'. split; [now rewrite <- !app_assoc|].
      split; [rewrite <- app_assoc, <- Es; symmetry; apply firstn_skipn|].
      intros limit X HR. specialize (HX limit X HR).
      assert (Hno : forall j, ~ occurs_at (skipn (Z.to_nat ind) s) old j).
      { intros j Hj. apply (occurs_app_r (firstn (Z.to_nat ind) s)) in Hj. rewrite firstn_skipn in Hj. apply (H _ Hj). }
      apply strtran_rel_absent in HX; [|exact Hno]. rewrite <- app_assoc, HX, firstn_skipn. apply SR_none, H.
Qed.
(** the number of replacements an optional maximum allows *)
Definition limit_of (maxr : option Z) : option nat :=
  match maxr with None => None | Some k => if k <=? 0 then None else Some (Z.to_nat k) end.
Lemma str_replace_rel s old new maxr : old <> [] ->
  strtran_rel old new 0 (match maxr with None => None | Some k => if k <? 0 then None else Some (Z.to_nat k) end) s
    (str_replace s old new maxr).
Proof.
  intros Ho. unfold str_replace. destruct old as [|o old']; [congruence|].
  eapply replace_from_rel; [exact Ho|apply Nat.le_refl].
Qed.
Lemma strtran_spec s old new start maxr : old <> [] ->
  strtran_rel old new (Z.to_nat start) (limit_of maxr) s (strtran s old new start maxr).
Proof.
  intros Ho. unfold strtran. destruct (strtran_skip_spec old new Ho (Z.to_nat start) [] s) as (A & s' & -> & Es & HX).
  cbn [app]. apply HX. unfold limit_of. destruct maxr as [k|]; [|apply (str_replace_rel s' old new None Ho)].
  destruct (Z.eqb_spec k 0) as [->|Hk]; [apply (str_replace_rel s' old new None Ho)|].
  pose proof (str_replace_rel s' old new (Some k) Ho) as G. cbv beta iota in G. revert G.
  destruct (k <? 0) eqn:E1, (k <=? 0) eqn:E2; auto; lia.
Qed.

(** ** Lines *)
Lemma count_cr s : str_count s [13] = zlen (filter (Z.eqb 13) s).
Proof.
  unfold str_count. induction s as [|c s IH]; [reflexivity|].
  cbn [count_from prefixb length Nat.sub filter]. rewrite andb_true_r. destruct (13 =? c).
  - rewrite IH. unfold zlen. cbn [length]. lia.
  - exact IH.
Qed.
Lemma lines_nonempty s : lines_cr s <> [].
Proof.
  induction s as [|c s IH]; cbn [lines_cr]; [discriminate|]. destruct (c =? 13); [discriminate|].
  destruct (lines_cr s); [congruence|discriminate].
Qed.
(** A text without carriage return that stands in s stands in one line, and the number of carriage returns before it is
    the number of the lines before. *)
Lemma occurs_line x : x <> [] -> forallb (fun c => negb (c =? 13)) x = true -> forall s k, occurs_at s x k ->
  exists l, nth_error (lines_cr s) (length (filter (Z.eqb 13) (firstn k s))) = Some l /\ contains l x.
Proof.
  intros Hx Hn. induction s as [|c s IH]; intros k Hk.
  - apply occurs_at_nil in Hk. destruct Hk; congruence.
  - destruct k as [|k].
    + cbn [firstn filter length]. clear IH. apply occurs_at_0, prefixb_spec in Hk. destruct Hk as (t & E).
      rewrite E. clear E s c.
      assert (G : exists l ls, lines_cr (x ++ t) = (x ++ l) :: ls).
      { clear Hx. induction x as [|a x IH]; cbn [app lines_cr].
        - destruct (lines_cr t) as [|l ls] eqn:E; [now apply lines_nonempty in E|eauto].
        - cbn [forallb] in Hn. apply andb_true_iff in Hn. destruct Hn as [Ha Hn].
          destruct (a =? 13); [discriminate|]. destruct (IH Hn) as (l & ls & ->). eauto. }
      destruct G as (l & ls & ->). cbn [nth_error]. eexists; split; [reflexivity|]. exists 0%nat, [], l. auto.
    + rewrite occurs_at_S in Hk. cbn [firstn filter lines_cr]. destruct (IH k Hk) as (l & Hl & Hc). rewrite (Z.eqb_sym c 13).
      destruct (13 =? c); cbn [length nth_error]; [eauto|].
      destruct (lines_cr s) as [|l0 ls]; [now apply nth_error_In in Hl|].
      destruct (length (filter (Z.eqb 13) (firstn k s))) as [|m]; cbn [nth_error] in *.
      * injection Hl as ->. eexists; split; [reflexivity|]. destruct Hc as (j & Hj). exists (S j). now apply occurs_at_S.
      * eauto.
Qed.
(** A line that contains x yields an occurrence of x with that many carriage returns before it. *)
Lemma line_occurs x : x <> [] -> forall s m l, nth_error (lines_cr s) m = Some l -> contains l x ->
  exists k, occurs_at s x k /\ length (filter (Z.eqb 13) (firstn k s)) = m.
Proof.
  intros Hx. induction s as [|c s IH]; intros m l Hl Hc.
  - cbn in Hl. destruct m as [|m]; [|now destruct m]. injection Hl as <-. destruct Hc as (j & Hj).
    apply occurs_at_nil in Hj. destruct Hj; congruence.
  - cbn [lines_cr] in Hl. destruct (Z.eqb_spec c 13) as [->|Hcr].
    + destruct m as [|m]; cbn [nth_error] in Hl.
      * injection Hl as <-. destruct Hc as (j & Hj). apply occurs_at_nil in Hj. destruct Hj; congruence.
      * destruct (IH m l Hl Hc) as (k & Hk & <-). exists (S k). split; [now apply occurs_at_S|reflexivity].
    + assert (Hb : (13 =? c) = false) by (apply Z.eqb_neq; congruence).
      destruct (lines_cr s) as [|l0 ls] eqn:E; [now apply lines_nonempty in E|].
      destruct m as [|m]; cbn [nth_error] in Hl.
      * injection Hl as <-. destruct Hc as ([|j] & Hj).
        -- exists 0%nat. split; [|reflexivity]. apply occurs_at_0, prefixb_spec in Hj. destruct Hj as (t & Ht).
           assert (Hpre : exists r, s = l0 ++ r).
           { clear - E. revert l0 ls E. induction s as [|a s IHs]; intros l0 ls E; cbn [lines_cr] in E.
             - injection E as <- <-. exists []. reflexivity.
             - destruct (a =? 13); [injection E as <- <-; cbn; eauto|].
               destruct (lines_cr s) as [|l1 ls1]; [now injection E as <- <-; exists s|].
               injection E as <- <-. destruct (IHs l1 ls1 eq_refl) as (r & ->). exists r. reflexivity. }
           destruct Hpre as (r & ->). apply occurs_at_0, prefixb_spec. exists (t ++ r).
           rewrite app_assoc, <- Ht. reflexivity.
        -- rewrite occurs_at_S in Hj. destruct (IH 0%nat l0 eq_refl (ex_intro _ j Hj)) as (k & Hk & Hm).
           exists (S k). split; [now apply occurs_at_S|]. cbn [firstn filter]. rewrite Hb. exact Hm.
      * destruct (IH (S m) l Hl Hc) as (k & Hk & Hm). exists (S k). split; [now apply occurs_at_S|].
        cbn [firstn filter]. rewrite Hb. exact Hm.
Qed.
Lemma filter_firstn_mono (f : Z -> bool) s : forall j k, (j <= k)%nat ->
  (length (filter f (firstn j s)) <= length (filter f (firstn k s)))%nat.
Proof.
  induction s as [|c s IH]; intros [|j] [|k] H; cbn [firstn filter length]; try lia.
  specialize (IH j k ltac:(lia)). destruct (f c); cbn [length]; lia.
Qed.
Lemma cr_upto s x k : x <> [] -> forallb (fun c => negb (c =? 13)) x = true -> occurs_at s x k ->
  filter (Z.eqb 13) (firstn (S k) s) = filter (Z.eqb 13) (firstn k s).
Proof.
  intros Hx Hn (a & b & -> & <-). destruct x as [|y x]; [congruence|]. cbn [forallb] in Hn. apply andb_true_iff in Hn.
  destruct Hn as [Hy _]. replace (S (length a)) with (length a + 1)%nat by lia. rewrite firstn_app_2. cbn [app firstn].
  rewrite filter_app, firstn_app, Nat.sub_diag, firstn_all. cbn [firstn filter]. rewrite Z.eqb_sym.
  destruct (y =? 13); [discriminate|]. now rewrite app_nil_r, app_nil_r.
Qed.
Lemma atline_spec x s : x <> [] -> forallb (fun c => negb (c =? 13)) x = true -> contains s x ->
  exists m l, atline x s = Z.of_nat m + 1 /\ nth_error (lines_cr s) m = Some l /\ contains l x /\
    forall j l', (j < m)%nat -> nth_error (lines_cr s) j = Some l' -> ~ contains l' x.
Proof.
  intros Hx Hn (k0 & Hk0). pose proof (find_nat_spec s x) as H. unfold atline, str_find.
  destruct (find_nat s x) as [k|]; [|now apply H in Hk0]. destruct H as [Hk Hmin]. cbn [z_of_find].
  rewrite py_slice_to by lia. rewrite count_cr. replace (Z.to_nat (Z.of_nat k + 1)) with (S k) by lia.
  rewrite (cr_upto s x k Hx Hn Hk). destruct (occurs_line x Hx Hn s k Hk) as (l & Hl & Hc).
  do 2 eexists. split; [reflexivity|]. split; [exact Hl|]. split; [exact Hc|].
  intros j l' Hj Hl' Hc'. destruct (line_occurs x Hx s j l' Hl' Hc') as (k' & Hk' & Hm).
  assert (k <= k')%nat by (destruct (Nat.le_gt_cases k k') as [|G]; [auto|now apply Hmin in G]).
  pose proof (filter_firstn_mono (Z.eqb 13) s k k' ltac:(auto)). lia.
Qed.
Lemma ratline_spec x s : x <> [] -> forallb (fun c => negb (c =? 13)) x = true -> contains s x ->
  exists m l, ratline x s = Z.of_nat m + 1 /\ nth_error (lines_cr s) m = Some l /\ contains l x /\
    forall j l', (m < j)%nat -> nth_error (lines_cr s) j = Some l' -> ~ contains l' x.
Proof.
  intros Hx Hn (k0 & Hk0). pose proof (rfind_nat_spec s x) as H. unfold ratline, str_rfind.
  destruct (rfind_nat s x) as [k|]; [|now apply H in Hk0]. destruct H as [Hk Hmin]. cbn [z_of_find].
  rewrite py_slice_to by lia. rewrite count_cr. replace (Z.to_nat (Z.of_nat k + 1)) with (S k) by lia.
  rewrite (cr_upto s x k Hx Hn Hk). destruct (occurs_line x Hx Hn s k Hk) as (l & Hl & Hc).
  do 2 eexists. split; [reflexivity|]. split; [exact Hl|]. split; [exact Hc|].
  intros j l' Hj Hl' Hc'. destruct (line_occurs x Hx s j l' Hl' Hc') as (k' & Hk' & Hm).
  assert (k' <= k)%nat by (destruct (Nat.le_gt_cases k' k) as [|G]; [auto|now apply Hmin in G]).
  pose proof (filter_firstn_mono (Z.eqb 13) s k' k ltac:(auto)). lia.
Qed.
Lemma atline_absent x s : ~ contains s x -> atline x s = 1 /\ ratline x s = 1.
Proof.
  intros H. unfold atline, ratline, str_find, str_rfind.
  pose proof (find_nat_spec s x) as H1. pose proof (rfind_nat_spec s x) as H2.
  destruct (find_nat s x) as [k|]; [destruct H; exists k; tauto|].
  destruct (rfind_nat s x) as [k|]; [destruct H; exists k; tauto|]. cbn [z_of_find].
  rewrite py_slice_to by lia. split; reflexivity.
Qed.

(** ** LIKE *)
Lemma replace_char_flat c new s : str_replace s [c] new None = flat_map (fun x => if c =? x then new else [x]) s.
Proof.
  unfold str_replace. induction s as [|x s IH]; [reflexivity|].
  cbn [replace_from prefixb flat_map length Nat.sub]. rewrite andb_true_r.
  destruct (c =? x); cbn [option_map]; rewrite IH; reflexivity.
Qed.
Definition like_char (c : Z) : pystr :=
  if c =? 46 then [92; 46] else if c =? 42 then [46; 42] else if c =? 63 then [46] else [c].
Lemma like_pattern_flat p : like_pattern p = flat_map like_char p.
Proof.
  unfold like_pattern. rewrite !replace_char_flat. induction p as [|c p IH]; [reflexivity|].
  cbn [flat_map]. rewrite !flat_map_app, IH. f_equal. unfold like_char.
  rewrite (Z.eqb_sym 46 c). destruct (c =? 46) eqn:E; [reflexivity|]. cbn [flat_map app].
  rewrite (Z.eqb_sym 42 c). destruct (c =? 42) eqn:E2; [reflexivity|]. cbn [flat_map app].
  rewrite (Z.eqb_sym 63 c). destruct (c =? 63) eqn:E3; reflexivity.
Qed.
(** Patterns whose other characters mean nothing to the regular expression engine. *)
Definition plain_char (c : Z) : bool := (c =? 46) || (c =? 42) || (c =? 63) || negb (existsb (Z.eqb c) (u "^$+{}[]\|()")).
Definition like_item (c : Z) : ritem :=
  if c =? 42 then Star else if c =? 63 then AnyChar else Lit c.
Lemma like_char_head c t : plain_char c = true ->
  exists d r, like_char c ++ t = d :: r /\ d <> 42.
Proof.
  intros _. unfold like_char. destruct (c =? 46); [cbn; do 2 eexists; split; [reflexivity|lia]|].
  destruct (c =? 42) eqn:E; [cbn; do 2 eexists; split; [reflexivity|lia]|].
  destruct (c =? 63); cbn; do 2 eexists; (split; [reflexivity|]); [lia|]. apply Z.eqb_neq in E. exact E.
Qed.
Lemma re_parse_like p : forallb plain_char p = true -> re_parse (flat_map like_char p) = Some (map like_item p).
Proof.
  induction p as [|c p IH]; cbn [forallb flat_map map]; [reflexivity|].
  rewrite andb_true_iff. intros [Hc Hp]. specialize (IH Hp). unfold like_char at 1, like_item at 1.
  destruct (c =? 46) eqn:E1.
  { apply Z.eqb_eq in E1. subst c. cbn [app re_parse Z.eqb Pos.eqb]. cbn. rewrite IH. reflexivity. }
  destruct (c =? 42) eqn:E2.
  { cbn [app re_parse Z.eqb Pos.eqb]. cbn. rewrite IH. reflexivity. }
  destruct (c =? 63) eqn:E3.
  { cbn [app]. assert (G : exists t, flat_map like_char p = t /\ (match t with [] => True | d :: _ => d <> 42 end)).
    { destruct p as [|d p]; [exists []; cbn; auto|]. cbn [forallb] in Hp. apply andb_true_iff in Hp.
      cbn [flat_map]. destruct (like_char_head d (flat_map like_char p) (proj1 Hp)) as (x & r & -> & Hx). eauto. }
    destruct G as (t & Et & Ht). rewrite Et in *. destruct t as [|d t].
    - cbn in *. injection IH as <-. reflexivity.
    - cbn [re_parse Z.eqb Pos.eqb]. apply Z.eqb_neq in Ht. cbn [re_parse] in IH |- *.
      change (46 =? 92) with false. change (46 =? 46) with true. cbv iota. rewrite Ht. cbn [re_parse].
      rewrite IH. reflexivity. }
  unfold plain_char in Hc. rewrite E1, E2, E3 in Hc. cbn [orb] in Hc. apply negb_true_iff in Hc.
  cbn [app re_parse]. assert (E92 : (c =? 92) = false).
  { destruct (Z.eqb_spec c 92) as [->|]; [discriminate|reflexivity]. }
  assert (RM : re_meta c = false).
  { unfold re_meta. cbn [existsb]. cbn [u map list_ascii_of_string existsb] in Hc. rewrite E1, E2, E3. rewrite !orb_false_iff in Hc. repeat match goal with H : _ /\ _ |- _ => destruct H end. cbn [orb]. repeat (apply orb_false_iff; split); first [reflexivity | assumption | exact E92]. }
  rewrite E92, E1, RM, IH. reflexivity.
Qed.
Definition no_newline (s : pystr) : bool := forallb (fun c => negb (c =? 10)) s.
Lemma wild_star_app p s : wild p s -> forall t, wild (42 :: p) (t ++ s).
Proof. intros H. induction t as [|x t IH]; cbn [app]; [now apply W_star_stop|now apply W_star_take]. Qed.
Lemma re_match_wild p : forall s, no_newline s = true ->
  (re_match (map like_item p) s = true <-> exists k, wild p (firstn k s)).
Proof.
  induction p as [|c p IH]; intros s Hs.
  - cbn. split; [|auto]. intros _. exists 0%nat. constructor.
  - cbn [map]. unfold like_item at 1. destruct (Z.eqb_spec c 42) as [->|H42].
    + cbn [re_match]. induction s as [|x s IHs].
      * rewrite orb_false_r, IH by reflexivity. split.
        -- intros (k & Hk). exists k. now apply W_star_stop.
        -- intros (k & Hk). exists k. rewrite firstn_nil in *. inversion Hk; subst; congruence || assumption.
      * cbn [no_newline forallb] in Hs. apply andb_true_iff in Hs. destruct Hs as [Hx Hs].
        rewrite orb_true_iff, andb_true_iff, (IHs Hs).
        rewrite IH by (cbn [no_newline forallb]; now rewrite Hx, Hs). split.
        -- intros [(k & Hk)|[_ (k & Hk)]].
           ++ exists k. now apply W_star_stop.
           ++ exists (S k). cbn [firstn]. now apply W_star_take.
        -- intros (k & Hk). inversion Hk as [|p' s' Hw|p' y s' Hw E|p' y s' Hw|c' p' s' Hc1 Hc2 Hw]; subst.
           ++ left. eauto.
           ++ right. split; [exact Hx|]. destruct k as [|k]; [discriminate|]. cbn [firstn] in *.
              match goal with E : _ :: _ = _ :: _ |- _ => injection E as -> -> end. eauto.
           ++ congruence.
    + destruct (Z.eqb_spec c 63) as [->|H63].
      * cbn [re_match]. destruct s as [|x s].
        -- split; [discriminate|]. intros (k & Hk). rewrite firstn_nil in Hk. inversion Hk; congruence.
        -- cbn [no_newline forallb] in Hs. apply andb_true_iff in Hs. destruct Hs as [Hx Hs].
           rewrite Hx. cbn [andb]. rewrite (IH s Hs). split.
           ++ intros (k & Hk). exists (S k). cbn [firstn]. now apply W_any.
           ++ intros ([|k] & Hk); cbn [firstn] in Hk; inversion Hk; subst; eauto; congruence.
      * cbn [re_match]. destruct s as [|x s].
        -- split; [discriminate|]. intros (k & Hk). rewrite firstn_nil in Hk. inversion Hk; congruence.
        -- cbn [no_newline forallb] in Hs. apply andb_true_iff in Hs. destruct Hs as [Hx Hs].
           rewrite andb_true_iff, Z.eqb_eq, (IH s Hs). split.
           ++ intros [-> (k & Hk)]. exists (S k). cbn [firstn]. now apply W_lit.
           ++ intros ([|k] & Hk); cbn [firstn] in Hk; inversion Hk; subst; try congruence; eauto.
Qed.
Lemma like_spec p s : forallb plain_char p = true -> no_newline s = true ->
  exists b, like p s = Some b /\ (b = true <-> exists k, wild p (firstn k s)).
Proof.
  intros Hp Hs. unfold like. rewrite like_pattern_flat, (re_parse_like p Hp). cbn [option_map].
  eexists; split; [reflexivity|]. apply re_match_wild, Hs.
Qed.

(** ** STREXTRACT *)
Lemma match_lit_prefix p : forall s, match_lit false p s = if prefixb p s then Some (p, skipn (length p) s) else None.
Proof.
  induction p as [|a p IH]; intros s; cbn [match_lit prefixb length skipn]; [reflexivity|].
  destruct s as [|b s]; [reflexivity|]. cbn [char_eq]. rewrite IH. destruct (Z.eqb_spec a b) as [->|]; cbn [andb]; [|reflexivity].
  destruct (prefixb p s); reflexivity.
Qed.
Lemma first_occurrence_cons c s x pre post : prefixb x (c :: s) = false -> first_occurrence s x pre post ->
  first_occurrence (c :: s) x (c :: pre) post.
Proof.
  intros Hp [-> H]. split; [reflexivity|]. intros [|k] Hk Ho.
  - apply occurs_at_0 in Ho. congruence.
  - apply (H k); [cbn in Hk; lia|]. now rewrite occurs_at_S in Ho.
Qed.
Lemma match_lazy_spec e s : e <> [] -> no_newline s = true -> match match_lazy false e s with
  | Some (mid, me, post) => me = e /\ first_occurrence s e mid post
  | None => forall k, ~ occurs_at s e k
  end.
Proof.
  intros He. induction s as [|c s IH]; intros Hs; cbn [match_lazy]; rewrite match_lit_prefix.
  - destruct (prefixb e []) eqn:E; [destruct e; [congruence|discriminate]|].
    intros k Hk. apply occurs_at_nil in Hk. tauto.
  - destruct (prefixb e (c :: s)) eqn:E.
    + split; [reflexivity|]. apply prefixb_spec in E. destruct E as (t & ->). split.
      * cbn [app]. f_equal. rewrite skipn_app, skipn_all, Nat.sub_diag. reflexivity.
      * cbn. lia.
    + cbn [no_newline forallb] in Hs. apply andb_true_iff in Hs. destruct Hs as [Hc Hs].
      destruct (c =? 10); [discriminate|]. specialize (IH Hs). destruct (match_lazy false e s) as [[[mid me] post]|]; cbn [option_map].
      * destruct IH as [-> IH]. split; [reflexivity|]. now apply first_occurrence_cons.
      * intros [|k] Hk; [apply occurs_at_0 in Hk; congruence|]. rewrite occurs_at_S in Hk. apply (IH k Hk).
Qed.
Lemma no_newline_app a b : no_newline (a ++ b) = no_newline a && no_newline b.
Proof. apply forallb_app. Qed.
Lemma match_here_end ci b e s : e <> [] -> match_here ci b e s =
  match match_lit ci b s with
  | None => None
  | Some (mb, r) => option_map (fun '(x, me, r') => (mb, x, me, r')) (match_lazy ci e r)
  end.
Proof. intros He. unfold match_here. destruct e; [congruence|reflexivity]. Qed.
Lemma re_search_spec b e s : e <> [] -> no_newline s = true -> match re_search false b e s with
  | Some (mb, mid, me, post) => between_first b e s mid post
  | None => forall mid post, ~ between_first b e s mid post
  end.
Proof.
  intros He. induction s as [|c s IH]; intros Hs.
  - cbn [re_search]. rewrite match_here_end, match_lit_prefix by exact He. destruct (prefixb b []) eqn:E.
    + pose proof (match_lazy_spec e (skipn (length b) []) He) as H. rewrite skipn_nil in *.
      specialize (H eq_refl). destruct (match_lazy false e []) as [[[mid me] post]|]; cbn [option_map].
      * destruct H as [_ [H _]]. symmetry in H. apply app_eq_nil in H. destruct H as [_ H]. apply app_eq_nil in H. destruct H; congruence.
      * intros mid post (pre & rest & [E1 _] & H2). symmetry in E1. apply app_eq_nil in E1. destruct E1 as [_ E1].
        apply app_eq_nil in E1. destruct E1 as [_ ->]. apply (H _ (first_occurs _ _ _ _ H2)).
    + intros mid post (pre & rest & H1 & _). apply first_occurs, occurs_at_nil in H1. destruct H1 as [-> _]. discriminate.
  - cbn [re_search]. rewrite match_here_end, match_lit_prefix by exact He. destruct (prefixb b (c :: s)) eqn:E.
    + apply prefixb_spec in E. destruct E as (t & E). rewrite E, skipn_app, skipn_all, Nat.sub_diag. cbn [skipn app].
      assert (Ht : no_newline t = true) by (rewrite E, no_newline_app in Hs; apply andb_true_iff in Hs; tauto).
      assert (Hf : first_occurrence (b ++ t) b [] t) by (split; [reflexivity|cbn; lia]).
      pose proof (match_lazy_spec e t He Ht) as H. destruct (match_lazy false e t) as [[[mid me] post]|]; cbn [option_map].
      * exists [], t. split; [exact Hf|tauto].
      * (* no end delimiter behind the first begin: nor behind any later one *)
        assert (G : forall mid post, ~ between_first b e (b ++ t) mid post).
        { intros mid post (pre & rest & H1 & H2).
          destruct (first_occurrence_unique _ _ _ _ _ _ H1 Hf) as [-> ->]. apply (H _ (first_occurs _ _ _ _ H2)). }
        assert (Gs : forall mb mid me post, re_search false b e s <> Some (mb, mid, me, post)).
        { intros mb mid me post Hr. assert (Hs' : no_newline s = true) by (cbn in Hs; apply andb_true_iff in Hs; tauto).
          specialize (IH Hs'). rewrite Hr in IH. destruct IH as (pre & rest & [H1 _] & [H2 _]).
          (* e occurs in s behind an occurrence of b, hence in t *)
          assert (Hlen : (length b <= length (c :: pre ++ b))%nat) by (cbn; rewrite app_length; lia).
          assert (Et : exists z, t = z ++ rest).
          { rewrite H1 in E. clear - E Hlen. 
            assert (E' : (c :: pre ++ b) ++ rest = b ++ t) by (cbn; rewrite <- app_assoc; exact E).
            revert Hlen E'. generalize (c :: pre ++ b) as y. clear. induction b as [|q b IHb]; intros y Hlen E'.
            - exists y. cbn in E'. congruence.
            - destruct y as [|q' y]; [cbn in Hlen; lia|]. cbn in E'. injection E' as -> E'. apply (IHb y); [cbn in Hlen; lia|exact E']. }
          destruct Et as (z & ->). apply (H (length z + length mid)%nat). apply occurs_app_r. exists mid, post. auto. }
        destruct (re_search false b e s) as [[[[mb mid] me] post]|]; [now destruct (Gs mb mid me post)|exact G].
    + assert (Hs' : no_newline s = true) by (cbn in Hs; apply andb_true_iff in Hs; tauto). specialize (IH Hs').
      destruct (re_search false b e s) as [[[[mb mid] me] post]|].
      * destruct IH as (pre & rest & H1 & H2). exists (c :: pre), rest. split; [now apply first_occurrence_cons|exact H2].
      * intros mid post (pre & rest & [H1 H1'] & H2). destruct pre as [|d pre].
        -- cbn in H1. rewrite H1, prefixb_app in E. discriminate.
        -- cbn in H1. injection H1 as -> H1. apply (IH mid post). exists pre, rest. split; [|exact H2].
           split; [exact H1|]. intros k Hk Ho. apply (H1' (S k)); [cbn; lia|]. now apply occurs_at_S.
Qed.
Lemma between_first_rest b e s mid post : between_first b e s mid post -> e <> [] ->
  exists q, s = q ++ post /\ (length post < length s)%nat.
Proof.
  intros (pre & rest & [-> _] & [-> _]) He. exists (pre ++ b ++ mid ++ e). rewrite <- !app_assoc. split; [reflexivity|].
  rewrite !app_length. destruct e; [congruence|]. cbn [length]. lia.
Qed.
Lemma between_first_unique b e s m1 p1 m2 p2 : between_first b e s m1 p1 -> between_first b e s m2 p2 -> m1 = m2 /\ p1 = p2.
Proof.
  intros (pre & rest & A1 & A2) (pre' & rest' & B1 & B2).
  destruct (first_occurrence_unique _ _ _ _ _ _ A1 B1) as [-> ->]. apply (first_occurrence_unique _ _ _ _ _ _ A2 B2).
Qed.
Lemma extract_pair_inv b e n s mid : extract_pair b e (S n) s mid ->
  match n with
  | O => exists post, between_first b e s mid post
  | S _ => exists mid0 post, between_first b e s mid0 post /\ extract_pair b e n post mid
  end.
Proof.
  intros H. inversion H as [s' mid' post Hb|n' s' mid0 post mid' Hb Hp]; subst; [eauto|].
  destruct n as [|n]; [inversion Hp|]. eauto.
Qed.
Lemma findall_spec b e : e <> [] -> forall fuel s n mid, no_newline s = true -> (length s < fuel)%nat ->
  (nth_error (findall fuel false false b e s) n = Some mid <-> extract_pair b e (S n) s mid).
Proof.
  intros He. induction fuel as [|f IH]; intros s n mid Hs Hf; [lia|]. cbn [findall].
  pose proof (re_search_spec b e s He Hs) as H. destruct (re_search false b e s) as [[[[mb mid1] me] post]|].
  - destruct (between_first_rest _ _ _ _ _ H He) as (q & Eq & Hl).
    assert (Hp : no_newline post = true) by (rewrite Eq, no_newline_app in Hs; apply andb_true_iff in Hs; tauto).
    destruct n as [|n]; cbn [nth_error].
    + split.
      * intros [= <-]. eapply EP_one, H.
      * intros He1. apply extract_pair_inv in He1. destruct He1 as (post' & Hb).
        destruct (between_first_unique _ _ _ _ _ _ _ H Hb) as [-> _]. reflexivity.
    + rewrite IH by (auto; lia). split.
      * intros Hx. eapply EP_more; eauto.
      * intros Hx. apply extract_pair_inv in Hx. destruct Hx as (m0 & p0 & Hb & Hx).
        destruct (between_first_unique _ _ _ _ _ _ _ H Hb) as [_ ->]. exact Hx.
  - split; [destruct n; discriminate|]. intros Hx. apply extract_pair_inv in Hx. destruct n.
    + destruct Hx as (post & Hx). now apply H in Hx.
    + destruct Hx as (m0 & p0 & Hx & _). now apply H in Hx.
Qed.
Lemma strextract_spec s b e n : e <> [] -> no_newline s = true -> 1 <= n ->
  (forall mid, extract_pair b e (Z.to_nat n) s mid -> strextract s b e n 0 = mid) /\
  ((forall mid, ~ extract_pair b e (Z.to_nat n) s mid) -> strextract s b e n 0 = []).
Proof.
  intros He Hs Hn. unfold strextract, strextract_matches. change (Z.testbit 0 0) with false. change (Z.testbit 0 1) with false.
  change (Z.testbit 0 2) with false.
  replace (Z.to_nat n) with (S (Z.to_nat (n - 1))) by lia.
  rewrite py_nth_nth_error by lia.
  pose proof (findall_spec b e He (S (length s)) s (Z.to_nat (n - 1))) as H. split.
  - intros mid Hm. apply H in Hm; [|exact Hs|lia]. rewrite Hm. reflexivity.
  - intros Hm. destruct (nth_error _ _) as [t|] eqn:E.
    + destruct (Hm t). apply H; auto with arith.
    + destruct e; reflexivity.
Qed.

(** ** STR *)
Lemma str_fn_length num len dec_ r : 0 <= len -> str_fn num len dec_ = Ok r -> zlen r = len.
Proof.
  intros Hl. unfold str_fn. match goal with |- rbind ?x _ = _ -> _ => destruct x as [s|] end; cbn [rbind]; [|discriminate].
  intros [= <-]. destruct (Z.eqb_spec (zlen (str_rjust s len)) len) as [E|_]; [exact E|].
  unfold zlen. rewrite py_repeat_length. lia.
Qed.
Lemma str_fn_total num len d : (0 <= num \/ zlen (format_fixed num d) <= len) -> exists r, str_fn num len d = Ok r.
Proof.
  intros H. unfold str_fn. destruct (Z.ltb_spec len (zlen (format_fixed num d))); cbn [andb rbind]; [|eauto].
  destruct (_ <=? len); cbn [rbind]; [eauto|]. destruct (len <=? _); cbn [rbind]; [|eauto].
  destruct (Z.ltb_spec num 0); [lia|]. destruct (sci_groups num) as [[[g0 g1] g2] g3]. cbn [rbind]. eauto.
Qed.
Lemma str_fn_fits num len d : zlen (format_fixed num d) <= len ->
  str_fn num len d = Ok (py_repeat 32 (len - zlen (format_fixed num d)) ++ format_fixed num d).
Proof.
  intros H. unfold str_fn. destruct (Z.ltb_spec len (zlen (format_fixed num d))); [lia|]. cbn [andb rbind].
  pose proof (str_rjust_length (format_fixed num d) len). rewrite Z.max_l in * by lia.
  destruct (Z.eqb_spec (zlen (str_rjust (format_fixed num d) len)) len); [reflexivity|congruence].
Qed.
Lemma str_fn_negative num len : num < 0 -> len < zlen (dec num) -> str_fn num len 0 = Err AttributeError.
Proof.
  intros Hn Hl. unfold str_fn, format_fixed. cbn [Z.ltb Z.compare]. rewrite app_nil_r.
  destruct (Z.ltb_spec len (zlen (dec num))); [|lia]. cbn [andb].
  destruct (Z.leb_spec (zlen (dec num) - (0 - 1)) len); [lia|].
  destruct (Z.leb_spec len (zlen (dec num))); [|lia]. destruct (Z.ltb_spec num 0); [reflexivity|lia].
Qed.
Lemma dec_sign n : dec n = if n <? 0 then 45 :: dec_nat (Z.abs n) else dec_nat (Z.abs n).
Proof. unfold dec. destruct (Z.ltb_spec n 0); [now rewrite Z.abs_neq by lia|now rewrite Z.abs_eq by lia]. Qed.
(** right-aligned numeral *)
Definition shows_number (r : pystr) (n : Z) (frac : pystr) : Prop :=
  exists k body, r = repeat 32 k ++ (if n <? 0 then 45 :: body else body) ++ frac /\
    body <> [] /\ forallb is_digit body = true /\ digits_value body = Z.abs n.
Lemma shows_dec k n frac : shows_number (repeat 32 k ++ dec n ++ frac) n frac.
Proof.
  exists k, (dec_nat (Z.abs n)). destruct (dec_nat_spec (Z.abs n)) as (H1 & H2 & H3); [lia|].
  rewrite <- dec_sign. auto.
Qed.
Lemma str_fn_shows n len : zlen (dec n) <= len ->
  exists r, str_fn n len 0 = Ok r /\ zlen r = len /\ shows_number r n [].
Proof.
  intros H. assert (E : format_fixed n 0 = dec n) by (unfold format_fixed; cbn; apply app_nil_r).
  eexists. split; [apply str_fn_fits; rewrite E; exact H|]. pose proof (zlen_nonneg (dec n)). split.
  - apply (str_fn_length n len 0); [lia|]. apply str_fn_fits. rewrite E. exact H.
  - rewrite E. unfold py_repeat. rewrite <- (app_nil_r (dec n)) at 2. apply shows_dec.
Qed.
(** with decimals: all of them, or the leading ones, or none, as the width allows *)
Lemma py_repeat_0 {A} (a : A) : py_repeat a 0 = [].
Proof. reflexivity. Qed.
Lemma str_fn_decimals_shows n len d : 1 <= d -> zlen (dec n) + 1 <= len ->
  exists r j, str_fn n len d = Ok r /\ zlen r = len /\ 0 <= j <= d /\
    shows_number r n (if 0 <? j then 46 :: py_repeat 48 j else []) /\
    j = (if zlen (dec n) + 1 + d <=? len then d else len - zlen (dec n) - 1).
Proof.
  intros Hd Hl. pose proof (zlen_nonneg (dec n)) as H0.
  assert (E : format_fixed n d = dec n ++ 46 :: py_repeat 48 d).
  { unfold format_fixed. destruct (Z.ltb_spec 0 d); [reflexivity|lia]. }
  assert (El : zlen (format_fixed n d) = zlen (dec n) + 1 + d).
  { rewrite E. unfold zlen. rewrite app_length. cbn [length]. rewrite py_repeat_length. lia. }
  destruct (Z.leb_spec (zlen (dec n) + 1 + d) len) as [Hfit|Hno].
  - do 2 eexists. split; [apply str_fn_fits; lia|]. split; [apply (str_fn_length n len d); [lia|apply str_fn_fits; lia]|].
    split; [|split; [|reflexivity]]; [lia|]. destruct (Z.ltb_spec 0 d); [|lia]. rewrite E. unfold py_repeat at 1. apply shows_dec.
  - destruct (Z.leb_spec (zlen (dec n) + 2) len) as [H2|H2].
    + set (j := len - zlen (dec n) - 1) in *.
      assert (R : str_fn n len d = Ok (repeat 32 0 ++ dec n ++ 46 :: py_repeat 48 j)).
      { unfold str_fn. rewrite El. destruct (Z.ltb_spec len (zlen (dec n) + 1 + d)); [|lia].
        destruct (Z.leb_spec (zlen (dec n) + 1 + d - (d - 1)) len); [|lia]. cbn [andb rbind].
        assert (Es : py_slice (format_fixed n d) None (Some len) = dec n ++ 46 :: py_repeat 48 j).
        { rewrite py_slice_to, E by lia. rewrite firstn_app. rewrite firstn_all2 by (unfold zlen in *; lia).
          f_equal. replace (Z.to_nat len - length (dec n))%nat with (S (Z.to_nat j)) by (unfold zlen in *; lia).
          cbn [firstn]. f_equal. unfold py_repeat.
          replace (Z.to_nat d) with (Z.to_nat j + (Z.to_nat (d - j)))%nat by lia.
          rewrite repeat_app, firstn_app, repeat_length, Nat.sub_diag. cbn [firstn]. rewrite app_nil_r.
          apply firstn_all2. now rewrite repeat_length. }
        rewrite Es. set (x := dec n ++ 46 :: py_repeat 48 j).
        assert (Ex : zlen x = len) by (unfold x, zlen in *; rewrite app_length; cbn [length]; rewrite py_repeat_length; lia).
        unfold str_rjust. rewrite Ex, Z.sub_diag. cbn [py_repeat Z.to_nat repeat app]. rewrite Ex, Z.eqb_refl. reflexivity. }
      exists (repeat 32 0 ++ dec n ++ 46 :: py_repeat 48 j), j. split; [exact R|].
      split; [apply (str_fn_length n len d); [lia|exact R]|]. split; [lia|]. split; [|reflexivity].
      destruct (Z.ltb_spec 0 j); [apply shows_dec|lia].
    + assert (len = zlen (dec n) + 1) by lia.
      assert (R : str_fn n len d = Ok (repeat 32 1 ++ dec n ++ [])).
      { unfold str_fn. rewrite El. destruct (Z.ltb_spec len (zlen (dec n) + 1 + d)); [|lia].
        destruct (Z.leb_spec (zlen (dec n) + 1 + d - (d - 1)) len); [lia|]. cbn [andb].
        destruct (Z.leb_spec len (zlen (dec n))); [lia|]. cbn [rbind].
        pose proof (str_rjust_length (dec n) len) as G. rewrite Z.max_l in G by lia. rewrite G, Z.eqb_refl.
        unfold str_rjust. replace (len - zlen (dec n)) with 1 by lia. now rewrite app_nil_r. }
      exists (repeat 32 1 ++ dec n ++ []), 0. split; [exact R|]. split; [apply (str_fn_length n len d); [lia|exact R]|].
      split; [lia|]. split; [apply shows_dec|]. lia.
Qed.
