(** Property theorems C11 - C18 and C56: the string functions of the runtime. *)
From Verif Require Import PyBase PyStr M_Strings S_Strings P_Strings P_StrSci.
Open Scope res_scope.

(** C11: a is kept, b (the replaced slice) gives way to t, c is kept. *)
Theorem C11_stuff_slice :
  forall (a b c t : pystr), stuff (a ++ b ++ c) (zlen a + 1) (zlen b) t = a ++ t ++ c.
Proof. intros. now apply stuff_split. Qed.
Print Assumptions C11_stuff_slice.
(** C11: a slice that reaches beyond the end is cut at the end. *)
Theorem C11_stuff_to_end :
  forall (a b t : pystr) (k : Z), zlen b <= k -> stuff (a ++ b) (zlen a + 1) k t = a ++ t.
Proof. intros. now apply stuff_beyond. Qed.
Print Assumptions C11_stuff_to_end.
Example C11_example : stuff (u "abcdef") 3 2 (u "XYZ") = u "abXYZef" /\ stuff (u "abc") 2 9 (u "-") = u "a-".
Proof. vm_compute. auto. Qed.

(** C12: when every character of the text that is to be replaced has a counterpart the result is FoxPro's ... *)
Theorem C12_chrtran_partial :
  forall (text from to : pystr),
  (forall c k, In c text -> first_pos from c 0 = Some k -> exists d, nth_error to k = Some d) ->
  chrtran text from to = Ok (chrtran_spec text from to).
Proof.
  intros text from to H. apply chrtran_ok. intros (c & k & Hin & H1 & H2). destruct (H c k Hin H1) as (d & Hd). congruence.
Qed.
Print Assumptions C12_chrtran_partial.
(** ... in particular for replacement lists at least as long as the search list ... *)
Theorem C12_chrtran_full_lists_partial :
  forall (text from to : pystr), zlen from <= zlen to -> chrtran text from to = Ok (chrtran_spec text from to).
Proof. intros. apply chrtran_ok. now apply no_gap_if_long. Qed.
Print Assumptions C12_chrtran_full_lists_partial.
(** ... and where FoxPro deletes a character the function always raises IndexError. *)
Theorem C12_chrtran_deletion_refuted :
  (forall (text from to : pystr) c k, In c text -> first_pos from c 0 = Some k -> nth_error to k = None ->
     chrtran text from to = Err IndexError) /\
  chrtran_spec (u "a-b") (u "-") [] = u "ab" /\ chrtran (u "a-b") (u "-") [] = Err IndexError.
Proof.
  split; [|split; reflexivity]. intros text from to c k Hin H1 H2. apply chrtran_gap. exists c, k. auto.
Qed.
Print Assumptions C12_chrtran_deletion_refuted.
Example C12_example : chrtran (u "banana") (u "anan") (u "ox12") = Ok (u "boxoxo").
Proof. reflexivity. Qed.

(** C13: exactly the occurrences start+1 .. start+n are replaced (the relation determines the result). *)
Theorem C13_strtran_after_start_partial :
  forall (s old new : pystr) (start : Z) (maxr : option Z) (r : pystr),
  old <> [] -> 0 <= start ->
  (strtran s old new start maxr = r <-> strtran_rel old new (Z.to_nat start) (limit_of maxr) s r).
Proof.
  intros s old new start maxr r Ho Hs. split.
  - intros <-. now apply strtran_spec.
  - intros Hr. eapply strtran_rel_unique; [apply strtran_spec, Ho|exact Hr].
Qed.
Print Assumptions C13_strtran_after_start_partial.
(** C13: FoxPro replaces from occurrence number start on; the function keeps that occurrence. *)
Theorem C13_start_occurrence_refuted :
  exists s old new r, old <> [] /\ strtran_rel old new (2 - 1) None s r /\ strtran s old new 2 None <> r.
Proof.
  exists (u "aaa"), (u "a"), (u "b"), (u "abb"). split; [discriminate|]. split; [|discriminate].
  pose proof (strtran_spec (u "aaa") (u "a") (u "b") 1 None ltac:(discriminate)) as H. exact H.
Qed.
Print Assumptions C13_start_occurrence_refuted.
Example C13_example : strtran (u "one two one two one") (u "one") (u "1") 1 (Some 1) = u "one two 1 two one" /\
  strtran (u "aaaa") (u "aa") (u "b") 0 None = u "bb".
Proof. vm_compute. auto. Qed.

(** C14: for the default delimiters and for a one-character delimiter the words are the maximal runs of other characters,
    GETWORDCOUNT is their number and GETWORDNUM enumerates them. *)
Theorem C14_words_partial :
  forall (s : pystr) (delim : option pystr) (sep : Z -> bool) (ws : list pystr),
  sep_of delim = Some sep -> words_of sep s ws ->
  getwordcount s delim = Ok (zlen ws) /\
  (forall k w, nth_error ws k = Some w -> getwordnum s (Z.of_nat k + 1) delim = Ok w) /\
  (forall k, k < 0 \/ zlen ws < k -> getwordnum s k delim = Ok []).
Proof.
  intros s delim sep ws Hd Hw. destruct (getwords_spec s delim sep Hd) as (ws' & E & Hw').
  assert (ws' = ws) by (eapply words_of_unique; eauto). subst ws'. unfold getwordcount, getwordnum. rewrite E.
  cbn [rmap rbind]. split; [reflexivity|]. split.
  - intros k w Hk. assert (k < length ws)%nat by (apply nth_error_Some; congruence).
    destruct (Z.leb_spec 0 (Z.of_nat k + 1)); [|lia]. destruct (Z.leb_spec (Z.of_nat k + 1) (zlen ws)); [|unfold zlen in *; lia].
    cbn [andb]. rewrite py_nth_nth_error by lia. replace (Z.to_nat (Z.of_nat k + 1 - 1)) with k by lia. now rewrite Hk.
  - intros k Hk. destruct (Z.leb_spec 0 k), (Z.leb_spec k (zlen ws)); cbn [andb]; try reflexivity; lia.
Qed.
Print Assumptions C14_words_partial.
(** C14: every text has such a word list. *)
Theorem C14_words_exist :
  forall (s : pystr) (delim : option pystr) (sep : Z -> bool), sep_of delim = Some sep -> exists ws, words_of sep s ws.
Proof. intros s delim sep Hd. destruct (getwords_spec s delim sep Hd) as (ws & _ & H). eauto. Qed.
Print Assumptions C14_words_exist.
Example C14_example : words_of is_space (u "  the quick  fox ") [u "the"; u "quick"; u "fox"].
Proof.
  change (u "  the quick  fox ") with (u "  " ++ u "the" ++ u " " ++ u "quick" ++ u "  " ++ u "fox" ++ u " ").
  constructor; try reflexivity; try discriminate.
  constructor; try reflexivity; try discriminate.
  constructor; try reflexivity; try discriminate. constructor. reflexivity.
Qed.
(** C14: word number 0 is the last word instead of the empty string, and IndexError when there are no words. *)
Theorem C14_word_zero_refuted :
  getwordnum (u "a b") 0 None = Ok (u "b") /\ getwordnum (u "  ") 0 None = Err IndexError.
Proof. split; reflexivity. Qed.
Print Assumptions C14_word_zero_refuted.
(** C14: several delimiter characters are taken as one separator text. *)
Theorem C14_delimiter_set_refuted :
  exists s ws, words_of (fun c => existsb (Z.eqb c) (u ",;")) s ws /\ zlen ws = 3 /\ getwordcount s (Some (u ",;")) = Ok 1.
Proof.
  exists (u "a,b;c"), [u "a"; u "b"; u "c"]. split; [|split; reflexivity].
  change (u "a,b;c") with ([] ++ u "a" ++ u "," ++ u "b" ++ u ";" ++ u "c" ++ []).
  constructor; try reflexivity; try discriminate.
  constructor; try reflexivity; try discriminate.
  constructor; try reflexivity; try discriminate. constructor. reflexivity.
Qed.
Print Assumptions C14_delimiter_set_refuted.

(** C15: in a text without line feeds the first occurrence is FoxPro's: the text between the first begin delimiter and the
    first end delimiter behind it, '' if there is none. *)
Theorem C15_first_occurrence_partial :
  forall (s b e : pystr), e <> [] -> no_newline s = true ->
  (forall mid post, between_first b e s mid post -> strextract s b e 1 0 = mid) /\
  ((forall mid post, ~ between_first b e s mid post) -> strextract s b e 1 0 = []).
Proof.
  intros s b e He Hs. destruct (strextract_spec s b e 1 He Hs ltac:(lia)) as [H1 H2]. split.
  - intros mid post Hm. apply H1. eapply EP_one, Hm.
  - intros Hn. apply H2. intros mid Hm. apply (extract_pair_inv b e 0) in Hm. destruct Hm as (post & Hm). now apply Hn in Hm.
Qed.
Print Assumptions C15_first_occurrence_partial.
(** C15: occurrence n is the n-th begin/end pair, pairs taken one after the other. *)
Theorem C15_nth_pair_partial :
  forall (s b e : pystr) (n : Z), e <> [] -> no_newline s = true -> 1 <= n ->
  (forall mid, extract_pair b e (Z.to_nat n) s mid -> strextract s b e n 0 = mid) /\
  ((forall mid, ~ extract_pair b e (Z.to_nat n) s mid) -> strextract s b e n 0 = []).
Proof. exact strextract_spec. Qed.
Print Assumptions C15_nth_pair_partial.
Example C15_example : strextract (u "a<b>c<d>e") (u "<") (u ">") 2 0 = u "d" /\
  extract_pair (u "<") (u ">") 2 (u "a<b>c<d>e") (u "d").
Proof.
  split; [reflexivity|]. apply (findall_spec (u "<") (u ">") ltac:(discriminate) 20 (u "a<b>c<d>e") 1 (u "d"));
    vm_compute; try reflexivity; lia.
Qed.
Lemma first_occurrence_intro s x k : find_nat s x = Some k ->
  first_occurrence s x (firstn k s) (skipn (k + length x) s).
Proof.
  intros E. pose proof (first_occurrence_find s x) as H. rewrite E in H. destruct H as (pre & post & H & <-).
  pose proof H as [Es _].
  assert (E1 : firstn (length pre) s = pre).
  { rewrite Es, firstn_app, Nat.sub_diag, firstn_all. cbn. apply app_nil_r. }
  assert (E2 : skipn (length pre + length x) s = post).
  { rewrite Es, app_assoc, <- app_length, skipn_app, skipn_all, Nat.sub_diag. reflexivity. }
  rewrite E1, E2. exact H.
Qed.
(** C15: the n-th begin delimiter is not found when it lies before or at the end delimiter of an earlier one. *)
Theorem C15_nth_begin_refuted :
  exists s b e mid, no_newline s = true /\ extract_nth b e 2 s mid /\ strextract s b e 2 0 <> mid.
Proof.
  exists (u "aXaYa"), (u "a"), (u "a"), (u "Y"). split; [reflexivity|]. split; [|discriminate].
  eapply EN_more; [apply (first_occurrence_intro _ _ 0); reflexivity|]. cbn [length Nat.add skipn].
  eapply EN_one. exists (u "X"), (u "Ya"). split.
  - apply (first_occurrence_intro (u "XaYa") (u "a") 1). reflexivity.
  - apply (first_occurrence_intro (u "Ya") (u "a") 1). reflexivity.
Qed.
Print Assumptions C15_nth_begin_refuted.
(** C15: without an end delimiter the first occurrence is everything behind the first begin delimiter, again in a text without line
    feeds; ... *)
Lemma greedy_all s : no_newline s = true -> match_greedy s = (s, []).
Proof.
  induction s as [|c s IH]; intros H; [reflexivity|]. cbn [no_newline forallb] in H. apply andb_prop in H as [Hc Hs]. cbn [match_greedy].
  rewrite negb_true_iff in Hc. rewrite Hc, (IH Hs). reflexivity.
Qed.
Lemma no_newline_skip s : forall k, no_newline s = true -> no_newline (skipn k s) = true.
Proof. induction s as [|c s IH]; intros [|k] H; try exact H. cbn [skipn]. apply IH. cbn [no_newline forallb] in H. now apply andb_prop in H. Qed.
Lemma search_open b s : no_newline s = true ->
  re_search false b [] s = option_map (fun k => (b, skipn (k + length b) s, [], [])) (find_nat s b).
Proof.
  induction s as [|c s IH]; intros Hs; cbn [re_search find_nat]; unfold match_here; rewrite match_lit_prefix; destruct (prefixb b _) eqn:E.
  - rewrite greedy_all by (apply no_newline_skip, Hs). reflexivity.
  - reflexivity.
  - rewrite greedy_all by (apply no_newline_skip, Hs). reflexivity.
  - rewrite IH by (cbn [no_newline forallb] in Hs; now apply andb_prop in Hs). destruct (find_nat s b); reflexivity.
Qed.
Theorem C15_no_end_partial :
  forall (s b : pystr), b <> [] -> no_newline s = true ->
  (forall pre rest, first_occurrence s b pre rest -> strextract s b [] 1 0 = rest) /\
  ((forall k, ~ occurs_at s b k) -> strextract s b [] 1 0 = []).
Proof.
  intros s b Hb Hs. unfold strextract, strextract_matches. change (Z.testbit 0 0) with false. change (Z.testbit 0 2) with false.
  cbn [findall]. rewrite (search_open b s Hs). pose proof (first_occurrence_find s b) as F. split.
  - intros pre rest [Ep Hp]. destruct (find_nat s b) as [k|]; cbn [option_map].
    + destruct F as (pre' & post & [E Hf] & <-). assert (length pre' = length pre) as L.
      { destruct (Nat.lt_trichotomy (length pre) (length pre')) as [H|[H|H]]; [|congruence|]; exfalso.
        - apply (Hf (length pre) H). exists pre, rest. split; [exact Ep|reflexivity].
        - apply (Hp (length pre') H). exists pre', post. split; [exact E|reflexivity]. }
      rewrite L. rewrite Ep, app_assoc, <- app_length, skipn_app, skipn_all, Nat.sub_diag. cbn [app skipn]. reflexivity.
    + exfalso. apply (F (length pre)). exists pre, rest. split; [exact Ep|reflexivity].
  - intros N. destruct (find_nat s b) as [k|]; [|reflexivity]. destruct F as (pre & post & [E _] & _). exfalso. apply (N (length pre)). exists pre, post. split; [exact E|reflexivity].
Qed.
Print Assumptions C15_no_end_partial.
Example C15_no_end_example : strextract (u "key=val=x") (u "=") [] 1 0 = u "val=x".
Proof. reflexivity. Qed.
(** ... every further occurrence is empty, though FoxPro has the text behind the second begin delimiter. *)
Theorem C15_no_end_second_refuted :
  forall (s b : pystr) n, b <> [] -> no_newline s = true -> 2 <= n -> strextract s b [] n 0 = [].
Proof.
  intros s b n Hb Hs Hn. unfold strextract, strextract_matches. change (Z.testbit 0 0) with false. change (Z.testbit 0 2) with false.
  cbn [findall]. rewrite (search_open b s Hs).
  assert (X : forall l : list pystr, (length l <= 1)%nat -> match py_nth l (n - 1) with Ok t => t | Err _ => [] end = []).
  { intros l L. unfold py_nth, zlen. destruct (Z.ltb_spec (n - 1) 0); [lia|]. destruct (Z.leb_spec (Z.of_nat (length l)) (n - 1)); [|lia]. rewrite orb_true_r. reflexivity. }
  destruct (find_nat s b) as [k|]; cbn [option_map]; [|apply X; cbn; lia].
  assert (Y : findall (length s) false false b [] [] = []) by (destruct s, b as [|c b]; try congruence; reflexivity). rewrite Y. apply X. cbn. lia.
Qed.
Print Assumptions C15_no_end_second_refuted.
(** C15: text that spans lines is not found. *)
Theorem C15_multiline_refuted :
  exists s b e mid post, between_first b e s mid post /\ strextract s b e 1 0 <> mid.
Proof.
  exists ([60; 97; 10; 98; 62]), (u "<"), (u ">"), [97; 10; 98], []. split; [|discriminate].
  exists [], [97; 10; 98; 62]. split.
  - apply (first_occurrence_intro [60; 97; 10; 98; 62] (u "<") 0). reflexivity.
  - apply (first_occurrence_intro [97; 10; 98; 62] (u ">") 3). reflexivity.
Qed.
Print Assumptions C15_multiline_refuted.
(** C15: with flag 2 a missing end delimiter means the rest of the text, but a begin delimiter with a special character is
    escaped twice and no longer found. *)
Theorem C15_missing_end_refuted :
  strextract (u "f(x") (u "f") (u ")") 1 2 = u "(x" /\ strextract (u "f(x") (u "(") (u ")") 1 2 = [].
Proof. split; reflexivity. Qed.
Print Assumptions C15_missing_end_refuted.
(** C15: with flag 2 and a begin delimiter without special characters the rest of the text is returned if no end delimiter follows. *)
Lemma escape_plain b : forallb (fun c => negb (re_special c)) b = true -> re_escape b = b.
Proof.
  induction b as [|c b IH]; intros H; [reflexivity|]. cbn [forallb] in H. apply andb_prop in H as [Hc Hb]. rewrite negb_true_iff in Hc. cbn [re_escape flat_map].
  rewrite Hc. cbn [app]. f_equal. exact (IH Hb).
Qed.
Theorem C15_missing_end_partial :
  forall (s b e : pystr), b <> [] -> e <> [] -> no_newline s = true -> forallb (fun c => negb (re_special c)) b = true ->
  (forall mid post, between_first b e s mid post -> strextract s b e 1 2 = mid) /\
  (forall pre rest, first_occurrence s b pre rest -> (forall k, ~ occurs_at rest e k) -> strextract s b e 1 2 = rest).
Proof.
  intros s b e Hb He Hs Hp.
  assert (M : strextract_matches s b e 2 = strextract_matches s b e 0) by reflexivity.
  assert (X : forall mid, nth_error (strextract_matches s b e 0) 0 = Some mid <-> extract_pair b e 1 s mid).
  { intros mid. apply findall_spec; [exact He|exact Hs|lia]. }
  assert (P : py_nth (strextract_matches s b e 0) (1 - 1) = match nth_error (strextract_matches s b e 0) 0 with Some a => Ok a | None => Err IndexError end).
  { destruct (strextract_matches s b e 0) as [|x l]; [reflexivity|]. unfold py_nth, zlen. cbn [length]. change (1 - 1) with 0. cbn [Z.ltb Z.compare]. destruct (Z.leb_spec (Z.of_nat (S (length l))) 0); [lia|reflexivity]. }
  split.
  - intros mid post H. unfold strextract. rewrite M, P. assert (E : nth_error (strextract_matches s b e 0) 0 = Some mid) by (apply X; eapply EP_one, H). now rewrite E.
  - intros pre rest H N. pose proof (proj1 (C15_no_end_partial s b Hb Hs) pre rest H) as Y. unfold strextract. rewrite M, P.
    destruct (nth_error (strextract_matches s b e 0) 0) as [mid|] eqn:E.
    + exfalso. assert (E1 : extract_pair b e 1 s mid) by (apply X; reflexivity). clear E X. rename E1 into E. apply (extract_pair_inv b e 0) in E. destruct E as (post & pre' & rest' & H1 & H2).
      assert (R : rest' = rest).
      { pose proof (proj1 (C15_no_end_partial s b Hb Hs) pre' rest' H1) as Y'. congruence. }
      subst rest'. destruct H2 as [E2 _]. apply (N (length mid)). exists mid, post. split; [exact E2|reflexivity].
    + destruct e as [|ce e]; [congruence|]. change (Z.testbit 2 1) with true. change (Z.land 2 5) with 0. cbn [Z.testbit]. rewrite (escape_plain b Hp). unfold strextract in Y.
      destruct (py_nth (strextract_matches s b [] 0) (1 - 1)); exact Y.
Qed.
Print Assumptions C15_missing_end_partial.
Example C15_missing_end_example : strextract (u "a:b,c") (u ":") (u ";") 1 2 = u "b,c".
Proof. reflexivity. Qed.
(** C15: with flag 1 upper and lower case are not distinguished: lowering everything gives the lowered result, whatever the other flags
    (in all of this for the letters of ASCII). *)
Definition low : pystr -> pystr := map lower_char.
Lemma lower_char_idem c : lower_char (lower_char c) = lower_char c.
Proof. unfold lower_char. destruct ((65 <=? c) && (c <=? 90)) eqn:E; [|now rewrite E]. rewrite andb_true_iff, !Z.leb_le in E. destruct (Z.leb_spec (c + 32) 90); [lia|]. now rewrite andb_false_r. Qed.
Lemma char_low a b : char_eq false (lower_char a) (lower_char b) = char_eq true a b. Proof. reflexivity. Qed.
Lemma newline_low c : (lower_char c =? 10) = (c =? 10).
Proof.
  unfold lower_char. destruct ((65 <=? c) && (c <=? 90)) eqn:E; [|reflexivity]. rewrite andb_true_iff, !Z.leb_le in E.
  destruct (Z.eqb_spec (c + 32) 10), (Z.eqb_spec c 10); lia || reflexivity.
Qed.
Lemma special_low c : re_special (lower_char c) = re_special c.
Proof.
  unfold lower_char. destruct ((65 <=? c) && (c <=? 90)) eqn:E; [|reflexivity]. rewrite andb_true_iff, !Z.leb_le in E.
  assert (In c (map Z.of_nat (seq 65 26))) as H by (apply in_map_iff; exists (Z.to_nat c); split; [lia|apply in_seq; lia]).
  vm_compute in H. repeat (destruct H as [<-|H]; [reflexivity|]). destruct H.
Qed.
Lemma escape_low b : re_escape (low b) = low (re_escape b).
Proof.
  unfold low, re_escape. induction b as [|c b IH]; [reflexivity|]. cbn [map flat_map]. rewrite map_app, IH, special_low. destruct (re_special c); reflexivity.
Qed.
Lemma lit_low p : forall s, match_lit false (low p) (low s) = option_map (fun '(m, r) => (low m, low r)) (match_lit true p s).
Proof.
  unfold low. induction p as [|a p IH]; intros [|b s]; cbn [map match_lit]; try reflexivity. rewrite char_low. destruct (char_eq true a b); [|reflexivity].
  rewrite IH. destruct (match_lit true p s) as [[m r]|]; reflexivity.
Qed.
Lemma lazy_low e : forall s, match_lazy false (low e) (low s) = option_map (fun '(x, m, r) => (low x, low m, low r)) (match_lazy true e s).
Proof.
  induction s as [|c s IH]; cbn [match_lazy].
  - change (low []) with (@nil Z). cbn [match_lazy]. pose proof (lit_low e []) as H. change (low []) with (@nil Z) in H. rewrite H. destruct (match_lit true e []) as [[m r]|]; reflexivity.
  - change (low (c :: s)) with (lower_char c :: low s). cbn [match_lazy]. pose proof (lit_low e (c :: s)) as H. change (low (c :: s)) with (lower_char c :: low s) in H. rewrite H.
    destruct (match_lit true e (c :: s)) as [[m r]|]; [reflexivity|]. cbn [option_map]. rewrite newline_low. destruct (c =? 10); [reflexivity|]. rewrite IH. destruct (match_lazy true e s) as [[[x m] r]|]; reflexivity.
Qed.
Lemma greedy_low s : match_greedy (low s) = let '(x, r) := match_greedy s in (low x, low r).
Proof.
  induction s as [|c s IH]; [reflexivity|]. change (low (c :: s)) with (lower_char c :: low s). cbn [match_greedy]. rewrite newline_low. destruct (c =? 10); [reflexivity|].
  rewrite IH. destruct (match_greedy s). reflexivity.
Qed.
Lemma here_low b e s : match_here false (low b) (low e) (low s) = option_map (fun '(mb, x, me, r) => (low mb, low x, low me, low r)) (match_here true b e s).
Proof.
  unfold match_here. rewrite lit_low. destruct (match_lit true b s) as [[mb r]|]; [|reflexivity]. cbn [option_map]. destruct e as [|ce e].
  - change (low []) with (@nil Z). cbv iota. rewrite greedy_low. destruct (match_greedy r). reflexivity.
  - change (low (ce :: e)) with (lower_char ce :: low e) at 1. cbv iota. rewrite lazy_low. destruct (match_lazy true (ce :: e) r) as [[[x m] r']|]; reflexivity.
Qed.
Lemma search_low b e : forall s, re_search false (low b) (low e) (low s) = option_map (fun '(mb, x, me, r) => (low mb, low x, low me, low r)) (re_search true b e s).
Proof.
  induction s as [|c s IH].
  - change (low []) with (@nil Z). cbn [re_search]. pose proof (here_low b e []) as H. change (low []) with (@nil Z) in H. rewrite H. destruct (match_here true b e []) as [[[[? ?] ?] ?]|]; reflexivity.
  - change (low (c :: s)) with (lower_char c :: low s). cbn [re_search]. pose proof (here_low b e (c :: s)) as H. change (low (c :: s)) with (lower_char c :: low s) in H. rewrite H.
    destruct (match_here true b e (c :: s)) as [[[[? ?] ?] ?]|]; [reflexivity|]. exact IH.
Qed.
Lemma findall_low incl b e : forall fuel s, findall fuel false incl (low b) (low e) (low s) = map low (findall fuel true incl b e s).
Proof.
  induction fuel as [|f IH]; intros s; [reflexivity|]. cbn [findall]. rewrite search_low. destruct (re_search true b e s) as [[[[mb x] me] r]|]; [|reflexivity].
  cbn [option_map map]. rewrite IH. f_equal. destruct incl; [|reflexivity]. unfold low. now rewrite !map_app.
Qed.
Theorem C15_ignore_case :
  forall (s b e : pystr) (n flag : Z),
  low (strextract s b e n (Z.lor flag 1)) = strextract (low s) (low b) (low e) n (Z.ldiff flag 1).
Proof.
  intros s b e n flag.
  assert (B0 : Z.testbit (Z.lor flag 1) 0 = true) by (rewrite Z.lor_spec; apply orb_true_r).
  assert (C0 : Z.testbit (Z.ldiff flag 1) 0 = false) by (rewrite Z.ldiff_spec; apply andb_false_r).
  assert (B : forall k, 0 < k -> Z.testbit (Z.lor flag 1) k = Z.testbit (Z.ldiff flag 1) k).
  { intros k Hk. rewrite Z.lor_spec, Z.ldiff_spec. assert (Z.testbit 1 k = false) as -> by (apply (Z.bits_above_log2 1 k); cbn; lia). rewrite orb_false_r, andb_true_r. reflexivity. }
  assert (N : forall l i, py_nth (map low l) i = rmap low (py_nth l i)).
  { intros l i. unfold py_nth, zlen. rewrite map_length. destruct (_ || _); [reflexivity|]. rewrite nth_error_map. destruct (nth_error l _); reflexivity. }
  unfold strextract, strextract_matches. rewrite B0, C0, (B 2), (B 1) by lia.
  assert (L : S (length (low s)) = S (length s)) by (unfold low; now rewrite map_length). rewrite L.
  rewrite findall_low, N. destruct (py_nth (findall _ true _ b e s) (n - 1)) as [t|x]; cbn [rmap rbind]; [reflexivity|].
  destruct e as [|ce e]; [reflexivity|]. change (low (ce :: e)) with (lower_char ce :: low e). cbv iota. destruct (Z.testbit (Z.ldiff flag 1) 1); [|reflexivity].
  rewrite !Z.land_spec, B0, C0, (B 2) by lia. change (Z.testbit 5 0) with true. change (Z.testbit 5 2) with true. rewrite !andb_true_r, escape_low. cbn [andb].
  pose proof (findall_low (Z.testbit (Z.ldiff flag 1) 2) (re_escape b) [] (S (length s)) s) as FL. change (low []) with (@nil Z) in FL. rewrite FL, N. destruct (py_nth _ (n - 1)); reflexivity.
Qed.
Print Assumptions C15_ignore_case.
Example C15_ignore_case_example : strextract (u "x<A>y</a>") (u "<a>") (u "</A>") 1 1 = u "y".
Proof. reflexivity. Qed.

(** C16: for patterns without regular-expression characters the function says whether some prefix of the text matches. *)
Theorem C16_like_prefix_partial :
  forall (p s : pystr), forallb plain_char p = true -> no_newline s = true ->
  exists b, like p s = Some b /\ (b = true <-> exists k, wild p (firstn k s)).
Proof. exact like_spec. Qed.
Print Assumptions C16_like_prefix_partial.
(** C16: hence it agrees with FoxPro for patterns that end in "*". *)
Lemma wild_star_end p : forall s t, wild (p ++ [42]) s -> wild (p ++ [42]) (s ++ t).
Proof.
  assert (G : forall t, wild [42] t).
  { induction t as [|x t IH]; [apply W_star_stop, W_end|now apply W_star_take]. }
  intros s t H. remember (p ++ [42]) as q eqn:Eq. revert p Eq. induction H as [|q s H IH|q x s H IH|q x s H IH|c q s Hc1 Hc2 H IH]; intros p Eq.
  - destruct p; discriminate.
  - destruct p as [|c p]; cbn in Eq.
    + injection Eq as ->. apply G.
    + injection Eq as <- ->. apply W_star_stop. now apply (IH p).
  - cbn [app]. apply W_star_take. now apply (IH p).
  - destruct p as [|c p]; cbn in Eq; [discriminate|]. injection Eq as <- ->. cbn [app]. apply W_any. now apply (IH p).
  - destruct p as [|c' p]; cbn in Eq; [congruence|]. injection Eq as <- ->. cbn [app]. apply W_lit; auto. now apply (IH p).
Qed.
Theorem C16_like_open_pattern_partial :
  forall (p s : pystr), forallb plain_char p = true -> no_newline s = true ->
  exists b, like (p ++ [42]) s = Some b /\ (b = true <-> wild (p ++ [42]) s).
Proof.
  intros p s Hp Hs. destruct (like_spec (p ++ [42]) s) as (b & E & H); [rewrite forallb_app, Hp; reflexivity|exact Hs|].
  exists b. split; [exact E|]. rewrite H. split.
  - intros (k & Hk). rewrite <- (firstn_skipn k s). now apply wild_star_end.
  - intros Hw. exists (length s). now rewrite firstn_all.
Qed.
Print Assumptions C16_like_open_pattern_partial.
Example C16_example : like (u "a?.*") (u "ab.txt") = Some true /\ like (u "a?.*") (u "abc.txt") = Some false.
Proof. split; reflexivity. Qed.
(** C16: a text that merely starts like the pattern is accepted. *)
Theorem C16_like_whole_refuted :
  exists p s, forallb plain_char p = true /\ no_newline s = true /\ like p s = Some true /\ ~ wild p s.
Proof.
  exists (u "ab"), (u "abc"). repeat split. intros H. inversion H as [| | | |c p t Hc1 Hc2 H']; subst.
  inversion H' as [| | | |c p t' Hc1' Hc2' H'']; subst. inversion H''.
Qed.
Print Assumptions C16_like_whole_refuted.
(** C16: a backslash before a dot turns the dot into a wildcard. *)
Theorem C16_like_backslash_refuted :
  exists p s, like p s = Some true /\ ~ wild p s /\ ~ (exists k, wild p (firstn k s)).
Proof.
  exists (u "\."), (u "\x"). split; [reflexivity|].
  assert (G : forall s, wild (u "\.") s -> s = u "\.").
  { intros s H. inversion H as [| | | |c p t Hc1 Hc2 H']; subst.
    inversion H' as [| | | |c p t' Hc1' Hc2' H'']; subst. inversion H''. reflexivity. }
  split; [intros H; apply G in H; discriminate|]. intros (k & Hk). apply G in Hk.
  destruct k as [|[|[|k]]]; discriminate.
Qed.
Print Assumptions C16_like_backslash_refuted.

(** C17: a numeral that fits is shown right-aligned in a field of exactly the given width. *)
Theorem C17_str_fits :
  forall (n len : Z), zlen (dec n) <= len ->
  exists r, str_fn n len 0 = Ok r /\ zlen r = len /\ shows_number r n [].
Proof. exact str_fn_shows. Qed.
Print Assumptions C17_str_fits.
(** C17: for non-negative numbers the field always has the given width, whatever the width and the number of decimals. *)
Theorem C17_str_width_partial :
  forall (n len d : Z), 0 <= n -> 0 <= len -> exists r, str_fn n len d = Ok r /\ zlen r = len.
Proof.
  intros n len d Hn Hl. destruct (str_fn_total n len d (or_introl Hn)) as (r & E). exists r. split; [exact E|].
  exact (str_fn_length n len d r Hl E).
Qed.
Print Assumptions C17_str_width_partial.
(** C17: a positive numeral that does not fit becomes asterisks or a scaled form that denotes the number up to one unit of
    its last digit. *)
Theorem C17_str_scaled_partial :
  forall (n len : Z), 1 <= n -> 0 <= len < zlen (dec n) ->
  exists r, str_fn n len 0 = Ok r /\ (r = py_repeat 42 len \/ zlen r = len /\ shows_scaled r n).
Proof. exact str_fn_scaled. Qed.
Print Assumptions C17_str_scaled_partial.
(** C17: a negative number that does not fit raises AttributeError. *)
Theorem C17_str_negative_refuted :
  forall (n len : Z), n < 0 -> len < zlen (dec n) -> str_fn n len 0 = Err AttributeError.
Proof. exact str_fn_negative. Qed.
Print Assumptions C17_str_negative_refuted.
Example C17_example : str_fn (-42) 5 0 = Ok (u "  -42") /\ str_fn 123456789 6 0 = Ok (u "1.2E+8") /\
  str_fn 123456789 4 0 = Ok (u "****") /\ str_fn (-123456) 3 0 = Err AttributeError.
Proof. vm_compute. auto. Qed.

(** C56: with decimals, a field with room for at least one more character than the integer part shows the number, with as
    many decimals as there is room for. *)
Theorem C56_str_decimals_partial :
  forall (n len d : Z), 1 <= d -> zlen (dec n) + 1 <= len ->
  exists r j, str_fn n len d = Ok r /\ zlen r = len /\ 0 <= j <= d /\
    shows_number r n (if 0 <? j then 46 :: py_repeat 48 j else []) /\
    j = (if zlen (dec n) + 1 + d <=? len then d else len - zlen (dec n) - 1).
Proof. exact str_fn_decimals_shows. Qed.
Print Assumptions C56_str_decimals_partial.
Example C56_example : str_fn 1234 7 4 = Ok (u "1234.00") /\ str_fn 1234 5 4 = Ok (u " 1234").
Proof. vm_compute. auto. Qed.
(** C56: an integer part that fills the field exactly is replaced by a scaled form. *)
Theorem C56_str_exact_width_refuted :
  zlen (dec 12345) = 5 /\ str_fn 12345 5 2 = Ok (u "1.E+4") /\ str_fn (-1234) 5 2 = Err AttributeError.
Proof. vm_compute. auto. Qed.
Print Assumptions C56_str_exact_width_refuted.

(** C18: for a text x without carriage return that stands somewhere in s, ATLINE is the number of the first line that
    contains x and RATLINE of the last one. *)
Theorem C18_atline_partial :
  forall (x s : pystr), x <> [] -> forallb (fun c => negb (c =? 13)) x = true -> contains s x ->
  exists m l, atline x s = Z.of_nat m + 1 /\ nth_error (lines_cr s) m = Some l /\ contains l x /\
    forall j l', (j < m)%nat -> nth_error (lines_cr s) j = Some l' -> ~ contains l' x.
Proof. exact atline_spec. Qed.
Print Assumptions C18_atline_partial.
Theorem C18_ratline_partial :
  forall (x s : pystr), x <> [] -> forallb (fun c => negb (c =? 13)) x = true -> contains s x ->
  exists m l, ratline x s = Z.of_nat m + 1 /\ nth_error (lines_cr s) m = Some l /\ contains l x /\
    forall j l', (m < j)%nat -> nth_error (lines_cr s) j = Some l' -> ~ contains l' x.
Proof. exact ratline_spec. Qed.
Print Assumptions C18_ratline_partial.
Example C18_example : atline (u "b") (u "a" ++ [13] ++ u "ab" ++ [13] ++ u "b") = 2 /\
  ratline (u "b") (u "a" ++ [13] ++ u "ab" ++ [13] ++ u "b") = 3.
Proof. vm_compute. auto. Qed.
(** C18: for a text that stands in no line the result is 1, not 0. *)
Theorem C18_absent_refuted :
  (forall (x s : pystr), ~ contains s x -> atline x s = 1 /\ ratline x s = 1) /\ ~ contains (u "abc") (u "x").
Proof.
  split; [exact atline_absent|]. intros (k & Hk).
  pose proof (find_nat_spec (u "abc") (u "x")) as H. cbn in H. apply (H _ Hk).
Qed.
Print Assumptions C18_absent_refuted.
