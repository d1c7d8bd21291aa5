(** C117 and C118: reading the words of a source text *)
From Verif Require Import PyBase PyStr M_Lexer S_Lexer P_Lexer P_Lexer2 P_Lexer3 P_Lexer4.
From Coq Require Import Lia.
Open Scope Z_scope.

(** The tokens are the longest texts of the rules, the first rule naming them, and together they are the whole text: nothing is lost. *)
Theorem C117_whole_text : forall s, reads s (tokens s) /\ (forall ts, reads s ts -> ts = tokens s) /\ flat_map snd (tokens s) = s.
Proof.
  intros s. split; [apply tokens_reads|]. split; [|apply tokens_text]. intros ts H. apply (reads_fun s); [exact H | apply tokens_reads].
Qed.
Print Assumptions C117_whole_text.
(** Texts that differ only in the case of letters are read as the same tokens. *)
Theorem C117_case : forall s s', upper s = upper s' ->
  map fst (tokens s) = map fst (tokens s') /\ map (fun t => upper (snd t)) (tokens s) = map (fun t => upper (snd t)) (tokens s')
  /\ map fst (visible (tokens s)) = map fst (visible (tokens s')).
Proof.
  intros s s' E. assert (H := tokens_case s s' E).
  assert (F := f_equal (map fst) H). assert (G := f_equal (map snd) H). rewrite !map_map in F, G. cbn [fst snd] in F, G.
  split; [exact F|]. split; [exact G|].
  generalize dependent (tokens s'). generalize (tokens s). clear. induction l as [|[k t] l IH]; intros [|[k' t'] l'] H F G; try discriminate; [reflexivity|].
  cbn [map fst snd] in H. injection H as Hk _ H. subst k'. unfold visible. cbn [filter fst]. destruct (hidden k); cbn [negb map fst]; [|f_equal]; apply (IH l'); auto; injection F; injection G; auto.
Qed.
Print Assumptions C117_case.
(** However words, numbers, symbols and texts in quotes are laid out, the parser sees just them. *)
Theorem C117_layout : forall src last, laid_out src last -> visible (tokens (text src last)) = flat_map (fun p => piece_tokens (snd p)) src /\
  (forall g p, In (g, p) src -> piece_tokens p =
     match p with
     | Quoted q s => (quote_kind q, [q]) :: visible (tokens s) ++ [(quote_kind q, [q])]
     | NewLine _ => [("NL"%string, [10])]
     | Remark s => ("ASTERISK"%string, [42]) :: visible (tokens s) ++ [("NL"%string, [10])]
     | _ => [(piece_kind p, piece_text p)]
     end).
Proof.
  intros src last H. split; [apply text_tokens; exact H|]. intros g p I. apply piece_tokens_are. destruct H as (H & _). rewrite Forall_forall in H. apply (H _ I).
Qed.
Print Assumptions C117_layout.
(** So two layouts of the same pieces are the same to the parser *)
Corollary C117_any_layout : forall src src' last last', laid_out src last -> laid_out src' last' -> map snd src = map snd src' ->
  visible (tokens (text src last)) = visible (tokens (text src' last')).
Proof.
  intros src src' last last' H H' E. rewrite !text_tokens by auto. rewrite !flat_map_concat_map, <- (map_map snd piece_tokens), <- (map_map snd piece_tokens src'), E. reflexivity.
Qed.
Print Assumptions C117_any_layout.
Definition sample : source := [
  ([], Word (u "If")); ([Blank 32; Blank 9], Word (u "nCount")); ([], Sym "GTEQ" ">="); ([Continued (u " ") (Some (u " R&D, x=1"))], Number (u "12") (Some (u "50")));
  ([Blank 32], Dotted "OTHERAND" (u "and")); ([], Sym "EXCLAMATION" "!"); ([], Word (u "_done")); ([], Sym "DOLLAR" "$"); ([], Quoted 34 (u "if  it's; so")); ([Blank 32], NewLine (Some (u " a && b")));
  ([], Sym "QUESTION" "?"); ([], Sym "PERIOD" "."); ([], Word (u "t")); ([], Sym "PERIOD" "."); ([Continued [] None], NewLine None)].
Example C117_example :
  laid_out sample [Blank 32] /\ visible (tokens (text sample [Blank 32])) =
  [("IF", u "If"); ("ID", u "nCount"); ("GTEQ", u ">="); ("NUMBER_LITERAL", u "12.50"); ("OTHERAND", u ".and."); ("EXCLAMATION", u "!"); ("ID", u "_done"); ("DOLLAR", u "$"); ("DOUBLEQUOTE", [34]); ("IF", u "if"); ("ID", u "it"); ("SINGLEQUOTE", u "'"); ("ID", u "s"); ("SEMICOLON", u ";"); ("ID", u "so"); ("DOUBLEQUOTE", [34]); ("NL", [10]);
   ("QUESTION", u "?"); ("PERIOD", u "."); ("BOOLEANCHAR", u "t"); ("PERIOD", u "."); ("NL", [10])]%string.
Proof.
  split; [|vm_compute; reflexivity]. split; [|split].
  - unfold sample. repeat (apply Forall_cons || apply Forall_nil); split;
      try (repeat (apply Forall_cons || apply Forall_nil); vm_compute; intuition discriminate).
    exists "AND"%string. vm_compute. auto.
  - repeat constructor.
  - vm_compute. intuition discriminate.
Qed.

(** ** C118 *)
(** Every spelling of a keyword in the table, in any case, is read as that keyword, and every other name as a name. *)
Theorem C118_keywords_partial : forall w, word w = true ->
  (forall k full least n, In (k, full, least) keywords -> (least <= n <= String.length full)%nat -> upper w = firstn n (u full) -> tokens w = [(k, w)]) /\
  ((forall k full least n, In (k, full, least) keywords -> (least <= n <= String.length full)%nat -> upper w <> firstn n (u full)) -> w <> u "_" -> tokens w = [("ID"%string, w)]).
Proof.
  intros w H. assert (T : tokens w = [(word_kind w, w)]).
  { assert (M := word_token w [] H I). rewrite app_nil_r in M. specialize (M (word_no_amp w H)).
    assert (C := tokens_cons w [] (word_kind w)). rewrite app_nil_r in C. rewrite (C M). reflexivity. }
  rewrite T. unfold word_kind.
  assert (S : forall x k, In (x, k) spellings -> find_word spellings x = Some k).
  { assert (V : forallb (fun p => match find_word spellings (fst p) with Some k => String.eqb k (snd p) | None => false end) spellings = true) by (vm_compute; reflexivity).
    intros x k I. apply (proj1 (forallb_forall _ _) V) in I. cbn [fst snd] in I. destruct (find_word spellings x); [apply String.eqb_eq in I; congruence | discriminate]. }
  split.
  - intros k full least n I L E. rewrite (S (upper w) k); [reflexivity|]. unfold spellings. apply in_flat_map. exists (k, full, least). split; auto.
    apply in_map_iff. exists n. split; [rewrite E; reflexivity | apply in_seq; lia].
  - intros N U. replace (find_word spellings (upper w)) with (@None string).
    + destruct (pystr_eqb_spec w (u "_")); [congruence | reflexivity].
    + symmetry. apply find_word_none. intros I. apply in_map_iff in I as ([x k] & E & I). cbn [fst] in E. subst x. unfold spellings in I. apply in_flat_map in I as ([[k' full] least] & J & I).
      apply in_map_iff in I as (n & E & I). injection E as E _. apply in_seq in I. apply (N k' full least n); auto. lia.
Qed.
Print Assumptions C118_keywords_partial.
Example C118_example : tokens (u "ProcEd") = [("PROCEDURE"%string, u "ProcEd")] /\ tokens (u "procs") = [("ID"%string, u "procs")] /\ tokens (u "prog") = [("ID"%string, u "prog")].
Proof. repeat split; vm_compute; reflexivity. Qed.

(** FoxPro lets any keyword be cut to four letters.  These are not recognised when it is, whatever the case. *)
Definition not_cut : list string := [
  "ADDITIVE"; "AFTER"; "ALIAS"; "ALTER"; "ALTERNATE"; "ASCENDING"; "BEFORE"; "CANDIDATE"; "CLASS"; "CLASSLIB"; "CLOCK"; "COLLECTION"; "COLOR"; "COLUMN"; "COMMAND"; "COMPACT";
  "COMPATIBLE"; "CONSOLE"; "DATASESSION"; "DEFAULT"; "DELETED"; "DESCENDING"; "DISTINCT"; "ENCRYPT"; "ENDDO"; "ENDDEFINE"; "ENDFOR"; "ENDTRY"; "ESCAPE"; "EVENTS"; "EXCEPT";
  "EXTENDED"; "FIELDS"; "FLAGS"; "FORCE"; "FOXOBJECT"; "FOXPLUS"; "IFDEF"; "INCLUDE"; "INDEX"; "INDEXES"; "LABEL"; "LIBRARY"; "LINKED"; "MACROS"; "MARGIN"; "MASTER"; "MEMORY";
  "MEMOWIDTH"; "MEMVAR"; "MENUS"; "MULTILOCKS"; "NEGOTIATE"; "NOCLEAR"; "NOCONSOLE"; "NODEBUG"; "NOEJECT"; "NOMARGIN"; "NOMENU"; "NOOPTIMIZE"; "NOPROMPT"; "NOSAVE"; "NOSHOW";
  "NOTIFY"; "NOUPDATE"; "NOWAIT"; "NUMBER"; "OBJECT"; "ORDER"; "PLAIN"; "POPUP"; "PRETEXT"; "PROGRAM"; "PROMPT"; "RECORD"; "RECYCLE"; "REFERENCE"; "REFRESH"; "RELATION";
  "RELATIVE"; "REPORT"; "RESOURCES"; "RESTORE"; "ROLLOVER"; "SCHEME"; "SELECTION"; "SHADOW"; "SHARED"; "SHUTDOWN"; "STATUS"; "STYLE"; "SYSMENU"; "SYSTEM"; "TABLEPROMPT";
  "TEXTMERGE"; "TITLE"; "TYPEAHEAD"; "UDFPARMS"; "UNDEFINE"; "UNIQUE"; "VALUE"; "VALUES"; "WHERE"; "WHILE"]%string.
Theorem C118_cut_refuted : forall k w, In k not_cut -> upper w = firstn 4 (u k) -> tokens (u k) = [(k, u k)] /\ map fst (tokens w) <> [k].
Proof.
  assert (V : forallb (fun k => match tokens (u k), tokens (firstn 4 (u k)) with [(a, _)], [(b, _)] => String.eqb a k && negb (String.eqb b k) | _, _ => false end) not_cut = true)
    by (vm_compute; reflexivity).
  intros k w I E. apply (proj1 (forallb_forall _ _) V) in I. assert (T := tokens_text (u k)). destruct (tokens (u k)) as [|[a x] [|? ?]]; try discriminate I.
  assert (C := tokens_case w (firstn 4 (u k))).
  assert (U : upper w = upper (firstn 4 (u k))).
  { rewrite <- E. unfold upper. rewrite map_map. apply map_ext. intros c. unfold up. destruct ((97 <=? c) && (c <=? 122)) eqn:X; [|rewrite X; reflexivity].
    replace ((97 <=? c - 32) && (c - 32 <=? 122)) with false by lia. reflexivity. }
  specialize (C U). destruct (tokens (firstn 4 (u k))) as [|[b y] [|? ?]]; try discriminate I.
  apply andb_prop in I as [A B]. apply String.eqb_eq in A. apply Bool.negb_true_iff, String.eqb_neq in B. split.
  - cbn [flat_map snd app] in T. rewrite app_nil_r in T. subst; reflexivity.
  - intros Z0. apply (f_equal (map fst)) in C. rewrite !map_map in C. cbn [fst map] in C. change (map fst (tokens w) = [b]) in C. rewrite Z0 in C. injection C as C. congruence.
Qed.
Print Assumptions C118_cut_refuted.
Example C118_cut_example : In "WHILE"%string not_cut /\ upper (u "whil") = firstn 4 (u "WHILE") /\ tokens (u "whil") = [("ID"%string, u "whil")].
Proof. repeat split; vm_compute; auto 200. Qed.

(** x=1.AND.y is FoxPro; the period goes to the number, and the operator is not recognised, whatever the number. *)
Theorem C118_number_and_refuted : forall ds k op w s, ds <> [] -> forallb digit ds = true -> In (k, op) dotted -> upper w = u op -> macro s = false ->
  tokens (ds ++ 46 :: w ++ 46 :: s) = ("NUMBER_LITERAL"%string, ds ++ [46]) :: (op, w) :: tokens (46 :: s).
Proof.
  intros ds k op w s Hd D I E M.
  assert (Hw := dotted_word (k, op) w I E). cbn [snd] in *.
  assert (Mw : macro (w ++ 46 :: s) = false). { apply word_names, names_plain in Hw as (A & B & _). rewrite macro_skip; auto. }
  assert (T : munch rules 0%nat None ((ds ++ [46]) ++ w ++ 46 :: s) = Some ("NUMBER_LITERAL"%string, length (ds ++ [46]))).
  { assert (X := WS_ok).
    apply andb_prop in X as [X X7]. apply andb_prop in X as [X X6]. apply andb_prop in X as [X X5]. apply andb_prop in X as [X X4]. apply andb_prop in X as [X X3].
    apply andb_prop in X as [X1 X2]. rewrite forallb_app in X6. apply andb_prop in X6 as [NW _].
    destruct ds as [|d a]; [congruence|]. cbn [forallb] in D. apply andb_prop in D as [D1 D2].
    assert (J := closed_in digits [rules] WS rules d X1 (or_introl eq_refl) (digit_in d D1)).
    assert (N := proj1 (forallb_forall _ _) NW _ J). apply numeric_ne in N as [N1 N2].
    rewrite <- !app_assoc. cbn [app]. rewrite munch_step by auto. rewrite N2.
    destruct (digits_run WS X2 NW a (follow d rules) 1%nat (46 :: w ++ 46 :: s) J D2) as (st & I' & E'). cbn [app] in E'. rewrite E'. clear E'.
    assert (I2 := closed_in [46] WS F1 st 46 X3 I' (or_introl eq_refl)).
    assert (G : forallb (fun st => numeric st && goes_on st [(48, 57)]) F1 = true) by (vm_compute; reflexivity).
    assert (G2 := proj1 (forallb_forall _ _) G _ I2). cbn beta in G2. apply andb_prop in G2 as [G2 G3]. apply numeric_ne in G2 as [G4 G5].
    rewrite munch_step by auto. rewrite G5. rewrite (goes_on_end (follow 46 st) [(48, 57)] _ _ _ G3 Mw).
    - clear. f_equal. f_equal. cbn [length]. rewrite app_length. cbn [length]. lia.
    - clear - Hw. destruct w as [|c w]; [discriminate Hw|]. cbn [app word] in *. apply andb_prop in Hw as [L _]. unfold letter in L. unfold within. cbn [existsb fst snd]. lia. }
  replace (ds ++ 46 :: w ++ 46 :: s) with ((ds ++ [46]) ++ w ++ 46 :: s) by (rewrite <- app_assoc; reflexivity).
  rewrite (tokens_cons _ _ _ T). f_equal.
  assert (K : word_kind w = op). { unfold word_kind. rewrite E. destruct I as [I | [I | [I | []]]]; injection I as <- <-; vm_compute; reflexivity. }
  rewrite <- K. apply tokens_cons. apply word_token; auto.
Qed.
Print Assumptions C118_number_and_refuted.
Example C118_number_example : map fst (visible (tokens (u "x=1.AND.y"))) = ["ID"; "EQUALS"; "NUMBER_LITERAL"; "AND"; "PERIOD"; "BOOLEANCHAR"]%string
  /\ map fst (visible (tokens (u "x=1 .AND.y"))) = ["ID"; "EQUALS"; "NUMBER_LITERAL"; "OTHERAND"; "BOOLEANCHAR"]%string.
Proof. split; vm_compute; reflexivity. Qed.
