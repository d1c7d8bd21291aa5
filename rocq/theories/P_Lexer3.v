(** Proofs about the lexer: each piece of a source text is read as one token *)
From Verif Require Import PyBase PyStr M_Lexer S_Lexer P_Lexer P_Lexer2.
From Coq Require Import Lia.
Open Scope Z_scope.

(** ** Words *)
Fixpoint enum (r : rx) : option (list pystr) :=
  match r with
  | Eps => Some [[]]
  | Cls false [(a, b)] => if (a =? b) && negb ((65 <=? a) && (a <=? 90)) && negb ((97 <=? a) && (a <=? 122)) then Some [[a]] else None
  | Cls false [(a, b); (c, d)] => if (a =? b) && (c =? d) && (c =? a + 32) && (65 <=? a) && (a <=? 90) then Some [[a]] else None
  | Cat a b => match enum a, enum b with Some x, Some y => Some (flat_map (fun s => map (fun t => s ++ t) y) x) | _, _ => None end
  | Alt a b => match enum a, enum b with Some x, Some y => Some (x ++ y) | _, _ => None end
  | _ => None
  end.
Lemma upper_app : forall s t, upper (s ++ t) = upper s ++ upper t.
Proof. intros; apply map_app. Qed.
Lemma enum_iff : forall r l, enum r = Some l -> forall s, lang r s <-> In (upper s) l.
Proof.
  induction r; intros l0 H s; cbn [enum] in H; try discriminate.
  - injection H as <-. split; [intros L; inversion L; left; reflexivity | intros [E | []]; symmetry in E; apply map_eq_nil in E as ->; constructor].
  - destruct other; [discriminate|]. destruct l as [|[a b] l]; [discriminate|]. destruct l as [|[c d] l].
    + destruct (_ && _) eqn:E; [|discriminate]. injection H as <-. split.
      * intros L; inversion L as [| ? ? x Hx | | | | | ]; subst. rewrite Bool.xorb_false_l in Hx. cbn [existsb fst snd] in Hx.
        left. assert (x = a) by lia. subst x. cbn [upper map]. unfold up. replace ((97 <=? a) && (a <=? 122)) with false by lia. reflexivity.
      * intros [X | []]. destruct s as [|x [|y s]]; try discriminate. cbn [upper map] in X. injection X as X. constructor. rewrite Bool.xorb_false_l.
        cbn [existsb fst snd]. unfold up in X. destruct ((97 <=? x) && (x <=? 122)) eqn:U; lia.
    + destruct l; [|discriminate]. destruct (_ && _) eqn:E; [|discriminate]. injection H as <-. split.
      * intros L; inversion L as [| ? ? x Hx | | | | | ]; subst. rewrite Bool.xorb_false_l in Hx. cbn [existsb fst snd] in Hx.
        left. cbn [upper map]. unfold up. destruct ((97 <=? x) && (x <=? 122)) eqn:U; f_equal; lia.
      * intros [X | []]. destruct s as [|x [|y s]]; try discriminate. cbn [upper map] in X. injection X as X. constructor. rewrite Bool.xorb_false_l.
        cbn [existsb fst snd]. unfold up in X. destruct ((97 <=? x) && (x <=? 122)) eqn:U; lia.
  - destruct (enum r1) as [x|] eqn:E1; [|discriminate]. destruct (enum r2) as [y|] eqn:E2; [|discriminate]. injection H as <-. split.
    + intros L. apply lang_cat_inv in L as (a & b & -> & A & B). rewrite upper_app. apply in_flat_map. exists (upper a). split; [apply (IHr1 x); auto|].
      apply in_map_iff. exists (upper b). split; [reflexivity | apply (IHr2 y); auto].
    + intros I. apply in_flat_map in I as (a & A & I). apply in_map_iff in I as (b & E & B).
      assert (S : exists s1 s2, s = s1 ++ s2 /\ upper s1 = a /\ upper s2 = b).
      { exists (firstn (length a) s), (skipn (length a) s). rewrite firstn_skipn. split; [reflexivity|]. unfold upper in *. rewrite <- firstn_map, <- skipn_map, <- E.
        rewrite firstn_app, firstn_all, Nat.sub_diag, skipn_app, skipn_all, Nat.sub_diag. cbn [firstn skipn]. rewrite app_nil_r. auto. }
      destruct S as (s1 & s2 & -> & <- & <-). apply L_cat; [apply (IHr1 x) | apply (IHr2 y)]; auto.
  - destruct (enum r1) as [x|] eqn:E1; [|discriminate]. destruct (enum r2) as [y|] eqn:E2; [|discriminate]. injection H as <-.
    rewrite lang_alt_iff, (IHr1 x), (IHr2 y), in_app_iff; auto. reflexivity.
Qed.
Definition ascii_start : list (Z * Z) := [(65, 90); (97, 122); (95, 95)].
Definition ascii_name : list (Z * Z) := [(65, 90); (97, 122); (95, 95); (48, 57)].
Lemma start_letter : forall c, within c ascii_start = letter c.
Proof. intros c. unfold within, ascii_start, letter. cbn [existsb fst snd]. lia. Qed.
Lemma name_within : forall c, within c ascii_name = name_char c.
Proof. intros c. unfold within, ascii_name, name_char, letter, digit. cbn [existsb fst snd]. lia. Qed.
Definition pre : state := firstn 308 rules.
Definition post : state := skipn 309 rules.
Lemma rules_split : rules = pre ++ ("ID"%string, R_ID) :: post.
Proof. vm_compute; reflexivity. Qed.
Definition entries (st : state) : list (pystr * string) :=
  flat_map (fun p => if first_disj (snd p) ascii_start then [] else match enum (snd p) with Some l => map (fun w => (w, fst p)) l | None => [] end) st.
Definition pre_ok (st : state) : bool :=
  forallb (fun p => first_disj (snd p) ascii_start || is_macro (snd p) || match enum (snd p) with Some _ => true | None => false end) st.
Lemma pre_pre_ok : pre_ok pre = true.
Proof. vm_compute; reflexivity. Qed.
Lemma macro_not_enum : enum R_MACROLINE = None /\ first_disj R_MACROLINE ascii_start = false.
Proof. split; reflexivity. Qed.
Lemma word_no_amp : forall w, word w = true -> macro w = false.
Proof.
  intros w H. assert (A : forallb name_char w = true).
  { destruct w as [|c r]; [reflexivity|]. cbn [word] in H. cbn [forallb]. apply andb_prop in H as [A B]. unfold name_char at 1. rewrite A. exact B. }
  clear H. induction w as [|c r IH]; [reflexivity|]. cbn [forallb] in A. apply andb_prop in A as [A B]. cbn [macro].
  unfold name_char, letter, digit in A. replace (c =? 38) with false by lia. replace (c =? 10) with false by lia. auto.
Qed.
Lemma find_word_app : forall a b w, find_word (a ++ b) w = match find_word a w with Some k => Some k | None => find_word b w end.
Proof. induction a as [|[x k] a IH]; intros b w; [reflexivity|]. cbn [app find_word]. destruct (pystr_eqb x w); auto. Qed.
Lemma find_word_map : forall (l : list pystr) (k : string) w, find_word (map (fun x => (x, k)) l) w = if existsb (fun x => pystr_eqb x w) l then Some k else None.
Proof. induction l as [|x l IH]; intros k w; [reflexivity|]. cbn [map find_word existsb]. destruct (pystr_eqb x w); cbn [orb]; auto. Qed.
Lemma existsb_in : forall (l : list pystr) w, existsb (fun x => pystr_eqb x w) l = true <-> In w l.
Proof.
  intros l w. rewrite existsb_exists. split.
  - intros (x & I & E). destruct (pystr_eqb_spec x w); [subst; auto | discriminate].
  - intros I. exists w. split; auto. destruct (pystr_eqb_spec w w); auto.
Qed.
Lemma fm_pre : forall st w, pre_ok st = true -> word w = true -> fm st w = find_word (entries st) (upper w).
Proof.
  intros st w H Hw. unfold fm, entries. induction st as [|[k r] st IH]; [reflexivity|]. cbn [pre_ok forallb snd] in H. apply andb_prop in H as [H0 H].
  cbn [find snd flat_map]. rewrite find_word_app. cbn [snd fst].
  destruct (first_disj r ascii_start) eqn:FD.
  - cbn [find_word]. replace (nullable (steps w r)) with false; [apply IH; auto|]. symmetry. apply Bool.not_true_is_false. intros L. apply steps_iff in L.
    destruct w as [|c w]; [discriminate|]. apply (first_disj_ok r ascii_start c w FD) in L. rewrite start_letter in L. cbn [word] in Hw. rewrite L in Hw. discriminate.
  - destruct (enum r) as [l|] eqn:E.
    + rewrite find_word_map. destruct (existsb (fun x => pystr_eqb x (upper w)) l) eqn:X.
      * apply existsb_in in X. apply (enum_iff r l E) in X. apply steps_iff in X. rewrite X. reflexivity.
      * replace (nullable (steps w r)) with false; [apply IH; auto|]. symmetry. apply Bool.not_true_is_false. intros L. apply steps_iff, (enum_iff r l E), existsb_in in L. congruence.
    + cbn [find_word]. replace (nullable (steps w r)) with false; [apply IH; auto|]. symmetry. apply Bool.not_true_is_false. intros L. apply steps_iff in L.
      cbn [orb] in H0. rewrite Bool.orb_false_r in H0. unfold is_macro in H0. destruct (rx_eq_dec r R_MACROLINE); [subst r | discriminate].
      apply (macro_lang w []) in L. rewrite app_nil_r, word_no_amp in L by auto. discriminate.
Qed.
Definition special : list (pystr * string) := [(u "_", "T__0"%string)].
Definition same_kind (a b : option string) : bool := match a, b with Some x, Some y => String.eqb x y | None, None => true | _, _ => false end.
Lemma keyword_tables : (let e := entries pre in let s := spellings ++ special in
  forallb (fun p => same_kind (find_word e (fst p)) (find_word s (fst p))) (e ++ s)) = true.
Proof. vm_compute; reflexivity. Qed.
Lemma find_word_none : forall l w, ~ In w (map fst l) -> find_word l w = None.
Proof.
  induction l as [|[x k] l IH]; intros w H; [reflexivity|]. cbn [find_word map fst] in *. destruct (pystr_eqb_spec x w); [subst; exfalso; apply H; left; auto|].
  apply IH. intros I; apply H; right; auto.
Qed.
Lemma entries_pre : forall w, find_word (entries pre) w = find_word (spellings ++ special) w.
Proof.
  intros w. assert (D : {In w (map fst (entries pre ++ spellings ++ special))} + {~ In w (map fst (entries pre ++ spellings ++ special))}) by (apply in_dec, (list_eq_dec Z.eq_dec)).
  destruct D as [I | N].
  - apply in_map_iff in I as (p & <- & I). assert (T := keyword_tables). cbv zeta in T. rewrite forallb_forall in T. apply T in I. unfold same_kind in I.
    destruct (find_word (entries pre) (fst p)), (find_word (spellings ++ special) (fst p)); try discriminate; auto. apply String.eqb_eq in I. congruence.
  - rewrite map_app, in_app_iff in N. rewrite find_word_none by tauto. rewrite find_word_none by tauto. reflexivity.
Qed.
Lemma letter_start : forall c, letter c = true -> within c id_start = true.
Proof.
  intros c H. rewrite <- start_letter in H. apply (incl_ranges_ok ascii_start); [vm_compute; reflexivity | exact H].
Qed.
Lemma name_continue : forall c, name_char c = true -> within c id_continue = true.
Proof.
  intros c H. rewrite <- name_within in H. apply (incl_ranges_ok ascii_name); [vm_compute; reflexivity | exact H].
Qed.
Lemma word_id : forall w, word w = true -> lang R_ID w.
Proof.
  intros [|c w] H; [discriminate|]. cbn [word] in H. apply andb_prop in H as [A B]. unfold R_ID. apply (L_cat _ _ [c] w).
  - constructor. rewrite Bool.xorb_false_l. apply (letter_start c A).
  - induction w as [|d w IH]; [constructor|]. cbn [forallb] in B. apply andb_prop in B as [B1 B2].
    apply (L_more _ [d] w); [constructor; rewrite Bool.xorb_false_l; apply (name_continue d B1) | auto].
Qed.
Lemma fm_word : forall w, word w = true -> fm rules w = Some (word_kind w).
Proof.
  intros w H. rewrite rules_split. unfold fm. assert (P := fm_pre pre w pre_pre_ok H). unfold fm in P. rewrite entries_pre, find_word_app in P.
  unfold word_kind.
  assert (F : find (fun p : string * rx => nullable (steps w (snd p))) (pre ++ ("ID"%string, R_ID) :: post) =
    match find (fun p : string * rx => nullable (steps w (snd p))) pre with Some x => Some x | None => Some ("ID"%string, R_ID) end).
  { assert (I : nullable (steps w R_ID) = true) by (apply steps_iff, word_id; auto). generalize dependent pre. intros l _. induction l as [|p l IH]; cbn [find app snd].
    - rewrite I. reflexivity.
    - destruct (nullable (steps w (snd p))); auto. }
  rewrite F. destruct (find _ pre) as [p|]; cbn [option_map] in P |- *.
  - destruct (find_word spellings (upper w)); [auto|]. cbn [find_word special] in P. destruct (pystr_eqb_spec (u "_") (upper w)) as [E | E]; [|discriminate].
    rewrite P. replace (pystr_eqb w (u "_")) with true; [reflexivity|]. symmetry. destruct (pystr_eqb_spec w (u "_")) as [_ | N]; [reflexivity|].
    exfalso. apply N. destruct w as [|c [|d w]]; try discriminate. change (u "_") with [95] in E. cbn [upper map] in E. injection E as E.
    change (u "_") with [95]. f_equal. unfold up in E. destruct ((97 <=? c) && (c <=? 122)) eqn:U; lia.
  - destruct (find_word spellings (upper w)); [discriminate|]. cbn [find_word special] in P. destruct (pystr_eqb_spec (u "_") (upper w)) as [E | E]; [discriminate|].
    destruct (pystr_eqb_spec w (u "_")) as [-> | N]; [exfalso; apply E; reflexivity | reflexivity].
Qed.
Definition name_rule (r : rx) : bool :=
  all_in r id_continue || first_disj r ascii_start || is_macro r || match r with Cls _ _ => true | _ => false end.
Lemma name_rules_ok : forallb (fun p => name_rule (snd p)) rules = true.
Proof. vm_compute; reflexivity. Qed.
Lemma name_rule_ok : forall k r, In (k, r) rules -> name_rule r = true.
Proof. intros k r I. exact (proj1 (forallb_forall _ _) name_rules_ok (k, r) I). Qed.
Lemma fm_none_intro : forall st t, (forall k r, In (k, r) st -> ~ lang r t) -> fm st t = None.
Proof.
  intros st t H. unfold fm. destruct (find _ st) as [[k r]|] eqn:E; [|reflexivity]. apply find_some in E as [I N]. cbn [snd] in N. apply steps_iff in N. destruct (H k r I N).
Qed.
Lemma word_token : forall w s, word w = true -> match s with c :: _ => within c id_continue = false | [] => True end -> macro (w ++ s) = false ->
  munch rules 0%nat None (w ++ s) = Some (word_kind w, length w).
Proof.
  intros w s H S M. apply munch_best; [destruct w; discriminate || (intros E; rewrite E in H; discriminate) | apply fm_word; auto |].
  intros y z E Hy. apply fm_none_intro. intros k r I L. apply name_rule_ok in I. unfold name_rule in I.
  destruct y as [|d y]; [congruence|]. subst s. cbn [app] in S.
  destruct w as [|c w]; [discriminate|]. cbn [word] in H. apply andb_prop in H as [Hc Hw].
  apply Bool.orb_prop in I as [I | I]; [apply Bool.orb_prop in I as [I | I]; [apply Bool.orb_prop in I as [I | I]|]|].
  - assert (X := all_in_ok r id_continue _ I L d ltac:(apply in_or_app; right; left; reflexivity)). congruence.
  - apply (first_disj_ok r ascii_start c (w ++ d :: y) I) in L. rewrite start_letter in L. congruence.
  - unfold is_macro in I. destruct (rx_eq_dec r R_MACROLINE); [subst r | discriminate]. apply (macro_lang _ z) in L. rewrite <- app_assoc in L. cbn [app] in L, M. congruence.
  - destruct r as [| | o l | | |]; try discriminate I. inversion L as [| ? ? x Hx Ex | | | | | ]. destruct w; discriminate.
Qed.
