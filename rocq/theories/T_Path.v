(** Properties C82 (file name functions), C83 (STRTOFILE and FILETOSTR), C84 (search path) and C85 (paths in a project). *)
From Verif Require Import PyBase PyStr M_Path.
Open Scope Z_scope.

(** * C82 *)
(** a directory as it stands before a file name: nothing, or something that ends with a slash *)
Definition is_dir (d : pystr) : Prop := d = [] \/ exists d', d = d' ++ [47].
(** not only periods *)
Definition named (s : pystr) : Prop := exists c, In c s /\ c <> 46.

Lemma split_at_spec f p : p = fst (split_at f p) ++ snd (split_at f p) /\ Forall (fun c => f c = false) (snd (split_at f p)) /\ (fst (split_at f p) = [] \/ exists d c, fst (split_at f p) = d ++ [c] /\ f c = true).
Proof.
  induction p as [|c r (E & F & H)]; [repeat split; [constructor|left; reflexivity]|]. cbn [split_at]. destruct (split_at f r) as [h t]. cbn [fst snd] in *. destruct h as [|x h].
  - destruct (f c) eqn:C; cbn [fst snd app] in *.
    + subst r. split; [reflexivity|]. split; [exact F|]. right. exists [], c. split; [reflexivity|exact C].
    + subst r. split; [reflexivity|]. split; [constructor; assumption|left; reflexivity].
  - cbn [fst snd]. split; [cbn [app]; rewrite E; reflexivity|]. split; [exact F|]. right. destruct H as [H|(d & k & Ed & Fk)]; [discriminate|]. exists (c :: d), k. split; [cbn [app]; rewrite <- Ed; reflexivity|exact Fk].
Qed.
Lemma split_at_none f b : Forall (fun c => f c = false) b -> split_at f b = ([], b).
Proof. induction 1 as [|c b H F IH]; [reflexivity|]. cbn [split_at]. rewrite IH, H. reflexivity. Qed.
Lemma split_at_app f d c b : f c = true -> Forall (fun c => f c = false) b -> split_at f (d ++ c :: b) = (d ++ [c], b).
Proof.
  intros C F. induction d as [|x d IH]; cbn [app split_at].
  - rewrite split_at_none by exact F. rewrite C. reflexivity.
  - rewrite IH. destruct d; reflexivity.
Qed.
Lemma slash_free b : ~ In 47 b <-> Forall (fun c => is_slash c = false) b.
Proof.
  rewrite Forall_forall. split.
  - intros N c I. apply Z.eqb_neq. intros ->. exact (N I).
  - intros F I. specialize (F _ I). discriminate.
Qed.
Lemma split_dir d b : is_dir d -> ~ In 47 b -> split_at is_slash (d ++ b) = (d, b).
Proof.
  intros [-> | (d' & ->)] N; apply slash_free in N; [apply split_at_none; exact N|]. rewrite <- app_assoc. cbn [app]. apply split_at_app; [reflexivity|exact N].
Qed.
Lemma last_dot_none s : ~ In 46 s -> last_dot s = None.
Proof. induction s as [|c s IH]; intros N; [reflexivity|]. cbn [last_dot]. rewrite IH by (intros X; apply N; right; exact X). destruct (Z.eqb_spec c 46) as [-> | _]; [exfalso; apply N; left; reflexivity|reflexivity]. Qed.
Lemma last_dot_app a e : ~ In 46 e -> last_dot (a ++ 46 :: e) = Some (a, 46 :: e).
Proof. intros N. induction a as [|c a IH]; cbn [app last_dot]; [rewrite last_dot_none by exact N; reflexivity|]. rewrite IH. reflexivity. Qed.
Lemma last_dot_some s : match last_dot s with Some (a, e) => exists x, e = 46 :: x /\ s = a ++ e /\ ~ In 46 x | None => ~ In 46 s end.
Proof.
  induction s as [|c s IH]; [intros []|]. cbn [last_dot]. destruct (last_dot s) as [[a e]|].
  - destruct IH as (x & -> & -> & N). exists x. repeat split. exact N.
  - destruct (Z.eqb_spec c 46) as [-> | N]; [exists s; repeat split; exact IH|]. intros [E|I]; [congruence|exact (IH I)].
Qed.
Lemma dots_spec a : forallb (Z.eqb 46) a = true <-> ~ named a.
Proof.
  rewrite forallb_forall. split.
  - intros F (c & I & N). specialize (F c I). apply Z.eqb_eq in F. congruence.
  - intros N c I. apply Z.eqb_eq. destruct (Z.eq_dec c 46) as [E|E]; [congruence|]. exfalso. apply N. exists c. split; assumption.
Qed.
Lemma dots_named a : named a -> forallb (Z.eqb 46) a = false.
Proof. intros N. apply not_true_is_false. intros X. apply dots_spec in X. exact (X N). Qed.
Lemma splitext_ext d stem ext : is_dir d -> ~ In 47 stem -> named stem -> ~ In 47 ext -> ~ In 46 ext -> splitext (d ++ stem ++ 46 :: ext) = (d ++ stem, 46 :: ext).
Proof.
  intros D S N E1 E2. unfold splitext. rewrite split_dir; [|exact D|intros I; apply in_app_or in I as [I|[I|I]]; [exact (S I)|discriminate|exact (E1 I)]].
  rewrite last_dot_app by exact E2. rewrite dots_named by exact N. reflexivity.
Qed.
Lemma splitext_plain d name : is_dir d -> ~ In 47 name -> ~ In 46 name -> splitext (d ++ name) = (d ++ name, []).
Proof. intros D S N. unfold splitext. rewrite split_dir by assumption. rewrite last_dot_none by exact N. reflexivity. Qed.

(** dir/stem.ext is taken apart and given another extension as in FoxPro *)
Theorem C82_parts_partial d stem ext : is_dir d -> ~ In 47 stem -> named stem -> ~ In 47 ext -> ~ In 46 ext -> let p := d ++ stem ++ u "." ++ ext in
  justfname p = stem ++ u "." ++ ext /\ juststem p = stem /\ justext p = ext /\ forall e, forceext p e = d ++ stem ++ u "." ++ e.
Proof.
  intros D S N E1 E2 p. unfold p. change (u ".") with [46]. cbn [app]. assert (B : basename (d ++ stem ++ 46 :: ext) = stem ++ 46 :: ext).
  { unfold basename. rewrite split_dir; [reflexivity|exact D|]. intros I. apply in_app_or in I as [I|[I|I]]; [exact (S I)|discriminate|exact (E1 I)]. }
  split; [exact B|]. unfold juststem, justext, forceext. rewrite B. split; [|split].
  - change (stem ++ 46 :: ext) with ([] ++ stem ++ 46 :: ext). rewrite splitext_ext; [reflexivity|left; reflexivity|assumption..].
  - rewrite splitext_ext by assumption. reflexivity.
  - intros e. rewrite splitext_ext by assumption. cbn [fst]. rewrite <- app_assoc. reflexivity.
Qed.
(** and so is dir/name *)
Theorem C82_plain_partial d name : is_dir d -> ~ In 47 name -> ~ In 46 name -> let p := d ++ name in
  justfname p = name /\ juststem p = name /\ justext p = [] /\ forall e, forceext p e = p ++ u "." ++ e.
Proof.
  intros D S N p. unfold p. assert (B : basename (d ++ name) = name) by (unfold basename; rewrite split_dir by assumption; reflexivity).
  split; [exact B|]. unfold juststem, justext, forceext. rewrite B. split; [change name with ([] ++ name) at 1; rewrite splitext_plain; [reflexivity|left; reflexivity|assumption..]|].
  rewrite splitext_plain by assumption. split; reflexivity.
Qed.
(** ADDBS(JUSTPATH(p)) + JUSTFNAME(p) is p *)
Lemma drop_none f s : f (hd 0 s) = false -> drop f s = s.
Proof. destruct s as [|c s]; [reflexivity|]. cbn [hd drop]. intros ->. reflexivity. Qed.
Theorem C82_join_partial p : (forall a b, p <> a ++ [47; 47] ++ b) -> addbs (justpath p) ++ justfname p = p.
Proof.
  intros N. unfold justpath, justfname, dirname, basename. destruct (split_at_spec is_slash p) as (E & F & H). destruct (split_at is_slash p) as [h t]. cbn [fst snd] in *. subst p. f_equal.
  destruct H as [-> | (d & c & -> & C)]; [reflexivity|]. apply Z.eqb_eq in C. subst c. unfold addbs, trim_head, rstrip. rewrite rev_app_distr. cbn [rev app drop]. change (is_slash 47) with true. cbv iota.
  destruct (@exists_last _ (47 :: d) ltac:(discriminate)) as (q & x & Q). destruct d as [|y d]; [reflexivity|]. destruct (@exists_last _ (y :: d) ltac:(discriminate)) as (d' & z & E). rewrite E in *.
  assert (Z47 : z <> 47) by (intros ->; apply (N d' t); rewrite <- !app_assoc; reflexivity). rewrite rev_app_distr. cbn [rev app]. rewrite drop_none by (cbn [hd]; apply Z.eqb_neq; exact Z47).
  change (z :: rev d') with ([z] ++ rev d'). rewrite rev_app_distr, rev_involutive. cbn [rev app]. destruct (d' ++ [z]) as [|k l] eqn:G; [destruct d'; discriminate|]. rewrite <- G. unfold join. cbn [prefixb].
  rewrite G. rewrite <- G, last_last. replace (z =? 47) with false by (symmetry; apply Z.eqb_neq; exact Z47). reflexivity.
Qed.
(** the extension given by FORCEEXT is the one JUSTEXT finds, and the stem stays *)
Lemma splitext_stem p : named (basename p) -> exists d a x, p = d ++ a ++ x /\ is_dir d /\ ~ In 47 a /\ named a /\ fst (splitext p) = d ++ a /\ juststem p = a.
Proof.
  intros N. unfold juststem. destruct (split_at_spec is_slash p) as (E & F & H). unfold basename in *. unfold splitext at 1. destruct (split_at is_slash p) as [d b] eqn:S. cbn [fst snd] in *. apply slash_free in F.
  assert (D : is_dir d) by (destruct H as [-> | (q & c & -> & C)]; [left; reflexivity|right; apply Z.eqb_eq in C; subst c; exists q; reflexivity]).
  assert (Sb : splitext b = match last_dot b with Some (a, e) => if forallb (Z.eqb 46) a then (b, []) else (a, e) | None => (b, []) end).
  { unfold splitext. apply slash_free in F. rewrite split_at_none by exact F. destruct (last_dot b) as [[a e]|]; reflexivity. }
  rewrite Sb. pose proof (last_dot_some b) as L. destruct (last_dot b) as [[a e]|].
  - destruct L as (x & -> & Eb & Nx). destruct (forallb (Z.eqb 46) a) eqn:A.
    + exists d, b, []. rewrite app_nil_r. split; [exact E|]. split; [exact D|]. split; [exact F|]. split; [exact N|]. split; [exact E|reflexivity].
    + exists d, a, (46 :: x). rewrite <- Eb. split; [exact E|]. split; [exact D|]. split; [intros I; apply F; rewrite Eb; apply in_or_app; left; exact I|]. split; [|split; reflexivity].
      destruct (existsb (fun c => negb (46 =? c)) a) eqn:X; [apply existsb_exists in X as (c & I & Y); exists c; split; [exact I|]; apply negb_true_iff, Z.eqb_neq in Y; congruence|].
      exfalso. rewrite <- not_true_iff_false in A. apply A. apply forallb_forall. intros c I. destruct (46 =? c) eqn:C; [reflexivity|]. rewrite <- not_true_iff_false in X. exfalso. apply X. apply existsb_exists. exists c. split; [exact I|rewrite C; reflexivity].
  - exists d, b, []. rewrite app_nil_r. split; [exact E|]. split; [exact D|]. split; [exact F|]. split; [exact N|]. split; [exact E|reflexivity].
Qed.
Theorem C82_forceext_partial p e : named (justfname p) -> ~ In 47 e -> ~ In 46 e -> justext (forceext p e) = e /\ juststem (forceext p e) = juststem p /\ justpath (forceext p e) = justpath p.
Proof.
  intros N E1 E2. destruct (splitext_stem p N) as (d & a & x & E & D & A & Na & S & J). unfold forceext. rewrite S, J, <- app_assoc.
  destruct (C82_parts_partial d a e D A Na E1 E2) as (_ & H2 & H3 & _). split; [exact H3|]. split; [exact H2|]. unfold justpath, dirname. f_equal.
  change (u ".") with [46]. cbn [app]. rewrite split_dir; [|exact D|intros I; apply in_app_or in I as [I|[I|I]]; [exact (A I)|discriminate|exact (E1 I)]]. cbn [fst].
  unfold justfname, basename in N. destruct (split_at_spec is_slash p) as (Ep & F & H). destruct (split_at is_slash p) as [h t] eqn:SP. cbn [fst snd] in *.
  unfold splitext in S. rewrite SP in S. destruct (last_dot t) as [[b y]|] eqn:L.
  - pose proof (last_dot_some t) as LL. rewrite L in LL. destruct LL as (z & -> & Et & Nz). destruct (forallb (Z.eqb 46) b); cbn [fst] in S.
    + assert (K : split_at is_slash p = (d, a)) by (rewrite S; apply split_dir; assumption). rewrite SP in K. congruence.
    + assert (K : split_at is_slash (h ++ b) = (d, a)) by (rewrite S; apply split_dir; assumption). rewrite split_dir in K; [congruence| |apply slash_free in F; intros I; apply F; rewrite Et; apply in_or_app; left; exact I].
      destruct H as [-> | (q & c & -> & C)]; [left; reflexivity|right; apply Z.eqb_eq in C; subst c; exists q; reflexivity].
  - cbn [fst] in S. assert (K : split_at is_slash p = (d, a)) by (rewrite S; apply split_dir; assumption). rewrite SP in K. congruence.
Qed.
(** FoxPro's own separator is not known: a path written with backslashes is one name *)
Theorem C82_backslash_refuted p : ~ In 47 p -> justfname p = p /\ justpath p = [].
Proof. intros N. apply slash_free in N. unfold justfname, justpath, basename, dirname. rewrite split_at_none by exact N. split; reflexivity. Qed.
(** FORCEEXT(p, "") leaves a period; no path has a drive; a name that is all extension has none *)
Theorem C82_special_refuted d name x : is_dir d -> ~ In 47 name -> ~ In 46 name -> forceext (d ++ name) [] = d ++ name ++ u "." /\ justdrive (u "C:" ++ x) = [] /\ justext (d ++ u "." ++ name) = [].
Proof.
  intros D S N. split; [|split; [reflexivity|]].
  - destruct (C82_plain_partial d name D S N) as (_ & _ & _ & H). rewrite H, <- app_assoc. reflexivity.
  - unfold justext, splitext. rewrite split_dir; [|exact D|intros [I|I]; [discriminate|exact (S I)]]. change (u "." ++ name) with ([] ++ 46 :: name). rewrite last_dot_app by exact N. reflexivity.
Qed.
Print Assumptions C82_parts_partial.
Print Assumptions C82_plain_partial.
Print Assumptions C82_join_partial.
Print Assumptions C82_forceext_partial.
Print Assumptions C82_backslash_refuted.
Print Assumptions C82_special_refuted.
Example C82_example : let p := u "data/old.v2.txt" in justfname p = u "old.v2.txt" /\ juststem p = u "old.v2" /\ justext p = u "txt" /\ justpath p = u "data" /\ forceext p (u "bak") = u "data/old.v2.bak" /\
  addbs (justpath p) ++ justfname p = p /\ named (justfname p) /\ justfname (u "C:\data\a.txt") = u "C:\data\a.txt" /\ forceext (u "a.txt") [] = u "a.".
Proof. cbv zeta. do 6 (split; [reflexivity|]). split; [exists 111; split; [left; reflexivity|discriminate]|]. split; reflexivity. Qed.

(** * C83 *)
Section C83.
Variable utf16 utf8 : pystr -> option (list Z).
Variable writable : fs -> pystr -> bool.
Notation strtofile := (strtofile utf16 utf8 writable).
Definition bom : list Z := [239; 187; 191].
(** STRTOFILE with flag 4 writes the UTF-8 text after its mark, with flag 2 the UTF-16 text, and returns the number of bytes; no other file changes *)
Theorem C83_unicode_partial s text file d : writable s file = true ->
  (utf8 text = Some d -> exists s', strtofile s text file 4 = (s', Ok (zlen (bom ++ d))) /\ s' file = Some (bom ++ d) /\ forall q, q <> file -> s' q = s q) /\
  (utf16 text = Some d -> exists s', strtofile s text file 2 = (s', Ok (zlen d)) /\ s' file = Some d /\ forall q, q <> file -> s' q = s q).
Proof.
  intros W. assert (P : forall (s : fs) d, put s file d file = Some d) by (intros s0 d0; unfold put; destruct (pystr_eqb_spec file file); congruence).
  assert (Q : forall (s : fs) d q, q <> file -> put s file d q = s q) by (intros s0 d0 q N; unfold put; destruct (pystr_eqb_spec q file); congruence).
  split; intros E; unfold strtofile; cbn [existsb negb orb Z.eqb Pos.eqb]; rewrite E, W; cbn [negb]; eexists; (split; [reflexivity|]); (split; [apply P|]); intros q N; rewrite !Q by exact N; reflexivity.
Qed.
(** an unknown flag is rejected, and so is text without an encoding; nothing is written *)
Theorem C83_rejected_partial s text file flag : (~ In flag [0; 1; 2; 4] -> strtofile s text file flag = (s, Err ValueError)) /\
  (utf8 text = None -> strtofile s text file 4 = (s, Err UnicodeError)) /\ (utf16 text = None -> strtofile s text file 2 = (s, Err UnicodeError)).
Proof.
  unfold strtofile. split; [|split].
  - intros N. replace (existsb (Z.eqb flag) [0; 1; 2; 4]) with false; [reflexivity|]. symmetry. apply not_true_is_false. intros X. apply existsb_exists in X as (k & I & E). apply Z.eqb_eq in E. subst k. exact (N I).
  - intros E. cbn [existsb negb orb Z.eqb Pos.eqb]. rewrite E. reflexivity.
  - intros E. cbn [existsb negb orb Z.eqb Pos.eqb]. rewrite E. reflexivity.
Qed.
(** STRTOFILE(text, file) writes no text at all: the file is empty afterwards and the result is 0; with flag 1 nothing is added *)
Theorem C83_plain_refuted s text file : snd (strtofile s text file 0) = Ok 0 /\ snd (strtofile s text file 1) = Ok 0 /\
  (writable s file = true -> fst (strtofile s text file 0) file = Some []) /\
  (forall d, s file = Some d -> fst (strtofile s text file 1) file = Some d).
Proof.
  assert (P : forall (s : fs) d, put s file d file = Some d) by (intros s0 d0; unfold put; destruct (pystr_eqb_spec file file); congruence).
  unfold strtofile. cbn [existsb negb orb Z.eqb Pos.eqb]. split; [destruct (negb _); reflexivity|]. split; [destruct (negb _); reflexivity|]. split.
  - intros ->. cbn [negb fst]. apply P.
  - intros d E. destruct (negb _); [exact E|]. cbn [fst]. rewrite E. apply P.
Qed.
(** FILETOSTR fails on every file *)
Theorem C83_read_refuted readable s file : exists e, filetostr readable s file = Err e.
Proof. unfold filetostr. destruct (s file) as [d|]; [destruct (readable d)|]; eexists; reflexivity. Qed.
End C83.
Print Assumptions C83_unicode_partial.
Print Assumptions C83_rejected_partial.
Print Assumptions C83_plain_refuted.
Print Assumptions C83_read_refuted.
Example C83_example : let w := fun (s : fs) (p : pystr) => true in let s := put (fun _ => None) (u "a") [1; 2] in let e := fun t : pystr => Some t in
  let s4 := strtofile e e w s (u "hi") (u "a") 4 in let s0 := strtofile e e w s (u "hi") (u "a") 0 in
  fst s4 (u "a") = Some [239; 187; 191; 104; 105] /\ snd s4 = Ok 5 /\ fst s0 (u "a") = Some [] /\ snd s0 = Ok 0.
Proof. cbv zeta. repeat split. Qed.

(** * C84 *)
(** d is the first directory of the search path that has the file *)
Definition first_in (has : pystr -> Prop) (search : list pystr) (d : pystr) : Prop := exists a b, search = a ++ d :: b /\ has d /\ forall x, In x a -> ~ has x.
Lemma first_of_spec (f : pystr -> option pystr) l : match first_of f l with Some y => exists a d b, l = a ++ d :: b /\ f d = Some y /\ forall x, In x a -> f x = None | None => forall x, In x l -> f x = None end.
Proof.
  induction l as [|x l IH]; [intros x []|]. cbn [first_of]. destruct (f x) as [y|] eqn:E; [exists [], x, l; repeat split; [exact E|intros z []]|].
  destruct (first_of f l) as [y|]; [destruct IH as (a & d & b & -> & F & N); exists (x :: a), d, b; repeat split; [exact F|intros z [<- | I]; [exact E|exact (N z I)]]|]. intros z [<- | I]; [exact E|exact (IH z I)].
Qed.
Definition exists_file (s : fs) (p : pystr) : Prop := s p <> None.
Lemma isfile_spec s p : isfile s p = true <-> exists_file s p.
Proof. unfold isfile, exists_file. destruct (s p); split; congruence. Qed.
(** An included file is taken from the first directory of the search path that has it; the name itself is used only if none has it *)
Theorem C84_include s search file : (exists d, first_in (fun d => d <> [] /\ exists_file s (join d file)) search d /\ which s search file = join d file) \/
  ((forall d, In d search -> d <> [] -> ~ exists_file s (join d file)) /\ which s search file = file).
Proof.
  unfold which. set (g := fun d => let t := join d file in if isfile s t then Some t else None). set (ne := fun d : pystr => match d with [] => false | _ => true end). change (filter _ search) with (filter ne search).
  assert (NE : forall d, ne d = true <-> d <> []) by (intros [|c d]; unfold ne; split; congruence).
  assert (G : forall d, g d = None <-> ~ exists_file s (join d file)) by (intros d; unfold g; rewrite <- isfile_spec; cbv zeta; destruct (isfile s (join d file)); split; congruence).
  induction search as [|x l IH]; [right; split; [intros d []|reflexivity]|]. cbn [filter]. destruct (ne x) eqn:X.
  - cbn [first_of]. destruct (g x) as [y|] eqn:Y.
    + left. exists x. unfold g in Y. cbv zeta in Y. destruct (isfile s (join x file)) eqn:F; [|discriminate]. injection Y as <-. split; [|reflexivity]. exists [], l. split; [reflexivity|]. split; [split; [apply NE; exact X|apply isfile_spec; exact F]|intros z []].
    + destruct IH as [(d & (a & b & -> & H & N) & E)|[N E]]; [left; exists d; split; [|exact E]; exists (x :: a), b; split; [reflexivity|]; split; [exact H|]; intros z [<- | I]; [intros [_ F]; exact (proj1 (G x) Y F)|exact (N z I)]|].
      right. split; [|exact E]. intros d [<- | I]; [intros _; apply G; exact Y|apply N; exact I].
  - assert (Ex : x = []) by (destruct x; [reflexivity|discriminate]). destruct IH as [(d & (a & b & -> & H & N) & E)|[N E]].
    + left. exists d. split; [|exact E]. exists (x :: a), b. split; [reflexivity|]. split; [exact H|]. intros z [<- | I]; [intros [F _]; congruence|exact (N z I)].
    + right. split; [|exact E]. intros d [<- | I]; [congruence|apply N; exact I].
Qed.
(** LOCFILE: the file itself if it is there, otherwise the one in the first directory that has a file of that name; the user is asked only if there is none *)
Theorem C84_locfile abspath s search file : (exists_file s file -> locfile abspath s search file = Some (abspath file)) /\
  (~ exists_file s file ->
    (exists d, first_in (fun d => exists_file s (join d (basename file))) search d /\ locfile abspath s search file = Some (abspath (join d (basename file)))) \/
    ((forall d, In d search -> ~ exists_file s (join d (basename file))) /\ locfile abspath s search file = None)).
Proof.
  unfold locfile. split; [intros H; apply isfile_spec in H; rewrite H; reflexivity|]. intros H. destruct (isfile s file) eqn:F; [apply isfile_spec in F; contradiction|]. cbv zeta.
  set (g := fun d => if isfile s (join d (basename file)) then Some (abspath (join d (basename file))) else None).
  assert (G : forall d, g d = None -> ~ exists_file s (join d (basename file))) by (intros d; unfold g; rewrite <- isfile_spec; destruct (isfile s (join d (basename file))); congruence).
  pose proof (first_of_spec g search) as P. destruct (first_of g search) as [y|].
  - destruct P as (a & d & b & E & Y & N). left. exists d. unfold g in Y. destruct (isfile s (join d (basename file))) eqn:K; [|discriminate]. injection Y as <-. split; [|reflexivity]. exists a, b. split; [exact E|]. split; [apply isfile_spec; exact K|]. intros x I. apply G, N, I.
  - right. split; [|reflexivity]. intros d I. apply G, P, I.
Qed.
Print Assumptions C84_include.
Print Assumptions C84_locfile.
Example C84_example : let s := put (put (fun _ => None) (u "b/x.h") []) (u "c/x.h") [] in which s [u "a"; []; u "b"; u "c"] (u "x.h") = u "b/x.h" /\ which s [u "a"] (u "x.h") = u "x.h" /\
  locfile (fun p => u "/" ++ p) s [u "a"; u "c"; u "b"] (u "dir/x.h") = Some (u "/c/x.h") /\ first_in (fun d => d <> [] /\ exists_file s (join d (u "x.h"))) [u "a"; []; u "b"; u "c"] (u "b").
Proof.
  cbv zeta. do 3 (split; [reflexivity|]). exists [u "a"; []], [u "c"].  split; [reflexivity|]. split; [split; discriminate|]. intros x [<- | [<- | []]] [A B]; [apply B; reflexivity|apply A; reflexivity].
Qed.

(** * C85 *)
(** a component of a path: not empty, no separator, no colon *)
Definition seg_ok (s : pystr) : Prop := s <> [] /\ ~ In 47 s /\ ~ In 92 s /\ ~ In 58 s.
Fixpoint winpath (segs : list pystr) : pystr := match segs with [] => [] | [x] => x | x :: l => x ++ [92] ++ winpath l end.
(** the entry of the list that has the name, ignoring case: the first one *)
Definition entry (l : list pystr) (name t : pystr) : Prop := exists a b, l = a ++ t :: b /\ lower t = lower name /\ forall x, In x a -> lower x <> lower name.
(** what a relative path means *)
Inductive resolves (s : dirs) : path -> list pystr -> path -> Prop :=
| R_end q : resolves s q [] q
| R_up q segs r : resolves s (removelast q) segs r -> resolves s q (u ".." :: segs) r
| R_here q segs r : resolves s q segs r -> resolves s q (u "." :: segs) r
| R_down q x segs l t r : x <> u ".." -> x <> u "." -> s q = Some l -> entry l x t -> resolves s (q ++ [t]) segs r -> resolves s q (x :: segs) r.
Fixpoint present (s : dirs) (at_ : path) (names : list pystr) : Prop := match names with [] => True | t :: r => (exists l, s at_ = Some l /\ In t l) /\ present s (at_ ++ [t]) r end.

Lemma sep_free b : ~ In 47 b -> ~ In 92 b -> Forall (fun c => is_sep c = false) b.
Proof.
  intros N M. apply Forall_forall. intros c I. unfold is_sep. apply orb_false_iff. split; apply Z.eqb_neq; intros ->; [exact (N I)|exact (M I)].
Qed.
Lemma winpath_snoc segs x : segs <> [] -> winpath (segs ++ [x]) = winpath segs ++ 92 :: x.
Proof.
  induction segs as [|a l IH]; [congruence|]. intros _. destruct l as [|b l]; [reflexivity|]. change ((a :: b :: l) ++ [x]) with (a :: (b :: l) ++ [x]).
  change (winpath (a :: (b :: l) ++ [x])) with (a ++ [92] ++ winpath ((b :: l) ++ [x])). rewrite IH by discriminate. change (winpath (a :: b :: l)) with (a ++ [92] ++ winpath (b :: l)). rewrite <- !app_assoc. reflexivity.
Qed.
Lemma winpath_no_drive segs : Forall seg_ok segs -> ~ In 58 (winpath segs).
Proof.
  induction 1 as [|a l (_ & _ & _ & H) F IH]; [intros []|]. destruct l as [|b l]; [exact H|]. change (winpath (a :: b :: l)) with (a ++ [92] ++ winpath (b :: l)). intros I. apply in_app_or in I as [I|[I|I]]; [exact (H I)|discriminate|exact (IH I)].
Qed.
Lemma winpath_last segs : Forall seg_ok segs -> segs <> [] -> exists h c, winpath segs = h ++ [c] /\ is_sep c = false.
Proof.
  intros F N. destruct (exists_last N) as (l & x & ->). apply Forall_app in F as [F1 F2]. inversion F2 as [|? ? (Nx & A & B & _) _]; subst. destruct (exists_last Nx) as (y & c & ->).
  assert (C : is_sep c = false) by (pose proof (sep_free _ A B) as S; rewrite Forall_forall in S; apply S; apply in_or_app; right; left; reflexivity).
  destruct l as [|a l]; [exists y, c; split; [reflexivity|exact C]|]. rewrite winpath_snoc by discriminate. exists (winpath (a :: l) ++ 92 :: y), c. split; [rewrite <- app_assoc; reflexivity|exact C].
Qed.
Lemma trim_sep h c : is_sep c = false -> trim_head is_sep ((h ++ [c]) ++ [92]) = h ++ [c].
Proof.
  intros C. unfold trim_head, rstrip. rewrite !rev_app_distr. cbn [rev app drop]. rewrite C. change (is_sep 92) with true. cbv iota. change (c :: rev h) with ([c] ++ rev h). rewrite rev_app_distr, rev_involutive. cbn [rev app]. destruct h; reflexivity.
Qed.
Lemma ntsplit_plain p : ~ In 58 p -> ntsplit p = let (h, t) := split_at is_sep p in (trim_head is_sep h, t).
Proof.
  intros N. destruct p as [|a [|b r]]; [reflexivity..|]. unfold ntsplit. destruct (Z.eq_dec b 58) as [E|E]; [exfalso; apply N; rewrite E; right; left; reflexivity|].
  destruct b as [|b|b]; try reflexivity. repeat (destruct b as [b|b|]; try reflexivity). congruence.
Qed.
Lemma ntsplit_winpath segs x : Forall seg_ok segs -> seg_ok x -> ntsplit (winpath (segs ++ [x])) = (winpath segs, x).
Proof.
  intros F X. pose proof X as (Nx & A & B & _). rewrite ntsplit_plain by (apply winpath_no_drive; apply Forall_app; split; [exact F|constructor; [exact X|constructor]]).
  destruct segs as [|a l]; [cbn [app winpath]; rewrite split_at_none by (apply sep_free; assumption); reflexivity|]. rewrite winpath_snoc by discriminate. rewrite split_at_app by (reflexivity || apply sep_free; assumption).
  destruct (winpath_last (a :: l) F ltac:(discriminate)) as (h & c & E & C). rewrite E. rewrite trim_sep by exact C. reflexivity.
Qed.
Lemma explode_winpath segs : Forall seg_ok segs -> forall fuel acc, (length segs <= fuel)%nat -> explode fuel (winpath segs) acc = [] :: segs ++ acc.
Proof.
  induction segs as [|x l IH] using rev_ind; intros F fuel acc L; [destruct fuel; reflexivity|]. apply Forall_app in F as [F1 F2]. inversion F2 as [|? ? X _]; subst.
  rewrite app_length in L. cbn [length] in L. destruct fuel as [|fuel]; [lia|]. cbn [explode]. rewrite ntsplit_winpath by assumption. destruct X as (Nx & _). destruct x as [|c x]; [congruence|]. rewrite IH by (exact F1 || lia). rewrite <- app_assoc. reflexivity.
Qed.
Lemma winpath_length segs : Forall seg_ok segs -> (length segs <= length (winpath segs))%nat.
Proof.
  induction 1 as [|a l (N & _) F IH]; [reflexivity|]. destruct l as [|b l]; [destruct a; [congruence|cbn; lia]|]. change (winpath (a :: b :: l)) with (a ++ [92] ++ winpath (b :: l)). rewrite !app_length. cbn [length] in *. lia.
Qed.
Lemma name_parts_winpath segs : Forall seg_ok segs -> segs <> [] -> name_parts (winpath segs) = [] :: segs.
Proof.
  intros F N. destruct (exists_last N) as (l & x & ->). pose proof F as FF. apply Forall_app in F as [F1 F2]. inversion F2 as [|? ? X _]; subst. unfold name_parts. rewrite ntsplit_winpath by assumption.
  apply explode_winpath; [exact F1|]. pose proof (winpath_length _ FF) as L. rewrite app_length in L. lia.
Qed.
Lemma find_entry l name : match find (fun t => pystr_eqb (lower t) (lower name)) l with Some t => entry l name t | None => forall x, In x l -> lower x <> lower name end.
Proof.
  induction l as [|x l IH]; [intros x []|]. cbn [find]. destruct (pystr_eqb_spec (lower x) (lower name)) as [E|E]; [exists [], l; repeat split; [exact E|intros y []]|].
  destruct (find _ l) as [t|]; [destruct IH as (a & b & -> & Ht & N); exists (x :: a), b; repeat split; [exact Ht|intros y [<- | I]; [exact E|exact (N y I)]]|]. intros y [<- | I]; [exact E|exact (IH y I)].
Qed.
Lemma entry_unique l name t t' : entry l name t -> entry l name t' -> t = t'.
Proof.
  intros (a & b & E & H & N) (a' & b' & E' & H' & N'). subst l. revert a' E' N' N. induction a as [|x a IH]; intros a' E' N' N.
  - destruct a' as [|x' a']; [injection E' as -> _; reflexivity|]. injection E' as -> _. exfalso. apply (N' x' (or_introl eq_refl)). exact H.
  - destruct a' as [|x' a']; [injection E' as -> _; exfalso; apply (N t' (or_introl eq_refl)); exact H'|]. injection E' as -> E'. apply (IH a' E'); intros y I; [apply N'|apply N]; right; exact I.
Qed.
Lemma find_of_entry l name t : entry l name t -> find (fun t => pystr_eqb (lower t) (lower name)) l = Some t.
Proof.
  intros E. pose proof (find_entry l name) as P. destruct (find _ l) as [t'|]; [f_equal; eapply entry_unique; eassumption|]. destruct E as (a & b & -> & H & _). exfalso. apply (P t); [apply in_or_app; right; left; reflexivity|exact H].
Qed.
Lemma walk_resolves s all segs : Forall (fun x => x <> []) segs -> forall q r, walk s all segs q = Ok (r, false) <-> resolves s q segs r.
Proof.
  induction 1 as [|x segs N F IH]; intros q r.
  - cbn [walk]. split; [intros H; injection H as <-; constructor|intros H; inversion H; reflexivity].
  - cbn [walk]. destruct (pystr_eqb_spec x (u "..")) as [E|E].
    { subst x. rewrite IH. split; [apply R_up|]. intros H. inversion H; subst; [assumption|exfalso; apply H2; reflexivity]. }
    destruct (pystr_eqb_spec x (u ".")) as [E'|E'].
    { subst x. cbn [orb]. rewrite IH. split; [apply R_here|]. intros H. inversion H; subst; [assumption|exfalso; apply H3; reflexivity]. }
    destruct (pystr_eqb_spec x []) as [E''|_]; [congruence|]. cbn [orb]. unfold find_ignore_case. split.
    + destruct (s q) as [l|] eqn:S; [|discriminate]. pose proof (find_entry l x) as P. cbn [rbind]. destruct (find _ l) as [t|]; [|discriminate]. intros H. apply IH in H. eapply R_down; eassumption.
    + intros H. inversion H as [| | |? ? ? l t ? _ _ S P R]; subst; [exfalso; apply E; reflexivity|exfalso; apply E'; reflexivity|]. rewrite S. cbn [rbind]. rewrite (find_of_entry l x t P). apply IH. exact R.
Qed.
(** A relative path leads from the start, component by component and ignoring case, to what it means *)
Theorem C85_resolves_partial s segs start q : segs <> [] -> Forall seg_ok segs -> (find_full_path s (winpath segs) start = Ok (q, false) <-> resolves s start segs q).
Proof.
  intros N F. unfold find_full_path. rewrite name_parts_winpath by assumption. cbn [walk]. change (pystr_eqb [] (u "..")) with false. change (pystr_eqb [] (u ".")) with false. change (pystr_eqb [] []) with true. cbn [orb]. cbv iota.
  apply walk_resolves. apply Forall_forall. intros x I. rewrite Forall_forall in F. apply F. exact I.
Qed.
(** In particular, where no directory has two entries that differ only in case, exactly the paths that are there, in any spelling, are found *)
Definition plain (x : pystr) : Prop := x <> u "." /\ x <> u "..".
Definition no_twins (s : dirs) : Prop := forall q l x y, s q = Some l -> In x l -> In y l -> lower x = lower y -> x = y.
Lemma entry_in l x t : (forall y z, In y l -> In z l -> lower y = lower z -> y = z) -> In t l -> lower t = lower x -> entry l x t.
Proof.
  intros U I E. pose proof (find_entry l x) as P. destruct (find _ l) as [t'|]; [|exfalso; exact (P t I E)]. replace t with t'; [exact P|]. destruct P as (a & b & El & H & _). apply U; [rewrite El; apply in_or_app; right; left; reflexivity|exact I|congruence].
Qed.
Lemma resolves_present s segs : no_twins s -> Forall plain segs -> forall start q, resolves s start segs q <-> exists names, q = start ++ names /\ map lower names = map lower segs /\ present s start names.
Proof.
  intros U. induction 1 as [|x segs (P1 & P2) F IH]; intros start q.
  - split; [intros H; inversion H; subst; exists []; rewrite app_nil_r; repeat split|]. intros ([|n names] & -> & E & _); [rewrite app_nil_r; constructor|discriminate].
  - split.
    + intros H. inversion H as [| | |? ? ? l t ? _ _ S (a & b & El & Et & _) R]; subst; [exfalso; apply P2; reflexivity|exfalso; apply P1; reflexivity|]. apply IH in R as (names & -> & E & Q). exists (t :: names). split; [rewrite <- app_assoc; reflexivity|]. split; [cbn [map]; congruence|]. split; [|exact Q].
      eexists. split; [exact S|]. apply in_or_app. right. left. reflexivity.
    + intros ([|t names] & -> & E & Q); [discriminate|]. destruct Q as ((l & S & I) & Q). cbn [map] in E. injection E as Et En. apply R_down with (l := l) (t := t); [exact P2|exact P1|exact S| |].
      * apply entry_in; [intros y z; apply (U _ _ _ _ S)|exact I|exact Et].
      * apply IH. exists names. split; [rewrite <- app_assoc; reflexivity|]. split; assumption.
Qed.
Theorem C85_found_partial s segs start q : no_twins s -> segs <> [] -> Forall seg_ok segs -> Forall plain segs ->
  (find_full_path s (winpath segs) start = Ok (q, false) <-> exists names, q = start ++ names /\ map lower names = map lower segs /\ present s start names).
Proof. intros U N F P. rewrite C85_resolves_partial by assumption. apply resolves_present; assumption. Qed.
(** If a component is missing, the rest of the path is put after the part that is there, and the caller is told; [a1] and [a2] split what comes before at the first use of the same name *)
Lemma walk_missing s all a x b q : Forall (fun y => y <> []) a -> plain x -> x <> [] -> forall start l, resolves s start a q -> s q = Some l -> (forall t, In t l -> lower t <> lower x) ->
  walk s all (a ++ x :: b) start = Ok (q ++ from_first all x, true).
Proof.
  intros F (P1 & P2) Nx. induction F as [|y a Ny F IH]; intros start l R S M.
  - inversion R; subst. cbn [app walk]. destruct (pystr_eqb_spec x (u "..")); [congruence|]. destruct (pystr_eqb_spec x (u ".")); [congruence|]. destruct (pystr_eqb_spec x []); [congruence|]. cbn [orb]. unfold find_ignore_case. rewrite S. cbn [rbind].
    pose proof (find_entry l x) as P. destruct (find _ l) as [t|]; [|reflexivity]. destruct P as (c & d & -> & E & _). exfalso. apply (M t); [apply in_or_app; right; left; reflexivity|exact E].
  - cbn [app walk]. inversion R as [|? ? ? R'|? ? ? R'|? ? ? k t ? N1 N2 S' P R']; subst.
    + change (pystr_eqb (u "..") (u "..")) with true. cbv iota. eapply IH; eassumption.
    + change (pystr_eqb (u ".") (u "..")) with false. change (pystr_eqb (u ".") (u ".")) with true. cbn [orb]. cbv iota. eapply IH; eassumption.
    + destruct (pystr_eqb_spec y (u "..")); [congruence|]. destruct (pystr_eqb_spec y (u ".")); [congruence|]. destruct (pystr_eqb_spec y []); [congruence|]. cbn [orb]. unfold find_ignore_case. rewrite S'. cbn [rbind]. rewrite (find_of_entry k y t P). eapply IH; eassumption.
Qed.
Lemma from_first_app a x b : ~ In x a -> from_first (a ++ x :: b) x = x :: b.
Proof.
  induction a as [|y a IH]; intros N; cbn [app from_first]; [destruct (pystr_eqb_spec x x); congruence|]. destruct (pystr_eqb_spec y x) as [E|_]; [exfalso; apply N; left; exact E|]. apply IH. intros I. apply N. right. exact I.
Qed.
Lemma missing s a x b start q l : Forall seg_ok (a ++ x :: b) -> plain x -> resolves s start a q -> s q = Some l -> (forall t, In t l -> lower t <> lower x) ->
  find_full_path s (winpath (a ++ x :: b)) start = Ok (q ++ from_first (a ++ x :: b) x, true).
Proof.
  intros F P R S M. assert (NE : a ++ x :: b <> []) by (destruct a; discriminate). unfold find_full_path. rewrite name_parts_winpath by assumption. cbn [walk]. change (pystr_eqb [] (u "..")) with false. change (pystr_eqb [] (u ".")) with false. change (pystr_eqb [] []) with true. cbn [orb]. cbv iota.
  apply Forall_app in F as [F1 F2]. inversion F2 as [|? ? (Nx & _) _]; subst. rewrite (walk_missing s _ a x b q) with (l := l); [|eapply Forall_impl; [|exact F1]; intros y (Y & _); exact Y|exact P|exact Nx|exact R|exact S|exact M].
  cbn [from_first]. destruct (pystr_eqb_spec [] x) as [E|_]; [congruence|reflexivity].
Qed.
Theorem C85_missing_partial s a x b start q l : Forall seg_ok (a ++ x :: b) -> plain x -> resolves s start a q -> s q = Some l -> (forall t, In t l -> lower t <> lower x) -> ~ In x a ->
  find_full_path s (winpath (a ++ x :: b)) start = Ok (q ++ x :: b, true).
Proof. intros F P R S M N. rewrite (missing s a x b start q l) by assumption. rewrite from_first_app by exact N. reflexivity. Qed.
(** but if the name of the missing component also stands earlier in the path, everything from there on is put after it: the path is wrong *)
Theorem C85_repeated_refuted s a1 x a2 b start q l : Forall seg_ok ((a1 ++ x :: a2) ++ x :: b) -> plain x -> resolves s start (a1 ++ x :: a2) q -> s q = Some l -> (forall t, In t l -> lower t <> lower x) -> ~ In x a1 ->
  find_full_path s (winpath ((a1 ++ x :: a2) ++ x :: b)) start = Ok (q ++ x :: a2 ++ x :: b, true).
Proof. intros F P R S M N. rewrite (missing s (a1 ++ x :: a2) x b start q l) by assumption. rewrite <- app_assoc. cbn [app]. rewrite from_first_app by exact N. reflexivity. Qed.
(** a path with a drive is looked for below the start, and not found there *)
Lemma split_at_cons f c b : f c = true -> Forall (fun c => f c = false) b -> split_at f (c :: b) = ([c], b).
Proof. intros C F. apply (split_at_app f [] c b C F). Qed.
Lemma ntsplit_drive c segs x : Forall seg_ok segs -> seg_ok x -> ntsplit (c :: 58 :: 92 :: winpath (segs ++ [x])) = (c :: 58 :: 92 :: winpath segs, x).
Proof.
  intros F (Nx & A & B & _). cbn [ntsplit]. pose proof (sep_free x A B) as S. destruct segs as [|a l].
  - cbn [app winpath]. rewrite split_at_cons by (reflexivity || exact S). reflexivity.
  - rewrite winpath_snoc by discriminate. change (92 :: winpath (a :: l) ++ 92 :: x) with ((92 :: winpath (a :: l)) ++ 92 :: x). rewrite split_at_app by (reflexivity || exact S).
    destruct (winpath_last (a :: l) F ltac:(discriminate)) as (h & k & E & K). rewrite E. change (92 :: h ++ [k]) with ((92 :: h) ++ [k]). rewrite trim_sep by exact K. reflexivity.
Qed.
Lemma explode_drive c segs : Forall seg_ok segs -> forall fuel acc, (length segs <= fuel)%nat -> explode fuel (c :: 58 :: 92 :: winpath segs) acc = [c; 58; 92] :: segs ++ acc.
Proof.
  induction segs as [|x l IH] using rev_ind; intros F fuel acc L; [destruct fuel; reflexivity|]. apply Forall_app in F as [F1 F2]. inversion F2 as [|? ? X _]; subst.
  rewrite app_length in L. cbn [length] in L. destruct fuel as [|fuel]; [lia|]. cbn [explode]. rewrite ntsplit_drive by assumption. destruct X as (Nx & _). destruct x as [|k x]; [congruence|]. rewrite IH by (exact F1 || lia). rewrite <- app_assoc. reflexivity.
Qed.
Theorem C85_drive_refuted s c segs start l : Forall seg_ok segs -> segs <> [] -> s start = Some l -> (forall t, In t l -> ~ In 92 t) ->
  find_full_path s ([c; 58; 92] ++ winpath segs) start = Ok (start ++ [c; 58; 92] :: segs, true).
Proof.
  intros F N S M. cbn [app]. assert (NP : name_parts (c :: 58 :: 92 :: winpath segs) = [c; 58; 92] :: segs).
  { destruct (exists_last N) as (k & x & ->). pose proof F as FF. apply Forall_app in F as [F1 F2]. inversion F2 as [|? ? X _]; subst. unfold name_parts. rewrite ntsplit_drive by assumption.
    apply explode_drive; [exact F1|]. pose proof (winpath_length _ FF) as L. rewrite app_length in L. cbn [length]. lia. }
  unfold find_full_path. rewrite NP. cbn [walk]. destruct (pystr_eqb_spec [c; 58; 92] (u "..")); [discriminate|]. destruct (pystr_eqb_spec [c; 58; 92] (u ".")); [discriminate|]. destruct (pystr_eqb_spec [c; 58; 92] []); [discriminate|]. cbn [orb]. unfold find_ignore_case. rewrite S. cbn [rbind].
  pose proof (find_entry l [c; 58; 92]) as P. destruct (find (fun t : pystr => pystr_eqb (lower t) (lower [c; 58; 92])) l) as [t|].
  - destruct P as (a & b & El & E & _). exfalso. apply (M t); [rewrite El; apply in_or_app; right; left; reflexivity|]. assert (I : In 92 (lower t)) by (rewrite E; cbn [lower map]; right; right; left; reflexivity).
    apply in_map_iff in I as (z & Ez & I). replace 92 with z; [exact I|]. unfold lower_char in Ez. destruct ((65 <=? z) && (z <=? 90)) eqn:Q; [apply andb_true_iff in Q as [Q1 Q2]; apply Z.leb_le in Q1, Q2; lia|exact Ez].
  - cbn [from_first]. destruct (pystr_eqb_spec [c; 58; 92] [c; 58; 92]); [reflexivity|congruence].
Qed.
(** The memo file of a table is the entry of its directory with the table's name and the extension asked for, ignoring case *)
Theorem C85_memo s dir l stem ext e : s dir = Some l -> ~ In 47 stem -> named stem -> ~ In 47 ext -> ~ In 46 ext ->
  (exists t, memo_filename s dir (stem ++ u "." ++ ext) e = Ok (Some (dir ++ [t])) /\ In t l /\ lower t = lower (stem ++ u "." ++ e)) \/
  (memo_filename s dir (stem ++ u "." ++ ext) e = Ok None /\ forall t, In t l -> lower t <> lower (stem ++ u "." ++ e)).
Proof.
  intros S A N B C. unfold memo_filename. change (stem ++ u "." ++ ext) with ([] ++ stem ++ 46 :: ext). rewrite splitext_ext by ((left; reflexivity) || assumption). cbn [fst app]. unfold find_ignore_case. rewrite S.
  pose proof (find_entry l (stem ++ u "." ++ e)) as P. destruct (find _ l) as [t|]; [left; exists t; split; [reflexivity|]; destruct P as (a & b & -> & E & _); split; [apply in_or_app; right; left; reflexivity|exact E]|right; split; [reflexivity|exact P]].
Qed.
Print Assumptions C85_resolves_partial.
Print Assumptions C85_found_partial.
Print Assumptions C85_missing_partial.
Print Assumptions C85_repeated_refuted.
Print Assumptions C85_drive_refuted.
Print Assumptions C85_memo.
Definition ex_dirs : dirs := fun q =>
  match q with
  | [a] => if pystr_eqb a (u "proj") then Some [u "Forms"; u "main.prg"] else None
  | [a; b] => if pystr_eqb a (u "proj") && pystr_eqb b (u "Forms") then Some [u "Sub"; u "a.SCX"; u "A.sct"] else None
  | _ => None
  end.
Example C85_example : find_full_path ex_dirs (u "forms\A.scx") [u "proj"] = Ok ([u "proj"; u "Forms"; u "a.SCX"], false) /\ winpath [u "forms"; u "A.scx"] = u "forms\A.scx" /\
  find_full_path ex_dirs (u "..\proj\forms\a.scx") [u "proj"] = Err GenericException /\
  find_full_path ex_dirs (u "forms\forms\x.prg") [u "proj"] = Ok ([u "proj"; u "Forms"; u "forms"; u "forms"; u "x.prg"], true) /\
  find_full_path ex_dirs (u "C:\proj\main.prg") [u "proj"] = Ok ([u "proj"; u "C:\"; u "proj"; u "main.prg"], true) /\
  memo_filename ex_dirs [u "proj"; u "Forms"] (u "a.SCX") (u "sct") = Ok (Some [u "proj"; u "Forms"; u "A.sct"]).
Proof. repeat split. Qed.
