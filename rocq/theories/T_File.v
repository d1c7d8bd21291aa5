(** Properties C52 (file names and sources), C72 (projects), C73 (nothing left behind) of the conversion of files. *)
From Verif Require Import PyBase PyStr M_File.
Open Scope Z_scope.

(** A path of a file: a directory part, empty or ending in a slash, a stem and an extension *)
Definition dots (s : pystr) : Prop := Forall (fun c => c = 46) s.
Definition path (p d stem ext : pystr) : Prop :=
  p = d ++ stem ++ 46 :: ext /\ (d = [] \/ exists d', d = d' ++ [47]) /\ ~ In 47 stem /\ ~ In 47 ext /\ ~ In 46 ext /\ ~ dots stem.
Definition small (s : pystr) : pystr := map (fun c => if (65 <=? c) && (c <=? 90) then c + 32 else c) s.
Definition is_program (ext : pystr) : Prop := In (small ext) (map u ["prg"; "mpr"; "spr"; "scx"; "vcx"]%string).
Definition is_known (ext : pystr) : Prop := In (small ext) (map u ["pjx"; "prg"; "mpr"; "spr"; "scx"; "vcx"; "frx"; "mnx"; "fll"; "app"; "fpw"; "h"]%string).
(** The module a program file becomes in a directory *)
Definition module_name (stem ext : pystr) : pystr :=
  small stem ++ (if pystr_eqb (small ext) (u "prg") then [] else 95 :: small ext) ++ u ".py".
Definition directory (p : pystr) : Prop := p <> [] /\ last p 0 <> 47.

Lemma lower_char_sep c k : (k = 47 \/ k = 46) -> lower_char c = k <-> c = k.
Proof. unfold lower_char. destruct (Z.leb_spec 65 c); destruct (Z.leb_spec c 90); cbn [andb]; lia. Qed.
Lemma in_lower k s : (k = 47 \/ k = 46) -> In k (lower s) <-> In k s.
Proof.
  intros K. unfold lower. rewrite in_map_iff. split.
  - intros (c & E & I). apply (lower_char_sep c k K) in E. congruence.
  - intros I. exists k. split; [apply lower_char_sep; auto|exact I].
Qed.
Lemma small_lower s : small s = lower s. Proof. reflexivity. Qed.
Lemma existsb_in k s : existsb (Z.eqb k) s = true <-> In k s.
Proof. rewrite existsb_exists. split; [intros (c & I & E); apply Z.eqb_eq in E; congruence|intros I; exists k; split; [exact I|apply Z.eqb_refl]]. Qed.
Lemma basename_flat b : ~ In 47 b -> basename b = b.
Proof.
  destruct b as [|c b]; [reflexivity|]. intros H. cbn [basename]. destruct (existsb (Z.eqb 47) (c :: b)) eqn:E; [|reflexivity]. apply existsb_in in E. contradiction.
Qed.
Lemma basename_app d b : (d = [] \/ exists d', d = d' ++ [47]) -> ~ In 47 b -> basename (d ++ b) = b.
Proof.
  intros [-> |(d' & ->)] H; [apply basename_flat; exact H|]. rewrite <- app_assoc. cbn [app]. induction d' as [|c d IH].
  - cbn [app basename]. cbn [existsb]. change (47 =? 47) with true. cbn [orb]. apply basename_flat. exact H.
  - cbn [app basename]. destruct (existsb (Z.eqb 47) (c :: d ++ 47 :: b)) eqn:E; [exact IH|]. exfalso. assert (In 47 (c :: d ++ 47 :: b)) as I by (right; apply in_or_app; right; left; reflexivity).
    apply existsb_in in I. congruence.
Qed.
Lemma last_dot_none s : ~ In 46 s -> last_dot s = None.
Proof.
  induction s as [|c s IH]; intros H; [reflexivity|]. cbn [last_dot]. rewrite IH by (intros I; apply H; right; exact I). destruct (Z.eqb_spec c 46) as [->|_]; [exfalso; apply H; left; reflexivity|reflexivity].
Qed.
Lemma last_dot_app a e : ~ In 46 e -> last_dot (a ++ 46 :: e) = Some (a, 46 :: e).
Proof.
  intros H. induction a as [|c a IH]; [cbn [app last_dot]; rewrite last_dot_none by exact H; reflexivity|]. cbn [app last_dot]. rewrite IH. reflexivity.
Qed.
Lemma split_ext_app a e : ~ In 46 e -> ~ dots a -> split_ext (a ++ 46 :: e) = (a, 46 :: e).
Proof.
  intros H D. unfold split_ext. rewrite last_dot_app by exact H. destruct (forallb (Z.eqb 46) a) eqn:E; [|reflexivity]. exfalso. apply D. rewrite forallb_forall in E. apply Forall_forall. intros c I. specialize (E c I). apply Z.eqb_eq in E. congruence.
Qed.
Lemma lower_dots s : dots (lower s) -> dots s.
Proof. unfold dots, lower. rewrite !Forall_forall. intros H c I. apply (lower_char_sep c 46); [auto|]. apply H. apply in_map. exact I. Qed.
Lemma path_parts p d stem ext : path p d stem ext ->
  basename p = stem ++ 46 :: ext /\ split_ext (basename p) = (stem, 46 :: ext) /\
  split_ext (basename (lower p)) = (small stem, 46 :: small ext) /\ split_ext (lower (basename p)) = (small stem, 46 :: small ext) /\ lower (basename p) = small stem ++ 46 :: small ext.
Proof.
  intros (-> & D & S1 & S2 & S3 & S4). assert (N : ~ In 47 (stem ++ 46 :: ext)) by (rewrite in_app_iff; cbn; intros [|[|]]; [auto|discriminate|auto]).
  rewrite (basename_app d _ D N). rewrite split_ext_app by assumption. split; [reflexivity|]. split; [reflexivity|].
  assert (E : lower (stem ++ 46 :: ext) = small stem ++ 46 :: small ext) by (unfold lower; rewrite map_app; reflexivity).
  assert (SP : split_ext (small stem ++ 46 :: small ext) = (small stem, 46 :: small ext)).
  { apply split_ext_app; [rewrite small_lower, in_lower by auto; exact S3|]. rewrite small_lower. intros X. apply S4. apply lower_dots. exact X. }
  assert (B : basename (lower (d ++ stem ++ 46 :: ext)) = small stem ++ 46 :: small ext).
  { unfold lower. rewrite map_app. fold (lower d). fold (lower (stem ++ 46 :: ext)). rewrite E. apply basename_app.
    - destruct D as [-> |(d' & ->)]; [left; reflexivity|right]. exists (lower d'). unfold lower. rewrite map_app. reflexivity.
    - rewrite <- E, in_lower by auto. exact N. }
  rewrite B, E, SP. repeat split.
Qed.
Lemma join_name o n : directory o -> ~ In 47 n -> join o n = o ++ 47 :: n.
Proof.
  intros [E L] N. unfold join. destruct n as [|c n]; [cbn [prefixb]|].
  - destruct o; [congruence|]. destruct (Z.eqb_spec (last (z :: o) 0) 47); [congruence|reflexivity].
  - cbn [prefixb]. destruct (Z.eqb_spec 47 c) as [<-|_]; [exfalso; apply N; left; reflexivity|]. cbn [andb]. destruct o; [congruence|]. destruct (Z.eqb_spec (last (z :: o) 0) 47); [congruence|reflexivity].
Qed.
Lemma one_of_spec s l : one_of s l = true <-> In s (map u l).
Proof.
  unfold one_of. rewrite existsb_exists, in_map_iff. split; intros (x & H1 & H2); exists x; [destruct (pystr_eqb_spec s (u x)); [split; congruence|discriminate]|].
  split; [exact H2|]. rewrite H1. destruct (pystr_eqb_spec s s); congruence.
Qed.
Lemma dotted x l : In (46 :: x) (map u (map (String ".") l)) <-> In x (map u l).
Proof.
  rewrite map_map, !in_map_iff. split; intros (y & E & I); exists y.
  - cbn [u] in E. injection E as E. split; assumption.
  - cbn [u]. rewrite E. split; [reflexivity|exact I].
Qed.
Lemma not_one x l : ~ In x (map u l) -> one_of (46 :: x) (map (String ".") l) = false.
Proof. intros H. destruct (one_of (46 :: x) (map (String ".") l)) eqn:E; [|reflexivity]. exfalso. apply H. apply one_of_spec in E. exact (proj1 (dotted _ _) E). Qed.
Lemma put_same s p n : put s p n p = Some n.
Proof. unfold put. destruct (pystr_eqb_spec p p); congruence. Qed.
Lemma put_other s p n q : q <> p -> put s p n q = s q.
Proof. intros H. unfold put. destruct (pystr_eqb_spec q p); congruence. Qed.

(** ** What happens to a file with a given extension *)
Lemma convert_program fuel e s p d stem ext out : path p d stem ext -> is_program ext ->
  convert_file fuel e s p out =
    if isdir s out then let t := join out (module_name stem ext) in if isfile s t then (s, Ok tt) else finish e s p t
    else finish e s p out.
Proof.
  intros P K. destruct (path_parts _ _ _ _ P) as (_ & _ & E1 & E2 & _). unfold convert_file, convert_with. rewrite E1, E2. cbn [fst snd].
  assert (K1 : one_of (46 :: small ext) [".pjx"]%string = false).
  { destruct (one_of _ _) eqn:X; [|reflexivity]. apply one_of_spec in X. apply (dotted _ ["pjx"]%string) in X. destruct X as [X|[]].
    unfold is_program in K. rewrite <- X in K. cbn in K. repeat (destruct K as [K|K]; [discriminate K|]). contradiction. }
  assert (K2 : one_of (46 :: small ext) [".prg"; ".mpr"; ".spr"; ".scx"; ".vcx"]%string = true) by (apply one_of_spec; apply (dotted _ ["prg"; "mpr"; "spr"; "scx"; "vcx"]%string); exact K).
  rewrite K1, K2. destruct (isdir s out); [|reflexivity]. cbn zeta.
  assert (N : small stem ++ (if one_of (46 :: small ext) [".prg"%string] then [] else map (fun c => if c =? 46 then 95 else c) (46 :: small ext)) ++ u ".py" = module_name stem ext); [|rewrite N; reflexivity].
  unfold module_name, is_program in *. clear - K. cbn [map In] in K. repeat (destruct K as [K|K]; [rewrite <- K; reflexivity|]). contradiction.
Qed.
Lemma module_flat stem ext : ~ In 47 stem -> is_program ext -> ~ In 47 (module_name stem ext).
Proof.
  intros H K. unfold module_name. rewrite in_app_iff. intros [X|X]; [rewrite small_lower, in_lower in X by auto; contradiction|]. unfold is_program in K. cbn [map In] in K.
  repeat (destruct K as [K|K]; [rewrite <- K in X; cbn in X; repeat (destruct X as [X|X]; [discriminate X|]); contradiction|]). contradiction.
Qed.
(** what ends up written when everything succeeds *)
Definition converts (e : env) (s : fs) (p stem : pystr) (tmpdata data : list Z) : Prop :=
  exists text py, load e s p = Ok text /\ cp1252 e (u "procedure _program_main" ++ 10 :: text) = Some tmpdata /\
    conv e (u "procedure _program_main" ++ 10 :: text) stem = Ok py /\ utf8 e (u "# coding=utf-8" ++ 10 :: py) = Some data.
Lemma finish_ok e s p d stem ext o td data : path p d stem ext -> converts e s p stem td data -> s (tmp e s) = None -> tmp e s <> o -> isdir s o = false ->
  finish e s p o = (put (put s (tmp e s) (File td)) o (File data), Ok tt).
Proof.
  intros P (text & py & L & C & V & U) F N D. destruct (path_parts _ _ _ _ P) as (_ & E & _). unfold finish. rewrite L. cbn [app] in *. rewrite C. unfold write at 1.
  assert (isdir s (tmp e s) = false) as -> by (unfold isdir; rewrite F; reflexivity). rewrite E. cbn [fst]. rewrite V, U. unfold write.
  assert (isdir (put s (tmp e s) (File td)) o = false) as ->; [|reflexivity]. unfold isdir in *. rewrite put_other by congruence. exact D.
Qed.
Lemma finish_frame e s p o q : q <> tmp e s -> q <> o -> fst (finish e s p o) q = s q.
Proof.
  intros A B. assert (W : forall s x dt, q <> x -> fst (write s x dt) q = s q).
  { intros s0 x dt H. unfold write. destruct (isdir s0 x); [reflexivity|]. destruct dt; cbn [fst]; apply put_other; exact H. }
  unfold finish. destruct (load e s p); [|reflexivity]. specialize (W s (tmp e s) (cp1252 e (u "procedure _program_main" ++ [10] ++ a)) A) as W1.
  destruct (write s (tmp e s) _) as [s1 [[]|x]]; cbn [fst] in W1 |- *; [|exact W1]. destruct (conv e _ _); cbn [fst]; [|exact W1]. rewrite W by exact B. exact W1.
Qed.

(** * C52 *)
(** A program file converted into a directory becomes stem[_ext].py there; nothing else but a temporary file changes *)
Theorem C52_written fuel e s p d stem ext out td data : path p d stem ext -> is_program ext -> s out = Some Dir -> directory out ->
  let t := out ++ 47 :: module_name stem ext in
  s t = None -> converts e s p stem td data -> s (tmp e s) = None -> tmp e s <> t ->
  exists s', convert_file fuel e s p out = (s', Ok tt) /\ s' t = Some (File data) /\ forall q, q <> t -> q <> tmp e s -> s' q = s q.
Proof.
  intros P K DO OK t T C F N. rewrite (convert_program fuel e s p d stem ext out P K). unfold isdir at 1. rewrite DO. cbn zeta. rewrite join_name by (assumption || (apply module_flat; [apply P|exact K])). fold t.
  unfold isfile. rewrite T. rewrite (finish_ok e s p d stem ext t td data P C F N) by (unfold isdir; rewrite T; reflexivity). eexists. split; [reflexivity|]. split; [apply put_same|].
  intros q Q1 Q2. rewrite !put_other by assumption. reflexivity.
Qed.
Print Assumptions C52_written.
(** An existing module is kept, the conversion skipped *)
Theorem C52_existing fuel e s p d stem ext out data : path p d stem ext -> is_program ext -> s out = Some Dir -> directory out ->
  s (out ++ 47 :: module_name stem ext) = Some (File data) -> convert_file fuel e s p out = (s, Ok tt).
Proof.
  intros P K DO OK T. rewrite (convert_program fuel e s p d stem ext out P K). unfold isdir. rewrite DO. cbn zeta. rewrite join_name by (assumption || (apply module_flat; [apply P|exact K])).
  unfold isfile. rewrite T. reflexivity.
Qed.
Print Assumptions C52_existing.

Lemma last_app (a b : pystr) k : b <> [] -> last (a ++ b) k = last b k.
Proof.
  intros H. induction a as [|x a IH]; [reflexivity|]. cbn [app]. destruct (a ++ b) eqn:E; [apply app_eq_nil in E; destruct E; congruence|]. cbn [last]. exact IH.
Qed.
Lemma last_small s : s <> [] -> last (small s) 0 = lower_char (last s 0).
Proof.
  intros H. induction s as [|c s IH] using rev_ind; [congruence|]. unfold small. rewrite map_app, !last_app by discriminate. reflexivity.
Qed.
(** The source is never touched when the output goes to a directory, whether the conversion succeeds or fails *)
Theorem C52_source_partial fuel e s p d stem ext out data : path p d stem ext -> small ext <> u "pjx" -> s p = Some (File data) -> s out = Some Dir -> directory out -> s (tmp e s) = None ->
  fst (convert_file fuel e s p out) p = Some (File data).
Proof.
  intros P NP S DO OK F. assert (NT : p <> tmp e s) by congruence.
  destruct (in_dec (list_eq_dec Z.eq_dec) (small ext) (map u ["prg"; "mpr"; "spr"; "scx"; "vcx"]%string)) as [K|K].
  - rewrite (convert_program fuel e s p d stem ext out P K). unfold isdir. rewrite DO. cbn zeta. destruct (isfile s _); [exact S|]. rewrite finish_frame; [exact S|exact NT|].
    rewrite join_name by (assumption || (apply module_flat; [apply P|exact K])). intros E. apply (f_equal (fun x => last x 0)) in E. destruct P as (-> & _).
    assert (EX : ext <> []) by (intros ->; cbn in K; repeat (destruct K as [K|K]; [discriminate K|]); contradiction).
    replace (d ++ stem ++ 46 :: ext) with ((d ++ stem ++ [46]) ++ ext) in E by (rewrite <- !app_assoc; reflexivity). rewrite last_app in E by exact EX.
    unfold module_name in E. rewrite !app_comm_cons, !app_assoc in E. rewrite last_app in E by discriminate. cbn [last u] in E.
    assert (X : last (small ext) 0 = 121) by (rewrite last_small, E by exact EX; reflexivity). cbn [map In] in K. repeat (destruct K as [K|K]; [rewrite <- K in X; discriminate X|]). contradiction.
  - destruct (path_parts _ _ _ _ P) as (B & _ & E1 & E2 & E3). unfold convert_file, convert_with. rewrite E1. cbn [fst snd].
    assert (K1 : one_of (46 :: small ext) [".pjx"]%string = false).
    { destruct (one_of _ _) eqn:X; [|reflexivity]. apply one_of_spec in X. apply (dotted _ ["pjx"]%string) in X. destruct X as [X|[]]. congruence. }
    assert (K2 : one_of (46 :: small ext) [".prg"; ".mpr"; ".spr"; ".scx"; ".vcx"]%string = false).
    { exact (not_one _ ["prg"; "mpr"; "spr"; "scx"; "vcx"]%string K). }
    rewrite K1, K2. destruct (one_of _ [".frx"; ".mnx"; ".fll"; ".app"]%string); [exact S|]. destruct (one_of _ [".fpw"; ".h"]%string); [exact S|]. unfold isdir at 1. rewrite DO. rewrite S.
    destruct (pystr_eqb_spec (join out (lower (basename p))) p) as [_|NE]; [exact S|]. cbn [orb]. destruct (isdir s _); [exact S|]. cbn [fst]. rewrite put_other by congruence. exact S.
Qed.
Print Assumptions C52_source_partial.
(** Given its own name as the output it is overwritten *)
Theorem C52_source_refuted fuel e s p d stem ext src td data : path p d stem ext -> is_program ext -> s p = Some (File src) -> converts e s p stem td data -> s (tmp e s) = None ->
  fst (convert_file fuel e s p p) p = Some (File data).
Proof.
  intros P K S C F. rewrite (convert_program fuel e s p d stem ext p P K). assert (D : isdir s p = false) by (unfold isdir; rewrite S; reflexivity). rewrite D.
  rewrite (finish_ok e s p d stem ext p td data P C F) by (congruence || exact D). cbn [fst]. apply put_same.
Qed.
Print Assumptions C52_source_refuted.

Lemma unknown_ext fuel e s p d stem ext out : path p d stem ext -> ~ is_known ext -> convert_file fuel e s p out =
  if isdir s out then
    let target := join out (small stem ++ 46 :: small ext) in
    match s p with
    | Some (File d) => if pystr_eqb target p || isdir s target then (s, Err GenericException) else (put s target (File d), Ok tt)
    | _ => (s, Err GenericException)
    end
  else (s, Ok tt).
Proof.
  intros P K. destruct (path_parts _ _ _ _ P) as (B & _ & E1 & E2 & E3). unfold convert_file, convert_with. rewrite E1, E3. cbn [fst snd].
  assert (X : forall l, incl (map u l) (map u ["pjx"; "prg"; "mpr"; "spr"; "scx"; "vcx"; "frx"; "mnx"; "fll"; "app"; "fpw"; "h"]%string) -> one_of (46 :: small ext) (map (String ".") l) = false).
  { intros l I. apply not_one. intros X. apply K. apply I. exact X. }
  pose proof (X ["pjx"]%string ltac:(intros x; cbn [map In]; tauto)) as X1. pose proof (X ["prg"; "mpr"; "spr"; "scx"; "vcx"]%string ltac:(intros x; cbn [map In]; tauto)) as X2.
  pose proof (X ["frx"; "mnx"; "fll"; "app"]%string ltac:(intros x; cbn [map In]; tauto)) as X3. pose proof (X ["fpw"; "h"]%string ltac:(intros x; cbn [map In]; tauto)) as X4.
  cbn [map] in X1, X2, X3, X4. rewrite X1, X2, X3, X4. reflexivity.
Qed.
(** Unknown extensions are not rejected: the file is copied, over whatever has that name *)
Theorem C52_unknown_refuted fuel e s p d stem ext out data old : path p d stem ext -> ~ is_known ext -> s out = Some Dir -> directory out -> s p = Some (File data) ->
  let t := out ++ 47 :: small stem ++ 46 :: small ext in
  s t = Some (File old) -> t <> p ->
  snd (convert_file fuel e s p out) = Ok tt /\ fst (convert_file fuel e s p out) t = Some (File data).
Proof.
  intros P K DO OK S t T NE. assert (EQ : convert_file fuel e s p out = (put s t (File data), Ok tt)); [|rewrite EQ; split; [reflexivity|apply put_same]].
  rewrite (unknown_ext fuel e s p d stem ext out P K). unfold isdir at 1. rewrite DO. cbn zeta. rewrite join_name; [|exact OK|].
  - fold t. rewrite S. destruct (pystr_eqb_spec t p) as [|_]; [congruence|]. unfold isdir. rewrite T. reflexivity.
  - destruct P as (_ & _ & S1 & S2 & _). rewrite in_app_iff. intros [X|[X|X]]; [rewrite small_lower, in_lower in X by auto; contradiction|discriminate|rewrite small_lower, in_lower in X by auto; contradiction].
Qed.
Print Assumptions C52_unknown_refuted.
(** Without a directory to copy to, and for the kinds of files that are not converted, nothing is written *)
Theorem C52_ignored_partial fuel e s p d stem ext out : path p d stem ext ->
  In (small ext) (map u ["frx"; "mnx"; "fll"; "app"; "fpw"; "h"]%string) \/ (~ is_known ext /\ s out <> Some Dir) ->
  convert_file fuel e s p out = (s, Ok tt).
Proof.
  intros P [K|[K D]].
  - destruct (path_parts _ _ _ _ P) as (B & _ & E1 & E2 & E3). unfold convert_file, convert_with. rewrite E1. cbn [fst snd]. clear - K. cbn [map In] in K.
    repeat (destruct K as [K|K]; [rewrite <- K; reflexivity|]). contradiction.
  - rewrite (unknown_ext fuel e s p d stem ext out P K). unfold isdir. destruct (s out) as [[]|]; [reflexivity|congruence|reflexivity].
Qed.
Print Assumptions C52_ignored_partial.

(** * C73 *)
(** Only the output and the temporary file are touched, whatever happens *)
Theorem C73_frame_partial fuel e s p d stem ext out q : path p d stem ext -> is_program ext -> q <> tmp e s -> q <> out -> q <> join out (module_name stem ext) ->
  fst (convert_file fuel e s p out) q = s q.
Proof.
  intros P K A B C. rewrite (convert_program fuel e s p d stem ext out P K). destruct (isdir s out); [cbn zeta; destruct (isfile s _); [reflexivity|]|]; apply finish_frame; assumption.
Qed.
Print Assumptions C73_frame_partial.
(** but the temporary file is never removed, also when the conversion fails *)
Theorem C73_left_refuted fuel e s p d stem ext out text : path p d stem ext -> is_program ext -> s (tmp e s) = None ->
  load e s p = Ok text -> s out <> Some Dir -> fst (convert_file fuel e s p out) (tmp e s) <> None.
Proof.
  intros P K F L D. rewrite (convert_program fuel e s p d stem ext out P K). assert (isdir s out = false) as -> by (unfold isdir; destruct (s out) as [[]|]; congruence).
  unfold finish. rewrite L. unfold write at 1. assert (isdir s (tmp e s) = false) as -> by (unfold isdir; rewrite F; reflexivity).
  destruct (cp1252 e _); cbn [fst]; [|rewrite put_same; discriminate]. destruct (conv e _ _); cbn [fst]; [|rewrite put_same; discriminate].
  unfold write. destruct (isdir _ out); cbn [fst]; [rewrite put_same; discriminate|]. destruct (utf8 e _); cbn [fst]; unfold put at 1; destruct (pystr_eqb _ _); try discriminate; rewrite put_same; discriminate.
Qed.
Print Assumptions C73_left_refuted.
(** A character that cp1252 lacks makes the conversion fail although the output is UTF-8 *)
Theorem C73_cp1252_refuted fuel e s p d stem ext out text : path p d stem ext -> is_program ext -> s (tmp e s) = None -> load e s p = Ok text -> s out <> Some Dir ->
  cp1252 e (u "procedure _program_main" ++ 10 :: text) = None ->
  snd (convert_file fuel e s p out) = Err UnicodeError /\ (out <> tmp e s -> fst (convert_file fuel e s p out) out = s out).
Proof.
  intros P K F L D C. rewrite (convert_program fuel e s p d stem ext out P K). assert (isdir s out = false) as -> by (unfold isdir; destruct (s out) as [[]|]; congruence).
  unfold finish. rewrite L. cbn [app] in *. rewrite C. assert (W : write s (tmp e s) None = (put s (tmp e s) (File []), Err UnicodeError)) by (unfold write, isdir; rewrite F; reflexivity). rewrite W. cbn [fst snd]. split; [reflexivity|]. intros N. apply put_other. exact N.
Qed.
Print Assumptions C73_cp1252_refuted.

(** * C72 *)
(** The conversion of a project never completes: the start file cannot be written *)
Theorem C72_incomplete_refuted fuel e s p d stem ext out : path p d stem ext -> small ext = u "pjx" -> snd (convert_file fuel e s p out) <> Ok tt.
Proof.
  intros P K. destruct (path_parts _ _ _ _ P) as (_ & _ & E1 & _). unfold convert_file, convert_with. rewrite E1. cbn [snd]. rewrite K. change (one_of (46 :: u "pjx") [".pjx"]%string) with true. cbn iota.
  destruct fuel as [|fuel]; cbn [convert_project]; [discriminate|]. destruct (records e s p) as [rows|]; [|discriminate]. destruct (mkdir s out) as [s1|]; [|discriminate].
  destruct (mkdir s1 _) as [s2|]; [|discriminate]. destruct (existsb _ _); discriminate.
Qed.
Print Assumptions C72_incomplete_refuted.
(** The conversion depends on the rows of a project only through the dictionary made of them *)
Lemma same_files ld cp cv ut tm rows rows' : read_rows rows [] = read_rows rows' [] ->
  forall fuel s p out, convert_file fuel (Env ld cp cv ut tm (fun _ _ => Ok rows)) s p out = convert_file fuel (Env ld cp cv ut tm (fun _ _ => Ok rows')) s p out.
Proof.
  intros RR. set (e := Env ld cp cv ut tm (fun _ _ => Ok rows)). set (e' := Env ld cp cv ut tm (fun _ _ => Ok rows')).
  assert (W : forall run run', (forall s p o, run s p o = run' s p o) -> forall s p o, convert_with run e s p o = convert_with run' e' s p o).
  { intros run run' H s p o. unfold convert_with. rewrite H. reflexivity. }
  assert (PR : forall fuel s p o, convert_project fuel e s p o = convert_project fuel e' s p o).
  { induction fuel as [|fuel IH]; intros s p o; [reflexivity|]. cbn [convert_project]. change (records e s p) with (@Ok (list prow) rows). change (records e' s p) with (@Ok (list prow) rows'). cbn iota. rewrite RR.
    destruct (mkdir s o) as [s1|]; [|reflexivity]. destruct (mkdir s1 _) as [s2|]; [|reflexivity]. generalize (read_rows rows' []). intros fl.
    assert (F : forall s, fold_left (fun s '(k, v) => fst (convert_with (convert_project fuel e) e s (match v with Some p => p | None => k end) (join o (basename o)))) fl s =
                          fold_left (fun s '(k, v) => fst (convert_with (convert_project fuel e') e' s (match v with Some p => p | None => k end) (join o (basename o)))) fl s).
    { induction fl as [|[k v] fl IHf]; intros s0; [reflexivity|]. cbn [fold_left]. rewrite (W _ _ IH). apply IHf. }
    rewrite F. reflexivity. }
  intros fuel s p out. unfold convert_file. apply W. apply PR.
Qed.
(** Deleted and excluded rows, and rows with an empty exclude column, take no part *)
Definition takes_part (r : prow) : bool := negb (r_deleted r) && match r_exclude r with Some false => true | _ => false end.
Theorem C72_excluded_partial ld cp cv ut tm rows : forall fuel s p out,
  convert_file fuel (Env ld cp cv ut tm (fun _ _ => Ok rows)) s p out = convert_file fuel (Env ld cp cv ut tm (fun _ _ => Ok (filter takes_part rows))) s p out.
Proof.
  apply same_files. generalize (@nil (pystr * option pystr)). induction rows as [|r rows IH]; intros f; [reflexivity|]. cbn [read_rows filter]. unfold takes_part at 1.
  destruct (r_deleted r) eqn:D; cbn [orb negb andb]; [apply IH|]. destruct (r_exclude r) as [[]|] eqn:X; [apply IH| |apply IH]. cbn [read_rows]. rewrite D, X. cbn [orb]. apply IH.
Qed.
Print Assumptions C72_excluded_partial.
(** Of two files with the same name in different directories only the second is converted (here: the first two rows of the project) *)
Definition included (r : prow) : Prop := r_deleted r = false /\ r_exclude r = Some false /\ r_failed r = false.
Theorem C72_same_name_refuted ld cp cv ut tm r1 r2 d1 d2 n1 n2 x1 x2 : included r1 -> included r2 ->
  path (r_path r1) d1 n1 x1 -> path (r_path r2) d2 n2 x2 -> small n1 = small n2 -> small x1 = small x2 ->
  forall rows fuel s p out, convert_file fuel (Env ld cp cv ut tm (fun _ _ => Ok (r1 :: r2 :: rows))) s p out = convert_file fuel (Env ld cp cv ut tm (fun _ _ => Ok (r2 :: rows))) s p out.
Proof.
  intros (A1 & A2 & A3) (B1 & B2 & B3) P1 P2 EN EX rows. apply same_files.
  destruct (path_parts _ _ _ _ P1) as (_ & _ & _ & _ & L1). destruct (path_parts _ _ _ _ P2) as (_ & _ & _ & _ & L2).
  cbn [read_rows]. rewrite A1, A2, A3, B1, B2, B3. cbn [orb]. rewrite L1, L2, EN, EX. cbn [add].
  assert (Q : pystr_eqb (small n2 ++ 46 :: small x2) (small n2 ++ 46 :: small x2) = true) by (destruct (pystr_eqb_spec (small n2 ++ 46 :: small x2) (small n2 ++ 46 :: small x2)); congruence). rewrite Q. reflexivity.
Qed.
Print Assumptions C72_same_name_refuted.

(** ** What the loop does achieve *)
Record source := Src { c_path : pystr; c_dir : pystr; c_stem : pystr; c_ext : pystr; c_tmp : list Z; c_data : list Z }.
Definition target (package : pystr) (c : source) : pystr := package ++ 47 :: module_name (c_stem c) (c_ext c).
Definition row_of (c : source) : prow := Row false (Some false) (c_path c) false false.
Definition good (e : env) (s : fs) (package : pystr) (c : source) : Prop :=
  path (c_path c) (c_dir c) (c_stem c) (c_ext c) /\ is_program (c_ext c) /\ converts e s (c_path c) (c_stem c) (c_tmp c) (c_data c) /\ s (target package c) = None.
(** what is loaded depends only on the files there are at the start *)
Definition stable (e : env) (s : fs) : Prop := forall s' p, (forall q, s q <> None -> s' q = s q) -> load e s' p = load e s p.

Lemma read_rows_distinct cs : forall f, NoDup (map (fun c => lower (basename (c_path c))) cs) -> (forall k, In k (map fst f) -> ~ In k (map (fun c => lower (basename (c_path c))) cs)) ->
  read_rows (map row_of cs) f = f ++ map (fun c => (lower (basename (c_path c)), Some (c_path c))) cs.
Proof.
  induction cs as [|c cs IH]; intros f N D; [cbn; rewrite app_nil_r; reflexivity|]. cbn [map read_rows row_of r_deleted r_exclude r_failed r_path orb]. inversion N as [|? ? N1 N2]; subst.
  assert (A : add f (lower (basename (c_path c))) (Some (c_path c)) = f ++ [(lower (basename (c_path c)), Some (c_path c))]).
  { clear IH N N1 N2. induction f as [|[x v] f IH]; [reflexivity|]. cbn [add]. destruct (pystr_eqb_spec x (lower (basename (c_path c)))) as [->|_].
    - exfalso. apply (D (lower (basename (c_path c)))); [left; reflexivity|left; reflexivity].
    - cbn [app]. rewrite IH; [reflexivity|]. intros k I. apply D. right. exact I. }
  rewrite A. rewrite IH; [rewrite <- app_assoc; reflexivity|exact N2|]. intros k I. rewrite map_app, in_app_iff in I. destruct I as [I|[<-|[]]]; [|exact N1].
  intros X. apply (D k I). right. exact X.
Qed.
(** the temporary names are unused, as long as no more than k files of s have been changed *)
Definition fresh_names (e : env) (s : fs) (k : nat) : Prop :=
  forall s' l, (length l <= k)%nat -> (forall q, ~ In q l -> s' q = s q) -> s' (tmp e s') = None.
Lemma loop_ok e s0 package run k : stable e s0 -> directory package -> fresh_names e s0 k -> forall cs s,
  (exists l, (length l + 2 * length cs <= k)%nat /\ forall q, ~ In q l -> s q = s0 q) ->
  (forall s', ~ In (tmp e s') (map (target package) cs)) ->
  Forall (good e s0 package) cs -> NoDup (map (target package) cs) -> (forall q, s0 q <> None -> s q = s0 q) -> s package = Some Dir -> Forall (fun c => s (target package c) = None) cs ->
  let s' := fold_left (fun s '(k, v) => fst (convert_with run e s (match v with Some p => p | None => k end) package)) (map (fun c => (lower (basename (c_path c)), Some (c_path c))) cs) s in
  (forall q, s q <> None -> s' q = s q) /\ Forall (fun c => s' (target package c) = Some (File (c_data c))) cs.
Proof.
  intros ST DP FN. induction cs as [|c cs IH]; intros s (l & LL & LS) TN G N K SP FR; [split; [reflexivity|constructor]|]. cbn zeta. cbn [map fold_left]. cbn [length] in LL.
  assert (TF : s (tmp e s) = None) by (apply (FN s l); [lia|exact LS]).
  inversion G as [|? ? (P & PR & C & _) GS]; subst. inversion N as [|? ? N1 N2]; subst. inversion FR as [|? ? F1 F2]; subst.
  assert (E : convert_with run e s (c_path c) package = (put (put s (tmp e s) (File (c_tmp c))) (target package c) (File (c_data c)), Ok tt)).
  { pose proof (convert_program 0 e s _ _ _ _ package P PR) as X. unfold convert_file in X. replace (convert_with run e s (c_path c) package) with (convert_with (convert_project 0 e) e s (c_path c) package).
    - rewrite X. unfold isdir. rewrite SP. cbn zeta. rewrite join_name by (assumption || (apply module_flat; [apply P|exact PR])). fold (target package c). unfold isfile. rewrite F1.
      apply finish_ok with (d := c_dir c) (stem := c_stem c) (ext := c_ext c); [exact P| |exact TF|intros T; apply (TN s); left; symmetry; exact T|unfold isdir; rewrite F1; reflexivity].
      destruct C as (text & py & L & C'). exists text, py. split; [|exact C']. rewrite ST by exact K. exact L.
    - unfold convert_with. destruct (path_parts _ _ _ _ P) as (_ & _ & E1 & _). rewrite E1. cbn [snd]. clear - PR. unfold is_program in PR. cbn [map In] in PR. repeat (destruct PR as [PR|PR]; [rewrite <- PR; reflexivity|]). contradiction. }
  rewrite E. cbn [fst]. set (s1 := put _ _ _) in *.
  assert (S1 : forall q, s q <> None -> s1 q = s q).
  { intros q Q. unfold s1. rewrite !put_other; [reflexivity| |]; intros ->; apply Q; [exact TF|exact F1]. }
  destruct (IH s1) as [A B].
  - exists (tmp e s :: target package c :: l). split; [cbn [length]; lia|]. intros q Q. unfold s1. rewrite !put_other; [apply LS; intros X; apply Q; right; right; exact X| |]; intros ->; apply Q; cbn [In]; tauto.
  - intros s' X. apply (TN s'). right. exact X.
  - exact GS.
  - exact N2.
  - intros q Q. rewrite S1; [apply K; exact Q|]. rewrite K by exact Q. exact Q.
  - rewrite S1; [exact SP|rewrite SP; discriminate].
  - apply Forall_forall. intros x I. assert (target package x <> target package c) by (intros X; apply N1; rewrite <- X; apply in_map; exact I).
    unfold s1. rewrite !put_other; [rewrite Forall_forall in F2; apply F2; exact I| |assumption]. intros X. apply (TN s). right. rewrite <- X. apply in_map. exact I.
  - split.
    + intros q Q. rewrite A; [apply S1; exact Q|]. rewrite S1 by exact Q. exact Q.
    + constructor; [|exact B]. rewrite A; unfold s1; rewrite put_same; [reflexivity|discriminate].
Qed.
(** If the names of the files, and of their modules, are all different, every program file of the project has its module in the package *)
Theorem C72_modules_partial fuel e s p d stem ext out cs : path p d stem ext -> small ext = u "pjx" -> records e s p = Ok (map row_of cs) ->
  directory out -> s out = Some Dir -> let package := join out (basename out) in directory package -> s package = Some Dir ->
  stable e s -> fresh_names e s (2 * length cs) -> (forall s', ~ In (tmp e s') (map (target package) cs)) ->
  NoDup (map (fun c => lower (basename (c_path c))) cs) -> NoDup (map (target package) cs) -> Forall (good e s package) cs ->
  Forall (fun c => target package c <> join package (u "__main__.py")) cs ->
  Forall (fun c => fst (convert_file (S fuel) e s p out) (target package c) = Some (File (c_data c))) cs.
Proof.
  intros P K R DO SO package DP SP ST TF TN N1 N2 G M. destruct (path_parts _ _ _ _ P) as (_ & _ & E1 & _). unfold convert_file, convert_with. rewrite E1. cbn [snd]. rewrite K. change (one_of (46 :: u "pjx") [".pjx"]%string) with true. cbn iota. cbn [convert_project]. rewrite R.
  fold package. unfold mkdir. rewrite SO, SP. rewrite (read_rows_distinct cs [] N1) by (intros k []). cbn [app].
  destruct (loop_ok e s package (convert_project fuel e) (2 * length cs) ST DP TF cs s (ex_intro _ [] (conj (Nat.le_refl _) (fun q _ => eq_refl))) TN G N2 (fun q _ => eq_refl) SP) as [A B]; [eapply Forall_impl; [|exact G]; intros c (_ & _ & _ & X); exact X|]. cbn zeta in A, B.
  set (s' := fold_left _ _ s) in *. destruct (existsb _ _); cbn [fst]; [exact B|]. unfold write. destruct (isdir s' _); cbn [fst]; [exact B|]. rewrite Forall_forall in *. intros c I. rewrite put_other by (apply M; exact I). apply B. exact I.
Qed.
Print Assumptions C72_modules_partial.

(** * Examples *)
Definition ex_env : env := Env (fun _ p => Ok p) (fun t => Some t) (fun d stem => Ok (stem ++ d)) (fun t => Some t) (fun _ => u "/tmp/1.prg") (fun _ _ => Ok []).
Definition ex_fs : fs := fun p => if pystr_eqb p (u "out") then Some Dir else if pystr_eqb p (u "src/Main.PRG") then Some (File [1]) else None.
Lemma ex_path : path (u "src/Main.PRG") (u "src/") (u "Main") (u "PRG").
Proof.
  repeat split; [right; exists (u "src"); reflexivity| | | |]; try (cbn; intros H; repeat (destruct H as [H|H]; [discriminate H|]); contradiction). intros H. inversion H as [|? ? X]; subst. discriminate.
Qed.
Example C52_example :
  path (u "src/Main.PRG") (u "src/") (u "Main") (u "PRG") /\ is_program (u "PRG") /\ directory (u "out") /\ module_name (u "Form") (u "SCX") = u "form_scx.py" /\
  converts ex_env ex_fs (u "src/Main.PRG") (u "Main") (u "procedure _program_main" ++ 10 :: u "src/Main.PRG") (u "# coding=utf-8" ++ 10 :: u "Main" ++ u "procedure _program_main" ++ 10 :: u "src/Main.PRG") /\
  exists s', convert_file 3 ex_env ex_fs (u "src/Main.PRG") (u "out") = (s', Ok tt) /\ isfile s' (u "out/main.py") = true /\ isfile s' (u "/tmp/1.prg") = true.
Proof.
  split; [exact ex_path|]. split; [cbn; auto|]. split; [split; [discriminate|cbn; lia]|]. split; [reflexivity|]. split; [do 2 eexists; repeat split; reflexivity|]. eexists. split; [reflexivity|]. split; reflexivity.
Qed.
(** A project of two files; the temporary names are the first unused ones of five *)
Definition names5 : list pystr := map u ["/t/1"; "/t/2"; "/t/3"; "/t/4"; "/t/5"]%string.
Definition free (s : fs) (p : pystr) : bool := match s p with None => true | _ => false end.
Definition ex_rows : list source :=
  [Src (u "a.prg") [] (u "a") (u "prg") (u "procedure _program_main" ++ 10 :: u "a.prg") (u "# coding=utf-8" ++ 10 :: u "a" ++ u "procedure _program_main" ++ 10 :: u "a.prg");
   Src (u "b.scx") [] (u "b") (u "scx") (u "procedure _program_main" ++ 10 :: u "b.scx") (u "# coding=utf-8" ++ 10 :: u "b" ++ u "procedure _program_main" ++ 10 :: u "b.scx")].
Definition ex_env2 : env := Env (fun _ p => Ok p) (fun t => Some t) (fun d stem => Ok (stem ++ d)) (fun t => Some t)
  (fun s => match find (free s) names5 with Some p => p | None => u "/t/0" end) (fun _ _ => Ok (map row_of ex_rows)).
Definition ex_fs2 : fs := fun p => if pystr_eqb p (u "o") || pystr_eqb p (u "o/o") then Some Dir else None.
Lemma ex_fresh : fresh_names ex_env2 ex_fs2 4.
Proof.
  intros s l L H. cbn [tmp ex_env2]. destruct (find (free s) names5) as [p|] eqn:E.
  - apply find_some in E. destruct E as [_ E]. unfold free in E. destruct (s p); [discriminate|reflexivity].
  - exfalso. assert (I : incl names5 l).
    { intros p Ip. destruct (in_dec (list_eq_dec Z.eq_dec) p l) as [|N]; [assumption|exfalso]. apply (find_none _ _ E) in Ip as F. unfold free in F. rewrite (H p N) in F.
      cbn in Ip. repeat (destruct Ip as [<-|Ip]; [discriminate F|]). contradiction. }
    assert (ND : NoDup names5) by (repeat constructor; cbn; intros X; repeat (destruct X as [X|X]; [discriminate X|]); contradiction).
    pose proof (NoDup_incl_length ND I) as X. change (length names5) with 5%nat in X. lia.
Qed.
Example C72_example fuel : Forall (fun c => fst (convert_file (S fuel) ex_env2 ex_fs2 (u "p.pjx") (u "o")) (target (u "o/o") c) = Some (File (c_data c))) ex_rows.
Proof.
  assert (PT : forall x y z w, x <> 47 -> x <> 46 -> Forall (fun c => c <> 47 /\ c <> 46) [y; z; w] -> path [x; 46; y; z; w] [] [x] [y; z; w]).
  { intros x y z w X1 X2 F. rewrite Forall_forall in F. repeat split; [left; reflexivity| | | |]; try (cbn [In]; intros H; assert (Q : In 47 [y; z; w] \/ In 46 [y; z; w] \/ x = 47 \/ x = 46) by (cbn [In]; intuition congruence); destruct Q as [Q|[Q|Q]]; [apply F in Q; lia|apply F in Q; lia|lia]).
    intros H. inversion H; subst. congruence. }
  apply (C72_modules_partial fuel ex_env2 ex_fs2 (u "p.pjx") [] (u "p") (u "pjx") (u "o") ex_rows).
  - apply PT; [discriminate|discriminate|repeat (apply Forall_cons; [split; discriminate|]); apply Forall_nil].
  - reflexivity.
  - reflexivity.
  - split; [discriminate|vm_compute; congruence].
  - reflexivity.
  - split; [discriminate|vm_compute; congruence].
  - reflexivity.
  - intros s' p H. reflexivity.
  - exact ex_fresh.
  - intros s' H. cbn [tmp ex_env2] in H. destruct (find (free s') names5) as [p|] eqn:E; [apply find_some in E; destruct E as [E _]; cbn in E; repeat (destruct E as [<-|E]; [cbn in H; repeat (destruct H as [H|H]; [discriminate H|]); contradiction|]); contradiction|].
    cbn in H. repeat (destruct H as [H|H]; [discriminate H|]). contradiction.
  - repeat constructor; cbn; intros X; repeat (destruct X as [X|X]; [discriminate X|]); contradiction.
  - repeat constructor; cbn; intros X; repeat (destruct X as [X|X]; [discriminate X|]); contradiction.
  - constructor; [|constructor; [|constructor]]; (split; [apply PT; [discriminate|discriminate|repeat (apply Forall_cons; [split; discriminate|]); apply Forall_nil]|]; split; [cbn; tauto|]; split; [do 2 eexists; repeat split; reflexivity|reflexivity]).
  - repeat constructor; discriminate.
Qed.
