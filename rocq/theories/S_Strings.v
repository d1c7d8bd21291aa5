(** Declarative specifications of the FoxPro string functions. *)
From Verif Require Import PyBase PyStr.

(** ** CHRTRAN: every character c of the text that stands in [from] (first at position k) becomes to[k], or is
    deleted when to has no position k; other characters stay. *)
Fixpoint first_pos (l : pystr) (c : Z) (k : nat) : option nat :=
  match l with [] => None | x :: r => if x =? c then Some k else first_pos r c (S k) end.
Definition chrtran_char (from to : pystr) (c : Z) : pystr :=
  match first_pos from c 0 with
  | None => [c]
  | Some k => match nth_error to k with Some d => [d] | None => [] end
  end.
Definition chrtran_spec (text from to : pystr) : pystr := flat_map (chrtran_char from to) text.

(** ** Words: maximal runs of non-separators. *)
Definition starts_with_sep (sep : Z -> bool) (s : pystr) : Prop :=
  match s with [] => True | c :: _ => sep c = true end.
Inductive words_of (sep : Z -> bool) : pystr -> list pystr -> Prop :=
| WO_end g : forallb sep g = true -> words_of sep g []
| WO_word g w rest ws : forallb sep g = true -> w <> [] -> forallb (fun c => negb (sep c)) w = true ->
    starts_with_sep sep rest -> words_of sep rest ws -> words_of sep (g ++ w ++ rest) (w :: ws).

(** ** STRTRAN: occurrences are counted from the left without overlap; the first [skip] are kept, the next [limit] (None:
    all) replaced. *)
Definition first_occurrence (s old pre post : pystr) : Prop :=
  s = pre ++ old ++ post /\ forall k, (k < length pre)%nat -> ~ occurs_at s old k.
Inductive strtran_rel (old new : pystr) : nat -> option nat -> pystr -> pystr -> Prop :=
| SR_none skip limit s : (forall k, ~ occurs_at s old k) -> strtran_rel old new skip limit s s
| SR_done s : strtran_rel old new 0 (Some O) s s
| SR_keep skip limit s pre post r : first_occurrence s old pre post ->
    strtran_rel old new skip limit post r -> strtran_rel old new (S skip) limit s (pre ++ old ++ r)
| SR_replace limit s pre post r : first_occurrence s old pre post -> limit <> Some O ->
    strtran_rel old new 0 (option_map pred limit) post r -> strtran_rel old new 0 limit s (pre ++ new ++ r).

(** ** Lines: the text split at carriage returns. *)
Fixpoint lines_cr (s : pystr) : list pystr :=
  match s with
  | [] => [[]]
  | c :: r => if c =? 13 then [] :: lines_cr r
              else match lines_cr r with l :: ls => (c :: l) :: ls | [] => [[c]] end
  end.
Definition contains (s sub : pystr) : Prop := exists k, occurs_at s sub k.

(** ** LIKE: the whole string against a pattern in which only * and ? are special. *)
Inductive wild : pystr -> pystr -> Prop :=
| W_end : wild [] []
| W_star_stop p s : wild p s -> wild (42 :: p) s
| W_star_take p x s : wild (42 :: p) s -> wild (42 :: p) (x :: s)
| W_any p x s : wild p s -> wild (63 :: p) (x :: s)
| W_lit c p s : c <> 42 -> c <> 63 -> wild p s -> wild (c :: p) (c :: s).

(** ** STREXTRACT: mid is the text between the first b of s and the first e after it. *)
Definition between_first (b e s mid post : pystr) : Prop :=
  exists pre rest, first_occurrence s b pre rest /\ first_occurrence rest e mid post.
(** the n-th occurrence of the begin delimiter (counted from 1), without overlap *)
Inductive extract_nth (b e : pystr) : nat -> pystr -> pystr -> Prop :=
| EN_one s mid post : between_first b e s mid post -> extract_nth b e 1 s mid
| EN_more n s pre rest mid : first_occurrence s b pre rest -> extract_nth b e n rest mid ->
    extract_nth b e (S n) s mid.
(** the n-th begin/end pair: after a pair the search resumes behind its end delimiter *)
Inductive extract_pair (b e : pystr) : nat -> pystr -> pystr -> Prop :=
| EP_one s mid post : between_first b e s mid post -> extract_pair b e 1 s mid
| EP_more n s mid0 post mid : between_first b e s mid0 post -> extract_pair b e n post mid ->
    extract_pair b e (S n) s mid.
