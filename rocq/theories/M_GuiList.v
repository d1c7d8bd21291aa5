(** Combo boxes, option groups, list boxes and grids: vfpfunc.py:450-481 (Combobox), 591-615 (Listbox), 617-666 (Grid), 678-710 (Optiongroup),
    and the order of Custom.__init__ (150-157).  What Qt's widgets do is given by the functions of the first section (trusted, see DESIGN.md). *)
From Verif Require Import PyBase PyStr M_Strings M_Db.
Open Scope Z_scope.
Open Scope res_scope.

(** ** Qt: a QComboBox: its items, the current index (-1: none), whether signals are blocked, and the methods called by them so far *)
Inductive event := Interactive | Programmatic.
Record combo := mkC { c_items : list pystr; c_index : Z; c_blocked : bool; c_log : list event }.
Definition block (b : bool) (c : combo) : combo := mkC (c_items c) (c_index c) b (c_log c).
(** setCurrentIndex: an index out of range is none; a change is a signal, to which interactivechange is connected (453) *)
Definition set_index (i : Z) (c : combo) : combo :=
  let j := if (0 <=? i) && (i <? zlen (c_items c)) then i else -1 in
  mkC (c_items c) j (c_blocked c) (c_log c ++ if c_blocked c || (j =? c_index c) then [] else [Interactive]).
(** addItem: the first item becomes the current one *)
Definition add_item (s : pystr) (c : combo) : combo :=
  let c' := mkC (c_items c ++ [s]) (c_index c) (c_blocked c) (c_log c) in
  match c_items c with [] => set_index 0 c' | _ => c' end.
(** findText with MatchFixedString: the first item that is the text without regard to case; `fold` is the case folding *)
Fixpoint find_text (fold : pystr -> pystr) (s : pystr) (l : list pystr) (i : Z) : Z :=
  match l with [] => -1 | x :: r => if pystr_eqb (fold x) (fold s) then i else find_text fold s r (i + 1) end.
Definition current_text (c : combo) : pystr := if c_index c <? 0 then [] else match nth_error (c_items c) (Z.to_nat (c_index c)) with Some s => s | None => [] end.
(** the user chooses an item *)
Definition choose (i : Z) (c : combo) : combo := set_index i c.

(** ** Combobox: what is assigned to Value may be a text or a number *)
Inductive cval := VText (s : pystr) | VNumber (n : Z).
(** 456-461 *)
Definition additem (s : pystr) (c : combo) : combo :=
  let index := c_index c in
  block false (set_index index (add_item s (block true c))).
(** 463-465 *)
Definition get_value (c : combo) : cval := VText (current_text c).
(** 467-473 *)
Definition put_value (fold : pystr -> pystr) (v : cval) (c : combo) : res combo :=
  match v with
  | VNumber _ => Err TypeError
  | VText s => let index := find_text fold s (c_items c) 0 in
               let c := block false (set_index index (block true c)) in
               Ok (mkC (c_items c) (c_index c) (c_blocked c) (c_log c ++ [Programmatic]))
  end.

(** ** Optiongroup: the buttons of the QButtonGroup, oldest first, with name and caption; g_dying: the names of those on which
    deleteLater() was called, which stay until the program gives control to Qt *)
Record group := mkG { g_buttons : list (pystr * pystr); g_dying : list pystr }.
Definition delete_later (g : group) : group :=
  match rev (g_buttons g) with [] => g | b :: _ => mkG (g_buttons g) (fst b :: g_dying g) end.
Definition settle (g : group) : group := mkG (filter (fun b => negb (existsb (pystr_eqb (fst b)) (g_dying g))) (g_buttons g)) [].
(** 699-710 *)
Definition buttoncount (g : group) : Z := zlen (g_buttons g).
Fixpoint repeat_do (n : nat) (f : group -> group) (g : group) : group := match n with O => g | S k => repeat_do k f (f g) end.
Definition option_caption (i : Z) : pystr := u "option " ++ dec_nat i.
Definition option_name (i : Z) : pystr := u "option" ++ dec_nat i.
Definition new_button (g : group) (i : Z) : group := mkG (g_buttons g ++ [(option_name (i + 1), option_caption (i + 1))]) (g_dying g).
Definition range (a b : Z) : list Z := map (fun i => a + Z.of_nat i) (seq 0 (Z.to_nat (b - a))).
Definition set_buttoncount (val : Z) (g : group) : group :=
  let g1 := repeat_do (Z.to_nat (buttoncount g - val)) delete_later g in
  fold_left new_button (range (buttoncount g1) val) g1.

(** ** Listbox and Grid show a table; `show` is _str of a value.  The headings of a grid are left out. *)
Section Shown.
Variable show : fval -> pystr.
Definition row_texts (r : rec) : list pystr := map (fun p => show (snd p)) (r_flds r).
Record listbox := mkL { l_items : list pystr; l_source : pystr }.
(** 602-607 *)
Definition first_text (r : rec) : res pystr := match row_texts r with s :: _ => Ok s | [] => Err IndexError end.
Fixpoint first_texts (l : list rec) : res (list pystr) := match l with [] => Ok [] | r :: l => do s <- first_text r; do t <- first_texts l; Ok (s :: t) end.
Definition set_rowsource (d : db) (source : pystr) (l : listbox) : res listbox :=
  do p <- table_of d (TName source); do new <- first_texts (t_recs (w_tab (snd p))); Ok (mkL (l_items l ++ new) source).
(** 592-596: the keywords are assigned by Custom.__init__, then _source is cleared *)
Definition new_listbox (d : db) (rowsource : option pystr) : res listbox :=
  do l <- match rowsource with Some s => set_rowsource d s (mkL [] []) | None => Ok (mkL [] []) end; Ok (mkL (l_items l) []).

(** a grid: what it shows, the marks at the left, and _source *)
Record grid := mkGr { gr_rows : list (list pystr); gr_marks : list bool; gr_source : pystr }.
(** 637-647.  A record is the current one if it is where the pointer is. *)
Definition marks (t : table) : list bool := map (fun i => Z.of_nat i =? t_idx t) (seq 0 (length (t_recs t))).
Definition refresh (d : db) (g : grid) : res grid :=
  do p <- table_of d (TName (gr_source g));
  let t := w_tab (snd p) in Ok (mkGr (map row_texts (t_recs t)) (marks t) (gr_source g)).
(** 663-666 *)
Definition set_recordsource (d : db) (source : pystr) (g : grid) : res grid := refresh d (mkGr (gr_rows g) (gr_marks g) source).
(** 618-625: as in Listbox *)
Definition new_grid (d : db) (recordsource : option pystr) : res grid :=
  do g <- match recordsource with Some s => set_recordsource d s (mkGr [] [] []) | None => Ok (mkGr [] [] []) end; Ok (mkGr (gr_rows g) (gr_marks g) []).
(** 627-629: a click on a row *)
Definition click_row (d : db) (row : Z) (g : grid) : res (db * grid) :=
  do p <- table_of d (TName (gr_source g));
  do t <- t_goto (w_tab (snd p)) row;
  let d := put_tab d (fst p) (snd p) t in
  do g <- refresh d g; Ok (d, g).
End Shown.
