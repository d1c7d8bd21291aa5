(** Class libraries and forms turned into FoxPro source: convert_vcx_to_vfp_code and convert_scx_to_vfp_code, vfp2py.py:224-362.

    The table is the list of its records; a memo field is the list of its lines.  Left out: the copying of the table to a temporary file and its
    removal, and the layout of the resulting text (indentation, blank lines: add_indent and the re.sub at 359). *)
From Verif Require Import PyBase PyStr.
Open Scope Z_scope.
Open Scope res_scope.

Record rec := Rec {
  r_name : pystr;                (* objname *)
  r_class : pystr;               (* class *)
  r_parent : pystr;
  r_props : list pystr;          (* properties *)
  r_methods : list pystr;        (* methods *)
  r_incl : list pystr            (* reserved8 *)
}.

Fixpoint join (sep : pystr) (l : list pystr) : pystr := match l with [] => [] | [x] => x | x :: l => x ++ sep ++ join sep l end.
Definition blank (s : pystr) : bool := match s with [] => true | _ => false end.
Fixpoint drop_space (s : pystr) : pystr := match s with c :: r => if is_space c then drop_space r else s | [] => [] end.
(* s.strip() *)
Definition strip (s : pystr) : pystr := rev (drop_space (rev (drop_space s))).
Definition has (c : Z) (s : pystr) : bool := existsb (Z.eqb c) s.
Fixpoint mapm {A B} (f : A -> res B) (l : list A) : res (list B) :=
  match l with [] => Ok [] | x :: l => do y <- f x; do ys <- mapm f l; Ok (y :: ys) end.

(* line.split(' = ', 1): None if there is only one piece *)
Definition split1 (line : pystr) : option (pystr * pystr) :=
  match find_nat line (u " = ") with Some k => Some (firstn k line, skipn (k + 3) line) | None => None end.

(* re.match(r'^[0-9]*,[0-9]*,[0-9]*$', value); re.match(r'^\(.*\)$', value), the value being one line *)
Fixpoint drop_digits (s : pystr) : pystr := match s with c :: r => if is_digit c then drop_digits r else s | [] => [] end.
Definition rgb_like (s : pystr) : bool :=
  match drop_digits s with
  | 44 :: r => match drop_digits r with 44 :: r => blank (drop_digits r) | _ => false end
  | _ => false
  end.
Definition in_parens (s : pystr) : bool := match s with 40 :: r => match rev r with 41 :: _ => true | _ => false end | _ => false end.

Section Vcx.
(* whether parser.constant() and the visits succeed on the text; the leading minus sign is taken off *)
Variable const : pystr -> bool.
(* vfp2py.py:243-275 *)
Definition vcx_value (value : pystr) : pystr :=
  if blank value then u """"""
  else if rgb_like value then u "RGB(" ++ value ++ u ")"
  else if in_parens value then value
  else if const (match value with 45 :: r => r | _ => value end) then value
  else if negb (has 34 value) then [34] ++ value ++ [34]
  else if negb (has 39 value) then [39] ++ value ++ [39]
  else if negb (has 91 value) && negb (has 93 value) then [91] ++ value ++ [93]
  else value.
(* vfp2py.py:239-277 *)
Definition vcx_prop (line : pystr) : res pystr :=
  if blank line then Ok []
  else match split1 line with
       | None => Err ValueError
       | Some (prop, value) => Ok (strip prop ++ u " = " ++ vcx_value value)
       end.
(* vfp2py.py:233-282 *)
Definition vcx_code (r : rec) : res pystr :=
  let code := join [10] (map (fun x => u "#include """ ++ x ++ [34]) (r_incl r)) ++ [10] in
  let code := code ++ u "DEFINE CLASS " ++ r_name r ++ u " AS " ++ r_class r ++ [10] in
  do props <- mapm vcx_prop (r_props r);
  let code := code ++ join [10] props ++ [10; 10] in
  let code := code ++ join [10] (r_methods r) ++ [10] in
  Ok (code ++ u "ENDDEFINE" ++ [10; 10]).
Definition is_named (r : rec) : bool := negb (blank (r_name r)) && negb (blank (r_class r)).
(* convert_vcx_to_vfp_code, vfp2py.py:224-287 *)
Definition convert_vcx (table : list rec) : res (list pystr) := mapm vcx_code (filter is_named table).
End Vcx.

Definition lower_char (c : Z) : Z := if (65 <=? c) && (c <=? 90) then c + 32 else c.
Definition lower (s : pystr) : pystr := map lower_char s.
(* names.index(parent) *)
Fixpoint index (names : list pystr) (x : pystr) : res nat :=
  match names with [] => Err ValueError | y :: l => if pystr_eqb y x then Ok 0%nat else rmap S (index l x) end.
Fixpoint append_at (l : list (list rec)) (k : nat) (r : rec) : list (list rec) :=
  match l, k with [], _ => [] | x :: l, O => (x ++ [r]) :: l | x :: l, S k => x :: append_at l k r end.
(* vfp2py.py:300-308: the children of each record, and the form if there is one *)
Fixpoint collect (names : list pystr) (table : list rec) (children : list (list rec)) (form : option pystr) : res (list (list rec) * option pystr) :=
  match table with
  | [] => Ok (children, form)
  | r :: table =>
      let form := if pystr_eqb (lower (r_class r)) (u "form") then Some (r_name r) else form in
      if blank (r_parent r) then collect names table children form
      else do k <- index names (r_parent r); collect names table (append_at children k r) form
  end.
(* line.split(' = ') with two pieces, vfp2py.py:325 *)
Definition split2 (line : pystr) : res (pystr * pystr) :=
  match split1 line with
  | Some (p, v) => match find_nat v (u " = ") with None => Ok (p, v) | Some _ => Err ValueError end
  | None => Err ValueError
  end.
Definition ends_with (s e : pystr) : bool := prefixb (rev e) (rev s).
(* vfp2py.py:321-330 *)
Definition scx_prop (obj line : pystr) : res (list pystr) :=
  let line := strip line in
  if blank line then Ok []
  else do (prop, value) <- split2 line;
       let value := if pystr_eqb prop (u "Picture") then [34] ++ value ++ [34]
                    else if ends_with prop (u "Color") then u "RGB(" ++ value ++ u ")" else value in
       Ok [obj ++ u "." ++ prop ++ u " = " ++ value].
(* vfp2py.py:319-331 *)
Definition scx_child (c : rec) : res (list pystr) :=
  do props <- mapm (scx_prop (r_name c)) (r_props c);
  Ok ((u "ADD OBJECT " ++ r_name c ++ u " AS " ++ r_class c) :: concat props ++ [[]]).
(* vfp2py.py:336-342 *)
Definition scx_method (obj line : pystr) : list pystr :=
  if blank line then [] else [str_replace line (u "PROCEDURE ") (u "PROCEDURE " ++ obj ++ u ".") None].
Definition scx_methods (c : rec) : list pystr := flat_map (scx_method (r_name c)) (r_methods c) ++ [[]].
(* vfp2py.py:315-345: the header and the lines of one class *)
Definition scx_class (r : rec) (child : list rec) : res (pystr * list pystr) :=
  do objs <- mapm scx_child child;
  Ok (u "DEFINE CLASS " ++ r_name r ++ u " AS " ++ r_class r,
      r_props r ++ concat objs ++ r_methods r ++ [[]] ++ flat_map scx_methods child).
Definition is_top (r : rec) : bool :=
  negb (blank (r_name r)) && blank (r_parent r) && negb (pystr_eqb (lower (r_class r)) (u "dataenvironment")).
(* convert_scx_to_vfp_code, vfp2py.py:289-362 *)
Definition convert_scx (table : list rec) : res (pystr * list (pystr * list pystr)) :=
  do (children, form) <- collect (map r_name table) table (map (fun _ => []) table) None;
  match form with
  | None => Err NameError
  | Some form =>
      do classes <- mapm (fun '(r, child) => scx_class r child) (filter (fun '(r, _) => is_top r) (combine table children));
      Ok (form, classes)
  end.
