(** The tree of objects: Custom.__init__, add_object, addobject, parentform, vfpfunc.py:150-183; the containers, 225-235 (Form), 586-589 (Toolbar), 678-710 (Optiongroup), 733-750 (Pageframe, Page);
    create_object as addobject calls it, 1691-1704.

    Qt's layouts are lists of the widgets added to them.  Left out: Init and _assign, which run while the object is made; attributes that are properties of the class (C104);
    the main window; win32com. *)
From Verif Require Import PyBase PyStr M_Do M_Gui M_Create.
Open Scope Z_scope.

(** What a class is derived from.  A widget may have a caption (Page, Label, ...), which Pageframe.addWidget reads; a button is a QAbstractButton; Plain classes have nothing of Qt:
    Custom, Formset, Image, Timer, Container, Editbox, Dataenvironment, 222-223, 752-764. *)
Inductive base := BForm | BToolbar | BPage | BPageframe | BGroup | BButton | BWidget (caption : bool) | BPlain.
Definition in_qtgui (b : base) : bool := match b with BPlain => false | _ => true end.                       (* 63-66 *)
Definition has_caption (b : base) : bool := match b with BForm | BPage | BButton => true | BWidget c => c | _ => false end.
Definition form_like (b : base) : bool := match b with BForm | BToolbar => true | _ => false end.

Inductive aval := AObj (o : nat) | AStr (s : pystr).
(** An object: its class, the attributes, and the widgets in its layout *)
Record obj := Obj { o_base : base; o_dict : list (pystr * aval); o_laid : list nat }.
Definition heap := list obj.
Definition attr (h : heap) (o : nat) (x : pystr) : option aval := match nth_error h o with Some b => dget pystr_eqb (o_dict b) x | None => None end.
Definition base_of (h : heap) (o : nat) : option base := option_map o_base (nth_error h o).
Definition laid (h : heap) (o : nat) : list nat := match nth_error h o with Some b => o_laid b | None => [] end.
Fixpoint change (h : heap) (o : nat) (f : obj -> obj) : heap :=
  match h, o with [], _ => [] | b :: h, O => f b :: h | b :: h, S o => b :: change h o f end.
Definition lay (w : nat) (b : obj) : obj := Obj (o_base b) (o_dict b) (o_laid b ++ [w]).
Definition setattr (x : pystr) (v : aval) (b : obj) : obj := Obj (o_base b) (dset pystr_eqb (o_dict b) x v) (o_laid b).

(* p.add_object(w): 162-166, where every error is dropped, with addWidget of Form 234-235, QToolBar, Pageframe 738-739 and Page 749-750; Optiongroup 686-688, where addButton takes buttons only *)
Definition add_object (h : heap) (p w : nat) (b : base) : heap * res unit :=
  match base_of h p with
  | Some (BForm | BToolbar | BPage) => (change h p (lay w), Ok tt)
  | Some BPageframe => (if has_caption b then change h p (lay w) else h, Ok tt)
  | Some BGroup => (change h p (lay w), match b with BButton => Ok tt | _ => Err TypeError end)
  | _ => (h, Ok tt)
  end.
(* Class(name=name, parent=p): Custom.__init__, 151-157 *)
Definition make (h : heap) (p : nat) (name : pystr) (b : base) : heap * res nat :=
  let o := length h in
  let h := h ++ [Obj b [(u "name", AStr name); (u "parent", AObj p)] []] in
  if in_qtgui b then match add_object h p o b with (h, Ok _) => (h, Ok o) | (h, Err e) => (h, Err e) end else (h, Ok o).
(* Class() *)
Definition make_bare (h : heap) (b : base) : heap * nat := (h ++ [Obj b [] []], length h).
(* self.name = ...; parentform is a property without setter, 172 *)
Definition assign (h : heap) (p : nat) (x : pystr) (o : nat) : heap * res nat :=
  if pystr_eqb x (u "parentform") then (h, Err AttributeError) else (change h p (setattr x (AObj o)), Ok o).
Definition lower_name (s : pystr) : pystr := map low s.
(** Where create_object finds classes: globals of the file whose code calls addobject (inspect.getouterframes(...)[2], 1693), procedure files *)
Record classes := Classes { k_own : pystr -> option base; k_procs : pystr -> option base }.
(* addobject, 168-170, with create_object, 1691-1704 *)
Definition addobject (k : classes) (h : heap) (p : nat) (name cls : pystr) : heap * res nat :=
  let name := lower_name name in
  let n := title cls in
  match k_own k n with
  | Some b => match make h p name b with (h, Ok o) => assign h p name o | (h, Err e) => (h, Err e) end
  | None => match k_procs k n with
            | Some b => let '(h, o) := make_bare h b in assign h p name o
            | None => (h, Err GenericException)
            end
  end.
(* ADD OBJECT in a class: self.name = Class(..., parent=self, name='name'), vfp2py_convert_visitor.py:266-273 *)
Definition add_declared (h : heap) (p : nat) (name : pystr) (b : base) : heap * res nat :=
  match make h p name b with (h, Ok o) => assign h p name o | (h, Err e) => (h, Err e) end.
(* parentform, 173-180: at most fuel steps *)
Fixpoint parentform (h : heap) (fuel t : nat) : option (res nat) :=
  match fuel with
  | O => None
  | S fuel =>
      match base_of h t with
      | None => Some (Err GenericException)
      | Some b => if form_like b then Some (Ok t)
                  else match attr h t (u "parent") with Some (AObj p) => parentform h fuel p | _ => Some (Err GenericException) end
      end
  end.

(** What programs do *)
Inductive act := ANew (b : base) | AAdd (p : nat) (name cls : pystr) | ADeclared (p : nat) (name : pystr) (b : base).
Definition does (k : classes) (h : heap) (a : act) : heap :=
  match a with
  | ANew b => fst (make_bare h b)
  | AAdd p name cls => if (p <? length h)%nat then fst (addobject k h p name cls) else h
  | ADeclared p name b => if (p <? length h)%nat then fst (add_declared h p name b) else h
  end.
Definition history (k : classes) (l : list act) : heap := fold_left (does k) l [].
