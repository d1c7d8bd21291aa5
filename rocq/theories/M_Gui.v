(** The properties of forms and controls: vfpfunc.py:89-148 (HasFont), 225-731 (Form and the controls).  Qt is not part of /repo; what its widgets do is the record [widget] and the functions of section "Qt" (trusted, see
    DESIGN.md).  Left out: colours, icons, pictures; Combobox.value is in M_GuiList. *)
From Verif Require Import PyBase PyStr.
Open Scope Z_scope.
Open Scope res_scope.

Inductive gv := GStr (s : pystr) | GInt (n : Z) | GBool (b : bool).
(** ** Qt *)
Record font := mkFont { f_family : pystr; f_bold : bool; f_italic : bool; f_strike : bool; f_under : bool; f_size : Z }.
(** q_text: text(), q_title: windowTitle(), q_own_enabled and q_own_visible: the flags of the widget itself; q_up_enabled and
    q_up_visible: whether everything it is part of is enabled / visible; q_attrs: attributes of the Python object *)
Record widget := mkW { q_text : pystr; q_title : pystr; q_h : Z; q_w : Z; q_own_enabled : bool; q_up_enabled : bool; q_own_visible : bool; q_up_visible : bool;
  q_flat : bool; q_tip : pystr; q_editable : bool; q_multi : bool; q_items : bool; q_rows : bool; q_value : Z; q_font : font; q_attrs : list (pystr * gv) }.
Definition set_text x w := mkW x (q_title w) (q_h w) (q_w w) (q_own_enabled w) (q_up_enabled w) (q_own_visible w) (q_up_visible w) (q_flat w) (q_tip w) (q_editable w) (q_multi w) (q_items w) (q_rows w) (q_value w) (q_font w) (q_attrs w).
Definition set_title x w := mkW (q_text w) x (q_h w) (q_w w) (q_own_enabled w) (q_up_enabled w) (q_own_visible w) (q_up_visible w) (q_flat w) (q_tip w) (q_editable w) (q_multi w) (q_items w) (q_rows w) (q_value w) (q_font w) (q_attrs w).
Definition set_h x w := mkW (q_text w) (q_title w) x (q_w w) (q_own_enabled w) (q_up_enabled w) (q_own_visible w) (q_up_visible w) (q_flat w) (q_tip w) (q_editable w) (q_multi w) (q_items w) (q_rows w) (q_value w) (q_font w) (q_attrs w).
Definition set_w x w := mkW (q_text w) (q_title w) (q_h w) x (q_own_enabled w) (q_up_enabled w) (q_own_visible w) (q_up_visible w) (q_flat w) (q_tip w) (q_editable w) (q_multi w) (q_items w) (q_rows w) (q_value w) (q_font w) (q_attrs w).
Definition set_enabled x w := mkW (q_text w) (q_title w) (q_h w) (q_w w) x (q_up_enabled w) (q_own_visible w) (q_up_visible w) (q_flat w) (q_tip w) (q_editable w) (q_multi w) (q_items w) (q_rows w) (q_value w) (q_font w) (q_attrs w).
Definition set_visible x w := mkW (q_text w) (q_title w) (q_h w) (q_w w) (q_own_enabled w) (q_up_enabled w) x (q_up_visible w) (q_flat w) (q_tip w) (q_editable w) (q_multi w) (q_items w) (q_rows w) (q_value w) (q_font w) (q_attrs w).
Definition set_flat x w := mkW (q_text w) (q_title w) (q_h w) (q_w w) (q_own_enabled w) (q_up_enabled w) (q_own_visible w) (q_up_visible w) x (q_tip w) (q_editable w) (q_multi w) (q_items w) (q_rows w) (q_value w) (q_font w) (q_attrs w).
Definition set_tip x w := mkW (q_text w) (q_title w) (q_h w) (q_w w) (q_own_enabled w) (q_up_enabled w) (q_own_visible w) (q_up_visible w) (q_flat w) x (q_editable w) (q_multi w) (q_items w) (q_rows w) (q_value w) (q_font w) (q_attrs w).
Definition set_editable x w := mkW (q_text w) (q_title w) (q_h w) (q_w w) (q_own_enabled w) (q_up_enabled w) (q_own_visible w) (q_up_visible w) (q_flat w) (q_tip w) x (q_multi w) (q_items w) (q_rows w) (q_value w) (q_font w) (q_attrs w).
Definition set_multi x w := mkW (q_text w) (q_title w) (q_h w) (q_w w) (q_own_enabled w) (q_up_enabled w) (q_own_visible w) (q_up_visible w) (q_flat w) (q_tip w) (q_editable w) x (q_items w) (q_rows w) (q_value w) (q_font w) (q_attrs w).
Definition set_items x w := mkW (q_text w) (q_title w) (q_h w) (q_w w) (q_own_enabled w) (q_up_enabled w) (q_own_visible w) (q_up_visible w) (q_flat w) (q_tip w) (q_editable w) (q_multi w) x (q_rows w) (q_value w) (q_font w) (q_attrs w).
Definition set_rows x w := mkW (q_text w) (q_title w) (q_h w) (q_w w) (q_own_enabled w) (q_up_enabled w) (q_own_visible w) (q_up_visible w) (q_flat w) (q_tip w) (q_editable w) (q_multi w) (q_items w) x (q_value w) (q_font w) (q_attrs w).
Definition set_value x w := mkW (q_text w) (q_title w) (q_h w) (q_w w) (q_own_enabled w) (q_up_enabled w) (q_own_visible w) (q_up_visible w) (q_flat w) (q_tip w) (q_editable w) (q_multi w) (q_items w) (q_rows w) x (q_font w) (q_attrs w).
Definition set_font x w := mkW (q_text w) (q_title w) (q_h w) (q_w w) (q_own_enabled w) (q_up_enabled w) (q_own_visible w) (q_up_visible w) (q_flat w) (q_tip w) (q_editable w) (q_multi w) (q_items w) (q_rows w) (q_value w) x (q_attrs w).
Definition set_attrs x w := mkW (q_text w) (q_title w) (q_h w) (q_w w) (q_own_enabled w) (q_up_enabled w) (q_own_visible w) (q_up_visible w) (q_flat w) (q_tip w) (q_editable w) (q_multi w) (q_items w) (q_rows w) (q_value w) (q_font w) x.
(** what the methods accept *)
Definition as_str (v : gv) : res pystr := match v with GStr s => Ok s | _ => Err TypeError end.
Definition as_int (v : gv) : res Z := match v with GInt n => Ok n | GBool b => Ok (if b then 1 else 0) | GStr _ => Err TypeError end.
Definition as_bool (v : gv) : res bool := match v with GBool b => Ok b | GInt n => Ok (negb (n =? 0)) | GStr _ => Err TypeError end.
(** bool(v) *)
Definition truth (v : gv) : bool := match v with GBool b => b | GInt n => negb (n =? 0) | GStr s => negb (zlen s =? 0) end.
(** setFixedHeight, setFixedWidth: at least 0, at most QWIDGETSIZE_MAX; setPointSize ignores sizes that are not positive; the range of
    a QSpinBox is 0 to 99 unless it is changed *)
Definition fixed (n : Z) : Z := Z.max 0 (Z.min n 16777215).
Definition point_size (n : Z) (f : font) : font := if 0 <? n then mkFont (f_family f) (f_bold f) (f_italic f) (f_strike f) (f_under f) n else f.
Definition spin (n : Z) : Z := Z.max 0 (Z.min n 99).

(** ** Python's properties *)
Record prop := mkP { p_get : widget -> res gv; p_set : gv -> widget -> res widget }.
(** `@p.setter`: the getter is that of p *)
Definition setter (p : prop) (f : gv -> widget -> res widget) : prop := mkP (p_get p) f.
Definition getter (f : widget -> res gv) : prop := mkP f (fun _ _ => Err AttributeError).
Definition prop_of (g : widget -> res gv) (s : gv -> widget -> res widget) : prop := setter (getter g) s.
Definition caption_text := prop_of (fun w => Ok (GStr (q_text w))) (fun v w => do s <- as_str v; Ok (set_text s w)).
Definition caption_title := prop_of (fun w => Ok (GStr (q_title w))) (fun v w => do s <- as_str v; Ok (set_title s w)).
(** a QComboBox has neither text() nor setText(), lines 483-489 *)
Definition caption_combo := prop_of (fun w => Err AttributeError) (fun v w => Err AttributeError).
Definition height := prop_of (fun w => Ok (GInt (q_h w))) (fun v w => do n <- as_int v; Ok (set_h (fixed n) w)).
(** `@height.setter def width`, lines 266-268, 307-309, 379-381, 501-503, 571-573: a property with the getter of height *)
Definition width := setter height (fun v w => do n <- as_int v; Ok (set_w (fixed n) w)).
Definition enabled := prop_of (fun w => Ok (GBool (q_own_enabled w && q_up_enabled w))) (fun v w => do b <- as_bool v; Ok (set_enabled b w)).
Definition visible := prop_of (fun w => Ok (GBool (q_own_visible w && q_up_visible w))) (fun v w => do b <- as_bool v; Ok (set_visible b w)).
Definition tooltiptext := prop_of (fun w => Ok (GStr (q_tip w))) (fun v w => do s <- as_str v; Ok (set_tip s w)).
Definition is_int (n : Z) (v : gv) : bool := match v with GInt m => m =? n | GBool b => (if b then 1 else 0) =? n | GStr _ => false end.
Definition specialeffect := prop_of (fun w => Ok (GInt (if q_flat w then 2 else 0))) (fun v w => Ok (set_flat (is_int 2 v) w)).
Definition style := prop_of (fun w => Ok (GInt (if q_editable w then 0 else 2))) (fun v w => Ok (set_editable (is_int 0 v) w)).
Definition multiselect := prop_of (fun w => Ok (GInt (if q_multi w then 1 else 0))) (fun v w => Ok (set_multi (truth v) w)).
(** q_rows: the mode Interactive, q_items: the behaviour SelectItems *)
Definition allowrowsizing := prop_of (fun w => Ok (GBool (q_rows w))) (fun v w => Ok (set_rows (truth v) w)).
Definition allowcellselection := prop_of (fun w => Ok (GBool (negb (q_items w)))) (fun v w => Ok (set_items (truth v) w)).
Definition spinner_value := prop_of (fun w => Ok (GInt (q_value w))) (fun v w => do n <- as_int v; Ok (set_value (spin n) w)).
(** HasFont, lines 89-148 *)
Definition with_font (f : font -> font) (w : widget) : widget := set_font (f (q_font w)) w.
Definition fontname := prop_of (fun w => Ok (GStr (f_family (q_font w)))) (fun v w => do s <- as_str v; Ok (with_font (fun f => mkFont s (f_bold f) (f_italic f) (f_strike f) (f_under f) (f_size f)) w)).
Definition fontbold := prop_of (fun w => Ok (GBool (f_bold (q_font w)))) (fun v w => do b <- as_bool v; Ok (with_font (fun f => mkFont (f_family f) b (f_italic f) (f_strike f) (f_under f) (f_size f)) w)).
Definition fontitalic := prop_of (fun w => Ok (GBool (f_italic (q_font w)))) (fun v w => do b <- as_bool v; Ok (with_font (fun f => mkFont (f_family f) (f_bold f) b (f_strike f) (f_under f) (f_size f)) w)).
Definition fontstrikethru := prop_of (fun w => Ok (GBool (f_strike (q_font w)))) (fun v w => do b <- as_bool v; Ok (with_font (fun f => mkFont (f_family f) (f_bold f) (f_italic f) b (f_under f) (f_size f)) w)).
(** line 132: a QFont has no method fontunderline *)
Definition fontunderline := prop_of (fun w => Err AttributeError) (fun v w => do b <- as_bool v; Ok (with_font (fun f => mkFont (f_family f) (f_bold f) (f_italic f) (f_strike f) b (f_size f)) w)).
Definition fontsize := prop_of (fun w => Ok (GInt (f_size (q_font w)))) (fun v w => do n <- as_int v; Ok (with_font (point_size n) w)).
Definition has_font : list (pystr * prop) :=
  [(u "fontname", fontname); (u "fontbold", fontbold); (u "fontitalic", fontitalic); (u "fontstrikethru", fontstrikethru); (u "fontunderline", fontunderline); (u "fontsize", fontsize)].

(** the classes, each with its properties *)
Inductive ctl := Form | Commandbutton | Label | Textbox | Checkbox | Combobox | Spinner | Shape | Listbox | Grid | Optionbutton.
Definition props (c : ctl) : list (pystr * prop) :=
  match c with
  | Form => [(u "caption", caption_title); (u "height", height); (u "width", width)] ++ has_font                                                  (* 225-276 *)
  | Commandbutton => [(u "caption", caption_text); (u "height", height); (u "width", width); (u "enabled", enabled); (u "visible", visible);
                      (u "tooltiptext", tooltiptext); (u "specialeffect", specialeffect)] ++ has_font                                            (* 278-352 *)
  | Label => [(u "caption", caption_text); (u "height", height); (u "width", width)] ++ has_font                                                   (* 354-381 *)
  | Textbox => [(u "height", height); (u "value", caption_text); (u "visible", visible)] ++ has_font                                              (* 383-419 *)
  | Checkbox => [(u "caption", caption_text); (u "height", height)] ++ has_font                                                                   (* 421-448 *)
  | Combobox => [(u "caption", caption_combo); (u "height", height); (u "width", width); (u "style", style)] ++ has_font                           (* 450-514 *)
  | Spinner => [(u "value", spinner_value)] ++ has_font                                                                                           (* 516-551 *)
  | Shape => [(u "height", height); (u "width", width)]                                                                                           (* 553-573 *)
  | Listbox => [(u "multiselect", multiselect)]                                                                                                   (* 591-615 *)
  | Grid => [(u "allowrowsizing", allowrowsizing); (u "allowcellselection", allowcellselection)] ++ has_font                                      (* 617-676 *)
  | Optionbutton => [(u "caption", caption_text); (u "enabled", enabled)] ++ has_font                                                             (* 712-731 *)
  end.
(** reading and assigning an attribute: a name without a property is an attribute of the Python object only *)
Definition get (c : ctl) (name : pystr) (w : widget) : res gv :=
  match dget pystr_eqb (props c) name with
  | Some p => p_get p w
  | None => match dget pystr_eqb (q_attrs w) name with Some v => Ok v | None => Err AttributeError end
  end.
Definition set (c : ctl) (name : pystr) (v : gv) (w : widget) : res widget :=
  match dget pystr_eqb (props c) name with
  | Some p => p_set p v w
  | None => Ok (set_attrs (dset pystr_eqb (q_attrs w) name v) w)
  end.
