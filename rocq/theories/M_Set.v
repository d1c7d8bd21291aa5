(** Model of vfp2py/vfpfunc.py:28-46 (SET_PROPS) and 1642-1683 (set). *)
From Verif Require Import PyBase M_Procs.
Open Scope res_scope.

(** ASCII case folding.  Setting names and ON/OFF words are ASCII; str.lower()/upper() on other characters is not modelled. *)
Definition lower_ascii (a : ascii) : ascii :=
  let n := Z.of_nat (nat_of_ascii a) in
  if (65 <=? n) && (n <=? 90) then ascii_of_nat (Z.to_nat (n + 32)) else a.
Definition upper_ascii (a : ascii) : ascii :=
  let n := Z.of_nat (nat_of_ascii a) in
  if (97 <=? n) && (n <=? 122) then ascii_of_nat (Z.to_nat (n - 32)) else a.
Fixpoint smap (f : ascii -> ascii) (s : string) : string :=
  match s with EmptyString => EmptyString | String a r => String (f a) (smap f r) end.
Definition slower := smap lower_ascii.
Definition supper := smap upper_ascii.

(** Python values that reach set(): strings, integers, anything else. *)
Inductive sval := VStr (s : string) | VInt (n : Z) | VOther (n : nat).

(** The dictionary values are lists (or None for 'procedure'; a tuple once INDEX/REFRESH were set, read in the same way). *)
Definition props := list (string * option (list sval)).
Definition on := VStr "ON"%string.
Definition off := VStr "OFF"%string.

(** vfpfunc.py:28-46 *)
Definition set_props_init : props :=
  [ ("bell", Some [on; VStr ""]);
    ("century", Some [off; VInt 19; VInt 67; VInt 2029]);
    ("compatible", Some [off; VStr "PROMPT"]);
    ("cursor", Some [on]); ("deleted", Some [off]); ("escape", Some [off]); ("exact", Some [off]);
    ("index", Some [VStr ""]);
    ("multilocks", Some [off]); ("near", Some [off]);
    ("notify", Some [on; on]);
    ("procedure", None);
    ("refresh", Some [VInt 0; VInt 5]);
    ("status", Some [off]); ("status bar", Some [on]); ("talk", Some [on]); ("unique", Some [off]) ]%string.

Definition pget (p : props) (k : string) := dget String.eqb p k.
Definition pset (p : props) (k : string) (v : option (list sval)) : props := dset String.eqb p k v.

(** vfpfunc.py:1642-1646, reading: set(word) and set(word, i). *)
Definition set_read (p : props) (word : string) (idx : option Z) : res sval :=
  match pget p (slower word) with
  | None => Err KeyError
  | Some None => Err TypeError                     (* None[0] *)
  | Some (Some l) => py_nth l (match idx with Some i => i | None => 0 end)
  end.

(** args[i].lower() and args[i].upper() *)
Definition arg_at (args : list sval) (i : Z) : res sval := py_nth args i.
Definition arg_lower (args : list sval) (i : Z) : res string :=
  do a <- arg_at args i; match a with VStr s => Ok (slower s) | _ => Err AttributeError end.
Definition as_upper (v : sval) : sval := match v with VStr s => VStr (supper s) | v => v end.
Definition in_words (ws : list string) (s : string) : bool := existsb (String.eqb s) ws.

(** The words of the branch at vfpfunc.py:1673. *)
Definition onoff_words : list string :=
  ["cursor"; "deleted"; "escape"; "exact"; "multilocks"; "near"; "status"; "status bar"; "talk"; "unique"]%string.

(** State: the settings and the procedure list of F (C keeps the same list, vfpfunc.py:1681-1682). *)
Record sstate := mkS { sprops : props; smods : list pyobj }.

Definition upd (l : list sval) (i : Z) (v : sval) : res (list sval) := py_set_nth l i v.

(** vfpfunc.py:1647-1683, set(word, *args, set_value=True, **kwargs).  The lists are changed in place, so a failure after a change
    leaves the change behind: the result carries the state in both cases. *)
Definition set_write (importable : string -> bool) (st : sstate) (word : string) (args : list sval)
           (kwargs : list (string * sval)) : res unit * sstate :=
  let w := slower word in
  let kw k := dget String.eqb kwargs k in
  let store l := mkS (pset (sprops st) w (Some l)) (smods st) in
  match pget (sprops st) w with
  | None => (Err KeyError, st)
  | Some settings =>
    let set0 (l : list sval) (v : sval) (i : Z) : res unit * sstate :=
      match upd l i v with Ok l' => (Ok tt, store l') | Err e => (Err e, st) end in
    if String.eqb w "bell" then
      match settings, arg_lower args 0 with
      | Some l, Ok a =>
        if in_words ["to"; "on"; "off"]%string a then
          match args with
          | VStr s :: r => if String.eqb s "TO"
                           then set0 l (match r with [] => VStr "" | v :: _ => v end) 1
                           else set0 l (VStr (supper s)) 0
          | _ => (Err AttributeError, st)
          end
        else (Err ValueError, st)
      | _, Err e => (Err e, st)
      | None, _ => (Err TypeError, st)
      end
    else if String.eqb w "century" then
      match settings with
      | Some l =>
        let l1 := match args with [] => Ok l | a :: _ => upd l 0 a end in
        match l1 with
        | Err e => (Err e, st)
        | Ok l1 =>
          match (match kw "century"%string with None => Ok l1 | Some v => upd l1 1 v end) with
          | Err e => (Err e, store l1)
          | Ok l2 =>
            match (match kw "rollover"%string with None => Ok l2 | Some v => upd l2 2 v end) with
            | Err e => (Err e, store l2)
            | Ok l3 => (Ok tt, store l3)
            end
          end
        end
      | None => (Err TypeError, st)
      end
    else if String.eqb w "compatible" then
      match settings, arg_lower args 0 with
      | Some l, Ok a =>
        if in_words ["on"; "off"]%string a then
          match args with
          | v :: r =>
            match upd l 0 (as_upper v) with
            | Err e => (Err e, st)
            | Ok l1 =>
              match r with
              | [] => (Ok tt, store l1)
              | VStr s :: _ =>
                if in_words ["prompt"; "noprompt"]%string (slower s) then (Ok tt, store l1)
                else match upd l1 1 (VStr (supper s)) with Ok l2 => (Ok tt, store l2) | Err e => (Err e, store l1) end
              | _ :: _ => (Err AttributeError, store l1)
              end
            end
          | [] => (Err IndexError, st)
          end
        else (Err ValueError, st)
      | _, Err e => (Err e, st)
      | None, _ => (Err TypeError, st)
      end
    else if String.eqb w "notify" then
      match settings with
      | Some l =>
        match kw "cursor"%string with
        | Some v => set0 l v 1
        | None => match args with v :: _ => set0 l v 0 | [] => (Err IndexError, st) end
        end
      | None => (Err TypeError, st)
      end
    else if in_words onoff_words w then
      match settings, arg_lower args 0 with
      | Some l, Ok a =>
        if in_words ["on"; "off"]%string a then
          match args with v :: _ => set0 l (as_upper v) 0 | [] => (Err IndexError, st) end
        else (Err ValueError, st)
      | _, Err e => (Err e, st)
      | None, _ => (Err TypeError, st)
      end
    else if in_words ["index"; "refresh"]%string w then (Ok tt, store args)
    else if String.eqb w "procedure" then
      match args with
      | VStr n :: _ =>
        if importable n
        then (Ok tt, mkS (pset (sprops st) w settings)
                (set_procedure (smods st) (Mod n) (match kw "additive"%string with Some (VInt 0) | None => false | Some _ => true end)))
        else (Err GenericException, st)
      | _ :: _ => (Err AttributeError, st)
      | [] => (Err IndexError, st)
      end
    else (Ok tt, mkS (pset (sprops st) w settings) (smods st))
  end.

Inductive set_call := SetCall (word : string) (args : list sval) (kwargs : list (string * sval)).
Definition set_run (importable : string -> bool) (st : sstate) (cs : list set_call) : sstate :=
  fold_left (fun st c => match c with SetCall w a k => snd (set_write importable st w a k) end) cs st.

(** The SET words for which the converter emits vfpfunc.set(..., set_value=True), vfp2py_convert_visitor.py:1791-1885. *)
Definition emitted_words : list string :=
  ["printer"; "typeahead"; "procedure"; "bell"; "cursor"; "deleted"; "escape"; "exact"; "exclusive"; "multilocks"; "near";
   "status"; "status bar"; "tableprompt"; "talk"; "unique"; "century"; "classlib"; "compatible"; "sysmenu"; "date"; "refresh";
   "notify"; "clock"; "memowidth"; "filter"; "order"; "index"; "udfparms"]%string.
