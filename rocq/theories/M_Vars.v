(** Names in expressions (_Variable, vfp2py/vfpfunc.py:1024-1049), SCATTER and GATHER (vfp2py/vfpfunc.py:1634-1640,
    vfp2py/vfpdatabase.py:75-97, vfp2py/vfp2py_convert_visitor.py:1738-1775). *)
From Verif Require Import PyBase PyStr M_Db M_Memvar.
Open Scope Z_scope.
Open Scope res_scope.

Definition mem_str (k : pystr) (l : list pystr) : bool := existsb (pystr_eqb k) l.

Section Vars.
Context {V : Type}.
(* table.field_names of an open table *)
Variable fields : ws -> list pystr.

(* what an expression S.name gives: the current record of a table, a field of it, or the value of a variable *)
Inductive sval := SRec (r : option rec) | SField (f : fval) | SVar (v : V).
(* current_record[key]; the records before the first and after the last one have no fields (dbf raises Bof or Eof) *)
Definition get_field (t : table) (key : pystr) : res fval :=
  match t_record t with
  | Some r => match dget pystr_eqb (r_flds r) key with Some f => Ok f | None => Err KeyError end
  | None => Err (if t_idx t <? 0 then DbfBof else DbfEof)
  end.
(* _Variable.__getitem__, vfpfunc.py:1032-1040 (and __getattr__, :1029-1030) *)
Definition get_var (d : db) (m : memvar V) (key : name) : res sval :=
  match table_of d (TName (u key)) with
  | Ok (_, w) => Ok (SRec (t_record (w_tab w)))
  | Err _ =>
      do o <- py_nth (areas d) (cur d);
      match o with
      | Some w => if mem_str (u key) (fields w) then rmap SField (get_field (w_tab w) (u key)) else rmap SVar (mem_get m key)
      | None => rmap SVar (mem_get m key)
      end
  end.
(* _Variable.__setitem__ and __setattr__, vfpfunc.py:1042-1049 *)
Definition set_var (m : memvar V) (key : name) (v : V) : res (memvar V) := mem_set m key v.
(* m.name is converted like any name with a trailer (createIdAttr, vfp2py_convert_visitor.py:1001-1006): S.m.name; [attr] reads an attribute *)
Definition get_m (attr : sval -> name -> res sval) (d : db) (m : memvar V) (key : name) : res sval :=
  do x <- get_var d m "m"%string; attr x key.

(** ** SCATTER *)
Definition attrs := list (pystr * fval).      (* an argparse.Namespace *)
(* _current_record_copy, vfpdatabase.py:79-84 *)
Fixpoint copy_fields (t : table) (fs : list pystr) (o : attrs) : res attrs :=
  match fs with [] => Ok o | f :: fs => do v <- get_field t f; copy_fields t fs (dset pystr_eqb o f v) end.
Definition current_record_copy (d : db) : res attrs :=
  do (_, w) <- table_of d TNone; copy_fields (w_tab w) (fields w) [].
(* the clauses of the statement *)
Inductive fclause := FAll | FList (l : list pystr) | FLike (l : list pystr) | FExcept (l : list pystr).
Inductive starget := SMemvar | SName (v : name) (additive : bool) | STo (v : name).
(* vfpfunc.scatter, vfpfunc.py:1637-1640: None unless totype is 'name' *)
Definition scatter_fn (d : db) (totype_name : bool) : res (option attrs) :=
  do r <- current_record_copy d; Ok (if totype_name then Some r else None).
(* visitScatterExpr, vfp2py_convert_visitor.py:1738-1762: the keywords of the call *)
Definition scatter_keywords (f : fclause) (memo blank : bool) (to : starget) : list pystr :=
  match f with FAll => [] | FList _ => [u "fields"] | FLike _ | FExcept _ => [u "type"; u "fields"] end ++
  (if memo then [u "memo"] else []) ++ (if blank then [u "blank"] else []) ++
  match to with SName _ true => [u "additive"; u "totype"] | SName _ false => [u "totype"] | STo _ => [u "totype"] | SMemvar => [] end.
Definition scatter_params : list pystr := [u "totype"; u "name"; u "fields"; u "fieldstype"; u "memo"; u "blank"].
(* a call with an unknown keyword is a TypeError *)
Definition call_ok (params kws : list pystr) : bool := forallb (fun k => mem_str k params) kws.
(* the statement executed: the variable that is assigned, if any, and the object or None it gets *)
Definition scatter (d : db) (f : fclause) (memo blank : bool) (to : starget) : res (option (name * option attrs)) :=
  if negb (call_ok scatter_params (scatter_keywords f memo blank to)) then Err TypeError
  else do r <- scatter_fn d (match to with SName _ _ => true | _ => false end);
       Ok (match to with SMemvar => None | SName v _ | STo v => Some (v, r) end).

(** ** GATHER *)
(* the value given: nothing, an object with attributes, or an array: its attributes are those of class Array *)
Inductive gval := GNone | GObj (o : attrs) | GArray (l : list fval).
Definition array_attrs : list pystr := [u "columns"; u "offset"; u "dim1"; u "data"; u "_subarray"; u "_get_index"; u "alen"; u "index"].
(* setting fields of the current record: dbf.write(record, update...).  For a table with a field named like an attribute of Array that attribute is
   written; simplified here to an error (right for methods and lists, which are no field values, not for columns, offset and dim1). *)
Definition write_fields (upd : attrs) (r : rec) : rec := fold_left (fun r '(f, v) => set_field f v r) upd r.
(* {field: getattr(val, field) for field in fields if hasattr(val, field)} *)
Definition picked (fs : list pystr) (o : attrs) : attrs :=
  flat_map (fun f => match dget pystr_eqb o f with Some v => [(f, v)] | None => [] end) fs.
(* _update_from, vfpdatabase.py:86-97, given the record is there *)
Definition update_of (fs : list pystr) (v : gval) : res (option attrs) :=
  match v with
  | GNone => Ok None                                  (* zip(fields, None) fails: return *)
  | GObj o => match picked fs o with [] => Ok None | l => Ok (Some l) end   (* an object without any of the fields cannot be iterated over *)
  | GArray l => if existsb (fun f => mem_str f array_attrs) fs then Err TypeError else Ok (Some (combine fs l))
  end.
Definition update_from (d : db) (v : gval) : res unit * db :=
  match table_of d TNone with
  | Err e => (Err e, d)
  | Ok (i, w) =>
      match t_record (w_tab w) with
      | None => (Ok tt, d)
      | Some _ => match update_of (fields w) v with
                  | Err e => (Err e, d)
                  | Ok None => (Ok tt, d)
                  | Ok (Some l) => (Ok tt, put_tab d i w (t_update (w_tab w) (t_current (w_tab w)) (write_fields l)))
                  end
      end
  end.
Inductive gsource := GMemvar | GName (o : attrs) | GFrom (l : list fval).
(* visitGatherExpr, vfp2py_convert_visitor.py:1764-1775 *)
Definition gather_keywords (f : fclause) (memo : bool) (src : gsource) : list pystr :=
  match f with FAll => [] | FList _ => [u "fields"] | FLike _ | FExcept _ => [u "fields"; u "type"] end ++
  (if memo then [u "memo"] else []) ++ match src with GMemvar => [] | _ => [u "val"] end.
Definition gather_params : list pystr := [u "val"; u "fields"; u "fieldstype"; u "memo"].
(* vfpfunc.gather, vfpfunc.py:1634-1635 *)
Definition gather (d : db) (f : fclause) (memo : bool) (src : gsource) : res unit * db :=
  if negb (call_ok gather_params (gather_keywords f memo src)) then (Err TypeError, d)
  else update_from d (match src with GMemvar => GNone | GName o => GObj o | GFrom l => GArray l end).
End Vars.
