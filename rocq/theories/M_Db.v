(** Work areas, record navigation and scoped commands: vfp2py/vfpdatabase.py.
    The `dbf` library is not part of /repo; the few table operations used are modelled by the contract in
    section "dbf tables" (trusted, see DESIGN.md).  Table references are None, an integer or a name (floats left out);
    indexes, memo files and on-disk effects are left out. *)
From Verif Require Import PyBase PyStr M_Strings.
Open Scope Z_scope.

(** ** dbf tables *)
Inductive fval := FNum (z : Z) | FChr (s : pystr) | FLog (b : bool).
(** A record: its deletion mark and its fields by (lower-case) name. *)
Record rec := mkRec { r_del : bool; r_flds : list (pystr * fval) }.
(** dbf.Table: the records and the record pointer: -1 before the first record, len after the last. *)
Record table := mkT { t_recs : list rec; t_idx : Z }.
Definition t_len (t : table) : Z := zlen (t_recs t).
(** `table.current` *)
Definition t_current (t : table) : Z := t_idx t.
(** `table.current_record`: None stands for the falsy "vapor" record given before the first and after the last one. *)
Definition t_record (t : table) : option rec :=
  if (t_idx t <? 0) || (t_len t <=? t_idx t) then None else nth_error (t_recs t) (Z.to_nat (t_idx t)).
(** `dbf.recno(table.current_record)`: -1 and len for the vapor records *)
Definition t_recno (t : table) : Z :=
  if t_idx t <? 0 then -1 else if t_len t <=? t_idx t then t_len t else t_idx t.
(** `table.bof`, `table.eof`: no more records towards the beginning / the end *)
Definition t_bof (t : table) : bool := t_idx t <=? 0.
Definition t_eof (t : table) : bool := t_len t <=? t_idx t + 1.
Definition t_at (t : table) (i : Z) : table := mkT (t_recs t) i.
(** `table.goto(n)` *)
Definition t_goto (t : table) (n : Z) : res table :=
  if (n <? - t_len t) || (t_len t <=? n) then Err IndexError
  else Ok (t_at t (if n <? 0 then n + t_len t else n)).
Definition t_top (t : table) : table := t_at t (-1).
Definition t_bottom (t : table) : table := t_at t (t_len t).
(** `table.skip(n)`: the pointer stops before the first or after the last record and Bof / Eof is raised. *)
Definition t_skip (t : table) (n : Z) : res unit * table :=
  let i := Z.max (-1) (Z.min (t_len t) (t_idx t + n)) in
  (if i <? 0 then Err DbfBof else if t_len t <=? i then Err DbfEof else Ok tt, t_at t i).
(** `table.append(values)` adds a record at the end. *)
Definition t_append (t : table) (r : rec) : table := mkT (t_recs t ++ [r]) (t_idx t).
(** `table.zap()` *)
Definition t_zap (t : table) : table := mkT [] (-1).
(** writing to the record with number i *)
Definition t_update (t : table) (i : Z) (f : rec -> rec) : table :=
  match nth_error (t_recs t) (Z.to_nat i) with
  | Some r => mkT (list_upd (t_recs t) (Z.to_nat i) (f r)) (t_idx t)
  | None => t
  end.
Definition mark (b : bool) (r : rec) : rec := mkRec b (r_flds r).
Definition has_field (r : rec) (f : pystr) : bool := dmem pystr_eqb (r_flds r) f.
Definition set_field (f : pystr) (v : fval) (r : rec) : rec := mkRec (r_del r) (dset pystr_eqb (r_flds r) f v).

(** ** File names (posixpath) *)
Definition lower (s : pystr) : pystr := map lower_char s.
Fixpoint has_nondot (s : pystr) : bool := match s with [] => false | c :: r => negb (c =? 46) || has_nondot r end.
(** os.path.splitext(p)[0] *)
Definition splitext (p : pystr) : pystr :=
  let sep := str_rfind p [47] in let dot := str_rfind p [46] in
  if (sep <? dot) && has_nondot (py_slice p (Some (sep + 1)) (Some dot)) then py_slice p None (Some dot) else p.
(** os.path.basename *)
Definition basename (p : pystr) : pystr := py_slice p (Some (str_rfind p [47] + 1)) None.

(** ** DatabaseWorkspace, vfpdatabase.py:12-35.  `w_locate`: what is left of the list of record numbers found by LOCATE;
    `w_seek`: likewise for SEEK. *)
Record ws := mkW { w_name : pystr; w_file : pystr; w_tab : table; w_locate : option (list Z); w_found : bool;
                   w_seek : option (list Z) }.
(** vfpdatabase.py:13-23; the file has been opened, giving its full name and its records *)
Definition new_ws (alias : option pystr) (file : pystr) (rs : list rec) : ws :=
  mkW (lower (match alias with Some a => a | None => [] end)) file
      (mkT rs (if 0 <? zlen rs then 0 else -1)) None false None.
(** vfpdatabase.py:25-35 *)
Definition is_alias (w : ws) (alias : pystr) : bool :=
  let alias := lower alias in
  let f := lower (w_file w) in
  existsb (pystr_eqb alias) [w_name w; f; splitext f; basename f; basename (splitext f)].

(** ** DatabaseContext, vfpdatabase.py:37-377 *)
Record db := mkDb { areas : list (option ws); cur : Z }.
(** A table argument: None, an integer, a name. *)
Inductive tref := TNone | TNum (n : Z) | TName (s : pystr).
Definition n_areas : Z := 32767.
(** vfpdatabase.py:38-40, 284-285 *)
Definition db_init : db := mkDb (repeat None (Z.to_nat n_areas)) 0.
Definition close_tables (d : db) : db := mkDb (repeat None (Z.to_nat n_areas)) (cur d).

Fixpoint index_of (p : option ws -> bool) (l : list (option ws)) (i : Z) : option Z :=
  match l with [] => None | o :: r => if p o then Some i else index_of p r (i + 1) end.
Definition answers (s : pystr) (o : option ws) : bool := match o with Some w => is_alias w s | None => false end.
Definition free (o : option ws) : bool := match o with None => true | Some _ => false end.
(** vfpdatabase.py:42-52 *)
Definition get_workarea (d : db) (tn : tref) : res Z :=
  match tn with
  | TNone => Ok (cur d)
  | TNum n => Ok (if n =? 0 then cur d else n)
  | TName [] => Ok (cur d)
  | TName s => match index_of (answers s) (areas d) 0 with Some i => Ok i | None => Err GenericException end
  end.
(** vfpdatabase.py:54-70 *)
Definition select_function (d : db) (tn : tref) : Z :=
  match tn with
  | TNum 0 => cur d + 1
  | TNum 1 => match index_of free (rev (areas d)) 0 with Some i => zlen (areas d) - i | None => 0 end
  | TNum n => match py_nth (areas d) (n - 1) with Ok (Some _) => n | _ => 0 end
  | TNone | TName [] => match index_of free (areas d) 0 with Some i => i + 1 | None => 0 end
  | TName s => match get_workarea d (TName s) with Ok i => i + 1 | Err _ => 0 end
  end.
(** `self.open_tables[i]` used as an open table (None has no attribute `table`) *)
Definition ws_at (d : db) (i : Z) : res ws :=
  match py_nth (areas d) i with Ok (Some w) => Ok w | Ok None => Err AttributeError | Err e => Err e end.
Definition put_ws (d : db) (i : Z) (w : ws) : db :=
  match py_set_nth (areas d) i (Some w) with Ok l => mkDb l (cur d) | Err _ => d end.
Definition with_tab (w : ws) (t : table) : ws := mkW (w_name w) (w_file w) t (w_locate w) (w_found w) (w_seek w).
(** vfpdatabase.py:72-73 followed by `.table` *)
Definition table_of (d : db) (tn : tref) : res (Z * ws) :=
  match get_workarea d tn with
  | Err e => Err e
  | Ok i => match ws_at d i with Ok w => Ok (i, w) | Err e => Err e end
  end.
Definition put_tab (d : db) (i : Z) (w : ws) (t : table) : db := put_ws d i (with_tab w t).
(** vfpdatabase.py:110-111 *)
Definition select (d : db) (tn : tref) : res unit * db :=
  match get_workarea d tn with Ok i => (Ok tt, mkDb (areas d) i) | Err e => (Err e, d) end.
(** vfpdatabase.py:135-140 *)
Definition used (d : db) (tn : tref) : bool := is_ok (get_workarea d tn).
(** vfpdatabase.py:113-123; `opened` is the outcome of opening the file.  `workarea is 0` is read as equality. *)
Definition use (d : db) (tablename : option pystr) (workarea : tref) (alias : option pystr) (opened : res (pystr * list rec))
  : res unit * db :=
  match tablename with
  | None =>
      match workarea with
      | TNum 0 => (Ok tt, d)
      | _ => match get_workarea d workarea with
             | Err e => (Err e, d)
             | Ok i => match py_set_nth (areas d) (i - 1) None with
                       | Ok l => (Ok tt, mkDb l (cur d))
                       | Err e => (Err e, d)
                       end
             end
      end
  | Some s =>
      if used d (TName s) then (Err GenericException, d)
      else
        let slot := match workarea with
                    | TNum 0 => match index_of free (areas d) 0 with Some i => Ok i | None => Err ValueError end
                    | TNum n => Ok n
                    | _ => Err TypeError
                    end in
        match (match workarea, slot with TNum 0, Err e => Err e | _, _ => rmap (fun _ => tt) opened end) with
        | Err e => (Err e, d)
        | Ok _ =>
            match opened, slot with
            | Ok (file, rs), Ok i =>
                match py_set_nth (areas d) i (Some (new_ws alias file rs)) with
                | Ok l => (Ok tt, mkDb l (cur d))
                | Err e => (Err e, d)
                end
            | Err e, _ => (Err e, d)
            | _, Err e => (Err e, d)
            end
        end
  end.
(** vfpdatabase.py:125-127 *)
Definition alias (d : db) (tn : tref) : res pystr :=
  match table_of d tn with
  | Ok (_, w) => Ok (match w_name w with [] => splitext (basename (w_file w)) | n => n end)
  | Err e => Err e
  end.
(** vfpdatabase.py:185-188 *)
Definition goto (d : db) (tn : tref) (num : Z) : res unit * db :=
  match table_of d tn with
  | Err e => (Err e, d)
  | Ok (i, w) => match t_goto (w_tab w) (if 0 <? num then num - 1 else num) with
                 | Ok t => (Ok tt, put_tab d i w t)
                 | Err e => (Err e, d)
                 end
  end.
(** vfpdatabase.py:179-183 *)
Definition skip (d : db) (tn : tref) (n : Z) : res unit * db :=
  match table_of d tn with
  | Err e => (Err e, d)
  | Ok (i, w) => let (r, t) := t_skip (w_tab w) n in
                 (match r with Err DbfEof => Ok tt | r => r end, put_tab d i w t)
  end.
(** vfpdatabase.py:142-145; the blank record is an argument *)
Definition append (d : db) (tn : tref) (blank : rec) : res unit * db :=
  match table_of d tn with
  | Err e => (Err e, d)
  | Ok (i, w) => goto (put_tab d i w (t_append (w_tab w) blank)) tn (-1)
  end.
(** vfpdatabase.py:162-177; the records to append (one for a tuple, dictionary or object, one per row for an array) are an argument *)
Definition insert (d : db) (tn : tref) (rows : list rec) : res unit * db :=
  match table_of d tn with
  | Err e => (Err e, d)
  | Ok (i, w) => goto (put_tab d i w (fold_left t_append rows (w_tab w))) tn (-1)
  end.
(** vfpdatabase.py:355-356: the argument is not used *)
Definition zap (d : db) (tn : tref) : res unit * db :=
  match table_of d TNone with
  | Err e => (Err e, d)
  | Ok (i, w) => (Ok tt, put_tab d i w (t_zap (w_tab w)))
  end.
(** vfpdatabase.py:287-309 *)
Definition recno (d : db) : Z := match ws_at d (cur d) with Ok w => t_recno (w_tab w) + 1 | Err _ => 0 end.
Definition reccount (d : db) : Z := match ws_at d (cur d) with Ok w => t_len (w_tab w) | Err _ => 0 end.
Definition bof (d : db) (tn : tref) : res bool := rmap (fun p => t_bof (w_tab (snd p))) (table_of d tn).
Definition eof (d : db) (tn : tref) : res bool := rmap (fun p => t_eof (w_tab (snd p))) (table_of d tn).

(** ** Scoped commands: the generator _get_records, vfpdatabase.py:190-235.
    Conditions are closures evaluated in the current state; they are taken to have no effect of their own.
    The consumer of the generator is `body`, run at every yield with the work area and the number of the record. *)
Inductive scope := ScAll | ScRest | ScNext (n : Z) | ScRecord (n : Z).
Definition cond_fn := db -> res bool.
Definition run_cond (c : option cond_fn) (d : db) : res bool := match c with Some c => c d | None => Ok true end.

(** lines 222-228.  The fuel bounds the number of rounds; see records_fuel. *)
Fixpoint rec_loop {A} (fuel : nat) (a : Z) (c : table -> bool) (fc wc : option cond_fn)
    (body : Z -> Z -> db -> res A * db) (acc : list A) (d : db) : res (list A) * db :=
  match fuel with
  | O => (Ok acc, d)
  | S k =>
      match ws_at d a with
      | Err e => (Err e, d)
      | Ok w =>
          if negb (c (w_tab w)) then (Ok acc, d)
          else
            match run_cond wc d with
            | Err e => (Err e, d)
            | Ok false => (Ok acc, d)
            | Ok true =>
                match run_cond fc d with
                | Err e => (Err e, d)
                | Ok b =>
                    let '(r, d1) := if b then (let '(r, d1) := body a (t_idx (w_tab w)) d in (rmap (fun x => [x]) r, d1))
                                    else (Ok [], d) in
                    match r with
                    | Err e => (Err e, d1)
                    | Ok x =>
                        match ws_at d1 a with
                        | Err e => (Err e, d1)
                        | Ok w1 =>
                            let '(sr, t2) := t_skip (w_tab w1) 1 in
                            let d2 := put_tab d1 a w1 t2 in
                            match sr with
                            | Err _ => (Ok (acc ++ x), d2)
                            | Ok _ => rec_loop k a c fc wc body (acc ++ x) d2
                            end
                        end
                    end
                end
            end
      end
  end.
Definition records_fuel (t : table) : nat := S (length (t_recs t)).

(** lines 191-197 *)
Definition reset (t : table) (saved : Z) : res table :=
  if saved <? 0 then Ok (t_top t) else if saved =? t_len t then Ok (t_bottom t) else t_goto t saved.

Definition get_records {A} (d : db) (tn : tref) (sc : scope) (fc wc : option cond_fn)
    (body : Z -> Z -> db -> res A * db) : res (list A) * db :=
  let save_area := cur d in
  let restore (d : db) := mkDb (areas d) save_area in
  match select d tn with
  | (Err e, d0) => (Err e, d0)
  | (Ok _, d0) =>
      match table_of d0 TNone with
      | Err e => (Err e, d0)
      | Ok (a, w) =>
          let t := w_tab w in
          if t_len t =? 0 then (Ok [], restore d0)
          else
            let save := t_current t in
            match (match sc with
                   | ScAll => t_goto t 0
                   | ScRecord n => t_goto t (n - 1)
                   | _ => Ok t
                   end) with
            | Err e => (Err e, d0)
            | Ok t1 =>
                let d1 := put_tab d0 a w t1 in
                let final := t_current t1 + (match sc with ScNext n => n | _ => 0 end) in
                let c := fun t => match sc with
                                  | ScRecord n => t_current t =? n - 1
                                  | ScNext _ => t_current t <? final
                                  | _ => match t_record t with Some _ => true | None => false end
                                  end in
                match t_record t1 with
                | None => (Ok [], restore d1)
                | Some _ =>
                    match rec_loop (records_fuel t1) a c fc wc body [] d1 with
                    | (Err e, d2) => (Err e, d2)
                    | (Ok l, d2) =>
                        match ws_at d2 a with
                        | Err e => (Err e, d2)
                        | Ok w2 =>
                            match (match sc with
                                   | ScAll | ScRest => Ok (t_bottom (w_tab w2))
                                   | ScNext n => reset (w_tab w2) (save + n - 1)
                                   | ScRecord n => reset (w_tab w2) (n - 1)
                                   end) with
                            | Err e => (Err e, d2)
                            | Ok t2 => (Ok l, restore (put_tab d2 a w2 t2))
                            end
                        end
                    end
                end
            end
      end
  end.

(** vfpdatabase.py:254-255, 260-262, 264-265, 154-160 *)
Definition count (d : db) (tn : tref) (sc : scope) (fc wc : option cond_fn) : res Z * db :=
  let '(r, d') := get_records d tn sc fc wc (fun _ i d => (Ok i, d)) in (rmap zlen r, d').
Definition update_rec (a i : Z) (f : rec -> rec) (d : db) : db :=
  match ws_at d a with Ok w => put_tab d a w (t_update (w_tab w) i f) | Err _ => d end.
Definition delete_record (d : db) (tn : tref) (sc : scope) (recall : bool) (fc wc : option cond_fn) : res unit * db :=
  let '(r, d') := get_records d tn sc fc wc (fun a i d => (Ok tt, update_rec a i (mark (negb recall)) d)) in
  (rmap (fun _ => tt) r, d').
Definition sum (d : db) (tn : tref) (sc : scope) (sumexpr : db -> res Z) (fc wc : option cond_fn) : res Z * db :=
  let '(r, d') := get_records d tn sc fc wc (fun _ _ d => (sumexpr d, d)) in
  (rmap (fun l => fold_left Z.add l 0) r, d').
(** `field.lower().rsplit('.', 1)` *)
Definition split_field (s : pystr) : option pystr * pystr :=
  let s := lower s in
  match rfind_nat s [46] with
  | Some k => (Some (firstn k s), skipn (S k) s)
  | None => (None, s)
  end.
Definition replace (d : db) (tn : tref) (sc : scope) (field : pystr) (v : fval) : res unit * db :=
  let falsy := match tn with TNone | TNum 0 | TName [] => true | _ => false end in
  let (tn, field) := if falsy then (let (t, f) := split_field field in (match t with Some t => TName t | None => TNone end, f))
                     else (tn, field) in
  let '(r, d') := get_records d tn sc None None
    (fun a i d => match ws_at d a with
                  | Ok w => match t_record (w_tab w) with
                            | Some r => if has_field r field then (Ok tt, update_rec a i (set_field field v) d) else (Err DbfError, d)
                            | None => (Err DbfError, d)
                            end
                  | Err e => (Err e, d)
                  end) in
  (rmap (fun _ => tt) r, d').

(** ** SCAN: the generator scanner, vfpdatabase.py:237-252, with its loop body (as converted: `for _ in DB.scanner(...): body`).
    The third component records RECNO() at each start of the body; it is not part of the program.  None: still running
    after the given number of rounds. *)
Fixpoint scan_loop (fuel : nat) (workspace record : Z) (condition : cond_fn) (body : db -> res unit * db)
    (d : db) (tr : list Z) : option (res unit * db * list Z) :=
  match fuel with
  | O => None
  | S k =>
      match eof d (TNum workspace) with
      | Err e => Some (Err e, d, tr)
      | Ok true => Some (goto d (TNum workspace) record, tr)
      | Ok false =>
          match skip d (TNum workspace) 1 with
          | (Err e, d1) => Some (Err e, d1, tr)
          | (Ok _, d1) =>
              match condition d1 with
              | Err e => Some (Err e, d1, tr)
              | Ok false => scan_loop k workspace record condition body d1 tr
              | Ok true =>
                  match body d1 with
                  | (Err e, d2) => Some (Err e, d2, tr ++ [recno d1])
                  | (Ok _, d2) => scan_loop k workspace record condition body d2 (tr ++ [recno d1])
                  end
              end
          end
      end
  end.
Definition scanner (fuel : nat) (d : db) (condition : option cond_fn) (sc : scope) (body : db -> res unit * db)
  : option (res unit * db * list Z) :=
  let condition := match condition with Some c => c | None => fun _ => Ok true end in
  let workspace := cur d in
  let record := recno d in
  match table_of d (TNum workspace) with
  | Err e => Some (Err e, d, [])
  | Ok (_, w) =>
      match (match sc with ScAll => goto d (TNum workspace) 0 | _ => (Ok tt, d) end) with
      | (Err e, d1) => Some (Err e, d1, [])
      | (Ok _, d1) =>
          match (if 0 <? t_len (w_tab w) then condition d1 else Ok false) with
          | Err e => Some (Err e, d1, [])
          | Ok false => scan_loop fuel workspace record condition body d1 []
          | Ok true =>
              match body d1 with
              | (Err e, d2) => Some (Err e, d2, [recno d1])
              | (Ok _, d2) => scan_loop fuel workspace record condition body d2 [recno d1]
              end
          end
      end
  end.

(** ** LOCATE, CONTINUE, FOUND(), SEEK: vfpdatabase.py:311-345 *)
Definition continue_locate (d : db) (tn : tref) : res unit * db :=
  match get_workarea d tn with
  | Err e => (Err e, d)
  | Ok i =>
      match py_nth (areas d) i with
      | Err e => (Err e, d)
      | Ok None => (Ok tt, d)
      | Ok (Some w) =>
          match w_locate w with
          | None => (Ok tt, d)
          | Some [] => (Ok tt, put_ws d i (mkW (w_name w) (w_file w) (t_bottom (w_tab w)) None false (w_seek w)))
          | Some (r :: rest) =>
              match t_goto (w_tab w) r with
              | Err e => (Err e, put_ws d i (mkW (w_name w) (w_file w) (w_tab w) (Some rest) (w_found w) (w_seek w)))
              | Ok t => (Ok tt, put_ws d i (mkW (w_name w) (w_file w) t (Some rest) true (w_seek w)))
              end
          end
      end
  end.
Definition locate (d : db) (tn : tref) (fc wc : option cond_fn) : res unit * db :=
  match get_records d tn ScRest fc wc (fun _ i d => (Ok i, d)) with
  | (Err e, d1) => (Err e, d1)
  | (Ok l, d1) =>
      match table_of d1 tn with
      | Err e => (Err e, d1)
      | Ok (i, w) => continue_locate (put_ws d1 i (mkW (w_name w) (w_file w) (w_tab w) (Some l) (w_found w) (w_seek w))) tn
      end
  end.
Definition found (d : db) (tn : tref) : res bool :=
  match get_workarea d tn with
  | Err e => Err e
  | Ok i => match py_nth (areas d) i with
            | Err e => Err e
            | Ok None => Ok false
            | Ok (Some w) => Ok (w_found w)
            end
  end.
(** `matches`: the record numbers the library's index search gives for the key.  An index is assumed to be current and key_index absent. *)
Definition seek (d : db) (tn : tref) (matches : list Z) : res unit * db :=
  match table_of d tn with
  | Err e => (Err e, d)
  | Ok (i, w) =>
      match (match w_seek w with Some l => l | None => matches end) with
      | [] => (Ok tt, put_ws d i (mkW (w_name w) (w_file w) (t_bottom (w_tab w)) (w_locate w) false (Some [])))
      | r :: rest =>
          match t_goto (w_tab w) r with
          | Err e => (Err e, put_ws d i (mkW (w_name w) (w_file w) (w_tab w) (w_locate w) (w_found w) (Some rest)))
          | Ok t => (Ok tt, put_ws d i (mkW (w_name w) (w_file w) t (w_locate w) true (Some rest)))
          end
      end
  end.

(** ** Histories of commands *)
Inductive dcmd :=
| CUse (tablename : option pystr) (workarea : tref) (al : option pystr) (opened : res (pystr * list rec))
| CSelect (tn : tref)
| CGoto (tn : tref) (n : Z)
| CSkip (tn : tref) (n : Z)
| CAppend (tn : tref) (blank : rec)
| CInsert (tn : tref) (rows : list rec)
| CZap (tn : tref)
| CClose
| CCount (tn : tref) (sc : scope) (fc wc : option cond_fn)
| CDelete (tn : tref) (sc : scope) (recall : bool) (fc wc : option cond_fn)
| CReplace (tn : tref) (sc : scope) (field : pystr) (v : fval)
| CSum (tn : tref) (sc : scope) (e : db -> res Z) (fc wc : option cond_fn)
| CLocate (tn : tref) (fc wc : option cond_fn)
| CContinue (tn : tref)
| CSeek (tn : tref) (matches : list Z).
(** The state after a command, whether or not it raised. *)
Definition dstep (d : db) (c : dcmd) : db :=
  match c with
  | CUse t w a o => snd (use d t w a o)
  | CSelect tn => snd (select d tn)
  | CGoto tn n => snd (goto d tn n)
  | CSkip tn n => snd (skip d tn n)
  | CAppend tn b => snd (append d tn b)
  | CInsert tn rows => snd (insert d tn rows)
  | CZap tn => snd (zap d tn)
  | CClose => close_tables d
  | CCount tn sc fc wc => snd (count d tn sc fc wc)
  | CDelete tn sc r fc wc => snd (delete_record d tn sc r fc wc)
  | CReplace tn sc f v => snd (replace d tn sc f v)
  | CSum tn sc e fc wc => snd (sum d tn sc e fc wc)
  | CLocate tn fc wc => snd (locate d tn fc wc)
  | CContinue tn => snd (continue_locate d tn)
  | CSeek tn m => snd (seek d tn m)
  end.
Definition drun (d : db) (cs : list dcmd) : db := fold_left dstep cs d.

(** ** Commands as converted: vfp2py_convert_visitor.py.  A query: its scope clause and FOR / WHILE conditions. *)
Record query := mkQ { q_scope : option scope; q_for : option cond_fn; q_while : option cond_fn }.
(** visitReplace, 1596-1609: the value is an argument of the call, so it is computed before; the conditions are dropped *)
Definition conv_replace (d : db) (tn : tref) (q : query) (field : pystr) (value : db -> res fval) : res unit * db :=
  match value d with
  | Err e => (Err e, d)
  | Ok v => replace d tn (match q_scope q with Some s => s | None => ScNext 1 end) field v
  end.
(** visitLocate, 1550-1563: the scope is computed but not passed *)
Definition conv_locate (d : db) (q : query) : res unit * db := locate d TNone (q_for q) (q_while q).
(** visitCount, 1659-1671; visitDeleteRecord, 1621-1632; visitSum, 1673-1686 *)
Definition default_scope (q : query) : scope :=
  match q_scope q with Some s => s | None => match q_while q with Some _ => ScRest | None => ScAll end end.
Definition conv_count (d : db) (q : query) : res Z * db := count d TNone (default_scope q) (q_for q) (q_while q).
Definition conv_delete (d : db) (tn : tref) (q : query) (recall : bool) : res unit * db :=
  delete_record d tn (match q_scope q with Some s => s | None => ScNext 1 end) recall (q_for q) (q_while q).
(** `DO WHILE NOT EOF() ... SKIP ENDDO` converted to `while not DB.eof(): ...; DB.skip(None, 1)`; the list records RECNO() at
    each start of the body *)
Fixpoint eof_loop (fuel : nat) (d : db) (tr : list Z) : option (list Z) :=
  match fuel with
  | O => None
  | S k => match eof d TNone with
           | Ok false => eof_loop k (snd (skip d TNone 1)) (tr ++ [recno d])
           | _ => Some tr
           end
  end.

(** ** The methods of DatabaseContext that conversions call: name, number of positional parameters (without self), keyword names
    accepted.  vfpdatabase.py:99-377 *)
Definition db_methods : list (string * (nat * list string)) :=
  [("create_table", (3, [])); ("alter_table", (3, [])); ("select", (1, [])); ("use", (4, ["alias"]));
   ("append", (2, [])); ("append_from", (3, ["from_type"])); ("replace", (4, [])); ("insert", (2, [])); ("skip", (2, []));
   ("goto", (2, [])); ("scanner", (2, ["condition"; "scope"])); ("count", (2, ["for_cond"; "while_cond"])); ("copy_structure", (1, []));
   ("delete_record", (3, ["recall"; "for_cond"; "while_cond"])); ("sum", (3, ["for_cond"; "while_cond"])); ("pack", (3, []));
   ("reindex", (1, [])); ("index_on", (6, [])); ("close_tables", (1, []));
   ("locate", (4, ["tablename"; "for_cond"; "while_cond"; "nooptimize"])); ("continue_locate", (1, []));
   ("seek", (5, ["key_index"; "key_index_file"; "descending"])); ("browse", (0, [])); ("zap", (1, []))]%nat%string.
(** The calls the converter emits for table commands: positional arguments and keywords it may add.
    vfp2py_convert_visitor.py:488-495, 1449-1457, 1479-1736 *)
Definition db_emitted : list (string * (nat * list string)) :=
  [("create_table", (3, [])); ("create_dbf", (3, [])); ("create_cursor", (3, [])); ("close_tables", (1, [])); ("close_indexes", (1, []));
   ("close_databases", (1, [])); ("close_all", (0, [])); ("alter_table", (3, [])); ("select", (1, [])); ("use", (3, ["alias"])); ("append", (2, []));
   ("append_from", (2, ["for_cond"; "filetype"])); ("replace", (4, [])); ("insert", (2, [])); ("skip", (2, [])); ("goto", (2, []));
   ("scanner", (0, ["condition"; "scope"])); ("count", (2, ["for_cond"; "while_cond"; "nooptimize"])); ("copy_structure", (1, []));
   ("delete_record", (2, ["for_cond"; "while_cond"; "recall"])); ("sum", (3, ["for_cond"; "while_cond"; "nooptimize"]));
   ("pack", (3, [])); ("pack_database", (0, [])); ("reindex", (1, [])); ("index_on", (6, []));
   ("locate", (0, ["for_cond"; "while_cond"; "nooptimize"])); ("continue_locate", (0, []));
   ("seek", (2, ["key_index"; "key_index_file"; "descending"])); ("browse", (0, [])); ("zap", (1, []));
   ("sqlselect", (6, [])); ("update", (2, ["where"; "join"; "from_args"]))]%nat%string.
(** Python accepts the call: the method exists, is not given too many positional arguments, and knows the keywords. *)
Definition call_accepted (c : string * (nat * list string)) : bool :=
  match dget String.eqb db_methods (fst c) with
  | None => false
  | Some (n, kws) => Nat.leb (fst (snd c)) n && forallb (fun k => existsb (String.eqb k) kws) (snd (snd c))
  end.
