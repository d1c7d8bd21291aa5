(** SQLEXEC, SQLTABLES, SQLCOMMIT, SQLROLLBACK: vfpfunc.py:1510-1515, 1529-1582.
    The connection is what pyodbc gives: the outcome of a command, the rows it fetches and the description of its columns.  What the
    dbf library does is given by two arguments: creating a table file, and turning a row into a record of that table. *)
From Verif Require Import PyBase PyStr M_Strings M_Db.
Open Scope Z_scope.
Open Scope res_scope.

(** the Python type of a column, `column[1]`; TyOther: any type but the four of the dictionary in lines 1540-1545 (Decimal, date, bytes ...) *)
Inductive pytype := TyInt | TyStr | TyBool | TyFloat | TyOther.
(** a column: name, type, `column[4]` and `column[5]` *)
Record column := mkCol { k_name : pystr; k_type : pytype; k_size : Z; k_dec : Z }.
(** lines 1538-1552 *)
Definition field_spec (c : column) : res pystr :=
  do t <- (match k_type c with TyInt | TyFloat => Ok 78 | TyStr => Ok 67 | TyBool => Ok 76 | TyOther => Err KeyError end);
  let lens := if t =? 78 then u "(" ++ dec (k_size c) ++ u ", " ++ dec (k_dec c) ++ u ")"
              else if t =? 76 then [] else u "(" ++ dec (k_size c) ++ u ")" in
  Ok (firstn 10 (k_name c) ++ [32; t] ++ lens).
Fixpoint field_specs (cs : list column) : res (list pystr) :=
  match cs with [] => Ok [] | c :: r => do s <- field_spec c; do t <- field_specs r; Ok (s :: t) end.

Section Sql.
Variable R : Type.
(** `dbf.Table(filename, specs)`: the full name of the new file; `table.append(row)`: the record *)
Variable create : pystr -> list pystr -> res pystr.
Variable store : R -> res rec.
(** the rows of a result, one by one, lines 1555-1556; vfpdatabase.py:162-177 *)
Fixpoint insert_rows (d : db) (name : pystr) (rows : list R) : res unit * db :=
  match rows with
  | [] => (Ok tt, d)
  | r :: rest => match table_of d (TName name) with
                 | Err e => (Err e, d)
                 | Ok _ => match store r with
                           | Err e => (Err e, d)
                           | Ok x => match insert d (TName name) [x] with (Ok _, d) => insert_rows d name rest | (Err e, d) => (Err e, d) end
                           end
                 end
  end.
(** create_table, vfpdatabase.py:99-102 *)
Definition create_table (d : db) (tablename : pystr) (specs : list pystr) : res unit * db :=
  match create tablename specs with
  | Err e => (Err e, d)
  | Ok file => use d (Some tablename) (TNum 0) None (Ok (file, []))
  end.
(** _odbc_cursor_to_db, lines 1529-1559: all errors are swallowed *)
Definition cursor_to_db (d : db) (fetched : res (list column * list R)) (cursor_name : pystr) : db :=
  let name := match cursor_name with [] => u "sqlresult" | n => n end in
  match fetched with
  | Err _ => d
  | Ok (_, []) => d
  | Ok (cols, rows) =>
      match field_specs cols with
      | Err _ => d
      | Ok specs =>
          match use d None (TNum (select_function d (TName name))) None (Err GenericException) with
          | (Err _, d) => d
          | (Ok _, d) => match create_table d (name ++ u ".dbf") specs with
                         | (Err _, d) => d
                         | (Ok _, d) => match insert_rows d name rows with
                                        | (Err _, d) => d
                                        | (Ok _, d) => snd (goto d (TName name) 0)
                                        end
                         end
          end
      end
  end.
(** sqlexec, lines 1561-1567: `run` is the outcome of conn.execute(cmd) and then what fetchall() gives *)
Definition sqlexec (d : db) (run : res (res (list column * list R))) (cursor_name : pystr) : Z * db :=
  match run with Err _ => (-1, d) | Ok fetched => (1, cursor_to_db d fetched cursor_name) end.
End Sql.
