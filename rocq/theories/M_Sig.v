(** The parameters of the functions of the run time that calls of native functions reach, and the arguments they are given.

    A parameter list is the required parameters, the optional ones, and whether there is a *args. *)
From Verif Require Import PyBase PyStr M_Abbr M_Do M_Call.
Open Scope Z_scope.

Record signature := Sig { required : list string; optional : list string; rest : bool }.
Open Scope string_scope.
(** vfpfunc.py:1136-1719, one line each; vfpdatabase.py:54-373 without self.  The module os, vfpfunc.py:5, is not a function. *)
Definition signatures : list (pystr * option signature) := map (fun p => (u (fst p), snd p)) [
  ("atline", Some (Sig ["search"; "string"] [] false));                                           (* vfpfunc.py:1136 *)
  ("capslock", Some (Sig [] ["on"] false));                                                       (* :1139 *)
  ("cdx", Some (Sig ["index"; "workarea"] [] false));                                             (* :1142 *)
  ("chrtran", Some (Sig ["expr"; "fchrs"; "rchrs"] [] false));                                    (* :1145 *)
  ("ctod", Some (Sig ["string"] [] false));                                                       (* :1148 *)
  ("ddeinitiate", Some (Sig ["service"; "topic"] [] false));                                      (* :1151 *)
  ("ddesetoption", Some (Sig ["a"; "b"] [] false));                                               (* :1162 *)
  ("ddeterminate", Some (Sig ["a"] [] false));                                                    (* :1165 *)
  ("ddesetservice", Some (Sig ["a"; "b"] ["c"] false));                                           (* :1168 *)
  ("ddesettopic", Some (Sig ["a"; "b"; "c"] [] false));                                           (* :1171 *)
  ("error", Some (Sig ["txt"] [] false));                                                         (* :1189 *)
  ("fdate", Some (Sig ["filename"] ["datetype"] false));                                          (* :1192 *)
  ("ftime", Some (Sig ["filename"] [] false));                                                    (* :1198 *)
  ("filetostr", Some (Sig ["filename"] [] false));                                                (* :1201 *)
  ("getdir", Some (Sig [] ["dir"; "text"; "caption"; "flags"; "root_only"] false));               (* :1205 *)
  ("getfile", Some (Sig [] ["file_ext"; "text"; "button_caption"; "button_type"; "title"] false)); (* :1208 *)
  ("getwordnum", Some (Sig ["string"; "index"] ["delim"] false));                                 (* :1232 *)
  ("gomonth", Some (Sig ["dateval"; "delta"] [] false));                                          (* :1238 *)
  ("home", Some (Sig [] ["location"] false));                                                     (* :1241 *)
  ("inkey", Some (Sig [] ["seconds"; "hide_cursor"] false));                                      (* :1246 *)
  ("isblank", Some (Sig ["expr"] [] false));                                                      (* :1249 *)
  ("like", Some (Sig ["matchstr"; "string"] [] false));                                           (* :1255 *)
  ("lineno", Some (Sig [] ["flag"] false));                                                       (* :1259 *)
  ("locfile", Some (Sig ["filename"] ["ext"; "caption"] false));                                  (* :1263 *)
  ("message", Some (Sig [] ["flag"] false));                                                      (* :1275 *)
  ("messagebox", Some (Sig ["msg"] ["arg1"; "arg2"; "timeout"; "details"] false));                (* :1281 *)
  ("os", None);                                                                                   (* :5 *)
  ("pcount", Some (Sig [] [] false));                                                             (* :1394 *)
  ("program", Some (Sig [] ["level"] false));                                                     (* :1397 *)
  ("quarter", Some (Sig ["datetime"] ["start_month"] false));                                     (* :1412 *)
  ("ratline", Some (Sig ["search"; "string"] [] false));                                          (* :1421 *)
  ("rgb", Some (Sig ["red"; "green"; "blue"] [] false));                                          (* :1424 *)
  ("seconds", Some (Sig [] [] false));                                                            (* :1427 *)
  ("set", Some (Sig ["setword"] [] true));                                                        (* :1642 *)
  ("str", Some (Sig ["num"] ["length"; "decimals"] false));                                       (* :1431 *)
  ("strextract", Some (Sig ["string"; "begin"] ["end"; "occurance"; "flag"] false));              (* :1448 *)
  ("strtofile", Some (Sig ["string"; "filename"] ["flag"] false));                                (* :1470 *)
  ("strtran", Some (Sig ["string"; "old"] ["new"; "start"; "maxreplace"; "flags"] false));        (* :1491 *)
  ("stuff", Some (Sig ["string"; "start"; "num_replaced"; "repl"] [] false));                     (* :1507 *)
  ("sqlcommit", Some (Sig ["conn"] [] false));                                                    (* :1510 *)
  ("sqlconnect", Some (Sig ["name"] ["userid"; "password"; "shared"] false));                     (* :1517 *)
  ("sqlstringconnect", Some (Sig [] [] true));                                                    (* :1520 *)
  ("sqlexec", Some (Sig ["conn"] ["cmd"; "cursor_name"; "count_info"] false));                    (* :1561 *)
  ("sqlrollback", Some (Sig ["conn"] [] false));                                                  (* :1569 *)
  ("sqltables", Some (Sig ["conn"] ["table_type"; "cursor_name"] false));                         (* :1577 *)
  ("sqldisconnect", Some (Sig ["connection"] [] false));                                          (* :1584 *)
  ("vfp_sys", Some (Sig ["funcnum"] [] true));                                                    (* :1588 *)
  ("vartype", Some (Sig ["var"] [] false));                                                       (* :1623 *)
  ("version", Some (Sig [] ["ver_type"] false));                                                  (* :1626 *)
  ("select_function", Some (Sig ["tablename"] [] false));                                         (* vfpdatabase.py:54 *)
  ("alias", Some (Sig [] ["tablename"] false));                                                   (* :125 *)
  ("dbf", Some (Sig [] ["tablename"] false));                                                     (* :129 *)
  ("used", Some (Sig ["tablename"] [] false));                                                    (* :135 *)
  ("recno", Some (Sig [] [] false));                                                              (* :287 *)
  ("reccount", Some (Sig [] [] false));                                                           (* :293 *)
  ("recsize", Some (Sig [] ["workarea"] false));                                                  (* :299 *)
  ("bof", Some (Sig [] ["workarea"] false));                                                      (* :302 *)
  ("eof", Some (Sig [] ["workarea"] false));                                                      (* :305 *)
  ("deleted", Some (Sig [] ["workarea"] false));                                                  (* :308 *)
  ("seek", Some (Sig ["tablename"; "key_expr"] ["key_index"; "key_index_file"; "descending"] false)); (* :330 *)
  ("found", Some (Sig [] ["tablename"] false));                                                   (* :343 *)
  ("field", Some (Sig ["field_item"] ["tablename"; "flag"] false));                               (* :358 *)
  ("afields", Some (Sig [] [] false));                                                            (* :364 *)
  ("fcount", Some (Sig [] ["tablename"] false));                                                  (* :367 *)
  ("cpdbf", Some (Sig [] ["tablename"] false))].                                                  (* :373 *)

(** The arguments of the emitted call, an argument given by FoxPro's being [Some] of it; vfp2py_convert_visitor.py:688-697, :959-970.
    The name and the mapping of AFIELDS are other arguments, as is what SELECT() without one is given. *)
Definition emitted {A} (g : pystr) (args : list A) : list (option A) :=
  if pystr_eqb g (u "afields") then (match tl args with [] => [None] | l => map Some l end ++ [None; None])%list
  else if pystr_eqb g (u "select_function") then match args with [] => [None] | _ => map Some args end
  else map Some args.
(** Python's binding of positional arguments: the parameters that get one, and those *args gets; TypeError when one required is missing or one is too many. *)
Definition bind {A} (s : option signature) (args : list A) : res (list (string * A) * list A) :=
  match s with
  | None => Err TypeError
  | Some s =>
      let params := (required s ++ optional s)%list in
      if (length args <? length (required s))%nat then Err TypeError
      else if (length params <? length args)%nat && negb (rest s) then Err TypeError
      else Ok (combine params args, skipn (length params) args)
  end.
Definition call_native {A} (f : pystr) (args : list A) : res (list (string * option A) * list (option A)) :=
  let g := resolve f in
  match dget pystr_eqb signatures g with
  | Some s => bind s (emitted g args)
  | None => Err AttributeError
  end.
