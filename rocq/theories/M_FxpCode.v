(** fxp_read.py: decompiling expressions and code lines. *)
From Verif Require Import PyBase PyStr M_FxpTab M_Fxp.
Open Scope Z_scope.
Open Scope res_scope.

Definition END_EXPR : Z := 0xFD.
Definition PARAMETER_MARK : Z := 0x43.
Definition SQL_SUBQUERY : Z := 0xE8.

(** Results that go through floating point are not computed: the model is parametric in the text of a double (width, decimals, 8
    bytes), a 16.16 fixed point number (4 bytes), a datetime and a date (8 bytes), fxp_read.py:128-160. *)
Record oracle := mkO { o_double : Z -> Z -> list Z -> pystr; o_fixed : list Z -> pystr; o_datetime : list Z -> pystr; o_date : list Z -> pystr }.

(** What read_next_code returns and the expression stack holds: FXPName, FXPAlias, FXPNumber/FXPCurrency (by their text), a plain
    int, a plain str, a list. *)
Inductive item := IName (s : pystr) | IAlias (s : pystr) | INum (s : pystr) | IInt (n : Z) | IStr (s : pystr) | IList (l : list item).
Fixpoint join (sep : pystr) (l : list pystr) : pystr :=
  match l with [] => [] | [x] => x | x :: r => x ++ sep ++ join sep r end.
(** `repr`; the only plain strings that occur contain no quotes or backslashes *)
Fixpoint irepr (i : item) : pystr :=
  match i with
  | IName s | INum s => s
  | IAlias s => s ++ u "."
  | IInt n => dec n
  | IStr s => u "'" ++ s ++ u "'"
  | IList l => u "[" ++ join (u ", ") (map irepr l) ++ u "]"
  end.
(** `str` *)
Definition istr (i : item) : pystr := match i with IStr s => s | _ => irepr i end.
Definition is_alias_item (i : item) : bool := match i with IAlias _ => true | _ => false end.
(** `while expr and type(expr[-1]) is FXPAlias: code = FXPName(repr(expr.pop()) + repr(code))`.  Stacks are kept with the top first. *)
Fixpoint merge_aliases (st : list item) (name : pystr) : pystr * list item :=
  match st with
  | IAlias a :: r => merge_aliases r (a ++ u "." ++ name)
  | _ => (name, st)
  end.
(** lines 205-210: the parameters down to the mark *)
Fixpoint take_params (st : list item) (acc : list item) : list item * list item :=
  match st with
  | [] => (acc, [])
  | IInt n :: r => if n =? PARAMETER_MARK then (acc, r) else take_params r (IInt n :: acc)
  | i :: r => take_params r (i :: acc)
  end.
Definition call_text (name : pystr) (params : list item) : pystr := name ++ u "(" ++ join (u ", ") (map irepr params) ++ u ")".

(** ** Readers without recursion, fxp_read.py:108-181 *)
Definition read_string (f : list Z) (p : Z) : res (pystr * Z) := do (n, p) <- read_ushort f p; fread f p n.
Definition read_name (names : list pystr) (f : list Z) (p : Z) : res (pystr * Z) :=
  do (n, p) <- read_ushort f p; do s <- py_nth names n; Ok (s, p).
Definition table_byte (t : list (Z * pystr)) (f : list Z) (p : Z) : res (pystr * Z) :=
  do (b, p) <- read_byte f p; match lookup t b with Some s => Ok (s, p) | None => Err KeyError end.
Definition hex_digit (n : Z) : Z := if n <? 10 then 48 + n else 87 + n.
Definition hex2 (b : Z) : pystr := [hex_digit (b / 16); hex_digit (b mod 16)].
(** read_raw, lines 180-181 *)
Definition read_raw (f : list Z) (p n : Z) : res (pystr * Z) :=
  do (b, p) <- fread f p n; Ok (join (u " ") (map hex2 b), p).
Definition exactly (n : Z) (f : list Z) (p : Z) : res (list Z * Z) :=
  do (b, p) <- fread f p n; if zlen b =? n then Ok (b, p) else Err StructError.
(** read_int8, read_int16, read_int32 *)
Definition read_number (rd : list Z -> Z -> res (Z * Z)) (f : list Z) (p : Z) : res (item * Z) :=
  do (d, p) <- read_byte f p; do (n, p) <- rd f p; Ok (INum (number_text d n), p).
Definition read_currency (f : list Z) (p : Z) : res (item * Z) :=
  do (_, p) <- read_byte f p; do (k, p) <- read_byte f p; do (n, p) <- read_le f p 8; Ok (INum (currency_text (signed 64 n) k), p).
Definition read_double (o : oracle) (f : list Z) (p : Z) : res (item * Z) :=
  do (d, p) <- read_byte f p; do (k, p) <- read_byte f p; do (b, p) <- exactly 8 f p; Ok (INum (o_double o (d - 1) k b), p).
Definition short_circuit (what : string) (f : list Z) (p : Z) : res (item * Z) :=
  do (n, p) <- read_ushort f p; Ok (IStr (u "(SHORT CIRCUIT " ++ u what ++ u " IN " ++ dec n ++ u ")"), p).

(** The function entries of VALUES, lines 830-863, except the recursive ones 0xEB and 0xFC. *)
Definition value_reader (o : oracle) (names : list pystr) (cv : Z) : option (list Z -> Z -> res (item * Z)) :=
  let nm (rd : list Z -> Z -> res (pystr * Z)) := fun f p => do (s, p) <- rd f p; Ok (IName s, p) in
  let al (rd : list Z -> Z -> res (pystr * Z)) := fun f p => do (s, p) <- rd f p; Ok (IAlias s, p) in
  match cv with
  | 0xD9 => Some (nm (fun f p => do (s, p) <- read_string f p; Ok (u """" ++ s ++ u """", p)))
  | 0xFB => Some (nm (fun f p => do (s, p) <- read_string f p; Ok (u "'" ++ s ++ u "'", p)))
  | 0xDE => Some read_currency
  | 0xE0 | 0xF7 => Some (nm (read_name names))
  | 0xE1 => Some (al (table_byte t_system_names))
  | 0xE3 | 0xF4 => Some (al (read_name names))
  | 0xF5 => Some (al (table_byte t_special_names))
  | 0xEC => Some (nm (table_byte t_menu_system_names))
  | 0xED => Some (nm (table_byte t_system_names))
  | 0xE6 => Some (fun f p => do (b, p) <- exactly 8 f p; Ok (IStr (o_datetime o b), p))
  | 0xEE => Some (fun f p => do (b, p) <- exactly 8 f p; Ok (IStr (o_date o b), p))
  | 0xE7 => Some (fun f p => do (b, p) <- exactly 4 f p; Ok (INum (o_fixed o b), p))
  | 0xF8 => Some (read_number read_byte)
  | 0xF9 => Some (read_number read_short)
  | 0xE9 => Some (read_number read_int)
  | 0xFA => Some (read_double o)
  | 0xF0 => Some (short_circuit "AND")
  | 0xF1 => Some (short_circuit "OR")
  | 0xF2 | 0xF3 => Some (short_circuit "IIF")
  | 0xFF => Some (fun f p => do (s, p) <- read_raw f p 2; Ok (IStr (u "ff " ++ s), p))
  | _ => None
  end.
(** CLAUSES after `CLAUSES.update(VALUES)` (line 1330), then MULTICLAUSES (lines 1347-1350).  CRec: read_next_code / read_expr. *)
Inductive clause := CText (s : pystr) | CRead (r : list Z -> Z -> res (item * Z)) | CNext | CExpr | CStale (i : item).
Definition clause_of (o : oracle) (names : list pystr) (cv : Z) : option clause :=
  match lookup t_multiclauses cv with
  | Some s => Some (CText s)
  | None =>
      if cv =? 0xEB then Some CNext
      else if cv =? 0xFC then Some CExpr
      else match value_reader o names cv with
           | Some r => Some (CRead r)
           | None =>
               match lookup t_values cv with
               | Some s => Some (CText s)
               | None =>
                   if (cv =? 0xE5) || (cv =? 0xF6)
                   then Some (CRead (fun f p => do (s, p) <- read_name names f p; Ok (IName s, p)))
                   else match lookup t_clauses cv with Some s => Some (CText s) | None => None end
               end
           end
  end.

(** fxp_read.py:1355-1364: `if len(line) > 1 and isinstance(line[-2], int): line.pop(-2)` and the joined text; the line is kept
    with its last item first *)
Definition subline_text (line : list item) : pystr :=
  let line := match line with x :: IInt _ :: r => x :: r | l => l end in
  join (u " ") (map irepr (rev line)).

(** ** The mutually recursive readers.  The fuel bounds the depth of the recursion and of the loops; None: it was not enough.
    next_code: fxp_read.py:183-245 (returns the code, the remaining stack, the position); expr_loop: the loop of read_expr, 247-257;
    subline: the loop of parse_subline, 1344-1368, where `prev` is the value the variable `clause` still has. *)
Fixpoint next_code (fuel : nat) (o : oracle) (names : list pystr) (f : list Z) (p : Z) (st : list item)
  : option (res (item * list item * Z)) :=
  match fuel with
  | O => None
  | S k =>
      match read_byte f p with
      | Err e => Some (Err e)
      | Ok (cv, p) =>
          if cv =? END_EXPR then Some (Ok (IInt cv, st, p))
          else if cv =? PARAMETER_MARK then Some (Ok (IInt cv, st, p))
          else if cv =? SQL_SUBQUERY then
            match (do (n, p) <- read_ushort f p; do (_, p') <- fread f p 1; Ok (n, p, p')) with
            | Err e => Some (Err e)
            | Ok (n, p0, p1) =>
                match subline k o names f p1 n (p0 + n) [] None with
                | None => None
                | Some (Err e) => Some (Err e)
                | Some (Ok (t, p)) => Some (Ok (IName (u "(SELECT " ++ t ++ u ")"), st, p))
                end
            end
          else
          let fn (name : pystr) (st : list item) (p : Z) :=
            let (params, st) := take_params st [] in
            let t := call_text name params in
            Some (Ok (if cv =? 0xE5 then IAlias t else IName t, st, p)) in
          if (cv =? 0xE5) || (cv =? 0xF6) then
            match read_name names f p with
            | Err e => Some (Err e)
            | Ok (s, p) => let (s, st) := merge_aliases st s in fn s st p
            end
          else if (cv =? 0x1A) || (cv =? 0xEA) then
            match table_byte (if cv =? 0x1A then t_extended1 else t_extended2) f p with
            | Err e => Some (Err e)
            | Ok (s, p) => fn s st p
            end
          else
          match lookup t_functions cv with
          | Some s => fn s st p
          | None =>
              match lookup t_operators cv with
              | Some (op, arity) =>
                  if arity =? 0 then next_code k o names f p st
                  else if arity =? 1 then
                    match st with
                    | a :: st => Some (Ok (IName (u "(" ++ op ++ u " " ++ irepr a ++ u ")"), st, p))
                    | [] => Some (Err IndexError)
                    end
                  else if arity =? 2 then
                    match st with
                    | b :: a :: st => Some (Ok (IName (u "(" ++ irepr a ++ u " " ++ op ++ u " " ++ irepr b ++ u ")"), st, p))
                    | _ => Some (Err IndexError)
                    end
                  else Some (Ok (IStr op, st, p))
              | None =>
                  let value (i : item) (p : Z) :=
                    match i with
                    | IName s => let (s, st) := merge_aliases st s in Some (Ok (IName s, st, p))
                    | IAlias s => Some (Ok (IAlias s, st, p))
                    | i => Some (Ok (IName (istr i), st, p))
                    end in
                  if (cv =? 0xF0) || (cv =? 0xF1) then
                    match read_ushort f p with
                    | Err e => Some (Err e)
                    | Ok (_, p) => next_code k o names f p st
                    end
                  else if cv =? 0xEB then
                    match next_code k o names f p [] with
                    | None => None
                    | Some (Err e) => Some (Err e)
                    | Some (Ok (i, _, p)) => value i p
                    end
                  else if cv =? 0xFC then
                    match expr_loop k o names f p [] with
                    | None => None
                    | Some (Err e) => Some (Err e)
                    | Some (Ok (i, p)) => value i p
                    end
                  else
                  match value_reader o names cv with
                  | Some rd => match rd f p with
                               | Err e => Some (Err e)
                               | Ok (i, p) => value i p
                               end
                  | None =>
                      match lookup t_values cv with
                      | Some s => Some (Ok (IName s, st, p))
                      | None => Some (Err KeyError)
                      end
                  end
              end
          end
      end
  end
with expr_loop (fuel : nat) (o : oracle) (names : list pystr) (f : list Z) (p : Z) (st : list item)
  : option (res (item * Z)) :=
  match fuel with
  | O => None
  | S k =>
      match next_code k o names f p st with
      | None => None
      | Some (Err e) => Some (Err e)
      | Some (Ok (IInt n, st, p)) =>
          if n =? END_EXPR then Some (Ok (match st with [i] => i | _ => IList (rev st) end, p))
          else expr_loop k o names f p (IInt n :: st)
      | Some (Ok (i, st, p)) => expr_loop k o names f p (i :: st)
      end
  end
with subline (fuel : nat) (o : oracle) (names : list pystr) (f : list Z) (p : Z) (length final : Z) (line : list item)
    (prev : option item) : option (res (pystr * Z)) :=
  match fuel with
  | O => None
  | S k =>
      if negb (p <? final) then
        Some (do (_, p) <- fread f (final - length) length; Ok (subline_text line, p))
      else
      match read_byte f p with
      | Err e => Some (Err e)
      | Ok (cv, p) =>
          let add (i : item) (p : Z) (line : list item) := subline k o names f p length final (i :: line) (Some i) in
          let cl := match clause_of o names cv with
                    | Some c => Some c
                    | None => match prev with Some i => Some (CStale i) | None => None end
                    end in
          match cl with
          | None => Some (Err NameError)
          | Some (CRead r) =>
              match r f p with
              | Err e => Some (Err e)
              | Ok (IName s, p) =>
                  if (cv =? 0xF6) || (cv =? 0xF7)
                  then let (s, line) := merge_aliases line s in add (IName s) p line
                  else add (IName s) p line
              | Ok (i, p) => add i p line
              end
          | Some CNext =>
              match next_code k o names f p [] with
              | None => None
              | Some (Err e) => Some (Err e)
              | Some (Ok (i, _, p)) => add i p line
              end
          | Some CExpr =>
              match expr_loop k o names f p [] with
              | None => None
              | Some (Err e) => Some (Err e)
              | Some (Ok (i, p)) => add i p line
              end
          | Some (CText s) => add (IName s) p line
          | Some (CStale i) => add (IName (istr i)) p line
          end
      end
  end.
Definition read_expr (fuel : nat) (o : oracle) (names : list pystr) (f : list Z) (p : Z) := expr_loop fuel o names f p [].

(** The function entries of COMMANDS, lines 441-613, 258-264: the initial items of the line.  `n`: the number of bytes left. *)
Definition command_of (cv : Z) (f : list Z) (p n : Z) : res (list item * Z) :=
  let text (prefix : string) := fun p => do (b, p) <- fread f p n; Ok ([IName (u prefix ++ b)], p) in
  match cv with
  | 0x01 => text "RAW CODE: "%string p
  | 0xB4 => text "BAD CODE: "%string p
  | 0x30 => do (b, p) <- fread f p n; Ok ([IName b; IName (u "NOTE")], p)
  | 0x47 => do (s, p) <- table_byte t_setcodes f p; Ok ([IName (u "SET " ++ s)], p)
  | 0x54 | 0x99 => Ok ([], p)
  | 0xFB => do (s, p) <- read_string f p; Ok ([IName s], p)
  | _ => match lookup t_commands cv with Some s => Ok ([IName s], p) | None => Err KeyError end
  end.
(** parse_line, fxp_read.py:1370-1378 *)
Definition parse_line (fuel : nat) (o : oracle) (names : list pystr) (f : list Z) (p n : Z) : option (res (pystr * Z)) :=
  match (do (cv, p1) <- read_byte f p; command_of cv f p1 (n - 1)) with
  | Err e => Some (Err e)
  | Ok (line, p1) => subline fuel o names f p1 n (p + n) line None
  end.
(** One round of the loop of read_code_line_area, fxp_read.py:1380-1395 (the traceback and the echo to stderr are left out) *)
Definition code_line (fuel : nat) (o : oracle) (names : list pystr) (f : list Z) (p : Z) : option (res (pystr * Z)) :=
  let raw := Some (do (n, p1) <- read_ushort f p; read_raw f p1 (n - 2)) in
  match read_ushort f p with
  | Err _ => raw
  | Ok (n, p1) =>
      match parse_line fuel o names f p1 (n - 2) with
      | None => None
      | Some (Ok r) => Some (Ok r)
      | Some (Err _) => raw
      end
  end.
Fixpoint line_area (rounds fuel : nat) (o : oracle) (names : list pystr) (f : list Z) (p final : Z) : option (res (list pystr)) :=
  if negb (p <? final) then Some (Ok [])
  else match rounds with
       | O => None
       | S k =>
           match code_line fuel o names f p with
           | None => None
           | Some (Err e) => Some (Err e)
           | Some (Ok (t, p1)) =>
               match line_area k fuel o names f p1 final with
               | Some (Ok r) => Some (Ok (t :: r))
               | x => x
               end
           end
       end.
(** read_code_name_list, fxp_read.py:1397-1399 *)
Fixpoint read_strings (n : nat) (f : list Z) (p : Z) : res (list pystr) :=
  match n with
  | O => Ok []
  | S k => do (s, p) <- read_string f p; do r <- read_strings k f p; Ok (s :: r)
  end.
(** read_code_block, fxp_read.py:1425-1434 *)
Definition code_block (rounds fuel : nat) (o : oracle) (f : list Z) (p : Z) : option (res pystr) :=
  match (do (n, p) <- read_ushort f p;
         do (n, p) <- (if n =? 0 then read_uint f p else Ok (n, p));
         do (k, q) <- read_ushort f (p + n);
         do names <- read_strings (Z.to_nat k) f q;
         Ok (n, p, names)) with
  | Err e => Some (Err e)
  | Ok (n, p, names) =>
      match line_area rounds fuel o names f p (p + n) with
      | None => None
      | Some r => Some (rmap (@concat Z) r)
      end
  end.
