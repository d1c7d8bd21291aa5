(** Raising and reporting errors, and the ON commands: vfp2py_convert_visitor.py:497-518 (the CATCH part), 1345-1394, 1476-1477;
    vfpfunc.py:850-872 (Exception), 1189-1190 (error), 1259-1261 (lineno), 1275-1279 (message), 1721 (error_func).
    Programs are those made of assignments, calls, ERROR, THROW, TRY..CATCH TO..ENDTRY, ON and MESSAGE(); expressions are constants, variables
    and the message of a caught error.  Simplified: FINALLY and WHEN (see M_Stmt), scopes (see M_Memvar). *)
From Verif Require Import PyBase PyStr M_Lit.
Open Scope Z_scope.
Open Scope res_scope.

(** Python values: a caught error is an object of vfpfunc.Exception (850-857), of which message and errorno are modelled; adr is the
    address that its default repr shows *)
Inductive pv := VStr (s : pystr) | VInt (n : Z) | VBool (b : bool) | VNone | VErr (message : pystr) (errorno adr : Z).
(** str(v); vfpfunc.Exception has no __str__ *)
Definition hexa (n : Z) : pystr := dec n.   (* the digits do not matter *)
Definition pstr (v : pv) : pystr :=
  match v with
  | VStr s => s
  | VInt n => dec n
  | VBool b => if b then u "True" else u "False"
  | VNone => u "None"
  | VErr _ _ a => u "<vfp2py.vfpfunc.Exception object at 0x" ++ hexa a ++ u ">"
  end.
(** Python exceptions: Exception(v) raised by ERROR or THROW, or an error of the interpreter with its text *)
Inductive pyexc := Raised (v : pv) | Other (e : exc) (text : pystr).
(** str(exc) *)
Definition exc_str (e : pyexc) : pystr := match e with Raised v => pstr v | Other _ t => t end.
(** vfpfunc.py:859-872 from_pyexception: message is str(exc), errorno stays what __init__ gave it (853) *)
Definition from_pyexception (adr : Z) (e : pyexc) : pv := VErr (exc_str e) 0 adr.

Inductive expr := EConst (v : pv) | EVar (x : pystr) | EMessage (x : pystr) | EErrorno (x : pystr) | EUserValue (x : pystr).
(** commands that can follow ON ERROR: none, a call, an assignment (STORE has several targets), an assignment that visitAssign
    (576-582) turns into x += e, and one that is converted to a Python statement that is not an expression (RETURN, RELEASE ...) *)
Inductive ocmd := ONone | OCall (f : pystr) | OStore (xs : list pystr) (e : expr) | OAdd (x : pystr) (e : expr) | OStatement.
(** the functions that on_event makes; the last is `setattr(..) and setattr(..) ..` *)
Inductive pyfun := LCall (f : pystr) | LSets (sets : list (pystr * expr)).
Inductive conv := Install (h : option pyfun) | Crash (e : exc) | NotPython.
(** on_event, vfp2py_convert_visitor.py:1345-1367 *)
Definition on_event (c : ocmd) : conv :=
  match c with
  | ONone => Install None                                                   (* 1346-1347, 1367 *)
  | OCall f => Install (Some (LCall f))                                     (* 1366 *)
  | OStore xs e => Install (Some (LSets (map (fun x => (x, e)) xs)))        (* 1350-1365 *)
  | OAdd _ _ => Crash AttributeError                                        (* 1356: an AugAssign has no targets *)
  | OStatement => NotPython                                                 (* 1366: lambda: return *)
  end.

Inductive stmt :=
| SSet (x : pystr) (e : expr)
| SCall (f : pystr)                       (* a call that succeeds *)
| SFail (e : exc) (text : pystr)          (* a statement at which Python raises *)
| SError (e : option expr)                (* ERROR [expr] *)
| SThrow (e : option expr)                (* THROW [expr] *)
| SMessage (x : pystr)                    (* x = MESSAGE() *)
| STry (body : stmts) (x : pystr) (catch : stmts)    (* TRY .. CATCH TO x .. ENDTRY *)
| SOn (c : ocmd)                          (* ON ERROR cmd *)
with stmts := Nil | Cons (s : stmt) (r : stmts).

(** variables, calls made, vfpfunc.error_func, the next address *)
Record state := mkS { vars : list (pystr * pv); calls : list pystr; handler : option pyfun; addr : Z }.
Definition set_var (s : state) (x : pystr) (v : pv) : state := mkS (dset pystr_eqb (vars s) x v) (calls s) (handler s) (addr s).
Definition add_call (s : state) (f : pystr) : state := mkS (vars s) (calls s ++ [f]) (handler s) (addr s).
Definition lookup (s : state) (x : pystr) : res pv := match dget pystr_eqb (vars s) x with Some v => Ok v | None => Err NameError end.
(** an expression; attributes of anything but a caught error fail; so does UserValue, which vfpfunc.Exception does not have (851-857) *)
Definition eval (s : state) (e : expr) : res pv :=
  match e with
  | EConst v => Ok v
  | EVar x => lookup s x
  | EMessage x => do v <- lookup s x; match v with VErr m _ _ => Ok (VStr m) | _ => Err AttributeError end
  | EErrorno x => do v <- lookup s x; match v with VErr _ n _ => Ok (VInt n) | _ => Err AttributeError end
  | EUserValue x => do v <- lookup s x; Err AttributeError
  end.
(** calling the function: `and` stops at the first false value, and setattr returns None *)
Definition call_handler (h : pyfun) (s : state) : res unit * state :=
  match h with
  | LCall f => (Ok tt, add_call s f)
  | LSets [] => (Ok tt, s)
  | LSets ((x, e) :: _) => match eval s e with Ok v => (Ok tt, set_var s x v) | Err er => (Err er, s) end
  end.

(** cur is the exception being handled (sys.exc_info) *)
Fixpoint exec (cur : option pyexc) (p : stmt) (s : state) {struct p} : option pyexc * state :=
  match p with
  | SSet x e => match eval s e with Ok v => (None, set_var s x v) | Err er => (Some (Other er []), s) end
  | SCall f => (None, add_call s f)
  | SFail e t => (Some (Other e t), s)
  | SError None => (Some (Raised VNone), s)           (* 1392-1394: [None] or [] is [None]: raise Exception(None) *)
  | SError (Some e) | SThrow (Some e) => match eval s e with Ok v => (Some (Raised v), s) | Err er => (Some (Other er []), s) end   (* 1392-1394, 1477 *)
  | SThrow None =>                                    (* 1477: raise *)
      match cur with Some e => (Some e, s) | None => (Some (Other GenericException (u "No active exception to reraise")), s) end
  | SMessage x => (Some (Other AttributeError (u "object has no attribute 'message'")), s)
      (* vfpfunc.py:1275-1279: exc_obj.message; Python 3 exceptions have no message, and None, when there is no exception, neither *)
  | STry body x catch =>                              (* 497-518 *)
      match execs cur body s with
      | (None, s) => (None, s)
      | (Some e, s) => execs (Some e) catch (mkS (vars (set_var s x (from_pyexception (addr s) e))) (calls s) (handler s) (addr s + 1))
      end
  | SOn c => match on_event c with Install h => (None, mkS (vars s) (calls s) h (addr s)) | _ => (None, s) end
      (* vfpfunc.error_func = ..; the other cases are conversions that fail *)
  end
with execs (cur : option pyexc) (p : stmts) (s : state) {struct p} : option pyexc * state :=
  match p with
  | Nil => (None, s)
  | Cons a r => match exec cur a s with (None, s) => execs cur r s | (Some e, s) => (Some e, s) end
  end.

(** visitOnStmt, 1369-1390: what becomes of the other ON commands.  The attributes on_key and on_pad_bar do not exist in vfpfunc.py, so
    the converted commands fail; shutdown_func and escape_func are created, and read by nothing. *)
Inductive event := EvError | EvShutdown | EvEscape | EvKey | EvPadBar | EvSelection | EvOther.
Inductive installed := Runs (attr : pystr) (c : conv) | Fails (e : exc) | Commented.
Definition on_stmt (ev : event) (c : ocmd) : installed :=
  match ev with
  | EvError => Runs (u "error_func") (on_event c)
  | EvShutdown => Runs (u "shutdown_func") (on_event c)
  | EvEscape => Runs (u "escape_func") (on_event c)
  | EvKey | EvPadBar => Fails AttributeError
  | EvSelection | EvOther => Commented
  end.
