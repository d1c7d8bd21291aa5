(** What FoxPro does with a program of assignments, IF, DO CASE, DO WHILE, FOR, EXIT and LOOP, and what Python does with its text. *)
From Verif Require Import PyBase PyStr S_Py S_PyEval M_Stmt S_Stmt M_Do M_Conv M_Core S_Conv S_For P_Fuel S_Lex.
Open Scope Z_scope.

Definition store := pystr -> option pval.
Definition upd (s : store) (x : pystr) (v : pval) : store := fun y => if pystr_eqb y x then Some v else s y.

(** * FoxPro *)
(** Numbers are doubles: only the integers they hold exactly are followed.  [None] is an error or something left out: fractions, string subtraction,
    the order of strings, comparing texts of which one begins with the other (it depends on SET EXACT), $ of the empty text, .NULL. in operations, calls other than those of [fox_function]. *)
Definition number53 (n : Z) : option pval := if Z.abs n <=? 9007199254740992 then Some (PI n) else None.
Fixpoint inside (x y : pystr) : bool := prefixb x y || match y with [] => false | _ :: y => inside x y end.
Definition fox_bin (o : op) (a b : pval) : option pval :=
  match o, a, b with
  | OAdd, PI x, PI y => number53 (x + y)
  | OSub, PI x, PI y => number53 (x - y)
  | OMul, PI x, PI y => number53 (x * y)
  | OMod, PI x, PI y => if y =? 0 then None else number53 (x - y * (x / y))
  | OPow, PI x, PI y => if y <? 0 then None else number53 (Z.pow x y)
  | OAdd, PS x, PS y => Some (PS (x ++ y))
  | _, _, _ => None
  end.
Definition fox_eq (x y : pystr) : option bool := if pystr_eqb x y then Some true else if prefixb x y || prefixb y x then None else Some false.
Definition fox_cmp (o : op) (a b : pval) : option bool :=
  match o, a, b with
  | OLt, PI x, PI y => Some (x <? y)
  | OLe, PI x, PI y => Some (x <=? y)
  | OGt, PI x, PI y => Some (y <? x)
  | OGe, PI x, PI y => Some (y <=? x)
  | OEq, PI x, PI y => Some (x =? y)
  | ONe, PI x, PI y => Some (negb (x =? y))
  | OEq, PS x, PS y => fox_eq x y
  | ONe, PS x, PS y => option_map negb (fox_eq x y)
  | OIn, PS x, PS y => match x with [] => None | _ => Some (inside x y) end
  | _, _, _ => None
  end.
(** Built-in functions of integers and texts.  IIF() evaluates the value it gives only; MAX() and MIN() give the one of the values that none exceeds. *)
Fixpoint values (l : list (option pval)) : option (list pval) := match l with [] => Some [] | x :: l => match x, values l with Some v, Some vs => Some (v :: vs) | _, _ => None end end.
Fixpoint integers (l : list pval) : option (list Z) := match l with [] => Some [] | PI n :: l => match integers l with Some ns => Some (n :: ns) | None => None end | _ => None end.
Definition among (good : Z -> Z -> bool) (vs : list pval) : option pval :=
  match integers vs with Some (n :: m :: l) => option_map PI (find (fun x => forallb (good x) (n :: m :: l)) (n :: m :: l)) | _ => None end.
Definition fox_function (f : pystr) (l : list (option pval)) : option pval :=
  if is f "iif" then match l with [Some (PB c); a; b] => if c then a else b | _ => None end
  else match values l with
       | None => None
       | Some vs =>
           if is f "len" then match vs with [PS s] => number53 (zlen s) | _ => None end
           else if is f "abs" then match vs with [PI n] => Some (PI (Z.abs n)) | _ => None end
           else if is f "max" then among (fun x y => y <=? x) vs
           else if is f "min" then among (fun x y => x <=? y) vs
           else if is f "between" then match vs with [PI x; PI y; PI z] => Some (PB ((y <=? x) && (x <=? z))) | _ => None end
           else if is f "mod" then match vs with [x; y] => fox_bin OMod x y | _ => None end
           else None
       end.
Fixpoint fox (env : store) (t : ctx) : option pval :=
  match t with
  | CVar x => env x
  | CInt n => number53 n
  | CStr s => Some (PS s)
  | CBool b => Some (PB b)
  | CNull => Some PN
  | CSub e => fox env e
  | CSign m e => match fox env e with Some (PI n) => Some (PI (if m then - n else n)) | _ => None end
  | CNot e => match fox env e with Some (PB b) => Some (PB (negb b)) | _ => None end
  | CBin o a b => match fox env a, fox env b with Some x, Some y => fox_bin o x y | _, _ => None end
  | CCmp o a b => match fox env a, fox env b with Some x, Some y => option_map PB (fox_cmp o x y) | _, _ => None end
  | CAnd a b => match fox env a with Some (PB true) => match fox env b with Some (PB y) => Some (PB y) | _ => None end | Some (PB false) => Some (PB false) | _ => None end
  | COr a b => match fox env a with Some (PB false) => match fox env b with Some (PB y) => Some (PB y) | _ => None end | Some (PB true) => Some (PB true) | _ => None end
  | CCall f args => fox_function f (map (fox env) args)
  end.

Inductive flow := Next | Exit | Loop | Ret (v : option pval).      (* RETURN, with a value or alone *)
(** [Wrong]: an error, or something left out.  [Running]: more than N passes through a loop. *)
Inductive outcome := Done (s : store) (f : flow) | Running | Wrong.
Definition and_then (r : outcome) (k : store -> outcome) : outcome := match r with Done s Next => k s | _ => r end.
Definition test (c : ctx) (a b : store -> outcome) (s : store) : outcome := match fox s c with Some (PB true) => a s | Some (PB false) => b s | _ => Wrong end.
Fixpoint do_while (N : nat) (c : ctx) (body : store -> outcome) (s : store) : outcome :=
  match N with
  | O => Running
  | S N => test c (fun s => match body s with Done s (Next | Loop) => do_while N c body s | Done s Exit => Done s Next | r => r end) (fun s => Done s Next) s
  end.
(** The loop variable is looked at before each pass and moved on after it; ENDFOR and LOOP both do so. *)
Fixpoint do_for (N : nat) (x : pystr) (to step : Z) (body : store -> outcome) (s : store) : outcome :=
  match N with
  | O => Running
  | S N =>
      match s x with
      | Some (PI i) =>
          if (if step <? 0 then to <=? i else i <=? to) then
            match body s with
            | Done s (Next | Loop) => match s x with Some (PI i) => match number53 (i + step) with Some v => do_for N x to step body (upd s x v) | None => Wrong end | _ => Wrong end
            | Done s Exit => Done s Next
            | r => r
            end
          else Done s Next
      | _ => Wrong
      end
  end.
(** What a call gives: its value and the variables after it *)
Inductive called := Value (v : pval) (s : store) | Endless | Failed.
Fixpoint foxs (s : store) (l : list ctx) : option (list pval) :=
  match l with [] => Some [] | t :: l => match fox s t, foxs s l with Some v, Some vs => Some (v :: vs) | _, _ => None end end.
Fixpoint run (call : pystr -> list pval -> store -> called) (N : nat) (p : cstmt) (s : store) {struct p} : outcome :=
  match p with
  | KLet x t => match fox s t with Some v => Done (upd s x v) Next | None => Wrong end
  | KIf c a b => test c (runs call N a) (match b with KSome b => runs call N b | KNone => fun s => Done s Next end) s
  | KCase c a more other => test c (runs call N a) (runc call N more (match other with KSome b => runs call N b | KNone => fun s => Done s Next end)) s
  | KWhile c b => do_while N c (runs call N b) s
  | KFor x from to step b =>
      match fox s from, fox s to, match step with Some t => fox s t | None => Some (PI 1) end with
      | Some (PI i), Some (PI j), Some (PI k) => do_for N x j k (runs call N b) (upd s x (PI i))
      | _, _, _ => Wrong
      end
  | KExit => Done s Exit
  | KLoop => Done s Loop
  | KCall g f args =>
      match foxs s args with
      | Some vs =>
          match call f vs s with
          | Value v s => match g with Into x => Done (upd s x v) Next | Nowhere => Done s Next | Answer => Done s (Ret (Some v)) end
          | Endless => Running
          | Failed => Wrong
          end
      | None => Wrong
      end
  | KReturn t => match fox s t with Some v => Done s (Ret (Some v)) | None => Wrong end
  | KLeave => Done s (Ret None)
  | KNote _ => Done s Next
  end
with runs (call : pystr -> list pval -> store -> called) (N : nat) (l : clines) (s : store) {struct l} : outcome := match l with KNil => Done s Next | KCons p l => and_then (run call N p s) (runs call N l) end
with runc (call : pystr -> list pval -> store -> called) (N : nat) (l : ccases) (other : store -> outcome) (s : store) {struct l} : outcome :=
  match l with KNo => other s | KOr c a l => test c (runs call N a) (runc call N l other) s end.
(** Without functions *)
Definition no_calls : pystr -> list pval -> store -> called := fun _ _ _ => Failed.

(** * Python *)
Definition py_expr (s : store) (text : pystr) : option pval := match lex text with Some ts => match parse ts with Some e => pev s e | None => None end | None => None end.
Definition strip_prefix (p s : pystr) : option pystr := if prefixb p s then Some (skipn (length p) s) else None.
(** x = e, x += e and the like, where x is an attribute of S *)
Definition py_assign (t : pystr) : option (pystr * option op * pystr) :=
  match strip_prefix (u "S.") t with
  | Some r =>
      let '(x, r) := span word_char r in
      match word x with
      | Some (Id _) =>
          match strip_prefix (u " = ") r, strip_prefix (u " += ") r, strip_prefix (u " -= ") r, strip_prefix (u " *= ") r, strip_prefix (u " /= ") r with
          | Some e, _, _, _, _ => Some (x, None, e)
          | _, Some e, _, _, _ => Some (x, Some OAdd, e)
          | _, _, Some e, _, _ => Some (x, Some OSub, e)
          | _, _, _, Some e, _ => Some (x, Some OMul, e)
          | _, _, _, _, Some e => Some (x, Some ODiv, e)
          | _, _, _, _, _ => None
          end
      | _ => None
      end
  | None => None
  end.
Definition py_run (t : pystr) (s : store) : store * signal unit :=
  if pystr_eqb t (u "pass") then (s, Normal)
  else if pystr_eqb t (u "break") then (s, Break)
  else if pystr_eqb t (u "continue") then (s, Continue)
  else match py_assign t with
       | Some (x, None, e) => match py_expr s e with Some v => (upd s x v, Normal) | None => (s, Raise tt) end
       | Some (x, Some o, e) =>
           match s x, py_expr s e with Some a, Some b => match bin o a b with Some v => (upd s x v, Normal) | None => (s, Raise tt) end | _, _ => (s, Raise tt) end
       | None => (s, Raise tt)
       end.
(** for S.x in range(...) *)
Definition py_for (t : pystr) (s : store) : option (pystr * list Z) :=
  match lex t with
  | Some (Id o :: Dot :: Id x :: Op OIn :: ts) =>
      if is_u o "S" then
        match parse ts with
        | Some (ECall (EName f) args) =>
            if is_u f "range" then
              match map (pev s) args with
              | [Some (PI b)] => Some (x, py_range 0 b 1)
              | [Some (PI a); Some (PI b)] => Some (x, py_range a b 1)
              | [Some (PI a); Some (PI b); Some (PI k)] => if k =? 0 then None else Some (x, py_range a b k)
              | _ => None
              end
            else None
        | _ => None
        end
      else None
  | _ => None
  end.
Definition python : machine := {|
  St := store; Ex := unit; It := pystr * list Z;
  m_run := fun _ t s => py_run t s;
  m_test := fun t s => (s, match py_expr s t with Some v => inl (truth v) | None => inr tt end);
  m_start := fun t s => (s, match py_for t s with Some it => inl it | None => inr tt end);
  m_next := fun it s => match snd it with [] => (s, inl None) | v :: l => (upd s (fst it) (PI v), inl (Some (fst it, l))) end;
  m_bind := fun _ _ s => s
|}.

(** * Which programs *)
Definition name_ok (x : pystr) : bool :=
  match x with [] => false | c :: _ => negb (is_digit c) end && forallb (fun c => M_Stmt.lower c || is_digit c || (c =? 95)) x && existsb M_Stmt.lower x &&
  negb (one_of keywords x) && negb (one_of [u "this"; u "thisform"] x).
Fixpoint vars (t : ctx) : list pystr :=
  match t with
  | CVar x => [x]
  | CSub e | CSign _ e | CNot e => vars e
  | CBin _ a b | CCmp _ a b | CAnd a b | COr a b => vars a ++ vars b
  | CCall _ args => flat_map vars args
  | _ => []
  end.
Definition functions_followed : list string := ["iif"; "between"; "mod"]%string ++ same_name.
Fixpoint plain_expr (t : ctx) : bool :=
  match t with
  | CVar x => name_ok x
  | CStr s => forallb (fun c => (0 <=? c) && (c <=? 1114111)) s
  | CInt _ | CBool _ | CNull => true
  | CSub e | CSign _ e | CNot e => plain_expr e
  | CBin _ a b | CCmp _ a b | CAnd a b | COr a b => plain_expr a && plain_expr b
  | CCall f args => isin f functions_followed && forallb plain_expr args
  end.
(** x, also as +x and (x) under a sign *)
Fixpoint bare (t : ctx) : option pystr := match t with CVar x => Some x | CSub e | CSign false e => bare e | _ => None end.
(** The variable that the value begins with, when + - * or / follows *)
Fixpoint begins (t : ctx) : option pystr :=
  match t with
  | CSub e | CSign false e => begins e
  | CBin o a _ =>
      if is_sub a then None
      else match bare a with
           | Some x => match o with OAdd | OSub | OMul | ODiv => Some x | _ => None end
           | None => begins a
           end
  | CCmp _ a _ => begins a
  | _ => None
  end.
Section ok.
Variable lib : pystr -> bool.
(** loop variables of the program, variables that are declared, functions that may be called, whether RETURN is allowed *)
Variable L : list pystr.
Variable W : pystr -> Prop.
Variable F : goal -> pystr -> Prop.
Variable ret : bool.
Definition value_ok (t : ctx) : Prop := plain_expr t = true /\ (boolean lib t \/ (produced t /\ tame lib t)).
Definition number_ok (t : ctx) : Prop := plain_expr t = true /\ produced t /\ tame lib t.
Definition truth_ok (t : ctx) : Prop := plain_expr t = true /\ boolean lib t.
(** A loop variable is only used in its own loops. *)
Definition visible (A : list pystr) (t : ctx) : Prop := forall x, In x (vars t) -> W x /\ (In x L -> In x A).
(** x = x op r is fine, and so is any value that does not begin with x and an operation on it. *)
Definition let_ok (x : pystr) (t : ctx) : Prop := begins t <> Some x \/ exists o r, t = CBin o (CVar x) r /\ match o with OAdd | OSub | OMul | ODiv => True | _ => False end.
Fixpoint ok (inloop : bool) (A : list pystr) (p : cstmt) {struct p} : Prop :=
  match p with
  | KLet x t => name_ok x = true /\ W x /\ value_ok t /\ visible A t /\ ~ In x L /\ let_ok x t
  | KIf c a b => truth_ok c /\ visible A c /\ oks inloop A a /\ oko inloop A b
  | KCase c a more other => truth_ok c /\ visible A c /\ oks inloop A a /\ okc inloop A more /\ oko inloop A other
  | KWhile c b => truth_ok c /\ visible A c /\ oks true A b
  | KFor x from to step b =>
      name_ok x = true /\ W x /\ number_ok from /\ visible A from /\ number_ok to /\ visible A to /\ match step with Some t => exists n, t = CInt n /\ 0 < n | None => True end /\
      In x L /\ ~ In x A /\ oks true (x :: A) b
  | KExit | KLoop => inloop = true
  | KCall g f args => match g with Into x => name_ok x = true /\ W x /\ ~ In x L | Nowhere => True | Answer => ret = true end /\ F g f /\ Forall (fun t => value_ok t /\ visible A t) args
  | KReturn t => ret = true /\ value_ok t /\ visible A t
  | KLeave => ret = true
  | KNote ls => Forall comment_line ls
  end
with oks (inloop : bool) (A : list pystr) (l : clines) {struct l} : Prop := match l with KNil => True | KCons p l => ok inloop A p /\ oks inloop A l end
with oko (inloop : bool) (A : list pystr) (o : copt) {struct o} : Prop := match o with KNone => True | KSome l => oks inloop A l end
with okc (inloop : bool) (A : list pystr) (l : ccases) {struct l} : Prop :=
  match l with KNo => True | KOr c a l => truth_ok c /\ visible A c /\ oks inloop A a /\ okc inloop A l end.
End ok.
(** The loop variables *)
Fixpoint loop_vars (p : cstmt) : list pystr :=
  match p with
  | KIf _ a b => loops a ++ loopo b
  | KCase _ a more other => loops a ++ loopc more ++ loopo other
  | KWhile _ b => loops b
  | KFor x _ _ _ b => x :: loops b
  | _ => []
  end
with loops (l : clines) : list pystr := match l with KNil => [] | KCons p l => loop_vars p ++ loops l end
with loopo (o : copt) : list pystr := match o with KNone => [] | KSome l => loops l end
with loopc (l : ccases) : list pystr := match l with KNo => [] | KOr _ a l => loops a ++ loopc l end.
