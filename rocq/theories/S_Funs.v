(** Files of functions with parameters and local variables: what their calls do in FoxPro, and in Python, where the file is read, and the variables live in the scopes of M_Memvar,
    entered and left by the decorator of M_Params.

    Left out: limits on the depth of calls (128 in FoxPro, about 1000 in Python); arrays, arguments passed by reference; functions that take the name of a native one
    (function_expander and the tables of func_call, vfp2py_convert_visitor.py:631-653); a name that is local in one function and undeclared in another; PRIVATE and PUBLIC lines; the imports. *)
From Verif Require Import PyBase PyStr M_Memvar M_Params M_Do S_Py S_PyEval M_Lit M_Stmt S_Stmt M_Conv S_Conv M_Show M_Core P_Fuel S_Lex S_Core.
Open Scope Z_scope.

(** * FoxPro *)
Definition inb (x : pystr) (l : list pystr) : bool := existsb (pystr_eqb x) l.
(** the argument of a parameter; .F. where there is none *)
Fixpoint argument (params : list pystr) (args : list pval) (x : pystr) : option pval :=
  match params with
  | [] => None
  | y :: params => if pystr_eqb x y then Some (match args with v :: _ => v | [] => PB false end) else argument params (tl args) x
  end.
(** Variables at the start of a function: its parameters, its local variables, which are .F., and the others, G, the names that no function declares: they are public, or private to one of the functions
    that are running, or there is no such variable yet *)
Definition begin (G : list pystr) (f : proc) (args : list pval) (s : store) : store := fun x =>
  match argument (p_params f) args x with
  | Some v => Some v
  | None => if inb x (p_locals f) then Some (PB false) else if inb x G then s x else None
  end.
(** and after it: only those may have changed; one that the function has made was private to it, and is gone *)
Definition back (G : list pystr) (s s1 : store) : store := fun x => if inb x G then match s x with Some _ => s1 x | None => None end else s x.
Definition find_proc (fs : list proc) (f : pystr) : option proc := find (fun p => pystr_eqb (p_name p) f) fs.
(** Calls nested at most k deep, at most N passes through each loop.  Too many arguments are an error; a function that ends without RETURN, or with RETURN alone, returns .T. *)
Fixpoint fox_call (fs : list proc) (G : list pystr) (N k : nat) (f : pystr) (args : list pval) (s : store) {struct k} : called :=
  match k with
  | O => Endless
  | S k =>
      match find_proc fs f with
      | None => Failed
      | Some p =>
          if (length (p_params p) <? length args)%nat then Failed
          else match runs (fox_call fs G N k) N (p_body p) (begin G p args s) with
               | Done s1 (Ret v) => Value (match v with Some v => v | None => PB true end) (back G s s1)
               | Done s1 Next => Value (PB true) (back G s s1)
               | Done _ _ | Wrong => Failed
               | Running => Endless
               end
      end
  end.

(** The main program: the body of f, which is no function of the file; a value where it ends in RETURN *)
Inductive finish := Ended (v : option pval) (s : store) | Not_ended | Broken.
Definition fox_main (fs : list proc) (G : list pystr) (N k : nat) (f : proc) (args : list pval) (s : store) : finish :=
  if (length (p_params f) <? length args)%nat then Broken
  else match runs (fox_call fs G N k) N (p_body f) (begin G f args s) with
       | Done s1 (Ret v) => Ended v (back G s s1)
       | Done s1 Next => Ended None (back G s s1)
       | Done _ _ | Wrong => Broken
       | Running => Not_ended
       end.

(** * Python *)
Definition nm (x : pystr) : string := string_of_list_ascii (map (fun c => Ascii.ascii_of_N (Z.to_N c)) x).
Record pyfun := { q_name : pystr; q_params : list pystr; q_body : list pystmt }.
Fixpoint str_args (l : list pe) : option (list pystr) := match l with [] => Some [] | EStr s :: l => option_map (cons s) (str_args l) | _ => None end.
Definition read (t : pystr) : option pe := match lex t with Some ts => parse ts | None => None end.
(** Names that the emitted code means Python's own objects, or those of vfpfunc, by *)
Definition taken (f : pystr) : bool := existsb (pystr_eqb f) [u "int"; u "abs"; u "len"; u "round"; u "max"; u "min"; u "range"; u "lparameters"; u "parameters"; u "vfpclass"; u "vfpfunc"].
(** @lparameters('a', 'b') / def f(): ... The file must not hide the names above. *)
Fixpoint py_module (p : list pystmt) : option (list pyfun) :=
  match p with
  | [] => Some []
  | PSimple (64 :: d) :: PDef h body :: p =>
      match read d, lex h with
      | Some (ECall (EName g) args), Some [Id f; Lp; Rp] =>
          if is_u g "lparameters" && negb (taken f) then
            match str_args args, py_module p with Some names, Some fs => Some ({| q_name := f; q_params := names; q_body := body |} :: fs) | _, _ => None end
          else None
      | _, _ => None
      end
  | _ => None
  end.
(** A later function replaces an earlier one of the same name. *)
Definition find_fun (fs : list pyfun) (f : pystr) : option pyfun := find (fun q => pystr_eqb (q_name q) f) (rev fs).
(** A run that is not over within the bounds, k and N; nothing else raises this here. *)
Definition unfinished : exc := UserError 0.
Definition look (s : rt pval) (x : pystr) : option pval := match mem_get (mem s) (nm x) with Ok v => Some v | Err _ => None end.
Definition set_var (s : rt pval) (x : pystr) (v : pval) : res (rt pval) := match mem_set (mem s) (nm x) v with Ok m => Ok (mkRt m (pcounts s) (nparams s)) | Err e => Err e end.
Section py.
Variable fs : list pyfun.
Variable call : pystr -> list pval -> rt pval -> res pval * rt pval.
(** The state: the scopes, and the value given to return *)
Definition pstate : Type := rt pval * option pval.
Fixpoint all_values (l : list (option pval)) : option (list pval) := match l with [] => Some [] | Some v :: l => option_map (cons v) (all_values l) | None :: _ => None end.
(** e, or f(e, ...) with f a function of the file *)
Definition py_rhs (t : pystr) (s : rt pval) : res pval * rt pval :=
  match read t with
  | Some (ECall (EName f) es) =>
      match find_fun fs f with
      | Some _ => match all_values (map (pev (look s)) es) with Some vs => call f vs s | None => (Err GenericException, s) end
      | None => (match py_expr (look s) t with Some v => Ok v | None => Err GenericException end, s)
      end
  | _ => (match py_expr (look s) t with Some v => Ok v | None => Err GenericException end, s)
  end.
Definition store_in (x : pystr) (v : pval) (s : rt pval) (r : option pval) : pstate * signal exc := match set_var s x v with Ok s => ((s, r), Normal) | Err e => ((s, r), Raise e) end.
Definition py_line (t : pystr) (st : pstate) : pstate * signal exc :=
  let '(s, r) := st in
  if pystr_eqb t (u "pass") then (st, Normal)
  else if pystr_eqb t (u "break") then (st, Break)
  else if pystr_eqb t (u "continue") then (st, Continue)
  else if pystr_eqb t (u "return") then ((s, None), Return)
  else match strip_prefix (u "return ") t with
       | Some e => match py_rhs e s with (Ok v, s) => ((s, Some v), Return) | (Err e, s) => ((s, r), Raise e) end
       | None =>
           match py_assign t with
           | Some (x, None, e) => match py_rhs e s with (Ok v, s) => store_in x v s r | (Err e, s) => ((s, r), Raise e) end
           | Some (x, Some o, e) =>
               match look s x, py_expr (look s) e with
               | Some a, Some b => match bin o a b with Some v => store_in x v s r | None => (st, Raise GenericException) end
               | _, _ => (st, Raise GenericException)
               end
           | None =>
               match read t with
               | Some (ECall (EAttr (EName m) a) es) =>                      (* M.add_local('x', 'y') *)
                   if is_u m "M" && is_u a "add_local" then
                     match str_args es with
                     | Some names => match add_local (PB false) (mem s) (map nm names) [] with Ok m => ((mkRt m (pcounts s) (nparams s), r), Normal) | Err e => (st, Raise e) end
                     | None => (st, Raise GenericException)
                     end
                   else (st, Raise GenericException)
               | Some (ECall (EName _) _) => match py_rhs t s with (Ok _, s) => ((s, r), Normal) | (Err e, s) => ((s, r), Raise e) end
               | _ => (st, Raise GenericException)
               end
           end
       end.
Definition py_machine : machine := {|
  St := pstate; Ex := exc; It := pystr * list Z;
  m_run := fun _ t st => py_line t st;
  m_test := fun t st => (st, match py_expr (look (fst st)) t with Some v => inl (truth v) | None => inr GenericException end);
  m_start := fun t st => (st, match py_for t (look (fst st)) with Some it => inl it | None => inr GenericException end);
  m_next := fun it st => match snd it with
                         | [] => (st, inl None)
                         | v :: l => match set_var (fst st) (fst it) (PI v) with Ok s => ((s, snd st), inl (Some (fst it, l))) | Err e => (st, inr e) end
                         end;
  m_bind := fun _ _ st => st
|}.
Definition py_body (N : nat) (b : list pystmt) (s : rt pval) : res pval * rt pval :=
  match pruns py_machine N None b (s, None) with
  | Some ((s, r), Return) => (Ok (match r with Some v => v | None => PN end), s)
  | Some ((s, _), Normal) => (Ok PN, s)
  | Some ((s, _), Raise e) => (Err e, s)
  | Some ((s, _), _) => (Err GenericException, s)
  | None => (Err unfinished, s)
  end.
End py.
Fixpoint py_call (fs : list pyfun) (N k : nat) (f : pystr) (args : list pval) (s : rt pval) {struct k} : res pval * rt pval :=
  match k with
  | O => (Err unfinished, s)
  | S k =>
      match find_fun fs f with
      | None => (Err NameError, s)
      | Some q => scoper (PB false) PLocal (map nm (q_params q)) (mkFn [] 0) args (py_body fs (py_call fs N k) N (q_body q)) s
      end
  end.

(** * Which files *)
(** every path ends in RETURN and a value *)
Fixpoint returns (p : cstmt) : bool :=
  match p with
  | KReturn _ | KCall Answer _ _ => true
  | KIf _ a (KSome b) => returnss a && returnss b
  | KCase _ a more (KSome b) => returnss a && returnsc more && returnss b
  | _ => false
  end
with returnss (l : clines) : bool := match l with KNil => false | KCons p l => returns p || returnss l end
with returnsc (l : ccases) : bool := match l with KNo => true | KOr _ a l => returnss a && returnsc l end.
(** no RETURN alone *)
Fixpoint valued (p : cstmt) : bool :=
  match p with
  | KLeave => false
  | KIf _ a b => valueds a && valuedo b
  | KCase _ a more b => valueds a && valuedc more && valuedo b
  | KWhile _ b | KFor _ _ _ _ b => valueds b
  | _ => true
  end
with valueds (l : clines) : bool := match l with KNil => true | KCons p l => valued p && valueds l end
with valuedo (o : copt) : bool := match o with KNone => true | KSome l => valueds l end
with valuedc (l : ccases) : bool := match l with KNo => true | KOr _ a l => valueds a && valuedc l end.
Definition own (f : proc) : list pystr := p_params f ++ p_locals f.
Definition callable (fs : list proc) (f : pystr) : Prop := In f (map p_name fs).
(** a function all of whose paths end in RETURN and a value; the value of any other is not used *)
Definition returning (fs : list proc) (f : pystr) : Prop := exists p, find_proc fs f = Some p /\ returnss (p_body p) = true /\ valueds (p_body p) = true.
Definition usable (fs : list proc) (g : goal) (f : pystr) : Prop := callable fs f /\ match g with Nowhere => True | _ => returning fs f end.
(** the parameters, the local variables and the statements *)
Definition body_ok (lib : pystr -> bool) (fs : list proc) (G : list pystr) (f : proc) : Prop :=
  Forall (fun x => name_ok x = true) (own f) /\ NoDup (own f) /\ (forall x, In x (own f) -> ~ In x G) /\ ~ In (u "self") (p_params f) /\ ~ In (u "scope") (p_params f) /\
  (forall x, In x (loops (p_body f)) -> In x (own f)) /\ oks lib (loops (p_body f)) (fun x => In x (own f) \/ In x G) (usable fs) true false [] (p_body f).
Definition proc_ok (lib : pystr -> bool) (fs : list proc) (G : list pystr) (f : proc) : Prop :=
  name_ok (p_name f) = true /\ taken (p_name f) = false /\ isin (p_name f) functions_followed = false /\ body_ok lib fs G f.
Definition file_ok (lib : pystr -> bool) (fs : list proc) (G : list pystr) : Prop :=
  Forall (fun x => name_ok x = true) G /\ NoDup (map p_name fs) /\ Forall (proc_ok lib fs G) fs.
(** The variables G are those of s, and no local variable hides them. *)
Definition public (ps : list (@M_Memvar.scope pval)) (x : pystr) : option pval := match first_with (rev ps) (nm x) with Some d => sget d (nm x) | None => None end.
Definition shows (G : list pystr) (m : rt pval) (s : store) : Prop :=
  forall x, In x G -> s x = public (public_scopes (mem m)) x /\ match rev (local_scopes (mem m)) with d :: _ => shas d (nm x) = false | [] => True end.
(** Nothing but the values of the variables G changes. *)
Definition same_but (G : list pystr) (m m1 : rt pval) : Prop :=
  local_scopes (mem m1) = local_scopes (mem m) /\ pcounts m1 = pcounts m /\
  Forall2 (fun d d1 => map fst d1 = map fst d /\ forall k, (forall x, In x G -> k <> nm x) -> sget d1 k = sget d k) (public_scopes (mem m)) (public_scopes (mem m1)).
