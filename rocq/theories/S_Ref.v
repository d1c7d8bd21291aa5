(** DO f WITH x: in FoxPro the parameter is the variable itself.  The statement in the language of S_Core and S_Funs, for variables of the calling procedure (not those of G, which the function could
    also reach by their own name), each passed once. *)
From Verif Require Import PyBase PyStr M_Memvar M_Params M_Do S_Py S_PyEval M_Lit M_Stmt S_Stmt M_Conv S_Conv M_Show M_Core P_Fuel S_Lex S_Core S_Funs.
Open Scope Z_scope.

(** The parameters that are variables of the caller *)
Fixpoint references (params : list pystr) (args : list ctx) : list (pystr * pystr) :=
  match params, args with
  | y :: params, CVar x :: args => (y, x) :: references params args
  | _ :: params, _ :: args => references params args
  | _, _ => []
  end.
(** What the function has made of them *)
Definition handed (refs : list (pystr * pystr)) (s1 s : store) : store := fun x => match find (fun r => pystr_eqb (snd r) x) refs with Some (y, _) => s1 y | None => s x end.
Definition fox_do (fs : list proc) (G : list pystr) (N k : nat) (f : pystr) (args : list ctx) (s : store) : called :=
  match find_proc fs f, foxs s args with
  | Some p, Some vs =>
      if (length (p_params p) <? length vs)%nat then Failed
      else match runs (fox_call fs G N k) N (p_body p) (begin G p vs s) with
           | Done s1 (Ret v) => Value (match v with Some v => v | None => PB true end) (handed (references (p_params p) args) s1 (back G s s1))
           | Done s1 Next => Value (PB true) (handed (references (p_params p) args) s1 (back G s s1))
           | Done _ _ | Wrong => Failed
           | Running => Endless
           end
  | _, _ => Failed
  end.
(** The variables that statements may change *)
Fixpoint assigned (p : cstmt) : list pystr :=
  match p with
  | KLet x _ | KCall (Into x) _ _ => [x]
  | KIf _ a b => assigneds a ++ assignedo b
  | KCase _ a more other => assigneds a ++ assignedc more ++ assignedo other
  | KWhile _ b => assigneds b
  | KFor x _ _ _ b => x :: assigneds b
  | KCall _ _ _ | KReturn _ | KLeave | KExit | KLoop | KNote _ => []
  end
with assigneds (l : clines) : list pystr := match l with KNil => [] | KCons p l => assigned p ++ assigneds l end
with assignedo (o : copt) : list pystr := match o with KNone => [] | KSome l => assigneds l end
with assignedc (l : ccases) : list pystr := match l with KNo => [] | KOr _ a l => assigneds a ++ assignedc l end.
