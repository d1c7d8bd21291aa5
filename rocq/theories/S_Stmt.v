(** How Python reads a program text (lines, indentation, clauses), how it runs it, and how FoxPro runs the statements. *)
From Verif Require Import PyBase M_Stmt.
Open Scope Z_scope.

(** * From text to nested lines *)
Fixpoint split_lines (s : pystr) : list pystr :=
  match s with
  | [] => [[]]
  | c :: s => let r := split_lines s in if c =? 10 then [] :: r else match r with l :: r => (c :: l) :: r | [] => [[c]] end
  end.
Fixpoint spaces (l : pystr) : nat * pystr :=
  match l with [] => (O, []) | c :: r => if c =? 32 then let '(n, r) := spaces r in (S n, r) else (O, l) end.
(** Blank lines and comments do not count. *)
Definition counts (l : nat * pystr) : bool := match snd l with [] => false | c :: _ => negb (c =? 35) end.
Definition significant (s : pystr) : list (nat * pystr) := filter counts (map spaces (split_lines s)).
Definition is_head (t : pystr) : bool := last t 0 =? 58.
Inductive node := NSimple (t : pystr) | NComp (h : pystr) (b : list node).
(** A line ending in a colon opens a block: the more deeply indented lines after it, at least one. *)
Inductive block (d : nat) : list (nat * pystr) -> list node -> Prop :=
| b_nil : block d [] []
| b_simple t rest ns : is_head t = false -> block d rest ns -> block d ((d, t) :: rest) (NSimple t :: ns)
| b_comp h d' body b rest ns : is_head h = true -> (d < d')%nat -> b <> [] -> block d' body b -> block d rest ns ->
    block d ((d, h) :: body ++ rest) (NComp h b :: ns).

(** * From nested lines to statements *)
Inductive pystmt :=
| PSimple (t : pystr)
| PIf (c : pystr) (a b : list pystmt)
| PWhile (c : pystr) (body : list pystmt)
| PFor (h : pystr) (body : list pystmt)
| PTry (body : list pystmt) (handler : option (list pystmt)) (fin : list pystmt)
| PDef (h : pystr) (body : list pystmt).
(** Clauses still waiting for their if or try, reading from the bottom up *)
Inductive pending := Nothing | Else (b : list pystmt) | Finally (b : list pystmt) | Except (b fin : list pystmt).
(** [after p t]: what is left of t after p, without its colon *)
Fixpoint after (p t : pystr) : option pystr :=
  match p, t with
  | [], _ => Some (removelast t)
  | x :: p, y :: t => if x =? y then after p t else None
  | _ :: _, [] => None
  end.
Definition clause (h : pystr) (b : list pystmt) (k : pending * list pystmt) : option (pending * list pystmt) :=
  let '(p, l) := k in
  match after (u "if ") h, after (u "elif ") h, after (u "while ") h, after (u "for ") h, after (u "def ") h, p with
  | Some c, _, _, _, _, Nothing => Some (Nothing, PIf c b [] :: l)
  | Some c, _, _, _, _, Else e => Some (Nothing, PIf c b e :: l)
  | _, Some c, _, _, _, Nothing => Some (Else [PIf c b []], l)
  | _, Some c, _, _, _, Else e => Some (Else [PIf c b e], l)
  | _, _, Some c, _, _, Nothing => Some (Nothing, PWhile c b :: l)
  | _, _, _, Some c, _, Nothing => Some (Nothing, PFor c b :: l)
  | _, _, _, _, Some c, Nothing => Some (Nothing, PDef c b :: l)
  | _, _, _, _, _, Nothing =>
      if pystr_eqb h (u "else:") then Some (Else b, l)
      else if pystr_eqb h (u "finally:") then Some (Finally b, l)
      else if pystr_eqb h (u "except Exception:") || pystr_eqb h (u "except Exception as err:") then Some (Except b [], l)
      else None
  | _, _, _, _, _, Finally f =>
      if pystr_eqb h (u "try:") then Some (Nothing, PTry b None f :: l)
      else if pystr_eqb h (u "except Exception:") || pystr_eqb h (u "except Exception as err:") then Some (Except b f, l)
      else None
  | _, _, _, _, _, Except e f => if pystr_eqb h (u "try:") then Some (Nothing, PTry b (Some e) f :: l) else None
  | _, _, _, _, _, Else _ => None
  end.
Fixpoint add_node (n : node) (k : option (pending * list pystmt)) : option (pending * list pystmt) :=
  match n with
  | NSimple t => match k with Some (Nothing, l) => Some (Nothing, PSimple t :: l) | _ => None end
  | NComp h b =>
      match fold_right add_node (Some (Nothing, [])) b, k with
      | Some (Nothing, body), Some k => clause h body k
      | _, _ => None
      end
  end.
Definition statements (l : list node) : option (list pystmt) :=
  match fold_right add_node (Some (Nothing, [])) l with Some (Nothing, p) => Some p | _ => None end.
(** Python's reading of a text *)
Definition py_reads (text : pystr) (p : list pystmt) : Prop := exists l, block 0 (significant text) l /\ statements l = Some p.

(** * Running *)
Inductive signal (E : Type) := Normal | Break | Continue | Return | Raise (e : E).
Arguments Normal {E}. Arguments Break {E}. Arguments Continue {E}. Arguments Return {E}. Arguments Raise {E} e.
(** What is not control flow: states, exceptions, loop iterators; the effect of a command (given the exception being handled), of a
    condition, of a loop head. *)
Record machine := {
  St : Type; Ex : Type; It : Type;
  m_run : option Ex -> pystr -> St -> St * signal Ex;
  m_test : pystr -> St -> St * (bool + Ex);
  m_start : pystr -> St -> St * (It + Ex);
  m_next : It -> St -> St * (option It + Ex);
  m_bind : pystr -> Ex -> St -> St
}.
(** The commands whose meaning is fixed by Python *)
Definition lawful (m : machine) : Prop :=
  (forall cur st, m_run m cur (u "pass") st = (st, Normal)) /\ (forall cur st, m_run m cur (u "break") st = (st, Break)) /\
  (forall cur st, m_run m cur (u "continue") st = (st, Continue)) /\ (forall e st, m_run m (Some e) (u "raise") st = (st, Raise e)) /\
  (forall e x st, m_run m (Some e) (u "S." ++ x ++ u " = vfpfunc.Exception.from_pyexception(err)") st = (m_bind m x e st, Normal)) /\
  (forall st, m_test m (u "True") st = (st, inl true)) /\
  (forall c st, m_test m (u "not (" ++ c ++ u ")") st = (fst (m_test m c st), match snd (m_test m c st) with inl b => inl (negb b) | inr e => inr e end)).

Section run.
Variable m : machine.
(** A run of at most N passes through each loop; None when that is not enough. *)
Definition result := option (St m * signal (Ex m)).
Definition then_ (r : result) (k : St m -> result) : result := match r with Some (st, Normal) => k st | _ => r end.
Definition if_ (c : pystr) (a b : St m -> result) (st : St m) : result :=
  let '(st, r) := m_test m c st in match r with inl true => a st | inl false => b st | inr e => Some (st, Raise e) end.
Fixpoint while_ (N : nat) (c : pystr) (body : St m -> result) (st : St m) : result :=
  match N with
  | O => None
  | S N => if_ c (fun st => match body st with
                            | Some (st, (Normal | Continue)) => while_ N c body st
                            | Some (st, Break) => Some (st, Normal)
                            | r => r
                            end) (fun st => Some (st, Normal)) st
  end.
Fixpoint passes (N : nat) (it : It m) (body : St m -> result) (st : St m) : result :=
  match N with
  | O => None
  | S N => let '(st, r) := m_next m it st in
           match r with
           | inr e => Some (st, Raise e)
           | inl None => Some (st, Normal)
           | inl (Some it) => match body st with
                              | Some (st, (Normal | Continue)) => passes N it body st
                              | Some (st, Break) => Some (st, Normal)
                              | r => r
                              end
           end
  end.
Definition for_ (N : nat) (h : pystr) (body : St m -> result) (st : St m) : result :=
  let '(st, r) := m_start m h st in match r with inl it => passes N it body st | inr e => Some (st, Raise e) end.
Definition finally_ (r : result) (fin : St m -> result) : result :=
  match r with
  | Some (st, s) => match fin st with Some (st, Normal) => Some (st, s) | r => r end
  | None => None
  end.
Definition catch_ (r : result) (handler : Ex m -> St m -> result) : result := match r with Some (st, Raise e) => handler e st | _ => r end.

(** Python *)
Fixpoint prun (N : nat) (cur : option (Ex m)) (p : pystmt) (st : St m) {struct p} : result :=
  let seq cur := fix seq (l : list pystmt) (st : St m) : result := match l with [] => Some (st, Normal) | p :: l => then_ (prun N cur p st) (seq l) end in
  match p with
  | PSimple t => Some (m_run m cur t st)
  | PIf c a b => if_ c (seq cur a) (seq cur b) st
  | PWhile c b => while_ N c (seq cur b) st
  | PFor h b => for_ N h (seq cur b) st
  | PTry b h f => finally_ (catch_ (seq cur b st) (fun e => match h with Some h => seq (Some e) h | None => fun st => Some (st, Raise e) end)) (seq cur f)
  | PDef _ _ => Some (st, Normal)
  end.
Definition pruns (N : nat) (cur : option (Ex m)) : list pystmt -> St m -> result :=
  fix seq l st := match l with [] => Some (st, Normal) | p :: l => then_ (prun N cur p st) (seq l) end.

(** FoxPro; [w] is the object of the innermost WITH *)
Definition fox_text (w : pystr) (ps : list piece) : pystr := concat (map (fun p => match p with Txt s => s | Dotted s => w ++ u "." ++ s end) ps).
Fixpoint frun (N : nat) (w : pystr) (cur : option (Ex m)) (s : fstmt) (st : St m) {struct s} : result :=
  match s with
  | FCmd ps => Some (m_run m cur (fox_text w ps) st)
  | FExit => Some (st, Break)
  | FLoop => Some (st, Continue)
  | FComment _ | FFail _ => Some (st, Normal)
  | FIf c a b => if_ (fox_text w c) (fruns N w cur a) (match b with FSome b => fruns N w cur b | FNone => fun st => Some (st, Normal) end) st
  | FCase _ cs o => fcase N w cur cs (match o with FSome b => fruns N w cur b | FNone => fun st => Some (st, Normal) end) st
  | FFor h b | FScan h b => for_ N (fox_text w h) (fruns N w cur b) st
  | FWhile c b => while_ N (fox_text w c) (fruns N w cur b) st
  | FWith o b => fruns N (fox_text w o) cur b st
  | FTry b c f =>
      finally_ (catch_ (fruns N w cur b st) (fun e st =>
        match c with
        | NoCatch => Some (st, Raise e)
        | Catch to cond h =>
            let st := match to with Some x => m_bind m x e st | None => st end in
            match cond with
            | Some c => if_ (fox_text w c) (fruns N w (Some e) h) (fun st => Some (st, Raise e)) st
            | None => fruns N w (Some e) h st
            end
        end))
        (match f with FSome f => fruns N w cur f | FNone => fun st => Some (st, Normal) end)
  end
with fruns (N : nat) (w : pystr) (cur : option (Ex m)) (l : flines) (st : St m) {struct l} : result :=
  match l with FNil => Some (st, Normal) | FCons s l => then_ (frun N w cur s st) (fruns N w cur l) end
(** the first case whose condition holds *)
with fcase (N : nat) (w : pystr) (cur : option (Ex m)) (cs : fcases) (other : St m -> result) (st : St m) {struct cs} : result :=
  match cs with
  | CNil => other st
  | CCons c b cs => if_ (fox_text w c) (fruns N w cur b) (fcase N w cur cs other) st
  end.
End run.

(** * Which programs *)
Definition no_dots (ps : list piece) : Prop := Forall (fun p => match p with Txt _ => True | Dotted _ => False end) ps.
(** Does the statement contain a WITH? *)
Fixpoint has_with (s : fstmt) : bool :=
  match s with
  | FWith _ _ => true
  | FIf _ a b => has_withs a || match b with FSome b => has_withs b | FNone => false end
  | FCase _ cs o => has_withc cs || match o with FSome b => has_withs b | FNone => false end
  | FFor _ b | FScan _ b | FWhile _ b => has_withs b
  | FTry b c f => has_withs b || match f with FSome b => has_withs b | FNone => false end || match c with Catch _ _ b => has_withs b | NoCatch => false end
  | _ => false
  end
with has_withs (l : flines) : bool := match l with FNil => false | FCons s l => has_with s || has_withs l end
with has_withc (cs : fcases) : bool := match cs with CNil => false | CCons _ b cs => has_withs b || has_withc cs end.
(** A line of Python text; a command line *)
Definition one_line (t : pystr) : Prop := ~ In 10 t.
Definition command_line (t : pystr) : Prop := one_line t /\ match t with [] => False | c :: _ => c <> 32 /\ c <> 35 end /\ is_head t = false.
(** the object of a WITH: one line, not starting with a blank or #, and not all lower case *)
Definition with_object (t : pystr) : Prop := one_line t /\ match t with [] => False | c :: _ => c <> 32 /\ c <> 35 end /\ islower t = false.
Definition comment_line (t : pystr) : Prop := one_line t /\ match t with [] => True | c :: _ => c = 35 end.

(** [supported lost w s]: the statement can be converted faithfully inside the WITH object w.  [lost]: no leading-dot references allowed,
    because there is no WITH around, or because another WITH inside the same one came before, in reading order. *)
Definition refs (lost : bool) (ps : list piece) : Prop := lost = true -> no_dots ps.
Fixpoint supported (lost : bool) (w : pystr) (s : fstmt) {struct s} : Prop :=
  match s with
  | FCmd ps => refs lost ps /\ command_line (fox_text w ps)
  | FExit | FLoop => True
  | FComment ls => Forall comment_line ls
  | FFail _ => False
  | FIf c a b => refs lost c /\ one_line (fox_text w c) /\ supporteds lost w a /\
      match b with FSome b => supporteds (lost || has_withs a) w b | FNone => True end
  | FCase cm cs o => Forall (Forall comment_line) cm /\ supportedc lost w cs /\
      match o with FSome b => supporteds (lost || has_withc cs) w b /\ cs <> CNil | FNone => True end
  | FFor h b | FWhile h b => refs lost h /\ one_line (fox_text w h) /\ supporteds lost w b
  | FScan h b => refs (lost || has_withs b) h /\ one_line (fox_text w h) /\ supporteds lost w b
  | FWith o b => refs lost o /\ with_object (fox_text w o) /\ supporteds false (fox_text w o) b
  | FTry b c f => supporteds lost w b /\ match f with FSome f => supporteds (lost || has_withs b) w f | FNone => True end /\
      let lost := lost || has_withs b || match f with FSome f => has_withs f | FNone => false end in
      match c with
      | NoCatch => False
      | Catch to cond h => match to with Some x => one_line x | None => True end /\
          match cond with Some c => refs lost c /\ one_line (fox_text w c) | None => True end /\ supporteds lost w h
      end
  end
with supporteds (lost : bool) (w : pystr) (l : flines) {struct l} : Prop :=
  match l with FNil => True | FCons s l => supported lost w s /\ supporteds (lost || has_with s) w l end
with supportedc (lost : bool) (w : pystr) (cs : fcases) {struct cs} : Prop :=
  match cs with
  | CNil => True
  | CCons c b cs => refs lost c /\ one_line (fox_text w c) /\ supporteds lost w b /\ supportedc (lost || has_withs b) w cs
  end.

(** * The Python program that is meant *)
Definition block_of (l : list pystmt) : list pystmt := match l with [] => [PSimple (u "pass")] | _ => l end.
Fixpoint meant (w : pystr) (s : fstmt) {struct s} : list pystmt :=
  match s with
  | FCmd ps => [PSimple (fox_text w ps)]
  | FExit => [PSimple (u "break")]
  | FLoop => [PSimple (u "continue")]
  | FComment _ | FFail _ => []
  | FIf c a b => [PIf (fox_text w c) (block_of (meants w a)) (match b with FSome b => block_of (meants w b) | FNone => [] end)]
  | FCase _ cs o =>
      let e := match o with FSome b => block_of (meants w b) | FNone => [] end in
      match cs with CNil => [PIf (u "True") [PSimple (u "pass")] e] | _ => meantc w cs e end
  | FFor h b | FScan h b => [PFor (fox_text w h) (block_of (meants w b))]
  | FWhile c b => [PWhile (fox_text w c) (block_of (meants w b))]
  | FWith o b => block_of (meants (fox_text w o) b)
  | FTry b c f =>
      [PTry (block_of (meants w b))
         (match c with
          | NoCatch => None
          | Catch to cond h =>
              Some (match to with Some x => [PSimple (u "S." ++ x ++ u " = vfpfunc.Exception.from_pyexception(err)")] | None => [] end ++
                    match cond with Some c => [PIf (u "not (" ++ fox_text w c ++ u ")") [PSimple (u "raise")] []] | None => [] end ++ block_of (meants w h))
          end)
         (match f with FSome f => block_of (meants w f) | FNone => [] end)]
  end
with meants (w : pystr) (l : flines) {struct l} : list pystmt := match l with FNil => [] | FCons s l => meant w s ++ meants w l end
with meantc (w : pystr) (cs : fcases) (e : list pystmt) {struct cs} : list pystmt :=
  match cs with CNil => e | CCons c b cs => [PIf (fox_text w c) (block_of (meants w b)) (meantc w cs e)] end.

(** * Nesting, without the texts *)
Inductive skel := KCmd | KIf (a b : list skel) | KWhile (b : list skel) | KFor (b : list skel) | KTry (b h f : list skel) | KDef (b : list skel).
Fixpoint skel_of (p : pystmt) : skel :=
  match p with
  | PSimple _ => KCmd
  | PIf _ a b => KIf (map skel_of a) (map skel_of b)
  | PWhile _ b => KWhile (map skel_of b)
  | PFor _ b => KFor (map skel_of b)
  | PTry b h f => KTry (map skel_of b) (match h with Some h => map skel_of h | None => [] end) (map skel_of f)
  | PDef _ b => KDef (map skel_of b)
  end.
Definition kblock (l : list skel) : list skel := match l with [] => [KCmd] | _ => l end.
(** The nesting of the source, with a pass for each empty block; the blocks of a TRY without CATCH follow each other *)
Fixpoint nest (s : fstmt) : list skel :=
  match s with
  | FCmd _ | FExit | FLoop => [KCmd]
  | FComment _ | FFail _ => []
  | FIf _ a b => [KIf (kblock (nests a)) (match b with FSome b => kblock (nests b) | FNone => [] end)]
  | FCase _ cs o =>
      let e := match o with FSome b => kblock (nests b) | FNone => [] end in
      match cs with CNil => [KIf [KCmd] e] | _ => nestc cs e end
  | FFor _ b | FScan _ b => [KFor (kblock (nests b))]
  | FWhile _ b => [KWhile (kblock (nests b))]
  | FWith _ b => kblock (nests b)
  | FTry b NoCatch f => kblock (nests b) ++ match f with FSome f => kblock (nests f) | FNone => [] end
  | FTry b (Catch to cond h) f =>
      [KTry (kblock (nests b)) (match to with Some _ => [KCmd] | None => [] end ++ match cond with Some _ => [KIf [KCmd] []] | None => [] end ++ kblock (nests h))
         (match f with FSome f => kblock (nests f) | FNone => [] end)]
  end
with nests (l : flines) : list skel := match l with FNil => [] | FCons s l => nest s ++ nests l end
with nestc (cs : fcases) (e : list skel) : list skel := match cs with CNil => e | CCons _ b cs => [KIf (kblock (nests b)) (nestc cs e)] end.

(** [printable s]: every text is one line; a command starts with no blank or # and does not end in a colon.  Nothing is asked of WITH,
    of the source lines of failed statements beyond being lines, or of CATCH. *)
Definition ptext (p : piece) : pystr := match p with Txt s | Dotted s => s end.
Definition plain (ps : list piece) : Prop := Forall (fun p => one_line (ptext p)) ps.
Definition starts_well (ps : list piece) : Prop := match ps with [] => False | p :: _ => match ptext p with [] => False | c :: _ => c <> 32 /\ c <> 35 end end.
Definition ends_well (ps : list piece) : Prop := ptext (last ps (Txt [])) <> [] /\ is_head (ptext (last ps (Txt []))) = false.
Fixpoint printable (s : fstmt) {struct s} : Prop :=
  match s with
  | FCmd ps => plain ps /\ starts_well ps /\ ends_well ps
  | FExit | FLoop => True
  | FComment ls => Forall comment_line ls
  | FFail src => Forall one_line src
  | FIf c a b => plain c /\ printables a /\ match b with FSome b => printables b | FNone => True end
  | FCase cm cs o => Forall (Forall comment_line) cm /\ printablec cs /\ match o with FSome b => printables b | FNone => True end
  | FFor h b | FWhile h b | FScan h b => plain h /\ printables b
  | FWith o b => plain o /\ starts_well o /\ printables b
  | FTry b c f => printables b /\ match f with FSome f => printables f | FNone => True end /\
      match c with
      | NoCatch => True
      | Catch to cond h => match to with Some x => one_line x | None => True end /\ match cond with Some c => plain c | None => True end /\ printables h
      end
  end
with printables (l : flines) : Prop := match l with FNil => True | FCons s l => printable s /\ printables l end
with printablec (cs : fcases) : Prop := match cs with CNil => True | CCons c b cs => plain c /\ printables b /\ printablec cs end.
