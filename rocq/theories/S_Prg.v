(** What preprocessing should make of the text of a program: remarks become lines of their own, constants are put in, lines are selected. *)
From Verif Require Import PyBase PyStr M_Lexer S_Lexer S_Expr S_Prog.
Open Scope Z_scope.

(** The constants: what a name, in small letters, stands for *)
Definition constants := pystr -> option source.
Definition none : constants := fun _ => None.
Definition defined (d : constants) (x : pystr) (v : option source) : constants := fun y => if pystr_eqb y (small x) then v else d y.
(** Carriage returns are dropped. *)
Definition plain (s : pystr) : pystr := filter (fun c => negb (c =? 13)) s.
Definition plain_layout (gs : list layout) : list layout :=
  flat_map (fun g => match g with Blank c => if c =? 13 then [] else [g] | Continued b r => [Continued (plain b) r] end) gs.
(** Blanks before a definition are not part of it. *)
Fixpoint unblank (gs : list layout) : list layout := match gs with Blank _ :: gs => unblank gs | _ => gs end.
Definition value_of (v : source) : source := match v with (g, p) :: v => (unblank g, p) :: v | [] => [] end.
(** A line with the constants put in; [pending] is the layout before a constant that stands for nothing *)
Definition bare (v : source) : source := map (fun p => (plain_layout (fst p), snd p)) v.
Fixpoint put_in (d : constants) (pending : list layout) (l : source) : source :=
  match l with
  | [] => []
  | (g, p) :: l =>
      match (match p with Word w => d (small w) | _ => None end) with
      | None => (pending ++ plain_layout g, p) :: put_in d [] l
      | Some [] => put_in d (pending ++ plain_layout g) l
      | Some ((g1, q) :: v) => (pending ++ plain_layout g ++ plain_layout g1, q) :: bare v ++ put_in d [] l
      end
  end.
(** A constant must not be named in a text in quotes or in a remark, where it would be put in as well. *)
Definition untouched (d : constants) (s : pystr) : Prop := forall k t, In (k, t) (tokens s) -> d (small t) = None.
Definition in_line (p : piece) : Prop := match p with NewLine _ | Remark _ => False | Quoted _ s => ~ In 13 s | _ => True end.
Definition usable (d : constants) (p : piece) : Prop := match p with Quoted _ s => untouched d s | _ => True end.
Definition hash (p : piece) : bool := match p with Sym k _ => String.eqb k "HASH" | _ => false end.
Definition not_directive (l : source) : Prop := match l with (_, p) :: _ => hash p = false | [] => True end.
Definition remark_ok (r : option pystr) : Prop := match r with Some r => ~ In 38 r /\ ~ In 59 r | None => True end.
Definition remark_line (r : option pystr) : source := match r with Some r => [([], Remark (plain r))] | None => [] end.
Definition blanks (gs : list layout) : Prop := Forall (fun g => match g with Blank _ => True | _ => False end) gs.
(** [expands d src out d']: the text src, read with the constants d, is out, and leaves the constants d' *)
Inductive expands : constants -> source -> source -> constants -> Prop :=
| X_end d : expands d [] [] d
| X_line d l g r src out d' : Forall (fun p => in_line (snd p) /\ usable d (snd p)) l -> not_directive l -> remark_ok r -> expands d src out d' ->
    expands d (l ++ (g, NewLine r) :: src) (remark_line r ++ put_in d [] (l ++ [(g, NewLine None)]) ++ out) d'
| X_remark d g s src out d' : untouched d s -> expands d src out d' -> expands d ((g, Remark s) :: src) ((plain_layout g, Remark (plain s)) :: out) d'
| X_define d g0 g1 w g2 x v g r src out d' : key w "DEFINE" -> named x -> Forall (fun p => in_line (snd p)) v -> blanks g -> expands (defined d x (Some (value_of v))) src out d' ->
    expands d ((g0, sym "#") :: (g1, Word w) :: (g2, Word x) :: v ++ (g, NewLine r) :: src) out d'
| X_undefine d g0 g1 w g2 x g r src out d' : key w "UNDEFINE" -> named x -> d (small x) <> None -> expands (defined d x None) src out d' ->
    expands d ((g0, sym "#") :: (g1, Word w) :: (g2, Word x) :: (g, NewLine r) :: src) out d'
| X_ifdef d g0 g1 w g2 x g r d1 a oa da d2 b ob db d3 o h0 h1 e h re src out d' : key w "IFDEF" -> named x -> expands d1 a oa da -> else_part d2 b ob db -> key e "ENDIF" ->
    match d (small x) with Some _ => d1 = d /\ o = oa /\ d3 = da | None => d2 = d /\ o = ob /\ d3 = db end -> expands d3 src out d' ->
    expands d ((g0, sym "#") :: (g1, Word w) :: (g2, Word x) :: (g, NewLine r) :: a ++ b ++ (h0, sym "#") :: (h1, Word e) :: (h, NewLine re) :: src) (o ++ out) d'
with else_part : constants -> source -> source -> constants -> Prop :=
| E_none d : else_part d [] [] d
| E_some d g0 g1 w g r b ob db : key w "ELSE" -> expands d b ob db -> else_part d ((g0, sym "#") :: (g1, Word w) :: (g, NewLine r) :: b) ob db.
(** A continued line must not have a remark after its semicolon. *)
Definition simple (src : source) : Prop := Forall (fun p => Forall (fun g => match g with Continued _ (Some _) => False | _ => True end) (fst p)) src.
