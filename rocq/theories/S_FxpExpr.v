(** Expression trees, their byte code and their text. *)
From Verif Require Import PyBase PyStr M_FxpTab S_Fxp.
Open Scope Z_scope.

Inductive tree :=
| TStr (single : bool) (s : pystr)                (* a string literal in double or single quotes *)
| TInt (bits w n : Z)                             (* an integer literal of 8, 16 or 32 bits, written with w characters *)
| TConst (b : Z)                                  (* .T., .F., .NULL. *)
| TName (c : chain) (i : Z)                       (* a name, possibly qualified *)
| TUn (op : Z) (a : tree)
| TBin (op : Z) (a b : tree)
| TFun (fc : Z) (name : pystr) (args : trees)     (* a built-in function *)
| TExt (page fc : Z) (name : pystr) (args : trees) (* a built-in function with a two-byte code *)
| TCall (c : chain) (i : Z) (args : trees)        (* a call of a user's function or method *)
| TJump (isor : bool) (n : Z) (t : tree)          (* preceded by the jump of a short-circuit AND or OR *)
| TParen (t : tree)                               (* followed by a closing-parenthesis mark *)
| TGroup (t : tree)                               (* a complete expression *)
with trees := TNil | TCons (t : tree) (ts : trees)
with chain := CNil | CLink (c : chain) (l : link)
with link :=
| LName (i : Z) | LSpecial (b : Z) (s : pystr) | LSystem (b : Z) (s : pystr)
| LCall (c : chain) (i : Z) (args : trees).       (* a.f(x). *)

Definition le16 (n : Z) : list Z := [n mod 256; n / 256].
Definition le32 (n : Z) : list Z := [n mod 256; n / 256 mod 256; n / 65536 mod 256; n / 16777216].
Definition int_code (bits w n : Z) : list Z :=
  if bits =? 8 then [0xF8; w; n] else if bits =? 16 then [0xF9; w] ++ le16 (n mod 65536) else [0xE9; w] ++ le32 (n mod 2 ^ 32).
Fixpoint enc (t : tree) : list Z :=
  match t with
  | TStr single s => (if single then 0xFB else 0xD9) :: le16 (zlen s) ++ s
  | TInt bits w n => int_code bits w n
  | TConst b => [b]
  | TName c i => enc_chain c ++ 0xF7 :: le16 i
  | TUn op a => enc a ++ [op]
  | TBin op a b => enc a ++ enc b ++ [op]
  | TFun fc _ args => 0x43 :: encs args ++ [fc]
  | TExt page fc _ args => 0x43 :: encs args ++ [page; fc]
  | TCall c i args => 0x43 :: encs args ++ enc_chain c ++ 0xF6 :: le16 i
  | TJump isor n t => (if isor then 0xF1 else 0xF0) :: le16 n ++ enc t
  | TParen t => enc t ++ [0x03]
  | TGroup t => 0xFC :: enc t ++ [0xFD]
  end
with encs (ts : trees) : list Z := match ts with TNil => [] | TCons t ts => enc t ++ encs ts end
with enc_chain (c : chain) : list Z := match c with CNil => [] | CLink c l => enc_chain c ++ enc_link l end
with enc_link (l : link) : list Z :=
  match l with
  | LName i => 0xF4 :: le16 i
  | LSpecial b _ => [0xF5; b]
  | LSystem b _ => [0xE1; b]
  | LCall c i args => 0x43 :: encs args ++ enc_chain c ++ 0xE5 :: le16 i
  end.

Definition binop (op : Z) : option pystr :=
  match op with
  | 0x01 => Some (u "$") | 0x04 => Some (u "*") | 0x05 => Some (u "^") | 0x06 => Some (u "+") | 0x08 => Some (u "-") | 0x0C => Some (u "/")
  | 0x09 => Some (u "AND") | 0x0B => Some (u "OR") | 0x0D => Some (u "<") | 0x0E => Some (u "<=") | 0x0F => Some (u "!=")
  | 0x10 => Some (u "=") | 0x11 => Some (u ">") | 0x12 => Some (u ">=") | 0x14 => Some (u "==")
  | _ => None
  end.
Definition op_text (op : Z) : pystr := if op =? 0x0A then u "NOT" else match binop op with Some s => s | None => [] end.
Definition const_text (b : Z) : pystr := if b =? 0x61 then u ".T." else if b =? 0x2D then u ".F." else u ".NULL.".
Definition int_text (w n : Z) : pystr :=
  let pad w s := repeat 48 (Z.to_nat (w - zlen s)) ++ s in
  if n <? 0 then u "-" ++ pad (w - 1) (dec_nat (- n)) else pad w (dec_nat n).
Section Text.
Variable names : list pystr.
Definition name_of (i : Z) : pystr := nth (Z.to_nat i) names [].
(** Every operation in parentheses. *)
Fixpoint text (t : tree) : pystr :=
  match t with
  | TStr true s => u "'" ++ s ++ u "'"
  | TStr false s => u """" ++ s ++ u """"
  | TInt _ w n => int_text w n
  | TConst b => const_text b
  | TName c i => text_chain c ++ name_of i
  | TUn op a => u "(" ++ op_text op ++ u " " ++ text a ++ u ")"
  | TBin op a b => u "(" ++ text a ++ u " " ++ op_text op ++ u " " ++ text b ++ u ")"
  | TFun _ name args | TExt _ _ name args => name ++ u "(" ++ texts args ++ u ")"
  | TCall c i args => text_chain c ++ name_of i ++ u "(" ++ texts args ++ u ")"
  | TJump _ _ t | TParen t | TGroup t => text t
  end
with texts (ts : trees) : pystr :=
  match ts with TNil => [] | TCons t TNil => text t | TCons t ts => text t ++ u ", " ++ texts ts end
with text_chain (c : chain) : pystr := match c with CNil => [] | CLink c l => text_chain c ++ text_link l ++ u "." end
with text_link (l : link) : pystr :=
  match l with
  | LName i => name_of i
  | LSpecial _ s | LSystem _ s => s
  | LCall c i args => text_chain c ++ name_of i ++ u "(" ++ texts args ++ u ")"
  end.
(** Codes that exist; names in the name list. *)
Definition good_name (i : Z) : Prop := 0 <= i < zlen names /\ i < 65536.
Fixpoint wf (t : tree) : Prop :=
  match t with
  | TStr _ s => zlen s < 65536 /\ bytes s
  | TInt bits w n => 0 <= w < 256 /\ ((bits = 8 /\ 0 <= n < 256) \/ (bits = 16 /\ -32768 <= n < 32768) \/ (bits = 32 /\ - 2 ^ 31 <= n < 2 ^ 31))
  | TConst b => In b [0x61; 0x2D; 0xE4]
  | TName c i => wf_chain c /\ good_name i
  | TUn op a => op = 0x0A /\ wf a
  | TBin op a b => binop op <> None /\ wf a /\ wf b
  | TFun fc name args => fc <> 0x43 /\ lookup t_functions fc = Some name /\ wfs args
  | TExt page fc name args => ((page = 0x1A /\ lookup t_extended1 fc = Some name) \/ (page = 0xEA /\ lookup t_extended2 fc = Some name)) /\ wfs args
  | TCall c i args => wf_chain c /\ good_name i /\ wfs args
  | TJump _ n t => 0 <= n < 65536 /\ wf t
  | TParen t | TGroup t => wf t
  end
with wfs (ts : trees) : Prop := match ts with TNil => True | TCons t ts => wf t /\ wfs ts end
with wf_chain (c : chain) : Prop := match c with CNil => True | CLink c l => wf_chain c /\ wf_link l end
with wf_link (l : link) : Prop :=
  match l with
  | LName i => good_name i
  | LSpecial b s => lookup t_special_names b = Some s
  | LSystem b s => lookup t_system_names b = Some s
  | LCall c i args => wf_chain c /\ good_name i /\ wfs args
  end.
End Text.
