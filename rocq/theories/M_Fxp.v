(** fxp_read.py: the binary container (checksum, integers, dates, header, members, extraction). *)
From Verif Require Import PyBase PyStr M_Dates.
Open Scope Z_scope.
Open Scope res_scope.

(** A file is its list of bytes; a reader is the file and a position.
    BinaryFix.read, fxp_read.py:49-50 (io.BufferedReader.read): -1 reads everything, a smaller number raises, otherwise at most n
    bytes are returned.  Positions after a failed read are not kept: every handler in the code seeks first. *)
Definition fread (f : list Z) (pos n : Z) : res (list Z * Z) :=
  if n <? -1 then Err ValueError
  else
    let rest := skipn (Z.to_nat (Z.min pos (zlen f))) f in
    let got := if n =? -1 then rest else firstn (Z.to_nat (Z.min n (zlen rest))) rest in
    Ok (got, pos + zlen got).
(** `fid.read(1)[0]` *)
Definition read_byte (f : list Z) (pos : Z) : res (Z * Z) :=
  do (b, p) <- fread f pos 1;
  match b with x :: _ => Ok (x, p) | [] => Err IndexError end.

(** fxp_read.py:22-43 *)
Record nibbles := mkN { na : Z; nb : Z; nc : Z; nd : Z }.
Definition checksum_step (s : nibbles) (byte : Z) : nibbles :=
  let a := Z.lxor (na s) (Z.shiftr (Z.land byte 0xF0) 4) in
  let b := Z.lxor (nb s) (Z.land byte 0x0F) in
  let chunk := Z.shiftl a 9 + Z.shiftl (Z.lxor a b) 5 in
  mkN (Z.lxor (Z.lxor (Z.lxor a b) (nc s)) (Z.shiftr (Z.land chunk 0xF000) 12))
      (Z.lxor (nd s) (Z.shiftr (Z.land chunk 0x0F00) 8))
      (Z.lxor a (Z.shiftr (Z.land chunk 0x00F0) 4))
      (Z.lxor (Z.lxor a b) (Z.land chunk 0x000F)).
Definition checksum_value (s : nibbles) : Z := Z.shiftl (na s) 12 + Z.shiftl (nb s) 8 + Z.shiftl (nc s) 4 + nd s.
Definition checksum_calc (string : list Z) : res Z :=
  match string with
  | x :: y :: _ =>
      let s := mkN (Z.shiftr (Z.land x 0xF0) 4) (Z.land x 0x0F) (Z.shiftr (Z.land y 0xF0) 4) (Z.land y 0x0F) in
      Ok (checksum_value (fold_left checksum_step string s))
  | _ => Err IndexError
  end.

(** `struct.unpack('<...', bytes)` of one integer: the number of bytes has to match. *)
Fixpoint le (bs : list Z) : Z := match bs with [] => 0 | b :: r => b + 256 * le r end.
Definition signed (bits n : Z) : Z := if n <? 2 ^ (bits - 1) then n else n - 2 ^ bits.
Definition unpack_le (n : Z) (bs : list Z) : res Z := if zlen bs =? n then Ok (le bs) else Err StructError.
Definition read_le (f : list Z) (pos n : Z) : res (Z * Z) :=
  do (b, p) <- fread f pos n; do v <- unpack_le n b; Ok (v, p).
(** fxp_read.py:1332-1342 *)
Definition read_short (f : list Z) (pos : Z) : res (Z * Z) := do (v, p) <- read_le f pos 2; Ok (signed 16 v, p).
Definition read_ushort (f : list Z) (pos : Z) : res (Z * Z) := read_le f pos 2.
Definition read_int (f : list Z) (pos : Z) : res (Z * Z) := do (v, p) <- read_le f pos 4; Ok (signed 32 v, p).
Definition read_uint (f : list Z) (pos : Z) : res (Z * Z) := read_le f pos 4.
(** `struct.pack('<H', n)`, `'<I'`: out of range raises *)
Fixpoint le_bytes (k : nat) (n : Z) : list Z := match k with O => [] | S k => n mod 256 :: le_bytes k (n / 256) end.
Definition pack_u (k : nat) (n : Z) : res (list Z) :=
  if (n <? 0) || (2 ^ (8 * Z.of_nat k) <=? n) then Err StructError else Ok (le_bytes k n).

(** fxp_read.py:1436-1443; `datetime(...)` rejects impossible fields *)
Definition convert_date (bits : Z) : res (date * time) :=
  let y := Z.shiftr (Z.land bits 0xfe000000) 25 + 1980 in
  let mo := Z.shiftr (Z.land bits 0x1e00000) 21 in
  let d := Z.shiftr (Z.land bits 0x1f0000) 16 in
  let h := Z.shiftr (Z.land bits 0xf800) 11 in
  let mi := Z.shiftr (Z.land bits 0x7e0) 5 in
  let s := Z.shiftl (Z.land bits 0x1f) 1 in
  if valid_date (mkDate y mo d) && valid_time (mkTime h mi s) then Ok (mkDate y mo d, mkTime h mi s) else Err ValueError.

(** FXPNumber of an integer without decimals, fxp_read.py:81-89: `'{:0Nd.0f}'.format(number)`; the conversion to float is exact
    for the integers that occur (at most 32 bits) *)
Definition zpad (w : Z) (s : pystr) : pystr := py_repeat 48 (w - zlen s) ++ s.
Definition number_text (digits n : Z) : pystr :=
  if n <? 0 then 45 :: zpad (digits - 1) (dec_nat (- n)) else zpad digits (dec_nat n).
(** FXPCurrency.__repr__, fxp_read.py:99-101 *)
Definition currency_text (n dec_digits : Z) : pystr :=
  let base := 10 ^ dec_digits in
  u "$" ++ dec (n / base) ++ u "." ++ dec (n mod base).

(** fxp_read.py:1468-1474.  None: still in the loop after the given number of rounds. *)
Fixpoint until_null (fuel : nat) (f : list Z) (pos : Z) (string : list Z) : option (res (pystr * Z)) :=
  match fuel with
  | O => None
  | S k =>
      match rev string with
      | [] => Some (Err IndexError)
      | c :: r =>
          if c =? 0 then Some (Ok (rev r, pos))
          else match fread f pos 1 with
               | Err e => Some (Err e)
               | Ok (b, p) => until_null k f p (string ++ b)
               end
      end
  end.
Definition read_until_null (fuel : nat) (f : list Z) (pos : Z) : option (res (pystr * Z)) :=
  match fread f pos 1 with
  | Err e => Some (Err e)
  | Ok (b, p) => until_null fuel f p b
  end.

(** The file header, fxp_read.py:15-20, 1516-1536: '<3s2sHHIII18sH', 41 bytes; the checksum covers all but the last four. *)
Definition identifier : list Z := [0xfe; 0xf2; 0xff].
Definition encrypted_identifier : list Z := [0xfe; 0xf2; 0xee].
Record header := mkHdr { h_files : Z; h_main : Z; h_footer : Z; h_names : Z; h_namelen : Z }.
Definition sub (l : list Z) (a n : nat) : list Z := firstn n (skipn a l).
Definition read_header (f : list Z) : res header :=
  do (hb, _) <- fread f 0 41;
  if zlen hb <? 41 then Err GenericException
  else if pystr_eqb (sub hb 0 3) encrypted_identifier then Err GenericException
  else if negb (pystr_eqb (sub hb 0 3) identifier) then Err GenericException
  else
    do c <- checksum_calc (sub hb 0 37);
    if negb (le (sub hb 39 2) =? c) then Err GenericException
    else Ok (mkHdr (le (sub hb 5 2)) (le (sub hb 7 2)) (le (sub hb 9 4)) (le (sub hb 13 4)) (le (sub hb 17 4))).

(** Footer entries '<BIIII8s', 25 bytes, fxp_read.py:1548-1549 *)
Record entry := mkEnt { e_type : Z; e_start : Z; e_stop : Z; e_dir : Z; e_file : Z }.
Definition read_entry (f : list Z) (pos : Z) : res (entry * Z) :=
  do (b, p) <- fread f pos 25;
  if zlen b =? 25
  then Ok (mkEnt (le (sub b 0 1)) (le (sub b 1 4)) (le (sub b 5 4)) (le (sub b 9 4)) (le (sub b 13 4)), p)
  else Err StructError.
Fixpoint read_entries (n : nat) (f : list Z) (pos : Z) : res (list entry) :=
  match n with
  | O => Ok []
  | S k => do (e, p) <- read_entry f pos; do r <- read_entries k f p; Ok (e :: r)
  end.

(** One member, fxp_read.py:1551-1588: its names and, for an output directory, the bytes written to the file of that name.  Decoding
    the member's code (whose failures are ignored there) is modelled in M_FxpCode.v; printing is left out. *)
Record member := mkMem { m_type : Z; m_dir : pystr; m_file : pystr; m_out : list Z }.
Definition zeros (n : nat) : list Z := repeat 0 n.
Definition out_header (blocklen namelen : Z) : res (list Z) :=
  do a <- pack_u 2 1; do b <- pack_u 2 0; do c <- pack_u 4 (41 + blocklen + namelen); do d <- pack_u 4 (41 + blocklen);
  do e <- pack_u 4 namelen;
  let hd := identifier ++ zeros 2 ++ a ++ b ++ c ++ d ++ e ++ zeros 16 in
  do ck <- checksum_calc hd;
  do ckb <- pack_u 2 ck;
  Ok (hd ++ zeros 2 ++ ckb).
Definition out_file (f : list Z) (e : entry) (dirname filename : pystr) : res (list Z) :=
  let blocklen := e_stop e - e_start e in
  let namelen := zlen dirname + zlen filename + 3 in
  do hd <- out_header blocklen namelen;
  do (block, _) <- fread f (e_start e) blocklen;
  do t <- pack_u 1 (e_type e); do a <- pack_u 4 41; do b <- pack_u 4 (41 + zlen block); do c <- pack_u 4 1;
  do d <- pack_u 4 (1 + zlen dirname + 1);
  Ok (hd ++ block ++ [0] ++ dirname ++ [0] ++ filename ++ [0] ++ t ++ a ++ b ++ c ++ d ++ zeros 8).
Definition read_member (fuel : nat) (f : list Z) (name_pos : Z) (e : entry) : option (res member) :=
  match read_until_null fuel f (name_pos + e_dir e) with
  | None => None
  | Some (Err x) => Some (Err x)
  | Some (Ok (dirname, _)) =>
      match read_until_null fuel f (name_pos + e_file e) with
      | None => None
      | Some (Err x) => Some (Err x)
      | Some (Ok (filename, _)) =>
          Some (if e_type e =? 0
                then do o <- out_file f e dirname filename; Ok (mkMem (e_type e) dirname filename o)
                else do (o, _) <- fread f (e_start e) (e_stop e - e_start e); Ok (mkMem (e_type e) dirname filename o))
      end
  end.
Fixpoint read_members (fuel : nat) (f : list Z) (name_pos : Z) (es : list entry) : option (res (list member)) :=
  match es with
  | [] => Some (Ok [])
  | e :: r =>
      match read_member fuel f name_pos e with
      | None => None
      | Some (Err x) => Some (Err x)
      | Some (Ok m) =>
          match read_members fuel f name_pos r with
          | Some (Ok ms) => Some (Ok (m :: ms))
          | o => o
          end
      end
  end.
(** fxp_read with an output directory: the members in file order *)
Definition fxp_read (fuel : nat) (f : list Z) : option (res (list member)) :=
  match read_header f with
  | Err x => Some (Err x)
  | Ok h => match read_entries (Z.to_nat (h_files h)) f (h_footer h) with
            | Err x => Some (Err x)
            | Ok es => read_members fuel f (h_names h) es
            end
  end.
(** `os.path.join(output_dir, filename)` on POSIX, fxp_read.py:1565, 1586 *)
Definition path_join (dir name : pystr) : pystr :=
  let below := match rev dir with
               | [] => name
               | c :: _ => if c =? 47 then dir ++ name else dir ++ [47] ++ name
               end in
  match name with
  | c :: _ => if c =? 47 then name else below
  | [] => below
  end.

(** The files written for the members, in order (fxp_read.py:1565, 1586, mode 'wb'): a file system is a map from paths to contents.
    The decompiled .prg files written at the end (1590 on) are left out. *)
Definition out_path (dir : pystr) (m : member) : pystr := path_join dir (m_file m).
Definition extract (dir : pystr) (ms : list member) (fs : list (pystr * list Z)) : list (pystr * list Z) :=
  fold_left (fun fs m => dset pystr_eqb fs (out_path dir m) (m_out m)) ms fs.

(** The name a program was compiled from, fxp_read.py:1476-1491: the member's own header '<hhiiiiiiIIB' (37 bytes) gives an
    offset into the name table of the whole file. *)
Definition original_name (fuel : nat) (f : list Z) (start name_pos : Z) : option (res pystr) :=
  match fread f start 37 with
  | Err x => Some (Err x)
  | Ok (b, _) =>
      if negb (zlen b =? 37) then Some (Err StructError)
      else match convert_date (le (sub b 28 4)) with
           | Err x => Some (Err x)
           | Ok _ => match read_until_null fuel f (name_pos + le (sub b 32 4)) with
                     | None => None
                     | Some r => Some (rmap fst r)
                     end
           end
  end.
