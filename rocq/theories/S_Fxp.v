(** Specifications for FXP files. *)
From Verif Require Import PyBase PyStr.
Open Scope Z_scope.

Definition bytes (l : list Z) : Prop := Forall (fun b => 0 <= b < 256) l.

(** CRC-16/XMODEM, bit by bit: polynomial x^16 + x^12 + x^5 + 1, most significant bit first, initial value 0. *)
Fixpoint crc_rounds (k : nat) (s : Z) : Z :=
  match k with
  | O => s
  | S k => crc_rounds k (if 32768 <=? s then Z.lxor ((2 * s) mod 65536) 0x1021 else 2 * s)
  end.
Definition crc16 (l : list Z) : Z := fold_left (fun s b => crc_rounds 8 (Z.lxor s (256 * b))) l 0.

(** DOS date and time: 7 bits year since 1980, 4 month, 5 day, 5 hour, 6 minute, 5 seconds/2. *)
Definition dos_pack (y mo d h mi s : Z) : Z :=
  ((((((y - 1980) * 16 + mo) * 32 + d) * 32 + h) * 64 + mi) * 32 + s / 2).

(** Value of a money literal `$` [`-`] digits `.` digits, as numerator and number of decimals. *)
Definition all_digits (s : pystr) : Prop := s <> [] /\ Forall (fun c => 48 <= c <= 57) s.
Definition digits_val (s : pystr) : Z := fold_left (fun a c => 10 * a + (c - 48)) s 0.
Definition money_denotes (t : pystr) (num : Z) (dec : Z) : Prop :=
  exists a b, all_digits a /\ all_digits b /\ dec = Z.of_nat (length b) /\
    ((t = u "$" ++ a ++ u "." ++ b /\ num = digits_val a * 10 ^ dec + digits_val b) \/
     (t = u "$-" ++ a ++ u "." ++ b /\ num = - (digits_val a * 10 ^ dec + digits_val b))).

(** A code area: every line is preceded by its length, which counts the two bytes of the length itself. *)
Definition line_bytes (l : list Z) : list Z := let n := zlen l + 2 in [n mod 256; n / 256] ++ l.
Definition area_bytes (ls : list (list Z)) : list Z := concat (map line_bytes ls).
(** `44 6f` *)
Definition hex_char (n : Z) : Z := nth (Z.to_nat n) (u "0123456789abcdef") 0.
Definition hex_dump (l : list Z) : pystr :=
  match l with
  | [] => []
  | b :: r => hex_char (b / 16) :: hex_char (b mod 16) :: flat_map (fun b => [32; hex_char (b / 16); hex_char (b mod 16)]) r
  end.
