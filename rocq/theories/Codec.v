(** * Codec: model of big_integer.py, byte_padding.py and the int/bytes/hex built-ins they use.
    Bytes are integers 0..255 in lists.  Definitions only. *)
From Verif Require Import Base.

(** Base-[b] digits of a non-negative integer, least significant first; [] for 0. *)
Fixpoint digits_le_fuel (fuel : nat) (b n : Z) : list Z :=
  match fuel with
  | O => []
  | S k => if n <=? 0 then [] else (n mod b) :: digits_le_fuel k b (n / b)
  end.
Definition digits_be (b n : Z) : list Z :=
  rev (digits_le_fuel (Z.to_nat (Z.log2 n + 1)) b n).

Definition of_digits_be (b : Z) (l : list Z) : Z := fold_left (fun acc d => acc * b + d) l 0.

(** One hexadecimal digit as an upper-case character (format code "X"). *)
Definition hex_char (d : Z) : ascii :=
  nth (Z.to_nat d)
    (list_ascii_of_string "0123456789ABCDEF") "?"%char.

(** value of a hexadecimal character, upper or lower case (bytes.fromhex accepts both) *)
Definition hex_val (c : ascii) : option Z :=
  let n := Z.of_N (N_of_ascii c) in
  if (48 <=? n) && (n <=? 57) then Some (n - 48)
  else if (65 <=? n) && (n <=? 70) then Some (n - 55)
  else if (97 <=? n) && (n <=? 102) then Some (n - 87)
  else None.

(** Python format(n, "02X"): sign, upper-case digits, zero-padded to width 2 (sign included). *)
Definition format_02X (n : Z) : list ascii :=
  let ds := map hex_char (if n =? 0 then [0] else digits_be 16 (Z.abs n)) in
  if n <? 0 then "-"%char :: ds
  else if (length ds <? 2)%nat then "0"%char :: ds else ds.

(** big_integer.py:17-25 _int_to_hex *)
Definition int_to_hex_chars (n : Z) : list ascii :=
  let hex := format_02X n in
  if Nat.odd (length hex) then "0"%char :: hex else hex.
Definition int_to_hex (n : Z) : string := string_of_list_ascii (int_to_hex_chars n).

(** bytes.fromhex: skips ASCII whitespace between bytes, otherwise needs pairs of hex digits;
    ValueError on anything else. *)
Definition is_ascii_space (c : ascii) : bool :=
  let n := Z.of_N (N_of_ascii c) in (n =? 32) || ((9 <=? n) && (n <=? 13)).
Fixpoint fromhex_chars (l : list ascii) : res (list Z) :=
  match l with
  | [] => Ok []
  | c :: l' =>
    if is_ascii_space c then fromhex_chars l'
    else match l' with
         | [] => Err ValueError
         | d :: l'' =>
           match hex_val c, hex_val d with
           | Some h, Some lo => do rest <- fromhex_chars l''; Ok ((16 * h + lo) :: rest)
           | _, _ => Err ValueError
           end
         end
  end.
Definition fromhex (s : string) : res (list Z) := fromhex_chars (list_ascii_of_string s).

(** int.from_bytes(b, "big") *)
Definition int_from_bytes (l : list Z) : Z := of_digits_be 256 l.

(** big_integer.py:10-14 _hex_to_int *)
Definition hex_to_int (s : string) : res Z :=
  let l := list_ascii_of_string s in
  let valid := match l with
               | c :: l' => if Nat.odd (length l) && Ascii.eqb c "0"%char then l' else l
               | [] => l
               end in
  do b <- fromhex_chars valid; Ok (int_from_bytes b).

(** big_integer.py:28-29 bytes_to_hex: leading zero bytes are lost. *)
Definition bytes_to_hex (l : list Z) : string := int_to_hex (int_from_bytes l).

(** big_integer.py:106-111 to_hex_bytes = b16decode(self) on a non-negative element: the minimal
    big-endian byte string, one zero byte for 0 (equal to fromhex (int_to_hex n), CodecFacts.v). *)
Definition to_hex_bytes (n : Z) : list Z := if n =? 0 then [0] else digits_be 256 n.

(** int.to_bytes(len, order): OverflowError when the value does not fit. *)
Fixpoint to_bytes_le_raw (len : nat) (n : Z) : list Z :=
  match len with O => [] | S k => (n mod 256) :: to_bytes_le_raw k (n / 256) end.
Definition to_bytes_le (len : nat) (n : Z) : res (list Z) :=
  if (0 <=? n) && (n <? 256 ^ Z.of_nat len) then Ok (to_bytes_le_raw len n) else Err OverflowError.
Definition to_bytes_be (len : nat) (n : Z) : res (list Z) := rmap (@rev Z) (to_bytes_le len n).

(** Python slice l[i:j] with possibly negative or overlong bounds. *)
Definition py_norm (n k : Z) : nat := Z.to_nat (if k <? 0 then Z.max 0 (n + k) else Z.min k n).
Definition py_slice {A} (l : list A) (i j : Z) : list A :=
  let n := Z.of_nat (length l) in
  firstn (py_norm n j - py_norm n i) (skipn (py_norm n i) l).
Definition zlen {A} (l : list A) : Z := Z.of_nat (length l).
(** bytes(n) / b"\x00" * n : empty for n <= 0 (bytes(n) with n < 0 is not reached). *)
Definition zeros (n : Z) : list Z := repeat 0 (Z.to_nat n).

(** byte_padding.py:19-26 to_padded_bytes *)
Definition to_padded_bytes (data : string) (size : Z) : res (list Z) :=
  do b <- fromhex data;
  if size <=? zlen b then Ok b else Ok (zeros (size - zlen b) ++ b).

(** byte_padding.py:29-46 add_padding *)
Definition add_padding (message : list Z) (size : Z) (allow_truncation : bool) : res (list Z) :=
  let padded_data_size := size - 2 in
  do message_length <-
    (if padded_data_size <? zlen message then
       if allow_truncation then Ok padded_data_size else Err TruncationError
     else Ok (zlen message));
  let padding_length := padded_data_size - message_length in
  do leading <- to_bytes_be 2 padding_length;
  Ok (leading ++ py_slice message 0 message_length ++ zeros padding_length).

(** byte_padding.py:49-54 remove_padding *)
Definition remove_padding (padded : list Z) (size : Z) : list Z :=
  let padding_length := int_from_bytes (py_slice padded 0 2) in
  py_slice padded 2 (size - padding_length).

(** group.py:98-107 hex_to_q, 122-131 hex_to_p: OverflowError becomes None, ValueError (bad hex)
    propagates. *)
Definition hex_to_bounded (bound : Z) (s : string) : res (option Z) :=
  do n <- hex_to_int s;
  Ok (if (0 <=? n) && (n <? bound) then Some n else None).

Definition byteb (b : Z) : bool := (0 <=? b) && (b <? 256).
Definition is_bytes (l : list Z) : Prop := Forall (fun b => 0 <= b < 256) l.
