(** * ElGamal: model of elgamal.py and hmac.py.  Definitions only. *)
From Verif Require Import Base Group Codec Hash DLog.

Record keypair := { kp_secret : Z; kp_public : Z }.                 (* elgamal.py:30-35 *)
Record ciphertext := mkCt { ct_pad : Z; ct_data : Z }.              (* elgamal.py:38-50 *)
(** elgamal.py:52-55 __eq__ *)
Definition ct_eqb (a b : ciphertext) : bool :=
  (ct_pad a =? ct_pad b) && (ct_data a =? ct_data b).

(** elgamal.py:57-64 decrypt_known_product *)
Definition decrypt_known_product (E : env) (c : ciphertext) (product : Z) : res Z :=
  do inv <- mult_inv_p E product; dlog E (mult_p E [ct_data c; inv]).
(** elgamal.py:66-73 decrypt *)
Definition elgamal_decrypt (E : env) (c : ciphertext) (secret_key : Z) : res Z :=
  decrypt_known_product E c (pow_p E (ct_pad c) secret_key).
(** elgamal.py:75-85 decrypt_known_nonce *)
Definition decrypt_known_nonce (E : env) (c : ciphertext) (public_key nonce : Z) : res Z :=
  decrypt_known_product E c (pow_p E public_key nonce).
(** elgamal.py:87-96 partial_decrypt *)
Definition partial_decrypt (E : env) (c : ciphertext) (secret_key : Z) : Z :=
  pow_p E (ct_pad c) secret_key.
(** elgamal.py:98-102 crypto_hash *)
Definition ct_hash (E : env) (c : ciphertext) : Z := hash_elems E [HElem (ct_pad c); HElem (ct_data c)].

(** elgamal.py:161-171 elgamal_keypair_from_secret *)
Definition elgamal_keypair_from_secret (E : env) (a : Z) : option keypair :=
  if a <? 2 then None else Some {| kp_secret := a; kp_public := g_pow_p E a |}.
(** elgamal.py:183-190 elgamal_combine_public_keys *)
Definition elgamal_combine_public_keys (E : env) (keys : list Z) : Z := mult_p E keys.

(** elgamal.py:193-217 elgamal_encrypt; the message is a plain int and may be negative. *)
Definition elgamal_encrypt (E : env) (message nonce public_key : Z) : res (option ciphertext) :=
  if nonce =? 0 then Ok None
  else
    let pad := g_pow_p E nonce in
    do gpowp_m <- pow_p_int E (gg E) message;
    let pubkey_pow_n := pow_p E public_key nonce in
    Ok (Some (mkCt pad (mult_p E [gpowp_m; pubkey_pow_n]))).

(** elgamal.py:280-293 elgamal_add *)
Definition ct_mul (E : env) (a b : ciphertext) : ciphertext :=
  mkCt (mult_p E [ct_pad a; ct_pad b]) (mult_p E [ct_data a; ct_data b]).
Definition elgamal_add (E : env) (cs : list ciphertext) : res ciphertext :=
  match cs with
  | [] => Err AssertionError
  | c :: cs' => Ok (fold_left (ct_mul E) cs' c)
  end.

(** hmac.py:30-41 _fix_message_length *)
Definition fix_message_length (msg : list Z) (length start : Z) : res (list Z) :=
  do s <- to_bytes_le 4 start; do e <- to_bytes_le 4 length; Ok (s ++ msg ++ e).
(** hmac.py:10-27 get_hmac; length None or 0 means no framing *)
Definition get_hmac (E : env) (key message : list Z) (length : option Z) (start : Z) : res (list Z) :=
  match length with
  | Some l => if l =? 0 then Ok (hmac256 E key message)
              else do m <- fix_message_length message l start; Ok (hmac256 E key m)
  | None => Ok (hmac256 E key message)
  end.

Definition block_size : Z := 32.                                    (* elgamal.py:27 *)
(** elgamal.py:266-277 _get_chunks *)
Fixpoint chunks_of (n : nat) (l : list Z) : list (list Z) :=
  match n with O => [] | S k => firstn 32 l :: chunks_of k (skipn 32 l) end.
Definition get_chunks (message : list Z) : list (list Z) * Z :=
  let remainder := zlen message mod block_size in
  let message := if remainder =? 0 then message else message ++ zeros (block_size - remainder) in
  (chunks_of (Z.to_nat (zlen message / block_size)) message, zlen message * 8).

(** bytes([a ^ b for (a, b) in zip(block, data_key)]) *)
Fixpoint xor_zip (a b : list Z) : list Z :=
  match a, b with x :: a', y :: b' => Z.lxor x y :: xor_zip a' b' | _, _ => [] end.

(** the loop of elgamal.py:241-249 and 149-157: block i is xored with HMAC(.., start = i+1) *)
Fixpoint xor_blocks (E : env) (session_key seed : list Z) (bit_length i : Z) (bs : list (list Z))
  : res (list Z) :=
  match bs with
  | [] => Ok []
  | b :: bs' =>
    do data_key <- get_hmac E session_key seed (Some bit_length) (i + 1);
    do rest <- xor_blocks E session_key seed bit_length (i + 1) bs';
    Ok (xor_zip b data_key ++ rest)
  end.

Record hashed_ct := mkHct { h_pad : Z; h_data : string; h_mac : string }.   (* elgamal.py:105-120 *)

(** elgamal.py:220-263 hashed_elgamal_encrypt *)
Definition hashed_elgamal_encrypt (E : env) (message : list Z) (nonce public_key encryption_seed : Z)
  : res hashed_ct :=
  let pad := g_pow_p E nonce in
  let session_key := hash_elems E [HElem pad; HElem (pow_p E public_key nonce)] in
  let '(chunks, bit_length) := get_chunks message in
  let sk := to_hex_bytes session_key in
  let sd := to_hex_bytes encryption_seed in
  do data <- xor_blocks E sk sd bit_length 0 chunks;
  do mac_key <- get_hmac E sk sd (Some bit_length) 0;
  do mac <- get_hmac E mac_key (to_hex_bytes pad ++ data) None 0;
  Ok (mkHct pad (bytes_to_hex data) (bytes_to_hex mac)).

(** elgamal.py:122-158 HashedElGamalCiphertext.decrypt; None when the MAC does not match. *)
Definition hashed_decrypt (E : env) (c : hashed_ct) (secret_key encryption_seed : Z)
  : res (option (list Z)) :=
  let session_key := hash_elems E [HElem (h_pad c); HElem (pow_p E (h_pad c) secret_key)] in
  do data_bytes <- to_padded_bytes (h_data c) 512;
  let '(chunks, bit_length) := get_chunks data_bytes in
  let sk := to_hex_bytes session_key in
  let sd := to_hex_bytes encryption_seed in
  do mac_key <- get_hmac E sk sd (Some bit_length) 0;
  do m <- get_hmac E mac_key (to_hex_bytes (h_pad c) ++ data_bytes) None 0;
  if negb (String.eqb (bytes_to_hex m) (h_mac c)) then Ok None
  else do data <- xor_blocks E sk sd bit_length 0 chunks; Ok (Some data).
