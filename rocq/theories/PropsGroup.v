(** * Property theorems C01-C04: group arithmetic, element codec, hashing, nonces. *)
From Verif Require Import Base Group Spec Tiny GroupFacts Codec CodecFacts Hash HashFacts ZKFacts GroupThms.
From Coq Require Import Znumtheory.

(** ** C01 Group arithmetic is closed and exact *)
Theorem C01_ops_mod_q : forall E, valid_env E -> forall l a b c n,
  add_q E l = sumZ l mod qq E /\ mult_q E l = prodZ l mod qq E /\
  a_minus_b_q E a b = (a - b) mod qq E /\ a_plus_bc_q E a b c = (a + b * c) mod qq E /\
  pow_q E a n = a ^ n mod qq E /\
  0 <= add_q E l < qq E /\ 0 <= mult_q E l < qq E /\ 0 <= a_minus_b_q E a b < qq E /\
  0 <= a_plus_bc_q E a b c < qq E /\ 0 <= pow_q E a n < qq E.
Proof.
  intros E HE l a b c n.
  exact (conj (add_q_eq E HE l) (conj (mult_q_eq E HE l) (conj eq_refl (conj eq_refl (conj (pow_q_eq E HE a n)
    (conj (add_q_range E HE l) (conj (mult_q_range E HE l) (conj (a_minus_b_q_range E HE a b)
    (conj (a_plus_bc_q_range E HE a b c) (pow_q_range E HE a n)))))))))).
Qed.
Print Assumptions C01_ops_mod_q.

Theorem C01_ops_mod_p : forall E, valid_env E -> forall l a n,
  mult_p E l = prodZ l mod pp E /\ pow_p E a n = a ^ n mod pp E /\ g_pow_p E n = gg E ^ n mod pp E /\
  0 <= mult_p E l < pp E /\ 0 <= pow_p E a n < pp E.
Proof.
  intros E HE l a n.
  exact (conj (mult_p_eq E HE l) (conj (pow_p_eq E HE a n) (conj (pow_p_eq E HE (gg E) n)
    (conj (mult_p_range E HE l) (pow_p_range E HE a n))))).
Qed.
Print Assumptions C01_ops_mod_p.

(** inversion and division modulo p: exact for every divisor that is not a multiple of p,
    an exception (never a wrong value) otherwise *)
Theorem C01_inverse_and_division : forall E, valid_env E -> forall a b,
  (b mod pp E <> 0 ->
     (exists i, mult_inv_p E b = Ok i /\ 0 <= i < pp E /\ (b * i) mod pp E = 1) /\
     (exists d, div_p E a b = Ok d /\ 0 <= d < pp E /\ (d * b) mod pp E = a mod pp E)) /\
  (b mod pp E = 0 ->
     (exists x, mult_inv_p E b = Err x) /\ div_p E a b = Err ZeroDivisionError).
Proof. exact inverse_and_division. Qed.
Print Assumptions C01_inverse_and_division.

Theorem C01_division_mod_q : forall E, valid_env E -> forall a b,
  (b mod qq E <> 0 -> exists d, div_q E a b = Ok d /\ 0 <= d < qq E /\ (d * b) mod qq E = a mod qq E) /\
  (b mod qq E = 0 -> div_q E a b = Err ZeroDivisionError).
Proof. exact division_q. Qed.
Print Assumptions C01_division_mod_q.

(** negation is exact for every non-zero element ... *)
Theorem C01_negate_nonzero : forall E, valid_env E -> forall a, 0 < a < qq E ->
  exists n, negate_q E a = Ok n /\ 0 <= n < qq E /\ (a + n) mod qq E = 0.
Proof. exact negate_nonzero. Qed.
Print Assumptions C01_negate_nonzero.
(** ... but raises OverflowError on the valid element 0 *)
Theorem C01_negate_zero_refuted : forall E, valid_env E -> negate_q E 0 = Err OverflowError.
Proof. exact negate_zero. Qed.
Print Assumptions C01_negate_zero_refuted.

(** a negative integer exponent (elgamal_encrypt of a negative message) means the inverse *)
Theorem C01_pow_negative : forall E, valid_env E -> forall b n, b mod pp E <> 0 ->
  exists x, pow_p_int E b n = Ok x /\ 0 <= x < pp E /\
    (n < 0 -> (x * b ^ (- n)) mod pp E = 1) /\ (0 <= n -> x = b ^ n mod pp E).
Proof. exact pow_p_int_spec. Qed.
Print Assumptions C01_pow_negative.

(** is_valid_residue decides membership in the order-q subgroup, and that subgroup is exactly the
    powers of the generator *)
Theorem C01_residue_test_is_subgroup_membership : forall E, valid_env E -> forall x,
  is_valid_residue E x = true <-> exists e, 0 <= e < qq E /\ x = gg E ^ e mod pp E.
Proof. exact residue_iff_power. Qed.
Print Assumptions C01_residue_test_is_subgroup_membership.

(** rand_range_q never returns a value below the requested start *)
Theorem C01_rand_range : forall start draws r,
  rand_range_q start draws = Some r -> start <= r /\ (r = 0 \/ In r draws).
Proof. exact rand_range_spec. Qed.
Print Assumptions C01_rand_range.

Example C01_nonvacuous : valid_env tiny /\ valid_env medium /\ 5 mod pp tiny <> 0 /\
  div_p tiny 3 5 = Ok 32 /\ mult_inv_p tiny 157 = Err ZeroDivisionError /\
  mult_inv_p tiny 0 = Err AssertionError /\ negate_q tiny 5 = Ok 8 /\
  is_valid_residue tiny 16 = true /\ is_valid_residue tiny 2 = false /\
  rand_range_q 3 [1; 2; 9] = Some 9.
Proof. split; [exact tiny_valid|]. split; [exact medium_valid|]. vm_compute. repeat split; congruence. Qed.

(** ** C02 Element construction and hex codec *)
Theorem C02_construct_iff_in_range : forall E x,
  (ElementModQ E x = Ok x <-> 0 <= x < qq E) /\ (ElementModQ E x = Err OverflowError <-> ~ 0 <= x < qq E) /\
  (ElementModP E x = Ok x <-> 0 <= x < pp E) /\ (ElementModP E x = Err OverflowError <-> ~ 0 <= x < pp E) /\
  (int_to_q E x = Some x <-> 0 <= x < qq E) /\ (int_to_q E x = None <-> ~ 0 <= x < qq E) /\
  (int_to_p E x = Some x <-> 0 <= x < pp E) /\ (int_to_p E x = None <-> ~ 0 <= x < pp E).
Proof. exact construct_iff. Qed.
Print Assumptions C02_construct_iff_in_range.

Theorem C02_hex_round_trip : forall n, 0 <= n ->
  hex_to_int (int_to_hex n) = Ok n /\
  (let l := list_ascii_of_string (int_to_hex n) in
   Nat.even (length l) = true /\ (2 <= length l)%nat /\ forallb is_upper_hex l = true).
Proof. exact (fun n Hn => conj (hex_roundtrip n Hn) (int_to_hex_shape n Hn)). Qed.
Print Assumptions C02_hex_round_trip.

(** parsing any string of hexadecimal digits (either case): its positional value, except that an
    odd number of digits is accepted only with a leading zero *)
Theorem C02_hex_parse : forall s ds, all_hex (list_ascii_of_string s) = Some ds ->
  hex_to_int s =
    if Nat.odd (length ds) && negb (match ds with 0 :: _ => true | _ => false end)
    then Err ValueError else Ok (fold_left (fun acc d => acc * 16 + d) ds 0).
Proof. exact hex_to_int_parse. Qed.
Print Assumptions C02_hex_parse.

Theorem C02_hex_to_bounded : forall bound s n, hex_to_int s = Ok n ->
  (hex_to_bounded bound s = Ok (Some n) <-> 0 <= n < bound) /\
  (hex_to_bounded bound s = Ok None <-> ~ 0 <= n < bound).
Proof. exact hex_to_bounded_spec. Qed.
Print Assumptions C02_hex_to_bounded.

(** to_hex_bytes is the byte form of to_hex and determines the value *)
Theorem C02_hex_bytes : forall n, 0 <= n ->
  fromhex (int_to_hex n) = Ok (to_hex_bytes n) /\ int_from_bytes (to_hex_bytes n) = n.
Proof. exact (fun n Hn => conj (to_hex_bytes_spec n Hn) (to_hex_bytes_value n Hn)). Qed.
Print Assumptions C02_hex_bytes.

Example C02_nonvacuous : int_to_hex 4096 = "1000"%string /\ int_to_hex 5 = "05"%string /\
  int_to_hex 0 = "00"%string /\ hex_to_int "0ABC" = Ok 2748 /\ hex_to_int "abc" = Err ValueError /\
  hex_to_int "0ab" = Ok 171 /\ ElementModQ tiny 13 = Err OverflowError /\ ElementModQ tiny 12 = Ok 12 /\
  all_hex (list_ascii_of_string "0aB") = Some [0; 10; 11].
Proof. repeat split. Qed.

(** ** C03 Hash inputs are unambiguous *)
(** Sequences following one pattern of kinds (element, hash of an object, separator-free string,
    integer, None, optional element, list): equal hashes mean equal sequences, or two different texts
    that were actually hashed for them collide under SHA-256 mod q. *)
Theorem C03_equal_hash_equal_input : forall E, 0 < qq E -> forall tys l1 l2,
  Forall2 (fun t x => has_ty t x = true) tys l1 ->
  Forall2 (fun t x => has_ty t x = true) tys l2 ->
  hash_elems E l1 = hash_elems E l2 ->
  l1 = l2 \/
  exists s t, In s (texts E l1) /\ In t (texts E l2) /\ s <> t /\ sha E s mod qq E = sha E t mod qq E.
Proof. exact (fun E Hq tys l1 l2 => hash_elems_inj E Hq tys l1 l2). Qed.
Print Assumptions C03_equal_hash_equal_input.

(** what is missing: strings containing the separator and values of different kinds do clash *)
Theorem C03_ambiguous_refuted : forall E,
  hash_elems E [HStr "a|b"] = hash_elems E [HStr "a"; HStr "b"] /\
  hash_elems E [HNone] = hash_elems E [HList []] /\
  hash_elems E [HNone] = hash_elems E [HStr "null"] /\
  hash_elems E [HElem 171] = hash_elems E [HStr "AB"] /\
  hash_elems E [HInt 7] = hash_elems E [HStr "7"].
Proof. exact hash_ambiguous. Qed.
Print Assumptions C03_ambiguous_refuted.

(** the hash is always a valid ElementModQ *)
Theorem C03_hash_in_range : forall E, valid_env E -> forall l, 0 <= hash_elems E l < qq E.
Proof. exact hash_range. Qed.
Print Assumptions C03_hash_in_range.

Example C03_nonvacuous :
  Forall2 (fun t x => has_ty t x = true) [TElem; TStr; TList THash; TOptElem]
    [HElem 5; HStr "contest-1"; HList [HHash 3; HHash 4]; HNone] /\
  hash_text tiny [HElem 5; HStr "contest-1"; HNone] = "|05|contest-1|null|"%string.
Proof. split; [repeat constructor|reflexivity]. Qed.

(** ** C04 Nonce sequences are deterministic and consistent *)
Theorem C04_index_and_headers : forall E nseed i headers,
  (0 <= i -> nonce_get E nseed i = Ok (hash_elems E [HElem nseed; HInt i])) /\
  (i < 0 -> nonce_get E nseed i = Err TypeError) /\
  (0 <= i -> nonce_with_headers E nseed i headers = Ok (hash_elems E (HElem nseed :: HInt i :: map HStr headers))) /\
  (i < 0 -> nonce_with_headers E nseed i headers = Err TypeError).
Proof. exact nonce_index. Qed.
Print Assumptions C04_index_and_headers.

(** a slice start:stop with the default step is the list of the values at start, start+1, ..., stop-1 *)
Theorem C04_slice_agrees_with_index : forall E nseed start stop, 0 <= start ->
  exists l, nonce_slice E nseed (Some start) (Some stop) None = Ok l /\
    Z.of_nat (length l) = Z.max 0 (stop - start) /\
    forall k v, nth_error l k = Some v -> nonce_get E nseed (start + Z.of_nat k) = Ok v.
Proof. exact nonce_slice_index. Qed.
Print Assumptions C04_slice_agrees_with_index.

(** any slice with a step: element k is the value at start + k*step; unbounded slices are refused *)
Theorem C04_slice_step : forall E nseed start stop step l,
  (forall k v, nonce_slice E nseed start (Some stop) step = Ok l -> nth_error l k = Some v ->
     nonce_get E nseed (match start with Some s => s | None => 0 end
        + Z.of_nat k * match step with Some s => if s =? 0 then 1 else s | None => 1 end) = Ok v) /\
  nonce_slice E nseed start None step = Err TypeError.
Proof. exact nonce_slice_step. Qed.
Print Assumptions C04_slice_step.

(** distinct indices and distinct headers give distinct values unless SHA-256 mod q collides *)
Theorem C04_distinct_indices : forall E, 0 < qq E -> forall s1 s2 i j, 0 <= s1 -> 0 <= s2 ->
  nonce_at E s1 i = nonce_at E s2 j -> (s1 = s2 /\ i = j) \/
  collide E (hash_text E [HElem s1; HInt i]) (hash_text E [HElem s2; HInt j]).
Proof. exact nonce_distinct. Qed.
Print Assumptions C04_distinct_indices.

Example C04_nonvacuous : nonce_slice tiny 5 (Some 1) (Some 4) None
    = Ok [nonce_at tiny 5 1; nonce_at tiny 5 2; nonce_at tiny 5 3] /\
  nonce_slice tiny 5 None (Some 4) (Some 2) = Ok [nonce_at tiny 5 0; nonce_at tiny 5 2].
Proof. split; reflexivity. Qed.
