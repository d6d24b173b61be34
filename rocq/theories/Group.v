(** * Group: model of constants.py and group.py (modular arithmetic). Definitions only. *)
From Verif Require Import Base.
From Coq Require Import Zpow_facts.

(** Everything the code reads from outside the modelled functions:
    the group constants (constants.py:66-84 get_constants, get_large_prime, get_small_prime,
    get_generator), SHA-256 as a function from the hashed text to the integer value of the digest
    (hash.py:71,102), HMAC-SHA256 (hmac.py:27), the discrete-log limit
    (discrete_log.py:13,159 _max_exponent, settable through set_max_exponent) and the parts of the
    json library that are not spelled out in the model (serialize.py:68-87). *)
Record env := mkEnv {
  pp : Z;                              (* large prime p *)
  qq : Z;                              (* small prime q *)
  gg : Z;                              (* generator g *)
  sha : string -> Z;                   (* big-endian value of SHA-256 of the text *)
  hmac256 : list Z -> list Z -> list Z;(* HMAC-SHA256 key message, bytes as 0..255 *)
  dmax : Z;                            (* DiscreteLog._max_exponent *)
  jstr : string -> string;             (* json.dumps of a str: the quoted, escaped literal *)
  jcoord : list Z -> res string        (* from_raw(CoordinateData, bytes) on bytes that are not a text
                                          this library's to_raw produces: the coordinate's hex digits,
                                          or the exception raised *)
}.

(** constants.py:51-56: the test constant sets (p, q, g); LARGE_TEST is what
    PRIME_OPTION=TestOnly selects (constants.py:73-76). *)
Definition extra_small_p := 157.  Definition extra_small_q := 13.    Definition extra_small_g := 16.
Definition small_p := 503.        Definition small_q := 251.         Definition small_g := 5.
Definition medium_p := 65267.     Definition medium_q := 32633.      Definition medium_g := 3.
Definition large_test_p := 18446744073704586917.
Definition large_test_q := 65521. Definition large_test_g := 15463152587872997502.

(** big_integer.py / group.py:23-29: constructing an ElementModQ with the bounds check. *)
Definition in_bounds (bound x : Z) : bool := (0 <=? x) && (x <? bound).
Definition ElementModQ (E : env) (x : Z) : res Z :=
  if in_bounds (qq E) x then Ok x else Err OverflowError.
Definition ElementModP (E : env) (x : Z) : res Z :=
  if in_bounds (pp E) x then Ok x else Err OverflowError.

(** group.py:36-50 is_in_bounds, is_in_bounds_no_zero *)
Definition is_in_bounds_q (E : env) (x : Z) : bool := in_bounds (qq E) x.
Definition is_in_bounds_p (E : env) (x : Z) : bool := in_bounds (pp E) x.
Definition is_in_bounds_no_zero_q (E : env) (x : Z) : bool := (1 <=? x) && (x <? qq E).

(** group.py:110-119 int_to_q, 134-143 int_to_p: None instead of OverflowError. *)
Definition int_to_q (E : env) (x : Z) : option Z := if in_bounds (qq E) x then Some x else None.
Definition int_to_p (E : env) (x : Z) : option Z := if in_bounds (pp E) x then Some x else None.

(** gmpy2.powmod(b, e, m) for e >= 0: square-and-multiply with reduction. *)
Definition powmod (b e m : Z) : Z := Zpow_mod b e m.

(** gmpy2.invert(b, m): extended Euclid; ZeroDivisionError when gcd(b, m) <> 1.
    The fuel 2*log2(m)+3 is proved sufficient in GroupFacts.v. *)
Fixpoint egcd (fuel : nat) (a b : Z) : Z * Z * Z :=
  match fuel with
  | O => (a, 1, 0)
  | S n => if b =? 0 then (a, 1, 0)
           else let '(d, u, v) := egcd n b (a mod b) in (d, v, u - (a / b) * v)
  end.
Definition invert (b m : Z) : res Z :=
  let '(d, u, _) := egcd (Z.to_nat (2 * Z.log2 m + 4)) (b mod m) m in
  if d =? 1 then Ok (u mod m) else Err ZeroDivisionError.

(** group.py:146-152 add_q.  The final ElementModQ(...) bounds check cannot fail because the
    loop reduces modulo q (proved: add_q_range), so no exception branch is modelled here or in the
    other reducing operations below. *)
Definition add_q (E : env) (elems : list Z) : Z :=
  fold_left (fun s e => (s + e) mod qq E) elems 0.

(** group.py:155-159 *)
Definition a_minus_b_q (E : env) (a b : Z) : Z := (a - b) mod qq E.

(** group.py:227-237 mult_p; an empty call gives ElementModP(1). *)
Definition mult_p (E : env) (elems : list Z) : Z :=
  fold_left (fun s x => (s * x) mod pp E) elems 1.
(** group.py:240-250 mult_q *)
Definition mult_q (E : env) (elems : list Z) : Z :=
  fold_left (fun s x => (s * x) mod qq E) elems 1.

(** group.py:162-166 div_p *)
Definition div_p (E : env) (a b : Z) : res Z :=
  do inverse <- invert b (pp E); Ok (mult_p E [a; inverse]).
(** group.py:169-173 div_q *)
Definition div_q (E : env) (a b : Z) : res Z :=
  do inverse <- invert b (qq E); Ok (mult_q E [a; inverse]).

(** group.py:176-179 negate_q: the value q - a is NOT reduced, so a = 0 overflows. *)
Definition negate_q (E : env) (a : Z) : res Z := ElementModQ E (qq E - a).

(** group.py:182-189 *)
Definition a_plus_bc_q (E : env) (a b c : Z) : Z := (a + b * c) mod qq E.

(** group.py:192-200 mult_inv_p: assert e <> 0, then powmod(e, -1, p). *)
Definition mult_inv_p (E : env) (e : Z) : res Z :=
  if e =? 0 then Err AssertionError else invert e (pp E).

(** group.py:203-212 pow_p for a non-negative exponent (all element exponents). *)
Definition pow_p (E : env) (b e : Z) : Z := powmod b e (pp E).
(** group.py:215-224 pow_q for a non-negative exponent. *)
Definition pow_q (E : env) (b e : Z) : Z := powmod b e (qq E).
(** group.py:203-212 pow_p when the exponent is a plain (possibly negative) int:
    gmpy2.powmod inverts the base first. *)
Definition pow_p_int (E : env) (b e : Z) : res Z :=
  if e <? 0 then do i <- invert b (pp E); Ok (powmod i (- e) (pp E))
  else Ok (pow_p E b e).
(** group.py:253-259 *)
Definition g_pow_p (E : env) (e : Z) : Z := pow_p E (gg E) e.

(** group.py:70-73 is_valid_residue *)
Definition is_valid_residue (E : env) (x : Z) : bool :=
  is_in_bounds_p E x && (pow_p E x (qq E) =? 1).

(** group.py:271-282 rand_range_q: keep drawing until the draw is at least start.
    The stream of randbelow(q) results is an argument; None means the finite stream given was
    exhausted (the real loop would continue drawing). *)
Fixpoint rand_range_q_loop (start random : Z) (draws : list Z) : option Z :=
  if random <? start then
    match draws with [] => None | d :: ds => rand_range_q_loop start d ds end
  else Some random.
Definition rand_range_q (start : Z) (draws : list Z) : option Z := rand_range_q_loop start 0 draws.
