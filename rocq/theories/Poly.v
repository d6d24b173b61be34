(** * Poly: model of election_polynomial.py.  Definitions only. *)
From Verif Require Import Base Group Codec Hash DLog ElGamal ZK.

(** election_polynomial.py:26-39, 42-52 *)
Record coefficient := { co_value : Z; co_commitment : Z; co_proof : schnorr }.
Definition polynomial := list coefficient.
(** 54-60 get_commitments, get_proofs *)
Definition get_commitments (pl : polynomial) : list Z := map co_commitment pl.
Definition get_proofs (pl : polynomial) : list schnorr := map co_proof pl.

(** election_polynomial.py:63-85 generate_polynomial.  The secret values (nonce + i, or rand_q) and
    the Schnorr nonces (rand_q) are passed in. *)
Definition make_coefficient (E : env) (value r : Z) : coefficient :=
  let commitment := g_pow_p E value in
  {| co_value := value; co_commitment := commitment;
     co_proof := make_schnorr_proof E {| kp_secret := value; kp_public := commitment |} r |}.
Definition generate_polynomial (E : env) (draws : list (Z * Z)) : polynomial :=
  map (fun d => make_coefficient E (fst d) (snd d)) draws.
(** line 78 with a nonce: value_i = add_q(nonce, i) *)
Definition nonce_values (E : env) (n : nat) (nonce : Z) : list Z :=
  map (fun i => add_q E [nonce; Z.of_nat i]) (seq 0 n).

(** election_polynomial.py:88-106 compute_polynomial_coordinate; ElementModQ(exponent_modifier)
    raises when it is not in [0, q). *)
Fixpoint coord_loop (E : env) (x i acc : Z) (cs : list Z) : Z :=
  match cs with
  | [] => acc
  | a :: cs' => coord_loop E x (i + 1) (add_q E [acc; mult_q E [a; pow_q E x i]]) cs'
  end.
Definition compute_polynomial_coordinate (E : env) (exponent_modifier : Z) (pl : polynomial) : res Z :=
  do x <- ElementModQ E exponent_modifier;
  Ok (coord_loop E x 0 0 (map co_value pl)).

(** election_polynomial.py:120-131 compute_lagrange_coefficient *)
Definition compute_lagrange_coefficient (E : env) (coordinate : Z) (degrees : list Z) : res Z :=
  let numerator := mult_q E degrees in
  let denominator := mult_q E (map (fun degree => degree - coordinate) degrees) in
  div_q E numerator denominator.

(** election_polynomial.py:134-157 verify_polynomial_coordinate; note pow_p in line 152: the
    exponent x^i is reduced modulo p. *)
Fixpoint verify_loop (E : env) (x i acc : Z) (commitments : list Z) : Z :=
  match commitments with
  | [] => acc
  | k :: ks => verify_loop E x (i + 1) (mult_p E [acc; pow_p E k (pow_p E x i)]) ks
  end.
Definition verify_polynomial_coordinate (E : env) (coordinate exponent_modifier : Z)
  (commitments : list Z) : res bool :=
  do x <- ElementModQ E exponent_modifier;
  Ok (g_pow_p E coordinate =? verify_loop E x 0 1 commitments).
