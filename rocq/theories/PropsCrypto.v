(** * Properties C05-C15, C17-C19: encryption, proofs, secret sharing, padding, discrete log. *)
From Verif Require Import Base Group Spec GroupFacts Codec CodecFacts Hash HashFacts DLog DLogFacts ElGamal ElGamalFacts.
From Verif Require Import ZK ZKFacts Poly PolyFacts ZKSound CryptoThms Tiny.
From Coq Require Import Permutation.

(** ** C05 ElGamal decryption inverts encryption *)
Theorem C05_encrypt_is_encryption : forall E, valid_env E -> forall m r K,
  in_subgroup E K -> 0 < r -> 0 <= m ->
  exists c, elgamal_encrypt E m r K = Ok (Some c) /\ is_encryption E K r m (ct_pad c) (ct_data c).
Proof. exact encrypt_ok. Qed.
Print Assumptions C05_encrypt_is_encryption.

Theorem C05_zero_nonce_refused : forall E m K, elgamal_encrypt E m 0 K = Ok None.
Proof. reflexivity. Qed.
Print Assumptions C05_zero_nonce_refused.

Theorem C05_decrypt_inverts_encrypt : forall E, valid_env E -> forall s r m c,
  0 <= s -> 0 <= r -> 0 <= m < qq E -> m <= dmax E ->
  is_encryption E (gexp E s) r m (ct_pad c) (ct_data c) ->
  elgamal_decrypt E c s = Ok m /\
  decrypt_known_nonce E c (gexp E s) r = Ok m /\
  decrypt_known_product E c (gexp E s ^ r mod pp E) = Ok m.
Proof. exact decrypt_three_ways. Qed.
Print Assumptions C05_decrypt_inverts_encrypt.

(** whatever the size of the message, an answer is never wrong modulo q *)
Theorem C05_answer_is_right : forall E, valid_env E -> forall s r m c v,
  0 <= s -> 0 <= r -> 0 <= m -> is_encryption E (gexp E s) r m (ct_pad c) (ct_data c) ->
  elgamal_decrypt E c s = Ok v -> v mod qq E = m mod qq E.
Proof. exact decrypt_answer. Qed.
Print Assumptions C05_answer_is_right.

(** a ciphertext determines its plaintext *)
Theorem C05_plaintext_unique : forall E, valid_env E -> forall s r r' m m' c,
  0 <= s -> 0 <= r -> 0 <= r' -> 0 <= m -> 0 <= m' ->
  is_encryption E (gexp E s) r m (ct_pad c) (ct_data c) ->
  is_encryption E (gexp E s) r' m' (ct_pad c) (ct_data c) -> m mod qq E = m' mod qq E.
Proof. exact enc_unique. Qed.
Print Assumptions C05_plaintext_unique.

Example C05_nonvacuous : in_subgroup medium (gexp medium 12345) /\
  exists c, elgamal_encrypt medium 777 4321 (gexp medium 12345) = Ok (Some c) /\
    elgamal_decrypt medium c 12345 = Ok 777.
Proof.
  split; [apply (gexp_subgroup medium medium_valid); lia|].
  destruct (encrypt_ok medium medium_valid 777 4321 (gexp medium 12345)) as [c [H1 H2]];
    try lia; [apply (gexp_subgroup medium medium_valid); lia|].
  exists c. split; [exact H1|].
  refine (proj1 (decrypt_three_ways medium medium_valid 12345 4321 777 c _ _ _ _ H2)); cbn; lia.
Qed.

(** ** C06 Homomorphic addition *)
Theorem C06_sum_is_encryption_of_sum : forall E, valid_env E -> forall K (l : list (ciphertext * Z * Z)),
  in_subgroup E K -> l <> [] ->
  Forall (fun '(c, r, m) => 0 <= r /\ 0 <= m /\ is_encryption E K r m (ct_pad c) (ct_data c)) l ->
  exists c, elgamal_add E (map (fun '(c, _, _) => c) l) = Ok c /\
    is_encryption E K (sumZ (map (fun '(_, r, _) => r) l)) (sumZ (map (fun '(_, _, m) => m) l))
      (ct_pad c) (ct_data c).
Proof. exact add_encryptions. Qed.
Print Assumptions C06_sum_is_encryption_of_sum.

Theorem C06_order_irrelevant : forall E, valid_env E -> forall l1 l2, Permutation l1 l2 ->
  Forall (fun c => 0 <= ct_pad c < pp E /\ 0 <= ct_data c < pp E) l1 ->
  elgamal_add E l1 = elgamal_add E l2.
Proof. exact add_order. Qed.
Print Assumptions C06_order_irrelevant.

Theorem C06_grouping_irrelevant : forall E, valid_env E -> forall l1 l2, l1 <> [] -> l2 <> [] ->
  Forall (fun c => 0 <= ct_pad c < pp E /\ 0 <= ct_data c < pp E) (l1 ++ l2) ->
  exists a b, elgamal_add E l1 = Ok a /\ elgamal_add E l2 = Ok b /\
    elgamal_add E [a; b] = elgamal_add E (l1 ++ l2).
Proof. exact add_grouping. Qed.
Print Assumptions C06_grouping_irrelevant.

Theorem C06_empty_rejected : forall E, elgamal_add E [] = Err AssertionError.
Proof. reflexivity. Qed.
Print Assumptions C06_empty_rejected.

Example C06_nonvacuous :
  let c1 := mkCt (gexp tiny 3) ((gexp tiny 1 * gexp tiny 15) mod 157) in
  let c2 := mkCt (gexp tiny 4) ((gexp tiny 2 * gexp tiny 20) mod 157) in
  Forall (fun '(c, r, m) => 0 <= r /\ 0 <= m /\ is_encryption tiny (gexp tiny 5) r m (ct_pad c) (ct_data c))
    [(c1, 3, 1); (c2, 4, 2)] /\
  exists c, elgamal_add tiny [c1; c2] = Ok c /\ elgamal_decrypt tiny c 5 = Ok 3.
Proof.
  split; [repeat constructor; vm_compute; congruence|]. eexists; split; [reflexivity|]. vm_compute; reflexivity.
Qed.

(** ** C07 Schnorr completeness *)
Theorem C07_honest_schnorr_accepted : forall E, valid_env E -> forall s r,
  0 <= s < qq E -> 0 <= r < qq E ->
  schnorr_is_valid E (make_schnorr_proof E {| kp_secret := s; kp_public := gexp E s |} r) = true.
Proof.
  intros E HE s r Hs Hr. unfold gexp. rewrite <- (pow_p_eq E HE). exact (schnorr_complete E HE s r Hs Hr).
Qed.
Print Assumptions C07_honest_schnorr_accepted.
Theorem C07_keypair : forall E, valid_env E -> forall a kp, elgamal_keypair_from_secret E a = Some kp <->
  2 <= a /\ kp = {| kp_secret := a; kp_public := gexp E a |}.
Proof. exact keypair_iff. Qed.
Print Assumptions C07_keypair.
Example C07_nonvacuous :
  schnorr_is_valid tiny (make_schnorr_proof tiny {| kp_secret := 7; kp_public := gexp tiny 7 |} 4) = true /\
  schnorr_is_valid tiny (make_schnorr_proof tiny {| kp_secret := 7; kp_public := gexp tiny 8 |} 5) = false.
Proof. split; vm_compute; reflexivity. Qed.

(** ** C08 Schnorr soundness: the exact acceptance condition, and extraction from two transcripts
    (the second under a reprogrammed hash function, as in the forking argument) *)
Theorem C08_accepts_exactly : forall E, valid_env E -> forall k h c u,
  schnorr_is_valid E (mkSchnorr k h c u) = true <->
  in_subgroup E k /\ 0 <= h < pp E /\ 0 <= u < qq E /\ hash_elems E [HElem k; HElem h] = c /\
  (gg E) ^ u mod pp E = (h * k ^ c) mod pp E.
Proof. exact schnorr_accept_iff. Qed.
Print Assumptions C08_accepts_exactly.

Theorem C08_two_transcripts_give_the_secret : forall E E', valid_env E -> same_group E E' ->
  forall k h c c' u u',
  schnorr_is_valid E (mkSchnorr k h c u) = true -> schnorr_is_valid E' (mkSchnorr k h c' u') = true ->
  c <> c' -> exists s, 0 <= s < qq E /\ (s * (c - c')) mod qq E = (u - u') mod qq E /\ k = gexp E s.
Proof. exact schnorr_extract. Qed.
Print Assumptions C08_two_transcripts_give_the_secret.

Example C08_nonvacuous :
  let kp := {| kp_secret := 7; kp_public := gexp tiny 7 |} in
  let p1 := make_schnorr_proof tiny kp 4 in let p2 := make_schnorr_proof tiny' kp 4 in
  same_group tiny tiny' /\ schnorr_is_valid tiny p1 = true /\ schnorr_is_valid tiny' p2 = true /\
  s_key p1 = s_key p2 /\ s_com p1 = s_com p2 /\ s_chal p1 <> s_chal p2.
Proof. vm_compute. repeat split; congruence. Qed.

(** ** C09 Disjunctive completeness.  Whatever the seed, either an accepted proof is produced, or the
    plaintext is 1 and the first nonce drawn from the seed is 0, when OverflowError is raised. *)
Theorem C09_accepted_or_zero_nonce : forall E, valid_env E -> forall m r k q seed c,
  (m = 0 \/ m = 1) -> 0 <= r < qq E -> in_subgroup E k ->
  is_encryption E k r m (ct_pad c) (ct_data c) ->
  (exists pf, make_disjunctive E c r k q seed m = Ok pf /\ disj_is_valid E pf c k q = true) \/
  (make_disjunctive E c r k q seed m = Err OverflowError /\ m = 1 /\ hnonce E seed disj_header 0 = 0).
Proof. exact disj_exact. Qed.
Print Assumptions C09_accepted_or_zero_nonce.

Theorem C09_honest_disjunctive_accepted : forall E, valid_env E -> forall m r k q seed c,
  (m = 0 \/ m = 1) -> 0 <= r < qq E -> in_subgroup E k ->
  is_encryption E k r m (ct_pad c) (ct_data c) ->
  (m = 0 \/ hnonce E seed disj_header 0 <> 0) ->
  exists pf, make_disjunctive E c r k q seed m = Ok pf /\ disj_is_valid E pf c k q = true.
Proof. exact disj_complete. Qed.
Print Assumptions C09_honest_disjunctive_accepted.

Theorem C09_zero_nonce_raises_refuted : exists E seed, valid_env E /\ 0 <= seed < qq E /\
  forall c r k q, make_disjunctive E c r k q seed 1 = Err OverflowError.
Proof. exact disj_zero_witness. Qed.
Print Assumptions C09_zero_nonce_raises_refuted.

Theorem C09_other_plaintext_rejected : forall E c r k q seed m, ~ (m = 0 \/ m = 1) ->
  make_disjunctive E c r k q seed m = Err AssertionError.
Proof. exact disj_other. Qed.
Print Assumptions C09_other_plaintext_rejected.

Example C09_nonvacuous : in_subgroup tiny (gexp tiny 5) /\
  is_encryption tiny (gexp tiny 5) 3 1 (gexp tiny 3) ((16 * gexp tiny 15) mod 157) /\
  hnonce tiny 4 disj_header 0 <> 0.
Proof. split; [apply (gexp_subgroup tiny tiny_valid); lia|]. vm_compute. repeat split; congruence. Qed.

(** ** C10 Disjunctive soundness *)
Theorem C10_accepts_exactly : forall E, valid_env E -> forall a0 b0 a1 b1 c0 c1 c v0 v1 m k q,
  disj_is_valid E (mkDisj a0 b0 a1 b1 c0 c1 c v0 v1) m k q = true <->
  (in_subgroup E (ct_pad m) /\ in_subgroup E (ct_data m)) /\
  (in_subgroup E a0 /\ in_subgroup E b0 /\ in_subgroup E a1 /\ in_subgroup E b1) /\
  (0 <= c0 < qq E /\ 0 <= c1 < qq E /\ 0 <= v0 < qq E /\ 0 <= v1 < qq E) /\
  c = hash_elems E [HElem q; HElem (ct_pad m); HElem (ct_data m); HElem a0; HElem b0; HElem a1; HElem b1] /\
  (c0 + c1) mod qq E = c /\
  (gg E) ^ v0 mod pp E = (a0 * (ct_pad m) ^ c0) mod pp E /\
  (gg E) ^ v1 mod pp E = (a1 * (ct_pad m) ^ c1) mod pp E /\
  k ^ v0 mod pp E = (b0 * (ct_data m) ^ c0) mod pp E /\
  ((gg E) ^ c1 * k ^ v1) mod pp E = (b1 * (ct_data m) ^ c1) mod pp E.
Proof. exact disj_accept_iff. Qed.
Print Assumptions C10_accepts_exactly.

Theorem C10_two_transcripts_encrypt_zero_or_one : forall E E', valid_env E -> same_group E E' ->
  forall m k qh qh' a0 b0 a1 b1 c0 c1 c v0 v1 c0' c1' c' v0' v1', in_subgroup E k ->
  disj_is_valid E (mkDisj a0 b0 a1 b1 c0 c1 c v0 v1) m k qh = true ->
  disj_is_valid E' (mkDisj a0 b0 a1 b1 c0' c1' c' v0' v1') m k qh' = true ->
  c <> c' ->
  exists r x, 0 <= r < qq E /\ (x = 0 \/ x = 1) /\ is_encryption E k r x (ct_pad m) (ct_data m).
Proof. exact disj_extract. Qed.
Print Assumptions C10_two_transcripts_encrypt_zero_or_one.

(** in particular the holder of the key decrypts such a ciphertext to 0 or 1 *)
Theorem C10_decrypts_to_zero_or_one : forall E E', valid_env E -> same_group E E' -> 1 <= dmax E ->
  forall m s qh qh' a0 b0 a1 b1 c0 c1 c v0 v1 c0' c1' c' v0' v1', 0 <= s ->
  disj_is_valid E (mkDisj a0 b0 a1 b1 c0 c1 c v0 v1) m (gexp E s) qh = true ->
  disj_is_valid E' (mkDisj a0 b0 a1 b1 c0' c1' c' v0' v1') m (gexp E s) qh' = true ->
  c <> c' -> elgamal_decrypt E m s = Ok 0 \/ elgamal_decrypt E m s = Ok 1.
Proof. exact disj_decrypts. Qed.
Print Assumptions C10_decrypts_to_zero_or_one.

Example C10_nonvacuous :
  let c := mkCt (gexp tiny 3) ((16 * gexp tiny 15) mod 157) in
  match make_disjunctive tiny c 3 (gexp tiny 5) 9 4 1, make_disjunctive tiny' c 3 (gexp tiny 5) 9 4 1 with
  | Ok p1, Ok p2 => disj_is_valid tiny p1 c (gexp tiny 5) 9 = true /\ disj_is_valid tiny' p2 c (gexp tiny 5) 9 = true
  | _, _ => False
  end.
Proof. vm_compute. repeat split. Qed.

(** ** C11 Constant proofs *)
Theorem C11_honest_constant_accepted : forall E, valid_env E -> forall r k L seed q c,
  0 <= r < qq E -> in_subgroup E k -> 0 <= L < qq E -> L < 1000000000 -> qq E * L <= pp E ->
  is_encryption E k r L (ct_pad c) (ct_data c) ->
  const_is_valid E (make_constant E c L r k seed q) c k q = true.
Proof. exact const_honest. Qed.
Print Assumptions C11_honest_constant_accepted.

(** without a bound on q*L: accepted exactly when the constant is in range and reducing challenge times
    constant modulo p did not change it modulo q *)
Theorem C11_honest_accepted_exactly : forall E, valid_env E -> forall r k L seed q c,
  0 <= r < qq E -> in_subgroup E k -> is_encryption E k r L (ct_pad c) (ct_data c) ->
  let pf := make_constant E c L r k seed q in
  const_is_valid E pf c k q = true <->
  (0 <= L < qq E /\ L < 1000000000) /\ ((cc_c pf * L) mod pp E) mod qq E = (cc_c pf * L) mod qq E.
Proof. exact const_honest_exact. Qed.
Print Assumptions C11_honest_accepted_exactly.

Theorem C11_accepts_exactly : forall E, valid_env E -> forall a b c v L msg k q,
  const_is_valid E (mkConst a b c v L) msg k q = true <->
  (in_subgroup E (ct_pad msg) /\ in_subgroup E (ct_data msg)) /\
  in_subgroup E a /\ in_subgroup E b /\ 0 <= c < qq E /\ 0 <= v < qq E /\
  (0 <= L < qq E /\ L < 1000000000) /\
  c = hash_elems E [HElem q; HElem (ct_pad msg); HElem (ct_data msg); HElem a; HElem b] /\
  (gg E) ^ v mod pp E = (a * (ct_pad msg) ^ c) mod pp E /\
  ((gg E) ^ ((c * L) mod pp E) * k ^ v) mod pp E = (b * (ct_data msg) ^ c) mod pp E.
Proof. exact const_accept_iff. Qed.
Print Assumptions C11_accepts_exactly.

Theorem C11_two_transcripts_encrypt_the_constant : forall E E', valid_env E -> same_group E E' ->
  forall m k qh qh' a b c v c' v' L, in_subgroup E k -> qq E * L <= pp E ->
  const_is_valid E (mkConst a b c v L) m k qh = true ->
  const_is_valid E' (mkConst a b c' v' L) m k qh' = true -> c <> c' ->
  exists r, 0 <= r < qq E /\ is_encryption E k r L (ct_pad m) (ct_data m).
Proof. exact const_extract. Qed.
Print Assumptions C11_two_transcripts_encrypt_the_constant.

(** the exponent c*L is reduced modulo p instead of q: with q*L > p (MEDIUM test constants, L = 3) an
    honest proof is refused *)
Theorem C11_small_modulus_refuted : exists E r k L seed q c, valid_env E /\ 0 <= r < qq E /\
  in_subgroup E k /\ 0 <= L < qq E /\ L < 1000000000 /\ is_encryption E k r L (ct_pad c) (ct_data c) /\
  const_is_valid E (make_constant E c L r k seed q) c k q = false.
Proof. exact const_witness. Qed.
Print Assumptions C11_small_modulus_refuted.

Example C11_nonvacuous : qq medium * 2 <= pp medium /\
  let k := gexp medium 77 in
  let c := mkCt (gexp medium 5) ((gexp medium 2 * gexp medium (77 * 5)) mod pp medium) in
  const_is_valid medium (make_constant medium c 2 5 k 1 9) c k 9 = true /\
  const_is_valid medium (make_constant medium c 1 5 k 1 9) c k 9 = false.
Proof. split; [vm_compute; congruence|]. split; vm_compute; reflexivity. Qed.

(** ** C12 Chaum-Pedersen proofs of decryption shares *)
Theorem C12_honest_share_accepted : forall E, valid_env E -> forall msg s seed q,
  in_subgroup E (ct_pad msg) -> in_subgroup E (ct_data msg) -> 0 <= s < qq E -> 0 <= q < qq E ->
  let share := (ct_pad msg) ^ s mod pp E in
  cp_is_valid E (make_chaum_pedersen E msg s share seed q) msg (gexp E s) share q = true.
Proof. exact cp_honest. Qed.
Print Assumptions C12_honest_share_accepted.

Theorem C12_accepts_exactly : forall E, valid_env E -> forall a b c v msg k m q,
  cp_is_valid E (mkCp a b c v) msg k m q = true <->
  (in_subgroup E (ct_pad msg) /\ in_subgroup E (ct_data msg)) /\ in_subgroup E k /\ in_subgroup E m /\
  in_subgroup E a /\ in_subgroup E b /\ 0 <= c < qq E /\ 0 <= v < qq E /\ 0 <= q < qq E /\
  c = hash_elems E [HElem q; HElem (ct_pad msg); HElem (ct_data msg); HElem a; HElem b; HElem m] /\
  (gg E) ^ v mod pp E = (a * k ^ c) mod pp E /\
  (ct_pad msg) ^ v mod pp E = (b * m ^ c) mod pp E.
Proof. exact cp_accept_iff. Qed.
Print Assumptions C12_accepts_exactly.

Theorem C12_two_transcripts_same_exponent : forall E E', valid_env E -> same_group E E' ->
  forall msg k m a b qh qh' c v c' v',
  cp_is_valid E (mkCp a b c v) msg k m qh = true -> cp_is_valid E' (mkCp a b c' v') msg k m qh' = true ->
  c <> c' -> exists s, 0 <= s < qq E /\ k = gexp E s /\ m = (ct_pad msg) ^ s mod pp E.
Proof. exact cp_extract. Qed.
Print Assumptions C12_two_transcripts_same_exponent.

Example C12_nonvacuous :
  let msg := mkCt (gexp tiny 3) (gexp tiny 9) in let share := (gexp tiny 3) ^ 7 mod 157 in
  cp_is_valid tiny (make_chaum_pedersen tiny msg 7 share 2 9) msg (gexp tiny 7) share 9 = true /\
  cp_is_valid tiny' (make_chaum_pedersen tiny' msg 7 share 2 9) msg (gexp tiny 7) share 9 = true.
Proof. split; vm_compute; reflexivity. Qed.

(** ** C13 Any quorum reconstructs the secret.  Each guardian at sequence order x uses the weight the
    code computes from the other sequence orders. *)
Theorem C13_lagrange_reconstructs : forall E, valid_env E -> forall coeffs xs,
  NoDup (map (fun x => x mod qq E) xs) -> (length coeffs <= length xs)%nat ->
  exists ws, Forall2 (fun x w => compute_lagrange_coefficient E x (remove Z.eq_dec x xs) = Ok w) xs ws /\
    Forall (fun w => 0 <= w < qq E) ws /\
    (forall ys, Forall2 (fun x y => y mod qq E = poly_at coeffs x mod qq E) xs ys ->
       sumZ (map (fun wy => fst wy * snd wy) (combine ws ys)) mod qq E = poly_at coeffs 0 mod qq E).
Proof. exact lagrange_reconstruct. Qed.
Print Assumptions C13_lagrange_reconstructs.

(** the value at 0 is the first coefficient, the guardian's secret *)
Theorem C13_value_at_zero_is_secret : forall a coeffs, poly_at (a :: coeffs) 0 = a.
Proof. exact poly_at_0. Qed.
Print Assumptions C13_value_at_zero_is_secret.

(** two guardians with the same sequence order modulo q make the computation fail *)
Theorem C13_equal_orders_fail : forall E, valid_env E -> forall x ds z,
  In z ds -> z mod qq E = x mod qq E -> compute_lagrange_coefficient E x ds = Err ZeroDivisionError.
Proof. exact lagrange_err. Qed.
Print Assumptions C13_equal_orders_fail.

Example C13_nonvacuous : NoDup (map (fun x => x mod qq tiny) [1; 3; 4]) /\
  map (fun x => compute_lagrange_coefficient tiny x (remove Z.eq_dec x [1; 3; 4])) [1; 3; 4] = [Ok 2; Ok 11; Ok 1] /\
  map (fun x => poly_at [5; 2; 7] x mod 13) [1; 3; 4] = [1; 9; 8] /\ (2 * 1 + 11 * 9 + 1 * 8) mod 13 = 5.
Proof. split; [|vm_compute; auto]. repeat constructor; cbn; intuition congruence. Qed.

(** ** C14 / C15 Backups *)
Theorem C14_coordinate_value : forall E, valid_env E -> forall x pl, 0 <= x < qq E ->
  compute_polynomial_coordinate E x pl = Ok (poly_at (map co_value pl) x mod qq E).
Proof. exact coordinate_value. Qed.
Print Assumptions C14_coordinate_value.

Theorem C14_generated_polynomial : forall E, valid_env E -> forall draws,
  Forall (fun d => 0 <= fst d < qq E /\ 0 <= snd d < qq E) draws ->
  let pl := generate_polynomial E draws in
  map co_value pl = map fst draws /\
  get_commitments pl = map (gexp E) (map fst draws) /\
  Forall (fun pf => schnorr_is_valid E pf = true) (get_proofs pl).
Proof. exact generated_polynomial. Qed.
Print Assumptions C14_generated_polynomial.

(** Whatever the powers: an honest coordinate is accepted exactly when reducing the powers of the sequence
    order modulo p leaves the value of the polynomial modulo q unchanged *)
Theorem C14_honest_backup_exactly : forall E, valid_env E -> forall x coeffs,
  0 <= x < qq E -> Forall (fun a => 0 <= a) coeffs ->
  verify_polynomial_coordinate E (poly_at coeffs x mod qq E) x (map (gexp E) coeffs)
    = Ok (poly_at coeffs x mod qq E =? poly_wrap_at (pp E) coeffs x mod qq E).
Proof. exact honest_backup_exact. Qed.
Print Assumptions C14_honest_backup_exactly.

(** Honest coordinates are accepted when the powers of the sequence order stay below p *)
Theorem C14_honest_backup_accepted : forall E, valid_env E -> forall x coeffs,
  0 <= x < qq E -> Forall (fun a => 0 <= a) coeffs -> (forall j, 0 <= j < zlen coeffs -> x ^ j < pp E) ->
  verify_polynomial_coordinate E (poly_at coeffs x mod qq E) x (map (gexp E) coeffs) = Ok true.
Proof. exact honest_backup. Qed.
Print Assumptions C14_honest_backup_accepted.

(** without that bound an honest coordinate is refused (pow_p where pow_q is needed) *)
Theorem C14_large_power_refuted : exists E x pl y, valid_env E /\ 0 <= x < qq E /\
  (exists draws, pl = generate_polynomial E draws /\
     Forall (fun d => 0 <= fst d < qq E /\ 0 <= snd d < qq E) draws) /\
  compute_polynomial_coordinate E x pl = Ok y /\
  verify_polynomial_coordinate E y x (get_commitments pl) = Ok false.
Proof. exact backup_witness. Qed.
Print Assumptions C14_large_power_refuted.

(** for every coordinate and every sequence order there is exactly one answer, and it never raises unless
    the order is outside [0,q) *)
Theorem C15_accepts_exactly : forall E, valid_env E -> forall x y coeffs,
  0 <= x < qq E -> Forall (fun a => 0 <= a) coeffs -> 0 <= y < qq E ->
  verify_polynomial_coordinate E y x (map (gexp E) coeffs) = Ok (y =? poly_wrap_at (pp E) coeffs x mod qq E).
Proof. exact backup_exact. Qed.
Print Assumptions C15_accepts_exactly.
Theorem C15_order_out_of_range : forall E x y ks, ~ 0 <= x < qq E -> verify_polynomial_coordinate E y x ks = Err OverflowError.
Proof. exact backup_range. Qed.
Print Assumptions C15_order_out_of_range.

Theorem C15_accepted_coordinate_is_the_value : forall E, valid_env E -> forall x y coeffs,
  0 <= x < qq E -> Forall (fun a => 0 <= a) coeffs -> (forall j, 0 <= j < zlen coeffs -> x ^ j < pp E) ->
  0 <= y < qq E ->
  (verify_polynomial_coordinate E y x (map (gexp E) coeffs) = Ok true <-> y = poly_at coeffs x mod qq E).
Proof. exact backup_iff. Qed.
Print Assumptions C15_accepted_coordinate_is_the_value.

(** arbitrary published commitments in the subgroup are commitments to some polynomial *)
Theorem C15_commitments_have_a_polynomial : forall E, valid_env E -> forall ks,
  Forall (in_subgroup E) ks -> exists coeffs, Forall (fun a => 0 <= a < qq E) coeffs /\ ks = map (gexp E) coeffs.
Proof. exact commitments_polynomial. Qed.
Print Assumptions C15_commitments_have_a_polynomial.

Example C14_nonvacuous : (forall j, 0 <= j < zlen [5; 2; 7] -> 4 ^ j < pp tiny) /\
  verify_polynomial_coordinate tiny 8 4 (map (gexp tiny) [5; 2; 7]) = Ok true /\
  verify_polynomial_coordinate tiny 9 4 (map (gexp tiny) [5; 2; 7]) = Ok false.
Proof.
  split; [|vm_compute; auto]. intros j Hj. change (zlen [5; 2; 7]) with 3 in Hj. cbn [pp tiny].
  assert (4 ^ j <= 4 ^ 2) by (apply Z.pow_le_mono_r; lia). lia.
Qed.

(** ** C17 Padding *)
Theorem C17_padding_round_trip : forall (m : list Z) size allow, 2 <= size <= 65537 -> zlen m <= size - 2 ->
  exists p, add_padding m size allow = Ok p /\ zlen p = size /\ remove_padding p size = m.
Proof. exact padding_ok. Qed.
Print Assumptions C17_padding_round_trip.

Theorem C17_too_long_is_an_error : forall (m : list Z) size, 2 <= size -> size - 2 < zlen m ->
  add_padding m size false = Err TruncationError.
Proof. exact padding_too_long. Qed.
Print Assumptions C17_too_long_is_an_error.

Theorem C17_truncation : forall (m : list Z) size, 2 <= size <= 65537 -> size - 2 < zlen m ->
  exists p, add_padding m size true = Ok p /\ zlen p = size /\
    remove_padding p size = firstn (Z.to_nat (size - 2)) m.
Proof. exact padding_truncates. Qed.
Print Assumptions C17_truncation.

Example C17_nonvacuous : add_padding [1; 2; 3] 8 false = Ok [0; 3; 1; 2; 3; 0; 0; 0] /\
  remove_padding [0; 3; 1; 2; 3; 0; 0; 0] 8 = [1; 2; 3] /\
  rmap (fun p => remove_padding p 4) (add_padding [1; 2; 3] 4 true) = Ok [1; 2].
Proof. vm_compute; auto. Qed.

(** ** C18 Hashed ElGamal.  A message that fills 16 blocks of 32 bytes (the only size the code base encrypts) comes
    back filled up with zeros to whole blocks, and so does a longer one whose ciphertext did not lose a leading zero
    byte in its hex form. *)
Theorem C18_round_trip : forall E msg secret nonce seed,
  valid_env E -> (forall k m, length (hmac256 E k m) = 32%nat /\ is_bytes (hmac256 E k m)) ->
  is_bytes msg -> 512 <= zlen (whole_blocks msg) < 2 ^ 29 -> 0 <= secret -> 0 <= nonce ->
  exists c, hashed_elgamal_encrypt E msg nonce (gexp E secret) seed = Ok c /\
    (zlen (whole_blocks msg) = 512 \/ String.length (h_data c) = (2 * length (whole_blocks msg))%nat ->
     hashed_decrypt E c secret seed = Ok (Some (whole_blocks msg))).
Proof. exact hashed_roundtrip_any. Qed.
Print Assumptions C18_round_trip.

(** a shorter message is encrypted but then refused *)
Theorem C18_short_message_refuted : exists E msg secret nonce seed c, valid_env E /\ is_bytes msg /\
  zlen msg = 32 /\ hashed_elgamal_encrypt E msg nonce (gexp E secret) seed = Ok c /\
  hashed_decrypt E c secret seed = Ok None.
Proof. exact hashed_short_witness. Qed.
Print Assumptions C18_short_message_refuted.

(** a message is only returned when the MAC stored in the ciphertext is the HMAC of pad and data under
    the key derived from the shared secret, the seed and the length in bits *)
Theorem C18_wrong_mac_refused : forall E c secret seed m, hashed_decrypt E c secret seed = Ok (Some m) ->
  exists data mk, to_padded_bytes (h_data c) 512 = Ok data /\
    get_hmac E (to_hex_bytes (hash_elems E [HElem (h_pad c); HElem (pow_p E (h_pad c) secret)]))
               (to_hex_bytes seed) (Some (8 * zlen (whole_blocks data))) 0 = Ok mk /\
    bytes_to_hex (hmac256 E mk (to_hex_bytes (h_pad c) ++ data)) = h_mac c.
Proof. exact hashed_decrypt_mac'. Qed.
Print Assumptions C18_wrong_mac_refused.
(** and it is refused, without an exception, exactly when they differ *)
Theorem C18_mac_decides : forall E c secret seed data mk, to_padded_bytes (h_data c) 512 = Ok data ->
  get_hmac E (to_hex_bytes (hash_elems E [HElem (h_pad c); HElem (pow_p E (h_pad c) secret)])) (to_hex_bytes seed) (Some (8 * zlen (whole_blocks data))) 0 = Ok mk ->
  (hashed_decrypt E c secret seed = Ok None <-> bytes_to_hex (hmac256 E mk (to_hex_bytes (h_pad c) ++ data)) <> h_mac c).
Proof. exact hashed_mac_decides. Qed.
Print Assumptions C18_mac_decides.

Example C18_nonvacuous :
  (forall k m, length (hmac256 tiny k m) = 32%nat /\ is_bytes (hmac256 tiny k m)) /\
  (let msg := repeat 65 512 in is_bytes msg /\
   exists c, hashed_elgamal_encrypt tiny msg 3 (gexp tiny 5) 9 = Ok c /\ hashed_decrypt tiny c 5 9 = Ok (Some msg)).
Proof. exact hashed_example. Qed.

(** ** C19 Discrete log over every call history *)
Theorem C19_every_answer_is_right : forall E, valid_env E -> 0 <= dmax E < qq E -> forall ops i x e,
  snd (dl_step E (dl_run E dl_init ops) (DLookup i x)) = Ok e ->
  0 <= e <= dmax E /\ gg E ^ e mod pp E = x.
Proof. exact dlog_history_answer. Qed.
Print Assumptions C19_every_answer_is_right.

Theorem C19_every_exponent_is_found : forall E, valid_env E -> 0 <= dmax E < qq E -> forall ops i m,
  let s := dl_run E dl_init ops in
  0 <= m <= fst (settings_of E s i) -> fst (settings_of E s i) <= dmax E -> snd (settings_of E s i) = true ->
  snd (dl_step E s (DLookup i (gg E ^ m mod pp E))) = Ok m.
Proof. exact dlog_history_found. Qed.
Print Assumptions C19_every_exponent_is_found.

Theorem C19_out_of_range_is_an_error : forall E, valid_env E -> 0 <= dmax E < qq E -> forall ops i x,
  (forall j, 0 <= j <= dmax E -> gg E ^ j mod pp E <> x) ->
  exists exc, snd (dl_step E (dl_run E dl_init ops) (DLookup i x)) = Err exc.
Proof. exact dlog_history_absent. Qed.
Print Assumptions C19_out_of_range_is_an_error.

(** the stateless search used by the decryption model agrees with every cache history *)
Theorem C19_stateless_agrees : forall E, valid_env E -> 0 <= dmax E < qq E -> forall ops i x e,
  let s := dl_run E dl_init ops in
  fst (settings_of E s i) = dmax E -> snd (settings_of E s i) = true ->
  (snd (dl_step E s (DLookup i x)) = Ok e <-> dlog E x = Ok e).
Proof. exact dlog_stateless. Qed.
Print Assumptions C19_stateless_agrees.

(** with an exponent limit above the group order (the test constants with the fixed limit of
    100 million) one failed lookup makes later answers non-canonical *)
Theorem C19_limit_above_order_refuted : exists E, valid_env E /\ exists x,
  snd (dl_step E dl_init (DLookup 0 (gg E))) = Ok 1 /\
  (exists e, snd (dl_step E (dl_run E dl_init [DLookup 0 x]) (DLookup 0 (gg E))) = Ok e /\ e <> 1).
Proof. exact dlog_wrap_witness. Qed.
Print Assumptions C19_limit_above_order_refuted.

Example C19_nonvacuous : 0 <= dmax tiny < qq tiny /\
  let s := dl_run tiny dl_init [DPrecompute 0 5; DSetMax 1 7; DLookup 0 2; DLookup 0 (gexp tiny 9)] in
  snd (dl_step tiny s (DLookup 0 (gexp tiny 11))) = Ok 11 /\
  settings_of tiny s 1 = (7, true) /\ settings_of tiny s 0 = (12, true).
Proof. split; [vm_compute; split; congruence|]. vm_compute. auto. Qed.
