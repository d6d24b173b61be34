(** * ZK: model of schnorr.py and chaum_pedersen.py.  Definitions only. *)
From Verif Require Import Base Group Codec Hash DLog ElGamal.

(** ** schnorr.py *)
Record schnorr := mkSchnorr { s_key : Z; s_com : Z; s_chal : Z; s_resp : Z }.   (* 17-31 *)

(** schnorr.py:79-92 make_schnorr_proof *)
Definition make_schnorr_proof (E : env) (kp : keypair) (r : Z) : schnorr :=
  let k := kp_public kp in
  let h := g_pow_p E r in
  let c := hash_elems E [HElem k; HElem h] in
  let u := a_plus_bc_q E r (kp_secret kp) c in
  mkSchnorr k h c u.

(** schnorr.py:36-76 is_valid *)
Definition schnorr_is_valid (E : env) (s : schnorr) : bool :=
  let k := s_key s in let h := s_com s in let u := s_resp s in
  let c := hash_elems E [HElem k; HElem h] in
  is_valid_residue E k && is_in_bounds_p E h && is_in_bounds_q E u
  && (c =? s_chal s)
  && (g_pow_p E u =? mult_p E [h; pow_p E k c]).

(** ** chaum_pedersen.py *)
(** 24-49 *)
Record disj_proof := mkDisj {
  d_a0 : Z; d_b0 : Z; d_a1 : Z; d_b1 : Z;
  d_c0 : Z; d_c1 : Z; d_c : Z; d_v0 : Z; d_v1 : Z }.
(** 141-156 *)
Record cp_proof := mkCp { cp_a : Z; cp_b : Z; cp_c : Z; cp_v : Z }.
(** 258-275 *)
Record const_proof := mkConst { cc_a : Z; cc_b : Z; cc_c : Z; cc_v : Z; cc_constant : Z }.

(** chaum_pedersen.py:54-138 DisjunctiveChaumPedersenProof.is_valid *)
Definition disj_is_valid (E : env) (pf : disj_proof) (m : ciphertext) (k q : Z) : bool :=
  let alpha := ct_pad m in let beta := ct_data m in
  let a0 := d_a0 pf in let b0 := d_b0 pf in let a1 := d_a1 pf in let b1 := d_b1 pf in
  let c0 := d_c0 pf in let c1 := d_c1 pf in let c := d_c pf in
  let v0 := d_v0 pf in let v1 := d_v1 pf in
  is_valid_residue E alpha && is_valid_residue E beta
  && is_valid_residue E a0 && is_valid_residue E b0
  && is_valid_residue E a1 && is_valid_residue E b1
  && is_in_bounds_q E c0 && is_in_bounds_q E c1
  && is_in_bounds_q E v0 && is_in_bounds_q E v1
  && ((add_q E [c0; c1] =? c)
      && (c =? hash_elems E [HElem q; HElem alpha; HElem beta; HElem a0; HElem b0; HElem a1; HElem b1]))
  && (g_pow_p E v0 =? mult_p E [a0; pow_p E alpha c0])
  && (g_pow_p E v1 =? mult_p E [a1; pow_p E alpha c1])
  && (pow_p E k v0 =? mult_p E [b0; pow_p E beta c0])
  && (mult_p E [g_pow_p E c1; pow_p E k v1] =? mult_p E [b1; pow_p E beta c1]).

(** chaum_pedersen.py:161-255 ChaumPedersenProof.is_valid.  The Python [and] chains evaluate the
    same conjuncts (consistent_gv and consistent_av repeat bounds already required). *)
Definition cp_is_valid (E : env) (pf : cp_proof) (msg : ciphertext) (k m q : Z) : bool :=
  let alpha := ct_pad msg in let beta := ct_data msg in
  let a := cp_a pf in let b := cp_b pf in let c := cp_c pf in let v := cp_v pf in
  is_valid_residue E alpha && is_valid_residue E beta && is_valid_residue E k
  && is_valid_residue E m && is_valid_residue E a && is_valid_residue E b
  && is_in_bounds_q E c && is_in_bounds_q E v && is_in_bounds_q E q
  && (c =? hash_elems E [HElem q; HElem alpha; HElem beta; HElem a; HElem b; HElem m])
  && (g_pow_p E v =? mult_p E [a; pow_p E k c])
  && (pow_p E alpha v =? mult_p E [b; pow_p E m c]).

(** chaum_pedersen.py:280-367 ConstantChaumPedersenProof.is_valid.  Note line 329: the exponent
    c*L is reduced modulo p (mult_p), not modulo q. *)
Definition const_is_valid (E : env) (pf : const_proof) (msg : ciphertext) (k q : Z) : bool :=
  let alpha := ct_pad msg in let beta := ct_data msg in
  let a := cc_a pf in let b := cc_b pf in let c := cc_c pf in let v := cc_v pf in
  let constant := cc_constant pf in
  let '(constant_q, in_bounds_constant) :=
    match int_to_q E constant with None => (0, false) | Some t => (t, true) end in
  is_valid_residue E alpha && is_valid_residue E beta
  && is_valid_residue E a && is_valid_residue E b
  && is_in_bounds_q E c && is_in_bounds_q E v
  && (c =? hash_elems E [HElem q; HElem alpha; HElem beta; HElem a; HElem b])
  && in_bounds_constant
  && ((0 <=? constant) && (constant <? 1000000000))
  && (g_pow_p E v =? mult_p E [a; pow_p E alpha c])
  && (mult_p E [g_pow_p E (mult_p E [c; constant_q]); pow_p E k v] =? mult_p E [b; pow_p E beta c]).

(** Nonces(seed, header)[i] *)
Definition hnonce (E : env) (seed : Z) (header : string) (i : Z) : Z :=
  nonce_at E (mk_nonces E seed [HStr header]) i.
Definition disj_header : string := "disjoint-chaum-pedersen-proof".
Definition const_header : string := "constant-chaum-pedersen-proof".

(** chaum_pedersen.py:400-433 make_disjunctive_chaum_pedersen_zero *)
Definition make_disj_zero (E : env) (m : ciphertext) (r k q seed : Z) : disj_proof :=
  let alpha := ct_pad m in let beta := ct_data m in
  let c1 := hnonce E seed disj_header 0 in
  let v := hnonce E seed disj_header 1 in
  let u0 := hnonce E seed disj_header 2 in
  let a0 := g_pow_p E u0 in
  let b0 := pow_p E k u0 in
  let a1 := g_pow_p E v in
  let b1 := mult_p E [pow_p E k v; g_pow_p E c1] in
  let c := hash_elems E [HElem q; HElem alpha; HElem beta; HElem a0; HElem b0; HElem a1; HElem b1] in
  let c0 := a_minus_b_q E c c1 in
  let v0 := a_plus_bc_q E u0 c0 r in
  let v1 := a_plus_bc_q E v c1 r in
  mkDisj a0 b0 a1 b1 c0 c1 c v0 v1.

(** chaum_pedersen.py:436-470 make_disjunctive_chaum_pedersen_one; negate_q(w) raises for w = 0. *)
Definition make_disj_one (E : env) (m : ciphertext) (r k q seed : Z) : res disj_proof :=
  let alpha := ct_pad m in let beta := ct_data m in
  let w := hnonce E seed disj_header 0 in
  let v := hnonce E seed disj_header 1 in
  let u1 := hnonce E seed disj_header 2 in
  let a0 := g_pow_p E v in
  let b0 := mult_p E [pow_p E k v; g_pow_p E w] in
  let a1 := g_pow_p E u1 in
  let b1 := pow_p E k u1 in
  let c := hash_elems E [HElem q; HElem alpha; HElem beta; HElem a0; HElem b0; HElem a1; HElem b1] in
  do c0 <- negate_q E w;
  let c1 := add_q E [c; w] in
  let v0 := a_plus_bc_q E v c0 r in
  let v1 := a_plus_bc_q E u1 c1 r in
  Ok (mkDisj a0 b0 a1 b1 c0 c1 c v0 v1).

(** chaum_pedersen.py:370-397 make_disjunctive_chaum_pedersen *)
Definition make_disjunctive (E : env) (m : ciphertext) (r k q seed plaintext : Z) : res disj_proof :=
  if (0 <=? plaintext) && (plaintext <=? 1) then
    if plaintext =? 0 then Ok (make_disj_zero E m r k q seed) else make_disj_one E m r k q seed
  else Err AssertionError.

(** chaum_pedersen.py:473-501 make_chaum_pedersen *)
Definition make_chaum_pedersen (E : env) (msg : ciphertext) (s m seed hash_header : Z) : cp_proof :=
  let alpha := ct_pad msg in let beta := ct_data msg in
  let u := hnonce E seed const_header 0 in
  let a := g_pow_p E u in
  let b := pow_p E alpha u in
  let c := hash_elems E [HElem hash_header; HElem alpha; HElem beta; HElem a; HElem b; HElem m] in
  let v := a_plus_bc_q E u c s in
  mkCp a b c v.

(** chaum_pedersen.py:504-533 make_constant_chaum_pedersen *)
Definition make_constant (E : env) (msg : ciphertext) (constant r k seed hash_header : Z) : const_proof :=
  let alpha := ct_pad msg in let beta := ct_data msg in
  let u := hnonce E seed const_header 0 in
  let a := g_pow_p E u in
  let b := pow_p E k u in
  let c := hash_elems E [HElem hash_header; HElem alpha; HElem beta; HElem a; HElem b] in
  let v := a_plus_bc_q E u c r in
  mkConst a b c v constant.
