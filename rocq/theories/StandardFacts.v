(** * StandardFacts: what is proved of the standard constants: q is prime and g has order q modulo p. *)
From Coq Require Import List ZArith Lia Znumtheory Zpow_facts.
From Verif Require Import Base Group Spec Constants Primality Tiny ConstantsFacts StandardPower.
Import ListNotations.
Local Open Scope Z_scope.

Lemma standard_q_prime : prime standard_q.
Proof.
  assert (HA : prime 14220365526706201077871).
  { apply (pocklington_check _ [(973591, 2); (87881, 2); (36151, 2)]); [reflexivity|nodups|certs|reflexivity|vm_compute; reflexivity]. }
  assert (HB : prime 1219974856409).
  { apply (pocklington_check _ [(526583, 2); (3761, 2)]); [reflexivity|nodups|certs|reflexivity|vm_compute; reflexivity]. }
  assert (HN : prime 440208639276132997491800604758226661590679912188273141493).
  { apply (pocklington_check _ [(14220365526706201077871, 2); (1219974856409, 2)]); [reflexivity|nodups|certs|reflexivity|vm_compute; reflexivity]. }
  apply (pocklington_check _ [(440208639276132997491800604758226661590679912188273141493, 2)]); [reflexivity|nodups|certs|reflexivity|vm_compute; reflexivity].
Qed.
Lemma standard_valid : forall h m d j jc, prime standard_p ->
  valid_env (mkEnv standard_p standard_q standard_g h m d j jc).
Proof.
  intros h m d j jc Hp. split; cbn [pp qq gg]; [exact Hp|exact standard_q_prime| |exact standard_g_range|exact standard_g_order].
  exists standard_r. rewrite Z.mul_comm. exact standard_cofactor.
Qed.

(** an element other than 1 whose power with a prime exponent is 1 has that order; p need not be prime *)
Lemma pow_one p x n : 1 < p -> 0 <= n -> x mod p = 1 -> x ^ n mod p = 1.
Proof. intros Hp Hn Hx. rewrite Zpower_mod, Hx, Z.pow_1_l by lia. apply Z.mod_1_l. exact Hp. Qed.
Lemma order_exact p q g : 1 < g < p -> prime q -> g ^ q mod p = 1 -> forall k, 0 <= k -> (g ^ k mod p = 1 <-> (q | k)).
Proof.
  intros Hg Hq Ho k Hk. pose proof (prime_ge_2 q Hq) as Hq2. assert (Hp : 1 < p) by lia. split.
  - intro H1. destruct (Zdivide_dec q k) as [D|D]; [exact D|exfalso].
    destruct (rel_prime_bezout q k (prime_rel_prime q Hq k D)) as [u v B].
    set (a := v mod q). assert (Ha : 0 <= a < q) by (apply Z.mod_pos_bound; lia).
    assert (M : (a * k) mod q = 1).
    { unfold a. rewrite Z.mul_mod_idemp_l by lia. replace (v * k) with (1 + - u * q) by lia.
      rewrite Z.mod_add by lia. apply Z.mod_1_l. lia. }
    pose proof (Z.div_mod (a * k) q ltac:(lia)) as DM. rewrite M in DM.
    assert (Hb : 0 <= a * k / q) by (apply Z.div_pos; nia). set (b := a * k / q) in *.
    assert (E1 : g ^ (k * a) mod p = 1) by (rewrite Z.pow_mul_r by lia; apply pow_one; lia).
    replace (k * a) with (1 + q * b) in E1 by lia.
    rewrite Z.pow_add_r, Z.pow_1_r in E1 by nia. rewrite Zmult_mod in E1.
    rewrite Z.pow_mul_r in E1 by lia. rewrite (pow_one p (g ^ q) b Hp Hb Ho), Z.mul_1_r in E1.
    rewrite Zmod_mod, Z.mod_small in E1 by lia. lia.
  - intros [b ->]. rewrite Z.mul_comm, Z.pow_mul_r by nia. apply pow_one; [exact Hp|nia|exact Ho].
Qed.
Lemma standard_order k : 0 <= k -> (standard_g ^ k mod standard_p = 1 <-> (standard_q | k)).
Proof. exact (order_exact standard_p standard_q standard_g standard_g_range standard_q_prime standard_g_order k). Qed.
Lemma standard_q_meets : 0 <= standard_q /\ (standard_q | standard_q).
Proof. split; [pose proof (prime_ge_2 _ standard_q_prime); lia|apply Z.divide_refl]. Qed.
