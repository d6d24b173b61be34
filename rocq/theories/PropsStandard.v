(** * PropsStandard: the standard constants (C49). *)
From Coq Require Import List ZArith Znumtheory.
From Verif Require Import Base Group Spec Constants StandardPower StandardFacts.
Local Open Scope Z_scope.

(** C49: the q of the standard set is prime. *)
Theorem C49_standard_q_prime : prime standard_q.
Proof. exact standard_q_prime. Qed.
Print Assumptions C49_standard_q_prime.

(** C49: modulo the p of the standard set the generator g has order exactly q: a power of it is 1 just when the
    exponent is a multiple of q.  The computation uses the machine integers of the kernel, so the axioms of the
    standard library about them are listed beneath. *)
Theorem C49_standard_order (k : Z) : 0 <= k -> (standard_g ^ k mod standard_p = 1 <-> (standard_q | k)).
Proof. exact (standard_order k). Qed.
Print Assumptions C49_standard_order.
Example C49_standard_order_example : 0 <= standard_q /\ (standard_q | standard_q).
Proof. exact standard_q_meets. Qed.

(** C49, in part: the standard set is a valid group.  The full statement has no hypothesis; the primality of the
    4096-bit p is missing. *)
Theorem C49_standard_valid_partial : forall h m d j jc, prime standard_p ->
  valid_env (mkEnv standard_p standard_q standard_g h m d j jc).
Proof. exact standard_valid. Qed.
Print Assumptions C49_standard_valid_partial.
