(** * Spec: the small vocabulary in which the property theorems are stated.
    Only integer arithmetic; nothing here refers to the model's own helper functions
    (except the [env] record and the plain data records). *)
From Verif Require Import Base Group.
From Coq Require Import Znumtheory.

(** The constants (p, q, g) are what constants.py promises: p, q prime, q divides p-1, and g is a
    non-trivial element of the subgroup of order q.  The hash functions stay arbitrary. *)
Record valid_env (E : env) : Prop := {
  ve_p  : prime (pp E);
  ve_q  : prime (qq E);
  ve_r  : exists r, pp E - 1 = qq E * r;
  ve_g  : 1 < gg E < pp E;
  ve_gq : (gg E) ^ (qq E) mod (pp E) = 1
}.

(** x is an element of the order-q subgroup modulo p *)
Definition in_subgroup (E : env) (x : Z) : Prop := 0 <= x < pp E /\ x ^ (qq E) mod pp E = 1.

(** g to the e, K to the e *)
Definition gexp (E : env) (e : Z) : Z := (gg E) ^ e mod pp E.

(** the pair (a, b) is the encryption of m under K with nonce r *)
Definition is_encryption (E : env) (K r m a b : Z) : Prop :=
  a = (gg E) ^ r mod pp E /\ b = ((gg E) ^ m * K ^ r) mod pp E.

(** a_0 + a_1 x + a_2 x^2 + ... *)
Fixpoint poly_from (i : nat) (coeffs : list Z) (x : Z) : Z :=
  match coeffs with [] => 0 | a :: cs => a * x ^ (Z.of_nat i) + poly_from (S i) cs x end.
Definition poly_at (coeffs : list Z) (x : Z) : Z := poly_from 0 coeffs x.

(** the same sum with every power of x reduced modulo m: a_0 (1 mod m) + a_1 (x mod m) + a_2 (x^2 mod m) + ... *)
Fixpoint poly_wrap_from (m : Z) (i : nat) (coeffs : list Z) (x : Z) : Z :=
  match coeffs with [] => 0 | a :: cs => a * (x ^ (Z.of_nat i) mod m) + poly_wrap_from m (S i) cs x end.
Definition poly_wrap_at (m : Z) (coeffs : list Z) (x : Z) : Z := poly_wrap_from m 0 coeffs x.

(** two runs of the same protocol with the same group but possibly another random oracle *)
Definition same_group (E E' : env) : Prop := pp E = pp E' /\ qq E = qq E' /\ gg E = gg E'.

(** a message filled up with zero bytes to whole blocks of 32 *)
Definition whole_blocks (msg : list Z) : list Z := msg ++ repeat 0 ((32 - length msg mod 32) mod 32)%nat.
