(** * ConstantsFacts: validity of the built-in constant sets. *)
From Verif Require Import Base Group Spec Constants Primality Tiny.
From Coq Require Import Znumtheory Zpow_facts.
Ltac cert := first [assumption | apply primeb_prime; vm_compute; reflexivity].
Ltac certs := cbn [map fst]; repeat (apply Forall_cons; [cert|]); apply Forall_nil.
Ltac nodups := cbn [map fst]; repeat constructor; cbn; intuition discriminate.
Lemma large_p_prime : prime large_p.
Proof.
  assert (H1 : prime 51450916661).
  { apply (pocklington_check 51450916661 [(21391, 2); (29, 2)]); [reflexivity|nodups|certs|reflexivity|vm_compute; reflexivity]. }
  assert (H2 : prime 70384853992249).
  { apply (pocklington_check 70384853992249 [(51450916661, 2)]); [reflexivity|nodups|certs|reflexivity|vm_compute; reflexivity]. }
  apply (pocklington_check large_p [(70384853992249, 2)]); [reflexivity|nodups|certs|reflexivity|vm_compute; reflexivity].
Qed.
Lemma test_constants_valid : forall h m d j jc,
  valid_env (mkEnv extra_small_p extra_small_q extra_small_g h m d j jc) /\
  valid_env (mkEnv medium_p medium_q medium_g h m d j jc) /\
  valid_env (mkEnv large_p large_q large_g h m d j jc).
Proof.
  intros h m d j jc. split; [|split].
  - destruct tiny_valid as [a1 a2 a3 a4 a5]. constructor; [exact a1|exact a2|exact a3|exact a4|exact a5].
  - destruct medium_valid as [a1 a2 a3 a4 a5]. constructor; [exact a1|exact a2|exact a3|exact a4|exact a5].
  - constructor; cbn [pp qq gg].
    + exact large_p_prime.
    + apply primeb_prime. vm_compute; reflexivity.
    + exists large_r. reflexivity.
    + unfold large_g, large_p. lia.
    + rewrite <- Zpow_facts.Zpow_mod_correct by discriminate. vm_compute; reflexivity.
Qed.
Lemma small_constants_invalid : forall h m d j jc,
  ~ valid_env (mkEnv small_p small_q small_g h m d j jc) /\ (small_g ^ small_q) mod small_p = small_p - 1.
Proof.
  intros. assert (Hx : (small_g ^ small_q) mod small_p = small_p - 1) by (vm_compute; reflexivity).
  split; [|exact Hx]. intros [_ _ _ _ Hg]. cbn [gg qq pp] in Hg. rewrite Hx in Hg. discriminate.
Qed.

(** ** the standard set *)
Lemma standard_cofactor : standard_p - 1 = standard_q * standard_r.
Proof. vm_compute. reflexivity. Qed.
Lemma standard_q_form : standard_q = 2 ^ 256 - 189.
Proof. vm_compute. reflexivity. Qed.
Lemma standard_p_bits : 2 ^ 4095 < standard_p < 2 ^ 4096.
Proof. split; vm_compute; reflexivity. Qed.
Lemma standard_g_range : 1 < standard_g < standard_p.
Proof. split; vm_compute; reflexivity. Qed.
Lemma standard_constant_room L : 0 <= L < 1000000000 -> standard_q * L <= standard_p.
Proof.
  intros HL. apply Z.le_trans with (standard_q * 1000000000).
  - apply Z.mul_le_mono_nonneg_l; [discriminate|lia].
  - intros H. vm_compute in H. discriminate H.
Qed.
Lemma standard_power_room k x j : 0 <= k -> 0 <= j -> 0 <= x <= 2 ^ k -> k * j <= 4095 -> x ^ j < standard_p.
Proof.
  intros Hk Hj Hx Hkj. apply Z.le_lt_trans with ((2 ^ k) ^ j); [apply Z.pow_le_mono_l; assumption|].
  rewrite <- Z.pow_mul_r by assumption. apply Z.le_lt_trans with (2 ^ 4095); [apply Z.pow_le_mono_r; lia|apply standard_p_bits].
Qed.
