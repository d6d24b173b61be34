(** * Lemmas about modular exponentiation and group.py. *)
From Verif Require Import Base Group.
From Verif Require Export Spec.
From Coq Require Import Znumtheory Zpow_facts.

#[export] Existing Instances eqm_setoid Zplus_eqm Zminus_eqm Zmult_eqm Zopp_eqm.
Lemma pow_eqm N a b n : a mod N = b mod N -> (a ^ n) mod N = (b ^ n) mod N.
Proof.
  intros H. destruct (Z.eq_dec N 0) as [->|Hn].
  - rewrite !Zmod_0_r in *. subst; reflexivity.
  - destruct (Z_le_gt_dec 0 n) as [Hge|Hlt]; [|rewrite !Z.pow_neg_r by lia; reflexivity].
    revert n Hge. apply natlike_ind; [rewrite !Z.pow_0_r; reflexivity|].
    intros n Hge IH. rewrite !Z.pow_succ_r by lia. rewrite Zmult_mod, H, IH, <- Zmult_mod. reflexivity.
Qed.
#[export] Instance Zpow_eqm N : Morphisms.Proper (Morphisms.respectful (eqm N) (Morphisms.respectful eq (eqm N))) Z.pow.
Proof. intros a b H n m ->. apply pow_eqm; exact H. Qed.
(** prove [A mod N = B mod N] by dropping inner reductions modulo N and ring arithmetic *)
Ltac modring N :=
  match goal with
  | |- ?A mod _ = ?B mod _ => change (eqm N A B); rewrite ?(Zmod_eqm N); unfold eqm; f_equal; ring
  end.

(** ** Generic residue algebra *)
Section Res.
  Variables p q : Z.
  Hypothesis Hp : 1 < p.
  Hypothesis Hq : 1 < q.

  Definition resid (x : Z) : Prop := 0 <= x < p /\ x ^ q mod p = 1.
  (** x to an arbitrary integer exponent taken modulo q. *)
  Definition xp (x e : Z) : Z := x ^ (e mod q) mod p.
  Definition mulm (x y : Z) : Z := (x * y) mod p.

  Lemma pow_mod_l a n : (a mod p) ^ n mod p = a ^ n mod p.
  Proof. symmetry; apply Zpower_mod; lia. Qed.

  Lemma mod_1_p : 1 mod p = 1.
  Proof. apply Z.mod_small; lia. Qed.

  Lemma xp_range x e : 0 <= xp x e < p.
  Proof. unfold xp; apply Z.mod_pos_bound; lia. Qed.

  Lemma mulm_range x y : 0 <= mulm x y < p.
  Proof. unfold mulm; apply Z.mod_pos_bound; lia. Qed.

  Lemma emod_range e : 0 <= e mod q < q.
  Proof. apply Z.mod_pos_bound; lia. Qed.

  Lemma xp_pow x e : x ^ q mod p = 1 -> 0 <= e -> x ^ e mod p = xp x e.
  Proof.
    intros Hx He. unfold xp.
    rewrite (Z.div_mod e q) at 1 by lia.
    pose proof (emod_range e).
    assert (0 <= e / q) by (apply Z.div_pos; lia).
    rewrite Z.pow_add_r by lia.
    rewrite Z.pow_mul_r by lia.
    rewrite Zmult_mod, <- (pow_mod_l (x ^ q)), Hx, Z.pow_1_l, mod_1_p, Z.mul_1_l by lia.
    apply Z.mod_mod; lia.
  Qed.

  Lemma xp_congr x e f : e mod q = f mod q -> xp x e = xp x f.
  Proof. unfold xp; intros ->; reflexivity. Qed.

  Lemma xp_1 x : 0 <= x < p -> xp x 1 = x.
  Proof. intros; unfold xp. rewrite (Z.mod_small 1 q), Z.pow_1_r by lia. apply Z.mod_small; lia. Qed.

  Lemma xp_0 x : xp x 0 = 1.
  Proof. unfold xp. rewrite Z.mod_0_l, Z.pow_0_r by lia. apply mod_1_p. Qed.

  Lemma xp_add x e f : x ^ q mod p = 1 -> mulm (xp x e) (xp x f) = xp x (e + f).
  Proof.
    intros Hx. unfold mulm, xp at 1 2.
    pose proof (emod_range e); pose proof (emod_range f).
    rewrite <- Zmult_mod, <- Z.pow_add_r by lia.
    rewrite xp_pow by (auto; lia).
    apply xp_congr. symmetry. apply Zplus_mod.
  Qed.

  Lemma xp_resid x e : x ^ q mod p = 1 -> resid (xp x e).
  Proof.
    intros Hx; split; [apply xp_range|].
    unfold xp. rewrite pow_mod_l, <- Z.pow_mul_r, Z.mul_comm, Z.pow_mul_r
      by (try pose proof (emod_range e); lia).
    rewrite <- (pow_mod_l (x ^ q)), Hx, Z.pow_1_l by (pose proof (emod_range e); lia).
    apply mod_1_p.
  Qed.

  Lemma xp_xp x e f : x ^ q mod p = 1 -> xp (xp x e) f = xp x (e * f).
  Proof.
    intros Hx. unfold xp at 1. unfold xp at 1.
    pose proof (emod_range e); pose proof (emod_range f).
    rewrite pow_mod_l, <- Z.pow_mul_r by lia.
    rewrite xp_pow by (auto; nia). apply xp_congr. symmetry; apply Zmult_mod.
  Qed.

  Lemma xp_mulm x y e : xp (mulm x y) e = mulm (xp x e) (xp y e).
  Proof.
    unfold mulm, xp. rewrite pow_mod_l, Z.pow_mul_l. apply Zmult_mod.
  Qed.

  Lemma resid_mulm x y : resid x -> resid y -> resid (mulm x y).
  Proof.
    intros [Hx1 Hx2] [Hy1 Hy2]; split; [apply mulm_range|].
    unfold mulm. rewrite pow_mod_l, Z.pow_mul_l, Zmult_mod, Hx2, Hy2. apply mod_1_p.
  Qed.

  Lemma resid_1 : resid 1.
  Proof. split; [lia|]. rewrite Z.pow_1_l by lia. apply mod_1_p. Qed.

  Lemma resid_pow x : resid x -> x ^ q mod p = 1.
  Proof. intros [_ ?]; assumption. Qed.

  Lemma resid_range x : resid x -> 0 <= x < p.
  Proof. intros [? _]; assumption. Qed.

  Lemma mulm_comm x y : mulm x y = mulm y x.
  Proof. unfold mulm; f_equal; lia. Qed.
  Lemma mulm_assoc x y z : mulm x (mulm y z) = mulm (mulm x y) z.
  Proof. unfold mulm. rewrite Zmult_mod_idemp_r, Zmult_mod_idemp_l. f_equal; lia. Qed.
  Lemma mulm_1_l x : 0 <= x < p -> mulm 1 x = x.
  Proof. intros; unfold mulm. rewrite Z.mul_1_l. apply Z.mod_small; lia. Qed.
  Lemma mulm_1_r x : 0 <= x < p -> mulm x 1 = x.
  Proof. intros; rewrite mulm_comm; apply mulm_1_l; assumption. Qed.

  Lemma mulm_inv x : resid x -> mulm x (xp x (-1)) = 1.
  Proof.
    intros [Hx Hx']. rewrite <- (xp_1 x Hx) at 1. rewrite xp_add by assumption.
    change (1 + -1) with 0. apply xp_0.
  Qed.

  Lemma mulm_cancel_l x y z :
    resid x -> 0 <= y < p -> 0 <= z < p -> mulm x y = mulm x z -> y = z.
  Proof.
    intros Hx Hy Hz Heq.
    assert (H : mulm (xp x (-1)) (mulm x y) = mulm (xp x (-1)) (mulm x z)) by (rewrite Heq; reflexivity).
    rewrite !mulm_assoc, !(mulm_comm (xp x (-1)) x), mulm_inv, !mulm_1_l in H; auto.
  Qed.

  Lemma xp_resid_q_l x e f k :
    x ^ q mod p = 1 -> xp x e = mulm k (xp x f) -> 0 <= k < p -> k = xp x (e - f).
  Proof.
    intros Hx Heq Hk.
    apply (mulm_cancel_l (xp x f)); auto using xp_resid, xp_range.
    rewrite (mulm_comm _ k), <- Heq, xp_add by assumption. apply xp_congr; f_equal; lia.
  Qed.

  (** order of a non-trivial residue when q is prime *)
  Lemma xp_eq_1 x e : prime q -> resid x -> x <> 1 -> xp x e = 1 -> e mod q = 0.
  Proof.
    intros Hprime Hx Hx1 He.
    destruct (Z.eq_dec (e mod q) 0) as [|Hne]; [assumption|exfalso].
    assert (Hrel : rel_prime (e mod q) q).
    { apply rel_prime_sym. apply prime_rel_prime; [assumption|].
      intros [k Hk]. pose proof (emod_range e).
      assert (k = 0) by nia. nia. }
    destruct (rel_prime_bezout _ _ Hrel) as [u v Huv].
    apply Hx1. rewrite <- (xp_1 x) by apply Hx.
    rewrite (xp_congr x 1 (e * u)).
    - rewrite <- xp_xp by apply Hx. rewrite He. unfold xp.
      rewrite Z.pow_1_l by (apply emod_range). apply mod_1_p.
    - rewrite <- Huv. rewrite Z.mod_add by lia.
      rewrite (Z.mul_comm e u), Zmult_mod, (Zmult_mod u e), Z.mod_mod by lia. reflexivity.
  Qed.

  Lemma xp_inj x e f : prime q -> resid x -> x <> 1 -> xp x e = xp x f -> e mod q = f mod q.
  Proof.
    intros Hprime Hx Hx1 Heq.
    assert (H : (e - f) mod q = 0).
    { apply (xp_eq_1 x); auto.
      transitivity (mulm (xp x e) (xp x (-f))).
      - rewrite xp_add by apply Hx. reflexivity.
      - rewrite Heq, xp_add by apply Hx. rewrite Z.add_opp_diag_r. apply xp_0. }
    apply Zmod_divide in H; [|lia]. destruct H as [k Hk].
    replace e with (f + k * q) by lia. apply Z.mod_add; lia.
  Qed.

  (** inverse exponents modulo the prime q *)
  Lemma inv_mod_q d : prime q -> d mod q <> 0 -> exists u, (d * u) mod q = 1 mod q.
  Proof.
    intros Hprime Hd.
    assert (Hrel : rel_prime d q).
    { apply rel_prime_sym. apply prime_rel_prime; [assumption|].
      intros Hdiv. apply Hd. apply Zdivide_mod; assumption. }
    destruct (rel_prime_bezout _ _ Hrel) as [u v Huv].
    exists u. rewrite <- Huv, Z.mod_add by lia. f_equal; lia.
  Qed.

  (** roots: if x^d = y^e and d is invertible then x = y^(e/d) *)
  Lemma xp_root x y d e u :
    resid x -> resid y -> (d * u) mod q = 1 mod q -> xp x d = xp y e -> x = xp y (e * u).
  Proof.
    intros Hx Hy Hu Heq.
    rewrite <- (xp_xp y) by apply Hy. rewrite <- Heq, xp_xp by apply Hx.
    rewrite (xp_congr x (d * u) 1) by assumption. symmetry; apply xp_1; apply Hx.
  Qed.
End Res.

(** ** Extended Euclid *)
Lemma egcd_bezout fuel : forall a b d u v,
  egcd fuel a b = (d, u, v) -> a * u + b * v = d.
Proof.
  induction fuel as [|n IH]; intros a b d u v; cbn [egcd].
  - intros [= <- <- <-]; lia.
  - destruct (Z.eqb_spec b 0) as [->|Hb].
    + intros [= <- <- <-]; lia.
    + destruct (egcd n b (a mod b)) as [[d' u'] v'] eqn:Heq.
      intros [= <- <- <-]. apply IH in Heq.
      pose proof (Z.div_mod a b Hb). nia.
Qed.

Lemma egcd_gcd k : forall a b fuel,
  0 <= b < 2 ^ Z.of_nat k -> (2 * k + 1 <= fuel)%nat -> 0 <= a ->
  fst (fst (egcd fuel a b)) = Z.gcd a b.
Proof.
  induction k as [|k IH]; intros a b fuel Hb Hf Ha.
  - cbn in Hb. assert (b = 0) by lia. subst b.
    destruct fuel as [|n]; [lia|]. cbn. rewrite Z.gcd_0_r. lia.
  - destruct fuel as [|[|n]]; [lia|lia|].
    cbn [egcd]. destruct (Z.eqb_spec b 0) as [->|Hb0].
    { cbn. rewrite Z.gcd_0_r; lia. }
    set (r := a mod b).
    assert (Hr : 0 <= r < b) by (apply Z.mod_pos_bound; lia).
    assert (Hg : Z.gcd a b = Z.gcd b r).
    { unfold r. rewrite Z.gcd_comm. rewrite (Z.gcd_comm b (a mod b)). rewrite Z.gcd_mod by lia.
      reflexivity. }
    destruct (Z.eqb_spec r 0) as [Hr0|Hr0].
    { rewrite Hg, Hr0, Z.gcd_0_r; cbn; lia. }
    assert (Hr2 : 0 <= b mod r < r) by (apply Z.mod_pos_bound; lia).
    pose proof (Z.div_mod b r Hr0) as Hdm.
    assert (1 <= b / r) by (apply Z.div_le_lower_bound; lia).
    assert (Hhalf : 2 * (b mod r) < b) by nia.
    rewrite Nat2Z.inj_succ, Z.pow_succ_r in Hb by lia.
    specialize (IH r (b mod r) n ltac:(lia) ltac:(lia) ltac:(lia)).
    destruct (egcd n r (b mod r)) as [[d u] v]. cbn [fst snd] in *.
    rewrite IH, Hg.
    rewrite (Z.gcd_comm r (b mod r)), Z.gcd_mod by lia. apply Z.gcd_comm.
Qed.

Lemma invert_spec b m i : 1 < m -> invert b m = Ok i -> 0 <= i < m /\ (b * i) mod m = 1.
Proof.
  intros Hm. unfold invert.
  destruct (egcd _ (b mod m) m) as [[d u] v] eqn:He.
  destruct (Z.eqb_spec d 1) as [->|]; [|discriminate].
  intros [= <-]. split; [apply Z.mod_pos_bound; lia|].
  apply egcd_bezout in He.
  assert (H1 : (b * (u mod m)) mod m = (b mod m * u + m * v) mod m).
  { rewrite Zmult_mod_idemp_r. rewrite (Z.mul_comm m v), Z.mod_add by lia.
    rewrite Zmult_mod_idemp_l. reflexivity. }
  rewrite H1, He. apply Z.mod_small; lia.
Qed.

Lemma invert_complete b m : 1 < m -> rel_prime b m -> exists i, invert b m = Ok i.
Proof.
  intros Hm Hrel. unfold invert.
  pose proof (Z.log2_nonneg m) as Hl.
  pose proof (Z.log2_spec m ltac:(lia)) as [Hl1 Hl2].
  assert (Hbm : 0 <= b mod m < m) by (apply Z.mod_pos_bound; lia).
  pose proof (egcd_gcd (Z.to_nat (Z.succ (Z.log2 m))) (b mod m) m (Z.to_nat (2 * Z.log2 m + 4))) as Hg.
  rewrite Z2Nat.id in Hg by lia.
  specialize (Hg ltac:(lia) ltac:(lia) ltac:(lia)).
  assert (Hg1 : Z.gcd (b mod m) m = 1).
  { rewrite Z.gcd_mod, Z.gcd_comm by lia. apply Zgcd_1_rel_prime; assumption. }
  destruct (egcd _ (b mod m) m) as [[d u] v]. cbn [fst] in Hg.
  rewrite Hg, Hg1. cbn. eexists; reflexivity.
Qed.

Lemma invert_error b m : 1 < m -> ~ rel_prime b m -> invert b m = Err ZeroDivisionError.
Proof.
  intros Hm Hnrel. unfold invert.
  pose proof (Z.log2_nonneg m) as Hl.
  pose proof (Z.log2_spec m ltac:(lia)) as [Hl1 Hl2].
  assert (Hbm : 0 <= b mod m < m) by (apply Z.mod_pos_bound; lia).
  pose proof (egcd_gcd (Z.to_nat (Z.succ (Z.log2 m))) (b mod m) m (Z.to_nat (2 * Z.log2 m + 4))) as Hg.
  rewrite Z2Nat.id in Hg by lia.
  specialize (Hg ltac:(lia) ltac:(lia) ltac:(lia)).
  destruct (egcd _ (b mod m) m) as [[d u] v]. cbn [fst] in Hg. subst d.
  rewrite Z.gcd_mod, Z.gcd_comm by lia.
  destruct (Z.eqb_spec (Z.gcd b m) 1) as [He|]; [|reflexivity].
  exfalso; apply Hnrel. apply Zgcd_1_rel_prime; assumption.
Qed.

Lemma rel_prime_prime x m : prime m -> x mod m <> 0 -> rel_prime x m.
Proof.
  intros Hm Hx. apply rel_prime_sym, prime_rel_prime; [assumption|].
  intros Hdiv. apply Hx. apply Zdivide_mod; assumption.
Qed.

Lemma rel_prime_not_0 x m : 1 < m -> rel_prime x m -> x mod m <> 0.
Proof.
  intros Hm Hrel H0. apply Zmod_divide in H0; [|lia].
  apply Zgcd_1_rel_prime in Hrel.
  assert (m | 1). { rewrite <- Hrel. apply Z.gcd_greatest; [assumption|apply Z.divide_refl]. }
  apply Z.divide_1_r in H. lia.
Qed.

(** ** group.py operations *)
Section GroupOps.
  Variable E : env.
  Hypothesis HE : valid_env E.

  Lemma p_gt_1 : 1 < pp E.  Proof. destruct (ve_p E HE); assumption. Qed.
  Lemma q_gt_1 : 1 < qq E.  Proof. destruct (ve_q E HE); assumption. Qed.
  Lemma q_lt_p : qq E < pp E.
  Proof.
    destruct (ve_r E HE) as [r Hr]. pose proof p_gt_1; pose proof q_gt_1.
    assert (0 < r) by nia. nia.
  Qed.

  Lemma pow_p_eq b e : pow_p E b e = b ^ e mod pp E.
  Proof. unfold pow_p, powmod. apply Zpow_mod_correct. pose proof p_gt_1; lia. Qed.
  Lemma pow_q_eq b e : pow_q E b e = b ^ e mod qq E.
  Proof. unfold pow_q, powmod. apply Zpow_mod_correct. pose proof q_gt_1; lia. Qed.

  Lemma fold_add_mod l : forall s, 1 < qq E ->
    fold_left (fun s e => (s + e) mod qq E) l s mod qq E = (s + sumZ l) mod qq E.
  Proof.
    induction l as [|x l IH]; intros s Hs; cbn [fold_left sumZ fold_right].
    - f_equal; lia.
    - rewrite IH by assumption. rewrite Zplus_mod_idemp_l. f_equal.
      change (fold_right Z.add 0 l) with (sumZ l). lia.
  Qed.
  Lemma fold_add_range l : forall s, 0 <= s < qq E ->
    0 <= fold_left (fun s e => (s + e) mod qq E) l s < qq E.
  Proof.
    induction l as [|x l IH]; intros s Hs; cbn [fold_left]; [assumption|].
    apply IH. apply Z.mod_pos_bound. pose proof q_gt_1; lia.
  Qed.
  Lemma add_q_eq l : add_q E l = sumZ l mod qq E.
  Proof.
    pose proof q_gt_1. unfold add_q.
    rewrite <- (Z.mod_small (fold_left _ _ _) (qq E)) by (apply fold_add_range; lia).
    rewrite fold_add_mod by assumption. f_equal.
  Qed.

  Lemma fold_mul_mod m l : forall s, 1 < m ->
    fold_left (fun s e => (s * e) mod m) l s mod m = (s * prodZ l) mod m.
  Proof.
    induction l as [|x l IH]; intros s Hs; cbn [fold_left prodZ fold_right].
    - f_equal; lia.
    - rewrite IH by assumption. rewrite Zmult_mod_idemp_l. f_equal.
      change (fold_right Z.mul 1 l) with (prodZ l). lia.
  Qed.
  Lemma fold_mul_range m l : forall s, 1 < m -> 0 <= s < m ->
    0 <= fold_left (fun s e => (s * e) mod m) l s < m.
  Proof.
    induction l as [|x l IH]; intros s Hm Hs; cbn [fold_left]; [assumption|].
    apply IH; [assumption|]. apply Z.mod_pos_bound; lia.
  Qed.
  Lemma mult_p_eq l : mult_p E l = prodZ l mod pp E.
  Proof.
    pose proof p_gt_1. unfold mult_p.
    rewrite <- (Z.mod_small (fold_left _ _ _) (pp E)) by (apply fold_mul_range; lia).
    rewrite fold_mul_mod by assumption. f_equal; lia.
  Qed.
  Lemma mult_q_eq l : mult_q E l = prodZ l mod qq E.
  Proof.
    pose proof q_gt_1. unfold mult_q.
    rewrite <- (Z.mod_small (fold_left _ _ _) (qq E)) by (apply fold_mul_range; lia).
    rewrite fold_mul_mod by assumption. f_equal; lia.
  Qed.

  Lemma mult_p_2 x y : mult_p E [x; y] = mulm (pp E) x y.
  Proof. rewrite mult_p_eq. unfold mulm; cbn [prodZ fold_right]. f_equal; lia. Qed.

  Lemma g_resid : resid (pp E) (qq E) (gg E).
  Proof. split; [pose proof (ve_g E HE); lia|apply (ve_gq E HE)]. Qed.
  Lemma g_not_1 : gg E <> 1.
  Proof. pose proof (ve_g E HE); lia. Qed.

  Lemma is_valid_residue_iff x : is_valid_residue E x = true <-> resid (pp E) (qq E) x.
  Proof.
    unfold is_valid_residue, is_in_bounds_p, in_bounds, resid. rewrite pow_p_eq.
    rewrite !andb_true_iff, Z.leb_le, Z.ltb_lt, Z.eqb_eq. tauto.
  Qed.
  Lemma is_in_bounds_q_iff x : is_in_bounds_q E x = true <-> 0 <= x < qq E.
  Proof. unfold is_in_bounds_q, in_bounds. rewrite andb_true_iff, Z.leb_le, Z.ltb_lt. tauto. Qed.
  Lemma is_in_bounds_p_iff x : is_in_bounds_p E x = true <-> 0 <= x < pp E.
  Proof. unfold is_in_bounds_p, in_bounds. rewrite andb_true_iff, Z.leb_le, Z.ltb_lt. tauto. Qed.

  (** powers *)
  Definition GX (x e : Z) := xp (pp E) (qq E) x e.
  Definition G1 (e : Z) := GX (gg E) e.

  Lemma pow_p_xp x e : resid (pp E) (qq E) x -> 0 <= e -> pow_p E x e = GX x e.
  Proof.
    intros Hx He. rewrite pow_p_eq. apply xp_pow; [apply p_gt_1|apply q_gt_1|apply Hx|assumption].
  Qed.
  Lemma g_pow_p_xp e : 0 <= e -> g_pow_p E e = G1 e.
  Proof. intros; unfold g_pow_p; apply pow_p_xp; [apply g_resid|assumption]. Qed.

  Lemma pow_p_range x e : 0 <= pow_p E x e < pp E.
  Proof. rewrite pow_p_eq; apply Z.mod_pos_bound; pose proof p_gt_1; lia. Qed.
  Lemma mult_p_range l : 0 <= mult_p E l < pp E.
  Proof. rewrite mult_p_eq; apply Z.mod_pos_bound; pose proof p_gt_1; lia. Qed.
  Lemma add_q_range l : 0 <= add_q E l < qq E.
  Proof. rewrite add_q_eq; apply Z.mod_pos_bound; pose proof q_gt_1; lia. Qed.
  Lemma mult_q_range l : 0 <= mult_q E l < qq E.
  Proof. rewrite mult_q_eq; apply Z.mod_pos_bound; pose proof q_gt_1; lia. Qed.
  Lemma a_plus_bc_q_range a b c : 0 <= a_plus_bc_q E a b c < qq E.
  Proof. unfold a_plus_bc_q; apply Z.mod_pos_bound; pose proof q_gt_1; lia. Qed.
  Lemma a_minus_b_q_range a b : 0 <= a_minus_b_q E a b < qq E.
  Proof. unfold a_minus_b_q; apply Z.mod_pos_bound; pose proof q_gt_1; lia. Qed.
  Lemma pow_q_range b e : 0 <= pow_q E b e < qq E.
  Proof. rewrite pow_q_eq; apply Z.mod_pos_bound; pose proof q_gt_1; lia. Qed.

  Lemma mult_inv_p_resid x : resid (pp E) (qq E) x -> mult_inv_p E x = Ok (GX x (-1)).
  Proof.
    intros Hx. pose proof p_gt_1 as Hp. pose proof q_gt_1 as Hq.
    unfold mult_inv_p.
    pose proof (mulm_inv _ _ Hp Hq x Hx) as Hinv.
    destruct (Z.eqb_spec x 0) as [->|Hx0].
    { unfold mulm in Hinv. rewrite Z.mul_0_l, Z.mod_0_l in Hinv by lia. discriminate. }
    assert (Hrel : rel_prime x (pp E)).
    { apply rel_prime_prime; [apply (ve_p E HE)|]. rewrite Z.mod_small by apply Hx. assumption. }
    destruct (invert_complete x (pp E) Hp Hrel) as [i Hi]. rewrite Hi. f_equal.
    destruct (invert_spec _ _ _ Hp Hi) as [Hr Hxi].
    apply (mulm_cancel_l _ _ Hp Hq x); auto using xp_range.
    - apply xp_range; assumption.
    - fold (GX x (-1)) in Hinv. rewrite Hinv. exact Hxi.
  Qed.
End GroupOps.
