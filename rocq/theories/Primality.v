(** * Primality: Fermat's little theorem and Pocklington certificates for the larger constants. *)
From Verif Require Import Base.
From Coq Require Import Znumtheory Zpow_facts Permutation Lia.
From Coq Require Import List.

Section Fermat.
  Variables (d : Z) (Hd : prime d).
  Let L : list Z := map Z.of_nat (seq 1 (Z.to_nat (d - 1))).
  Lemma d_gt_1 : 1 < d. Proof. destruct Hd; assumption. Qed.
  Lemma L_in x : In x L <-> 1 <= x < d.
  Proof.
    pose proof d_gt_1. unfold L. rewrite in_map_iff. split.
    - intros [n [<- Hn]]. apply in_seq in Hn. lia.
    - intros Hx. exists (Z.to_nat x). rewrite in_seq. lia.
  Qed.
  Lemma L_nodup : NoDup L.
  Proof. unfold L. apply FinFun.Injective_map_NoDup; [intros a b; lia|apply seq_NoDup]. Qed.
  Lemma prime_coprime x : x mod d <> 0 -> rel_prime x d.
  Proof.
    intros Hx. apply rel_prime_sym. destruct (prime_rel_prime d Hd x) as [H1 H2 H3].
    - intros Hdiv. apply Hx. apply Zdivide_mod; assumption.
    - constructor; assumption.
  Qed.
  Lemma cancel a x y : a mod d <> 0 -> (a * x) mod d = (a * y) mod d -> x mod d = y mod d.
  Proof.
    intros Ha Heq. pose proof d_gt_1.
    assert (Hdiv : (d | a * (x - y))).
    { apply Zmod_divide; [lia|]. rewrite Z.mul_sub_distr_l, Zminus_mod, Heq, Z.sub_diag. reflexivity. }
    apply prime_mult in Hdiv; [|assumption]. destruct Hdiv as [Hdiv|Hdiv].
    - exfalso. apply Ha, Zdivide_mod; assumption.
    - apply Zdivide_mod in Hdiv. rewrite Zminus_mod in Hdiv.
      pose proof (Z.mod_pos_bound x d ltac:(lia)). pose proof (Z.mod_pos_bound y d ltac:(lia)).
      apply Z.mod_divide in Hdiv; [|lia]. destruct Hdiv as [k Hk]. assert (k = 0) by nia. subst; lia.
  Qed.
  Lemma prod_mul a l : fold_right Z.mul 1 (map (Z.mul a) l) = a ^ (Z.of_nat (length l)) * fold_right Z.mul 1 l.
  Proof.
    induction l as [|x l IH]; [reflexivity|]. cbn [map fold_right length]. rewrite IH.
    rewrite Nat2Z.inj_succ, Z.pow_succ_r by lia. ring.
  Qed.
  Lemma prod_mod l : (fold_right Z.mul 1 (map (fun x => x mod d) l)) mod d = (fold_right Z.mul 1 l) mod d.
  Proof.
    induction l as [|x l IH]; [reflexivity|]. cbn [map fold_right].
    rewrite Zmult_mod, IH, Z.mod_mod, <- Zmult_mod; [reflexivity|]. pose proof d_gt_1; lia.
  Qed.
  Lemma prod_perm l l' : Permutation l l' -> fold_right Z.mul 1 l = fold_right Z.mul 1 l'.
  Proof. induction 1; cbn; lia. Qed.
  Lemma prod_nonzero l : (forall x, In x l -> x mod d <> 0) -> (fold_right Z.mul 1 l) mod d <> 0.
  Proof.
    pose proof d_gt_1. induction l as [|x l IH]; intros Hl; cbn [fold_right].
    - rewrite Z.mod_small; lia.
    - intros H0. apply Z.mod_divide in H0; [|lia]. apply prime_mult in H0; [|assumption].
      destruct H0 as [H0|H0]; apply Zdivide_mod in H0.
      + apply (Hl x); [left; reflexivity|assumption].
      + apply IH; [|assumption]. intros y Hy. apply Hl. right; assumption.
  Qed.
  Lemma fermat_little a : a mod d <> 0 -> a ^ (d - 1) mod d = 1.
  Proof.
    intros Ha. pose proof d_gt_1 as Hd1.
    assert (Hperm : Permutation (map (fun x => (a * x) mod d) L) L).
    { apply NoDup_Permutation_bis.
      - assert (Hn := L_nodup). assert (Hin := fun x => proj1 (L_in x)). revert Hn Hin. generalize L as l.
        induction l as [|x l IH]; intros Hn Hin; cbn; constructor.
        + rewrite in_map_iff. intros [y [Hy Hyl]]. apply cancel in Hy; [|assumption].
          rewrite !Z.mod_small in Hy.
          * subst. inversion Hn; contradiction.
          * specialize (Hin x (or_introl eq_refl)). lia.
          * specialize (Hin y (or_intror Hyl)). lia.
        + inversion Hn; subst. apply IH; [assumption|]. intros z Hz. apply Hin. right; assumption.
      - rewrite map_length. lia.
      - intros y Hy. apply in_map_iff in Hy as [x [<- Hx]]. apply L_in in Hx. apply L_in.
        pose proof (Z.mod_pos_bound (a * x) d ltac:(lia)).
        enough ((a * x) mod d <> 0) by lia. intros H0. apply Z.mod_divide in H0; [|lia].
        apply prime_mult in H0; [|assumption]. destruct H0 as [H0|H0]; apply Zdivide_mod in H0; [contradiction|].
        rewrite Z.mod_small in H0; lia. }
    pose proof (prod_perm _ _ Hperm) as Hp.
    pose proof (prod_mod (map (Z.mul a) L)) as Hm. rewrite map_map in Hm. rewrite Hp, prod_mul in Hm.
    assert (Hlen : Z.of_nat (length L) = d - 1) by (unfold L; rewrite map_length, seq_length; lia).
    rewrite Hlen in Hm. set (P := fold_right Z.mul 1 L) in *.
    assert (HP : P mod d <> 0).
    { apply prod_nonzero. intros x Hx. apply L_in in Hx. rewrite Z.mod_small; lia. }
    replace P with (P * 1) in Hm at 1 by ring. rewrite (Z.mul_comm (a ^ (d - 1)) P) in Hm.
    symmetry in Hm. apply cancel in Hm; [|assumption]. rewrite Hm. apply Z.mod_small; lia.
  Qed.
End Fermat.

Lemma prime_divisor_exists : forall n, 1 < n -> exists d, prime d /\ (d | n).
Proof.
  intros n Hn. assert (H0 : 0 <= n) by lia. revert Hn. pattern n. apply Z_lt_induction; [|assumption].
  clear n H0. intros n IH Hn. destruct (prime_dec n) as [Hp|Hp].
  - exists n. split; [assumption|apply Z.divide_refl].
  - apply not_prime_divide in Hp; [|assumption]. destruct Hp as [m [Hm Hdiv]].
    destruct (IH m) as [d [H1 H2]]; [lia|lia|]. exists d. split; [assumption|]. eapply Z.divide_trans; eassumption.
Qed.
Lemma small_prime_divisor n : 1 < n -> ~ prime n -> exists d, prime d /\ (d | n) /\ d * d <= n.
Proof.
  intros Hn Hp. apply not_prime_divide in Hp; [|assumption]. destruct Hp as [m [Hm [k Hk]]].
  assert (Hmk : exists e, 1 < e /\ (e | n) /\ e * e <= n).
  { destruct (Z_le_dec m k).
    - exists m. split; [lia|]. split; [exists k; assumption|nia].
    - exists k. split; [nia|]. split; [exists m; lia|nia]. }
  destruct Hmk as [e [He [Hen Hee]]]. destruct (prime_divisor_exists e He) as [d [Hd Hde]].
  exists d. split; [assumption|]. split; [eapply Z.divide_trans; eassumption|].
  apply Z.divide_pos_le in Hde; [|lia]. destruct Hd. nia.
Qed.

Lemma pow_mod_1 b e d : 1 < d -> 0 <= e -> b mod d = 1 -> b ^ e mod d = 1.
Proof. intros Hd He Hb. rewrite Zpower_mod by lia. rewrite Hb, Z.pow_1_l by lia. apply Z.mod_small; lia. Qed.

(** a witness for the prime f, where n - 1 = f * r: every prime factor of n is 1 modulo f *)
Lemma witness_divides n f r a d :
  1 < n -> prime f -> n - 1 = f * r -> prime d -> (d | n) ->
  a ^ (n - 1) mod n = 1 -> Z.gcd (a ^ r mod n - 1) n = 1 -> (f | d - 1).
Proof.
  intros Hn Hf Hr Hd Hdn Ha Hg.
  assert (Hd1 := prime_ge_2 d Hd). assert (Hf1 := prime_ge_2 f Hf).
  assert (Hr0 : 0 < r) by nia.
  assert (Hmod : forall x, (x mod n) mod d = x mod d).
  { intros x. symmetry. apply Zmod_div_mod; [lia|lia|assumption]. }
  assert (H1 : a ^ (n - 1) mod d = 1) by (rewrite <- Hmod, Ha; apply Z.mod_small; lia).
  set (b := a ^ r) in *.
  assert (Hbf : b ^ f mod d = 1).
  { unfold b. rewrite <- Z.pow_mul_r by lia. rewrite Z.mul_comm, <- Hr. assumption. }
  assert (Hb1 : b mod d <> 1).
  { intros Hb. assert (Hdiv : (d | b mod n - 1)).
    { apply Zmod_divide; [lia|]. rewrite Zminus_mod, Hmod, Hb, (Z.mod_small 1) by lia. reflexivity. }
    assert ((d | 1)) by (rewrite <- Hg; apply Z.gcd_greatest; assumption).
    apply Z.divide_1_r in H. lia. }
  assert (Hb0 : b mod d <> 0).
  { intros Hb. rewrite Zpower_mod in Hbf by lia. rewrite Hb, Z.pow_0_l in Hbf by lia.
    rewrite Z.mod_0_l in Hbf by lia. discriminate. }
  pose proof (fermat_little d Hd b Hb0) as Hfl.
  destruct (Z.eq_dec ((d - 1) mod f) 0) as [Hz|Hz].
  - apply Z.mod_divide in Hz; [|lia]. assumption.
  - exfalso. assert (Hrel : rel_prime (d - 1) f) by (apply prime_coprime; assumption).
    destruct (rel_prime_bezout _ _ Hrel) as [u v Huv].
    assert (Hpos : exists u' v', 0 <= u' /\ 0 <= v' /\ u' * (d - 1) = 1 + v' * f).
    { exists (u + f * (Z.abs u + Z.abs v)), ((d - 1) * (Z.abs u + Z.abs v) - v).
      clear - Huv Hd1 Hf1. set (s := Z.abs u + Z.abs v).
      assert (Hs : 0 <= s /\ - s <= u <= s /\ - s <= v <= s) by (unfold s; lia). clearbody s.
      assert (f * s >= 2 * s /\ (d - 1) * s >= 1 * s) by nia.
      split; [lia|]. split; [lia|]. 
      replace (1 + ((d - 1) * s - v) * f) with (u * (d - 1) + v * f + ((d - 1) * s - v) * f) by (rewrite Huv; reflexivity).
      ring. }
    destruct Hpos as [u' [v' [Hu [Hv He]]]].
    apply Hb1.
    assert (Hx : b ^ (u' * (d - 1)) mod d = 1).
    { rewrite (Z.mul_comm u'), Z.pow_mul_r by lia. apply pow_mod_1; [lia|lia|assumption]. }
    assert (Hvf : 0 <= v' * f) by (apply Z.mul_nonneg_nonneg; lia). clear Hr.
    rewrite He, Z.pow_add_r, Z.pow_1_r in Hx by (exact Hvf || lia).
    rewrite (Z.mul_comm v'), Z.pow_mul_r in Hx by lia.
    rewrite Zmult_mod, (pow_mod_1 (b ^ f) v' d), Z.mul_1_r, Z.mod_mod in Hx by (lia || assumption). assumption.
Qed.

(** different primes dividing a number: so does their product *)
Lemma primes_product fs m : NoDup fs -> Forall prime fs -> Forall (fun f => (f | m)) fs -> (fold_right Z.mul 1 fs | m).
Proof.
  induction fs as [|f fs IH]; intros Hn Hp Hd; cbn [fold_right]; [apply Z.divide_1_l|].
  inversion Hn as [|? ? Hni Hn']; subst. inversion Hp as [|? ? Hf Hp']; subst. inversion Hd as [|? ? Hfm Hd']; subst.
  specialize (IH Hn' Hp' Hd'). destruct IH as [k Hk].
  assert (Hco : ~ (f | fold_right Z.mul 1 fs)).
  { clear - Hf Hni Hp'. induction fs as [|g fs IH]; cbn [fold_right]; intros Hdiv.
    - apply Z.divide_1_r in Hdiv. destruct Hf. lia.
    - inversion Hp' as [|? ? Hg Hp'']; subst. apply prime_mult in Hdiv; [|assumption]. destruct Hdiv as [Hdiv|Hdiv].
      + apply Hni. left. symmetry. apply prime_div_prime; assumption.
      + apply IH; auto. intros Hin. apply Hni. right; assumption. }
  rewrite Hk in Hfm. apply prime_mult in Hfm; [|assumption]. destruct Hfm as [[j Hj]|Hfm]; [|contradiction].
  exists j. rewrite Hk, Hj. ring.
Qed.

(** the certificate (Pocklington): known different primes dividing n - 1 whose product F has F*F > n, each
    with a witness a *)
Theorem pocklington_check n (cert : list (Z * Z)) :
  1 < n -> NoDup (map fst cert) -> Forall prime (map fst cert) ->
  n < fold_right Z.mul 1 (map fst cert) * fold_right Z.mul 1 (map fst cert) ->
  forallb (fun '(f, a) => ((n - 1) mod f =? 0) && (Zpow_mod a (n - 1) n =? 1) && (Z.gcd (Zpow_mod a ((n - 1) / f) n - 1) n =? 1)) cert = true ->
  prime n.
Proof.
  intros Hn Hnd Hpr Hbig Hc. destruct (prime_dec n) as [Hp|Hp]; [assumption|exfalso].
  apply small_prime_divisor in Hp; [|assumption]. destruct Hp as [d [Hd [Hdn Hdd]]].
  assert (Hdiv : Forall (fun f => (f | d - 1)) (map fst cert)).
  { rewrite forallb_forall in Hc. rewrite Forall_forall in *. intros f Hf. pose proof (Hpr f Hf) as Hfp.
    apply in_map_iff in Hf as [[f' a] [Heq Hin]]. cbn [fst] in Heq. subst f'. specialize (Hc (f, a) Hin). cbv beta iota in Hc.
    rewrite !andb_true_iff, !Z.eqb_eq in Hc. destruct Hc as [[H1 H2] H3]. rewrite Zpow_mod_correct in H2, H3 by lia.
    assert (Hf1 := prime_ge_2 f Hfp).
    apply (witness_divides n f ((n - 1) / f) a d); try assumption. apply Z.div_exact; [lia|assumption]. }
  pose proof (primes_product _ (d - 1) Hnd Hpr Hdiv) as Hprod. assert (Hd1 := prime_ge_2 d Hd).
  apply Z.divide_pos_le in Hprod; [|lia]. 
  assert (0 <= fold_right Z.mul 1 (map fst cert)).
  { clear - Hpr. induction (map fst cert) as [|f l IH]; cbn; [lia|]. inversion Hpr as [|? ? H1 H2]; subst. specialize (IH H2). assert (H3 := prime_ge_2 f H1). nia. }
  nia.
Qed.
