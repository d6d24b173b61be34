(** * Lemmas: exponent algebra for the model, completeness and special soundness. *)
From Verif Require Import Base Group GroupFacts Codec Hash DLog ElGamal ZK.
From Coq Require Import Znumtheory.

Section Algebra.
  Variable E : env.
  Hypothesis HE : valid_env E.
  Let p := pp E.
  Let q := qq E.
  Let Hp : 1 < pp E := p_gt_1 E HE.
  Let Hq : 1 < qq E := q_gt_1 E HE.
  Notation rs := (resid (pp E) (qq E)).

  Lemma hash_range l : 0 <= hash_elems E l < qq E.
  Proof. unfold hash_elems; apply Z.mod_pos_bound; lia. Qed.
  Lemma nonce_at_range s i : 0 <= nonce_at E s i < qq E.
  Proof. apply hash_range. Qed.
  Lemma hnonce_range s h i : 0 <= hnonce E s h i < qq E.
  Proof. apply hash_range. Qed.

  Lemma GX_range x e : 0 <= GX E x e < pp E.
  Proof. apply xp_range; assumption. Qed.
  Lemma GX_resid x e : rs x -> rs (GX E x e).
  Proof. intros Hx; apply xp_resid; try assumption. apply Hx. Qed.
  Lemma G1_resid e : rs (G1 E e).
  Proof. apply GX_resid, g_resid, HE. Qed.
  Lemma GX_mul x a b : rs x -> mult_p E [GX E x a; GX E x b] = GX E x (a + b).
  Proof. intros Hx. rewrite mult_p_2 by assumption. apply xp_add; try assumption; apply Hx. Qed.
  Lemma G1_mul a b : mult_p E [G1 E a; G1 E b] = G1 E (a + b).
  Proof. apply GX_mul, g_resid, HE. Qed.
  Lemma pow_GX x a e : rs x -> 0 <= e -> pow_p E (GX E x a) e = GX E x (a * e).
  Proof.
    intros Hx He. rewrite pow_p_xp by (auto using GX_resid).
    apply xp_xp; try assumption; apply Hx.
  Qed.
  Lemma pow_G1 a e : 0 <= e -> pow_p E (G1 E a) e = G1 E (a * e).
  Proof. intros; apply pow_GX; [apply g_resid, HE|assumption]. Qed.
  Lemma GX_GX x a e : rs x -> GX E (GX E x a) e = GX E x (a * e).
  Proof. intros Hx; apply xp_xp; try assumption; apply Hx. Qed.
  Lemma GX_G1 a e : GX E (G1 E a) e = G1 E (a * e).
  Proof. apply GX_GX, g_resid, HE. Qed.
  Lemma GX_congr x a b : a mod qq E = b mod qq E -> GX E x a = GX E x b.
  Proof. apply xp_congr. Qed.
  Lemma G1_congr a b : a mod qq E = b mod qq E -> G1 E a = G1 E b.
  Proof. apply GX_congr. Qed.
  Lemma G1_inj a b : G1 E a = G1 E b -> a mod qq E = b mod qq E.
  Proof.
    apply xp_inj; try assumption; [apply (ve_q E HE)|apply g_resid, HE|apply g_not_1, HE].
  Qed.
  Lemma G1_pow a : 0 <= a -> (gg E) ^ a mod pp E = G1 E a.
  Proof. intros; rewrite <- (pow_p_eq E HE). apply g_pow_p_xp; assumption. Qed.
  Lemma GX_mulbase x y e : GX E (mult_p E [x; y]) e = mult_p E [GX E x e; GX E y e].
  Proof. rewrite !mult_p_2 by assumption. apply xp_mulm; assumption. Qed.
  Lemma mult_comm x y : mult_p E [x; y] = mult_p E [y; x].
  Proof. rewrite !mult_p_2 by assumption; apply mulm_comm. Qed.
  Lemma mult_assoc x y z : mult_p E [x; mult_p E [y; z]] = mult_p E [mult_p E [x; y]; z].
  Proof. rewrite !mult_p_2 by assumption; apply mulm_assoc; assumption. Qed.
  Lemma mult_resid x y : rs x -> rs y -> rs (mult_p E [x; y]).
  Proof. intros; rewrite mult_p_2 by assumption; apply resid_mulm; assumption. Qed.
  Lemma GX_0 x : GX E x 0 = 1.
  Proof. apply xp_0; assumption. Qed.
  Lemma GX_1 x : rs x -> GX E x 1 = x.
  Proof. intros [? ?]; apply xp_1; assumption. Qed.
  Lemma mult_1_r x : 0 <= x < pp E -> mult_p E [x; 1] = x.
  Proof. intros; rewrite mult_p_2 by assumption; apply mulm_1_r; assumption. Qed.
  Lemma mult_1_l x : 0 <= x < pp E -> mult_p E [1; x] = x.
  Proof. intros; rewrite mult_p_2 by assumption; apply mulm_1_l; assumption. Qed.
  Lemma mult_cancel_l x y z : rs x -> 0 <= y < pp E -> 0 <= z < pp E ->
    mult_p E [x; y] = mult_p E [x; z] -> y = z.
  Proof.
    intros Hx Hy Hz. rewrite !mult_p_2 by assumption.
    apply (mulm_cancel_l (pp E) (qq E) Hp Hq); assumption.
  Qed.

  Lemma residue_ok x : rs x -> is_valid_residue E x = true.
  Proof. apply is_valid_residue_iff; assumption. Qed.
  Lemma bounds_q_ok x : 0 <= x < qq E -> is_in_bounds_q E x = true.
  Proof. apply is_in_bounds_q_iff. Qed.
  Lemma bounds_p_ok x : 0 <= x < pp E -> is_in_bounds_p E x = true.
  Proof. apply is_in_bounds_p_iff. Qed.

  Lemma apbc_mod a b c : a_plus_bc_q E a b c mod qq E = (a + b * c) mod qq E.
  Proof. unfold a_plus_bc_q. apply Z.mod_mod; lia. Qed.
End Algebra.

(** congruence modulo q by ring arithmetic: [exists k, a = b + k*q] style goals *)
Lemma mod_eq_sub a b m : 0 < m -> (m | a - b) -> a mod m = b mod m.
Proof.
  intros Hm [k Hk]. replace a with (b + k * m) by lia. apply Z.mod_add; lia.
Qed.
Lemma mod_sub_eq a b m : 0 < m -> a mod m = b mod m -> (m | a - b).
Proof.
  intros Hm H. apply Z.mod_divide; [lia|]. rewrite Zminus_mod, H, Z.sub_diag. apply Z.mod_0_l; lia.
Qed.
Lemma mod_form a m : 0 < m -> exists k, a mod m = a + k * m.
Proof. intros Hm. exists (- (a / m)). pose proof (Z.div_mod a m ltac:(lia)). lia. Qed.

(** ** Completeness *)
Section Complete.
  Variable E : env.
  Hypothesis HE : valid_env E.
  Let Hp : 1 < pp E := p_gt_1 E HE.
  Let Hq : 1 < qq E := q_gt_1 E HE.

  (* normalise every [x mod q] below into [x + k*q], then prove congruence *)
  Ltac qnorm :=
    repeat match goal with
    | |- context [?a mod qq E] =>
        let k := fresh "k" in let Hk := fresh "Hk" in
        destruct (mod_form a (qq E) ltac:(lia)) as [k Hk];
        progress (rewrite Hk in * ); clear Hk
    end.

  Ltac rgoal := solve [lia | assumption | apply mult_resid;
    [assumption|apply G1_resid; assumption|apply GX_resid; assumption]].

  Lemma schnorr_complete s r :
    0 <= s < qq E -> 0 <= r < qq E ->
    schnorr_is_valid E (make_schnorr_proof E {| kp_secret := s; kp_public := g_pow_p E s |} r) = true.
  Proof.
    intros Hs Hr. unfold schnorr_is_valid, make_schnorr_proof. cbn [s_key s_com s_chal s_resp kp_secret kp_public].
    set (c := hash_elems E _).
    assert (Hc : 0 <= c < qq E) by (apply hash_range; assumption).
    rewrite !andb_true_iff. repeat split.
    - apply residue_ok; [assumption|]. rewrite g_pow_p_xp by (assumption || lia). apply G1_resid; assumption.
    - apply bounds_p_ok. rewrite g_pow_p_xp by (assumption||lia). apply GX_range; assumption.
    - apply bounds_q_ok, a_plus_bc_q_range; assumption.
    - apply Z.eqb_refl.
    - apply Z.eqb_eq.
      pose proof (a_plus_bc_q_range E HE r s c) as Hu.
      rewrite !g_pow_p_xp by (assumption||lia).
      rewrite pow_G1, G1_mul by (assumption||lia).
      apply G1_congr. apply apbc_mod; assumption.
  Qed.

  Lemma disj_zero_complete r k q seed :
    0 <= r < qq E -> resid (pp E) (qq E) k ->
    let m := mkCt (g_pow_p E r) (pow_p E k r) in
    disj_is_valid E (make_disj_zero E m r k q seed) m k q = true.
  Proof.
    intros Hr Hk m. unfold disj_is_valid, make_disj_zero.
    cbn [d_a0 d_b0 d_a1 d_b1 d_c0 d_c1 d_c d_v0 d_v1 ct_pad ct_data m].
    pose proof (hnonce_range E HE seed disj_header 0) as H0.
    pose proof (hnonce_range E HE seed disj_header 1) as H1.
    pose proof (hnonce_range E HE seed disj_header 2) as H2.
    set (c1 := hnonce E seed disj_header 0) in *.
    set (v := hnonce E seed disj_header 1) in *.
    set (u0 := hnonce E seed disj_header 2) in *.
    set (c := hash_elems E _).
    assert (Hc : 0 <= c < qq E) by (apply hash_range; assumption).
    pose proof (a_minus_b_q_range E HE c c1) as Hc0.
    assert (Hc0m : a_minus_b_q E c c1 mod qq E = (c - c1) mod qq E)
      by (unfold a_minus_b_q; apply Z.mod_mod; lia).
    set (c0 := a_minus_b_q E c c1) in *.
    pose proof (a_plus_bc_q_range E HE u0 c0 r) as Hv0.
    pose proof (a_plus_bc_q_range E HE v c1 r) as Hv1.
    pose proof (apbc_mod E HE u0 c0 r) as Hv0m.
    pose proof (apbc_mod E HE v c1 r) as Hv1m.
    set (v0 := a_plus_bc_q E u0 c0 r) in *. set (v1 := a_plus_bc_q E v c1 r) in *.
    pose proof (g_resid E HE) as Hg.
    rewrite !andb_true_iff.
    assert (Hcc : add_q E [c0; c1] = c).
    { rewrite add_q_eq by assumption. cbn [sumZ fold_right].
      replace (c0 + (c1 + 0)) with (c0 + c1) by lia.
      rewrite <- Zplus_mod_idemp_l, Hc0m, Zplus_mod_idemp_l.
      replace (c - c1 + c1) with c by lia. apply Z.mod_small; lia. }
    repeat split; try (apply residue_ok; [assumption|]); try (apply bounds_q_ok; assumption).
    - rewrite g_pow_p_xp by (assumption||lia); apply G1_resid; assumption.
    - rewrite pow_p_xp by (assumption||lia); apply GX_resid; assumption.
    - rewrite g_pow_p_xp by (assumption||lia); apply G1_resid; assumption.
    - rewrite pow_p_xp by (assumption||lia); apply GX_resid; assumption.
    - rewrite g_pow_p_xp by (assumption||lia); apply G1_resid; assumption.
    - rewrite g_pow_p_xp, pow_p_xp by (assumption||lia).
      apply mult_resid; [assumption|apply GX_resid; assumption|apply G1_resid; assumption].
    - apply Z.eqb_eq; assumption.
    - apply Z.eqb_refl.
    - apply Z.eqb_eq. rewrite !g_pow_p_xp by (assumption||lia).
      rewrite pow_G1, G1_mul by (assumption||lia). apply G1_congr.
      rewrite Hv0m. f_equal; lia.
    - apply Z.eqb_eq. rewrite !g_pow_p_xp by (assumption||lia).
      rewrite pow_G1, G1_mul by (assumption||lia). apply G1_congr.
      rewrite Hv1m. f_equal; lia.
    - apply Z.eqb_eq. rewrite !(pow_p_xp E HE k) by (assumption||lia).
      rewrite pow_GX, GX_mul by (assumption||lia). apply GX_congr.
      rewrite Hv0m. f_equal; lia.
    - apply Z.eqb_eq. rewrite !(pow_p_xp E HE k) by (assumption||lia).
      rewrite !g_pow_p_xp by (assumption||lia).
      rewrite pow_GX by (assumption||lia).
      rewrite (mult_comm E HE (GX E k v)), <- mult_assoc, GX_mul by (assumption||lia).
      f_equal. f_equal. f_equal. apply GX_congr. rewrite Hv1m. f_equal; lia.
  Qed.

  Lemma disj_one_complete r k q seed :
    0 <= r < qq E -> resid (pp E) (qq E) k ->
    hnonce E seed disj_header 0 <> 0 ->
    let m := mkCt (g_pow_p E r) (mult_p E [g_pow_p E 1; pow_p E k r]) in
    exists pf, make_disj_one E m r k q seed = Ok pf /\ disj_is_valid E pf m k q = true.
  Proof.
    intros Hr Hk Hw0 m. unfold make_disj_one.
    cbn [d_a0 d_b0 d_a1 d_b1 d_c0 d_c1 d_c d_v0 d_v1 ct_pad ct_data m].
    pose proof (hnonce_range E HE seed disj_header 0) as H0.
    pose proof (hnonce_range E HE seed disj_header 1) as H1.
    pose proof (hnonce_range E HE seed disj_header 2) as H2.
    set (w := hnonce E seed disj_header 0) in *.
    set (v := hnonce E seed disj_header 1) in *.
    set (u1 := hnonce E seed disj_header 2) in *.
    set (c := hash_elems E _).
    assert (Hc : 0 <= c < qq E) by (apply hash_range; assumption).
    unfold negate_q, ElementModQ.
    replace (in_bounds (qq E) (qq E - w)) with true
      by (symmetry; unfold in_bounds; apply andb_true_iff; rewrite Z.leb_le, Z.ltb_lt; lia).
    cbn [rbind]. eexists; split; [reflexivity|].
    unfold disj_is_valid. cbn [d_a0 d_b0 d_a1 d_b1 d_c0 d_c1 d_c d_v0 d_v1 ct_pad ct_data m].
    fold c.
    set (c0 := qq E - w) in *.
    assert (Hc0 : 0 <= c0 < qq E) by (unfold c0; lia).
    pose proof (add_q_range E HE [c; w]) as Hc1.
    assert (Hc1m : add_q E [c; w] mod qq E = (c + w) mod qq E).
    { rewrite add_q_eq, Z.mod_mod by (assumption||lia). cbn [sumZ fold_right]. f_equal; lia. }
    set (c1 := add_q E [c; w]) in *.
    pose proof (a_plus_bc_q_range E HE v c0 r) as Hv0.
    pose proof (a_plus_bc_q_range E HE u1 c1 r) as Hv1.
    pose proof (apbc_mod E HE v c0 r) as Hv0m.
    pose proof (apbc_mod E HE u1 c1 r) as Hv1m.
    set (v0 := a_plus_bc_q E v c0 r) in *. set (v1 := a_plus_bc_q E u1 c1 r) in *.
    pose proof (g_resid E HE) as Hg.
    assert (Hcc : add_q E [c0; c1] = c).
    { rewrite add_q_eq by assumption. cbn [sumZ fold_right].
      replace (c0 + (c1 + 0)) with (c1 + c0) by lia.
      rewrite <- Zplus_mod_idemp_l, Hc1m, Zplus_mod_idemp_l. unfold c0.
      replace (c + w + (qq E - w)) with (c + 1 * qq E) by lia.
      rewrite Z.mod_add by lia. apply Z.mod_small; lia. }
    rewrite !andb_true_iff.
    repeat split; try (apply residue_ok; [assumption|]); try (apply bounds_q_ok; assumption).
    - rewrite g_pow_p_xp by (assumption||lia); apply G1_resid; assumption.
    - rewrite g_pow_p_xp, pow_p_xp by (assumption||lia).
      apply mult_resid; [assumption|apply G1_resid; assumption|apply GX_resid; assumption].
    - rewrite g_pow_p_xp by (assumption||lia); apply G1_resid; assumption.
    - rewrite g_pow_p_xp, pow_p_xp by (assumption||lia).
      apply mult_resid; [assumption|apply GX_resid; assumption|apply G1_resid; assumption].
    - rewrite g_pow_p_xp by (assumption||lia); apply G1_resid; assumption.
    - rewrite pow_p_xp by (assumption||lia); apply GX_resid; assumption.
    - apply Z.eqb_eq; assumption.
    - apply Z.eqb_refl.
    - apply Z.eqb_eq. rewrite !g_pow_p_xp by (assumption||lia).
      rewrite pow_G1, G1_mul by (assumption||lia). apply G1_congr.
      rewrite Hv0m. f_equal; lia.
    - apply Z.eqb_eq. rewrite !g_pow_p_xp by (assumption||lia).
      rewrite pow_G1, G1_mul by (assumption||lia). apply G1_congr.
      rewrite Hv1m. f_equal; lia.
    - (* k^v0 = (k^v g^w) (g k^r)^c0 *)
      apply Z.eqb_eq. rewrite !(pow_p_xp E HE k) by (assumption||lia).
      rewrite !g_pow_p_xp by (assumption||lia).
      rewrite (pow_p_xp E HE (mult_p E _)) by rgoal.
      rewrite GX_mulbase, GX_G1, (GX_GX E HE k) by assumption.
      rewrite (mult_assoc E HE _ (G1 E (1 * c0))), <- (mult_assoc E HE (GX E k v)) by assumption.
      rewrite G1_mul by assumption.
      rewrite (G1_congr E (w + 1 * c0) 0) by
        (unfold c0; replace (w + 1 * (qq E - w)) with (0 + 1 * qq E) by lia; apply Z.mod_add; lia).
      unfold G1 at 1. rewrite GX_0, mult_1_r by (try assumption; apply GX_range; assumption).
      rewrite GX_mul by assumption. apply GX_congr. rewrite Hv0m. f_equal; lia.
    - (* g^c1 k^v1 = k^u1 (g k^r)^c1 *)
      apply Z.eqb_eq. rewrite !(pow_p_xp E HE k) by (assumption||lia).
      rewrite !g_pow_p_xp by (assumption||lia).
      rewrite (pow_p_xp E HE (mult_p E _)) by rgoal.
      rewrite GX_mulbase, GX_G1, (GX_GX E HE k) by assumption.
      rewrite (mult_assoc E HE _ (G1 E (1 * c1))), (mult_comm E HE (GX E k u1)),
        <- mult_assoc, GX_mul by assumption.
      replace (1 * c1) with c1 by lia.
      f_equal. f_equal. f_equal. apply GX_congr. rewrite Hv1m. f_equal; lia.
  Qed.

  Lemma disj_one_zero_nonce m r k q seed :
    hnonce E seed disj_header 0 = 0 -> make_disj_one E m r k q seed = Err OverflowError.
  Proof.
    intros Hw. unfold make_disj_one. rewrite Hw. unfold negate_q, ElementModQ, in_bounds.
    rewrite Z.sub_0_r, Z.ltb_irrefl, andb_false_r. reflexivity.
  Qed.

  Lemma cp_complete msg s seed q :
    resid (pp E) (qq E) (ct_pad msg) -> resid (pp E) (qq E) (ct_data msg) ->
    0 <= s < qq E -> 0 <= q < qq E ->
    cp_is_valid E (make_chaum_pedersen E msg s (partial_decrypt E msg s) seed q)
      msg (g_pow_p E s) (partial_decrypt E msg s) q = true.
  Proof.
    intros Ha Hb Hs Hqr. unfold cp_is_valid, make_chaum_pedersen, partial_decrypt.
    cbn [cp_a cp_b cp_c cp_v].
    pose proof (hnonce_range E HE seed const_header 0) as Hu.
    set (u := hnonce E seed const_header 0) in *.
    set (c := hash_elems E _).
    assert (Hc : 0 <= c < qq E) by (apply hash_range; assumption).
    pose proof (a_plus_bc_q_range E HE u c s) as Hv.
    pose proof (apbc_mod E HE u c s) as Hvm.
    set (v := a_plus_bc_q E u c s) in *.
    rewrite !andb_true_iff.
    repeat split; try (apply residue_ok; [assumption|]); try (apply bounds_q_ok; assumption);
      try assumption.
    - rewrite g_pow_p_xp by (assumption||lia); apply G1_resid; assumption.
    - rewrite pow_p_xp by (assumption||lia); apply GX_resid; assumption.
    - rewrite g_pow_p_xp by (assumption||lia); apply G1_resid; assumption.
    - rewrite pow_p_xp by (assumption||lia); apply GX_resid; assumption.
    - apply Z.eqb_refl.
    - apply Z.eqb_eq. rewrite !g_pow_p_xp by (assumption||lia).
      rewrite pow_G1, G1_mul by (assumption||lia). apply G1_congr. rewrite Hvm. f_equal; lia.
    - apply Z.eqb_eq. rewrite !(pow_p_xp E HE (ct_pad msg)) by (assumption||lia).
      rewrite pow_GX, GX_mul by (assumption||lia). apply GX_congr. rewrite Hvm. f_equal; lia.
  Qed.

  Lemma const_complete r k L seed q :
    0 <= r < qq E -> resid (pp E) (qq E) k ->
    0 <= L < qq E -> L < 1000000000 -> qq E * L <= pp E ->
    let m := mkCt (g_pow_p E r) (mult_p E [g_pow_p E L; pow_p E k r]) in
    const_is_valid E (make_constant E m L r k seed q) m k q = true.
  Proof.
    intros Hr Hk HL HL9 HqL m. unfold const_is_valid, make_constant.
    cbn [cc_a cc_b cc_c cc_v cc_constant ct_pad ct_data m].
    pose proof (hnonce_range E HE seed const_header 0) as Hu.
    set (u := hnonce E seed const_header 0) in *.
    set (c := hash_elems E _).
    assert (Hc : 0 <= c < qq E) by (apply hash_range; assumption).
    pose proof (a_plus_bc_q_range E HE u c r) as Hv.
    pose proof (apbc_mod E HE u c r) as Hvm.
    set (v := a_plus_bc_q E u c r) in *.
    unfold int_to_q. replace (in_bounds (qq E) L) with true
      by (symmetry; unfold in_bounds; apply andb_true_iff; rewrite Z.leb_le, Z.ltb_lt; lia).
    rewrite !andb_true_iff.
    repeat split; try (apply residue_ok; [assumption|]); try (apply bounds_q_ok; assumption).
    - rewrite g_pow_p_xp by (assumption||lia); apply G1_resid; assumption.
    - rewrite g_pow_p_xp, pow_p_xp by (assumption||lia).
      apply mult_resid; [assumption|apply G1_resid; assumption|apply GX_resid; assumption].
    - rewrite g_pow_p_xp by (assumption||lia); apply G1_resid; assumption.
    - rewrite pow_p_xp by (assumption||lia); apply GX_resid; assumption.
    - apply Z.eqb_refl.
    - apply Z.leb_le; lia.
    - apply Z.ltb_lt; lia.
    - apply Z.eqb_eq. rewrite !g_pow_p_xp by (assumption||lia).
      rewrite pow_G1, G1_mul by (assumption||lia). apply G1_congr. rewrite Hvm. f_equal; lia.
    - apply Z.eqb_eq.
      assert (HcL : mult_p E [c; L] = c * L).
      { rewrite mult_p_eq by assumption. cbn [prodZ fold_right]. rewrite Z.mul_1_r.
        apply Z.mod_small. destruct (Z.eq_dec L 0) as [->|]; [lia|]. nia. }
      rewrite HcL. rewrite !(pow_p_xp E HE k) by (assumption||lia).
      rewrite !g_pow_p_xp by (assumption||nia).
      rewrite (pow_p_xp E HE (mult_p E _)) by rgoal.
      rewrite GX_mulbase, GX_G1, (GX_GX E HE k) by assumption.
      rewrite (mult_assoc E HE _ (G1 E (L * c))), (mult_comm E HE (GX E k u)),
        <- mult_assoc, GX_mul by assumption.
      replace (L * c) with (c * L) by lia.
      f_equal. f_equal. f_equal. apply GX_congr. rewrite Hvm. f_equal; lia.
  Qed.
End Complete.
