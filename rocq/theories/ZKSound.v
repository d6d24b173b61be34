(** * Special soundness of the proof systems. *)
From Verif Require Import Base Group GroupFacts Codec Hash DLog ElGamal ZK ZKFacts.
From Coq Require Import Znumtheory.

(** Two runs against different hash functions but in the same group. *)
Lemma same_group_valid E E' : same_group E E' -> valid_env E -> valid_env E'.
Proof.
  intros (Hp & Hq & Hg) [H1 H2 H3 H4 H5]. constructor; rewrite <- ?Hp, <- ?Hq, <- ?Hg; assumption.
Qed.

Section NumSound.
  Variables p q : Z.
  Hypothesis Hp : 1 < p.
  Hypothesis Hq : prime q.
  Let Hq1 : 1 < q. Proof. destruct Hq; assumption. Qed.
  Notation rs := (resid p q).
  Notation "x ^^ e" := (xp p q x e) (at level 30).
  Notation "x ** y" := (mulm p x y) (at level 40).

  (** two answers to one commitment: y^(c-c') = x^(v-v') *)
  Lemma two_answers x y a v v' c c' :
    rs x -> rs y -> rs a ->
    x ^^ v = a ** (y ^^ c) -> x ^^ v' = a ** (y ^^ c') ->
    y ^^ (c - c') = x ^^ (v - v').
  Proof.
    intros Hx Hy Ha H1 H2.
    apply (mulm_cancel_l p q Hp Hq1 (a ** (y ^^ c'))).
    - apply resid_mulm; auto. apply xp_resid; auto; apply Hy.
    - apply xp_range; lia.
    - apply xp_range; lia.
    - rewrite <- mulm_assoc by lia. rewrite xp_add by (lia || apply Hy).
      replace (c' + (c - c')) with c by lia. rewrite <- H1, <- H2.
      rewrite xp_add by (lia || apply Hx). f_equal; lia.
  Qed.

  Lemma two_answers_root x y a v v' c c' s :
    rs x -> rs y -> rs a ->
    x ^^ v = a ** (y ^^ c) -> x ^^ v' = a ** (y ^^ c') ->
    (c - c') mod q <> 0 -> (s * (c - c')) mod q = (v - v') mod q ->
    y = x ^^ s.
  Proof.
    intros Hx Hy Ha H1 H2 Hd Hs.
    pose proof (two_answers x y a v v' c c' Hx Hy Ha H1 H2) as Heq.
    destruct (inv_mod_q q Hq1 (c - c') Hq Hd) as [u Hu].
    rewrite (xp_root p q Hp Hq1 y x (c - c') (v - v') u Hy Hx Hu Heq).
    apply xp_congr.
    rewrite Zmult_mod, <- Hs, <- Zmult_mod.
    rewrite <- Z.mul_assoc, Zmult_mod, Hu, <- Zmult_mod. f_equal; lia.
  Qed.

  Lemma quotient_exists d v : d mod q <> 0 -> exists s, 0 <= s < q /\ (s * d) mod q = v mod q.
  Proof.
    intros Hd. destruct (inv_mod_q q Hq1 d Hq Hd) as [u Hu].
    exists ((v * u) mod q). split; [apply Z.mod_pos_bound; lia|].
    rewrite Zmult_mod_idemp_l.
    replace (v * u * d) with (v * (d * u)) by lia.
    rewrite Zmult_mod, Hu, <- Zmult_mod. f_equal; lia.
  Qed.
End NumSound.

Section Sound.
  Variables E E' : env.
  Hypothesis HE : valid_env E.
  Hypothesis Hsame : same_group E E'.
  Let HE' : valid_env E'. Proof. exact (same_group_valid E E' Hsame HE). Qed.
  Let Hpe : pp E' = pp E. Proof. destruct Hsame as (? & _ & _); congruence. Qed.
  Let Hqe : qq E' = qq E. Proof. destruct Hsame as (_ & ? & _); congruence. Qed.
  Let Hge : gg E' = gg E. Proof. destruct Hsame as (_ & _ & ?); congruence. Qed.
  Let Hp : 1 < pp E := p_gt_1 E HE.
  Let Hq : prime (qq E) := ve_q E HE.
  Let Hq1 : 1 < qq E := q_gt_1 E HE.

  Ltac split_valid H :=
    rewrite ?andb_true_iff in H;
    repeat match goal with HH : _ /\ _ |- _ => destruct HH end;
    repeat match goal with
    | HH : is_valid_residue ?e _ = true |- _ => apply (is_valid_residue_iff e ltac:(assumption)) in HH
    | HH : is_in_bounds_q _ _ = true |- _ => apply is_in_bounds_q_iff in HH
    | HH : is_in_bounds_p _ _ = true |- _ => apply is_in_bounds_p_iff in HH
    | HH : (_ =? _) = true |- _ => apply Z.eqb_eq in HH
    | HH : (_ <=? _) = true |- _ => apply Z.leb_le in HH
    | HH : (_ <? _) = true |- _ => apply Z.ltb_lt in HH
    end.

  (* the group part of E' is that of E *)
  Lemma pow_p' x e : pow_p E' x e = pow_p E x e.
  Proof. unfold pow_p. rewrite Hpe; reflexivity. Qed.
  Lemma mult_p' l : mult_p E' l = mult_p E l.
  Proof. unfold mult_p. rewrite Hpe; reflexivity. Qed.
  Lemma g_pow_p' e : g_pow_p E' e = g_pow_p E e.
  Proof. unfold g_pow_p, pow_p. rewrite Hpe, Hge; reflexivity. Qed.
  Lemma add_q' l : add_q E' l = add_q E l.
  Proof. unfold add_q. rewrite Hqe; reflexivity. Qed.
  Lemma resid' x : resid (pp E') (qq E') x <-> resid (pp E) (qq E) x.
  Proof. rewrite Hpe, Hqe; reflexivity. Qed.

  (** *** Schnorr *)
  Lemma schnorr_sound k h c c' u u' s :
    schnorr_is_valid E (mkSchnorr k h c u) = true ->
    schnorr_is_valid E' (mkSchnorr k h c' u') = true ->
    c <> c' -> (s * (c - c')) mod qq E = (u - u') mod qq E ->
    k = (gg E) ^ (s mod qq E) mod pp E.
  Proof.
    unfold schnorr_is_valid; cbn [s_key s_com s_chal s_resp]. intros H1 H2 Hcc Hs.
    pose proof (hash_range E HE [HElem k; HElem h]) as Hr1.
    pose proof (hash_range E' HE' [HElem k; HElem h]) as Hr2.
    split_valid H1. split_valid H2.
    rewrite g_pow_p', mult_p', pow_p' in *.
    assert (Hk : resid (pp E) (qq E) k) by assumption.
    subst c c'.
    set (c := hash_elems E _) in *. set (c' := hash_elems E' _) in *.
    rewrite Hqe in *.
    assert (Hpow : (gg E) ^ (s mod qq E) mod pp E = GX E (gg E) s) by reflexivity.
    rewrite Hpow.
    (* commitment: h = g^u k^-c, hence a residue *)
    assert (Hg := g_resid E HE).
    assert (Heq1 : G1 E u = mulm (pp E) h (GX E k c)).
    { rewrite <- mult_p_2, <- (g_pow_p_xp E HE), <- (pow_p_xp E HE) by (assumption || lia). assumption. }
    assert (Heq2 : G1 E u' = mulm (pp E) h (GX E k c')).
    { rewrite <- mult_p_2, <- (g_pow_p_xp E HE), <- (pow_p_xp E HE) by (assumption || lia). assumption. }
    assert (Hh : resid (pp E) (qq E) h).
    { assert (Hh : h = mulm (pp E) (G1 E u) (GX E k (- c))).
      { rewrite Heq1. rewrite <- mulm_assoc by lia.
        unfold GX. rewrite xp_add by (try lia; apply Hk).
        rewrite Z.add_opp_diag_r, xp_0, mulm_1_r by lia. reflexivity. }
      rewrite Hh. apply resid_mulm; [lia|apply G1_resid; assumption|apply GX_resid; assumption]. }
    unfold G1, GX in Heq1, Heq2.
    apply (two_answers_root (pp E) (qq E) Hp Hq (gg E) k h u u' c c' s); auto.
    intros Hz0. apply Hcc. apply Zmod_divide in Hz0; [|lia]. destruct Hz0 as [z Hz].
    assert (z = 0) by nia. nia.
  Qed.

  (** *** Disjunctive *)
  Lemma small_diff a b : 0 <= a < qq E -> 0 <= b < qq E -> a <> b -> (a - b) mod qq E <> 0.
  Proof.
    intros Ha Hb Hab H0. apply Zmod_divide in H0; [|lia]. destruct H0 as [z Hz].
    assert (z = 0) by nia. nia.
  Qed.

  Lemma disj_sound m k qh a0 b0 a1 b1 c0 c1 c v0 v1 qh' c0' c1' c' v0' v1' :
    resid (pp E) (qq E) k ->
    disj_is_valid E (mkDisj a0 b0 a1 b1 c0 c1 c v0 v1) m k qh = true ->
    disj_is_valid E' (mkDisj a0 b0 a1 b1 c0' c1' c' v0' v1') m k qh' = true ->
    c <> c' ->
    exists r, 0 <= r < qq E /\ ct_pad m = (gg E) ^ r mod pp E /\
      (ct_data m = k ^ r mod pp E \/ ct_data m = (gg E * k ^ r) mod pp E).
  Proof.
    intros Hk. unfold disj_is_valid.
    cbn [d_a0 d_b0 d_a1 d_b1 d_c0 d_c1 d_c d_v0 d_v1].
    intros H1 H2 Hcc.
    split_valid H1. split_valid H2.
    rewrite ?g_pow_p', ?mult_p', ?pow_p', ?add_q', ?Hqe, ?resid' in *.
    set (al := ct_pad m) in *. set (be := ct_data m) in *.
    assert (Hg := g_resid E HE).
    assert (Hal : resid (pp E) (qq E) al) by assumption.
    assert (Hbe : resid (pp E) (qq E) be) by assumption.
    assert (Ha0 : resid (pp E) (qq E) a0) by assumption.
    assert (Hb0 : resid (pp E) (qq E) b0) by assumption.
    assert (Ha1 : resid (pp E) (qq E) a1) by assumption.
    assert (Hb1 : resid (pp E) (qq E) b1) by assumption.
    rewrite !g_pow_p_xp in * by (assumption||lia).
    repeat match goal with
    | HH : context [pow_p E k ?e] |- _ => rewrite (pow_p_xp E HE k e) in HH by (assumption||lia)
    | HH : context [pow_p E al ?e] |- _ => rewrite (pow_p_xp E HE al e) in HH by (assumption||lia)
    | HH : context [pow_p E be ?e] |- _ => rewrite (pow_p_xp E HE be e) in HH by (assumption||lia)
    end.
    rewrite !mult_p_2 in * by assumption. unfold G1, GX in *.
    assert (Hdis : c0 <> c0' \/ c1 <> c1').
    { destruct (Z.eq_dec c0 c0') as [->|]; [|left; assumption].
      destruct (Z.eq_dec c1 c1') as [->|]; [|right; assumption].
      exfalso; apply Hcc. congruence. }
    destruct Hdis as [Hd|Hd].
    - pose proof (small_diff c0 c0' ltac:(lia) ltac:(lia) Hd) as Hd0.
      destruct (quotient_exists (qq E) Hq (c0 - c0') (v0 - v0') Hd0) as [r [Hr Hrs]].
      exists r. split; [assumption|].
      rewrite (xp_pow (pp E) (qq E) Hp Hq1 (gg E)) by (try apply Hg; lia).
      rewrite (xp_pow (pp E) (qq E) Hp Hq1 k) by (try apply Hk; lia).
      split; [|left].
      + apply (two_answers_root (pp E) (qq E) Hp Hq (gg E) al a0 v0 v0' c0 c0' r); auto.
      + apply (two_answers_root (pp E) (qq E) Hp Hq k be b0 v0 v0' c0 c0' r); auto.
    - pose proof (small_diff c1 c1' ltac:(lia) ltac:(lia) Hd) as Hd0.
      destruct (quotient_exists (qq E) Hq (c1 - c1') (v1 - v1') Hd0) as [r [Hr Hrs]].
      exists r. split; [assumption|].
      rewrite (xp_pow (pp E) (qq E) Hp Hq1 (gg E)) by (try apply Hg; lia).
      split; [|right].
      + apply (two_answers_root (pp E) (qq E) Hp Hq (gg E) al a1 v1 v1' c1 c1' r); auto.
      + (* be / g = k^r *)
        set (be' := mulm (pp E) (xp (pp E) (qq E) (gg E) (-1)) be).
        assert (Hbe' : resid (pp E) (qq E) be').
        { apply resid_mulm; [lia| |assumption]. apply xp_resid; [lia|lia|apply Hg]. }
        assert (Hpow : forall x, xp (pp E) (qq E) be' x =
            mulm (pp E) (xp (pp E) (qq E) (gg E) (- x)) (xp (pp E) (qq E) be x)).
        { intros x. unfold be'. rewrite xp_mulm by lia. rewrite xp_xp by (try lia; apply Hg).
          replace (-1 * x) with (- x) by lia; reflexivity. }
        assert (Hkey : forall cc vv,
          mulm (pp E) (xp (pp E) (qq E) (gg E) cc) (xp (pp E) (qq E) k vv)
            = mulm (pp E) b1 (xp (pp E) (qq E) be cc) ->
          xp (pp E) (qq E) k vv = mulm (pp E) b1 (xp (pp E) (qq E) be' cc)).
        { intros cc vv Heq.
          apply (mulm_cancel_l (pp E) (qq E) Hp Hq1 (xp (pp E) (qq E) (gg E) cc)).
          - apply xp_resid; [lia|lia|apply Hg].
          - apply xp_range; lia.
          - apply mulm_range; lia.
          - rewrite Heq, Hpow.
            rewrite (mulm_comm (pp E) b1 (mulm _ _ _)), <- (mulm_assoc (pp E) (xp _ _ _ (- cc))).
            rewrite (mulm_assoc (pp E) (xp _ _ _ cc)).
            rewrite xp_add by (try lia; apply Hg). rewrite Z.add_opp_diag_r, xp_0 by lia.
            rewrite mulm_1_l by (apply mulm_range; lia). apply mulm_comm. }
        assert (Hb : be' = xp (pp E) (qq E) k r).
        { apply (two_answers_root (pp E) (qq E) Hp Hq k be' b1 v1 v1' c1 c1' r); auto. }
        assert (Hfin : be = mulm (pp E) (gg E) be').
        { unfold be'. rewrite mulm_assoc by lia.
          rewrite (mulm_inv (pp E) (qq E) Hp Hq1 (gg E) Hg).
          symmetry; apply mulm_1_l; apply Hbe. }
        rewrite Hfin, Hb. unfold mulm, xp. rewrite Zmult_mod_idemp_r.
        rewrite (Z.mod_small r) by lia. reflexivity.
  Qed.

  (** *** Generic Chaum-Pedersen *)
  Lemma cp_sound msg k m a b qh qh' c v c' v' s :
    cp_is_valid E (mkCp a b c v) msg k m qh = true ->
    cp_is_valid E' (mkCp a b c' v') msg k m qh' = true ->
    c <> c' -> (s * (c - c')) mod qq E = (v - v') mod qq E ->
    k = (gg E) ^ (s mod qq E) mod pp E /\ m = (ct_pad msg) ^ (s mod qq E) mod pp E.
  Proof.
    unfold cp_is_valid. cbn [cp_a cp_b cp_c cp_v]. intros H1 H2 Hcc Hs.
    split_valid H1. split_valid H2.
    rewrite ?g_pow_p', ?mult_p', ?pow_p', ?Hqe, ?resid' in *.
    set (al := ct_pad msg) in *. set (be := ct_data msg) in *.
    assert (Hg := g_resid E HE).
    assert (Hal : resid (pp E) (qq E) al) by assumption.
    assert (Hk : resid (pp E) (qq E) k) by assumption.
    assert (Hm : resid (pp E) (qq E) m) by assumption.
    rewrite !g_pow_p_xp in * by (assumption||lia).
    repeat match goal with
    | HH : context [pow_p E k ?e] |- _ => rewrite (pow_p_xp E HE k e) in HH by (assumption||lia)
    | HH : context [pow_p E al ?e] |- _ => rewrite (pow_p_xp E HE al e) in HH by (assumption||lia)
    | HH : context [pow_p E m ?e] |- _ => rewrite (pow_p_xp E HE m e) in HH by (assumption||lia)
    end.
    rewrite !mult_p_2 in * by assumption. unfold G1, GX in *.
    pose proof (small_diff c c' ltac:(lia) ltac:(lia) Hcc) as Hd0.
    split.
    - apply (two_answers_root (pp E) (qq E) Hp Hq (gg E) k a v v' c c' s); auto.
    - apply (two_answers_root (pp E) (qq E) Hp Hq al m b v v' c c' s); auto.
  Qed.

  (** *** Constant Chaum-Pedersen *)
  Lemma const_sound m k qh qh' a b c v c' v' L :
    resid (pp E) (qq E) k -> qq E * L <= pp E ->
    const_is_valid E (mkConst a b c v L) m k qh = true ->
    const_is_valid E' (mkConst a b c' v' L) m k qh' = true ->
    c <> c' ->
    exists r, 0 <= r < qq E /\ ct_pad m = (gg E) ^ r mod pp E /\
      ct_data m = ((gg E) ^ L * k ^ r) mod pp E.
  Proof.
    intros Hk HqL. unfold const_is_valid. cbn [cc_a cc_b cc_c cc_v cc_constant].
    unfold int_to_q. rewrite Hqe.
    destruct (in_bounds (qq E) L) eqn:HL;
      [|intros H1; rewrite ?andb_true_iff in H1; exfalso; decompose [and] H1; discriminate].
    intros H1 H2 Hcc.
    unfold in_bounds in HL. rewrite andb_true_iff, Z.leb_le, Z.ltb_lt in HL.
    split_valid H1. split_valid H2.
    rewrite ?g_pow_p', ?mult_p', ?pow_p', ?Hqe, ?Hpe in *.
    set (al := ct_pad m) in *. set (be := ct_data m) in *.
    assert (Hg := g_resid E HE).
    assert (Hal : resid (pp E) (qq E) al) by assumption.
    assert (Hbe : resid (pp E) (qq E) be) by assumption.
    assert (Ha : resid (pp E) (qq E) a) by assumption.
    assert (Hb : resid (pp E) (qq E) b) by assumption.
    assert (HcL : forall x, 0 <= x < qq E -> mult_p E [x; L] = x * L).
    { intros x Hx. rewrite mult_p_eq by assumption. cbn [prodZ fold_right]. rewrite Z.mul_1_r.
      apply Z.mod_small. destruct (Z.eq_dec L 0) as [->|]; nia. }
    rewrite !HcL in * by lia.
    rewrite !g_pow_p_xp in * by (assumption||nia).
    repeat match goal with
    | HH : context [pow_p E k ?e] |- _ => rewrite (pow_p_xp E HE k e) in HH by (assumption||lia)
    | HH : context [pow_p E al ?e] |- _ => rewrite (pow_p_xp E HE al e) in HH by (assumption||lia)
    | HH : context [pow_p E be ?e] |- _ => rewrite (pow_p_xp E HE be e) in HH by (assumption||lia)
    end.
    rewrite !mult_p_2 in * by assumption. unfold G1, GX in *.
    pose proof (small_diff c c' ltac:(lia) ltac:(lia) Hcc) as Hd0.
    destruct (quotient_exists (qq E) Hq (c - c') (v - v') Hd0) as [r [Hr Hrs]].
    exists r. split; [assumption|].
    rewrite (xp_pow (pp E) (qq E) Hp Hq1 (gg E)) by (try apply Hg; lia).
    split.
    - apply (two_answers_root (pp E) (qq E) Hp Hq (gg E) al a v v' c c' r); auto.
    - set (gL := xp (pp E) (qq E) (gg E) (- L)).
      set (be' := mulm (pp E) gL be).
      assert (HgL : resid (pp E) (qq E) gL) by (apply xp_resid; [lia|lia|apply Hg]).
      assert (Hbe' : resid (pp E) (qq E) be') by (apply resid_mulm; [lia|assumption|assumption]).
      assert (Hpow : forall x, xp (pp E) (qq E) be' x =
          mulm (pp E) (xp (pp E) (qq E) (gg E) (- (x * L))) (xp (pp E) (qq E) be x)).
      { intros x. unfold be', gL. rewrite xp_mulm by lia. rewrite xp_xp by (try lia; apply Hg).
        replace (- L * x) with (- (x * L)) by lia; reflexivity. }
      assert (Hkey : forall cc vv,
        mulm (pp E) (xp (pp E) (qq E) (gg E) (cc * L)) (xp (pp E) (qq E) k vv)
          = mulm (pp E) b (xp (pp E) (qq E) be cc) ->
        xp (pp E) (qq E) k vv = mulm (pp E) b (xp (pp E) (qq E) be' cc)).
      { intros cc vv Heq.
        apply (mulm_cancel_l (pp E) (qq E) Hp Hq1 (xp (pp E) (qq E) (gg E) (cc * L))).
        - apply xp_resid; [lia|lia|apply Hg].
        - apply xp_range; lia.
        - apply mulm_range; lia.
        - rewrite Heq, Hpow.
          rewrite (mulm_comm (pp E) b (mulm _ _ _)), <- (mulm_assoc (pp E) (xp _ _ _ (- (cc * L)))).
          rewrite (mulm_assoc (pp E) (xp _ _ _ (cc * L))).
          rewrite xp_add by (try lia; apply Hg). rewrite Z.add_opp_diag_r, xp_0 by lia.
          rewrite mulm_1_l by (apply mulm_range; lia). apply mulm_comm. }
      assert (Hb' : be' = xp (pp E) (qq E) k r).
      { apply (two_answers_root (pp E) (qq E) Hp Hq k be' b v v' c c' r); auto. }
      assert (Hfin : be = mulm (pp E) (xp (pp E) (qq E) (gg E) L) be').
      { unfold be', gL. rewrite mulm_assoc by lia. rewrite xp_add by (try lia; apply Hg).
        rewrite Z.add_opp_diag_r, xp_0 by lia. symmetry; apply mulm_1_l; apply Hbe. }
      rewrite Hfin, Hb'. unfold mulm, xp. rewrite <- Zmult_mod.
      rewrite (Z.mod_small r), (Z.mod_small L) by lia. reflexivity.
  Qed.
End Sound.
