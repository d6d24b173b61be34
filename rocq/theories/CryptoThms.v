(** * Proofs of the C05-C06, C13-C16, C18-C19 statements. *)
From Verif Require Import Base Group GroupFacts Codec CodecFacts Hash HashFacts DLog DLogFacts ElGamal ElGamalFacts ZK ZKFacts Poly PolyFacts ZKSound.
From Coq Require Import Znumtheory Permutation.

Section Thms.
  Variable E : env.
  Hypothesis HE : valid_env E.
  Let Hp : 1 < pp E := p_gt_1 E HE.
  Let Hq : 1 < qq E := q_gt_1 E HE.

  Lemma ct_of_spec K r m c : in_subgroup E K -> 0 <= r -> 0 <= m ->
    is_encryption E K r m (ct_pad c) (ct_data c) <-> c = ct_of E K r m.
  Proof.
    intros HK Hr Hm. unfold is_encryption, ct_of.
    assert (H1 : gg E ^ r mod pp E = G1 E r) by (apply G1_pow; assumption).
    assert (H2 : (gg E ^ m * K ^ r) mod pp E = mult_p E [G1 E m; GX E K r]).
    { rewrite mult_p_eq by assumption. cbn [prodZ fold_right].
      rewrite <- (G1_pow E HE m Hm). rewrite <- (pow_p_xp E HE K r HK Hr).
      rewrite (pow_p_eq E HE). rewrite Z.mul_1_r. apply Zmult_mod. }
    rewrite H1, H2. split.
    - destruct c; cbn. intros [-> ->]. reflexivity.
    - intros ->. cbn. auto.
  Qed.

  Lemma ct_of_spec_gen K r m c : in_subgroup E K -> 0 <= r -> 
    is_encryption E K r (m mod qq E) (ct_pad c) (ct_data c) <-> c = ct_of E K r m.
  Proof.
    intros HK Hr. rewrite ct_of_spec by (try assumption; apply Z.mod_pos_bound; lia).
    unfold ct_of. replace (G1 E (m mod qq E)) with (G1 E m); [reflexivity|].
    apply (G1_congr E). symmetry. apply Z.mod_mod; lia.
  Qed.

  Lemma encrypt_ok m r K : in_subgroup E K -> 0 < r -> 0 <= m ->
    exists c, elgamal_encrypt E m r K = Ok (Some c) /\ is_encryption E K r m (ct_pad c) (ct_data c).
  Proof.
    intros HK Hr Hm. exists (ct_of E K r m). split; [apply encrypt_form; try assumption; lia|].
    apply ct_of_spec; try assumption; try lia. reflexivity.
  Qed.

  Lemma decrypt_three_ways s r m c : 0 <= s -> 0 <= r -> 0 <= m < qq E -> m <= dmax E ->
    is_encryption E (gexp E s) r m (ct_pad c) (ct_data c) ->
    elgamal_decrypt E c s = Ok m /\
    decrypt_known_nonce E c (gexp E s) r = Ok m /\
    decrypt_known_product E c (gexp E s ^ r mod pp E) = Ok m.
  Proof.
    intros Hs Hr Hm Hd Henc.
    assert (HK : in_subgroup E (gexp E s)) by (unfold gexp; rewrite (G1_pow E HE) by assumption; apply G1_resid; assumption).
    apply ct_of_spec in Henc; try assumption; try lia. subst c.
    assert (HG : gexp E s = G1 E s) by (apply G1_pow; assumption).
    assert (Hprod : decrypt_known_product E (ct_of E (gexp E s) r m) (gexp E s ^ r mod pp E) = Ok m).
    { rewrite <- (pow_p_eq E HE), pow_p_xp by assumption.
      rewrite decrypt_product_form by assumption. apply dlog_G1; assumption. }
    repeat split.
    - rewrite HG. rewrite decrypt_form by assumption. apply dlog_G1; assumption.
    - unfold decrypt_known_nonce. rewrite pow_p_eq by assumption. exact Hprod.
    - exact Hprod.
  Qed.

  (** any accepted answer is right: decrypting an encryption of m never returns another value *)
  Lemma decrypt_answer s r m c v : 0 <= s -> 0 <= r -> 0 <= m -> 
    is_encryption E (gexp E s) r m (ct_pad c) (ct_data c) ->
    elgamal_decrypt E c s = Ok v -> v mod qq E = m mod qq E.
  Proof.
    intros Hs Hr Hm Henc.
    assert (HK : in_subgroup E (gexp E s)) by (unfold gexp; rewrite (G1_pow E HE) by assumption; apply G1_resid; assumption).
    apply ct_of_spec in Henc; try assumption. subst c.
    replace (gexp E s) with (G1 E s) by (symmetry; apply G1_pow; assumption).
    rewrite decrypt_form by assumption. intros H. apply dlog_ok in H; [|assumption].
    destruct H as (H1 & H2 & _). rewrite (G1_pow E HE) in H2 by lia. apply (G1_inj E HE); assumption.
  Qed.

  (** sums *)
  Lemma add_encryptions K (l : list (ciphertext * Z * Z)) : in_subgroup E K -> l <> [] ->
    Forall (fun '(c, r, m) => 0 <= r /\ 0 <= m /\ is_encryption E K r m (ct_pad c) (ct_data c)) l ->
    exists c, elgamal_add E (map (fun '(c, _, _) => c) l) = Ok c /\
      is_encryption E K (sumZ (map (fun '(_, r, _) => r) l)) (sumZ (map (fun '(_, _, m) => m) l))
        (ct_pad c) (ct_data c).
  Proof.
    intros HK Hl HF.
    assert (Hmap : map (fun '(c, _, _) => c) l
        = map (fun rm => ct_of E K (fst rm) (snd rm)) (map (fun '(_, r, m) => (r, m)) l)).
    { rewrite map_map. apply map_ext_in. intros [[c r] m] Hin. rewrite Forall_forall in HF.
      specialize (HF _ Hin). cbn in HF. destruct HF as (Hr & Hm & Henc).
      apply ct_of_spec in Henc; assumption. }
    rewrite Hmap. rewrite elgamal_add_form; [|assumption|assumption|].
    - eexists; split; [reflexivity|]. rewrite !map_map.
      assert (Hr : 0 <= sumZ (map (fun '(_, r, _) => r) l) /\ 0 <= sumZ (map (fun '(_, _, m) => m) l)).
      { clear - HF. induction HF as [|[[c r] m] l [Hr [Hm _]] HF IH]; unfold sumZ in *; cbn; lia. }
      apply ct_of_spec; try assumption; try apply Hr. f_equal; f_equal; apply map_ext; intros [[c r] m]; reflexivity.
    - destruct l; [contradiction|discriminate].
  Qed.

  Lemma add_order l1 l2 : Permutation l1 l2 ->
    Forall (fun c => 0 <= ct_pad c < pp E /\ 0 <= ct_data c < pp E) l1 ->
    elgamal_add E l1 = elgamal_add E l2.
  Proof.
    intros HP HF. destruct l1 as [|c l1].
    - apply Permutation_nil in HP. subst; reflexivity.
    - assert (Hl2 : l2 <> []) by (intros ->; apply Permutation_sym, Permutation_nil in HP; discriminate).
      assert (HF2 : Forall (ct_inrange E) l2).
      { rewrite Forall_forall in *. intros x Hx. apply HF. eapply Permutation_in; [apply Permutation_sym; exact HP|assumption]. }
      rewrite !elgamal_add_prod; try assumption; try discriminate.
      rewrite (prodZ_perm _ _ (Permutation_map ct_pad HP)), (prodZ_perm _ _ (Permutation_map ct_data HP)). reflexivity.
  Qed.

  Lemma add_grouping l1 l2 : l1 <> [] -> l2 <> [] ->
    Forall (fun c => 0 <= ct_pad c < pp E /\ 0 <= ct_data c < pp E) (l1 ++ l2) ->
    exists a b, elgamal_add E l1 = Ok a /\ elgamal_add E l2 = Ok b /\ elgamal_add E [a; b] = elgamal_add E (l1 ++ l2).
  Proof.
    intros H1 H2 HF. apply Forall_app in HF. destruct HF as [F1 F2].
    rewrite !elgamal_add_prod; try assumption; [|destruct l1; [contradiction|discriminate]|apply Forall_app; auto].
    do 2 eexists. split; [reflexivity|]. split; [reflexivity|].
    rewrite elgamal_add_prod; try assumption; try discriminate.
    - cbn [map ct_pad ct_data]. rewrite !map_app, !prodZ_app. unfold prodZ at 1 4. cbn [fold_right].
      f_equal. f_equal; modring (pp E).
    - repeat constructor; cbn [ct_pad ct_data]; apply Z.mod_pos_bound; lia.
  Qed.

  (** Lagrange *)
  Lemma lagrange_reconstruct (coeffs xs : list Z) :
    NoDup (map (fun x => x mod qq E) xs) -> (length coeffs <= length xs)%nat ->
    exists ws, Forall2 (fun x w => compute_lagrange_coefficient E x (remove Z.eq_dec x xs) = Ok w) xs ws /\
      Forall (fun w => 0 <= w < qq E) ws /\
      (forall ys, Forall2 (fun x y => y mod qq E = poly_at coeffs x mod qq E) xs ys ->
         sumZ (map (fun wy => fst wy * snd wy) (combine ws ys)) mod qq E = poly_at coeffs 0 mod qq E).
  Proof.
    intros Hnd Hlen.
    pose proof (NoDup_mod (qq E) xs Hnd) as Hnd0.
    set (lam := fun x => match compute_lagrange_coefficient E x (remove Z.eq_dec x xs) with Ok w => w | Err _ => 0 end).
    assert (Hlam : forall x, In x xs -> compute_lagrange_coefficient E x (remove Z.eq_dec x xs) = Ok (lam x)
              /\ 0 <= lam x < qq E
              /\ (lam x * prodZ (map (fun z => z - x) (others x xs))) mod qq E = prodZ (others x xs) mod qq E).
    { intros x Hx. unfold lam.
      destruct (lagrange_coefficient_spec E HE x (remove Z.eq_dec x xs)) as [w (Hw & Hr & Hm)].
      - intros z Hz Heq. apply in_remove in Hz. destruct Hz as [Hz Hzx]. apply Hzx.
        clear - Hnd Hx Hz Heq. induction xs as [|y ys IH]; [destruct Hx|].
        cbn [map] in Hnd. inversion Hnd as [|? ? Hn Hnd']; subst.
        destruct Hx as [->|Hx], Hz as [->|Hz]; auto.
        + exfalso; apply Hn. rewrite <- Heq. apply (in_map (fun x => x mod qq E)); assumption.
        + exfalso; apply Hn. rewrite Heq. apply (in_map (fun x => x mod qq E)); assumption.
      - rewrite Hw. auto. }
    exists (map lam xs). repeat split.
    - assert (HF : forall l, (forall x, In x l -> In x xs) ->
        Forall2 (fun x w => compute_lagrange_coefficient E x (remove Z.eq_dec x xs) = Ok w) l (map lam l)).
      { induction l as [|x l IH]; intros Hl; cbn [map]; constructor.
        - apply Hlam, Hl. left; reflexivity.
        - apply IH. intros y Hy; apply Hl; right; assumption. }
      apply HF; auto.
    - apply Forall_forall. intros w Hw. apply in_map_iff in Hw. destruct Hw as [x [<- Hx]]. apply Hlam; assumption.
    - intros ys Hys.
      assert (Hsum : sumZ (map (fun wy => fst wy * snd wy) (combine (map lam xs) ys)) mod qq E
                = sumZ (map (fun x => lam x * peval coeffs x) xs) mod qq E).
      { clear Hnd Hlen Hnd0. clearbody lam. clear Hlam. induction Hys as [|x y xs ys Hy Hys IH]; [reflexivity|].
        cbn [map combine sumZ fold_right fst snd].
        fold (sumZ (map (fun wy => fst wy * snd wy) (combine (map lam xs) ys))).
        fold (sumZ (map (fun x => lam x * peval coeffs x) xs)).
        rewrite Zplus_mod, IH, <- Zplus_mod. rewrite poly_at_peval in Hy.
        rewrite Zplus_mod. rewrite (Zmult_mod (lam x) y), Hy, <- Zmult_mod, <- Zplus_mod. reflexivity. }
      rewrite Hsum, poly_at_peval. apply lagrange_at_0; try assumption; [apply (ve_q E HE)|].
      intros x Hx. apply Hlam; assumption.
  Qed.

  Lemma coordinate_value x pl : 0 <= x < qq E ->
    compute_polynomial_coordinate E x pl = Ok (poly_at (map co_value pl) x mod qq E).
  Proof. intros Hx. rewrite poly_at_peval. apply coord_spec; assumption. Qed.

  Lemma coordinate_range x pl : ~ 0 <= x < qq E -> compute_polynomial_coordinate E x pl = Err OverflowError.
  Proof.
    intros Hx. unfold compute_polynomial_coordinate, ElementModQ, in_bounds.
    destruct (Z.leb_spec 0 x), (Z.ltb_spec x (qq E)); cbn; try reflexivity; lia.
  Qed.

  Lemma verify_iff x y coeffs : 0 <= x < qq E -> Forall (fun a => 0 <= a) coeffs ->
    (forall j, 0 <= j < zlen coeffs -> x ^ j < pp E) -> 0 <= y ->
    verify_polynomial_coordinate E y x (map (gexp E) coeffs)
      = Ok (y mod qq E =? poly_at coeffs x mod qq E).
  Proof.
    intros Hx Hc Hpow Hy. rewrite poly_at_peval.
    replace (map (gexp E) coeffs) with (map (g_pow_p E) coeffs).
    - apply verify_spec; try assumption. rewrite Forall_forall in Hc. exact Hc.
    - apply map_ext. intros a. unfold gexp, g_pow_p. apply pow_p_eq; assumption.
  Qed.

  Lemma generated_polynomial draws : Forall (fun d => 0 <= fst d < qq E /\ 0 <= snd d < qq E) draws ->
    let pl := generate_polynomial E draws in
    map co_value pl = map fst draws /\
    get_commitments pl = map (gexp E) (map fst draws) /\
    Forall (fun pf => schnorr_is_valid E pf = true) (get_proofs pl).
  Proof.
    intros HF pl. unfold pl, generate_polynomial, get_commitments, get_proofs. rewrite !map_map. repeat split.
    - apply map_ext. intros d. cbn. unfold gexp, g_pow_p. apply pow_p_eq; assumption.
    - apply Forall_forall. intros pf Hin. apply in_map_iff in Hin. destruct Hin as [d [<- Hd]].
      rewrite Forall_forall in HF. specialize (HF d Hd). cbn. apply schnorr_complete; tauto.
  Qed.
End Thms.

(** round trips through the three operations of the shared discrete log *)
Lemma reachable_inv E ops : valid_env E -> 0 <= dmax E < qq E -> dl_inv E (dl_run E dl_init ops).
Proof. intros HE Hd. apply dl_run_inv; try assumption; try lia. apply dl_init_inv; try assumption; lia. Qed.

(** ** what the verifiers accept, in plain arithmetic *)
Section Accept.
  Variable E : env.
  Hypothesis HE : valid_env E.

  Lemma mult2 a b : mult_p E [a; b] = (a * b) mod pp E.
  Proof. rewrite mult_p_eq by assumption. cbn [prodZ fold_right]. f_equal; lia. Qed.
  Ltac plain :=
    unfold g_pow_p; rewrite ?mult2, ?(pow_p_eq E HE), ?Zmult_mod_idemp_r, ?Zmult_mod_idemp_l;
    rewrite ?andb_true_iff, ?(is_valid_residue_iff E HE);
    unfold is_in_bounds_p, is_in_bounds_q, in_bounds, in_subgroup, resid;
    rewrite ?andb_true_iff, ?Z.leb_le, ?Z.ltb_lt, ?Z.eqb_eq.

  Lemma schnorr_accept_iff k h c u :
    schnorr_is_valid E (mkSchnorr k h c u) = true <->
    in_subgroup E k /\ 0 <= h < pp E /\ 0 <= u < qq E /\ hash_elems E [HElem k; HElem h] = c /\
    (gg E) ^ u mod pp E = (h * k ^ c) mod pp E.
  Proof.
    unfold schnorr_is_valid; cbn [s_key s_com s_chal s_resp]. plain.
    split; intros; decompose [and] H; subst c; tauto.
  Qed.

  Lemma disj_accept_iff a0 b0 a1 b1 c0 c1 c v0 v1 m k q :
    disj_is_valid E (mkDisj a0 b0 a1 b1 c0 c1 c v0 v1) m k q = true <->
    (in_subgroup E (ct_pad m) /\ in_subgroup E (ct_data m)) /\
    (in_subgroup E a0 /\ in_subgroup E b0 /\ in_subgroup E a1 /\ in_subgroup E b1) /\
    (0 <= c0 < qq E /\ 0 <= c1 < qq E /\ 0 <= v0 < qq E /\ 0 <= v1 < qq E) /\
    c = hash_elems E [HElem q; HElem (ct_pad m); HElem (ct_data m); HElem a0; HElem b0; HElem a1; HElem b1] /\
    (c0 + c1) mod qq E = c /\
    (gg E) ^ v0 mod pp E = (a0 * (ct_pad m) ^ c0) mod pp E /\
    (gg E) ^ v1 mod pp E = (a1 * (ct_pad m) ^ c1) mod pp E /\
    k ^ v0 mod pp E = (b0 * (ct_data m) ^ c0) mod pp E /\
    ((gg E) ^ c1 * k ^ v1) mod pp E = (b1 * (ct_data m) ^ c1) mod pp E.
  Proof.
    unfold disj_is_valid; cbn [d_a0 d_b0 d_a1 d_b1 d_c0 d_c1 d_c d_v0 d_v1].
    rewrite add_q_eq by assumption. plain.
    replace (sumZ [c0; c1]) with (c0 + c1) by (unfold sumZ; cbn [fold_right]; lia). tauto.
  Qed.

  Lemma cp_accept_iff a b c v msg k m q :
    cp_is_valid E (mkCp a b c v) msg k m q = true <->
    (in_subgroup E (ct_pad msg) /\ in_subgroup E (ct_data msg)) /\ in_subgroup E k /\ in_subgroup E m /\
    in_subgroup E a /\ in_subgroup E b /\ 0 <= c < qq E /\ 0 <= v < qq E /\ 0 <= q < qq E /\
    c = hash_elems E [HElem q; HElem (ct_pad msg); HElem (ct_data msg); HElem a; HElem b; HElem m] /\
    (gg E) ^ v mod pp E = (a * k ^ c) mod pp E /\
    (ct_pad msg) ^ v mod pp E = (b * m ^ c) mod pp E.
  Proof. unfold cp_is_valid; cbn [cp_a cp_b cp_c cp_v]. plain. tauto. Qed.

  Lemma const_accept_iff a b c v L msg k q :
    const_is_valid E (mkConst a b c v L) msg k q = true <->
    (in_subgroup E (ct_pad msg) /\ in_subgroup E (ct_data msg)) /\
    in_subgroup E a /\ in_subgroup E b /\ 0 <= c < qq E /\ 0 <= v < qq E /\
    (0 <= L < qq E /\ L < 1000000000) /\
    c = hash_elems E [HElem q; HElem (ct_pad msg); HElem (ct_data msg); HElem a; HElem b] /\
    (gg E) ^ v mod pp E = (a * (ct_pad msg) ^ c) mod pp E /\
    ((gg E) ^ ((c * L) mod pp E) * k ^ v) mod pp E = (b * (ct_data msg) ^ c) mod pp E.
  Proof.
    unfold const_is_valid; cbn [cc_a cc_b cc_c cc_v cc_constant]. unfold int_to_q, in_bounds at 1.
    generalize 1000000000 as big. intros big.
    destruct ((0 <=? L) && (L <? qq E)) eqn:HL.
    - apply andb_true_iff in HL. rewrite Z.leb_le, Z.ltb_lt in HL. plain. tauto.
    - rewrite andb_false_r. cbn [andb]. split; [discriminate|]. intros HH. exfalso.
      assert (HL' : 0 <= L < qq E) by tauto.
      rewrite <- Z.leb_le, <- Z.ltb_lt, <- andb_true_iff in HL'. congruence.
  Qed.

  Lemma gexp_subgroup s : 0 <= s -> in_subgroup E (gexp E s).
  Proof. intros Hs. unfold gexp. rewrite (G1_pow E HE) by assumption. apply G1_resid; assumption. Qed.

  Lemma enc_unique s r r' m m' c : 0 <= s -> 0 <= r -> 0 <= r' -> 0 <= m -> 0 <= m' ->
    is_encryption E (gexp E s) r m (ct_pad c) (ct_data c) ->
    is_encryption E (gexp E s) r' m' (ct_pad c) (ct_data c) -> m mod qq E = m' mod qq E.
  Proof.
    intros Hs Hr Hr' Hm Hm' H1 H2.
    pose proof (gexp_subgroup s Hs) as HK.
    apply (ct_of_spec E HE) in H1; try assumption. apply (ct_of_spec E HE) in H2; try assumption.
    assert (HG : gexp E s = G1 E s) by (apply G1_pow; assumption).
    rewrite HG in *.
    unfold ct_of in *. subst c. injection H2 as Hp Hd.
    apply (G1_inj E HE) in Hp.
    assert (Hk : GX E (G1 E s) r = GX E (G1 E s) r') by (apply GX_congr; assumption).
    rewrite Hk in Hd. rewrite !(mult_comm E HE _ (GX E (G1 E s) r')) in Hd.
    apply (G1_inj E HE). eapply (mult_cancel_l E HE); try exact Hd; try apply G1_resid; auto.
    apply GX_resid; try assumption; apply G1_resid; assumption.
  Qed.
End Accept.

(** ** extraction, with the secret stated existentially *)
Section Extract.
  Variables E E' : env.
  Hypothesis HE : valid_env E.
  Hypothesis HS : same_group E E'.

  Lemma schnorr_extract k h c c' u u' :
    schnorr_is_valid E (mkSchnorr k h c u) = true -> schnorr_is_valid E' (mkSchnorr k h c' u') = true ->
    c <> c' -> exists s, 0 <= s < qq E /\ (s * (c - c')) mod qq E = (u - u') mod qq E /\ k = gexp E s.
  Proof.
    intros H1 H2 Hc.
    assert (HE' := same_group_valid E E' HS HE).
    pose proof (proj1 (schnorr_accept_iff E HE _ _ _ _) H1) as (_ & _ & _ & Hh1 & _).
    pose proof (proj1 (schnorr_accept_iff E' HE' _ _ _ _) H2) as (_ & _ & _ & Hh2 & _).
    pose proof (hash_range E HE [HElem k; HElem h]). pose proof (hash_range E' HE' [HElem k; HElem h]).
    destruct HS as (Hp & Hq & Hg). rewrite <- Hq in *.
    destruct (quotient_exists (qq E) (ve_q E HE) (c - c') (u - u')) as [s [Hs1 Hs2]].
    { apply (small_diff E HE); congruence || lia. }
    exists s. repeat (split; try assumption). unfold gexp. rewrite <- (Z.mod_small s (qq E)) by assumption.
    eapply schnorr_sound; eauto.
  Qed.

  Lemma cp_extract msg k m a b qh qh' c v c' v' :
    cp_is_valid E (mkCp a b c v) msg k m qh = true -> cp_is_valid E' (mkCp a b c' v') msg k m qh' = true ->
    c <> c' -> exists s, 0 <= s < qq E /\ k = gexp E s /\ m = (ct_pad msg) ^ s mod pp E.
  Proof.
    intros H1 H2 Hc.
    assert (HE' := same_group_valid E E' HS HE).
    pose proof (proj1 (cp_accept_iff E HE _ _ _ _ _ _ _ _) H1) as A1. 
    pose proof (proj1 (cp_accept_iff E' HE' _ _ _ _ _ _ _ _) H2) as A2.
    destruct (quotient_exists (qq E) (ve_q E HE) (c - c') (v - v')) as [s [Hs1 Hs2]].
    { destruct HS as (Hp & Hq & Hg). rewrite <- Hq in *.
      apply (small_diff E HE); try assumption; [|tauto]. tauto. }
    exists s. rewrite <- (Z.mod_small s (qq E)) by assumption. split; [rewrite Z.mod_small; assumption|].
    unfold gexp. eapply cp_sound; eauto.
  Qed.
End Extract.

(** ** hashed ElGamal *)
Lemma int_to_hex_length n : 0 <= n -> String.length (int_to_hex n) = (2 * length (to_hex_bytes n))%nat.
Proof.
  intros Hn. pose proof (to_hex_bytes_spec n Hn) as H. rewrite fromhex_int_to_hex in H by assumption.
  injection H as <-. rewrite <- pair_up_length by (apply hex_digits_even; assumption).
  rewrite <- (map_length hex_char), <- int_to_hex_digits by assumption.
  rewrite <- list_ascii_int_to_hex. generalize (int_to_hex n). intros s; induction s; cbn; congruence.
Qed.

Lemma hex_full_head (data : list Z) : is_bytes data -> (2 <= length data)%nat ->
  String.length (bytes_to_hex data) = (2 * length data)%nat -> exists x l, data = x :: l /\ x <> 0.
Proof.
  intros Hb Hl Hs. destruct data as [|x l]; [cbn in Hl; lia|]. exists x, l. split; [reflexivity|].
  intros ->. unfold bytes_to_hex in Hs. inversion Hb as [|? ? _ Hb']; subst.
  pose proof (of_digits_be_bound 256 ltac:(lia) l Hb') as Hr.
  assert (Hv : int_from_bytes (0 :: l) = of_digits_be 256 l).
  { unfold int_from_bytes. rewrite of_digits_be_cons by lia. lia. }
  rewrite Hv, int_to_hex_length in Hs by lia. cbn [length] in Hs, Hl.
  assert (Hle : (length (to_hex_bytes (of_digits_be 256 l)) <= length l)%nat).
  { unfold to_hex_bytes. destruct (Z.eqb_spec (of_digits_be 256 l) 0) as [|Hne]; [cbn; lia|].
    destruct (digits_be 256 (of_digits_be 256 l)) as [|y d] eqn:Hd; [cbn; lia|].
    pose proof (digits_be_head 256 ltac:(lia) (of_digits_be 256 l) _ _ (proj1 Hr) Hd) as Hy.
    pose proof (digits_be_value 256 ltac:(lia) (of_digits_be 256 l) (proj1 Hr)) as Hval.
    pose proof (digits_be_range 256 ltac:(lia) (of_digits_be 256 l)) as Hrg.
    rewrite Hd in Hval, Hrg. inversion Hrg as [|? ? Hyr Hdr]; subst.
    rewrite of_digits_be_cons in Hval by lia.
    pose proof (of_digits_be_bound 256 ltac:(lia) d Hdr) as Hdb.
    assert (Hpow : 256 ^ zlen d < 256 ^ zlen l) by nia.
    apply Z.pow_lt_mono_r_iff in Hpow; [|lia|apply zlen_nonneg]. unfold zlen in Hpow. cbn [length]. lia. }
  lia.
Qed.

Lemma hashed_roundtrip_len E msg secret nonce seed :
  valid_env E -> (forall k m, length (hmac256 E k m) = 32%nat /\ is_bytes (hmac256 E k m)) ->
  is_bytes msg -> (length msg mod 32 = 0)%nat -> 512 <= zlen msg < 2 ^ 29 ->
  0 <= secret -> 0 <= nonce ->
  exists c, hashed_elgamal_encrypt E msg nonce (gexp E secret) seed = Ok c /\
    (zlen msg = 512 \/ String.length (h_data c) = (2 * length msg)%nat ->
     hashed_decrypt E c secret seed = Ok (Some msg)).
Proof.
  intros HE Hmac Hb Hm Hlen Hs Hn.
  assert (Hex : length msg = (32 * (length msg / 32))%nat) by (apply Nat.div_exact; lia).
  set (n := (length msg / 32)%nat) in *.
  destruct (Z.eq_dec (zlen msg) 512) as [H512|H512].
  { destruct (hashed_roundtrip E HE Hmac msg n secret nonce seed) as [c [H1 H2]]; auto; try lia.
    exists c. auto. }
  pose proof (hashed_encrypt_form E HE Hmac msg n secret nonce seed Hb Hex ltac:(lia) Hs Hn) as Hc.
  cbv zeta in Hc. destruct (Hc ltac:(unfold zlen in *; lia)) as [c (H1 & H2 & H3 & H4)]. exists c. split; [exact H1|]. intros [?|Hd]; [contradiction|].
  rewrite H2 in Hd. rewrite <- H4 in Hd. apply hex_full_head in Hd; [|exact H3|unfold zlen in *; lia].
  destruct (hashed_roundtrip E HE Hmac msg n secret nonce seed) as [c' [H1' H2']]; auto; try lia.
  { right. split; [lia|]. exact Hd. }
  unfold gexp in H1. rewrite H1 in H1'. injection H1' as <-. exact H2'.
Qed.

Lemma whole_blocks_mod msg : (length (whole_blocks msg) mod 32 = 0)%nat.
Proof.
  unfold whole_blocks. rewrite app_length, repeat_length. pose proof (Nat.mod_upper_bound (length msg) 32 ltac:(lia)) as Hb.
  destruct (Nat.eq_dec (length msg mod 32) 0) as [H0|H0].
  - rewrite H0. change ((32 - 0) mod 32)%nat with 0%nat. rewrite Nat.add_0_r. exact H0.
  - rewrite (Nat.mod_small (32 - _)) by lia. rewrite (Nat.div_mod (length msg) 32) at 1 by lia.
    replace (32 * (length msg / 32) + length msg mod 32 + (32 - length msg mod 32))%nat with (0 + (length msg / 32 + 1) * 32)%nat by lia. rewrite Nat.mod_add by lia. reflexivity.
Qed.
Lemma whole_blocks_bytes msg : is_bytes msg -> is_bytes (whole_blocks msg).
Proof.
  intros H. unfold is_bytes, whole_blocks in *. apply Forall_app. split; [exact H|]. apply Forall_forall. intros x Hx. apply repeat_spec in Hx. subst x. cbv. split; [discriminate|reflexivity].
Qed.
Lemma get_chunks_whole msg : get_chunks msg = get_chunks (whole_blocks msg).
Proof.
  assert (Hz : zlen (whole_blocks msg) mod block_size = 0).
  { unfold zlen, block_size. change 32 with (Z.of_nat 32). rewrite <- Nat2Z.inj_mod, whole_blocks_mod. reflexivity. }
  unfold get_chunks. rewrite Hz. change (0 =? 0) with true. cbv iota.
  assert (Hr : zlen msg mod block_size = Z.of_nat (length msg mod 32)) by (unfold zlen, block_size; change 32 with (Z.of_nat 32); rewrite <- Nat2Z.inj_mod; reflexivity).
  pose proof (Nat.mod_upper_bound (length msg) 32 ltac:(lia)) as Hb.
  assert (Hw : (if zlen msg mod block_size =? 0 then msg else msg ++ zeros (block_size - zlen msg mod block_size)) = whole_blocks msg).
  { unfold whole_blocks. rewrite Hr. destruct (Z.eqb_spec (Z.of_nat (length msg mod 32)) 0) as [H0|H0].
    - replace (length msg mod 32)%nat with 0%nat by lia. cbn. rewrite app_nil_r. reflexivity.
    - assert (Hn : (length msg mod 32 <> 0)%nat) by lia. unfold zeros, block_size. rewrite (Nat.mod_small (32 - length msg mod 32) 32) by lia.
      replace (Z.to_nat (32 - Z.of_nat (length msg mod 32))) with (32 - length msg mod 32)%nat by (generalize dependent (length msg mod 32)%nat; intros; lia). reflexivity. }
  rewrite Hw. reflexivity.
Qed.
Lemma hashed_roundtrip_any E msg secret nonce seed :
  valid_env E -> (forall k m, length (hmac256 E k m) = 32%nat /\ is_bytes (hmac256 E k m)) ->
  is_bytes msg -> 512 <= zlen (whole_blocks msg) < 2 ^ 29 -> 0 <= secret -> 0 <= nonce ->
  exists c, hashed_elgamal_encrypt E msg nonce (gexp E secret) seed = Ok c /\
    (zlen (whole_blocks msg) = 512 \/ String.length (h_data c) = (2 * length (whole_blocks msg))%nat ->
     hashed_decrypt E c secret seed = Ok (Some (whole_blocks msg))).
Proof.
  intros HE Hmac Hb Hlen Hs Hn.
  assert (Heq : hashed_elgamal_encrypt E msg nonce (gexp E secret) seed = hashed_elgamal_encrypt E (whole_blocks msg) nonce (gexp E secret) seed)
    by (unfold hashed_elgamal_encrypt; rewrite (get_chunks_whole msg); reflexivity).
  rewrite Heq. apply hashed_roundtrip_len; auto; [apply whole_blocks_bytes; assumption|apply whole_blocks_mod].
Qed.

Lemma chunk_bits msg : snd (get_chunks msg) = 8 * zlen (whole_blocks msg).
Proof.
  rewrite get_chunks_whole. assert (Hz : zlen (whole_blocks msg) mod block_size = 0).
  { unfold zlen, block_size. change 32 with (Z.of_nat 32). rewrite <- Nat2Z.inj_mod, whole_blocks_mod. reflexivity. }
  unfold get_chunks. rewrite Hz. cbn [snd Z.eqb]. lia.
Qed.
Lemma hashed_mac_decides E c secret seed data mk : to_padded_bytes (h_data c) 512 = Ok data ->
  get_hmac E (to_hex_bytes (hash_elems E [HElem (h_pad c); HElem (pow_p E (h_pad c) secret)])) (to_hex_bytes seed) (Some (8 * zlen (whole_blocks data))) 0 = Ok mk ->
  (hashed_decrypt E c secret seed = Ok None <-> bytes_to_hex (hmac256 E mk (to_hex_bytes (h_pad c) ++ data)) <> h_mac c).
Proof.
  intros Hd Hmk. rewrite <- chunk_bits in Hmk. unfold hashed_decrypt. rewrite Hd. cbn [rbind]. destruct (get_chunks data) as [ch bl]. cbn [snd] in Hmk. rewrite Hmk. cbn [rbind get_hmac].
  destruct (String.eqb_spec (bytes_to_hex (hmac256 E mk (to_hex_bytes (h_pad c) ++ data))) (h_mac c)) as [Heq|Hne]; cbn [negb].
  - split; [|congruence]. destruct (xor_blocks _ _ _ _ _ _); discriminate.
  - split; [intros _; exact Hne|reflexivity].
Qed.
Lemma hashed_decrypt_mac' E c secret seed m : hashed_decrypt E c secret seed = Ok (Some m) ->
  exists data mk, to_padded_bytes (h_data c) 512 = Ok data /\
    get_hmac E (to_hex_bytes (hash_elems E [HElem (h_pad c); HElem (pow_p E (h_pad c) secret)]))
               (to_hex_bytes seed) (Some (8 * zlen (whole_blocks data))) 0 = Ok mk /\
    bytes_to_hex (hmac256 E mk (to_hex_bytes (h_pad c) ++ data)) = h_mac c.
Proof.
  intros H. destruct (hashed_decrypt_mac E c secret seed m H) as (data & mk & mac & H1 & H2 & -> & H4). exists data, mk. rewrite <- chunk_bits. auto.
Qed.

(** ** remaining statement forms used in PropsCrypto.v *)
From Verif Require Import Tiny.

Lemma keypair_iff E : valid_env E -> forall a kp, elgamal_keypair_from_secret E a = Some kp <->
  2 <= a /\ kp = {| kp_secret := a; kp_public := gexp E a |}.
Proof.
  intros HE a kp. unfold elgamal_keypair_from_secret, g_pow_p. rewrite pow_p_eq by assumption. unfold gexp.
  destruct (Z.ltb_spec a 2); split; try discriminate; try lia.
  - intros [= <-]. auto.
  - intros [_ ->]. reflexivity.
Qed.

Lemma disj_complete E : valid_env E -> forall m r k q seed c,
  (m = 0 \/ m = 1) -> 0 <= r < qq E -> in_subgroup E k ->
  is_encryption E k r m (ct_pad c) (ct_data c) ->
  (m = 0 \/ hnonce E seed disj_header 0 <> 0) ->
  exists pf, make_disjunctive E c r k q seed m = Ok pf /\ disj_is_valid E pf c k q = true.
Proof.
  intros HE m r k q seed c Hm Hr Hk [Ha Hb] Hw. destruct c as [a b]; cbn [ct_pad ct_data] in *.
  destruct Hm as [->| ->]; unfold make_disjunctive; cbn [Z.leb Z.compare Z.eqb andb].
  - eexists; split; [reflexivity|]. rewrite Z.pow_0_r, Z.mul_1_l in Hb.
    rewrite <- (pow_p_eq E HE) in Ha, Hb. subst a b. apply disj_zero_complete; assumption.
  - destruct Hw as [|Hw]; [discriminate|].
    change (0 <=? 1) with true. change (1 <=? 1) with true. cbn [andb].
    rewrite Z.mul_mod in Hb by (pose proof (p_gt_1 E HE); lia).
    rewrite <- !(pow_p_eq E HE), <- (mult2 E HE) in Hb. rewrite <- (pow_p_eq E HE) in Ha. subst a b.
    apply disj_one_complete; assumption.
Qed.

Lemma disj_exact E : valid_env E -> forall m r k q seed c,
  (m = 0 \/ m = 1) -> 0 <= r < qq E -> in_subgroup E k ->
  is_encryption E k r m (ct_pad c) (ct_data c) ->
  (exists pf, make_disjunctive E c r k q seed m = Ok pf /\ disj_is_valid E pf c k q = true) \/
  (make_disjunctive E c r k q seed m = Err OverflowError /\ m = 1 /\ hnonce E seed disj_header 0 = 0).
Proof.
  intros HE m r k q seed c Hm Hr Hk Henc.
  destruct (Z.eq_dec m 0) as [H0|H0]; [left; apply (disj_complete E HE m); auto|].
  destruct (Z.eq_dec (hnonce E seed disj_header 0) 0) as [Hz|Hz]; [|left; apply (disj_complete E HE m); auto].
  right. destruct Hm as [|Hm]; [contradiction|subst m]. split; [|auto].
  unfold make_disjunctive. change ((0 <=? 1) && (1 <=? 1)) with true. cbv iota. change (1 =? 0) with false. cbv iota.
  apply disj_one_zero_nonce. exact Hz.
Qed.

Lemma disj_other E c r k q seed m : ~ (m = 0 \/ m = 1) -> make_disjunctive E c r k q seed m = Err AssertionError.
Proof.
  intros Hm. unfold make_disjunctive.
  destruct (Z.leb_spec 0 m), (Z.leb_spec m 1); cbn [andb]; try reflexivity. exfalso; apply Hm; lia.
Qed.

(** the group of [tiny] with a hash function that is constantly 0 *)
Definition tiny0 : env := mkEnv 157 13 16 (fun _ => 0) toy_hmac 12 toy_jstr toy_jcoord.
Lemma tiny0_valid : valid_env tiny0.
Proof. destruct tiny_valid as [A B C D F]. constructor; assumption. Qed.
Lemma disj_zero_witness : exists E seed, valid_env E /\ 0 <= seed < qq E /\
  forall c r k q, make_disjunctive E c r k q seed 1 = Err OverflowError.
Proof.
  exists tiny0, 3. split; [exact tiny0_valid|]. split; [cbn; lia|]. intros c r k q.
  unfold make_disjunctive. change ((0 <=? 1) && (1 <=? 1)) with true. cbv iota. change (1 =? 0) with false. cbv iota.
  apply disj_one_zero_nonce. reflexivity.
Qed.

Lemma enc_01 E k r a b : is_encryption E k r 0 a b <-> a = gg E ^ r mod pp E /\ b = k ^ r mod pp E.
Proof. unfold is_encryption. rewrite Z.pow_0_r, Z.mul_1_l. reflexivity. Qed.
Lemma enc_11 E k r a b : is_encryption E k r 1 a b <-> a = gg E ^ r mod pp E /\ b = (gg E * k ^ r) mod pp E.
Proof. unfold is_encryption. rewrite Z.pow_1_r. reflexivity. Qed.

Lemma disj_extract E E' : valid_env E -> same_group E E' ->
  forall m k qh qh' a0 b0 a1 b1 c0 c1 c v0 v1 c0' c1' c' v0' v1', in_subgroup E k ->
  disj_is_valid E (mkDisj a0 b0 a1 b1 c0 c1 c v0 v1) m k qh = true ->
  disj_is_valid E' (mkDisj a0 b0 a1 b1 c0' c1' c' v0' v1') m k qh' = true ->
  c <> c' ->
  exists r x, 0 <= r < qq E /\ (x = 0 \/ x = 1) /\ is_encryption E k r x (ct_pad m) (ct_data m).
Proof.
  intros HE HS m k qh qh' a0 b0 a1 b1 c0 c1 c v0 v1 c0' c1' c' v0' v1' Hk H1 H2 Hc.
  destruct (disj_sound E E' HE HS m k qh a0 b0 a1 b1 c0 c1 c v0 v1 qh' c0' c1' c' v0' v1' Hk H1 H2 Hc)
    as [r (Hr & Hp & [Hd|Hd])].
  - exists r, 0. repeat split; auto; try lia. rewrite Z.pow_0_r, Z.mul_1_l. assumption.
  - exists r, 1. repeat split; auto; try lia. rewrite Z.pow_1_r. assumption.
Qed.

Lemma disj_decrypts E E' : valid_env E -> same_group E E' -> 1 <= dmax E ->
  forall m s qh qh' a0 b0 a1 b1 c0 c1 c v0 v1 c0' c1' c' v0' v1', 0 <= s ->
  disj_is_valid E (mkDisj a0 b0 a1 b1 c0 c1 c v0 v1) m (gexp E s) qh = true ->
  disj_is_valid E' (mkDisj a0 b0 a1 b1 c0' c1' c' v0' v1') m (gexp E s) qh' = true ->
  c <> c' -> elgamal_decrypt E m s = Ok 0 \/ elgamal_decrypt E m s = Ok 1.
Proof.
  intros HE HS Hd m s qh qh' a0 b0 a1 b1 c0 c1 c v0 v1 c0' c1' c' v0' v1' Hs H1 H2 Hc.
  destruct (disj_extract E E' HE HS m (gexp E s) qh qh' a0 b0 a1 b1 c0 c1 c v0 v1 c0' c1' c' v0' v1'
              (gexp_subgroup E HE s Hs) H1 H2 Hc) as [r [x (Hr & Hx & Henc)]].
  pose proof (q_gt_1 E HE).
  assert (Hdec : elgamal_decrypt E m s = Ok x).
  { eapply (decrypt_three_ways E HE s r x m); try lia; try exact Henc. }
  destruct Hx; subst; auto.
Qed.

Lemma const_honest E : valid_env E -> forall r k L seed q c,
  0 <= r < qq E -> in_subgroup E k -> 0 <= L < qq E -> L < 1000000000 -> qq E * L <= pp E ->
  is_encryption E k r L (ct_pad c) (ct_data c) ->
  const_is_valid E (make_constant E c L r k seed q) c k q = true.
Proof.
  intros HE r k L seed q c Hr Hk HL HL9 HqL [Ha Hb]. destruct c as [a b]; cbn [ct_pad ct_data] in *.
  rewrite Z.mul_mod in Hb by (pose proof (p_gt_1 E HE); lia).
  rewrite <- !(pow_p_eq E HE), <- (mult2 E HE) in Hb. rewrite <- (pow_p_eq E HE) in Ha. subst a b.
  apply const_complete; assumption.
Qed.

Lemma const_honest_exact E : valid_env E -> forall r k L seed q c,
  0 <= r < qq E -> in_subgroup E k -> is_encryption E k r L (ct_pad c) (ct_data c) ->
  let pf := make_constant E c L r k seed q in
  const_is_valid E pf c k q = true <->
  (0 <= L < qq E /\ L < 1000000000) /\ ((cc_c pf * L) mod pp E) mod qq E = (cc_c pf * L) mod qq E.
Proof.
  intros HE r k L seed q c Hr Hk [Ha Hb] pf. pose proof (p_gt_1 E HE) as Hp. pose proof (q_gt_1 E HE) as Hq.
  assert (HL1 : const_is_valid E pf c k q = true -> 0 <= L < qq E /\ L < 1000000000).
  { intros H. unfold pf in H. unfold make_constant in H. rewrite (const_accept_iff E HE) in H. tauto. }
  enough (HH : 0 <= L < qq E -> L < 1000000000 -> (const_is_valid E pf c k q = true <-> ((cc_c pf * L) mod pp E) mod qq E = (cc_c pf * L) mod qq E)).
  { split; [intros H; destruct (HL1 H) as [H1 H2]; split; [auto|]; apply HH; assumption|]. intros [[H1 H2] H3]. apply HH; assumption. }
  clear HL1. intros HL HL9. destruct c as [al be]; cbn [ct_pad ct_data] in *.
  rewrite Z.mul_mod in Hb by lia. rewrite <- !(pow_p_eq E HE), <- (mult2 E HE) in Hb. rewrite <- (pow_p_eq E HE) in Ha.
  change (pow_p E (gg E) r) with (g_pow_p E r) in Ha. change (pow_p E (gg E) L) with (g_pow_p E L) in Hb. subst al be.
  unfold pf. clear pf. unfold const_is_valid, make_constant. cbn [cc_a cc_b cc_c cc_v cc_constant ct_pad ct_data].
  pose proof (hnonce_range E HE seed const_header 0) as Hu. set (u := hnonce E seed const_header 0) in *.
  set (c := hash_elems E _). assert (Hc : 0 <= c < qq E) by (apply hash_range; assumption).
  pose proof (a_plus_bc_q_range E HE u c r) as Hv. pose proof (apbc_mod E HE u c r) as Hvm. set (v := a_plus_bc_q E u c r) in *.
  unfold int_to_q. replace (in_bounds (qq E) L) with true by (symmetry; unfold in_bounds; apply andb_true_iff; rewrite Z.leb_le, Z.ltb_lt; lia).
  assert (Hgr : resid (pp E) (qq E) (g_pow_p E r)) by (rewrite g_pow_p_xp by (assumption||lia); apply G1_resid; assumption).
  assert (Hkr : resid (pp E) (qq E) (pow_p E k r)) by (rewrite pow_p_xp by (assumption||lia); apply GX_resid; assumption).
  assert (HgL : resid (pp E) (qq E) (g_pow_p E L)) by (rewrite g_pow_p_xp by (assumption||lia); apply G1_resid; assumption).
  assert (Hgu : resid (pp E) (qq E) (g_pow_p E u)) by (rewrite g_pow_p_xp by (assumption||lia); apply G1_resid; assumption).
  assert (Hku : resid (pp E) (qq E) (pow_p E k u)) by (rewrite pow_p_xp by (assumption||lia); apply GX_resid; assumption).
  assert (Hbr : resid (pp E) (qq E) (mult_p E [g_pow_p E L; pow_p E k r])) by (apply mult_resid; assumption).
  rewrite !(residue_ok E HE) by assumption. rewrite !(bounds_q_ok E) by assumption. rewrite Z.eqb_refl.
  assert (E1 : (0 <=? L) = true) by (apply Z.leb_le; lia). assert (E2 : (L <? 1000000000) = true) by (apply Z.ltb_lt; lia).
  assert (E3 : (g_pow_p E v =? mult_p E [g_pow_p E u; pow_p E (g_pow_p E r) c]) = true).
  { apply Z.eqb_eq. rewrite !g_pow_p_xp by (assumption||lia). rewrite pow_G1, G1_mul by (assumption||lia). apply G1_congr. rewrite Hvm. f_equal; lia. }
  rewrite E1, E2, E3. cbn [andb]. rewrite Z.eqb_eq.
  assert (Hrhs : mult_p E [pow_p E k u; pow_p E (mult_p E [g_pow_p E L; pow_p E k r]) c] = mult_p E [G1 E (c * L); GX E k v]).
  { rewrite (pow_p_xp E HE (mult_p E _)) by (assumption||lia). rewrite !(pow_p_xp E HE k) by (assumption||lia). rewrite !g_pow_p_xp by (assumption||lia).
    rewrite GX_mulbase, GX_G1, (GX_GX E HE k) by assumption.
    rewrite (mult_assoc E HE _ (G1 E (L * c))), (mult_comm E HE (GX E k u)), <- mult_assoc, GX_mul by assumption.
    replace (L * c) with (c * L) by lia. f_equal. f_equal. f_equal. apply GX_congr. rewrite Hvm. f_equal; lia. }
  rewrite Hrhs. rewrite (mult_p_eq E HE [c; L]). cbn [prodZ fold_right]. rewrite Z.mul_1_r.
  pose proof (Z.mod_pos_bound (c * L) (pp E) ltac:(lia)).
  rewrite g_pow_p_xp, pow_p_xp by (assumption||lia).
  rewrite (mult_comm E HE (G1 E ((c * L) mod pp E))), (mult_comm E HE (G1 E (c * L))).
  split; intros HX.
  - apply (G1_inj E HE). apply (mult_cancel_l E HE (GX E k v)); try assumption; try (apply GX_range; assumption). apply GX_resid; assumption.
  - f_equal. f_equal. f_equal. apply G1_congr. assumption.
Qed.

Lemma const_extract E E' : valid_env E -> same_group E E' ->
  forall m k qh qh' a b c v c' v' L, in_subgroup E k -> qq E * L <= pp E ->
  const_is_valid E (mkConst a b c v L) m k qh = true ->
  const_is_valid E' (mkConst a b c' v' L) m k qh' = true -> c <> c' ->
  exists r, 0 <= r < qq E /\ is_encryption E k r L (ct_pad m) (ct_data m).
Proof.
  intros HE HS m k qh qh' a b c v c' v' L Hk HL H1 H2 Hc.
  exact (const_sound E E' HE HS m k qh qh' a b c v c' v' L Hk HL H1 H2 Hc).
Qed.

Lemma const_witness : exists E r k L seed q c, valid_env E /\ 0 <= r < qq E /\
  in_subgroup E k /\ 0 <= L < qq E /\ L < 1000000000 /\ is_encryption E k r L (ct_pad c) (ct_data c) /\
  const_is_valid E (make_constant E c L r k seed q) c k q = false.
Proof.
  exists medium, 5, (gexp medium 77), 3, 2, 9,
    (mkCt (gexp medium 5) ((3 ^ 3 * gexp medium 77 ^ 5) mod 65267)).
  split; [exact medium_valid|]. split; [cbn; lia|].
  split; [apply (gexp_subgroup medium medium_valid); lia|]. split; [cbn; lia|]. split; [lia|].
  split; [split; reflexivity|]. vm_compute. reflexivity.
Qed.

Lemma cp_honest E : valid_env E -> forall msg s seed q,
  in_subgroup E (ct_pad msg) -> in_subgroup E (ct_data msg) -> 0 <= s < qq E -> 0 <= q < qq E ->
  let share := (ct_pad msg) ^ s mod pp E in
  cp_is_valid E (make_chaum_pedersen E msg s share seed q) msg (gexp E s) share q = true.
Proof.
  intros HE msg s seed q Ha Hb Hs Hq share. unfold share, gexp. rewrite <- !(pow_p_eq E HE).
  apply cp_complete; assumption.
Qed.

Lemma poly_from_S_0 cs : forall i, (0 < i)%nat -> poly_from i cs 0 = 0.
Proof. induction cs as [|a cs IH]; intros i Hi; cbn [poly_from]; [reflexivity|]. rewrite IH by lia. rewrite Z.pow_0_l by lia. lia. Qed.
Lemma poly_at_0 a coeffs : poly_at (a :: coeffs) 0 = a.
Proof. unfold poly_at. cbn [poly_from]. rewrite poly_from_S_0 by lia. cbn [Z.of_nat]. rewrite Z.pow_0_r. lia. Qed.

Lemma lagrange_err E : valid_env E -> forall x ds z,
  In z ds -> z mod qq E = x mod qq E -> compute_lagrange_coefficient E x ds = Err ZeroDivisionError.
Proof. intros HE x ds z Hz He. eapply lagrange_coefficient_err; eauto. Qed.

Lemma honest_backup E : valid_env E -> forall x coeffs,
  0 <= x < qq E -> Forall (fun a => 0 <= a) coeffs -> (forall j, 0 <= j < zlen coeffs -> x ^ j < pp E) ->
  verify_polynomial_coordinate E (poly_at coeffs x mod qq E) x (map (gexp E) coeffs) = Ok true.
Proof.
  intros HE x coeffs Hx Hc Hj. pose proof (q_gt_1 E HE).
  rewrite (verify_iff E HE) by (try assumption; apply Z.mod_pos_bound; lia).
  rewrite Z.mod_mod by lia. rewrite Z.eqb_refl. reflexivity.
Qed.

Lemma backup_iff E : valid_env E -> forall x y coeffs,
  0 <= x < qq E -> Forall (fun a => 0 <= a) coeffs -> (forall j, 0 <= j < zlen coeffs -> x ^ j < pp E) ->
  0 <= y < qq E ->
  (verify_polynomial_coordinate E y x (map (gexp E) coeffs) = Ok true <-> y = poly_at coeffs x mod qq E).
Proof.
  intros HE x y coeffs Hx Hc Hj Hy. rewrite (verify_iff E HE) by (try assumption; lia).
  rewrite (Z.mod_small y) by assumption. split.
  - intros [= H]. apply Z.eqb_eq in H. assumption.
  - intros ->. rewrite Z.eqb_refl. reflexivity.
Qed.

(** no bound on the powers: what the check compares is the polynomial with wrapped powers *)
Lemma verify_loop_any E : valid_env E -> forall x cs i acc e, 0 <= x -> (forall a, In a cs -> 0 <= a) ->
  acc = G1 E e -> verify_loop E x (Z.of_nat i) acc (map (g_pow_p E) cs) = G1 E (e + poly_wrap_from (pp E) i cs x).
Proof.
  intros HE x cs. induction cs as [|a cs IH]; intros i acc e Hx Hcs ->; cbn [map verify_loop poly_wrap_from].
  - f_equal; lia.
  - pose proof (p_gt_1 E HE). rewrite (pow_p_eq E HE x). pose proof (Z.mod_pos_bound (x ^ Z.of_nat i) (pp E) ltac:(lia)).
    rewrite g_pow_p_xp by (try assumption; apply Hcs; left; reflexivity).
    rewrite pow_G1, G1_mul by (try assumption; lia).
    replace (Z.of_nat i + 1) with (Z.of_nat (S i)) by lia.
    rewrite (IH (S i) _ (e + a * (x ^ Z.of_nat i mod pp E))); try lia; try reflexivity.
    + f_equal; lia.
    + intros; apply Hcs; right; assumption.
Qed.
Lemma backup_exact E : valid_env E -> forall x y coeffs,
  0 <= x < qq E -> Forall (fun a => 0 <= a) coeffs -> 0 <= y < qq E ->
  verify_polynomial_coordinate E y x (map (gexp E) coeffs) = Ok (y =? poly_wrap_at (pp E) coeffs x mod qq E).
Proof.
  intros HE x y coeffs Hx Hc Hy. rewrite Forall_forall in Hc.
  replace (map (gexp E) coeffs) with (map (g_pow_p E) coeffs)
    by (apply map_ext; intros a; unfold gexp, g_pow_p; apply pow_p_eq; assumption).
  unfold verify_polynomial_coordinate, ElementModQ.
  replace (in_bounds (qq E) x) with true by (symmetry; unfold in_bounds; apply andb_true_iff; rewrite Z.leb_le, Z.ltb_lt; lia).
  cbn [rbind]. f_equal. change 0 with (Z.of_nat 0) at 1.
  rewrite (verify_loop_any E HE x coeffs 0 1 0); try lia; try assumption.
  - rewrite Z.add_0_l. fold (poly_wrap_at (pp E) coeffs x). rewrite g_pow_p_xp by (assumption || lia).
    destruct (Z.eqb_spec y (poly_wrap_at (pp E) coeffs x mod qq E)) as [Heq|Hne].
    + apply Z.eqb_eq, G1_congr. rewrite (Z.mod_small y) by assumption. assumption.
    + apply Z.eqb_neq. intros Heq. apply Hne. apply (G1_inj E HE) in Heq. rewrite (Z.mod_small y) in Heq by assumption. assumption.
  - unfold G1. rewrite GX_0 by assumption. reflexivity.
Qed.
Lemma backup_range E : forall x y ks, ~ 0 <= x < qq E -> verify_polynomial_coordinate E y x ks = Err OverflowError.
Proof.
  intros x y ks Hx. unfold verify_polynomial_coordinate, ElementModQ, in_bounds.
  destruct (Z.leb_spec 0 x), (Z.ltb_spec x (qq E)); cbn; try reflexivity; lia.
Qed.
Lemma honest_backup_exact E : valid_env E -> forall x coeffs,
  0 <= x < qq E -> Forall (fun a => 0 <= a) coeffs ->
  verify_polynomial_coordinate E (poly_at coeffs x mod qq E) x (map (gexp E) coeffs)
    = Ok (poly_at coeffs x mod qq E =? poly_wrap_at (pp E) coeffs x mod qq E).
Proof. intros HE x coeffs Hx Hc. pose proof (q_gt_1 E HE). apply backup_exact; try assumption. apply Z.mod_pos_bound; lia. Qed.

Lemma backup_witness : exists E x pl y, valid_env E /\ 0 <= x < qq E /\
  (exists draws, pl = generate_polynomial E draws /\
     Forall (fun d => 0 <= fst d < qq E /\ 0 <= snd d < qq E) draws) /\
  compute_polynomial_coordinate E x pl = Ok y /\
  verify_polynomial_coordinate E y x (get_commitments pl) = Ok false.
Proof.
  exists tiny, 12, (generate_polynomial tiny [(5, 1); (2, 2); (7, 3); (3, 4)]). eexists.
  split; [exact tiny_valid|]. split; [cbn; lia|]. split.
  { eexists; split; [reflexivity|]. repeat constructor; cbn; lia. }
  split; [vm_compute; reflexivity|]. vm_compute. reflexivity.
Qed.

Lemma commitments_polynomial E : valid_env E -> forall ks,
  Forall (in_subgroup E) ks -> exists coeffs, Forall (fun a => 0 <= a < qq E) coeffs /\ ks = map (gexp E) coeffs.
Proof.
  intros HE ks H. induction H as [|k ks Hk _ [cs [Hc ->]]]; [exists []; split; [constructor|reflexivity]|].
  destruct (subgroup_cyclic E k HE Hk) as [a [Ha ->]]. exists (a :: cs). split; [constructor; assumption|].
  reflexivity.
Qed.

Lemma padding_truncates (m : list Z) size : 2 <= size <= 65537 -> size - 2 < zlen m ->
  exists p, add_padding m size true = Ok p /\ zlen p = size /\
    remove_padding p size = firstn (Z.to_nat (size - 2)) m.
Proof.
  intros Hs Hm.
  assert (Hadd : exists p, add_padding m size true = Ok p).
  { unfold add_padding. destruct (Z.ltb_spec (size - 2) (zlen m)); [|lia]. cbn [rbind].
    rewrite Z.sub_diag. eexists; reflexivity. }
  destruct Hadd as [p Hp]. exists p. split; [exact Hp|].
  destruct (padding_truncated m size (py_slice m 0 (Z.min (zlen m) (size - 2))) p) as [H1 H2]; try lia; auto.
  split; [exact H2|]. rewrite H1, Z.min_r by lia. apply py_slice_prefix. lia.
Qed.

Lemma is_bytes_dec l : forallb (fun b => (0 <=? b) && (b <? 256)) l = true -> is_bytes l.
Proof.
  unfold is_bytes. rewrite forallb_forall, Forall_forall. intros H x Hx. specialize (H x Hx).
  rewrite andb_true_iff, Z.leb_le, Z.ltb_lt in H. lia.
Qed.
Lemma hashed_short_witness : exists E msg secret nonce seed c, valid_env E /\ is_bytes msg /\
  zlen msg = 32 /\ hashed_elgamal_encrypt E msg nonce (gexp E secret) seed = Ok c /\
  hashed_decrypt E c secret seed = Ok None.
Proof.
  exists tiny, (repeat 65 32), 5, 3, 9. eexists. split; [exact tiny_valid|].
  split; [apply is_bytes_dec; reflexivity|]. split; [reflexivity|]. split; [vm_compute; reflexivity|].
  vm_compute. reflexivity.
Qed.
Lemma toy_hmac_ok k m : length (toy_hmac k m) = 32%nat /\ is_bytes (toy_hmac k m).
Proof.
  unfold toy_hmac. split; [rewrite !map_length, seq_length; reflexivity|].
  unfold is_bytes. apply Forall_forall. intros x Hx. apply in_map_iff in Hx. destruct Hx as [i [<- _]].
  apply Z.mod_pos_bound; lia.
Qed.
Lemma hashed_example :
  (forall k m, length (hmac256 tiny k m) = 32%nat /\ is_bytes (hmac256 tiny k m)) /\
  (let msg := repeat 65 512 in is_bytes msg /\
   exists c, hashed_elgamal_encrypt tiny msg 3 (gexp tiny 5) 9 = Ok c /\ hashed_decrypt tiny c 5 9 = Ok (Some msg)).
Proof.
  split; [exact toy_hmac_ok|]. cbv zeta. split; [apply is_bytes_dec; vm_compute; reflexivity|].
  destruct (hashed_roundtrip_len tiny (repeat 65 512) 5 3 9 tiny_valid toy_hmac_ok) as [c [H1 H2]].
  - apply is_bytes_dec; vm_compute; reflexivity.
  - vm_compute; reflexivity.
  - vm_compute; split; congruence.
  - lia.
  - lia.
  - exists c. split; [exact H1|]. apply H2. left. vm_compute; reflexivity.
Qed.

Section History.
  Variable E : env.
  Hypothesis HE : valid_env E.
  Hypothesis Hd : 0 <= dmax E < qq E.
  Lemma dlog_history_answer ops i x e : snd (dl_step E (dl_run E dl_init ops) (DLookup i x)) = Ok e ->
    0 <= e <= dmax E /\ gg E ^ e mod pp E = x.
  Proof. apply lookup_answer; try assumption; try lia. apply reachable_inv; assumption. Qed.
  Lemma dlog_history_found ops i m : let s := dl_run E dl_init ops in
    0 <= m <= fst (settings_of E s i) -> fst (settings_of E s i) <= dmax E -> snd (settings_of E s i) = true ->
    snd (dl_step E s (DLookup i (gg E ^ m mod pp E))) = Ok m.
  Proof. intros s. apply lookup_found; try assumption; try lia. apply reachable_inv; assumption. Qed.
  Lemma dlog_history_absent ops i x : (forall j, 0 <= j <= dmax E -> gg E ^ j mod pp E <> x) ->
    exists exc, snd (dl_step E (dl_run E dl_init ops) (DLookup i x)) = Err exc.
  Proof. apply lookup_absent; try assumption; try lia. apply reachable_inv; assumption. Qed.
  Lemma dlog_stateless ops i x e : let s := dl_run E dl_init ops in
    fst (settings_of E s i) = dmax E -> snd (settings_of E s i) = true ->
    (snd (dl_step E s (DLookup i x)) = Ok e <-> dlog E x = Ok e).
  Proof.
    intros s H1 H2. split; intros H.
    - apply dlog_history_answer in H. destruct H as [He <-]. rewrite (G1_pow E HE) by lia.
      apply dlog_G1; try assumption; lia.
    - apply dlog_ok in H; [|assumption]. destruct H as (He & <- & Hx).
      apply dlog_history_found; fold s; rewrite ?H1; try assumption; lia.
  Qed.
End History.

Definition tiny_wrap : env := mkEnv 157 13 16 toy_sha toy_hmac 30 toy_jstr toy_jcoord.
Lemma dlog_wrap_witness : exists E, valid_env E /\ exists x,
  snd (dl_step E dl_init (DLookup 0 (gg E))) = Ok 1 /\
  (exists e, snd (dl_step E (dl_run E dl_init [DLookup 0 x]) (DLookup 0 (gg E))) = Ok e /\ e <> 1).
Proof.
  exists tiny_wrap. split. { destruct tiny_valid as [A B C D F]. constructor; assumption. }
  exists 2. split; [vm_compute; reflexivity|]. eexists. split; [vm_compute; reflexivity|]. discriminate.
Qed.
