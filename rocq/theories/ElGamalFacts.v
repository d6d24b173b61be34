(** * Lemmas about elgamal.py: discrete log search, decryption, addition, hashed ElGamal. *)
From Verif Require Import Base Group GroupFacts Codec CodecFacts Hash HashFacts DLog ElGamal ZK ZKFacts.
From Coq Require Import Znumtheory Permutation.

Section DLogPure.
  Variable E : env.
  Hypothesis HE : valid_env E.
  Let Hp : 1 < pp E := p_gt_1 E HE.
  Let Hq : 1 < qq E := q_gt_1 E HE.

  Lemma g_step e : 0 <= e -> mult_p E [gg E; G1 E e] = G1 E (e + 1).
  Proof.
    intros He. rewrite Z.add_comm. rewrite <- (G1_mul E HE).
    f_equal. f_equal. unfold G1. rewrite GX_1 by (try apply g_resid; assumption). reflexivity.
  Qed.

  Lemma dlog_search_ok fuel : forall e x r, 0 <= e ->
    dlog_search E fuel e (G1 E e) x = Ok r ->
    e <= r <= e + Z.of_nat fuel /\ G1 E r = x /\ (forall j, e <= j < r -> G1 E j <> x).
  Proof.
    induction fuel as [|k IH]; intros e x r He; cbn [dlog_search].
    - destruct (Z.eqb_spec (G1 E e) x) as [Heq|]; [|discriminate]. intros [= <-].
      split; [lia|]. split; [assumption|]. intros; lia.
    - destruct (Z.eqb_spec (G1 E e) x) as [Heq|Hne].
      + intros [= <-]. split; [lia|]. split; [assumption|]. intros; lia.
      + rewrite g_step by assumption. intros H. apply IH in H; [|lia].
        destruct H as (H1 & H2 & H3). split; [lia|]. split; [assumption|].
        intros j Hj. destruct (Z.eq_dec j e) as [->|]; [assumption|]. apply H3; lia.
  Qed.
  Lemma dlog_search_found fuel : forall e x r, 0 <= e ->
    e <= r <= e + Z.of_nat fuel -> G1 E r = x -> (forall j, e <= j < r -> G1 E j <> x) ->
    dlog_search E fuel e (G1 E e) x = Ok r.
  Proof.
    induction fuel as [|k IH]; intros e x r He Hr Hx Hmin; cbn [dlog_search].
    - replace r with e in * by lia. rewrite Hx, Z.eqb_refl. reflexivity.
    - destruct (Z.eqb_spec (G1 E e) x) as [Heq|Hne].
      + destruct (Z.eq_dec e r) as [->|]; [reflexivity|]. exfalso. apply (Hmin e); [lia|assumption].
      + rewrite g_step by assumption. apply IH; try lia; try assumption.
        * assert (r <> e) by (intros ->; contradiction). lia.
        * intros j Hj. apply Hmin; lia.
  Qed.
  Lemma dlog_search_err fuel : forall e x exc, 0 <= e ->
    dlog_search E fuel e (G1 E e) x = Err exc ->
    exc = DiscreteLogExponentError /\ (forall j, e <= j <= e + Z.of_nat fuel -> G1 E j <> x).
  Proof.
    induction fuel as [|k IH]; intros e x exc He; cbn [dlog_search].
    - destruct (Z.eqb_spec (G1 E e) x) as [Heq|]; [discriminate|]. intros [= <-].
      split; [reflexivity|]. intros j Hj. replace j with e by lia. assumption.
    - destruct (Z.eqb_spec (G1 E e) x) as [Heq|Hne]; [discriminate|].
      rewrite g_step by assumption. intros H. apply IH in H; [|lia].
      destruct H as (H1 & H2). split; [assumption|]. intros j Hj.
      destruct (Z.eq_dec j e) as [->|]; [assumption|]. apply H2; lia.
  Qed.

  Lemma G1_0 : G1 E 0 = 1.
  Proof. unfold G1. apply GX_0; assumption. Qed.

  Lemma dlog_G1 m : 0 <= m < qq E -> m <= dmax E -> dlog E (G1 E m) = Ok m.
  Proof.
    intros Hm Hd. unfold dlog. rewrite <- G1_0. apply dlog_search_found; try lia; try reflexivity.
    intros j Hj Heq. apply (G1_inj E HE) in Heq. rewrite !Z.mod_small in Heq by lia. lia.
  Qed.

  Lemma dlog_ok x r : dlog E x = Ok r ->
    0 <= r <= Z.max 0 (dmax E) /\ gg E ^ r mod pp E = x /\ (forall j, 0 <= j < r -> gg E ^ j mod pp E <> x).
  Proof.
    unfold dlog. rewrite <- G1_0. intros H. apply dlog_search_ok in H; [|lia].
    destruct H as (H1 & H2 & H3). split; [lia|]. split; [rewrite (G1_pow E HE) by lia; assumption|].
    intros j Hj. rewrite (G1_pow E HE) by lia. apply H3; lia.
  Qed.
  Lemma dlog_err x exc : dlog E x = Err exc ->
    exc = DiscreteLogExponentError /\ (forall j, 0 <= j <= dmax E -> gg E ^ j mod pp E <> x).
  Proof.
    unfold dlog. rewrite <- G1_0. intros H. apply dlog_search_err in H; [|lia].
    destruct H as (H1 & H2). split; [assumption|]. intros j Hj. rewrite (G1_pow E HE) by lia. apply H2; lia.
  Qed.
End DLogPure.

Section ElG.
  Variable E : env.
  Hypothesis HE : valid_env E.
  Let Hp : 1 < pp E := p_gt_1 E HE.
  Let Hq : 1 < qq E := q_gt_1 E HE.
  Notation rs := (resid (pp E) (qq E)).

  (** canonical form of a ciphertext: nonce R and message M as exponents, key K *)
  Definition ct_of (K R M : Z) : ciphertext := mkCt (G1 E R) (mult_p E [G1 E M; GX E K R]).

  Lemma pow_p_int_g m : pow_p_int E (gg E) m = Ok (G1 E m).
  Proof.
    unfold pow_p_int. destruct (Z.ltb_spec m 0) as [Hm|Hm].
    - pose proof (mult_inv_p_resid E HE (gg E) (g_resid E HE)) as Hi.
      unfold mult_inv_p in Hi. destruct (Z.eqb_spec (gg E) 0) as [|_]; [pose proof (ve_g E HE); lia|].
      rewrite Hi. cbn [rbind]. f_equal. change (powmod (GX E (gg E) (-1)) (- m) (pp E))
        with (pow_p E (GX E (gg E) (-1)) (- m)).
      rewrite pow_GX by (try lia; try apply g_resid; assumption).
      unfold G1. f_equal. lia.
    - f_equal. change (pow_p E (gg E) m) with (g_pow_p E m). apply g_pow_p_xp; [assumption|lia].
  Qed.

  Lemma encrypt_form m r K : rs K -> 0 <= r -> r <> 0 ->
    elgamal_encrypt E m r K = Ok (Some (ct_of K r m)).
  Proof.
    intros HK Hr Hr0. unfold elgamal_encrypt. destruct (Z.eqb_spec r 0); [contradiction|].
    rewrite pow_p_int_g. cbn [rbind]. unfold ct_of. rewrite g_pow_p_xp, pow_p_xp by assumption.
    reflexivity.
  Qed.

  Lemma div_exponent M x : rs x -> mult_p E [mult_p E [G1 E M; x]; GX E x (-1)] = G1 E M.
  Proof.
    intros Hx. rewrite <- (mult_assoc E HE). rewrite <- (GX_1 E HE x Hx) at 1.
    rewrite (GX_mul E HE) by assumption. change (1 + -1) with 0. rewrite GX_0 by assumption.
    apply mult_1_r; [assumption|]. apply GX_range; assumption.
  Qed.

  Lemma decrypt_product_form K R M : rs K -> decrypt_known_product E (ct_of K R M) (GX E K R) = dlog E (G1 E M).
  Proof.
    intros HK. unfold decrypt_known_product.
    rewrite mult_inv_p_resid by (try assumption; apply GX_resid; assumption). cbn [rbind].
    unfold ct_of; cbn [ct_data]. rewrite div_exponent by (apply GX_resid; assumption). reflexivity.
  Qed.

  Lemma decrypt_form s R M : 0 <= s -> elgamal_decrypt E (ct_of (G1 E s) R M) s = dlog E (G1 E M).
  Proof.
    intros Hs. unfold elgamal_decrypt. cbn [ct_of ct_pad].
    replace (pow_p E (G1 E R) s) with (GX E (G1 E s) R).
    - apply decrypt_product_form. apply G1_resid; assumption.
    - rewrite pow_G1, GX_G1 by assumption. f_equal. lia.
  Qed.

  Lemma ct_mul_form K R M R' M' : rs K ->
    ct_mul E (ct_of K R M) (ct_of K R' M') = ct_of K (R + R') (M + M').
  Proof.
    intros HK. unfold ct_mul, ct_of; cbn [ct_pad ct_data]. f_equal.
    - apply G1_mul; assumption.
    - rewrite <- (mult_assoc E HE). rewrite (mult_assoc E HE (GX E K R)).
      rewrite (mult_comm E HE (GX E K R)). rewrite <- (mult_assoc E HE (G1 E M')).
      rewrite (mult_assoc E HE). rewrite (G1_mul E HE), (GX_mul E HE) by assumption. reflexivity.
  Qed.

  Lemma fold_ct_mul K l : rs K -> forall R M,
    fold_left (ct_mul E) (map (fun rm => ct_of K (fst rm) (snd rm)) l) (ct_of K R M)
    = ct_of K (R + sumZ (map fst l)) (M + sumZ (map snd l)).
  Proof.
    intros HK. induction l as [|[r m] l IH]; intros R M; cbn [map fold_left].
    - cbn. f_equal; lia.
    - cbn [fst snd]. rewrite ct_mul_form by assumption. rewrite IH.
      f_equal; cbn [sumZ fold_right map fst snd]; unfold sumZ; lia.
  Qed.

  Lemma elgamal_add_form K l : rs K -> l <> [] ->
    elgamal_add E (map (fun rm => ct_of K (fst rm) (snd rm)) l)
    = Ok (ct_of K (sumZ (map fst l)) (sumZ (map snd l))).
  Proof.
    intros HK Hl. destruct l as [|[r m] l]; [contradiction|]. cbn [map elgamal_add fst snd].
    rewrite fold_ct_mul by assumption. reflexivity.
  Qed.

  (** elgamal_add for arbitrary in-range ciphertexts is the componentwise product *)
  Definition ct_inrange (c : ciphertext) : Prop := 0 <= ct_pad c < pp E /\ 0 <= ct_data c < pp E.
  Lemma fold_ct_mul_prod l : forall c, ct_inrange c ->
    fold_left (ct_mul E) l c = mkCt (mult_p E (ct_pad c :: map ct_pad l)) (mult_p E (ct_data c :: map ct_data l)).
  Proof.
    induction l as [|x l IH]; intros [a b] [Ha Hb]; cbn [fold_left map ct_pad ct_data] in *.
    - rewrite !mult_p_eq by assumption. cbn [prodZ fold_right]. rewrite !Z.mul_1_r, !Z.mod_small by lia. reflexivity.
    - rewrite IH.
      + unfold ct_mul; cbn [ct_pad ct_data]. rewrite !mult_p_eq by assumption. cbn [prodZ fold_right].
        f_equal; modring (pp E).
      + unfold ct_mul, ct_inrange; cbn [ct_pad ct_data]. split; apply mult_p_range; assumption.
  Qed.
  Lemma elgamal_add_prod l : l <> [] -> Forall ct_inrange l ->
    elgamal_add E l = Ok (mkCt (prodZ (map ct_pad l) mod pp E) (prodZ (map ct_data l) mod pp E)).
  Proof.
    intros Hl HF. destruct l as [|c l]; [contradiction|]. inversion HF; subst.
    cbn [elgamal_add map]. rewrite fold_ct_mul_prod by assumption. rewrite !mult_p_eq by assumption. reflexivity.
  Qed.
End ElG.

Lemma prodZ_app a b : prodZ (a ++ b) = prodZ a * prodZ b.
Proof. unfold prodZ. induction a as [|x a IH]; cbn [app fold_right]; [destruct (fold_right Z.mul 1 b); reflexivity|]. rewrite IH. ring. Qed.
Lemma sumZ_app a b : sumZ (a ++ b) = sumZ a + sumZ b.
Proof. unfold sumZ. induction a as [|x a IH]; cbn [app fold_right]; [destruct (fold_right Z.add 0 b); reflexivity|]. rewrite IH. ring. Qed.
Lemma prodZ_perm a b : Permutation a b -> prodZ a = prodZ b.
Proof. induction 1; unfold prodZ in *; cbn [fold_right]; [reflexivity|congruence|ring|congruence]. Qed.
Lemma sumZ_perm a b : Permutation a b -> sumZ a = sumZ b.
Proof. induction 1; unfold sumZ in *; cbn [fold_right]; [reflexivity|congruence|ring|congruence]. Qed.

(** ** hashed ElGamal *)
Section Hashed.
  Variable E : env.
  Hypothesis HE : valid_env E.
  Let Hp : 1 < pp E := p_gt_1 E HE.
  Let Hq : 1 < qq E := q_gt_1 E HE.
  Hypothesis Hmac : forall k m, length (hmac256 E k m) = 32%nat /\ is_bytes (hmac256 E k m).

  Lemma xor_zip_length a : forall b, length (xor_zip a b) = Nat.min (length a) (length b).
  Proof. induction a as [|x a IH]; intros [|y b]; cbn; auto. Qed.
  Lemma xor_zip_twice a : forall k, (length a <= length k)%nat -> xor_zip (xor_zip a k) k = a.
  Proof.
    induction a as [|x a IH]; intros [|y k] H; cbn in *; try reflexivity; try lia.
    f_equal; [|apply IH; lia]. rewrite Z.lxor_assoc, Z.lxor_nilpotent, Z.lxor_0_r. reflexivity.
  Qed.
  Lemma lxor_byte x y : 0 <= x < 256 -> 0 <= y < 256 -> 0 <= Z.lxor x y < 256.
  Proof.
    intros Hx Hy. split; [apply Z.lxor_nonneg; lia|].
    destruct (Z.eq_dec (Z.lxor x y) 0) as [->|Hne]; [lia|].
    assert (H0 : 0 <= Z.lxor x y) by (apply Z.lxor_nonneg; lia).
    change 256 with (2 ^ 8). apply Z.log2_lt_pow2; [lia|].
    eapply Z.le_lt_trans; [apply Z.log2_lxor; lia|].
    assert (Hl : forall z, 0 <= z < 256 -> Z.log2 z < 8).
    { intros z Hz. destruct (Z.eq_dec z 0) as [->|]; [reflexivity|].
      apply Z.log2_lt_pow2; [lia|]. change (2 ^ 8) with 256. lia. }
    pose proof (Hl x Hx). pose proof (Hl y Hy). lia.
  Qed.
  Lemma xor_zip_bytes a : forall k, is_bytes a -> is_bytes k -> is_bytes (xor_zip a k).
  Proof.
    induction a as [|x a IH]; intros [|y k] Ha Hk; cbn; try constructor.
    - inversion Ha; inversion Hk; subst. apply lxor_byte; assumption.
    - inversion Ha; inversion Hk; subst. apply IH; assumption.
  Qed.

  (** get_hmac with a non-zero length succeeds exactly when both counters fit in 4 bytes *)
  Definition hk (sk sd : list Z) (bl i : Z) : list Z :=
    hmac256 E sk (to_bytes_le_raw 4 i ++ sd ++ to_bytes_le_raw 4 bl).
  Lemma get_hmac_ok sk sd bl i : 0 <= bl < 256 ^ 4 -> 0 <= i < 256 ^ 4 -> bl <> 0 ->
    get_hmac E sk sd (Some bl) i = Ok (hk sk sd bl i).
  Proof.
    intros Hb Hi H0. unfold get_hmac. destruct (Z.eqb_spec bl 0); [contradiction|].
    unfold fix_message_length, to_bytes_le. change (Z.of_nat 4) with 4.
    replace ((0 <=? i) && (i <? 256 ^ 4)) with true by (symmetry; apply andb_true_iff; rewrite Z.leb_le, Z.ltb_lt; lia).
    replace ((0 <=? bl) && (bl <? 256 ^ 4)) with true by (symmetry; apply andb_true_iff; rewrite Z.leb_le, Z.ltb_lt; lia).
    reflexivity.
  Qed.

  Fixpoint xor_stream (sk sd : list Z) (bl i : Z) (bs : list (list Z)) : list (list Z) :=
    match bs with [] => [] | b :: bs' => xor_zip b (hk sk sd bl (i + 1)) :: xor_stream sk sd bl (i + 1) bs' end.

  Lemma xor_blocks_ok sk sd bl bs : 0 <= bl < 256 ^ 4 -> bl <> 0 -> forall i, 0 <= i ->
    i + zlen bs < 256 ^ 4 -> xor_blocks E sk sd bl i bs = Ok (concat (xor_stream sk sd bl i bs)).
  Proof.
    intros Hbl Hbl0. induction bs as [|b bs IH]; intros i Hi Hlen; cbn [xor_blocks xor_stream concat]; [reflexivity|].
    rewrite zlen_cons in Hlen. pose proof (zlen_nonneg bs).
    rewrite get_hmac_ok by lia. cbn [rbind]. rewrite IH by lia. reflexivity.
  Qed.

  Lemma xor_stream_twice sk sd bl bs : Forall (fun b => length b = 32%nat) bs -> forall i,
    xor_stream sk sd bl i (xor_stream sk sd bl i bs) = bs.
  Proof.
    induction 1 as [|b bs Hb Hbs IH]; intros i; cbn [xor_stream]; [reflexivity|].
    rewrite IH, xor_zip_twice; [reflexivity|]. unfold hk. rewrite (proj1 (Hmac _ _)), Hb. lia.
  Qed.
  Lemma xor_stream_blocks sk sd bl (bs : list (list Z)) : Forall (fun b => length b = 32%nat) bs -> forall i,
    Forall (fun b => length b = 32%nat) (xor_stream sk sd bl i bs) /\ length (xor_stream sk sd bl i bs) = length bs.
  Proof.
    induction 1 as [|b bs Hb Hbs IH]; intros i; cbn [xor_stream length]; [split; [constructor|reflexivity]|].
    destruct (IH (i + 1)) as [H1 H2]. split; [|rewrite H2; reflexivity]. constructor; [|assumption].
    rewrite xor_zip_length. unfold hk. rewrite (proj1 (Hmac _ _)), Hb. reflexivity.
  Qed.
  Lemma xor_stream_bytes sk sd bl bs : Forall is_bytes bs -> forall i,
    Forall is_bytes (xor_stream sk sd bl i bs).
  Proof.
    induction 1 as [|b bs Hb Hbs IH]; intros i; cbn [xor_stream]; constructor; [|apply IH].
    apply xor_zip_bytes; [assumption|]. apply Hmac.
  Qed.

  Lemma chunks_of_concat n : forall l, length l = (32 * n)%nat ->
    concat (chunks_of n l) = l /\ Forall (fun b => length b = 32%nat) (chunks_of n l) /\ length (chunks_of n l) = n.
  Proof.
    induction n as [|n IH]; intros l Hl.
    - destruct l; [|cbn in Hl; lia]. cbn. repeat split; constructor.
    - cbn [chunks_of concat length].
      destruct (IH (skipn 32 l)) as (H1 & H2 & H3); [rewrite skipn_length; lia|].
      rewrite H1, H3, firstn_skipn. repeat split. constructor; [|assumption].
      rewrite firstn_length. lia.
  Qed.
  Lemma chunks_of_concat_inv bs : Forall (fun b => length b = 32%nat) bs ->
    chunks_of (length bs) (concat bs) = bs.
  Proof.
    induction 1 as [|b bs Hb Hbs IH]; [reflexivity|]. cbn [length concat].
    change (chunks_of (S (length bs)) (b ++ concat bs))
      with (firstn 32 (b ++ concat bs) :: chunks_of (length bs) (skipn 32 (b ++ concat bs))).
    rewrite firstn_app_exact, skipn_app_exact by lia. rewrite IH. reflexivity.
  Qed.
  Lemma concat_blocks_length (bs : list (list Z)) : Forall (fun b => length b = 32%nat) bs -> length (concat bs) = (32 * length bs)%nat.
  Proof. induction 1 as [|b bs Hb Hbs IH]; [reflexivity|]. cbn [concat length]. rewrite app_length, IH, Hb. lia. Qed.
  Lemma concat_bytes bs : Forall is_bytes bs -> is_bytes (concat bs).
  Proof. induction 1 as [|b bs Hb Hbs IH]; [constructor|]. cbn [concat]. unfold is_bytes. apply Forall_app; split; assumption. Qed.
  Lemma chunks_bytes n : forall l, is_bytes l -> Forall is_bytes (chunks_of n l).
  Proof.
    induction n as [|n IH]; intros l Hl; cbn [chunks_of]; constructor.
    - unfold is_bytes in *. rewrite Forall_forall in *. intros x Hx. apply Hl.
      rewrite <- (firstn_skipn 32 l). apply in_or_app; left; assumption.
    - apply IH. unfold is_bytes. unfold is_bytes in Hl. rewrite Forall_forall in *. intros x Hx. apply Hl.
      rewrite <- (firstn_skipn 32 l). apply in_or_app; right; assumption.
  Qed.

  Lemma get_chunks_exact l n : length l = (32 * n)%nat -> get_chunks l = (chunks_of n l, zlen l * 8).
  Proof.
    intros Hl. unfold get_chunks, block_size. unfold zlen. rewrite Hl.
    replace (Z.of_nat (32 * n) mod 32) with 0 by (rewrite Nat2Z.inj_mul, Z.mul_comm, Z.mod_mul; lia).
    cbn [Z.eqb]. f_equal; [|rewrite Hl; reflexivity]. f_equal.
    rewrite Hl, Nat2Z.inj_mul, Z.mul_comm, Z.div_mul by lia. lia.
  Qed.

  (** hex text of bytes, padded back to 512: exact for 512-byte strings, and for longer ones whose
      first byte is not zero *)
  Lemma padded_roundtrip data : is_bytes data ->
    zlen data = 512 \/ (512 < zlen data /\ exists x l, data = x :: l /\ x <> 0) ->
    to_padded_bytes (bytes_to_hex data) 512 = Ok data.
  Proof.
    intros Hb Hlen. unfold to_padded_bytes, bytes_to_hex, int_from_bytes.
    pose proof (of_digits_be_bound 256 ltac:(lia) data Hb) as Hbound.
    rewrite to_hex_bytes_spec by lia. cbn [rbind].
    set (n := of_digits_be 256 data) in *.
    assert (Hr : Forall (fun d => 0 <= d < 256) (to_hex_bytes n)).
    { unfold to_hex_bytes. destruct (n =? 0); [repeat constructor; lia|apply digits_be_range; lia]. }
    assert (Hv : of_digits_be 256 (to_hex_bytes n) = n) by (apply to_hex_bytes_value; lia).
    destruct Hlen as [Hlen|[Hlen [x [l [Hd Hx]]]]].
    - (* 512 *)
      assert (Hshort : zlen (to_hex_bytes n) <= 512).
      { unfold to_hex_bytes in *. destruct (Z.eqb_spec n 0) as [|Hn0]; [unfold zlen; cbn; lia|].
        destruct (digits_be 256 n) as [|d ds] eqn:Hds; [unfold zlen; cbn; lia|].
        pose proof (digits_be_head 256 ltac:(lia) n d ds ltac:(lia) Hds) as Hd0.
        inversion Hr as [|? ? Hdr Hr']; subst.
        rewrite of_digits_be_cons in Hv by lia. rewrite zlen_cons.
        pose proof (of_digits_be_bound 256 ltac:(lia) ds Hr') as Hb'.
        destruct (Z_le_gt_dec (1 + zlen ds) 512) as [|Hgt]; [assumption|exfalso].
        assert (256 ^ 512 <= 256 ^ zlen ds) by (apply Z.pow_le_mono_r; lia).
        rewrite Hlen in Hbound. assert (0 < 256 ^ zlen ds) by (apply Z.pow_pos_nonneg; [lia|apply zlen_nonneg]).
        nia. }
      assert (Hzeros : forall k, of_digits_be 256 (zeros k ++ to_hex_bytes n) = n).
      { intros k. unfold zeros. induction (Z.to_nat k) as [|j IH]; [exact Hv|].
        cbn [repeat app]. rewrite of_digits_be_cons by lia. rewrite IH. lia. }
      assert (Hzr : forall k, Forall (fun d => 0 <= d < 256) (zeros k ++ to_hex_bytes n)).
      { intros k. apply Forall_app; split; [|assumption]. unfold zeros.
        apply Forall_forall. intros y Hy. apply repeat_spec in Hy. subst; lia. }
      destruct (Z.leb_spec 512 (zlen (to_hex_bytes n))) as [H5|H5].
      + f_equal. apply (of_digits_be_inj 256 ltac:(lia)); try assumption. unfold zlen in *; lia.
      + f_equal. apply (of_digits_be_inj 256 ltac:(lia)); try assumption; try apply Hzr.
        * assert (Hz : zlen (zeros (512 - zlen (to_hex_bytes n)) ++ to_hex_bytes n) = zlen data).
          { rewrite zlen_app, zeros_length by lia. lia. }
          unfold zlen at 1 3 in Hz. apply Nat2Z.inj. exact Hz.
        * rewrite Hzeros. reflexivity.
    - assert (Hn0 : n <> 0).
      { subst n. rewrite Hd, of_digits_be_cons by lia. rewrite Hd in Hb. inversion Hb as [|? ? Hxr Hl]; subst.
        pose proof (of_digits_be_bound 256 ltac:(lia) l Hl).
        assert (0 < 256 ^ zlen l) by (apply Z.pow_pos_nonneg; [lia|apply zlen_nonneg]). nia. }
      assert (Heq : to_hex_bytes n = data).
      { unfold to_hex_bytes. destruct (Z.eqb_spec n 0); [contradiction|].
        subst n. apply digits_be_unique; [lia|assumption|].
        intros y l' Hy. rewrite Hd in Hy. inversion Hy; subst; assumption. }
      rewrite Heq. destruct (Z.leb_spec 512 (zlen data)); [reflexivity|lia].
  Qed.

  Definition hashed_data (pad K2 seed : Z) (msg : list Z) : list Z :=
    concat (xor_stream (to_hex_bytes (hash_elems E [HElem pad; HElem K2])) (to_hex_bytes seed)
              (zlen msg * 8) 0 (chunks_of (length msg / 32) msg)).

  Lemma hashed_encrypt_form msg n secret nonce seed :
    is_bytes msg -> length msg = (32 * n)%nat -> zlen msg * 8 < 256 ^ 4 ->
    0 <= secret -> 0 <= nonce ->
    let pad := gg E ^ nonce mod pp E in
    let data := hashed_data pad (pad ^ secret mod pp E) seed msg in
    (0 < n)%nat ->
    exists c, hashed_elgamal_encrypt E msg nonce (gg E ^ secret mod pp E) seed = Ok c /\
      h_data c = bytes_to_hex data /\ is_bytes data /\ length data = length msg.
  Proof.
    intros Hb Hn Hmax Hs Hr pad data Hn1.
    unfold hashed_elgamal_encrypt.
    assert (Hpad : g_pow_p E nonce = pad) by (unfold pad, g_pow_p; apply pow_p_eq; assumption).
    rewrite Hpad.
    assert (Hshared : pow_p E (gg E ^ secret mod pp E) nonce = pow_p E pad secret).
    { unfold pad. rewrite !G1_pow by assumption.
      rewrite !pow_G1 by assumption. f_equal; lia. }
    rewrite Hshared, get_chunks_exact with (n := n) by assumption.
    set (sk := to_hex_bytes (hash_elems E [HElem pad; HElem (pow_p E pad secret)])).
    set (sd := to_hex_bytes seed). set (bl := zlen msg * 8).
    assert (Hbl : 0 <= bl < 256 ^ 4 /\ bl <> 0) by (unfold bl, zlen in *; lia).
    destruct (chunks_of_concat n msg Hn) as (Hc1 & Hc2 & Hc3).
    assert (Hzc : zlen (chunks_of n msg) < 256 ^ 4) by (unfold zlen in *; rewrite Hc3; lia).
    rewrite xor_blocks_ok by (try tauto; try apply Hbl; lia). cbn [rbind].
    rewrite get_hmac_ok by (try tauto; try apply Hbl; lia). cbn [rbind get_hmac].
    assert (Hdata : data = concat (xor_stream sk sd bl 0 (chunks_of n msg))).
    { unfold data, hashed_data, sk, sd, bl. rewrite pow_p_eq by assumption.
      replace (length msg / 32)%nat with n; [reflexivity|]. rewrite Hn, Nat.mul_comm, Nat.div_mul; lia. }
    rewrite <- Hdata. eexists; split; [reflexivity|]. cbn [h_data].
    destruct (xor_stream_blocks sk sd bl (chunks_of n msg) Hc2 0) as [Hx1 Hx2].
    split; [reflexivity|]. rewrite Hdata. split.
    - apply concat_bytes, xor_stream_bytes, chunks_bytes; assumption.
    - rewrite concat_blocks_length by assumption. rewrite Hx2, Hc3; lia.
  Qed.

  Lemma hashed_roundtrip msg n secret nonce seed :
    is_bytes msg -> length msg = (32 * n)%nat -> zlen msg * 8 < 256 ^ 4 ->
    0 <= secret -> 0 <= nonce ->
    let pad := gg E ^ nonce mod pp E in
    let data := hashed_data pad (pad ^ secret mod pp E) seed msg in
    zlen msg = 512 \/ (512 < zlen msg /\ exists x l, data = x :: l /\ x <> 0) ->
    exists c, hashed_elgamal_encrypt E msg nonce (gg E ^ secret mod pp E) seed = Ok c /\
      hashed_decrypt E c secret seed = Ok (Some msg).
  Proof.
    intros Hb Hn Hmax Hs Hr pad data Hlen.
    assert (Hn1 : (0 < n)%nat) by (unfold zlen in Hlen; lia).
    unfold hashed_elgamal_encrypt.
    assert (Hpad : g_pow_p E nonce = pad) by (unfold pad, g_pow_p; apply pow_p_eq; assumption).
    rewrite Hpad.
    assert (Hshared : pow_p E (gg E ^ secret mod pp E) nonce = pow_p E pad secret).
    { unfold pad. rewrite !G1_pow by assumption.
      rewrite !pow_G1 by assumption. f_equal; lia. }
    rewrite Hshared, get_chunks_exact with (n := n) by assumption.
    set (sk := to_hex_bytes (hash_elems E [HElem pad; HElem (pow_p E pad secret)])).
    set (sd := to_hex_bytes seed). set (bl := zlen msg * 8).
    assert (Hbl : 0 <= bl < 256 ^ 4 /\ bl <> 0) by (unfold bl, zlen in *; lia).
    destruct (chunks_of_concat n msg Hn) as (Hc1 & Hc2 & Hc3).
    assert (Hzc : zlen (chunks_of n msg) < 256 ^ 4) by (unfold zlen in *; rewrite Hc3; lia).
    rewrite xor_blocks_ok by (try tauto; try apply Hbl; lia). cbn [rbind].
    rewrite get_hmac_ok by (try tauto; try apply Hbl; lia). cbn [rbind get_hmac].
    assert (Hdata : data = concat (xor_stream sk sd bl 0 (chunks_of n msg))).
    { unfold data, hashed_data, sk, sd, bl. rewrite pow_p_eq by assumption.
      replace (length msg / 32)%nat with n; [reflexivity|]. rewrite Hn, Nat.mul_comm, Nat.div_mul; lia. }
    rewrite <- Hdata. eexists; split; [reflexivity|].
    unfold hashed_decrypt. cbn [h_pad h_data h_mac]. fold sk. fold sd.
    destruct (xor_stream_blocks sk sd bl (chunks_of n msg) Hc2 0) as [Hx1 Hx2].
    assert (Hdl : length data = (32 * n)%nat) by (rewrite Hdata, concat_blocks_length by assumption; rewrite Hx2, Hc3; lia).
    assert (Hdb : is_bytes data).
    { rewrite Hdata. apply concat_bytes, xor_stream_bytes, chunks_bytes; assumption. }
    rewrite padded_roundtrip; [|assumption|unfold zlen in *; rewrite Hdl; rewrite Hn in Hlen; exact Hlen].
    cbn [rbind]. rewrite get_chunks_exact with (n := n) by assumption.
    assert (Hbl' : zlen data * 8 = bl) by (unfold bl, zlen; rewrite Hdl, Hn; reflexivity).
    rewrite Hbl'. rewrite get_hmac_ok by (try tauto; try apply Hbl; lia). cbn [rbind get_hmac].
    rewrite String.eqb_refl. cbn [negb].
    assert (Hch : chunks_of n data = xor_stream sk sd bl 0 (chunks_of n msg)).
    { rewrite Hdata. rewrite <- (chunks_of_concat_inv _ Hx1) at 2. rewrite Hx2, Hc3. reflexivity. }
    rewrite Hch. rewrite xor_blocks_ok.
    - cbn [rbind]. rewrite xor_stream_twice, Hc1 by assumption. reflexivity.
    - apply Hbl.
    - apply Hbl.
    - lia.
    - unfold zlen in *. rewrite Hx2. lia.
  Qed.
End Hashed.

(** a decryption that returns a message had a matching MAC *)
Lemma hashed_decrypt_mac E c secret seed m : hashed_decrypt E c secret seed = Ok (Some m) ->
  exists data mk mac, to_padded_bytes (h_data c) 512 = Ok data /\
    get_hmac E (to_hex_bytes (hash_elems E [HElem (h_pad c); HElem (pow_p E (h_pad c) secret)]))
               (to_hex_bytes seed) (Some (snd (get_chunks data))) 0 = Ok mk /\
    mac = hmac256 E mk (to_hex_bytes (h_pad c) ++ data) /\
    bytes_to_hex mac = h_mac c.
Proof.
  unfold hashed_decrypt. destruct (to_padded_bytes (h_data c) 512) as [data|e]; cbn [rbind]; [|discriminate].
  destruct (get_chunks data) as [ch bl] eqn:Hch.
  destruct (get_hmac E _ _ (Some bl) 0) as [mk|e] eqn:Hmk; cbn [rbind get_hmac]; [|discriminate].
  destruct (String.eqb_spec (bytes_to_hex (hmac256 E mk (to_hex_bytes (h_pad c) ++ data))) (h_mac c)) as [Heq|];
    cbn [negb]; [|discriminate].
  intros _. exists data, mk, (hmac256 E mk (to_hex_bytes (h_pad c) ++ data)).
  cbn [snd]. rewrite Hch. cbn [snd]. auto.
Qed.
