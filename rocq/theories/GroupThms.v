(** * Proofs of the C01-C04 statements that are not already single lemmas. *)
From Verif Require Import Base Group GroupFacts Codec CodecFacts Hash HashFacts DLog ElGamal ZK ZKFacts Poly PolyFacts.
From Coq Require Import Znumtheory.

Lemma inverse_and_division : forall E, valid_env E -> forall a b,
  (b mod pp E <> 0 ->
     (exists i, mult_inv_p E b = Ok i /\ 0 <= i < pp E /\ (b * i) mod pp E = 1) /\
     (exists d, div_p E a b = Ok d /\ 0 <= d < pp E /\ (d * b) mod pp E = a mod pp E)) /\
  (b mod pp E = 0 ->
     (exists x, mult_inv_p E b = Err x) /\ div_p E a b = Err ZeroDivisionError).
Proof.
  intros E HE a b. pose proof (p_gt_1 E HE) as Hp. split; intros Hb.
  - destruct (invert_complete b (pp E) Hp (rel_prime_prime b (pp E) (ve_p E HE) Hb)) as [i Hi].
    destruct (invert_spec b (pp E) i Hp Hi) as [Hr Hm]. split.
    + exists i. unfold mult_inv_p. destruct (Z.eqb_spec b 0) as [->|]; [rewrite Z.mod_0_l in Hb by lia; lia|]. auto.
    + exists (mult_p E [a; i]). unfold div_p. rewrite Hi. split; [reflexivity|]. split; [apply mult_p_range; assumption|].
      rewrite mult_p_eq by assumption. cbn [prodZ fold_right].
      rewrite Zmult_mod_idemp_l. replace (a * (i * 1) * b) with (a * (b * i)) by ring.
      rewrite Zmult_mod, Hm, Z.mul_1_r. apply Z.mod_mod; lia.
  - assert (Hn : ~ rel_prime b (pp E)).
    { intros Hrel. apply (rel_prime_not_0 _ _ Hp) in Hrel. contradiction. }
    split; [|unfold div_p; rewrite invert_error by assumption; reflexivity].
    unfold mult_inv_p. destruct (b =? 0); [eexists; reflexivity|].
    rewrite invert_error by assumption. eexists; reflexivity.
Qed.

Lemma division_q : forall E, valid_env E -> forall a b,
  (b mod qq E <> 0 -> exists d, div_q E a b = Ok d /\ 0 <= d < qq E /\ (d * b) mod qq E = a mod qq E) /\
  (b mod qq E = 0 -> div_q E a b = Err ZeroDivisionError).
Proof.
  intros E HE a b. pose proof (q_gt_1 E HE) as Hp. split; intros Hb.
  - destruct (invert_complete b (qq E) Hp (rel_prime_prime b (qq E) (ve_q E HE) Hb)) as [i Hi].
    destruct (invert_spec b (qq E) i Hp Hi) as [Hr Hm].
    exists (mult_q E [a; i]). unfold div_q. rewrite Hi. split; [reflexivity|]. split; [apply mult_q_range; assumption|].
    rewrite mult_q_eq by assumption. cbn [prodZ fold_right].
    rewrite Zmult_mod_idemp_l. replace (a * (i * 1) * b) with (a * (b * i)) by ring.
    rewrite Zmult_mod, Hm, Z.mul_1_r. apply Z.mod_mod; lia.
  - unfold div_q. rewrite invert_error; [reflexivity|assumption|].
    intros Hrel. apply (rel_prime_not_0 _ _ Hp) in Hrel. contradiction.
Qed.

Lemma negate_nonzero : forall E, valid_env E -> forall a, 0 < a < qq E ->
  exists n, negate_q E a = Ok n /\ 0 <= n < qq E /\ (a + n) mod qq E = 0.
Proof.
  intros E HE a Ha. exists (qq E - a). unfold negate_q, ElementModQ, in_bounds.
  replace ((0 <=? qq E - a) && (qq E - a <? qq E)) with true
    by (symmetry; apply andb_true_iff; rewrite Z.leb_le, Z.ltb_lt; lia).
  split; [reflexivity|]. split; [lia|]. replace (a + (qq E - a)) with (qq E) by lia. apply Z.mod_same; lia.
Qed.
Lemma negate_zero : forall E, valid_env E -> negate_q E 0 = Err OverflowError.
Proof.
  intros E HE. unfold negate_q, ElementModQ, in_bounds. rewrite Z.sub_0_r, Z.ltb_irrefl, andb_false_r. reflexivity.
Qed.

Lemma pow_p_int_spec : forall E, valid_env E -> forall b n, b mod pp E <> 0 ->
  exists x, pow_p_int E b n = Ok x /\ 0 <= x < pp E /\
    (n < 0 -> (x * b ^ (- n)) mod pp E = 1) /\ (0 <= n -> x = b ^ n mod pp E).
Proof.
  intros E HE b n Hb. pose proof (p_gt_1 E HE) as Hp. unfold pow_p_int.
  destruct (Z.ltb_spec n 0) as [Hn|Hn].
  - destruct (invert_complete b (pp E) Hp (rel_prime_prime b (pp E) (ve_p E HE) Hb)) as [i Hi].
    destruct (invert_spec b (pp E) i Hp Hi) as [Hr Hm]. rewrite Hi. cbn [rbind].
    change (powmod i (- n) (pp E)) with (pow_p E i (- n)).
    eexists; split; [reflexivity|]. split; [apply pow_p_range; assumption|]. split; [|lia].
    intros _. rewrite pow_p_eq by assumption. rewrite Zmult_mod_idemp_l, <- Z.pow_mul_l.
    rewrite (Z.mul_comm i b). rewrite <- (pow_mod_l (pp E) Hp). rewrite Hm, Z.pow_1_l by lia.
    apply Z.mod_small; lia.
  - eexists; split; [reflexivity|]. split; [apply pow_p_range; assumption|]. split; [lia|].
    intros _. apply pow_p_eq; assumption.
Qed.

Lemma residue_iff_power : forall E, valid_env E -> forall x,
  is_valid_residue E x = true <-> exists e, 0 <= e < qq E /\ x = gg E ^ e mod pp E.
Proof.
  intros E HE x. rewrite is_valid_residue_iff by assumption. split.
  - apply subgroup_cyclic; assumption.
  - intros [e [He ->]]. rewrite (G1_pow E HE) by lia. apply G1_resid; assumption.
Qed.

Lemma rand_range_loop_spec start draws : forall random r,
  rand_range_q_loop start random draws = Some r -> start <= r /\ (r = random \/ In r draws).
Proof.
  induction draws as [|d ds IH]; intros random r; cbn [rand_range_q_loop];
    destruct (Z.ltb_spec random start); try discriminate.
  - intros [= <-]. split; [lia|left; reflexivity].
  - intros H1. apply IH in H1. destruct H1 as [H1 [->|H2]]; (split; [lia|right]); [left; reflexivity|right; assumption].
  - intros [= <-]. split; [lia|left; reflexivity].
Qed.
Lemma rand_range_spec : forall start draws r,
  rand_range_q start draws = Some r -> start <= r /\ (r = 0 \/ In r draws).
Proof. intros start draws r. apply rand_range_loop_spec. Qed.

Lemma construct_iff : forall E x,
  (ElementModQ E x = Ok x <-> 0 <= x < qq E) /\ (ElementModQ E x = Err OverflowError <-> ~ 0 <= x < qq E) /\
  (ElementModP E x = Ok x <-> 0 <= x < pp E) /\ (ElementModP E x = Err OverflowError <-> ~ 0 <= x < pp E) /\
  (int_to_q E x = Some x <-> 0 <= x < qq E) /\ (int_to_q E x = None <-> ~ 0 <= x < qq E) /\
  (int_to_p E x = Some x <-> 0 <= x < pp E) /\ (int_to_p E x = None <-> ~ 0 <= x < pp E).
Proof.
  intros E x. unfold ElementModQ, ElementModP, int_to_q, int_to_p, in_bounds.
  destruct (Z.leb_spec 0 x), (Z.ltb_spec x (qq E)), (Z.ltb_spec x (pp E)); cbn [andb];
    repeat split; intros; try reflexivity; try discriminate; try lia.
Qed.

Lemma hex_to_bounded_spec : forall bound s n, hex_to_int s = Ok n ->
  (hex_to_bounded bound s = Ok (Some n) <-> 0 <= n < bound) /\
  (hex_to_bounded bound s = Ok None <-> ~ 0 <= n < bound).
Proof.
  intros bound s n H. unfold hex_to_bounded. rewrite H. cbn [rbind].
  destruct (Z.leb_spec 0 n), (Z.ltb_spec n bound); cbn [andb];
    repeat split; intros; try reflexivity; try discriminate; try lia.
Qed.

Lemma hash_ambiguous : forall E,
  hash_elems E [HStr "a|b"] = hash_elems E [HStr "a"; HStr "b"] /\
  hash_elems E [HNone] = hash_elems E [HList []] /\
  hash_elems E [HNone] = hash_elems E [HStr "null"] /\
  hash_elems E [HElem 171] = hash_elems E [HStr "AB"] /\
  hash_elems E [HInt 7] = hash_elems E [HStr "7"].
Proof. intros E. repeat split. Qed.

Lemma nonce_index : forall E nseed i headers,
  (0 <= i -> nonce_get E nseed i = Ok (hash_elems E [HElem nseed; HInt i])) /\
  (i < 0 -> nonce_get E nseed i = Err TypeError) /\
  (0 <= i -> nonce_with_headers E nseed i headers = Ok (hash_elems E (HElem nseed :: HInt i :: map HStr headers))) /\
  (i < 0 -> nonce_with_headers E nseed i headers = Err TypeError).
Proof.
  intros E s i h. unfold nonce_get, nonce_with_headers.
  destruct (Z.ltb_spec i 0); repeat split; intros; try reflexivity; lia.
Qed.

Lemma py_range_1 start stop : py_range start stop 1 = range_fuel (Z.to_nat (stop - start)) start 1.
Proof. unfold py_range. cbn [Z.ltb Z.compare]. rewrite Z.div_1_r. f_equal. f_equal. lia. Qed.

Lemma nonce_slice_index : forall E nseed start stop, 0 <= start ->
  exists l, nonce_slice E nseed (Some start) (Some stop) None = Ok l /\
    Z.of_nat (length l) = Z.max 0 (stop - start) /\
    forall k v, nth_error l k = Some v -> nonce_get E nseed (start + Z.of_nat k) = Ok v.
Proof.
  intros E s start stop Hs. unfold nonce_slice. rewrite py_range_1.
  set (n := Z.to_nat (stop - start)).
  assert (Hin : forall x, In x (range_fuel n start 1) -> 0 <= x).
  { intros x Hx. apply In_nth_error in Hx. destruct Hx as [i Hi].
    assert (Hlt : (i < length (range_fuel n start 1))%nat) by (apply nth_error_Some; rewrite Hi; discriminate).
    rewrite range_fuel_length in Hlt. rewrite range_fuel_nth in Hi by assumption. injection Hi as <-. lia. }
  exists (map (nonce_at E s) (range_fuel n start 1)). split.
  - apply rmapM_ok. intros x Hx. apply nonce_get_ok. apply Hin; assumption.
  - split; [rewrite map_length, range_fuel_length; lia|].
    intros k v Hk. rewrite nth_error_map in Hk.
    destruct (nth_error (range_fuel n start 1) k) as [x|] eqn:Hx; [|discriminate]. cbn in Hk. injection Hk as <-.
    assert (Hlt : (k < length (range_fuel n start 1))%nat) by (apply nth_error_Some; rewrite Hx; discriminate).
    rewrite range_fuel_length in Hlt. rewrite range_fuel_nth in Hx by assumption. injection Hx as <-.
    rewrite Z.mul_1_r. apply nonce_get_ok. lia.
Qed.

Lemma Forall2_nth {A B} (R : A -> B -> Prop) l1 l2 : Forall2 R l1 l2 -> forall k b, nth_error l2 k = Some b ->
  exists a, nth_error l1 k = Some a /\ R a b.
Proof.
  induction 1 as [|a b l1 l2 Hab H IH]; intros [|k] y; cbn; try discriminate.
  - intros [= <-]. eauto.
  - apply IH.
Qed.

Lemma nonce_slice_step : forall E nseed start stop step l,
  (forall k v, nonce_slice E nseed start (Some stop) step = Ok l -> nth_error l k = Some v ->
     nonce_get E nseed (match start with Some s => s | None => 0 end
        + Z.of_nat k * match step with Some s => if s =? 0 then 1 else s | None => 1 end) = Ok v) /\
  nonce_slice E nseed start None step = Err TypeError.
Proof.
  intros E s start stop step l. split; [|reflexivity].
  intros k v. unfold nonce_slice.
  replace (match step with Some 0 => 1 | Some s0 => s0 | None => 1 end)
    with (match step with Some s => if s =? 0 then 1 else s | None => 1 end)
    by (destruct step as [[| |]|]; reflexivity).
  set (st := match start with Some s => s | None => 0 end).
  set (sp := match step with Some s => if s =? 0 then 1 else s | None => 1 end).
  intros Hm Hk. apply rmapM_spec in Hm.
  destruct (Forall2_nth _ _ _ Hm k v Hk) as [x [Hx Hget]].
  unfold py_range in Hx. set (n := Z.to_nat _) in Hx.
  assert (Hlt : (k < length (range_fuel n st sp))%nat) by (apply nth_error_Some; rewrite Hx; discriminate).
  rewrite range_fuel_length in Hlt. rewrite range_fuel_nth in Hx by assumption. injection Hx as <-. exact Hget.
Qed.

Lemma nonce_distinct : forall E, 0 < qq E -> forall s1 s2 i j, 0 <= s1 -> 0 <= s2 ->
  nonce_at E s1 i = nonce_at E s2 j -> (s1 = s2 /\ i = j) \/
  collide E (hash_text E [HElem s1; HInt i]) (hash_text E [HElem s2; HInt j]).
Proof.
  intros E Hq s1 s2 i j H1 H2 Heq.
  destruct (hash_elems_inj E Hq [TElem; TInt] [HElem s1; HInt i] [HElem s2; HInt j]) as [Hl|(a & b & Ha & Hb & Hc)].
  - repeat constructor; cbn; lia.
  - repeat constructor; cbn; lia.
  - exact Heq.
  - left. injection Hl as -> ->. auto.
  - right. cbn in Ha, Hb. destruct Ha as [<-|[]]. destruct Hb as [<-|[]]. exact Hc.
Qed.
