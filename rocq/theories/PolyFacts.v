(** * Lagrange interpolation modulo a prime and lemmas about election_polynomial.py. *)
From Verif Require Import Base Group GroupFacts Codec Hash DLog ElGamal ZK ZKFacts Poly.
From Coq Require Import Znumtheory.

(** value of the integer polynomial with coefficients [cs] (constant first) at [x] *)
Fixpoint peval (cs : list Z) (x : Z) : Z :=
  match cs with [] => 0 | a :: cs' => a + x * peval cs' x end.

Section Interp.
  Variable q : Z.
  Hypothesis Hq : prime q.
  Let Hq1 : 1 < q. Proof. destruct Hq; assumption. Qed.
  Notation "a == b" := (a mod q = b mod q) (at level 70).

  Lemma eqm_div a b : a == b <-> (q | a - b).
  Proof. split; [apply mod_sub_eq|apply mod_eq_sub]; lia. Qed.

  (** synthetic division by (X - r) *)
  Fixpoint pdiv (cs : list Z) (r : Z) : list Z :=
    match cs with
    | [] => []
    | _ :: cs' => match cs' with [] => [] | _ => peval cs' r :: pdiv cs' r end
    end.

  Lemma pdiv_length cs r : List.length (pdiv cs r) = (List.length cs - 1)%nat.
  Proof.
    induction cs as [|a cs IH]; [reflexivity|]. destruct cs as [|b cs]; [reflexivity|].
    change (pdiv (a :: b :: cs) r) with (peval (b :: cs) r :: pdiv (b :: cs) r).
    cbn [List.length] in *. rewrite IH. lia.
  Qed.

  Lemma pdiv_spec cs r x : peval cs x - peval cs r = (x - r) * peval (pdiv cs r) x.
  Proof.
    induction cs as [|a cs IH]; [cbn; lia|]. destruct cs as [|b cs]; [cbn; lia|].
    change (pdiv (a :: b :: cs) r) with (peval (b :: cs) r :: pdiv (b :: cs) r).
    change (peval (a :: b :: cs) x) with (a + x * peval (b :: cs) x).
    change (peval (a :: b :: cs) r) with (a + r * peval (b :: cs) r).
    change (peval (peval (b :: cs) r :: pdiv (b :: cs) r) x)
      with (peval (b :: cs) r + x * peval (pdiv (b :: cs) r) x).
    set (P := peval (b :: cs) x) in *. set (R := peval (b :: cs) r) in *.
    set (D := peval (pdiv (b :: cs) r) x) in *.
    replace P with (R + (x - r) * D) by lia. ring.
  Qed.

  (** a polynomial with at most [n] coefficients vanishing at n distinct points vanishes *)
  Lemma roots_vanish xs : forall cs,
    (length cs <= length xs)%nat ->
    NoDup (map (fun x => x mod q) xs) ->
    (forall x, In x xs -> peval cs x == 0) ->
    forall y, peval cs y == 0.
  Proof.
    induction xs as [|r xs IH]; intros cs Hlen Hnd Hroots y.
    - destruct cs; [reflexivity|cbn in Hlen; lia].
    - cbn [map] in Hnd. inversion Hnd as [|? ? Hnotin Hnd']; subst.
      assert (Hr : peval cs r == 0) by (apply Hroots; left; reflexivity).
      assert (Hdiv : forall z, peval (pdiv cs r) z == 0).
      { apply IH; [rewrite pdiv_length; cbn in Hlen; lia|assumption|].
        intros x Hx.
        assert (Hxr : (q | (x - r) * peval (pdiv cs r) x)).
        { rewrite <- pdiv_spec. apply eqm_div.
          rewrite Hr. apply Hroots; right; assumption. }
        apply prime_mult in Hxr; [|assumption]. destruct Hxr as [Hxr|Hxr].
        - exfalso. apply Hnotin. apply eqm_div in Hxr. rewrite <- Hxr.
          apply in_map_iff; exists x; split; [reflexivity|assumption].
        - apply eqm_div. rewrite Z.sub_0_r. assumption. }
      specialize (Hdiv y). apply eqm_div in Hdiv. rewrite Z.sub_0_r in Hdiv.
      apply eqm_div in Hr. rewrite Z.sub_0_r in Hr.
      apply eqm_div. rewrite Z.sub_0_r.
      replace (peval cs y) with (peval cs r + (y - r) * peval (pdiv cs r) y)
        by (rewrite <- pdiv_spec; lia).
      apply Z.divide_add_r; [assumption|]. apply Z.divide_mul_r; assumption.
  Qed.

  (** functions given by a polynomial with at most n coefficients *)
  Definition is_poly (n : nat) (f : Z -> Z) : Prop :=
    exists cs, (length cs <= n)%nat /\ forall x, f x = peval cs x.

  Lemma poly_zero n : is_poly n (fun _ => 0).
  Proof. exists []; split; [cbn; lia|reflexivity]. Qed.
  Lemma poly_const n c : (1 <= n)%nat -> is_poly n (fun _ => c).
  Proof. intros; exists [c]; split; [cbn; lia|intros; cbn; lia]. Qed.
  Lemma poly_mono n m f : (n <= m)%nat -> is_poly n f -> is_poly m f.
  Proof. intros H [cs [? ?]]; exists cs; split; [lia|assumption]. Qed.
  Lemma poly_ext n f g : (forall x, f x = g x) -> is_poly n f -> is_poly n g.
  Proof. intros H [cs [? Hcs]]; exists cs; split; [assumption|]. intros; rewrite <- H; apply Hcs. Qed.
  Fixpoint padd (a b : list Z) : list Z :=
    match a, b with
    | [], _ => b
    | _, [] => a
    | x :: a', y :: b' => (x + y) :: padd a' b'
    end.
  Lemma padd_len a : forall b n, (length a <= n)%nat -> (length b <= n)%nat -> (length (padd a b) <= n)%nat.
  Proof.
    induction a as [|x a IH]; intros b n Ha Hb; [assumption|].
    destruct b as [|y b]; [assumption|]. cbn [padd length] in *.
    destruct n as [|n]; [lia|]. specialize (IH b n ltac:(lia) ltac:(lia)). lia.
  Qed.
  Lemma padd_eval a : forall b x, peval (padd a b) x = peval a x + peval b x.
  Proof.
    induction a as [|u a IH]; intros b x; [cbn; lia|].
    destruct b as [|v b]; [cbn; lia|]. cbn [padd peval]. rewrite IH. lia.
  Qed.
  Lemma poly_add n f g : is_poly n f -> is_poly n g -> is_poly n (fun x => f x + g x).
  Proof.
    intros [a [Ha Hfa]] [b [Hb Hgb]]. exists (padd a b). split; [apply padd_len; assumption|].
    intros x. rewrite padd_eval, Hfa, Hgb. reflexivity.
  Qed.
  Lemma poly_scale n c f : is_poly n f -> is_poly n (fun x => c * f x).
  Proof.
    intros [a [Ha Hfa]]. exists (map (Z.mul c) a). split; [rewrite map_length; assumption|].
    intros x. rewrite Hfa. clear. induction a as [|u a IH]; [cbn; lia|].
    cbn [map peval]. rewrite <- IH. ring.
  Qed.
  Lemma poly_shift n f : is_poly n f -> is_poly (S n) (fun x => x * f x).
  Proof.
    intros [a [Ha Hfa]]. exists (0 :: a). split; [cbn; lia|]. intros x. cbn [peval]. rewrite Hfa. lia.
  Qed.
  Lemma poly_lin n c f : is_poly n f -> is_poly (S n) (fun x => (c - x) * f x).
  Proof.
    intros Hf. apply (poly_ext (S n) (fun x => c * f x + (-1) * (x * f x))).
    - intros x; ring.
    - apply poly_add; [apply (poly_mono n); [lia|]; apply poly_scale; assumption|].
      apply poly_scale, poly_shift; assumption.
  Qed.
  Lemma poly_prod xs : is_poly (S (length xs)) (fun y => prodZ (map (fun x => x - y) xs)).
  Proof.
    induction xs as [|x xs IH].
    - apply (poly_ext 1 (fun _ => 1)); [reflexivity|]. apply poly_const; lia.
    - apply (poly_ext (S (S (length xs))) (fun y => (x - y) * prodZ (map (fun x => x - y) xs)));
        [reflexivity|]. apply poly_lin; assumption.
  Qed.
  Lemma poly_sum {A} n (l : list A) (f : A -> Z -> Z) :
    (forall a, In a l -> is_poly n (f a)) -> is_poly n (fun y => sumZ (map (fun a => f a y) l)).
  Proof.
    induction l as [|a l IH]; intros H; [apply poly_zero|].
    apply (poly_ext n (fun y => f a y + sumZ (map (fun a => f a y) l))); [reflexivity|].
    apply poly_add; [apply H; left; reflexivity|]. apply IH. intros b Hb; apply H; right; assumption.
  Qed.

  Definition others (x : Z) (xs : list Z) : list Z := remove Z.eq_dec x xs.

  Lemma remove_length_lt x xs : In x xs -> (length (others x xs) < length xs)%nat.
  Proof. apply remove_length_lt. Qed.

  Lemma prod_zero x xs : In x xs -> prodZ (map (fun z => z - x) xs) = 0.
  Proof.
    induction xs as [|z xs IH]; cbn [In map prodZ fold_right]; [tauto|].
    intros [->|H]; [rewrite Z.sub_diag; lia|].
    change (fold_right Z.mul 1 (map (fun z : Z => z - x) xs)) with (prodZ (map (fun z => z - x) xs)).
    rewrite IH by assumption. lia.
  Qed.

  Lemma sum_single (xs : list Z) (x : Z) (f : Z -> Z) :
    NoDup xs -> In x xs -> (forall z, In z xs -> z <> x -> f z == 0) ->
    sumZ (map f xs) == f x.
  Proof.
    induction xs as [|z xs IH]; intros Hnd Hin Hf; [destruct Hin|].
    inversion Hnd as [|? ? Hz Hnd']; subst.
    cbn [map sumZ fold_right]. change (fold_right Z.add 0 (map f xs)) with (sumZ (map f xs)).
    destruct (Z.eq_dec z x) as [->|Hne].
    - assert (H0 : sumZ (map f xs) == 0).
      { clear IH Hin. assert (H : forall y, In y xs -> f y == 0).
        { intros y Hy. apply Hf; [right; assumption|]. intros ->; contradiction. }
        clear Hnd Hz Hnd' Hf. induction xs as [|y xs IH]; [reflexivity|].
        cbn [map sumZ fold_right]. change (fold_right Z.add 0 (map f xs)) with (sumZ (map f xs)).
        rewrite Zplus_mod, IH by (intros; apply H; right; assumption).
        rewrite H by (left; reflexivity). reflexivity. }
      rewrite Zplus_mod, H0. rewrite Z.mod_0_l, Z.add_0_r, Z.mod_mod by lia. reflexivity.
    - rewrite Zplus_mod, (Hf z) by (try (left; reflexivity); assumption).
      rewrite Z.mod_0_l, Z.add_0_l, Z.mod_mod by lia.
      apply IH; [assumption| |].
      + destruct Hin as [->|]; [contradiction|assumption].
      + intros y Hy Hyx; apply Hf; [right; assumption|assumption].
  Qed.

  Lemma NoDup_mod xs : NoDup (map (fun x => x mod q) xs) -> NoDup xs.
  Proof. apply NoDup_map_inv. Qed.

  Lemma list_choice (xs : list Z) (P : Z -> Z -> Prop) :
    (forall x, In x xs -> exists d, P x d) -> exists df, forall x, In x xs -> P x (df x).
  Proof.
    induction xs as [|x xs IH]; intros Hinv.
    - exists (fun _ => 0). intros ? [].
    - destruct IH as [df Hdf]; [intros y Hy; apply Hinv; right; assumption|].
      destruct (Hinv x) as [d Hd]; [left; reflexivity|].
      exists (fun y => if Z.eq_dec y x then d else df y).
      intros y Hy. destruct (Z.eq_dec y x) as [->|Hne]; [assumption|].
      destruct Hy as [->|Hy]; [contradiction|]. apply Hdf; assumption.
  Qed.

  (** Lagrange interpolation at 0.  [lam x] is any weight with
      lam x * prod_{z<>x} (z - x) = prod_{z<>x} z  (mod q). *)
  Lemma lagrange_at_0 xs cs (lam : Z -> Z) :
    NoDup (map (fun x => x mod q) xs) -> (length cs <= length xs)%nat ->
    (forall x, In x xs ->
       lam x * prodZ (map (fun z => z - x) (others x xs)) == prodZ (others x xs)) ->
    sumZ (map (fun x => lam x * peval cs x) xs) == peval cs 0.
  Proof.
    intros Hnd Hlen Hlam.
    pose proof (NoDup_mod xs Hnd) as Hnd'.
    (* inverse of the denominator *)
    assert (Hinv : forall x, In x xs -> exists d, d * prodZ (map (fun z => z - x) (others x xs)) == 1).
    { intros x Hx.
      assert (Hne : prodZ (map (fun z => z - x) (others x xs)) mod q <> 0).
      { assert (Hall : forall z, In z (others x xs) -> (z - x) mod q <> 0).
        { intros z Hz. apply in_remove in Hz. destruct Hz as [Hz Hzx].
          intros H0. apply Hzx.
          assert (Heq : z == x). { apply eqm_div. apply Zmod_divide; [lia|assumption]. }
          clear - Hnd Hx Hz Heq. induction xs as [|y ys IH]; [destruct Hx|].
          cbn [map] in Hnd. inversion Hnd as [|? ? Hn Hnd']; subst.
          destruct Hx as [->|Hx], Hz as [->|Hz]; auto.
          - exfalso; apply Hn. rewrite <- Heq. apply (in_map (fun x => x mod q)); assumption.
          - exfalso; apply Hn. rewrite Heq. apply (in_map (fun x => x mod q)); assumption. }
        induction (others x xs) as [|z l IH].
        - cbn. rewrite Z.mod_1_l; lia.
        - cbn [map prodZ fold_right]. intros H0. apply Zmod_divide in H0; [|lia].
          apply prime_mult in H0; [|assumption]. destruct H0 as [H0|H0].
          + apply (Hall z); [left; reflexivity|]. apply Zdivide_mod; assumption.
          + apply IH; [intros y Hy; apply Hall; right; assumption|].
            apply Zdivide_mod; assumption. }
      destruct (inv_mod_q q Hq1 _ Hq Hne) as [d Hd]. exists d. rewrite Z.mul_comm. exact Hd. }
    assert (Hinvf : exists df : Z -> Z, forall x, In x xs ->
              df x * prodZ (map (fun z => z - x) (others x xs)) == 1).
    { apply (list_choice xs (fun x d => d * prodZ (map (fun z => z - x) (others x xs)) == 1)). exact Hinv. }
    destruct Hinvf as [df Hdf].
    (* the interpolation polynomial *)
    set (L := fun y => sumZ (map (fun x =>
                 (df x * peval cs x) * prodZ (map (fun z => z - y) (others x xs))) xs)).
    assert (HLpoly : is_poly (length xs) (fun y => L y + (-1) * peval cs y)).
    { apply poly_add.
      - apply (poly_sum (length xs) xs
          (fun x y => (df x * peval cs x) * prodZ (map (fun z => z - y) (others x xs)))).
        intros x Hx. apply poly_scale.
        eapply poly_mono; [|apply poly_prod]. pose proof (remove_length_lt x xs Hx). lia.
      - apply poly_scale. exists cs; split; [assumption|reflexivity]. }
    destruct HLpoly as [ds [Hds Hdsv]].
    assert (Hroots : forall x, In x xs -> peval ds x == 0).
    { intros x Hx. rewrite <- Hdsv. apply eqm_div. rewrite Z.sub_0_r.
      replace (L x + -1 * peval cs x) with (L x - peval cs x) by ring.
      apply eqm_div. unfold L.
      rewrite (sum_single xs x (fun z => (df z * peval cs z) *
                 prodZ (map (fun w => w - x) (others z xs)))).
      - rewrite Z.mul_comm, Z.mul_assoc, (Z.mul_comm _ (df x)).
        rewrite <- Zmult_mod_idemp_l, (Hdf x Hx), Zmult_mod_idemp_l. f_equal; lia.
      - assumption.
      - assumption.
      - intros z Hz Hzx. rewrite prod_zero; [rewrite Z.mul_0_r; reflexivity|].
        apply in_in_remove; [intros ->; apply Hzx; reflexivity|assumption]. }
    pose proof (roots_vanish xs ds Hds Hnd Hroots 0) as H0.
    rewrite <- Hdsv in H0. apply eqm_div in H0. rewrite Z.sub_0_r in H0.
    replace (L 0 + -1 * peval cs 0) with (L 0 - peval cs 0) in H0 by ring.
    apply eqm_div in H0. rewrite <- H0. unfold L.
    (* weights agree *)
    assert (Hw : forall x, In x xs -> lam x * peval cs x ==
              df x * peval cs x * prodZ (map (fun z => z - 0) (others x xs))).
    { intros x Hx.
      assert (Hm : map (fun z => z - 0) (others x xs) = others x xs).
      { rewrite <- map_id. apply map_ext. intros; lia. }
      rewrite Hm.
      set (D := prodZ (map (fun z => z - x) (others x xs))) in *.
      set (N := prodZ (others x xs)) in *.
      assert (Hd := Hdf x Hx). assert (Hl := Hlam x Hx). fold D in Hd, Hl. fold N in Hl.
      assert (Hlam' : lam x == df x * N).
      { apply eqm_div. apply eqm_div in Hd. apply eqm_div in Hl.
        destruct Hd as [u Hu], Hl as [w Hwv].
        exists (- u * lam x + df x * w).
        replace (lam x - df x * N) with (lam x - df x * (lam x * D - w * q)) by (rewrite <- Hwv; ring).
        replace (df x * (lam x * D - w * q)) with (lam x * (df x * D) - df x * w * q) by ring.
        replace (df x * D) with (1 + u * q) by lia. ring. }
      rewrite <- Zmult_mod_idemp_l, Hlam', Zmult_mod_idemp_l. f_equal; ring. }
    clear - Hw Hq1. induction xs as [|x xs IH] in Hw |- *; [reflexivity|].
    (* pointwise congruence lifts to sums *)
    assert (Hgen : forall l, (forall x0, In x0 l -> In x0 (x :: xs)) ->
       sumZ (map (fun x0 => lam x0 * peval cs x0) l) ==
       sumZ (map (fun x0 => df x0 * peval cs x0 *
               prodZ (map (fun z => z - 0) (others x0 (x :: xs)))) l)).
    { induction l as [|y l IHl]; intros Hl; [reflexivity|].
      cbn [map sumZ fold_right]. rewrite Zplus_mod, Hw by (apply Hl; left; reflexivity).
      change (fold_right Z.add 0 (map (fun x0 => lam x0 * peval cs x0) l))
        with (sumZ (map (fun x0 => lam x0 * peval cs x0) l)).
      rewrite IHl by (intros; apply Hl; right; assumption). symmetry. apply Zplus_mod. }
    apply Hgen; auto.
  Qed.
End Interp.

(** ** election_polynomial.py *)
Section PolyModel.
  Variable E : env.
  Hypothesis HE : valid_env E.
  Let Hp : 1 < pp E := p_gt_1 E HE.
  Let Hq : prime (qq E) := ve_q E HE.
  Let Hq1 : 1 < qq E := q_gt_1 E HE.

  (** sum of a_i x^(i+n) *)
  Fixpoint psum (cs : list Z) (x : Z) (n : Z) : Z :=
    match cs with [] => 0 | a :: cs' => a * x ^ n + psum cs' x (n + 1) end.
  Lemma psum_peval cs x : forall n, 0 <= n -> psum cs x n = x ^ n * peval cs x.
  Proof.
    induction cs as [|a cs IH]; intros n Hn; cbn [psum peval]; [lia|].
    rewrite IH, Z.pow_add_r, Z.pow_1_r by lia. ring.
  Qed.

  Lemma coord_loop_spec x cs : forall i acc, 0 <= i -> 0 <= acc < qq E ->
    coord_loop E x i acc cs = (acc + psum cs x i) mod qq E.
  Proof.
    induction cs as [|a cs IH]; intros i acc Hi Hacc; cbn [coord_loop psum].
    - rewrite Z.add_0_r, Z.mod_small by lia. reflexivity.
    - rewrite IH by (try lia; apply add_q_range; assumption).
      rewrite add_q_eq, mult_q_eq, pow_q_eq by assumption. cbn [sumZ prodZ fold_right].
      modring (qq E).
  Qed.

  Lemma coord_spec x pl : 0 <= x < qq E ->
    compute_polynomial_coordinate E x pl = Ok (peval (map co_value pl) x mod qq E).
  Proof.
    intros Hx. unfold compute_polynomial_coordinate, ElementModQ.
    replace (in_bounds (qq E) x) with true
      by (symmetry; unfold in_bounds; apply andb_true_iff; rewrite Z.leb_le, Z.ltb_lt; lia).
    cbn [rbind]. f_equal. rewrite coord_loop_spec by lia.
    rewrite psum_peval by lia. f_equal. rewrite Z.pow_0_r. lia.
  Qed.

  Lemma prod_map_mod_ne (l : list Z) (f : Z -> Z) :
    (forall z, In z l -> f z mod qq E <> 0) -> prodZ (map f l) mod qq E <> 0.
  Proof.
    induction l as [|z l IH]; intros H; cbn [map prodZ fold_right].
    - rewrite Z.mod_1_l; lia.
    - intros H0. apply Zmod_divide in H0; [|lia].
      apply prime_mult in H0; [|assumption]. destruct H0 as [H0|H0].
      + apply (H z); [left; reflexivity|]. apply Zdivide_mod; assumption.
      + apply IH; [intros y Hy; apply H; right; assumption|]. apply Zdivide_mod; assumption.
  Qed.

  (** the coefficient exists exactly when no degree is congruent to the coordinate *)
  Lemma lagrange_coefficient_spec x ds :
    (forall z, In z ds -> z mod qq E <> x mod qq E) ->
    exists w, compute_lagrange_coefficient E x ds = Ok w /\ 0 <= w < qq E /\
      (w * prodZ (map (fun z => z - x) ds)) mod qq E = prodZ ds mod qq E.
  Proof.
    intros H. unfold compute_lagrange_coefficient, div_q.
    set (D := prodZ (map (fun z => z - x) ds)).
    assert (HD : D mod qq E <> 0).
    { apply prod_map_mod_ne. intros z Hz H0. apply (H z Hz).
      apply mod_eq_sub; [lia|]. apply Zmod_divide; [lia|assumption]. }
    rewrite !mult_q_eq by assumption. fold D.
    destruct (invert_complete (D mod qq E) (qq E) Hq1) as [i Hi].
    { apply rel_prime_prime; [assumption|]. rewrite Z.mod_mod by lia. assumption. }
    rewrite Hi. cbn [rbind]. rewrite mult_q_eq by assumption.
    eexists; split; [reflexivity|]. split; [apply Z.mod_pos_bound; lia|].
    destruct (invert_spec _ _ _ Hq1 Hi) as [_ HDi].
    cbn [prodZ fold_right]. rewrite Z.mul_1_r.
    rewrite Zmult_mod_idemp_l. change (fold_right Z.mul 1 ds) with (prodZ ds).
    rewrite Zmult_mod_idemp_l in HDi.
    replace (prodZ ds mod qq E * i * D) with (prodZ ds mod qq E * (D * i)) by ring.
    rewrite Zmult_mod_idemp_l. rewrite Zmult_mod, HDi.
    rewrite Z.mul_1_r. apply Z.mod_mod; lia.
  Qed.

  Lemma lagrange_coefficient_err x ds z :
    In z ds -> z mod qq E = x mod qq E ->
    compute_lagrange_coefficient E x ds = Err ZeroDivisionError.
  Proof.
    intros Hz Heq. unfold compute_lagrange_coefficient, div_q.
    rewrite !mult_q_eq by assumption.
    rewrite invert_error; [reflexivity|lia|].
    intros Hrel. apply (rel_prime_not_0 _ _ Hq1) in Hrel. apply Hrel.
    rewrite Z.mod_mod by lia. apply Zdivide_mod.
    clear - Hz Heq Hq1. induction ds as [|y ds IH]; [destruct Hz|].
    cbn [map prodZ fold_right]. destruct Hz as [->|Hz].
    - apply Z.divide_mul_l. apply mod_sub_eq; [lia|assumption].
    - apply Z.divide_mul_r. apply IH; assumption.
  Qed.

  (** verification loop *)
  Lemma verify_loop_spec x cs : forall i acc e, 0 <= i ->
    (forall a, In a cs -> 0 <= a) ->
    (forall j, 0 <= j < i + zlen cs -> x ^ j < pp E) -> 0 <= x ->
    acc = G1 E e ->
    verify_loop E x i acc (map (g_pow_p E) cs) = G1 E (e + psum cs x i).
  Proof.
    induction cs as [|a cs IH]; intros i acc e Hi Hcs Hx Hx0 ->; cbn [map verify_loop psum].
    - f_equal; lia.
    - assert (Hxi : pow_p E x i = x ^ i).
      { rewrite pow_p_eq by assumption. apply Z.mod_small. split; [apply Z.pow_nonneg; lia|].
        apply Hx. unfold zlen; cbn [List.length]; lia. }
      rewrite Hxi. rewrite g_pow_p_xp by (try assumption; apply Hcs; left; reflexivity).
      rewrite pow_G1, G1_mul by (try assumption; apply Z.pow_nonneg; lia).
      rewrite (IH (i + 1) _ (e + a * x ^ i)); try lia; try reflexivity.
      + f_equal; lia.
      + intros; apply Hcs; right; assumption.
      + intros j Hj. apply Hx. unfold zlen in *; cbn [List.length]; lia.
  Qed.

  Lemma verify_spec x cs y :
    0 <= x < qq E -> (forall a, In a cs -> 0 <= a) ->
    (forall j, 0 <= j < zlen cs -> x ^ j < pp E) -> 0 <= y ->
    verify_polynomial_coordinate E y x (map (g_pow_p E) cs)
      = Ok (y mod qq E =? peval cs x mod qq E).
  Proof.
    intros Hx Hcs Hpow Hy. unfold verify_polynomial_coordinate, ElementModQ.
    replace (in_bounds (qq E) x) with true
      by (symmetry; unfold in_bounds; apply andb_true_iff; rewrite Z.leb_le, Z.ltb_lt; lia).
    cbn [rbind]. f_equal.
    rewrite (verify_loop_spec x cs 0 1 0); try lia; try assumption.
    - rewrite psum_peval, Z.pow_0_r, Z.mul_1_l, Z.add_0_l by lia.
      rewrite g_pow_p_xp by assumption.
      destruct (Z.eqb_spec (y mod qq E) (peval cs x mod qq E)) as [Heq|Hne].
      + apply Z.eqb_eq. apply G1_congr; assumption.
      + apply Z.eqb_neq. intros Heq. apply Hne. apply (G1_inj E HE); assumption.
    - unfold G1. rewrite GX_0 by assumption. reflexivity.
  Qed.
End PolyModel.

(** ** the subgroup of order q is exactly the powers of g *)
Lemma peval_monomial n x : peval (repeat 0 n ++ [1]) x = x ^ Z.of_nat n.
Proof.
  induction n as [|n IH]; [cbn [repeat app peval Z.of_nat]; rewrite Z.pow_0_r; lia|].
  cbn [repeat app peval]. rewrite IH, Nat2Z.inj_succ, Z.pow_succ_r by lia. lia.
Qed.

Lemma subgroup_cyclic E x : valid_env E -> resid (pp E) (qq E) x ->
  exists e, 0 <= e < qq E /\ x = (gg E) ^ e mod pp E.
Proof.
  intros HE Hx. pose proof (p_gt_1 E HE) as Hp. pose proof (q_gt_1 E HE) as Hq.
  set (gs := map (fun i => G1 E (Z.of_nat i)) (seq 0 (Z.to_nat (qq E)))).
  destruct (in_dec Z.eq_dec x gs) as [Hin|Hnin].
  - unfold gs in Hin. apply in_map_iff in Hin. destruct Hin as [i [Hi Hin]]. apply in_seq in Hin.
    exists (Z.of_nat i). split; [lia|]. rewrite (G1_pow E HE) by lia. symmetry; assumption.
  - exfalso.
    set (cs := -1 :: repeat 0 (Z.to_nat (qq E) - 1) ++ [1]).
    assert (Hpoly : forall y, peval cs y = y ^ qq E - 1).
    { intros y. unfold cs. cbn [peval]. rewrite peval_monomial.
      assert (Hsucc : y ^ qq E = y * y ^ (qq E - 1)).
      { rewrite <- Z.pow_succ_r by lia. f_equal. clear; lia. }
      rewrite Hsucc.
      replace (Z.of_nat (Z.to_nat (qq E) - 1)) with (qq E - 1) by lia. lia. }
    assert (Hroot : forall y, resid (pp E) (qq E) y -> peval cs y mod pp E = 0 mod pp E).
    { intros y [_ Hy]. rewrite Hpoly. apply mod_eq_sub; [lia|].
      rewrite Z.sub_0_r. apply mod_sub_eq; [lia|]. rewrite Hy. symmetry; apply Z.mod_small; lia. }
    assert (Hgs : forall y, In y gs -> resid (pp E) (qq E) y).
    { intros y Hy. unfold gs in Hy. apply in_map_iff in Hy. destruct Hy as [i [<- _]]. apply G1_resid; assumption. }
    assert (Hnd : NoDup (x :: gs)).
    { constructor; [assumption|]. unfold gs. 
      assert (Hinj : forall l, NoDup l -> (forall i, In i l -> (i < Z.to_nat (qq E))%nat) ->
                NoDup (map (fun i => G1 E (Z.of_nat i)) l)).
      { induction 1 as [|i l Hi Hl IH]; intros Hb; cbn [map]; constructor.
        - intros Hin. apply in_map_iff in Hin. destruct Hin as [j [Hj Hin]].
          apply (G1_inj E HE) in Hj.
          pose proof (Hb i ltac:(left; reflexivity)). pose proof (Hb j ltac:(right; assumption)).
          rewrite !Z.mod_small in Hj by lia. apply Nat2Z.inj in Hj. subst j; contradiction.
        - apply IH. intros j Hj; apply Hb; right; assumption. }
      apply Hinj; [apply seq_NoDup|]. intros i Hi. apply in_seq in Hi. lia. }
    assert (Hall : forall y, In y (x :: gs) -> resid (pp E) (qq E) y).
    { intros y [<-|Hy]; [assumption|apply Hgs; assumption]. }
    assert (Hmod : map (fun y => y mod pp E) (x :: gs) = x :: gs).
    { rewrite <- (map_id (x :: gs)) at 2. apply map_ext_in. intros y Hy.
      apply Z.mod_small. apply (Hall y Hy). }
    pose proof (roots_vanish (pp E) (ve_p E HE) (x :: gs) cs) as Hrv.
    assert (H0 : peval cs 0 mod pp E = 0 mod pp E).
    { apply Hrv.
      - unfold cs, gs. cbn [length]. rewrite app_length, repeat_length, map_length, seq_length. cbn [length]. lia.
      - rewrite Hmod. assumption.
      - intros y Hy. apply Hroot, Hall, Hy. }
    rewrite Hpoly, Z.pow_0_l in H0 by lia.
    apply mod_sub_eq in H0; [|lia]. destruct H0 as [k Hk]. assert (pp E * - k = 1) by lia.
    assert (- k = 1 \/ - k <= 0 \/ 2 <= - k) by lia. nia.
Qed.

Lemma poly_from_peval cs x : forall i, poly_from i cs x = x ^ Z.of_nat i * peval cs x.
Proof.
  induction cs as [|a cs IH]; intros i; cbn [poly_from peval]; [lia|].
  rewrite IH, Nat2Z.inj_succ, Z.pow_succ_r by lia. ring.
Qed.
Lemma poly_at_peval cs x : poly_at cs x = peval cs x.
Proof. unfold poly_at. rewrite poly_from_peval. cbn [Z.of_nat]. rewrite Z.pow_0_r. lia. Qed.
