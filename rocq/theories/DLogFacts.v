(** * The shared discrete-log cache: invariant over every call history. *)
From Verif Require Import Base Group GroupFacts Codec Hash DLog ElGamal ZK ZKFacts ElGamalFacts.

(** ** dictionary lemmas *)
Section DictFacts.
  Context {K V : Type} `{EqB K}.
  Lemma eqb_refl (k : K) : eqb k k = true.
  Proof. apply eqb_spec; reflexivity. Qed.
  Lemma eqb_neq (a b : K) : a <> b -> eqb a b = false.
  Proof. intros Hne. destruct (eqb a b) eqn:Heq; [|reflexivity]. apply eqb_spec in Heq. contradiction. Qed.
  Lemma eqb_dec (a b : K) : {a = b} + {a <> b}.
  Proof.
    destruct (eqb a b) eqn:Heq; [left; apply eqb_spec; assumption|right].
    intros ->. rewrite eqb_refl in Heq. discriminate.
  Qed.
  Lemma dget_dset_same k (v : V) d : dget k (dset k v d) = Some v.
  Proof.
    induction d as [|[k' v'] d IH]; cbn [dset dget]; [rewrite eqb_refl; reflexivity|].
    destruct (eqb k k') eqn:Hk; cbn [dget]; rewrite Hk; [reflexivity|exact IH].
  Qed.
  Lemma dget_dset_other k k' (v : V) d : k <> k' -> dget k (dset k' v d) = dget k d.
  Proof.
    intros Hne. induction d as [|[j w] d IH]; cbn [dset dget].
    - rewrite eqb_neq by assumption. reflexivity.
    - destruct (eqb k' j) eqn:Hj; cbn [dget]; [|rewrite IH; reflexivity].
      apply eqb_spec in Hj. subst j. rewrite eqb_neq by assumption. reflexivity.
  Qed.
  Lemma dset_new k (v : V) d : dget k d = None -> dset k v d = d ++ [(k, v)].
  Proof.
    induction d as [|[j w] d IH]; cbn [dset dget app]; [reflexivity|].
    destruct (eqb k j); [discriminate|]. intros Hn. rewrite IH by assumption. reflexivity.
  Qed.
  Lemma dget_app k (d1 d2 : dict K V) :
    dget k (d1 ++ d2) = match dget k d1 with Some v => Some v | None => dget k d2 end.
  Proof. induction d1 as [|[j w] d1 IH]; cbn [app dget]; [reflexivity|]. destruct (eqb k j); auto. Qed.
  Lemma dget_in k (v : V) d : dget k d = Some v -> In (k, v) d.
  Proof.
    induction d as [|[j w] d IH]; cbn [dget]; [discriminate|].
    destruct (eqb k j) eqn:Hj; [|intros; right; auto].
    apply eqb_spec in Hj. intros [= ->]. subst j. left; reflexivity.
  Qed.
  Lemma dget_none k (d : dict K V) : dget k d = None <-> ~ In k (dkeys d).
  Proof.
    induction d as [|[j w] d IH]; cbn [dget dkeys map]; [split; auto|].
    destruct (eqb k j) eqn:Hj.
    - apply eqb_spec in Hj. subst j. split; [discriminate|]. intros Hn. exfalso; apply Hn; left; reflexivity.
    - rewrite IH. split.
      + intros Hn [Heq|Hin]; [|contradiction]. cbn in Heq. subst j. rewrite eqb_refl in Hj. discriminate.
      + intros Hn Hin. apply Hn. right; assumption.
  Qed.
  Lemma in_dget k (v : V) d : NoDup (dkeys d) -> In (k, v) d -> dget k d = Some v.
  Proof.
    induction d as [|[j w] d IH]; cbn [dkeys map dget In]; [tauto|].
    intros Hnd [Heq|Hin].
    - injection Heq as -> ->. rewrite eqb_refl. reflexivity.
    - inversion Hnd as [|? ? Hn Hnd']; subst. cbn [fst] in Hn.
      rewrite eqb_neq; [apply IH; assumption|]. intros ->. apply Hn.
      change j with (fst (j, v)). apply in_map; assumption.
  Qed.
End DictFacts.

Section Cache.
  Variable E : env.
  Hypothesis HE : valid_env E.
  Hypothesis Hd0 : 0 <= dmax E.
  Hypothesis Hdq : dmax E < qq E.
  Let Hq : 1 < qq E := q_gt_1 E HE.

  Definition powers (n : Z) : cache := map (fun i => (G1 E (Z.of_nat i), Z.of_nat i)) (seq 0 (S (Z.to_nat n))).

  Lemma powers_0 : powers 0 = [(1, 0)].
  Proof. unfold powers. cbn. rewrite (G1_0 E HE). reflexivity. Qed.
  Lemma powers_S n : 0 <= n -> powers (n + 1) = powers n ++ [(G1 E (n + 1), n + 1)].
  Proof.
    intros Hn. unfold powers. replace (Z.to_nat (n + 1)) with (S (Z.to_nat n)) by lia.
    rewrite (seq_S (S (Z.to_nat n))), map_app. cbn [map].
    replace (Z.of_nat (0 + S (Z.to_nat n))) with (n + 1) by lia. reflexivity.
  Qed.

  Lemma dget_powers_none x n : 0 <= n -> (forall j, 0 <= j <= n -> G1 E j <> x) -> dget x (powers n) = None.
  Proof.
    intros Hn H. apply dget_none. unfold powers, dkeys. rewrite map_map. cbn [fst].
    intros Hin. apply in_map_iff in Hin. destruct Hin as [i [Hi Hin]]. apply in_seq in Hin.
    apply (H (Z.of_nat i)); [lia|assumption].
  Qed.
  Lemma dget_powers_some x n v : 0 <= n -> dget x (powers n) = Some v -> 0 <= v <= n /\ G1 E v = x.
  Proof.
    intros Hn H. apply dget_in in H. unfold powers in H. apply in_map_iff in H.
    destruct H as [i [Hi Hin]]. apply in_seq in Hin. injection Hi as <- <-. split; [lia|reflexivity].
  Qed.
  Lemma G1_small_inj a b : 0 <= a < qq E -> 0 <= b < qq E -> G1 E a = G1 E b -> a = b.
  Proof. intros Ha Hb H. apply (G1_inj E HE) in H. rewrite !Z.mod_small in H by lia. assumption. Qed.
  Lemma dget_powers m n : 0 <= m <= n -> n < qq E -> dget (G1 E m) (powers n) = Some m.
  Proof.
    intros Hm Hn. destruct (dget (G1 E m) (powers n)) as [v|] eqn:Hg.
    - apply dget_powers_some in Hg; [|lia]. destruct Hg as [Hv Heq].
      f_equal. apply G1_small_inj; try lia; assumption.
    - exfalso. apply dget_none in Hg. apply Hg. unfold powers, dkeys. rewrite map_map. cbn [fst].
      apply in_map_iff. exists (Z.to_nat m). rewrite Z2Nat.id by lia. split; [reflexivity|].
      apply in_seq. lia.
  Qed.
  Lemma last_key_powers n : 0 <= n -> last_key (powers n) = Some (G1 E n).
  Proof.
    intros Hn. unfold last_key, powers. rewrite seq_S, map_app, rev_app_distr. cbn [map rev app].
    rewrite Nat.add_0_l, Z2Nat.id by lia. reflexivity.
  Qed.
  Lemma dset_powers n : 0 <= n -> n + 1 < qq E -> dset (G1 E (n + 1)) (n + 1) (powers n) = powers (n + 1).
  Proof.
    intros Hn Hlt. rewrite powers_S by assumption. apply dset_new. apply dget_powers_none; [assumption|].
    intros j Hj Heq. apply G1_small_inj in Heq; lia.
  Qed.

  Lemma cache_loop_spec fuel : forall n x maxe, 0 <= n -> n <= maxe -> maxe < qq E ->
    (Z.to_nat (maxe - n) <= fuel)%nat ->
    exists n', n <= n' <= maxe /\
      ((cache_loop E fuel x (G1 E n) n maxe (powers n) = (powers n', Ok tt) /\ G1 E n' = x)
       \/ (cache_loop E fuel x (G1 E n) n maxe (powers n) = (powers n', Err DiscreteLogExponentError)
           /\ forall j, n <= j <= maxe -> G1 E j <> x)).
  Proof.
    induction fuel as [|k IH]; intros n x maxe Hn Hm Hmq Hf; cbn [cache_loop].
    - destruct (Z.eqb_spec x (G1 E n)) as [Heq|Hne].
      + exists n. split; [lia|]. left; auto.
      + replace (maxe <? n + 1) with true by (symmetry; apply Z.ltb_lt; lia).
        exists n. split; [lia|]. right. split; [reflexivity|]. intros j Hj. replace j with n by lia. congruence.
    - destruct (Z.eqb_spec x (G1 E n)) as [Heq|Hne].
      + exists n. split; [lia|]. left; auto.
      + destruct (Z.ltb_spec maxe (n + 1)) as [Hlt|Hge].
        * exists n. split; [lia|]. right. split; [reflexivity|]. intros j Hj. replace j with n by lia. congruence.
        * cbv zeta. rewrite (g_step E HE) by assumption. rewrite dset_powers by lia.
          destruct (IH (n + 1) x maxe) as [n' [Hn' Hr]]; try lia.
          exists n'. split; [lia|]. destruct Hr as [[Hr Hx]|[Hr Hx]]; [left; auto|right; split; [assumption|]].
          intros j Hj. destruct (Z.eq_dec j n) as [->|]; [congruence|]. apply Hx; lia.
  Qed.

  (** what one lookup does on a cache of the powers up to n *)
  Lemma compute_dlog_spec n x maxe lz : 0 <= n <= dmax E ->
    exists n', n <= n' <= dmax E /\
      match compute_dlog E x (powers n) maxe lz with
      | (c, Ok e) => c = powers n' /\ 0 <= e <= dmax E /\ G1 E e = x
      | (c, Err _) => c = powers n' /\
          ((lz = true -> maxe <= dmax E -> forall j, 0 <= j <= Z.max maxe n -> G1 E j <> x))
      end.
  Proof.
    intros Hn. unfold compute_dlog.
    destruct (dget x (powers n)) as [v|] eqn:Hg.
    - apply dget_powers_some in Hg; [|lia]. exists n. split; [lia|]. split; [reflexivity|]. split; [lia|tauto].
    - destruct lz; cbn [negb].
      2:{ exists n. split; [lia|]. split; [reflexivity|]. discriminate. }
      assert (Hnot : forall j, 0 <= j <= n -> G1 E j <> x).
      { intros j Hj <-. rewrite dget_powers in Hg by lia. discriminate. }
      unfold compute_cache. destruct (Z.ltb_spec (dmax E) maxe) as [Hbig|Hok].
      { exists n. split; [lia|]. split; [reflexivity|]. intros; lia. }
      rewrite last_key_powers by lia. unfold dindex. rewrite dget_powers by lia.
      destruct (Z.ltb_spec maxe n) as [Hlt|Hge].
      { exists n. split; [lia|]. split; [reflexivity|]. intros _ _ j Hj. apply Hnot. lia. }
      destruct (cache_loop_spec (Z.to_nat (maxe - n)) n x maxe) as [n' [Hn' Hr]]; try lia.
      exists n'. split; [lia|]. destruct Hr as [[Hr Hx]|[Hr Hx]]; rewrite Hr.
      + rewrite <- Hx, dget_powers by lia. split; [reflexivity|]. split; [lia|reflexivity].
      + split; [reflexivity|]. intros _ _ j Hj.
        destruct (Z_le_gt_dec j n); [apply Hnot; lia|apply Hx; lia].
  Qed.

  Lemma fill_loop_spec fuel : forall n, 0 <= n -> n + Z.of_nat fuel < qq E ->
    fill_loop E fuel (G1 E n) n (powers n) = powers (n + Z.of_nat fuel).
  Proof.
    induction fuel as [|k IH]; intros n Hn Hlt; cbn [fill_loop].
    - f_equal; lia.
    - cbv zeta. rewrite (g_step E HE) by assumption. rewrite dset_powers by lia. rewrite IH by lia. f_equal; lia.
  Qed.
  Lemma precompute_spec n maxe : 0 <= n <= dmax E ->
    exists n', n <= n' <= dmax E /\ fst (precompute E maxe (powers n)) = powers n'.
  Proof.
    intros Hn. unfold precompute. destruct (Z.ltb_spec (dmax E) maxe) as [|Hm]; [exists n; split; [lia|reflexivity]|].
    rewrite last_key_powers by lia. unfold dindex. rewrite dget_powers by lia.
    destruct (Z.leb_spec maxe n) as [|Hlt]; [exists n; split; [lia|reflexivity]|].
    exists maxe. split; [lia|]. cbn [fst]. rewrite fill_loop_spec by lia. f_equal. lia.
  Qed.

  Definition dl_inv (s : dl_state) : Prop :=
    (exists n, 0 <= n <= dmax E /\ dl_cache s = powers n) /\
    (exists n, 0 <= n <= dmax E /\ dl_initial s = powers n).

  Lemma dl_init_inv : dl_inv dl_init.
  Proof. split; exists 0; (split; [lia|]); rewrite powers_0; reflexivity. Qed.

  Lemma dl_step_inv s o : dl_inv s -> dl_inv (fst (dl_step E s o)).
  Proof.
    intros [[n [Hn Hc]] [k [Hk Hi]]].
    destruct o as [i m|i b|i m|i m|i x]; cbn [dl_step].
    - destruct (settings_of E s i). split; [exists n|exists k]; auto.
    - destruct (settings_of E s i). split; [exists n|exists k]; auto.
    - destruct (settings_of E s i) as [lim l]. rewrite Hc.
      destruct (precompute_spec n (Z.min m lim) Hn) as [n' [Hn' Heq]].
      destruct (precompute E (Z.min m lim) (powers n)) as [c r]. cbn [fst] in *. subst c.
      split; [exists n'; split; [lia|reflexivity]|exists k; auto].
    - destruct (settings_of E s i) as [lim l]. rewrite Hi.
      destruct (precompute_spec k (Z.min m lim) Hk) as [n' [Hn' Heq]].
      destruct (precompute E (Z.min m lim) (powers k)) as [c r]. cbn [fst] in *. subst c.
      split; [exists n; auto|exists n'; split; [lia|reflexivity]].
    - destruct (settings_of E s i) as [lim l]. rewrite Hc.
      destruct (compute_dlog_spec n x lim l Hn) as [n' [Hn' Hr]].
      destruct (compute_dlog E x (powers n) lim l) as [c [e|e]]; cbn [fst]; destruct Hr as [-> _];
        (split; [exists n'; split; [lia|reflexivity]|exists k; auto]).
  Qed.
  Lemma dl_run_inv ops : forall s, dl_inv s -> dl_inv (dl_run E s ops).
  Proof.
    unfold dl_run. induction ops as [|o ops IH]; intros s Hs; cbn [fold_left]; [assumption|].
    apply IH, dl_step_inv, Hs.
  Qed.

  Lemma lookup_answer s i x e : dl_inv s -> snd (dl_step E s (DLookup i x)) = Ok e ->
    0 <= e <= dmax E /\ gg E ^ e mod pp E = x.
  Proof.
    intros [[n [Hn Hc]] _]. cbn [dl_step]. destruct (settings_of E s i) as [lim l]. rewrite Hc.
    destruct (compute_dlog_spec n x lim l Hn) as [n' [Hn' Hr]].
    destruct (compute_dlog E x (powers n) lim l) as [c [v|v]]; cbn [snd]; [|discriminate].
    intros [= <-]. destruct Hr as (_ & Hv & Hx). split; [assumption|]. rewrite (G1_pow E HE) by lia. assumption.
  Qed.

  Lemma lookup_found s i m : dl_inv s -> 0 <= m <= fst (settings_of E s i) ->
    fst (settings_of E s i) <= dmax E -> snd (settings_of E s i) = true ->
    snd (dl_step E s (DLookup i (gg E ^ m mod pp E))) = Ok m.
  Proof.
    intros [[n [Hn Hc]] _] Hm Hlim Hl. cbn [dl_step].
    destruct (settings_of E s i) as [lim l]. cbn [fst snd] in *. subst l. rewrite Hc.
    rewrite (G1_pow E HE) by lia.
    destruct (compute_dlog_spec n (G1 E m) lim true Hn) as [n' [Hn' Hr]].
    destruct (compute_dlog E (G1 E m) (powers n) lim true) as [c [v|v]]; cbn [snd]; destruct Hr as [_ Hr].
    - f_equal. apply G1_small_inj; try lia; tauto.
    - exfalso. apply (Hr eq_refl Hlim m); [lia|reflexivity].
  Qed.

  Lemma lookup_absent s i x : dl_inv s -> (forall j, 0 <= j <= dmax E -> gg E ^ j mod pp E <> x) ->
    exists exc, snd (dl_step E s (DLookup i x)) = Err exc.
  Proof.
    intros Hs Hx. destruct (snd (dl_step E s (DLookup i x))) as [e|e] eqn:Hr; [|eexists; reflexivity].
    exfalso. apply lookup_answer in Hr; [|assumption]. destruct Hr as [H1 H2]. apply (Hx e H1 H2).
  Qed.
End Cache.
