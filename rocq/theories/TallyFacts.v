(** * TallyFacts: closed forms for the tally operations. *)
From Verif Require Import Base Group Codec Hash DLog ElGamal ZK Manifest Ballot Box Tally Spec GroupFacts ListFacts SpecTally BallotFacts CryptoThms.
From Coq Require Import Permutation List.

Lemma find_find_first' {A} (f : A -> bool) l : find f l = find_first f l.
Proof. induction l as [|x l IH]; cbn; [reflexivity|]. destruct (f x); [reflexivity|exact IH]. Qed.

Lemma dset_in {K V} `{EqB K} k (v : V) k0 v0 (d : dict K V) : In (k, v) (dset k0 v0 d) -> (k, v) = (k0, v0) \/ In (k, v) d.
Proof.
  induction d as [|[k1 v1] d IH]; cbn [dset In].
  - intros [Heq|[]]. left. congruence.
  - eqb_cases k0 k1; cbn [In].
    + subst k1. intros [Heq|Hin]; [left; congruence|right; right; exact Hin].
    + intros [Hq|Hin]; [right; left; exact Hq|]. destruct (IH Hin); auto.
Qed.
Lemma dict_fold_in {K V} `{EqB K} k (v : V) l : forall d : dict K V,
  In (k, v) (fold_left (fun d kv => dset (fst kv) (snd kv) d) l d) -> In (k, v) l \/ In (k, v) d.
Proof.
  induction l as [|[k0 v0] l IH]; intros d Hin; cbn [fold_left fst snd In] in *; [tauto|].
  apply IH in Hin as [Hin|Hin]; [tauto|]. apply dset_in in Hin as [Heq|Hin]; [left; left; congruence|tauto].
Qed.
Lemma dict_of_in {K V} `{EqB K} k (v : V) (l : list (K * V)) : In (k, v) (dict_of l) -> In (k, v) l.
Proof. intros Hin. apply dict_fold_in in Hin as [Hin|[]]. exact Hin. Qed.

Section Upd.
  Context (E : env).
  Notation votes := (string -> string -> list ciphertext).

  Lemma ct_mul_swap (HE : valid_env E) a x y : ct_mul E (ct_mul E a x) y = ct_mul E (ct_mul E a y) x.
  Proof.
    unfold ct_mul. cbn [ct_pad ct_data]. rewrite !(mult2 E HE). f_equal; rewrite !Zmult_mod_idemp_l; f_equal; ring.
  Qed.
  Lemma fold_ct_perm (HE : valid_env E) l l' : Permutation l l' -> forall a, fold_left (ct_mul E) l a = fold_left (ct_mul E) l' a.
  Proof.
    induction 1 as [|x l l' H IH|x y l|l l' l'' H1 IH1 H2 IH2]; intros a; cbn; auto.
    - rewrite (ct_mul_swap HE). reflexivity.
    - rewrite IH1. apply IH2.
  Qed.

  Definition upd_sel (vf : string -> list ciphertext) (ss : dict string tally_selection) : dict string tally_selection :=
    map (fun kv => (fst kv, ts_with (snd kv) (fold_left (ct_mul E) (vf (fst kv)) (ts_ct (snd kv))))) ss.
  Definition upd (vf : votes) (d : dict string tally_contest) : dict string tally_contest :=
    map (fun kv => (fst kv, mkTcon (tc_id (snd kv)) (tc_seq (snd kv)) (tc_hash (snd kv))
                                   (upd_sel (vf (fst kv)) (tc_selections (snd kv))))) d.
  Lemma upd_sel_upd v1 v2 ss : upd_sel v2 (upd_sel v1 ss) = upd_sel (fun s => v1 s ++ v2 s) ss.
  Proof.
    unfold upd_sel. rewrite map_map. apply map_ext. intros [s t]. cbn [fst snd]. unfold ts_with; cbn [ts_id ts_seq ts_hash ts_ct].
    rewrite fold_left_app. reflexivity.
  Qed.
  Lemma upd_upd v1 v2 d : upd v2 (upd v1 d) = upd (fun k s => v1 k s ++ v2 k s) d.
  Proof.
    unfold upd. rewrite map_map. apply map_ext. intros [k tc]. cbn [fst snd tc_id tc_seq tc_hash tc_selections].
    rewrite upd_sel_upd. reflexivity.
  Qed.
  Lemma upd_sel_ext v1 v2 ss : (forall s, In s (dkeys ss) -> v1 s = v2 s) -> upd_sel v1 ss = upd_sel v2 ss.
  Proof.
    intros H. unfold upd_sel. apply map_ext_in. intros [s t] Hin. cbn [fst snd]. rewrite H; [reflexivity|].
    apply (in_map fst) in Hin. exact Hin.
  Qed.
  Lemma upd_ext v1 v2 d : (forall k s, v1 k s = v2 k s) -> upd v1 d = upd v2 d.
  Proof. intros H. unfold upd. apply map_ext. intros [k tc]. cbn [fst snd]. rewrite (upd_sel_ext (v1 k) (v2 k)); auto. Qed.
  Lemma upd_sel_nil ss : upd_sel (fun _ => []) ss = ss.
  Proof. unfold upd_sel. induction ss as [|[s [? ? ? ?]] l IH]; cbn in *; [reflexivity|]. rewrite IH. reflexivity. Qed.
  Lemma upd_nil d : upd (fun _ _ => []) d = d.
  Proof.
    unfold upd. rewrite <- (map_id d) at 2. apply map_ext. intros [k [i q h ss]].
    cbn [fst snd tc_id tc_seq tc_hash tc_selections]. rewrite upd_sel_nil. reflexivity.
  Qed.
  Lemma upd_perm (HE : valid_env E) v1 v2 d : (forall k s, Permutation (v1 k s) (v2 k s)) -> upd v1 d = upd v2 d.
  Proof.
    intros H. unfold upd. apply map_ext. intros [k tc]. cbn [fst snd]. f_equal. f_equal.
    unfold upd_sel. apply map_ext. intros [s t]. cbn [fst snd]. rewrite (fold_ct_perm HE _ _ (H k s)). reflexivity.
  Qed.
  Lemma upd_sel_keys v ss : dkeys (upd_sel v ss) = dkeys ss.
  Proof. unfold upd_sel, dkeys. rewrite map_map. apply map_ext. reflexivity. Qed.
  Lemma upd_keys v d : dkeys (upd v d) = dkeys d.
  Proof. unfold upd, dkeys. rewrite map_map. apply map_ext. reflexivity. Qed.
  Lemma dget_map_val {V W} (f : string -> V -> W) k (d : dict string V) :
    dget k (map (fun kv => (fst kv, f (fst kv) (snd kv))) d) = option_map (f k) (dget k d).
  Proof.
    induction d as [|[k' v] d IH]; cbn [map dget fst snd]; [reflexivity|].
    eqb_cases k k'; [subst; reflexivity|exact IH].
  Qed.
  Lemma dget_upd v d k : dget k (upd v d) = option_map (fun tc => mkTcon (tc_id tc) (tc_seq tc) (tc_hash tc) (upd_sel (v k) (tc_selections tc))) (dget k d).
  Proof. unfold upd. apply (dget_map_val (fun k tc => mkTcon (tc_id tc) (tc_seq tc) (tc_hash tc) (upd_sel (v k) (tc_selections tc)))). Qed.
  Lemma dget_upd_sel v ss s : dget s (upd_sel v ss) = option_map (fun t => ts_with t (fold_left (ct_mul E) (v s) (ts_ct t))) (dget s ss).
  Proof. unfold upd_sel. apply (dget_map_val (fun s t => ts_with t (fold_left (ct_mul E) (v s) (ts_ct t)))). Qed.

  (** assignment to an existing key is a map *)
  Lemma dset_as_map {V} k (v : V) (d : dict string V) : NoDup (dkeys d) -> In k (dkeys d) ->
    dset k v d = map (fun kv => (fst kv, if eqb k (fst kv) then v else snd kv)) d.
  Proof.
    induction d as [|[k' v'] d IH]; cbn [dset map dkeys fst snd]; [intros _ []|].
    intros Hn Hin. inversion Hn as [|? ? Hni Hn']; subst. eqb_cases k k'.
    - subst k'. f_equal. symmetry. rewrite <- (map_id d) at 2. apply map_ext_in. intros [k2 v2] H2. cbn [fst snd].
      eqb_cases k k2; [|reflexivity]. subst k2. exfalso. apply Hni. apply (in_map fst) in H2. exact H2.
    - f_equal. apply IH; [assumption|]. destruct Hin as [Hin|Hin]; [congruence|exact Hin].
  Qed.

  (** the loop over results for the keys of the dictionary itself *)
  Lemma store_results_all f : forall suf pre, NoDup (dkeys (pre ++ suf)) ->
    store_results (map (fun kv : string * tally_selection => (fst kv, Some (f kv))) suf) (pre ++ suf)
    = (pre ++ map (fun kv => (fst kv, ts_with (snd kv) (f kv))) suf, Ok true).
  Proof.
    induction suf as [|[k t] suf IH]; intros pre Hn; cbn [map store_results fst snd]; [reflexivity|].
    assert (Hk : ~ In k (dkeys pre)).
    { unfold dkeys in *. rewrite map_app in Hn. cbn [map fst] in Hn. apply NoDup_remove_2 in Hn. rewrite in_app_iff in Hn. tauto. }
    assert (Hg : dget k (pre ++ (k, t) :: suf) = Some t).
    { clear - Hk. induction pre as [|[k' t'] pre IH]; cbn [app dget]; [rewrite eqb_refl'; reflexivity|].
      cbn [dkeys map fst] in Hk. eqb_cases k k'; [subst; exfalso; apply Hk; left; reflexivity|]. apply IH. intros H. apply Hk. right. exact H. }
    assert (Hs : forall x, dset k x (pre ++ (k, t) :: suf) = (pre ++ [(k, x)]) ++ suf).
    { intros x. clear - Hk. induction pre as [|[k' t'] pre IH]; cbn [app dset]; [rewrite eqb_refl'; reflexivity|].
      cbn [dkeys map fst] in Hk. eqb_cases k k'; [subst; exfalso; apply Hk; left; reflexivity|]. f_equal. apply IH. intros H. apply Hk. right. exact H. }
    rewrite Hg, Hs, IH.
    - rewrite <- app_assoc. reflexivity.
    - unfold dkeys in *. rewrite !map_app in *. cbn [map fst] in *. rewrite <- app_assoc. exact Hn.
  Qed.

  Definition votes_in (cs : list ct_contest) : votes := fun cid oid =>
    flat_map (fun c => if String.eqb (bc_id c) cid
                     then match find (fun s => String.eqb oid (cs_id s)) (bc_selections c) with
                          | Some s => [cs_ct s] | None => [] end
                     else []) cs.
  Definition sels_vote (sels : list ct_selection) (oid : string) : list ciphertext :=
    match find (fun s => String.eqb oid (cs_id s)) sels with Some s => [cs_ct s] | None => [] end.
  Definition covers (sels : list ct_selection) (keys : list string) : Prop :=
    sels <> [] /\ forall k, In k keys -> exists s, In s sels /\ cs_id s = k /\ cs_placeholder s = false.

  Lemma accumulate_contest_ok tc sels : NoDup (dkeys (tc_selections tc)) -> covers sels (dkeys (tc_selections tc)) ->
    accumulate_contest E true tc sels =
    (mkTcon (tc_id tc) (tc_seq tc) (tc_hash tc) (upd_sel (sels_vote sels) (tc_selections tc)), Ok true).
  Proof.
    intros Hn [Hne Hc]. unfold accumulate_contest. destruct sels as [|s0 sels0]; [congruence|]. set (sels := s0 :: sels0) in *.
    assert (Hex : existsb (fun k => negb (eqb k EmptyString))
      (filter (fun k => negb (inb k (set_of (map cs_id (filter (fun s => negb (cs_placeholder s)) sels))))) (dkeys (tc_selections tc))) = false).
    { replace (filter _ (dkeys (tc_selections tc))) with (@nil string); [reflexivity|]. symmetry.
      assert (H : forall l, (forall k, In k l -> In k (dkeys (tc_selections tc))) ->
        filter (fun k => negb (inb k (set_of (map cs_id (filter (fun s => negb (cs_placeholder s)) sels))))) l = []); [|apply H; auto].
      induction l as [|k l IH]; intros Hl; [reflexivity|]. cbn [filter].
      destruct (Hc k (Hl k (or_introl eq_refl))) as (s & Hs & Hid & Hp).
      replace (inb k _) with true; [apply IH; intros; apply Hl; right; assumption|].
      symmetry. apply inb_spec, set_of_in. rewrite <- Hid. apply in_map, filter_In. rewrite Hp. auto. }
    rewrite Hex. unfold schedule.
    set (g := fun kv : string * tally_selection =>
      match find_first (fun s => eqb (fst kv) (cs_id s)) sels with Some s => ct_mul E (ts_ct (snd kv)) (cs_ct s) | None => ts_ct (snd kv) end).
    assert (Hr : rmapM (accumulate_task E) (map (fun kv => (fst kv, snd kv, sels)) (tc_selections tc))
                 = Ok (map (fun kv => (fst kv, Some (g kv))) (tc_selections tc))).
    { rewrite rmapM_total with (g := fun '(k, t, ss) => (k, Some (g (k, t)))).
      - rewrite map_map. reflexivity.
      - intros [[k t] ss] Hin. apply in_map_iff in Hin as [[k' t'] [Heq Hin]]. cbn [fst snd] in Heq. injection Heq as -> -> <-.
        unfold accumulate_task, g. cbn [fst snd].
        destruct (find_first _ sels) as [s|] eqn:Hf; [reflexivity|]. exfalso.
        destruct (Hc k) as (s & Hs & Hid & Hp); [apply (in_map fst) in Hin; exact Hin|].
        rewrite find_first_none in Hf. specialize (Hf s Hs). rewrite Hid, eqb_refl' in Hf. discriminate. }
    rewrite Hr.
    pose proof (store_results_all g (tc_selections tc) [] Hn) as Hst. cbn [app] in Hst. rewrite Hst. f_equal. f_equal.
    unfold upd_sel. apply map_ext_in. intros [k t] Hin. cbn [fst snd]. f_equal. f_equal. unfold g, sels_vote. cbn [fst snd].
    rewrite find_find_first'. cbv [eqb EqB_string]. destruct (find_first _ sels); reflexivity.
  Qed.

  Definition dwf (d : dict string tally_contest) : Prop :=
    NoDup (dkeys d) /\ forall k tc, dget k d = Some tc -> NoDup (dkeys (tc_selections tc)).
  Definition fits_d (d : dict string tally_contest) (c : ct_contest) : Prop :=
    exists tc, dget (bc_id c) d = Some tc /\ covers (bc_selections c) (dkeys (tc_selections tc)).
  Lemma dwf_upd v d : dwf d -> dwf (upd v d).
  Proof.
    intros [H1 H2]. split; [rewrite upd_keys; exact H1|]. intros k tc Hk. rewrite dget_upd in Hk.
    destruct (dget k d) as [tc0|] eqn:Hg; [|discriminate]. injection Hk as <-. cbn [tc_selections]. rewrite upd_sel_keys. eauto.
  Qed.
  Lemma fits_upd v d c : fits_d d c -> fits_d (upd v d) c.
  Proof.
    intros [tc [Hg Hc]]. exists (mkTcon (tc_id tc) (tc_seq tc) (tc_hash tc) (upd_sel (v (bc_id c)) (tc_selections tc))).
    rewrite dget_upd, Hg. split; [reflexivity|]. cbn [tc_selections]. rewrite upd_sel_keys. exact Hc.
  Qed.

  Lemma add_contests_ok : forall cs i d, dwf d -> (forall c, In c cs -> fits_d d c) ->
    add_contests E all_up i cs d = (upd (votes_in cs) d, Ok true).
  Proof.
    induction cs as [|c cs IH]; intros i d Hw Hf; cbn [add_contests].
    - rewrite <- (upd_nil d) at 1. reflexivity.
    - destruct (Hf c (or_introl eq_refl)) as [tc [Hg Hc]]. rewrite Hg.
      pose proof Hw as [Hn1 Hn2]. change (all_up i) with true. rewrite (accumulate_contest_ok tc _ (Hn2 _ _ Hg) Hc).
      assert (Hd : dset (bc_id c) (mkTcon (tc_id tc) (tc_seq tc) (tc_hash tc) (upd_sel (sels_vote (bc_selections c)) (tc_selections tc))) d
                   = upd (votes_in [c]) d).
      { assert (Hk : In (bc_id c) (dkeys d)) by (apply dget_in in Hg; apply (in_map fst) in Hg; exact Hg).
        rewrite dset_as_map by assumption. unfold upd. apply map_ext_in. intros [k x] Hin. cbn [fst snd]. f_equal.
        unfold votes_in. cbn [flat_map]. eqb_cases (bc_id c) k.
        - subst k. rewrite (in_dget _ _ _ Hn1 Hin) in Hg. injection Hg as ->. f_equal. apply upd_sel_ext. intros s _.
          rewrite String.eqb_refl, app_nil_r. reflexivity.
        - replace (String.eqb (bc_id c) k) with false by (symmetry; apply String.eqb_neq; assumption).
          cbn [app]. rewrite upd_sel_nil. destruct x; reflexivity. }
      rewrite Hd, IH.
      + rewrite upd_upd. f_equal. apply upd_ext. intros k s. unfold votes_in. cbn [flat_map]. rewrite app_nil_r. reflexivity.
      + apply dwf_upd, Hw.
      + intros c' Hc'. apply fits_upd, Hf. right. exact Hc'.
  Qed.
End Upd.
