(** * RogueFacts: a key ceremony in which the published key of a guardian need not be the one of its secret.
    The sections follow CeremonyFacts.v; [lg s] is the discrete logarithm of the key that [s] publishes. *)
From Verif Require Import Base Group Spec Tiny GroupFacts Codec Hash DLog ElGamal ZK Poly CodecFacts HashFacts ElGamalFacts PolyFacts
  CryptoThms ListFacts Manifest Ballot Encrypt SpecElection EncryptFacts EncryptThms GroupThms Ceremony SpecCeremony SpecRogue MediatorFacts CeremonyFacts CeremonyThms UploadFacts.
Import List.

Section Rogue.
  Context (E : env) (HE : valid_env E) (Hmac : hmac_32 E) (Hq : qq E <= 2 ^ 1024).
  Context (lg : seat -> Z) (Hlg : forall s, 0 <= lg s < qq E) (rnd : string -> string -> Z) (Hrnd : forall a b, 0 <= rnd a b).

  Definition keys_of (s : seat) : key_pair :=
    mkKeys (st_id s) (st_seq s) {| kp_secret := st_secret s; kp_public := g_pow_p E (lg s) |} (generate_polynomial E (st_draws s)).
  Definition pk_of (s : seat) : public_key := share_keys (keys_of s).

  Lemma pk_of_commitments s : pk_commitments (pk_of s) = map (gexp E) (st_secrets s).
  Proof.
    unfold pk_of, share_keys, keys_of, get_commitments, generate_polynomial, st_secrets. cbn. rewrite !map_map.
    apply map_ext. intros d. cbn. unfold gexp, g_pow_p. apply pow_p_eq; assumption.
  Qed.
  Lemma pk_of_key s : pk_key (pk_of s) = gexp E (lg s).
  Proof. unfold pk_of, keys_of, gexp, g_pow_p. cbn. apply pow_p_eq; assumption. Qed.

  (** the backup of [i] for [r] *)
  Definition bk (i r : seat) : backup :=
    mkBackup (st_id i) (st_id r) (st_seq r)
      (match coordinate_to_bytes (point E i r) with
       | Ok bytes => match hashed_elgamal_encrypt E bytes (rnd (st_id i) (st_id r)) (pk_key (pk_of r)) (get_backup_seed E (st_id r) (st_seq r)) with
                     | Ok c => c | Err _ => mkHct 0 "" "" end
       | Err _ => mkHct 0 "" "" end).
  Lemma bk_facts k i r : seat_ok E k i -> seat_ok E k r ->
    generate_backup E (st_id i) (ek_poly (keys_of i)) (pk_of r) (rnd (st_id i) (st_id r)) = Ok (bk i r)
    /\ exists bytes, hashed_decrypt E (bk_coordinate (bk i r)) (lg r) (get_backup_seed E (st_id r) (st_seq r)) = Ok (Some bytes)
                     /\ coordinate_from_bytes E bytes = Ok (point E i r).
  Proof.
    intros Hi Hr. pose proof (Hlg r) as Hsr. destruct Hr as (Hk & _ & Hlr & Hrr & Hseq & Hpow).
    pose proof (q_gt_1 E HE).
    assert (Hp : 0 <= point E i r < qq E) by (apply Z.mod_pos_bound; lia).
    destruct (coordinate_codec E (point E i r) Hp Hq) as [bytes (B1 & B2 & B3 & B4)].
    destruct (hashed_roundtrip_len E bytes (lg r) (rnd (st_id i) (st_id r)) (get_backup_seed E (st_id r) (st_seq r)) HE) as [c [Hc Hd]];
      try assumption; try lia.
    { unfold zlen in B2. assert (Hb : length bytes = 512%nat) by lia. rewrite Hb. reflexivity. }
    { apply Hrnd. }
    assert (Hv : compute_polynomial_coordinate E (st_seq r) (generate_polynomial E (st_draws i)) = Ok (point E i r)).
    { rewrite (coordinate_value E HE) by assumption. unfold point. do 3 f_equal. unfold generate_polynomial, st_secrets.
      rewrite map_map. reflexivity. }
    assert (Hbk : bk i r = mkBackup (st_id i) (st_id r) (st_seq r) c).
    { unfold bk. rewrite B1, pk_of_key, Hc. reflexivity. }
    split.
    - unfold generate_backup. cbn [pk_of share_keys keys_of pk_seq pk_owner ek_poly ek_seq ek_owner]. rewrite Hv. cbn [rbind]. rewrite B1. cbn [rbind].
      change (pk_key _) with (pk_key (pk_of r)). rewrite pk_of_key, Hc. cbn [rbind]. rewrite Hbk. reflexivity.
    - exists bytes. rewrite Hbk. cbn [bk_coordinate]. split; [|exact B4]. apply Hd. left. exact B2.
  Qed.
  Lemma bk_verifies k i r : seat_ok E k i -> seat_ok E k r -> lg r = st_secret r ->
    verify_backup E (st_id r) (bk i r) (pk_of i) (keys_of r) = Ok (good_verif i r).
  Proof.
    intros Hi Hr Hxr. destruct (bk_facts k i r Hi Hr) as [_ [bytes [Hd Hc]]]. unfold verify_backup. rewrite Hxr in Hd.
    change (ek_secret (keys_of r)) with (st_secret r). change (bk_seq (bk i r)) with (st_seq r). rewrite Hd. cbn [rbind get_optional].
    rewrite Hc. cbn [rbind]. rewrite pk_of_commitments. destruct Hr as (Hk & _ & Hlr & Hrr & Hseq & Hpow).
    destruct Hi as (_ & _ & Hli & Hri & _).
    unfold point. rewrite (honest_backup E HE); [reflexivity|assumption| |].
    - eapply Forall_impl; [|exact Hri]. cbn. lia.
    - intros j Hj. apply Hpow. unfold zlen, st_secrets in Hj. rewrite map_length in Hj. lia.
  Qed.

  (** ** the ceremony *)
  Context (k : nat) (ss : list seat) (Hok : forall s, In s ss -> seat_ok E k s) (Hnd : NoDup (map st_id ss)).
  Context (d : details) (Hd : dt_number d = len ss) (mid : string).
  Definition others (i : seat) : list seat := filter (fun r => negb (eqb (st_id r) (st_id i))) ss.
  Definition key_entry (s : seat) := (st_id s, pk_of s).
  Definition pubs (i : seat) : dict string public_key := map key_entry (i :: others i).
  Definition outbox (i : seat) : dict string backup := map (fun r => (st_id r, bk i r)) (i :: others i).
  Definition inbox (i : seat) : dict string backup := map (fun j => (st_id j, bk j i)) (others i).
  Definition all_backups (l : list seat) : dict (string * string) backup :=
    flat_map (fun i => map (fun r => ((st_id i, st_id r), bk i r)) (others i)) l.
  Definition all_verifs (l : list seat) : dict (string * string) verification :=
    flat_map (fun i => map (fun j => ((st_id j, st_id i), good_verif j i)) (others i)) l.
  Definition g0 (i : seat) : guardian := mkGuardian (keys_of i) d [] [key_entry i] [] [].
  Definition g1 (i : seat) : guardian := mkGuardian (keys_of i) d [] (pubs i) [] [].
  Definition g2 (i : seat) : guardian := mkGuardian (keys_of i) d (outbox i) (pubs i) [] [].
  Definition g3 (i : seat) : guardian := mkGuardian (keys_of i) d (outbox i) (pubs i) (inbox i) [].
  Definition m1 : mediator := mkMediator mid d (map key_entry ss) [] [].
  Definition m2 (l : list seat) : mediator := mkMediator mid d (map key_entry ss) (all_backups l) [].
  Definition m3 (l : list seat) : mediator := mkMediator mid d (map key_entry ss) (all_backups ss) (all_verifs l).

  Lemma others_in i r : In r (others i) <-> In r ss /\ st_id r <> st_id i.
  Proof. unfold others. rewrite filter_In, negb_true_iff, eqb_neq. tauto. Qed.
  Lemma others_nodup i : NoDup (map st_id (others i)).
  Proof. apply NoDup_map_filter. assumption. Qed.
  Lemma self_others_nodup i : NoDup (map st_id (i :: others i)).
  Proof.
    cbn. constructor; [|apply others_nodup]. intros Hin. apply in_map_iff in Hin as [r [Heq Hr]]. apply others_in in Hr. tauto.
  Qed.
  Lemma others_len i : In i ss -> len (others i) = len ss - 1.
  Proof.
    intros Hi. unfold others.
    transitivity (len (filter (fun r => negb (eqb (st_id i) r)) (map st_id ss))).
    - rewrite filter_map_swap, len_map. f_equal. apply filter_ext. intros r. rewrite eqb_sym'. reflexivity.
    - rewrite filter_other_len by (try assumption; apply in_map; assumption). rewrite len_map. reflexivity.
  Qed.

  Lemma fold_announce l m : fold_left (fun m g => md_announce m (share_key g)) (map g0 l) m
    = mkMediator (md_id m) (md_details m) (fold_left (fun d kv => dset (fst kv) (snd kv) d) (map key_entry l) (md_keys m)) (md_backups m) (md_verifs m).
  Proof.
    revert m. induction l as [|s l IH]; intros m; [destruct m; reflexivity|]. cbn [map fold_left]. rewrite IH. reflexivity.
  Qed.
  Lemma key_entry_fst l : map fst (map key_entry l) = map st_id l.
  Proof. rewrite map_map. reflexivity. Qed.
  Lemma m1_announced m : md_keys m = map key_entry ss -> md_details m = d -> all_guardians_announced m = true.
  Proof. intros Hk Hdt. unfold all_guardians_announced. rewrite Hk, Hdt, Hd, len_map. apply Z.eqb_refl. Qed.
  Lemma fold_save_keys l g : fold_left save_guardian_key (map pk_of l) g =
    mkGuardian (gd_keys g) (gd_details g) (gd_to_share g)
      (fold_left (fun d kv => dset (fst kv) (snd kv) d) (map key_entry l) (gd_pubkeys g)) (gd_backups g) (gd_verifs g).
  Proof. revert g. induction l as [|s l IH]; intros g; [destruct g; reflexivity|]. cbn [map fold_left]. rewrite IH. reflexivity. Qed.

  Lemma round_1_ok : round_1 (map g0 ss) (new_mediator mid d) = Ok (map g1 ss, m1).
  Proof.
    unfold round_1. rewrite fold_announce. cbn [md_id md_details md_keys md_backups md_verifs new_mediator].
    rewrite dict_fold_distinct by (try (rewrite key_entry_fst; assumption); cbn; tauto). cbn [app]. fold m1.
    match goal with |- context [rmapM ?f (map g0 ss)] => assert (Hm : rmapM f (map g0 ss) = Ok (map g1 ss)); [|rewrite Hm; reflexivity] end.
    apply rmapM_iff.
    apply Forall2_map_l, Forall2_map_r, Forall2_diag. intros s Hs.
    unfold share_announced. rewrite (m1_announced m1) by reflexivity. cbn [negb get_optional rbind]. f_equal.
    change (gd_id (g0 s)) with (st_id s).
    replace (map snd _) with (map pk_of (others s)).
    - rewrite fold_save_keys. cbn [gd_keys gd_details gd_to_share gd_pubkeys gd_backups gd_verifs g0]. unfold g1. f_equal.
      rewrite dict_fold_distinct; [reflexivity|rewrite key_entry_fst; apply others_nodup|].
      intros x Hx. rewrite key_entry_fst in Hx. apply in_map_iff in Hx as [r [<- Hr]]. apply others_in in Hr. cbn. intuition.
    - cbn [md_keys m1]. rewrite filter_map_swap, map_map. reflexivity.
  Qed.

  (** generating backups *)
  Lemma generate_loop i l g : In i ss -> (forall r, In r l -> In r ss) -> gd_keys g = keys_of i ->
    generate_backups_loop E (rnd (st_id i)) (map pk_of l) g
    = (mkGuardian (gd_keys g) (gd_details g)
         (fold_left (fun d kv => dset (fst kv) (snd kv) d) (map (fun r => (st_id r, bk i r)) l) (gd_to_share g))
         (gd_pubkeys g) (gd_backups g) (gd_verifs g), Ok true).
  Proof.
    intros Hi. revert g. induction l as [|r l IH]; intros g Hl Hg; [destruct g; reflexivity|]. cbn [map fold_left generate_backups_loop].
    unfold gd_id. rewrite Hg. change (ek_owner (keys_of i)) with (st_id i).
    change (pk_owner (pk_of r)) with (st_id r).
    destruct (bk_facts k i r (Hok i Hi) (Hok r (Hl r (or_introl eq_refl)))) as [Hgen _]. rewrite Hgen.
    rewrite IH by (try exact Hg; intros; apply Hl; right; assumption). rewrite <- Hg. reflexivity.
  Qed.
  Lemma generate_all i : In i ss -> gd_generate_backups E (rnd (st_id i)) (g1 i) = (g2 i, Ok true).
  Proof.
    intros Hi. unfold gd_generate_backups.
    replace (dvals (gd_pubkeys (g1 i))) with (map pk_of (i :: others i)) by (unfold dvals; cbn [gd_pubkeys g1]; unfold pubs; rewrite map_map; reflexivity).
    rewrite (generate_loop i); [|assumption| |reflexivity].
    - unfold g2, g1. cbn [gd_keys gd_details gd_to_share gd_pubkeys gd_backups gd_verifs]. do 2 f_equal.
      rewrite dict_fold_distinct; [reflexivity| |cbn; tauto]. rewrite map_map. apply self_others_nodup.
    - intros r [<-|Hr]; [assumption|]. apply others_in in Hr. tauto.
  Qed.
  Lemma receive_own_backups i m : In i ss -> md_keys m = map key_entry ss -> md_details m = d ->
    (forall o r, In (o, r) (dkeys (md_backups m)) -> o <> st_id i) ->
    receive_backups m (map (bk i) (i :: others i))
    = mkMediator (md_id m) (md_details m) (md_keys m) (md_backups m ++ map (fun r => ((st_id i, st_id r), bk i r)) (others i)) (md_verifs m).
  Proof.
    intros Hi Hk Hdt Hnew. unfold receive_backups. rewrite m1_announced by assumption. cbn [negb map fold_left].
    unfold md_receive_backup at 2. cbn [bk_owner bk_designated bk]. rewrite eqb_refl'.
    assert (Hin : forall r, In r (others i) -> st_id r <> st_id i) by (intros r Hr; apply others_in in Hr; tauto).
    rewrite <- (dict_fold_distinct (map (fun r => ((st_id i, st_id r), bk i r)) (others i))).
    - revert Hin. clear Hnew Hk Hdt. generalize (others i). intros l. revert m. induction l as [|r l IH]; intros m Hin; [destruct m; reflexivity|].
      cbn [map fold_left]. rewrite IH by (intros; apply Hin; right; assumption). unfold md_receive_backup. cbn [bk_owner bk_designated bk].
      assert (Hne : eqb (st_id i) (st_id r) = false) by (apply eqb_neq; intros Heq; apply (Hin r (or_introl eq_refl)); auto).
      rewrite Hne. reflexivity.
    - rewrite map_map. cbn [fst]. rewrite <- (map_map st_id (fun r => (st_id i, r))). apply FinFun.Injective_map_NoDup; [|apply others_nodup].
      intros a b Hab. congruence.
    - intros x Hx. rewrite map_map in Hx. apply in_map_iff in Hx as [r [<- _]]. cbn [fst]. intros Hc. apply (Hnew _ _ Hc). reflexivity.
  Qed.
  Lemma all_backups_keys l o r : In (o, r) (dkeys (all_backups l)) -> exists i, In i l /\ st_id i = o.
  Proof.
    unfold dkeys. intros Hin. apply in_map_iff in Hin as [[p b] [Heq Hin]]. cbn in Heq. subst p. unfold all_backups in Hin.
    apply in_flat_map in Hin as [i [Hi Hin]]. apply in_map_iff in Hin as [j [Heq _]]. exists i. inversion Heq; auto.
  Qed.
  Lemma send_backups_ok l : forall pre, ss = pre ++ l ->
    send_backups E rnd (map g1 l) (m2 pre) = Ok (map g2 l, m2 ss).
  Proof.
    induction l as [|i l IH]; intros pre Hss; [rewrite app_nil_r in Hss; subst pre; reflexivity|].
    assert (Hi : In i ss) by (rewrite Hss, in_app_iff; cbn; auto).
    cbn [map send_backups]. change (gd_id (g1 i)) with (st_id i). rewrite generate_all by assumption. cbn [rbind].
    replace (gd_share_backups (g2 i)) with (map (bk i) (i :: others i)) by (unfold gd_share_backups, dvals; cbn [gd_to_share g2]; unfold outbox; rewrite map_map; reflexivity).
    rewrite receive_own_backups; [|assumption|reflexivity|reflexivity|].
    - cbn [md_id md_details md_keys md_backups md_verifs m2].
      change (mkMediator mid d (map key_entry ss) (all_backups pre ++ map (fun r => ((st_id i, st_id r), bk i r)) (others i)) [])
        with (mkMediator mid d (map key_entry ss) (all_backups pre ++ map (fun r => ((st_id i, st_id r), bk i r)) (others i)) (@nil (string * string * verification))).
      replace (all_backups pre ++ map (fun r => ((st_id i, st_id r), bk i r)) (others i)) with (all_backups (pre ++ [i]))
        by (unfold all_backups; rewrite flat_map_app; cbn [flat_map]; rewrite app_nil_r; reflexivity).
      fold (m2 (pre ++ [i])). rewrite IH by (rewrite <- app_assoc; exact Hss). reflexivity.
    - cbn [md_backups m2]. intros o r Hin. apply all_backups_keys in Hin as [j [Hj <-]]. intros Heq.
      rewrite Hss, map_app in Hnd. cbn in Hnd. apply NoDup_remove_2 in Hnd. apply Hnd. rewrite in_app_iff. left.
      apply in_map_iff. exists j. auto.
  Qed.

  Lemma all_backups_nodup : NoDup (dkeys (all_backups ss)).
  Proof.
    assert (H : forall l, NoDup (map st_id l) -> NoDup (dkeys (all_backups l))); [|apply H; assumption].
    induction l as [|i l IH]; intros Hl; [constructor|]. cbn in Hl. inversion Hl as [|? ? Hi Hl']; subst.
    cbn [all_backups flat_map]. unfold dkeys. rewrite map_app. fold (all_backups l).
    assert (Hrow : NoDup (map fst (map (fun r => ((st_id i, st_id r), bk i r)) (others i)))).
    { rewrite map_map. cbn [fst]. rewrite <- (map_map st_id (fun r => (st_id i, r))). apply FinFun.Injective_map_NoDup; [|apply others_nodup].
      intros a b Hab. congruence. }
    assert (Hdis : forall x, In x (map fst (map (fun r => ((st_id i, st_id r), bk i r)) (others i))) -> ~ In x (map fst (all_backups l))).
    { intros [o r] Hx Hy. rewrite map_map in Hx. apply in_map_iff in Hx as [r' [Heq _]]. inversion Heq; subst.
      apply all_backups_keys in Hy as [j [Hj Heq']]. apply Hi. apply in_map_iff. exists j. auto. }
    specialize (IH Hl'). unfold dkeys in IH. revert Hrow Hdis.
    generalize (map fst (map (fun r => ((st_id i, st_id r), bk i r)) (others i))). intros row Hrow Hdis.
    induction row as [|x row IHr]; [exact IH|]. inversion Hrow; subst. cbn. constructor.
    - rewrite in_app_iff. intros [Hx|Hx]; [contradiction|]. apply (Hdis x); [left; reflexivity|assumption].
    - apply IHr; [assumption|]. intros y Hy. apply Hdis. right. assumption.
  Qed.
  Lemma all_backups_get i j : In i ss -> In j (others i) -> dget (st_id j, st_id i) (all_backups ss) = Some (bk j i).
  Proof.
    intros Hi Hj. apply others_in in Hj as [Hj Hne]. apply in_dget; [apply all_backups_nodup|].
    unfold all_backups. apply in_flat_map. exists j. split; [assumption|]. apply in_map_iff. exists i. split; [reflexivity|].
    apply others_in. auto.
  Qed.
  Lemma fold_save_backups i l g : fold_left gd_save_backup (map (fun j => bk j i) l) g =
    mkGuardian (gd_keys g) (gd_details g) (gd_to_share g) (gd_pubkeys g)
      (fold_left (fun d kv => dset (fst kv) (snd kv) d) (map (fun j => (st_id j, bk j i)) l) (gd_backups g)) (gd_verifs g).
  Proof. revert g. induction l as [|s l IH]; intros g; [destruct g; reflexivity|]. cbn [map fold_left]. rewrite IH. reflexivity. Qed.

  Lemma round_2_ok : round_2 E rnd (map g1 ss) m1 = Ok (map g3 ss, m2 ss).
  Proof.
    unfold round_2. change m1 with (m2 []). rewrite (send_backups_ok ss []) by reflexivity. cbn [rbind fst snd].
    match goal with |- context [rmapM ?f (map g2 ss)] => assert (Hm : rmapM f (map g2 ss) = Ok (map g3 ss)); [|rewrite Hm; reflexivity] end.
    apply rmapM_iff.
    apply Forall2_map_l, Forall2_map_r, Forall2_diag. intros s Hs.
    change (gd_id (g2 s)) with (st_id s).
    assert (Hto : backups_to_guardian (m2 ss) (st_id s) = Ok (map (fun j => bk j s) (others s))).
    { unfold backups_to_guardian. cbn [md_keys m2]. unfold dkeys. rewrite key_entry_fst, filter_map_swap.
      replace (filter (fun x => negb (eqb (st_id s) (st_id x))) ss) with (others s)
        by (unfold others; apply filter_ext; intros; rewrite eqb_sym'; reflexivity).
      apply rmapM_iff. apply Forall2_map_l, Forall2_map_r, Forall2_diag. intros j Hj.
      unfold dindex. cbn [md_backups m2]. rewrite all_backups_get by assumption. reflexivity. }
    unfold share_backups. rewrite (m1_announced (m2 ss)) by reflexivity. cbn [negb].
    destruct (Hok s Hs) as (_ & Hne & _). destruct (st_id s) as [|c rest] eqn:Hid; [congruence|]. rewrite Hto. cbn [rbind get_optional].
    rewrite fold_save_backups. cbn [gd_keys gd_details gd_to_share gd_pubkeys gd_backups gd_verifs g2]. unfold g3. do 2 f_equal.
    rewrite dict_fold_distinct; [reflexivity| |cbn; tauto]. rewrite map_map. apply others_nodup.
  Qed.

  Lemma available l : all_backups_available (m3 l) = true.
  Proof.
    unfold all_backups_available. rewrite m1_announced by reflexivity. cbn [andb md_backups md_details m3]. apply Z.eqb_eq.
    unfold all_backups. rewrite (flat_map_len _ _ (len ss - 1)); [rewrite Hd; lia|].
    intros i Hi. rewrite len_map. apply others_len. assumption.
  Qed.
  Lemma all_verifs_keys l o r : In (o, r) (dkeys (all_verifs l)) -> exists i, In i l /\ st_id i = r.
  Proof.
    unfold dkeys. intros Hin. apply in_map_iff in Hin as [[p b] [Heq Hin]]. cbn in Heq. subst p. unfold all_verifs in Hin.
    apply in_flat_map in Hin as [i [Hi Hin]]. apply in_map_iff in Hin as [j [Heq _]]. exists i. inversion Heq; auto.
  Qed.
  Lemma verify_one i j : In i ss -> lg i = st_secret i -> In j (others i) -> gd_verify_backup E (g3 i) (st_id j) = Ok (good_verif j i).
  Proof.
    intros Hi Hxi Hj. pose proof Hj as Hj'. apply others_in in Hj' as [Hjs Hne]. unfold gd_verify_backup. cbn [gd_backups gd_pubkeys g3].
    assert (Hb : dget (st_id j) (inbox i) = Some (bk j i)).
    { apply in_dget; [unfold dkeys, inbox; rewrite map_map; apply others_nodup|].
      unfold inbox. apply in_map_iff. exists j. auto. }
    assert (Hp : dget (st_id j) (pubs i) = Some (pk_of j)).
    { apply in_dget; [unfold dkeys, pubs; rewrite key_entry_fst; apply self_others_nodup|].
      unfold pubs. apply in_map_iff. exists j. split; [reflexivity|]. right. assumption. }
    rewrite Hb, Hp. change (gd_id (g3 i)) with (st_id i). change (gd_keys (g3 i)) with (keys_of i).
    apply (bk_verifies k); [apply Hok; assumption|apply Hok; assumption|exact Hxi].
  Qed.


  Lemma verified : get_verification_state (m3 ss) = mkVstate true true [].
  Proof.
    unfold get_verification_state. rewrite available.
    assert (Hv : all_verifications_received (m3 ss) = true).
    { unfold all_verifications_received. cbn [md_verifs md_details m3]. apply Z.eqb_eq. unfold all_verifs.
      rewrite (flat_map_len _ _ (len ss - 1)); [rewrite Hd; lia|]. intros i Hi. rewrite len_map. apply others_len. assumption. }
    rewrite Hv. cbn [negb orb].
    assert (Hf : filter (fun v => negb (vf_verified v)) (dvals (md_verifs (m3 ss))) = []).
    { cbn [md_verifs m3]. assert (Hall : forall v, In v (dvals (all_verifs ss)) -> vf_verified v = true).
      { intros v Hin. unfold dvals in Hin. apply in_map_iff in Hin as [[p v'] [<- Hin]]. unfold all_verifs in Hin.
        apply in_flat_map in Hin as [i [_ Hin]]. apply in_map_iff in Hin as [j [Heq _]]. inversion Heq. reflexivity. }
      induction (dvals (all_verifs ss)) as [|v l IH]; [reflexivity|]. cbn [filter]. rewrite (Hall v) by (left; reflexivity). cbn [negb].
      apply IH. intros; apply Hall; right; assumption. }
    rewrite Hf. reflexivity.
  Qed.
  Lemma published : md_publish_joint_key E (m3 ss) = Some
    (mkJoint (gexp E (sumZ (map lg ss))) (hash_elems E [HList (map HElem (flat_map (fun s => map (gexp E) (st_secrets s)) ss))])).
  Proof.
    unfold md_publish_joint_key, md_all_verified. rewrite verified. cbn [vs_all_verified negb]. f_equal. unfold combine_keys.
    cbn [md_keys m3]. assert (Hv : dvals (map key_entry ss) = map pk_of ss) by (unfold dvals; rewrite map_map; reflexivity). rewrite Hv. f_equal.
    - rewrite map_map. unfold elgamal_combine_public_keys. rewrite (mult_p_eq E HE). rewrite (map_ext _ (fun s => gexp E (lg s)) pk_of_key).
      rewrite <- (map_map lg (gexp E)). apply gexp_product; [exact HE|]. apply Forall_forall. intros y Hy.
      apply in_map_iff in Hy as [s [<- Hs]]. pose proof (Hlg s). lia.
    - do 4 f_equal. rewrite flat_map_concat_map, map_map, <- flat_map_concat_map. apply flat_map_ext. apply pk_of_commitments.
  Qed.

  Definition approve_list : list verification := map snd (all_verifs ss).
  Lemma approve_eq : approve_list = all_approve (map st_id ss).
  Proof.
    unfold approve_list, all_verifs, all_approve, others.
    assert (H : forall l l' : list seat, map snd (flat_map (fun i => map (fun j => ((st_id j, st_id i), good_verif j i)) (filter (fun r => negb (eqb (st_id r) (st_id i))) l')) l)
      = flat_map (fun i => map (fun o => mkVerif o i i true) (filter (fun o => negb (eqb o i)) (map st_id l'))) (map st_id l)); [|apply H].
    clear. intros l l'. induction l as [|i l IH]; [reflexivity|]. cbn [flat_map map]. rewrite map_app, IH. f_equal. rewrite map_map, filter_map_swap, map_map. reflexivity.
  Qed.
  Lemma all_verifs_nodup : NoDup (dkeys (all_verifs ss)).
  Proof.
    assert (H : forall l, NoDup (map st_id l) -> NoDup (dkeys (all_verifs l))); [|apply H; assumption].
    induction l as [|i l IH]; intros Hl; [constructor|]. cbn in Hl. inversion Hl as [|? ? Hi Hl']; subst.
    cbn [all_verifs flat_map]. unfold dkeys. rewrite map_app. fold (all_verifs l). apply NoDup_app_intro.
    - rewrite map_map. cbn [fst]. rewrite <- (map_map st_id (fun r => (r, st_id i))). apply FinFun.Injective_map_NoDup; [|apply others_nodup].
      intros a b Hab. congruence.
    - exact (IH Hl').
    - intros [o r] Hx1 Hx2. rewrite map_map in Hx1. apply in_map_iff in Hx1 as [j [Heq _]]. inversion Heq; subst.
      apply all_verifs_keys in Hx2 as [j' [Hj' He]]. apply Hi. rewrite <- He. apply in_map. exact Hj'.
  Qed.
  Lemma receive_all : receive_verifications (m2 ss) (all_approve (map st_id ss)) = m3 ss.
  Proof.
    rewrite <- approve_eq. change (m2 ss) with (m3 []). unfold receive_verifications. rewrite available. cbn [negb].
    assert (H : forall l m, (forall kv, In kv l -> fst (fst kv) <> snd (fst kv) /\ vf_owner (snd kv) = fst (fst kv) /\ vf_designated (snd kv) = snd (fst kv)) ->
      fold_left md_receive_verification (map snd l) m = mkMediator (md_id m) (md_details m) (md_keys m) (md_backups m) (fold_left (fun d kv => dset (fst kv) (snd kv) d) l (md_verifs m))).
    { clear. induction l as [|[[o r] v] l IH]; intros m H; [destruct m; reflexivity|]. cbn [map fold_left fst snd]. rewrite IH by (intros; apply H; right; assumption).
      destruct (H _ (or_introl eq_refl)) as (H1 & H2 & H3). cbn in H1, H2, H3. unfold md_receive_verification. rewrite H2, H3. apply eqb_neq in H1. rewrite H1. reflexivity. }
    unfold approve_list. rewrite H.
    - unfold m3 at 1 2 3 4 5. cbn [md_id md_details md_keys md_backups md_verifs]. unfold m3. f_equal. rewrite dict_fold_distinct; [reflexivity|apply all_verifs_nodup|cbn; tauto].
    - intros [[o r] v] Hin. unfold all_verifs in Hin. apply in_flat_map in Hin as [i [_ Hin]]. apply in_map_iff in Hin as [j [Heq Hj]]. inversion Heq; subst. cbn.
      apply others_in in Hj. tauto.
  Qed.
End Rogue.
