(** * Recovery keys, validity of honest shares, and what a published plaintext rests on. *)
From Verif Require Import Base Group Codec Hash DLog ElGamal ZK Poly Spec ListFacts GroupFacts GroupThms ZKFacts ZKSound PolyFacts ElGamalFacts CryptoThms Manifest Ballot SpecElection Encrypt EncryptFacts EncryptThms Box Tally
  Ceremony SpecCeremony CeremonyFacts CeremonyThms Shares SpecShares SharesFacts ShareRun SharesThms.
From Coq Require Import Permutation List.

Lemma gexp_G1 E : valid_env E -> forall a, 0 <= a -> gexp E a = G1 E a.
Proof. intros HE a Ha. apply (G1_pow E HE a Ha). Qed.
(** ** recovery keys *)
Lemma recovery_key : forall E present missing coeffs, valid_env E -> Forall (fun a => 0 <= a) coeffs -> pk_commitments missing = map (gexp E) coeffs ->
  compute_recovery_public_key E present missing = gexp E (poly_at coeffs (pk_seq present) mod qq E).
Proof.
  intros E present missing coeffs HE Hc Hm. pose proof (q_gt_1 E HE). rewrite (recovery_key_ok E HE present missing coeffs Hc Hm). symmetry.
  rewrite (gexp_G1 E HE) by (apply Z.mod_pos_bound; lia). apply (G1_congr E). apply Z.mod_mod. lia.
Qed.
Lemma recovery_key_backup : forall E ss s g r, valid_env E -> Forall (fun a => 0 <= a) (st_secrets r) -> ready_guardian E ss s g -> In r ss -> st_id r <> st_id s ->
  exists b k y, dget (st_id r) (gd_backups g) = Some b /\ decrypt_backup E b (gd_keys g) = Ok (Some y) /\ dget (st_id r) (gd_pubkeys g) = Some k
    /\ compute_recovery_public_key E (share_key g) k = gexp E y.
Proof.
  intros E ss s g r HE Hpos [(K1 & K2 & K3 & K4) Hsec Hk Hbk] Hr Hne. destruct (Hk r Hr) as (k & Hk1 & (R1 & R2 & R3 & R4)).
  destruct (Hbk r Hr Hne) as (b & bytes & B1 & B2 & B3).
  exists b, k, (poly_at (st_secrets r) (st_seq s) mod qq E). split; [assumption|]. split; [|split; [assumption|]].
  - unfold decrypt_backup. change (pk_owner (share_key g)) with (ek_owner (gd_keys g)) in K1. change (pk_seq (share_key g)) with (ek_seq (gd_keys g)) in K2.
    rewrite Hsec, K1, K2, B2. cbn [rbind]. rewrite B3. reflexivity.
  - rewrite <- K2. apply recovery_key; assumption.
Qed.
(** checking a coordinate against commitments is checking it against the recovery key *)
Lemma subgroup_exponents E (HE : valid_env E) l : Forall (in_subgroup E) l -> exists coeffs, Forall (fun a => 0 <= a < qq E) coeffs /\ l = map (gexp E) coeffs.
Proof.
  induction 1 as [|x l Hx _ (cs & H1 & ->)]; [exists []; auto|]. destruct (subgroup_cyclic E x HE Hx) as (a & Ha & ->). exists (a :: cs). split; [constructor; assumption|reflexivity].
Qed.
Lemma recovery_key_verify : forall E present missing y, valid_env E -> Forall (in_subgroup E) (pk_commitments missing) -> 0 <= pk_seq present < qq E ->
  (forall j, 0 <= j < zlen (pk_commitments missing) -> pk_seq present ^ j < pp E) -> 0 <= y ->
  (verify_polynomial_coordinate E y (pk_seq present) (pk_commitments missing) = Ok true <-> compute_recovery_public_key E present missing = gexp E y).
Proof.
  intros E present missing y HE Hc Hs Hj Hy. destruct (subgroup_exponents E HE _ Hc) as (coeffs & Hr & Hm).
  assert (Hr' : Forall (fun a => 0 <= a) coeffs) by (eapply Forall_impl; [|exact Hr]; cbn; lia).
  rewrite (recovery_key E present missing coeffs HE Hr' Hm). rewrite Hm in *. rewrite verify_iff; try assumption.
  - pose proof (q_gt_1 E HE) as Hq. rewrite !(gexp_G1 E HE) by (try assumption; apply Z.mod_pos_bound; lia).
    split.
    + intros H. inversion H as [H1]. apply Z.eqb_eq in H1. apply (G1_congr E). rewrite Z.mod_mod by lia. symmetry. exact H1.
    + intros H. f_equal. apply Z.eqb_eq. apply (G1_inj E HE) in H. rewrite Z.mod_mod in H by lia. symmetry. exact H.
  - intros j Hjj. apply Hj. unfold zlen in *. rewrite map_length. exact Hjj.
Qed.

(** ** honest shares *)
Lemma item_good_sub E cs : distinct_options (map cc_id cs) (cc_options cs) -> subgroup_all E (cc_options cs) -> item_good E cs.
Proof.
  intros [H1 H2] He. constructor; [assumption|rewrite <- options_ids; assumption|].
  intros [oid ct] Hs. apply in_flat_map in Hs. destruct Hs as (c & Hc & Hs). apply (He (cc_id c) oid ct). apply options_in. eauto.
Qed.
Lemma good_entries E Q x cs sh : item_good E cs -> good_share E Q x cs sh -> forall cid oid ct, In (cid, oid, ct) (cc_options cs) ->
  exists d, share_entry sh cid oid = Some d /\ dc_share d = ct_pad ct ^ x mod pp E /\ dec_sel_valid E d ct (gexp E x) Q = true.
Proof.
  intros Hi [Hk HF] cid oid ct Hin. apply options_in in Hin. destruct Hin as (c & Hc & <- & Hs).
  unfold share_entry. destruct (Forall2_in_l _ _ _ c HF Hc) as ([cid' dn] & Hd & C1 & CS). cbn [fst snd] in *. subst cid'.
  assert (Hkc : dkeys (sh_contests sh) = map cc_id cs) by (apply (F2_keys cc_id _ _ _ HF); intros a kv (H & _); exact H).
  rewrite (in_dget (cc_id c) dn) by (try assumption; rewrite Hkc; apply Hi).
  destruct (Forall2_in_l _ _ _ (oid, ct) CS Hs) as ([oid' d] & Hdd & S1 & S2 & S3 & S4). cbn [fst snd] in *. subst oid'.
  assert (Hks : dkeys (dn_selections dn) = map fst (cc_selections c)) by (apply (F2_keys fst _ _ _ CS); intros a kv (H & _); exact H).
  rewrite (in_dget oid d) by (try assumption; rewrite Hks; apply (item_con E cs c Hi Hc)). exists d. auto.
Qed.
Lemma cgood_entries E Q y cs sh : item_good E cs -> cgood_share E Q y cs sh -> forall cid oid ct, In (cid, oid, ct) (cc_options cs) ->
  exists d, comp_entry sh cid oid = Some d /\ cm_share d = ct_pad ct ^ y mod pp E /\ cm_recovery d = gexp E y /\ cp_is_valid E (cm_proof d) ct (cm_recovery d) (cm_share d) Q = true.
Proof.
  intros Hi HF cid oid ct Hin. apply options_in in Hin. destruct Hin as (c & Hc & <- & Hs).
  unfold comp_entry. destruct (Forall2_in_l _ _ _ c HF Hc) as ([cid' dn] & Hd & C1 & CS). cbn [fst snd] in *. subst cid'.
  assert (Hkc : dkeys (csh_contests sh) = map cc_id cs) by (apply (F2_keys cc_id _ _ _ HF); intros a kv (H & _); exact H).
  rewrite (in_dget (cc_id c) dn) by (try assumption; rewrite Hkc; apply Hi).
  destruct (Forall2_in_l _ _ _ (oid, ct) CS Hs) as ([oid' d] & Hdd & S1 & S2 & S3 & S4 & S5). cbn [fst snd] in *. subst oid'.
  assert (Hks : dkeys (co_selections dn) = map fst (cc_selections c)) by (apply (F2_keys fst _ _ _ CS); intros a kv (H & _); exact H).
  rewrite (in_dget oid d) by (try assumption; rewrite Hks; apply (item_con E cs c Hi Hc)). exists d. auto.
Qed.
Lemma share_of_any E (HE : valid_env E) Q (HQ : 0 <= Q < qq E) up rnd k id cs : (forall c, up c = true) -> key_good E k -> item_good E cs ->
  exists sh, share_of E up rnd k Q id cs = Some sh /\ good_share E Q (ek_secret k) cs sh /\ sh_guardian sh = ek_owner k /\ sh_id sh = id.
Proof.
  intros Hup Hk Hi. destruct (share_of_ok E HE Q HQ k rnd id cs Hk Hi) as (sh & H1 & H2 & H3 & H4). exists sh.
  split; [|auto]. unfold share_of in *. rewrite <- H1.
  assert (H : forall l i d, share_contests E up rnd k Q i l d = share_contests E (fun _ => true) rnd k Q i l d).
  { induction l as [|c l IH]; intros i d; cbn [share_contests]; [reflexivity|]. rewrite Hup. destruct share_for_contest; [apply IH|reflexivity]. }
  rewrite H. reflexivity.
Qed.
Lemma honest_shares_verify : forall E up rnd k t bs cx, valid_env E -> 0 <= cx_ext_hash cx < qq E -> (forall c, up c = true) ->
  0 <= ek_secret k < qq E -> kp_public (ek_pair k) = gexp E (ek_secret k) ->
  (tally_distinct t -> subgroup_all E (tally_options t) ->
     exists sh, compute_decryption_share E up rnd k t cx = Some sh /\ sh_guardian sh = ek_owner k /\ sh_key sh = kp_public (ek_pair k) /\
       forall cid oid ct, In (cid, oid, ct) (tally_options t) -> exists d, share_entry sh cid oid = Some d
         /\ dc_share d = ct_pad ct ^ ek_secret k mod pp E /\ dec_sel_valid E d ct (sh_key sh) (cx_ext_hash cx) = true) /\
  (ballot_distinct (sb_ballot bs) -> subgroup_all E (ballot_options (sb_ballot bs)) ->
     exists sh, compute_decryption_share_for_ballot E up rnd k bs cx = Some sh /\ sh_guardian sh = ek_owner k /\ sh_key sh = kp_public (ek_pair k) /\
       forall cid oid ct, In (cid, oid, ct) (ballot_options (sb_ballot bs)) -> exists d, share_entry sh cid oid = Some d
         /\ dc_share d = ct_pad ct ^ ek_secret k mod pp E /\ dec_sel_valid E d ct (sh_key sh) (cx_ext_hash cx) = true).
Proof.
  intros E up rnd k t b cx HE HQ Hup Hs Hk. assert (Hkg : key_good E k) by (split; assumption). split.
  - intros Hd Ho. assert (Hi : item_good E (map tally_cc (dvals (ty_contests t)))) by (apply item_good_sub; rewrite tally_cc_options; rewrite ?map_map; assumption).
    destruct (share_of_any E HE (cx_ext_hash cx) HQ up rnd k (ty_id t) _ Hup Hkg Hi) as (sh & H1 & H2 & H3 & _). exists sh. split; [exact H1|]. split; [exact H3|].
    pose proof (proj1 H2) as Hkey. rewrite Hkey, Hk. split; [reflexivity|]. rewrite <- tally_cc_options. apply (good_entries _ _ _ _ _ Hi H2).
  - intros Hd Ho. assert (Hi : item_good E (map ballot_cc (cb_contests (sb_ballot b)))) by (apply item_good_sub; rewrite ballot_cc_options; rewrite ?map_map; assumption).
    destruct (share_of_any E HE (cx_ext_hash cx) HQ up rnd k (sb_id b) _ Hup Hkg Hi) as (sh & H1 & H2 & H3 & _). exists sh. split; [exact H1|]. split; [exact H3|].
    pose proof (proj1 H2) as Hkey. rewrite Hkey, Hk. split; [reflexivity|]. rewrite <- ballot_cc_options. apply (good_entries _ _ _ _ _ Hi H2).
Qed.
Lemma honest_compensation_verifies : forall E up rnd y present missing coeffs t cx, valid_env E -> 0 <= cx_ext_hash cx < qq E -> (forall c, up c = true) ->
  Forall (fun a => 0 <= a) coeffs -> pk_commitments missing = map (gexp E) coeffs -> y = poly_at coeffs (pk_seq present) mod qq E ->
  tally_distinct t -> subgroup_all E (tally_options t) ->
  exists sh, compute_compensated_share E up rnd y present missing t cx = Some sh /\ csh_guardian sh = pk_owner present /\ csh_missing sh = pk_owner missing /\
    forall cid oid ct, In (cid, oid, ct) (tally_options t) -> exists d, comp_entry sh cid oid = Some d /\ cm_share d = ct_pad ct ^ y mod pp E
      /\ cm_recovery d = compute_recovery_public_key E present missing /\ cp_is_valid E (cm_proof d) ct (cm_recovery d) (cm_share d) (cx_ext_hash cx) = true.
Proof.
  intros E up rnd y present missing coeffs t cx HE HQ Hup Hpos Hm Hy Hd Ho.
  assert (Hi : item_good E (map tally_cc (dvals (ty_contests t)))) by (apply item_good_sub; rewrite tally_cc_options; rewrite ?map_map; assumption).
  assert (Hyr : 0 <= y < qq E) by (pose proof (q_gt_1 E HE); subst y; apply Z.mod_pos_bound; lia).
  destruct (comp_of_ok E HE (cx_ext_hash cx) HQ y present missing coeffs Hyr Hy Hpos Hm rnd (ty_id t) _ Hi) as (sh & H1 & H2 & H3 & H4 & _).
  exists sh. split; [|split; [exact H3|split; [exact H4|]]].
  - unfold compute_compensated_share, comp_of in *. rewrite <- H1.
    assert (H : forall l i d, comp_contests E up rnd y present missing (cx_ext_hash cx) i l d = comp_contests E (fun _ => true) rnd y present missing (cx_ext_hash cx) i l d).
    { induction l as [|c l IH]; intros i d; cbn [comp_contests]; [reflexivity|]. rewrite Hup. destruct comp_for_contest; [apply IH|reflexivity]. }
    rewrite H. reflexivity.
  - intros cid oid ct Hin. rewrite <- tally_cc_options in Hin. destruct (cgood_entries _ _ _ _ _ Hi H2 cid oid ct Hin) as (d & D1 & D2 & D3 & D4).
    exists d. split; [assumption|]. split; [assumption|]. split; [|assumption]. rewrite D3, Hy. symmetry. apply recovery_key; assumption.
Qed.
(** ** soundness *)
Lemma share_extract : forall E E', valid_env E -> same_group E E' -> forall d d' pf pf' ct key ext ext',
  dc_proof d = Some pf -> dc_proof d' = Some pf' -> cp_a pf = cp_a pf' -> cp_b pf = cp_b pf' -> cp_c pf <> cp_c pf' -> dc_share d = dc_share d' ->
  dec_sel_valid E d ct key ext = true -> dec_sel_valid E' d' ct key ext' = true ->
  exists s, 0 <= s < qq E /\ key = gexp E s /\ dc_share d = ct_pad ct ^ s mod pp E.
Proof.
  intros E E' HE HS d d' pf pf' ct key ext ext' H1 H2 Ha Hb Hc Hsh V1 V2. unfold dec_sel_valid in *. rewrite H1 in V1. rewrite H2 in V2.
  destruct (dc_parts d); [discriminate|]. destruct (dc_parts d'); [discriminate|].
  destruct pf as [a b c v], pf' as [a' b' c' v']. cbn [cp_a cp_b cp_c] in *. subst a' b'. rewrite <- Hsh in V2.
  apply (cp_extract E E' HE HS ct key (dc_share d) a b ext ext' c v c' v' V1 V2 Hc).
Qed.

(** ** what a published plaintext rests on *)
Section Checked.
  Variable E : env.
  Hypothesis HE : valid_env E.
  Variables (shares : dict string dec_share) (ext : Z).
  Lemma picked_from id g key d : In (g, (key, d)) (get_shares_for_selection id shares) ->
    exists sh, In sh (dvals shares) /\ sh_guardian sh = g /\ sh_key sh = key /\ In d (share_entries sh) /\ dc_id d = id.
  Proof.
    unfold get_shares_for_selection.
    set (P := fun (e : string * (Z * dec_sel)) => exists sh, In sh (dvals shares) /\ sh_guardian sh = fst e /\ sh_key sh = fst (snd e) /\ In (snd (snd e)) (share_entries sh) /\ dc_id (snd (snd e)) = id).
    assert (H : forall l acc, (forall sh, In sh l -> In sh (dvals shares)) -> (forall e, In e acc -> P e) ->
      forall e, In e (fold_left (fun acc sh => fold_left (fun acc dn => fold_left (fun acc d => if eqb (dc_id d) id then dset (sh_guardian sh) (sh_key sh, d) acc else acc)
        (dvals (dn_selections dn)) acc) (dvals (sh_contests sh)) acc) l acc) -> P e).
    { induction l as [|sh l IH]; intros acc Hin Hacc; cbn [fold_left]; [exact Hacc|]. apply IH; [intros; apply Hin; right; assumption|].
      assert (Hsh : In sh (dvals shares)) by (apply Hin; left; reflexivity).
      assert (H1 : forall dns acc, (forall dn, In dn dns -> In dn (dvals (sh_contests sh))) -> (forall e, In e acc -> P e) ->
        forall e, In e (fold_left (fun acc dn => fold_left (fun acc d => if eqb (dc_id d) id then dset (sh_guardian sh) (sh_key sh, d) acc else acc) (dvals (dn_selections dn)) acc) dns acc) -> P e).
      { induction dns as [|dn dns IHd]; intros acc' Hdn Hacc'; cbn [fold_left]; [exact Hacc'|]. apply IHd; [intros; apply Hdn; right; assumption|].
        assert (Hdn' : In dn (dvals (sh_contests sh))) by (apply Hdn; left; reflexivity).
        assert (H2 : forall ds acc, (forall d, In d ds -> In d (dvals (dn_selections dn))) -> (forall e, In e acc -> P e) ->
          forall e, In e (fold_left (fun acc d => if eqb (dc_id d) id then dset (sh_guardian sh) (sh_key sh, d) acc else acc) ds acc) -> P e).
        { induction ds as [|d0 ds IHs]; intros acc2 Hds Hacc2; cbn [fold_left]; [exact Hacc2|]. apply IHs; [intros; apply Hds; right; assumption|].
          eqb_cases (dc_id d0) id; [|exact Hacc2]. intros [g0 [k0 d1]] He. apply MediatorFacts.dset_in in He. destruct He as [[-> He]|He]; [|apply Hacc2; assumption].
          inversion He; subst. exists sh. cbn [fst snd]. repeat split; auto. unfold share_entries. apply in_flat_map. exists dn. split; [assumption|]. apply Hds. left; reflexivity. }
        apply H2; auto. }
      apply H1; auto. }
    intros Hin. destruct (H (dvals shares) [] (fun _ H => H) (fun e (He : In e []) => match He with end) _ Hin) as (sh & H1 & H2 & H3 & H4 & H5). exists sh. auto.
  Qed.
  Definition backed (ct : ciphertext) (oid : string) (ps : plain_sel) : Prop :=
    pl_id ps = oid /\ pl_message ps = ct /\
    Forall (fun d => dc_id d = oid /\ exists sh, In sh (dvals shares) /\ In d (share_entries sh) /\ dec_sel_valid E d ct (sh_key sh) ext = true) (pl_shares ps) /\
    0 <= pl_tally ps <= Z.max 0 (dmax E) /\ pl_value ps = gexp E (pl_tally ps) /\
    (gexp E (pl_tally ps) * prodZ (map dc_share (pl_shares ps))) mod pp E = ct_data ct mod pp E.
  Lemma decrypt_selection_backed s ps : decrypt_selection_shares E s (get_shares_for_selection (fst s) shares) ext = Ok (Some ps) -> backed (snd s) (fst s) ps.
  Proof.
    unfold decrypt_selection_shares. set (l := get_shares_for_selection (fst s) shares).
    destruct (forallb (fun kd => dec_sel_valid E (snd kd) (snd s) (fst kd) ext) (dvals l)) eqn:Hv; cbn [negb]; [|discriminate].
    destruct (div_p E (ct_data (snd s)) (mult_p E (map (fun kd => dc_share (snd kd)) (dvals l)))) as [value|] eqn:Hd; [|discriminate]. cbn [rbind].
    destruct (dlog E value) as [t|] eqn:Ht; [|discriminate]. cbn [rbind]. intros H. inversion H; subst ps. unfold backed; cbn [pl_id pl_message pl_shares pl_tally pl_value].
    split; [reflexivity|]. split; [reflexivity|]. apply (dlog_ok E HE) in Ht. destruct Ht as (T1 & T2 & _).
    split; [|split; [exact T1|]].
    - apply Forall_forall. intros d Hin. unfold dvals in Hin. rewrite map_map in Hin. apply in_map_iff in Hin. destruct Hin as ([g [key d']] & He & Hin). cbn in He. subst d'.
      destruct (picked_from _ _ _ _ Hin) as (sh & S1 & S2 & S3 & S4 & S5). split; [assumption|]. exists sh. split; [assumption|]. split; [assumption|]. rewrite S3.
      rewrite forallb_forall in Hv. apply (Hv (key, d)). unfold dvals. apply in_map_iff. exists (g, (key, d)). auto.
    - assert (Hval : value = gexp E t) by (symmetry; exact T2). split; [exact Hval|]. rewrite <- Hval.

      set (sl := map snd (dvals l)) in *. 
      assert (Hm : mult_p E (map (fun kd => dc_share (snd kd)) (dvals l)) = prodZ (map dc_share sl) mod pp E).
      { unfold sl. rewrite map_map. apply (mult_p_eq E HE). }
      rewrite Hm in Hd. pose proof (p_gt_1 E HE) as Hp.
      destruct (inverse_and_division E HE (ct_data (snd s)) (prodZ (map dc_share sl) mod pp E)) as [D1 D2].
      destruct (Z.eq_dec ((prodZ (map dc_share sl) mod pp E) mod pp E) 0) as [Hz|Hnz].
      + destruct (D2 Hz) as [_ D]. rewrite D in Hd. discriminate.
      + destruct (D1 Hnz) as [_ (v & V1 & V2 & V3)]. rewrite V1 in Hd. inversion Hd; subst v. rewrite <- Zmult_mod_idemp_r. exact V3.
  Qed.
  Lemma decrypt_selections_backed ids remove : forall ss d r, (forall oid ps, dget oid d = Some ps -> exists ct, backed ct oid ps) ->
    decrypt_selections_shares E shares ext ids remove ss d = Ok (Some r) ->
    forall oid ps, dget oid r = Some ps -> dget oid d = Some ps \/ exists ct, In (oid, ct) ss /\ backed ct oid ps.
  Proof.
    induction ss as [|s ss IH]; intros d r Hd Hr oid ps Hp; cbn [decrypt_selections_shares] in Hr; [inversion Hr; subst; auto|].
    destruct (negb (inb (fst s) ids) && remove).
    - destruct (IH d r Hd Hr oid ps Hp) as [H|(ct & H1 & H2)]; [auto|]. right. exists ct. split; [right; assumption|assumption].
    - destruct (decrypt_selection_shares E s (get_shares_for_selection (fst s) shares) ext) as [o|] eqn:Ho; [|discriminate]. cbn [rbind] in Hr.
      destruct o as [p|]; [|discriminate]. pose proof (decrypt_selection_backed s p Ho) as Hbk.
      destruct (IH (dset (pl_id p) p d) r) with (oid := oid) (ps := ps) as [H|(ct & H1 & H2)]; auto.
      + intros o q. rewrite dget_dset. eqb_cases o (pl_id p); [|apply Hd]. intros Hq; inversion Hq; subst. exists (snd s). pose proof (proj1 Hbk) as Hid. rewrite Hid. exact Hbk.
      + rewrite dget_dset in H. eqb_cases oid (pl_id p); [|auto]. inversion H; subst p. right. exists (snd s). pose proof (proj1 Hbk) as Hid. rewrite Heq, Hid.
        split; [left; destruct s; reflexivity|exact Hbk].
      + right. exists ct. split; [right; assumption|assumption].
  Qed.
  Lemma decrypt_contests_backed descs remove : forall cs d r, decrypt_contests_shares E shares ext descs remove cs d = Ok (Some r) ->
    forall cid pc, dget cid r = Some pc -> dget cid d = Some pc \/
      exists c, In c cs /\ cc_id c = cid /\ forall oid ps, dget oid (pn_selections pc) = Some ps -> exists ct, In (oid, ct) (cc_selections c) /\ backed ct oid ps.
  Proof.
    induction cs as [|c cs IH]; intros d r Hr cid pc Hp; cbn [decrypt_contests_shares] in Hr; [inversion Hr; subst; auto|].
    destruct (dget (cc_id c) descs) as [desc|].
    - destruct (decrypt_contest_shares E c shares ext desc remove) as [o|] eqn:Ho; [|discriminate]. cbn [rbind] in Hr. destruct o as [p|]; [|discriminate].
      destruct (IH _ _ Hr cid pc Hp) as [H|(c' & H1 & H2)]; [|right; exists c'; split; [right; assumption|assumption]].
      rewrite dget_dset in H. eqb_cases cid (cc_id c); [|auto]. inversion H; subst p. right. exists c. split; [left; reflexivity|]. split; [symmetry; assumption|].
      intros oid ps Hs. unfold decrypt_contest_shares in Ho.
      destruct (decrypt_selections_shares E shares ext (map sd_id (cd_selections desc)) remove (cc_selections c) []) as [o|] eqn:Hx; [|discriminate]. cbn [rbind] in Ho.
      destruct o as [sd|]; [|discriminate]. inversion Ho; subst pc. cbn [pn_selections] in Hs.
      destruct (decrypt_selections_backed (map sd_id (cd_selections desc)) remove (cc_selections c) [] sd) with (oid := oid) (ps := ps) as [H'|H']; auto; [intros ? ? H'; discriminate|discriminate].
    - destruct (IH _ _ Hr cid pc Hp) as [H|(c' & H1 & H2)]; [auto|right; exists c'; split; [right; assumption|assumption]].
  Qed.
  Lemma decrypt_shares_backed id cs mf remove p cid oid ps : decrypt_shares E id cs shares ext mf remove = Ok (Some p) -> shown p cid oid ps ->
    exists ct, In (cid, oid, ct) (cc_options cs) /\ backed ct oid ps.
  Proof.
    unfold decrypt_shares. intros H (pc & H1 & H2).
    destruct (decrypt_contests_shares E shares ext (dict_of (map (fun d => (cd_id d, d)) (mf_contests mf))) remove cs []) as [o|] eqn:Ho; [|discriminate]. cbn [rbind] in H.
    destruct o as [d|]; [|discriminate]. inversion H; subst p. cbn [pt_contests] in H1.
    destruct (decrypt_contests_backed _ _ _ _ _ Ho cid pc H1) as [Hx|(c & Hc & Hcid & Hb)]; [discriminate|].
    destruct (Hb oid ps H2) as (ct & Hin & Hbk). exists ct. split; [apply options_in; eauto|exact Hbk].
  Qed.
End Checked.
Lemma tally_backed : forall E m t mf p cid oid ps, valid_env E -> dm_plaintext_tally E m t mf = Ok (Some p) -> shown p cid oid ps ->
  exists ct, In (cid, oid, ct) (tally_options t) /\ pl_message ps = ct /\
    Forall (fun d => dc_id d = oid /\ exists sh, In sh (dvals (dm_tally m)) /\ In d (share_entries sh) /\ dec_sel_valid E d ct (sh_key sh) (cx_ext_hash (dm_context m)) = true) (pl_shares ps) /\
    0 <= pl_tally ps <= Z.max 0 (dmax E) /\ (gexp E (pl_tally ps) * prodZ (map dc_share (pl_shares ps))) mod pp E = ct_data ct mod pp E.
Proof.
  intros E m t mf p cid oid ps HE H Hs. unfold dm_plaintext_tally in H. destruct (negb (announcement_complete m) || negb (ready_to_decrypt m (dm_tally m))); [discriminate|].
  destruct (decrypt_shares_backed E HE _ _ _ _ _ _ _ _ _ _ H Hs) as (ct & Hin & B1 & B2 & B3 & B4 & B5 & B6). rewrite tally_cc_options in Hin. exists ct. auto.
Qed.

(** ** after an honest ceremony everybody is ready *)
Lemma ceremony_ready : forall E rnd k ss mid, valid_env E -> hmac_32 E -> qq E <= 2 ^ 1024 -> good_seats E k ss -> (forall a b, 0 <= rnd a b) ->
  exists gs gs' m,
    rmapM (fun s => guardian_from_nonce E (st_id s) (st_seq s) (len ss) (Z.of_nat k) (st_draws s)) ss = Ok gs
    /\ full_ceremony E rnd gs (new_mediator mid (mkDetails (len ss) (Z.of_nat k))) = Ok (gs', m)
    /\ md_publish_joint_key E m = Some (mkJoint (gexp E (sumZ (map st_secret ss)))
         (hash_elems E [HList (map HElem (flat_map (fun s => map (gexp E) (st_secrets s)) ss))]))
    /\ Forall2 (ready_guardian E ss) ss gs' /\ Forall2 (key_of E) ss (map share_key gs').
Proof.
  intros E rnd k ss mid HE Hm Hq Hg Hr. destruct (honest_ceremony E rnd k ss mid HE Hm Hq Hg Hr) as (gs & gs' & m & H1 & H2 & _ & H4 & H5).
  exists gs, gs', m. do 3 (split; [assumption|]).
  assert (H : Forall2 (ready_guardian E ss) ss gs').
  { eapply Forall2_impl'; [|exact H5]. cbn beta. intros s g Hin _ Hs.
    destruct Hs as (G1' & G2 & G3 & _ & _ & Gs & G5).
    assert (Hall : forall r, In r ss -> exists k, dget (st_id r) (gd_pubkeys g) = Some k /\ key_of E r k).
    { intros r Hir. destruct (G5 r Hir) as (pk & K1 & K2 & K3 & K4 & K5 & _). exists pk. split; [assumption|]. unfold key_of. auto. }
    constructor; [|assumption|assumption|].
    - destruct (Hall s Hin) as (pk & K1 & K2). rewrite Gs in K1. inversion K1; subst pk. exact K2.
    - intros r Hir Hne. destruct (G5 r Hir) as (pk & _ & _ & _ & _ & _ & Hb). apply Hb. assumption. }
  split; [exact H|]. clear - H. induction H as [|s g l gl Hs _ IH]; cbn [map]; constructor; [apply Hs|assumption].
Qed.
(** the same value comes out of decrypting with the joint secret *)
Lemma joint_secret_same : forall E s l M cid oid ct, valid_env E -> 0 <= s -> encrypts_all E (gexp E s) l M -> In (cid, oid, ct) l ->
  elgamal_decrypt E ct s = Ok (M cid oid).
Proof.
  intros E s l M cid oid ct HE Hs He Hin. destruct (He cid oid ct Hin) as ((r & Hr & Ha & Hb) & Hm & Hd).
  assert (Hct : ct = ct_of E (G1 E s) r (M cid oid)).
  { rewrite <- (gexp_G1 E HE s Hs). apply (ct_of_spec E HE); try lia; [apply (gexp_subgroup E HE); assumption|split; assumption]. }
  rewrite Hct. rewrite (decrypt_form E HE) by assumption. apply (dlog_G1 E HE); lia.
Qed.
