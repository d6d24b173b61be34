(** * The theorems on decryption with a quorum of guardians. *)
From Verif Require Import Base Group Codec Hash ElGamal ZK Poly Spec ListFacts GroupFacts ZKFacts PolyFacts ElGamalFacts CryptoThms Manifest Ballot Box Tally
  Ceremony SpecCeremony CeremonyFacts Shares SpecShares SharesFacts ShareRun.
From Coq Require Import Permutation List.

(** ** from the options to the internal form *)
Definition cc_options (cs : list cipher_contest) : list option_entry := flat_map (fun c => map (fun s => (cc_id c, fst s, snd s)) (cc_selections c)) cs.
Lemma tally_cc_options t : cc_options (map tally_cc (dvals (ty_contests t))) = tally_options t.
Proof. unfold cc_options, tally_options. rewrite flat_map_map. apply flat_map_ext. intros c. cbn. rewrite map_map. reflexivity. Qed.
Lemma ballot_cc_options b : cc_options (map ballot_cc (cb_contests b)) = ballot_options b.
Proof. unfold cc_options, ballot_options. rewrite flat_map_map. apply flat_map_ext. intros c. cbn. rewrite map_map. reflexivity. Qed.
Lemma options_in cs cid oid ct : In (cid, oid, ct) (cc_options cs) <-> exists c, In c cs /\ cc_id c = cid /\ In (oid, ct) (cc_selections c).
Proof.
  unfold cc_options. rewrite in_flat_map. split.
  - intros (c & Hc & H). apply in_map_iff in H. destruct H as ([o x] & He & Hs). inversion He; subst. exists c. auto.
  - intros (c & Hc & He & Hs). exists c. split; [assumption|]. apply in_map_iff. exists (oid, ct). subst. auto.
Qed.
Lemma options_ids cs : map (fun o => snd (fst o)) (cc_options cs) = sel_ids cs.
Proof.
  unfold cc_options, sel_ids. rewrite !flat_map_concat_map, !concat_map, !map_map. f_equal. apply map_ext. intros c. rewrite map_map. reflexivity.
Qed.

Section Conv.
  Variable E : env.
  Hypothesis HE : valid_env E.
  Variable Q : Z.
  Hypothesis HQ : 0 <= Q < qq E.
  Lemma item_good_of K cs M : in_subgroup E K -> distinct_options (map cc_id cs) (cc_options cs) -> encrypts_all E K (cc_options cs) M -> item_good E cs.
  Proof.
    intros HK [H1 H2] He. constructor; [assumption|rewrite <- options_ids; assumption|].
    intros [oid ct] Hs. apply in_flat_map in Hs. destruct Hs as (c & Hc & Hs). cbn [snd].
    destruct (He (cc_id c) oid ct) as ((r & Hr & Hen) & Hm & _); [apply options_in; eauto|].
    apply (ct_of_spec E HE) in Hen; [|assumption|assumption|lia]. subst ct. unfold ct_good, ct_of; cbn [ct_pad ct_data].
    split; [apply G1_resid; assumption|]. apply (mult_resid E HE); [apply G1_resid; assumption|apply GX_resid; assumption].
  Qed.
  Lemma shows_of cs xs mf M p : item_good E cs -> NoDup (map cd_id (mf_contests mf)) ->
    Forall2 (con_plain E Q xs true (dict_of (map (fun d => (cd_id d, d)) (mf_contests mf))) M)
      (filter (fun c => dmem (cc_id c) (dict_of (map (fun d => (cd_id d, d)) (mf_contests mf)))) cs) (pt_contests p) ->
    shows p mf (cc_options cs) M.
  Proof.
    intros Hi Hmf. set (descs := dict_of (map (fun d => (cd_id d, d)) (mf_contests mf))).
    assert (Hdn : NoDup (dkeys (map (fun d => (cd_id d, d)) (mf_contests mf)))) by (unfold dkeys; rewrite map_map; exact Hmf).
    assert (Hdescs : descs = map (fun d => (cd_id d, d)) (mf_contests mf)) by (apply dict_of_distinct; exact Hdn).
    assert (Hd : forall cid d, dget cid descs = Some d <-> In d (mf_contests mf) /\ cd_id d = cid).
    { intros cid d. rewrite Hdescs. split.
      - intros H. apply dget_in in H. apply in_map_iff in H. destruct H as (d' & He & Hin). inversion He; subst. auto.
      - intros [H1 H2]. apply in_dget; [exact Hdn|]. apply in_map_iff. exists d. subst; auto. }
    clearbody descs. intros HF.
    assert (Hk : dkeys (pt_contests p) = map cc_id (filter (fun c => dmem (cc_id c) descs) cs)).
    { apply (F2_keys cc_id _ _ _ HF). intros c kp (H & _). exact H. }
    assert (Hn : NoDup (dkeys (pt_contests p))) by (rewrite Hk; apply NoDup_map_filter; apply Hi).
    intros cid oid v. unfold count_of. split.
    - destruct (dget cid (pt_contests p)) as [pc|] eqn:Hc; [|discriminate]. destruct (dget oid (pn_selections pc)) as [ps|] eqn:Hs; [|discriminate].
      intros Hv. inversion Hv; subst v. apply dget_in in Hc. destruct (Forall2_in_r _ _ _ _ HF Hc) as (c & Hcin & C1 & C2 & desc & Hdesc & HS).
      cbn [fst snd] in *. apply filter_In in Hcin. destruct Hcin as [Hcin _]. apply dget_in in Hs.
      destruct (Forall2_in_r _ _ _ _ HS Hs) as ([o ct] & Hoin & S1 & S2 & S3 & _). cbn [fst snd] in *. subst cid o.
      unfold kept_sels in Hoin. apply filter_In in Hoin. destruct Hoin as [Hoin Hin]. cbn [fst] in Hin.
      rewrite andb_true_r, negb_involutive in Hin. apply inb_spec in Hin. apply in_map_iff in Hin. destruct Hin as (sd & Hsd & Hsdin).
      apply Hd in Hdesc. destruct Hdesc as [Hd1 Hd2].
      split; [exists ct; apply options_in; eauto|]. split; [exists desc, sd; auto|exact S3].
    - intros ((ct & Hct) & (desc & sd & Hd1 & Hd2 & Hsd1 & Hsd2) & Hv). apply options_in in Hct. destruct Hct as (c & Hcin & Hcid & Hsin).
      assert (Hdg : dget cid descs = Some desc) by (apply Hd; auto).
      assert (Hcf : In c (filter (fun c => dmem (cc_id c) descs) cs)).
      { apply filter_In. split; [assumption|]. unfold dmem. rewrite Hcid, Hdg. reflexivity. }
      destruct (Forall2_in_l _ _ _ _ HF Hcf) as ([cid' pc] & Hpin & C1 & C2 & desc' & Hdesc' & HS). cbn [fst snd] in *.
      rewrite Hcid in C1. subst cid'. rewrite (in_dget cid pc _ Hn Hpin). rewrite Hcid, Hdg in Hdesc'. inversion Hdesc'; subst desc'.
      assert (Hkept : In (oid, ct) (kept_sels true (map sd_id (cd_selections desc)) (cc_selections c))).
      { unfold kept_sels. apply filter_In. split; [assumption|]. cbn [fst]. rewrite andb_true_r, negb_involutive. apply inb_spec. apply in_map_iff. eauto. }
      destruct (Forall2_in_l _ _ _ _ HS Hkept) as ([oid' ps] & Hps & S1 & S2 & S3 & _). cbn [fst snd] in *. subst oid'.
      assert (Hns : NoDup (dkeys (pn_selections pc))).
      { rewrite (F2_keys fst _ _ _ HS) by (intros a kp (H & _); exact H). apply NoDup_map_filter. apply (item_con E cs c Hi Hcin). }
      rewrite (in_dget oid ps _ Hns Hps). rewrite S3, Hv, Hcid. reflexivity.
  Qed.
End Conv.

(** ** seats *)
Lemma seats_hss E k ss : good_seats E k ss -> forall s, In s ss ->
  0 <= st_secret s < qq E /\ Forall (fun a => 0 <= a < qq E) (st_secrets s) /\ (length (st_secrets s) <= k)%nat /\ poly_at (st_secrets s) 0 = st_secret s.
Proof.
  intros [_ _ Hk Hd _] s Hs. rewrite Forall_forall in Hd. destruct (Hd s Hs) as [Hl Hf].
  assert (Hl' : length (st_secrets s) = k) by (unfold st_secrets; rewrite map_length; assumption).
  split; [|split; [assumption|split; [lia|]]].
  - unfold st_secret. destruct (st_secrets s) as [|a l]; [cbn in Hl'; lia|]. inversion Hf; subst. assumption.
  - unfold st_secret. destruct (st_secrets s); [reflexivity|]. apply poly_at_0.
Qed.
Lemma seqs_mod E k ss av : good_seats E k ss -> NoDup (map st_seq ss) -> NoDup (map st_id av) -> (forall s, In s av -> In s ss) ->
  NoDup (map (fun s => st_seq s mod qq E) av).
Proof.
  intros [_ _ _ _ Hr] Hs Ha Hin. rewrite Forall_forall in Hr.
  assert (H : NoDup (map st_seq av)).
  { clear Hr. induction av as [|s av IH]; [constructor|]. cbn [map] in *. inversion Ha as [|? ? Hn Hl]; subst. constructor.
    - intros H. apply in_map_iff in H. destruct H as (s' & He & Hs'). apply Hn. replace s with s'; [apply in_map; assumption|].
      apply (NoDup_inj st_seq ss); auto; apply Hin; [right; assumption|left; reflexivity].
    - apply IH; [assumption|]. intros; apply Hin; right; assumption. }
  replace (map (fun s => st_seq s mod qq E) av) with (map st_seq av); [assumption|]. apply map_ext_in. intros s Hin'.
  destruct (Hr s (Hin s Hin')) as [Hx _]. symmetry. apply Z.mod_small. assumption.
Qed.
Lemma joint_subgroup E (HE : valid_env E) k ss : good_seats E k ss -> in_subgroup E (gexp E (sumZ (map st_secret ss))).
Proof.
  intros Hg. apply (gexp_subgroup E HE). apply sumZ_nonneg. apply Forall_forall. intros x Hx. apply in_map_iff in Hx. destruct Hx as (s & <- & Hs).
  destruct (seats_hss E k ss Hg s Hs) as [H _]. lia.
Qed.
Lemma all_open_of E (HE : valid_env E) ss cs M : encrypts_all E (gexp E (sumZ (map st_secret ss))) (cc_options cs) M -> all_open E ss cs M.
Proof.
  intros H c [o ct] Hc Hs. cbn [fst snd]. destruct (H (cc_id c) o ct) as [H1 H2]; [apply options_in; eauto|]. split; [|assumption].
  unfold opens_to, joint. replace (sumZ [sumZ (map st_secret ss)]) with (sumZ (map st_secret ss)); [assumption|]. unfold sumZ; cbn; lia.
Qed.

(** everything together *)
Lemma right_of E Q cs s sh : item_good E cs -> sh_guardian sh = st_id s -> good_share E Q (st_secret s) cs sh -> right_share E s (cc_options cs) sh.
Proof.
  intros Hi Hg [Hk HF]. split; [assumption|]. split; [assumption|]. intros cid oid ct Hin. apply options_in in Hin. destruct Hin as (c & Hc & <- & Hs).
  unfold share_value. destruct (Forall2_in_l _ _ _ c HF Hc) as ([cid' dn] & Hd & C1 & CS). cbn [fst snd] in *. subst cid'.
  assert (Hkc : dkeys (sh_contests sh) = map cc_id cs) by (apply (F2_keys cc_id _ _ _ HF); intros a kv (H & _); exact H).
  rewrite (in_dget (cc_id c) dn) by (try assumption; rewrite Hkc; apply Hi).
  destruct (Forall2_in_l _ _ _ (oid, ct) CS Hs) as ([oid' d] & Hdd & S1 & S2 & S3 & _). cbn [fst snd] in *. subst oid'.
  assert (Hks : dkeys (dn_selections dn) = map fst (cc_selections c)) by (apply (F2_keys fst _ _ _ CS); intros a kv (H & _); exact H).
  rewrite (in_dget oid d) by (try assumption; rewrite Hks; apply (item_con E cs c Hi Hc)). rewrite S3. reflexivity.
Qed.
Lemma table_right E cx cs ss al (d : dict string dec_share) : item_good E cs -> NoDup (map st_id ss) -> Permutation al ss -> Forall2 (entry E cx cs) al d ->
  forall s, In s ss -> exists sh, dget (st_id s) d = Some sh /\ right_share E s (cc_options cs) sh.
Proof.
  intros Hi Hnd Hp HF s Hs. assert (Hal : In s al) by (apply (Permutation_in s (Permutation_sym Hp)); assumption).
  destruct (Forall2_in_l _ _ _ s HF Hal) as ([id sh] & Hin & H1 & H2 & H3). cbn [fst snd] in *. subst id.
  exists sh. split; [|apply (right_of E (cx_ext_hash cx)); assumption]. apply in_dget; [|assumption].
  rewrite (F2_keys st_id _ _ _ HF) by (intros a kv (H & _); exact H). apply (Permutation_NoDup (Permutation_map st_id (Permutation_sym Hp))). assumption.
Qed.
Lemma final_decrypts E (HE : valid_env E) k ss cx t bs av al m mf M MB : good_seats E k ss -> 0 <= cx_ext_hash cx < qq E ->
  cx_guardians cx = len ss -> cx_quorum cx <= len av -> (forall s, In s av -> In s ss) -> NoDup (map st_id av) -> ss <> [] ->
  item_good E (map tally_cc (dvals (ty_contests t))) -> (forall b, In b bs -> item_good E (map ballot_cc (cb_contests (sb_ballot b)))) ->
  NoDup (map cd_id (mf_contests mf)) -> encrypts_all E (gexp E (sumZ (map st_secret ss))) (tally_options t) M -> NoDup (map sb_id bs) ->
  (forall b, In b bs -> encrypts_all E (gexp E (sumZ (map st_secret ss))) (ballot_options (sb_ballot b)) (MB (sb_id b))) ->
  final E ss cx t bs av al m -> Permutation al ss -> decrypts E m t bs mf M MB /\ has_all_shares E ss m t bs.
Proof.
  intros Hseats HQ Hn Hcq Hav Havi Hne Ht Hb Hmf Hte Hbn Hbs Hfin Hperm.
  pose proof (seats_hss E k ss Hseats) as Hss. assert (Hnd : NoDup (map st_id ss)) by apply Hseats.
  split; [split|split].
  - destruct (plaintext_tally_ok E HE k ss Hss Hnd cx t Ht bs av Hav Havi Hn Hcq mf _ m M Hfin Hperm) as (p & Hp1 & Hp2 & Hp3).
    { apply (all_open_of E HE). rewrite tally_cc_options. assumption. }
    exists p. split; [exact Hp1|]. split; [exact Hp2|]. rewrite <- tally_cc_options. apply (shows_of E _ _ _ _ _ _ Ht Hmf Hp3).
  - destruct (plaintext_ballots_ok E HE k ss Hss Hnd cx t bs Hb Hbn av Hav Havi Hn Hcq mf _ m (fun b => MB (sb_id b)) Hfin Hperm) as (ps & Hp1 & Hp2).
    { intros b Hbb. apply (all_open_of E HE). rewrite ballot_cc_options. apply Hbs. assumption. }
    { assumption. }
    assert (Hkeys' : dkeys ps = map sb_id bs) by (apply (F2_keys sb_id _ _ _ Hp2); intros b kp (H & _); exact H).
    exists ps. split; [exact Hp1|]. split; [exact Hkeys'|]. intros b Hbb.
    destruct (Forall2_in_l _ _ _ b Hp2 Hbb) as ([id p] & Hin & H1 & H2 & H3). cbn [fst snd] in *. subst id.
    exists p. split; [apply in_dget; [rewrite Hkeys'; assumption|assumption]|]. split; [exact H2|].
    rewrite <- ballot_cc_options. apply (shows_of E _ _ _ _ _ _ (Hb b Hbb) Hmf H3).
  - rewrite <- tally_cc_options. apply (table_right E cx _ ss al _ Ht Hnd Hperm). apply (fi_tally _ _ _ _ _ _ _ _ Hfin).
  - intros b s Hbb Hs. destruct (fi_ballots _ _ _ _ _ _ _ _ Hfin b Hbb) as (tb & Hg & HF).
    destruct (table_right E cx _ ss al _ (Hb b Hbb) Hnd Hperm HF s Hs) as (sh & H1 & H2). rewrite ballot_cc_options in H2. eauto.
Qed.
Lemma NoDup_ids ss av : NoDup (map st_id ss) -> (forall s, In s av -> In s ss) -> NoDup av -> NoDup (map st_id av).
Proof.
  intros Hnd Hav Havn. induction Havn as [|s av Hs Hl IH]; [constructor|]. cbn [map]. constructor.
  - intros H. apply in_map_iff in H. destruct H as (s' & He & Hs'). apply Hs. replace s with s'; [assumption|].
    apply (NoDup_inj st_id ss); auto; apply Hav; [right; assumption|left; reflexivity].
  - apply IH. intros; apply Hav; right; assumption.
Qed.
Lemma quorum_decrypts : forall E k ss cx t bs up rnd av gs all_keys mid mf M MB, valid_env E -> good_seats E k ss -> NoDup (map st_seq ss) ->
  0 <= cx_ext_hash cx < qq E -> cx_guardians cx = len ss -> cx_quorum cx = Z.of_nat k -> (forall path, up path = true) ->
  (forall s, In s av -> In s ss) -> NoDup av -> (k <= length av)%nat ->
  Forall2 (ready_guardian E ss) av gs -> Forall2 (key_of E) ss all_keys -> NoDup (map cd_id (mf_contests mf)) ->
  tally_distinct t -> encrypts_all E (gexp E (sumZ (map st_secret ss))) (tally_options t) M ->
  NoDup (map sb_id bs) -> (forall b, In b bs -> ballot_distinct (sb_ballot b) /\ encrypts_all E (gexp E (sumZ (map st_secret ss))) (ballot_options (sb_ballot b)) (MB (sb_id b))) ->
  exists m, compensated_setup E up rnd gs all_keys (new_dmediator mid cx) cx t bs = Ok m /\ decrypts E m t bs mf M MB /\ has_all_shares E ss m t bs.
Proof.
  intros E k ss cx t bs up rnd av gs all_keys mid mf M MB HE Hseats Hseq HQ Hn Hq Hup Hav Havn Hk Hgs Hkeys Hmf Htd Hte Hbn Hbs.
  pose proof (seats_hss E k ss Hseats) as Hss. pose proof (joint_subgroup E HE k ss Hseats) as HK.
  assert (Hnd : NoDup (map st_id ss)) by apply Hseats.
  pose proof (NoDup_ids ss av Hnd Hav Havn) as Havi.
  assert (Hne : av <> []) by (intros ->; destruct Hseats as [_ _ Hk0 _ _]; cbn in Hk; lia).
  assert (Hne' : ss <> []) by (destruct av as [|s0 ?]; [contradiction|]; intros ->; destruct (Hav s0); left; reflexivity).
  assert (Ht : item_good E (map tally_cc (dvals (ty_contests t)))).
  { apply (item_good_of E HE _ _ M HK); [|rewrite tally_cc_options; assumption]. rewrite tally_cc_options, map_map. exact Htd. }
  assert (Hb : forall b, In b bs -> item_good E (map ballot_cc (cb_contests (sb_ballot b)))).
  { intros b Hbb. destruct (Hbs b Hbb) as [Hb1 Hb2]. apply (item_good_of E HE _ _ (MB (sb_id b)) HK); [|rewrite ballot_cc_options; assumption].
    rewrite ballot_cc_options, map_map. exact Hb1. }
  assert (Hhold : Forall2 (holder E) av gs) by (revert Hgs; apply F2_impl; intros s g [H1 H2 _ _]; split; assumption).
  destruct (announcement_ok E HE k ss Hss Hnd cx HQ t Ht bs Hb Hbn up Hup rnd av Hav Havi Hne gs Hhold all_keys Hkeys mid) as (m1 & Hm1 & Hset & Hc1 & Hc2).
  pose proof (seqs_mod E k ss av Hseats Hseq Havi Hav) as Hmod.
  destruct (exchange_ok E HE k ss Hss Hnd cx HQ t Ht bs Hb Hbn up Hup rnd av Hav Havi Hne gs Hhold Hgs Hmod Hk m1 Hset Hc1 Hc2) as (m & Hm & Hfin).
  pose proof (av_mi_perm ss Hnd av Hav Havi) as Hperm.
  exists m. unfold compensated_setup. rewrite Hm1. cbn [rbind]. split; [exact Hm|].
  assert (Hcq : cx_quorum cx <= len av) by (rewrite Hq; unfold len; lia).
  apply (final_decrypts E HE k ss cx t bs av (av ++ mi ss av) m mf M MB); auto. intros; apply Hbs; assumption.
Qed.
Lemma all_decrypt : forall E k ss cx t bs up rnd av gs mid mf M MB, valid_env E -> good_seats E k ss -> ss <> [] ->
  0 <= cx_ext_hash cx < qq E -> cx_guardians cx = len ss -> cx_quorum cx <= len ss -> (forall path, up path = true) ->
  Permutation av ss -> Forall2 (holder E) av gs -> NoDup (map cd_id (mf_contests mf)) ->
  tally_distinct t -> encrypts_all E (gexp E (sumZ (map st_secret ss))) (tally_options t) M ->
  NoDup (map sb_id bs) -> (forall b, In b bs -> ballot_distinct (sb_ballot b) /\ encrypts_all E (gexp E (sumZ (map st_secret ss))) (ballot_options (sb_ballot b)) (MB (sb_id b))) ->
  exists m, decryption_setup E up rnd gs (new_dmediator mid cx) cx t bs = Ok m /\ decrypts E m t bs mf M MB /\ has_all_shares E ss m t bs.
Proof.
  intros E k ss cx t bs up rnd av gs mid mf M MB HE Hseats Hne HQ Hn Hq Hup Hav Hhold Hmf Htd Hte Hbn Hbs.
  pose proof (joint_subgroup E HE k ss Hseats) as HK.
  assert (Hss : forall s, In s av -> 0 <= st_secret s < qq E /\ Forall (fun a => 0 <= a < qq E) (st_secrets s) /\ (length (st_secrets s) <= k)%nat /\ poly_at (st_secrets s) 0 = st_secret s).
  { intros s Hs. apply (seats_hss E k ss Hseats). apply (Permutation_in s Hav Hs). }
  assert (Havi : NoDup (map st_id av)) by (apply (Permutation_NoDup (Permutation_map st_id (Permutation_sym Hav))); apply Hseats).
  assert (Ht : item_good E (map tally_cc (dvals (ty_contests t)))).
  { apply (item_good_of E HE _ _ M HK); [|rewrite tally_cc_options; assumption]. rewrite tally_cc_options, map_map. exact Htd. }
  assert (Hb : forall b, In b bs -> item_good E (map ballot_cc (cb_contests (sb_ballot b)))).
  { intros b Hbb. destruct (Hbs b Hbb) as [Hb1 Hb2]. apply (item_good_of E HE _ _ (MB (sb_id b)) HK); [|rewrite ballot_cc_options; assumption].
    rewrite ballot_cc_options, map_map. exact Hb1. }
  assert (Hne' : av <> []) by (intros ->; apply Permutation_nil in Hav; contradiction).
  assert (Hkeys : Forall2 (key_of E) av (map share_key gs)) by (apply Forall2_map_r; revert Hhold; apply F2_impl; intros s g [H _]; exact H).
  destruct (announcement_ok E HE k av Hss Havi cx HQ t Ht bs Hb Hbn up Hup rnd av (fun _ H => H) Havi Hne' gs Hhold _ Hkeys mid) as (m & Hm & Hset & _ & _).
  assert (Hmi : forall l, (forall s, In s av -> In s l) -> NoDup (map st_id l) -> (forall s, In s l -> In s av) -> mi l av = []).
  { intros l _ _ Hl. destruct (mi l av) as [|s l'] eqn:He; [reflexivity|]. exfalso. assert (Hin : In s (mi l av)) by (rewrite He; left; reflexivity).
    apply mi_in in Hin. destruct Hin as [H1 H2]. apply H2. apply in_map. apply Hl. assumption. }
  assert (Hmi1 : mi av av = []) by (apply Hmi; auto).
  assert (Hmi2 : mi ss av = []).
  { apply Hmi; [intros s Hs; apply (Permutation_in s Hav Hs)|apply Hseats|intros s Hs; apply (Permutation_in s (Permutation_sym Hav) Hs)]. }
  exists m. split; [exact Hm|].
  assert (Hfin : final E ss cx t bs av av m).
  { destruct Hset as [S1 S2 S3 S4 S5]. constructor; try assumption. rewrite Hmi2. rewrite Hmi1 in S3. exact S3. }
  apply (final_decrypts E HE k ss cx t bs av av m mf M MB); auto.
  - unfold len. rewrite (Permutation_length Hav). exact Hq.
  - intros s Hs. apply (Permutation_in s Hav Hs).
  - intros; apply Hbs; assumption.
Qed.
