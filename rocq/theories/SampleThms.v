(** * SampleThms: sample elections. *)
From Coq Require Import Permutation List Lia.
From Verif Require Import Base Group Codec Hash DLog ElGamal ZK Poly Manifest Ballot Encrypt Box Tally Spec SpecElection SpecTally
  ListFacts GroupFacts ZKFacts CryptoThms ManifestThms EncryptFacts BallotFacts EncryptThms TallyFacts TallyThms TallyMore BoxFacts
  Ceremony SpecCeremony Shares SpecShares SharesFacts ShareRun SharesThms SharesMore Verify SpecVerify VerifyFacts SpecEndToEnd EndToEnd
  GuiDecrypt GuiDecPure GuiElection Cli SpecCli CliDec CliRun CliE2e Mark SpecMark MarkFacts MarkThms SampleGen SpecSample AccFacts SampleFacts.
Local Open Scope Z_scope.
Local Open Scope list_scope.

Lemma F2_firstn {A B} (P : A -> B -> Prop) l l' : Forall2 P l l' -> forall n, Forall2 P (firstn n l) (firstn n l').
Proof. intros HF. induction HF as [|x y l l' H HF IH]; intros [|n]; cbn [firstn]; constructor; auto. Qed.
Lemma firstn_incl {A} n (l : list A) x : In x (firstn n l) -> In x l.
Proof. revert n. induction l as [|y l IH]; intros [|n] H; cbn [firstn] in H; try contradiction. destruct H as [->|H]; [left; reflexivity|right; eapply IH, H]. Qed.
Lemma firstn_nodup {A} n (l : list A) : NoDup l -> NoDup (firstn n l).
Proof. revert n. induction l as [|y l IH]; intros [|n] H; cbn [firstn]; try constructor; inversion H as [|? ? N1 N2]; subst; [intros Hi; apply N1, (firstn_incl n), Hi|apply IH, N2]. Qed.

Section Sample.
  Context (E : env) (HE : valid_env E) (Hh : hmac_32 E) (Hq : qq E <= 2 ^ 1024) (ch : chance) (HF : fair E ch) (Hfit : seats_fit E sample_guardians sample_quorum).
  Context (m : manifest) (im : internal_manifest) (Hv : manifest_is_valid m = true) (Hm : make_internal E m = Ok im) (Hdist : distinct_option_ids im).
  Notation ss := (seats_at ch sample_guardians sample_quorum).
  Notation kn := (Z.to_nat sample_quorum).
  Lemma sample_ceremony : exists gs cx, sample_election E ch m = Ok (gs, (im, cx)) /\ Forall2 (ready_guardian E ss) ss gs /\ Forall2 (key_of E) ss (map share_key gs) /\ Forall (fun g => good_published E sample_quorum (guardian_publish g)) gs /\
    0 <= cx_ext_hash cx < qq E /\ cx_guardians cx = 5 /\ cx_quorum cx = 3 /\ cx_key cx = gexp E (sumZ (map st_secret ss)).
  Proof using HE Hh Hq HF Hfit Hv Hm.
    destruct (ceremony_ready E (ch_backup ch) kn ss "key-ceremony-mediator" HE Hh Hq (seats_good E ch HF _ _ Hfit) (fa_backup E ch HF)) as (gs & gs' & md & R1 & R2 & R3 & R4 & R5).
    rewrite (seats_len E ch _ _ Hfit) in *. change (Z.of_nat kn) with sample_quorum in *.
    assert (Hc : create_guardians E ch sample_guardians sample_quorum = Ok gs). { rewrite <- R1. unfold create_guardians, seats_at. rewrite rmapM_map. reflexivity. }
    destruct (guardians_made E HE Hh Hq ch HF _ _ Hfit) as (gs1 & gs1' & j & G1 & G2 & _ & _ & G5). assert (gs1 = gs) by congruence. subst gs1.
    assert (Hkeys : map gd_keys gs' = map gd_keys gs1').
    { rewrite (ceremony_keys _ _ _ _ _ _ R2). symmetry. clear -G2. unfold run_key_ceremony in G2. destruct gs as [|g l]; [discriminate|]. destruct (full_ceremony _ _ _ _) as [[a b]|] eqn:Hf; cbn [rbind] in G2; [|discriminate].
      cbn [snd fst] in G2. match type of G2 with rbind ?e _ = _ => destruct e as [jj|]; cbn [rbind] in G2; [|discriminate] end. injection G2 as <- _. exact (ceremony_keys _ _ _ _ _ _ Hf). }
    exists gs'. eexists. split; [|split; [exact R4|split; [exact R5|split]]].
    - unfold sample_election. rewrite Hc. cbn [rbind]. rewrite R2. cbn [rbind snd fst]. rewrite R3. cbn [rbind get_optional]. rewrite (built E _ _ m im _ Hm Hv). cbn [rbind]. reflexivity.
    - apply Forall_forall. intros g Hg. apply (in_map gd_keys) in Hg. rewrite Hkeys in Hg. apply in_map_iff in Hg as (g1 & Hk & Hg). rewrite Forall_forall in G5. specialize (G5 g1 Hg). unfold guardian_publish, share_key in *. rewrite <- Hk. exact G5.
    - split; [apply (ZKFacts.hash_range E HE)|repeat split].
  Qed.
  Definition present (all : bool) : list seat := if all then ss else firstn kn ss.

  Context (cx : context) (gs : list guardian) (Hready : Forall2 (ready_guardian E ss) ss gs) (Hkeys : Forall2 (key_of E) ss (map share_key gs)).
  Context (HQ : 0 <= cx_ext_hash cx < qq E) (Hgn : cx_guardians cx = 5) (Hcq : cx_quorum cx = 3) (HKey : cx_key cx = gexp E (sumZ (map st_secret ss))).
  Context (vs : list voter) (ebs : list ct_ballot) (Henc : Forall2 (encrypted_as E im cx) vs ebs).
  Context (Hst : forall v, In v vs -> usable_style E im (vr_ballot v)) (Hids : NoDup (map vr_id vs)) (Hun : forall v, In v vs -> vr_state v <> UNKNOWN).
  Context (Hvf : votes_fit E (len vs)).
  Notation T := (total_tally E im cx vs ebs).
  Notation SP := (in_state SPOILED (subs E vs ebs)).
  Definition setup (all : bool) : res dmediator :=
    if all then decryption_setup E (ch_up ch) (ch_share ch) gs (new_dmediator "sample-manifest-decrypter" cx) cx T SP
    else compensated_setup E (ch_up ch) (ch_share ch) (firstn kn gs) (map share_key gs) (new_dmediator "sample-manifest-decrypter" cx) cx T SP.
  Lemma sample_decrypts all : exists md p ps L, setup all = Ok md /\ dm_plaintext_tally E md T m = Ok (Some p) /\ dm_plaintext_ballots E md SP m = Ok (Some ps) /\ lagrange_all E (dvals (dm_available md)) = Ok L /\
    (forall cid oid n, count_of p cid oid = Some n <-> in_manifest m cid oid /\ n = cast_count im vs cid oid) /\
    Forall2 (fun v p => pt_id p = vr_id v /\ forall cid oid n, count_of p cid oid = Some n <-> on_ballot im (vr_ballot v) cid oid /\ n = vote_for im (vr_ballot v) cid oid) (filter is_spoiled vs) (dvals ps) /\
    good_coefficients E (map (fun s => (st_id s, st_seq s)) (present all)) L /\
    (all = true -> forall keys, has_keys keys gs -> verify_decryption E p keys cx = Ok verified /\ forall q, In q (dvals ps) -> verify_decryption E q keys cx = Ok verified).
  Proof using HE HF Hfit Hv Hm Hdist Hready Hkeys HQ Hgn Hcq HKey Henc Hst Hids Hun Hvf.
    pose proof (seats_good E ch HF _ _ Hfit) as Hseats. pose proof (seats_some E ch _ _ Hfit) as Hne. pose proof (seats_quorum E ch _ _ Hfit) as Hkq. pose proof (seats_orders E ch _ _ Hfit) as Hord. pose proof (seats_len E ch _ _ Hfit) as Hlen.
    assert (HK : in_subgroup E (cx_key cx)) by (rewrite HKey; apply (joint_subgroup E HE _ ss Hseats)).
    assert (Hm' : NoDup (map cd_id (mf_contests m))) by (apply manifest_is_valid_iff in Hv as (_ & _ & _ & _ & Hn & _); exact Hn).
    destruct Hvf as (F1 & F2 & F3). pose proof (cast_at_most vs) as Hca. assert (Hq' : len (filter is_cast vs) < qq E) by lia. assert (Hd' : len (filter is_cast vs) <= dmax E) by lia.
    pose proof (total_distinct E m im cx HE Hv Hm HK Hdist vs ebs Henc Hst Hun) as Htd.
    pose proof (total_encrypts E m im cx HE Hv Hm HK Hdist vs ebs Henc Hst Hids Hun Hq' Hd') as Hte. rewrite HKey in Hte.
    assert (Hbn : NoDup (map sb_id SP)) by (unfold in_state; apply NoDup_map_filter; apply (subs_nodup E im cx HE HK vs ebs Henc Hst Hids)).
    pose proof (spoiled_encrypts E m im cx HE Hv Hm HK Hdist vs ebs Henc Hst Hids F3) as Hbs. rewrite HKey in Hbs.
    assert (Hgn' : cx_guardians cx = len ss) by (rewrite Hgn, Hlen; reflexivity). assert (Hseq : NoDup (map st_seq ss)).
    { clear -Hord. induction ss as [|s l IH]; cbn [map] in *; [constructor|]. apply NoDup_cons_iff in Hord as [N1 N2]. constructor; [|apply IH, N2]. intros Hi. apply N1. apply in_map_iff in Hi as (x & Hx & Hi). apply in_map_iff. exists x. rewrite Hx. auto. }
    assert (Hfinal : forall md, decrypts E md T SP m (cast_count im vs) (spoiled_value im vs) -> exists p ps, dm_plaintext_tally E md T m = Ok (Some p) /\ dm_plaintext_ballots E md SP m = Ok (Some ps) /\
      (forall cid oid n, count_of p cid oid = Some n <-> in_manifest m cid oid /\ n = cast_count im vs cid oid) /\
      Forall2 (fun v p => pt_id p = vr_id v /\ forall cid oid n, count_of p cid oid = Some n <-> on_ballot im (vr_ballot v) cid oid /\ n = vote_for im (vr_ballot v) cid oid) (filter is_spoiled vs) (dvals ps)).
    { intros md ((p & P1 & P2 & P3) & (ps & S1 & S2 & S3)). exists p, ps. split; [exact P1|]. split; [exact S1|]. split.
      - intros cid oid n. rewrite (P3 cid oid n), (total_options E m im cx HE Hv Hm HK Hdist vs ebs Henc Hst Hun). tauto.
      - pose proof (spoiled_ids E im cx HE HK vs ebs Henc Hst) as Hsi. rewrite <- S2 in Hsi. assert (Hnd : NoDup (dkeys ps)) by (rewrite S2; exact Hbn).
        assert (G : forall l ws, map fst l = map vr_id ws -> incl l ps -> incl ws (filter is_spoiled vs) ->
          Forall2 (fun v p => pt_id p = vr_id v /\ forall cid oid n, count_of p cid oid = Some n <-> on_ballot im (vr_ballot v) cid oid /\ n = vote_for im (vr_ballot v) cid oid) ws (dvals l)).
        { induction l as [|[i q] l IH]; intros [|v ws] Hk Hl Hw; try discriminate Hk; [constructor|]. cbn [map fst] in Hk. injection Hk as Hi Hk. unfold dvals. cbn [map snd]. constructor.
          - assert (Hvi : In v vs) by (apply (proj1 (proj1 (filter_In _ _ _) (Hw v (or_introl eq_refl))))). assert (Hvs : vr_state v = SPOILED).
            { pose proof (proj2 (proj1 (filter_In _ _ _) (Hw v (or_introl eq_refl)))) as H. unfold is_spoiled in H. destruct (vr_state v); [discriminate|reflexivity|discriminate]. }
            destruct (Forall2_in_l _ _ _ _ (subs_from E im cx vs ebs Henc) Hvi) as [sb [Hb Hc]]. destruct (from_id E im cx HE HK vs Hst v sb Hvi Hc) as [I1 I2].
            destruct (S3 sb) as (q' & B1 & B2 & B3); [apply filter_In; split; [exact Hb|rewrite I2, Hvs; reflexivity]|].
            assert (q' = q). { assert (Hp : dget i ps = Some q) by (apply in_dget; [exact Hnd|apply Hl; left; reflexivity]). rewrite I1, <- Hi, Hp in B1. congruence. } subst q'.
            split; [rewrite B2; exact I1|]. exact (spoiled_shows E m im cx HE Hv Hm HK Hdist vs Hst Hids v sb q Hvi Hc B3).
          - apply IH; [exact Hk|intros x Hx; apply Hl; right; exact Hx|intros x Hx; apply Hw; right; exact Hx]. }
        apply G; [exact Hsi|apply incl_refl..]. }
    destruct all; cbn [setup present].
    - assert (Hhold : Forall2 (holder E) ss gs) by (revert Hready; apply F2_impl; intros s g [H1 H2 _ _]; split; assumption).
      destruct (all_decrypt E kn ss cx T SP (ch_up ch) (ch_share ch) ss gs "sample-manifest-decrypter" m (cast_count im vs) (spoiled_value im vs) HE Hseats Hne HQ Hgn') as (md & S & D & _); try assumption; try reflexivity.
      { rewrite Hcq, Hlen. discriminate. } { apply (fa_up E ch HF). }
      destruct (Hfinal md D) as (p & ps & P1 & P2 & P3 & P4).
      destruct (lagrange_works E HE kn ss Hseats Hne Hkq Hord cx HQ T SP (cast_count im vs) (spoiled_value im vs) Htd Hte Hbn Hbs (ch_up ch) (fa_up E ch HF) (ch_share ch) ss gs (Permutation_refl _) Hhold _ md S) as (L & L1 & L2).
      exists md, p, ps, L. repeat (split; [assumption|]). intros _ keys Hk. split; [apply (setup_verifies E _ _ gs _ cx T SP md m p keys HE S P1 Hk)|].
      intros q Hqi. unfold dvals in Hqi. apply in_map_iff in Hqi as ([i q'] & <- & Hqi). apply (setup_verifies_ballots E _ _ gs _ cx T SP md m ps i q' keys HE S P2 Hqi Hk).
    - assert (Hin : forall s, In s (firstn kn ss) -> In s ss) by (intros s; apply firstn_incl). assert (Hsn : NoDup ss) by (apply (NoDup_map_inv st_id), Hseats). assert (Hnf : NoDup (firstn kn ss)) by (apply firstn_nodup, Hsn).
      assert (Hlf : length (firstn kn ss) = kn) by (apply firstn_length_le, Hkq).
      destruct (quorum_decrypts E kn ss cx T SP (ch_up ch) (ch_share ch) (firstn kn ss) (firstn kn gs) (map share_key gs) "sample-manifest-decrypter" m (cast_count im vs) (spoiled_value im vs) HE Hseats Hseq HQ Hgn' Hcq (fa_up E ch HF) Hin Hnf) as (md & S & D & _); try assumption.
      { rewrite Hlf. apply Nat.le_refl. } { apply F2_firstn, Hready. }
      destruct (Hfinal md D) as (p & ps & P1 & P2 & P3 & P4). exists md, p, ps.
      assert (Hss := seats_hss E kn ss Hseats). assert (Hnd : NoDup (map st_id ss)) by apply Hseats. pose proof (NoDup_ids ss (firstn kn ss) Hnd Hin Hnf) as Havi.
      assert (Hne' : firstn kn ss <> []) by (intros Hx; rewrite Hx in Hlf; discriminate).
      assert (Ht : item_good E (map tally_cc (dvals (ty_contests T)))). { apply (item_good_of E HE _ _ (cast_count im vs) (joint_subgroup E HE kn ss Hseats)); [|rewrite tally_cc_options; assumption]. rewrite tally_cc_options, map_map. exact Htd. }
      assert (Hb : forall b, In b SP -> item_good E (map ballot_cc (cb_contests (sb_ballot b)))).
      { intros b Hbb. destruct (Hbs b Hbb) as [Hb1 Hb2]. apply (item_good_of E HE _ _ (spoiled_value im vs (sb_id b)) (joint_subgroup E HE kn ss Hseats)); [|rewrite ballot_cc_options; assumption]. rewrite ballot_cc_options, map_map. exact Hb1. }
      assert (Hhold : Forall2 (holder E) (firstn kn ss) (firstn kn gs)) by (generalize (F2_firstn _ _ _ Hready kn); apply F2_impl; intros s g [H1 H2 _ _]; split; assumption).
      destruct (announcement_ok E HE kn ss Hss Hnd cx HQ T Ht SP Hb Hbn (ch_up ch) (fa_up E ch HF) (ch_share ch) (firstn kn ss) Hin Havi Hne' (firstn kn gs) Hhold (map share_key gs) Hkeys "sample-manifest-decrypter") as (m1 & Hm1 & Hset & _ & _).
      unfold compensated_setup in S. rewrite Hm1 in S. cbn [rbind] in S. apply exchange_available in S as HA. pose proof (seqs_mod E kn ss (firstn kn ss) Hseats Hseq Havi Hin) as Hmod.
      destruct (lagrange_ok E HE kn ss Hss cx T SP (firstn kn ss) Havi Hmod) with (m := m1) as (L & HL & _); [rewrite Hlf; apply Nat.le_refl|exact Hset|destruct ss as [|s l]; [contradiction|exists s; left; reflexivity]|].
      exists L. split; [unfold compensated_setup; rewrite Hm1; cbn [rbind]; exact S|]. split; [exact P1|]. split; [exact P2|]. split; [rewrite HA; exact HL|]. split; [exact P3|]. split; [exact P4|]. split; [|discriminate].
      apply (coefficients_of E HE (firstn kn ss) (dvals (dm_available m1))); [|exact Havi|exact Hmod|exact HL]. destruct Hset as [_ Ha _ _ _]. unfold dvals. apply Forall2_map_r. revert Ha. apply F2_impl. intros s kv [_ H]. exact H.
  Qed.
End Sample.

Lemma generated : forall E ch lk draw m im n rate all, valid_env E -> hmac_32 E -> qq E <= 2 ^ 1024 -> fair E ch -> seats_fit E 5 3 ->
  manifest_is_valid m = true -> make_internal E m = Ok im -> distinct_option_ids im -> honest_luck lk -> NoDup (map (lk_uuid lk) (seq 0 (Z.to_nat n))) ->
  mf_styles m <> [] -> (forall c, In c (mf_contests m) -> 1 <= cd_number_elected c) -> votes_fit E n ->
  (forall bs, fake_ballots im n None false true lk = Ok bs -> forall b, In b bs -> usable_style E im b /\ forall i, can_encrypt E im b (ch_ballot ch i)) ->
  exists s, generate E ch lk draw m n rate all = Ok (Some s) /\ good_sample E m im lk draw n rate all s.
Proof.
  intros E ch lk draw m im n rate all HE Hh Hq HF Hfit Hv Hm Hdist HL Hu Hs1 Hs2 Hvf Henc. change 5 with sample_guardians in Hfit. change 3 with sample_quorum in Hfit.
  destruct (sample_ceremony E HE Hh Hq ch HF Hfit m im Hv Hm) as (gs & cx & C1 & C2 & C3 & C4 & C5 & C6 & C7 & C8). set (ss := seats_at ch sample_guardians sample_quorum) in *.
  assert (Hst : im_styles im = mf_styles m) by (destruct (make_internal_spec _ _ _ Hm) as (_ & H & _); exact H).
  destruct (drawn_ballots_total E m im None lk n Hv Hm Hs2) as [bs Hbs]; [rewrite Hst; exact Hs1|]. destruct (drawn_ballots im lk n bs HL Hbs) as [B1 B2]. specialize (Henc bs Hbs).
  assert (Hpid : NoDup (map pb_id bs)).
  { rewrite B1. apply (NoDup_map_inv (fun s => substring 7 (String.length s - 7) s)). rewrite map_map. replace (map _ _) with (map (lk_uuid lk) (seq 0 (Z.to_nat n))); [exact Hu|]. apply map_ext. intros i. cbn [String.append]. clear.
    set (u := lk_uuid lk i). cbn [String.length Nat.sub substring]. rewrite Nat.sub_0_r. induction u as [|c u IH]; [reflexivity|]. cbn [String.length substring]. rewrite <- IH. reflexivity. }
  assert (Hlen : length bs = Z.to_nat n) by (rewrite <- (map_length pb_id), B1, map_length, seq_length; reflexivity).
  assert (HK : in_subgroup E (cx_key cx)) by (rewrite C8; apply (joint_subgroup E HE _ ss (seats_good E ch HF _ _ Hfit))).
  destruct (encrypt_loop_runs E (ch_ballot ch) im cx HK bs 0 (device_hash E (ch_device ch))) as [ebs He]; [intros i b Hb; apply Henc, Hb|].
  assert (He' : encrypt_votes E ch bs im cx = Ok ebs) by exact He. destruct (voters_behind E (st_of rate draw) _ _ _ _ _ _ _ He) as (vs & V1 & V2 & V3).
  assert (Hlv : length vs = length bs) by (rewrite <- V1, map_length; reflexivity).
  assert (Hstv : forall v, In v vs -> usable_style E im (vr_ballot v)) by (intros v Hi; apply Henc; rewrite <- V1; apply in_map, Hi).
  assert (Hvid : map vr_id vs = map pb_id bs) by (rewrite <- V1, map_map; reflexivity). assert (Hids : NoDup (map vr_id vs)) by (rewrite Hvid; exact Hpid).
  assert (Hun : forall v, In v vs -> vr_state v <> UNKNOWN). { intros v Hi. apply (in_map vr_state) in Hi. rewrite V2 in Hi. apply in_map_iff in Hi as (i & <- & _). unfold st_of. destruct (drawn _ _ _); discriminate. }
  assert (Hcb : map cb_id ebs = map vr_id vs).
  { assert (Hc : Forall2 (fun v eb => cb_id eb = vr_id v) vs ebs). { eapply Forall2_impl'; [|exact V3]. cbn beta. intros v eb Hi _ Hve. destruct (voter_contests E im cx HE HK v eb Hve (Hstv v Hi)) as (_ & _ & H & _). exact H. }
    clear -Hc. induction Hc as [|v eb vs ebs H _ IH]; [reflexivity|cbn [map]; rewrite H, IH; reflexivity]. }
  assert (Hle : length ebs = length bs) by (rewrite <- (map_length cb_id), Hcb, map_length; exact Hlv).
  assert (Hval : Forall (fun b => ballot_valid_for_election E b im cx true = Ok true) ebs).
  { apply Forall_forall. intros eb Hi. destruct (Forall2_in_r _ _ _ _ V3 Hi) as (v & Hvi & Hve). destruct (voter_contests E im cx HE HK v eb Hve (Hstv v Hvi)) as (ds & H1 & H2 & _ & H3 & H4 & H5).
    destruct (encrypted_ballot_valid E m im cx (vr_ballot v) _ _ _ _ _ eb ds HE Hv Hm HK H1 H3 H4 H5 Hve) as (_ & Hval & _). exact Hval. }
  pose proof (spoil_or_cast_runs E rate draw im cx ebs 0 ds_new Hval ltac:(rewrite Hcb; exact Hids) ltac:(intros b _ [])) as Hbox. cbv zeta in Hbox. rewrite Hle, <- V2 in Hbox.
  change (map (fun p => submit_ballot E (fst p) (snd p)) (combine ebs (map vr_state vs))) with (subs E vs ebs) in Hbox. unfold ds_new in Hbox at 2. cbn [app] in Hbox.
  pose proof (box_store E m im cx HE Hv Hm HK vs ebs V3 Hstv Hids) as Hstore.
  assert (Hsame : map (fun b => (sb_id b, b)) (subs E vs ebs) = bx_store (fst (run_box E (mkBox im cx ds_new) (history vs ebs)))) by (symmetry; exact Hstore).
  rewrite Hsame in Hbox. assert (Hvn : votes_fit E (len vs)).
  { destruct Hvf as (A1 & A2 & A3). unfold len. rewrite Hlv, Hlen. destruct (Z_le_gt_dec 0 n); [rewrite Z2Nat.id by lia; repeat split; assumption|]. replace (Z.to_nat n) with 0%nat by lia. pose proof (q_gt_1 E HE). repeat split; cbn; lia. }
  destruct (sample_decrypts E HE ch HF Hfit m im Hv Hm Hdist cx gs C2 C3 C5 C6 C7 C8 vs ebs V3 Hstv Hids Hun Hvn all) as (md & p & ps & L & D1 & D2 & D3 & D4 & D5 & D6 & D7 & D8).
  exists (mkSample m cx gs bs ebs (subs E vs ebs) (total_tally E im cx vs ebs) p (dvals ps) L). split.
  - unfold generate. rewrite C1. cbn [rbind]. rewrite Hbs. cbn [rbind]. rewrite He'. cbn [rbind]. rewrite Hbox. cbn [rbind fst snd bx_store]. rewrite (fa_up E ch HF), (tallied E m im cx HE Hv Hm HK Hdist vs ebs V3 Hstv Hids Hun). cbn [rbind get_optional].
    rewrite (spoiled_list E m im cx HE Hv Hm HK vs ebs V3 Hstv Hids). unfold setup in D1. rewrite D1. cbn [rbind]. rewrite D2. cbn [rbind]. rewrite D3. cbn [rbind get_optional]. rewrite D4. reflexivity.
  - rewrite <- Hlv in V2. assert (Hcast : forall cid oid, cast_count im vs cid oid = SpecCli.marked im (cast_ones rate draw bs) cid oid).
    { intros cid oid. rewrite (voters_cast im rate draw cid oid vs 0%nat V2). unfold cast_ones. rewrite number_from, V1, Hlv. reflexivity. }
    assert (Htal : forall cid oid k, count_of p cid oid = Some k <-> in_manifest m cid oid /\ k = SpecCli.marked im (cast_ones rate draw bs) cid oid) by (intros cid oid k; rewrite D5, Hcast; reflexivity).
    constructor; cbn [sm_manifest sm_context sm_guardians sm_plain sm_cipher sm_submitted sm_ciphertext sm_tally sm_spoiled sm_lagrange].
    + reflexivity.
    + auto.
    + split; [|exact C4]. replace ["1"; "2"; "3"; "4"; "5"]%string with (map st_id ss) by (unfold ss; reflexivity). clear -C2. induction C2 as [|s g a b [H _ _ _] _ IH]; [reflexivity|]. cbn [map]. rewrite IH. f_equal. apply H.
    + exact B1.
    + intros b Hb. rewrite <- Hst. apply B2, Hb.
    + split; [rewrite Hcb; exact Hvid|]. unfold subs, history. clear -V3. induction V3 as [|v eb vs ebs _ _ IH]; [reflexivity|]. cbn [map combine fst snd]. rewrite IH. reflexivity.
    + rewrite <- Hlen, <- Hlv. change (map (fun i => if drawn rate draw i then SPOILED else CAST) (seq 0 (length vs))) with (map (st_of rate draw) (seq 0 (length vs))). rewrite <- V2. unfold subs, history. clear -V3. induction V3 as [|v eb vs ebs _ _ IH]; [reflexivity|]. cbn [map combine fst snd]. rewrite IH. reflexivity.
    + eapply Forall_impl; [|apply (subs_good E m im cx HE Hv Hm HK Hdist vs ebs V3 Hstv Hun)]. cbv beta. tauto.
    + pose proof (aggregated E m im cx HE Hv Hm HK Hdist vs ebs V3 Hstv Hids Hun) as HA. rewrite (store_values E m im cx HE Hv Hm HK vs ebs V3 Hstv Hids) in HA. exact HA.
    + exact Htal.
    + destruct (accumulated E m im Hv Hm Hdist (cast_ones rate draw bs)) as (d & A1 & A2).
      { intros b Hb. unfold cast_ones in Hb. apply in_map_iff in Hb as ([i b'] & <- & Hb). apply filter_In in Hb as [Hb _]. apply in_combine_r in Hb. apply B2, Hb. }
      exists d. split; [exact A1|]. intros cid oid Hi. apply Htal. split; [exact Hi|apply A2, Hi].
    + unfold spoiled_ones. rewrite number_from, <- Hlv, <- V1, <- (voters_spoiled rate draw vs 0%nat V2). apply Forall2_map_l. exact D6.
    + exact D8.
    + destruct all; exact D7.
Qed.
(** a contest without seats: no ballot can be made *)
Lemma no_seats_no_ballots im lk n bs : honest_luck lk -> fake_ballots im n None false true lk = Ok bs -> forall b ds d, In b bs -> get_contests_for im (pb_style b) = Ok ds -> In d ds -> 1 <= cd_number_elected (ph_desc d).
Proof.
  intros HL H b ds d Hb Hds Hd. destruct (drawn_ballots im lk n bs HL H) as [_ B]. destruct (B b Hb) as (_ & (ds' & Hds' & HF) & HN). assert (ds' = ds) by congruence. subst ds'.
  destruct (Forall2_in_l _ _ _ _ HF Hd) as (c & Hc & _ & Hle). specialize (HN c Hc). lia.
Qed.

(** ** the ballots can be encrypted *)
Lemma allowed_can_encrypt E m im b ds r : valid_env E -> hmac_32 E -> short_texts E -> Z.of_nat (String.length (contest_data_json E (Some "undervote"%string) None None)) <= 510 -> manifest_is_valid m = true -> make_internal E m = Ok im ->
  allowed_ballot im b -> get_contests_for im (pb_style b) = Ok ds ->
  (forall d, In d ds -> limit_fits E (cd_number_elected (ph_desc d)) /\ seqs_nonneg d /\ usable_nonces E d (hash_elems E [HElem (im_hash im); HStr (pb_id b); HElem (fst r)]) /\ cd_selections (ph_desc d) <> [] /\
     (cd_votes_allowed (ph_desc d) = None \/ cd_votes_allowed (ph_desc d) = Some (cd_number_elected (ph_desc d)))) -> can_encrypt E im b r.
Proof.
  intros HE H32 HS HU Hv Hm HB Hds HD cx seed HK. apply (encrypt_ballot_succeeds E im cx b seed None false (fst r) (snd r) ds m HE H32 Hv Hm HK Hds); [discriminate| |].
  - intros d Hd. destruct (HD d Hd) as (H1 & H2 & H3 & _). auto.
  - intros d Hd. cbv zeta. destruct (allowed_entry E m im Hv Hm b ds d HB Hds Hd) as (_ & F1 & F2). destruct (HD d Hd) as (_ & _ & _ & Hne & Hva). set (c := voter_contest b d) in *. destruct (style_contests E m im Hv Hm _ _ Hds) as [Hi _].
    pose proof (given_marked d c F1) as M2. assert (M1 : matches c d).
    { destruct F1 as (A1 & A2 & A3). destruct (internal_good E m im Hv Hm d (Hi d Hd)) as [HG HV]. assert (H0 : 0 <= cd_number_elected (ph_desc d)) by (unfold SpecElection.marked, len in F2; lia). apply HV, ph_valid_iff in H0 as [_ H0].
      split; [exact A1|]. split; [|split; [exact HG|split; [exact H0|intros s Hs; apply A3, Hs]]]. rewrite <- (len_map ps_id (pc_selections c)), <- (len_map sd_id). unfold len. apply inj_le, NoDup_incl_length; [exact A2|].
      intros x Hx. apply in_map_iff in Hx as (s & <- & Hs). apply A3, Hs. }
    assert (M3 : write_ins c = None).
    { unfold write_ins. replace (flat_map _ (pc_selections c)) with (@nil (string * string)); [reflexivity|]. assert (HW : forall s, In s (pc_selections c) -> ps_write_in s = None) by (intros s Hs; apply F1, Hs). clear -HW.
      induction (pc_selections c) as [|s l IH]; [reflexivity|]. cbn [flat_map]. rewrite (HW s (or_introl eq_refl)). apply IH. intros x Hx. apply HW. right. exact Hx. }
    assert (HC : exists e, (e = None \/ e = Some "nullvote"%string \/ e = Some "undervote"%string) /\ contest_error (pt_contest_valid c d) = Some (e, None, false)).
    { destruct (Z_lt_le_dec (SpecElection.marked c) 1) as [Hl|Hl]; [|destruct (Z_lt_le_dec (SpecElection.marked c) (cd_number_elected (ph_desc d))) as [Hl2|Hl2]].
      - exists (Some "nullvote"%string). split; [auto|]. rewrite (proj2 (valid_null_iff c d) (conj M1 Hl)). reflexivity.
      - exists (Some "undervote"%string). split; [auto|]. rewrite (proj2 (valid_under_iff c d) (conj M1 (conj Hl Hl2))). reflexivity.
      - exists None. split; [left; reflexivity|]. rewrite (proj2 (valid_ok_iff c d)); [reflexivity|]. split; [exact M1|]. split; [exact Hl|]. split; [lia|]. intros va Hva'. destruct Hva as [Hva|Hva]; rewrite Hva in Hva'; [discriminate|]. injection Hva' as <-. lia. }
    destruct HC as (e & He & HC). split; [intros HX; rewrite HX in HC; discriminate|]. split; [right; intros s Hs; apply F1, Hs|]. split; [exact Hne|].
    intros err data x Hx. rewrite HC in Hx. injection Hx as <- <- <-. rewrite M3. destruct He as [->|[->| ->]]; [apply HS; auto|apply HS; auto|exact HU].
Qed.

(** ** the rate *)
Lemma spoil_or_cast_states E rate draw : forall ebs i x y, spoil_or_cast E rate draw i x ebs = Ok y -> map sb_state (snd y) = map (st_of rate draw) (seq i (length ebs)).
Proof.
  induction ebs as [|b ebs IH]; intros i x y H; cbn [spoil_or_cast] in H; [injection H as <-; reflexivity|]. unfold randint at 1 in H. change (100 <? 0) with false in H. cbn [rbind] in H.
  change (0 + draw i mod (100 - 0 + 1)) with (draw i mod 101) in H. fold (drawn rate draw i) in H. fold (st_of rate draw i) in H. unfold box_submit, submit_to_box in H.
  destruct (ballot_valid_for_election E b (bx_manifest x) (bx_context x) true) as [[]|]; cbn [rbind get_optional] in H; [|discriminate..]. destruct (ds_get (bx_store x) (cb_id b)) as [z|]; cbn [rbind get_optional] in H; [discriminate|].
  unfold ds_get, ds_set in H. change (sb_id (submit_ballot E b (st_of rate draw i))) with (cb_id b) in H. rewrite dget_dset_same in H. cbn [rbind get_optional] in H.
  destruct (spoil_or_cast E rate draw (S i) _ ebs) as [r|] eqn:Hr; cbn [rbind] in H; [|discriminate]. injection H as <-. cbn [snd map length seq]. rewrite (IH _ _ _ Hr). reflexivity.
Qed.
Lemma generated_states E ch lk draw m n rate all s : generate E ch lk draw m n rate all = Ok (Some s) -> map sb_state (sm_submitted s) = map (st_of rate draw) (seq 0 (length (sm_submitted s))).
Proof.
  unfold generate. destruct (sample_election E ch m) as [[gs [im cx]]|]; cbn [rbind]; [|discriminate]. destruct (fake_ballots im n None false true lk) as [bs|]; cbn [rbind]; [|discriminate]. destruct (encrypt_votes E ch bs im cx) as [ebs|]; cbn [rbind]; [|discriminate].
  destruct (spoil_or_cast E rate draw 0 _ ebs) as [y|] eqn:Hy; cbn [rbind]; [|discriminate]. apply spoil_or_cast_states in Hy. intros H.
  assert (Hs : sm_submitted s = snd y). { repeat match type of H with rbind ?e _ = _ => destruct e; cbn [rbind] in H; [|discriminate] end. match type of H with match ?e with _ => _ end = _ => destruct e as [p|]; [|discriminate] end.
    match type of H with rbind ?e _ = _ => destruct e; cbn [rbind] in H; [|discriminate] end. injection H as <-. reflexivity. }
  rewrite Hs, Hy. f_equal. f_equal. apply (f_equal (@List.length box_state)) in Hy. rewrite !map_length, seq_length in Hy. congruence.
Qed.
Lemma rates E ch lk draw m n rate all s : generate E ch lk draw m n rate all = Ok (Some s) ->
  (rate <= 0 -> forall sb, In sb (sm_submitted s) -> sb_state sb = CAST) /\ (100 < rate -> forall sb, In sb (sm_submitted s) -> sb_state sb = SPOILED) /\
  (forall i sb, nth_error (sm_submitted s) i = Some sb -> sb_state sb = SPOILED <-> draw i mod 101 < rate).
Proof.
  intros H. apply generated_states in H.
  assert (HN : forall i sb, nth_error (sm_submitted s) i = Some sb -> sb_state sb = st_of rate draw i).
  { intros i sb Hi. apply (map_nth_error sb_state) in Hi as Hx. rewrite H in Hx. assert (Hl : (i < length (sm_submitted s))%nat) by (apply nth_error_Some; congruence). pose proof (proj1 (nth_error_nth' (seq 0 (length (sm_submitted s))) 0%nat) ltac:(rewrite seq_length; exact Hl)) as Hq || pose proof (nth_error_nth' (seq 0 (length (sm_submitted s))) 0%nat ltac:(rewrite seq_length; exact Hl)) as Hq.
    rewrite seq_nth in Hq by exact Hl. apply (map_nth_error (st_of rate draw)) in Hq. rewrite Hq in Hx. injection Hx as <-. reflexivity. }
  split; [|split].
  - intros Hr sb Hi. apply In_nth_error in Hi as [i Hi]. rewrite (HN i sb Hi). unfold st_of, drawn. destruct (Z.ltb_spec (draw i mod 101) rate); [|reflexivity]. pose proof (Z.mod_pos_bound (draw i) 101 ltac:(lia)). lia.
  - intros Hr sb Hi. apply In_nth_error in Hi as [i Hi]. rewrite (HN i sb Hi). unfold st_of, drawn. destruct (Z.ltb_spec (draw i mod 101) rate); [reflexivity|]. pose proof (Z.mod_pos_bound (draw i) 101 ltac:(lia)). lia.
  - intros i sb Hi. rewrite (HN i sb Hi). unfold st_of, drawn. destruct (Z.ltb_spec (draw i mod 101) rate); split; intros; try reflexivity; try discriminate; lia.
Qed.
(** ** a contest without seats *)
Lemma random_no_seats lk d : cd_number_elected (ph_desc d) < 1 -> exists e, random_contest false false true lk d = Err e.
Proof.
  intros H. unfold random_contest. destruct (negb false && negb (contest_ph_is_valid d)); [eauto|]. cbn [andb negb]. unfold randint. destruct (Z.ltb_spec (cd_number_elected (ph_desc d)) 1); [|lia]. cbn [rbind]. eauto.
Qed.
Lemma no_seats_no_sample E ch lk draw m im n rate all : honest_luck lk -> 0 < n -> make_internal E m = Ok im ->
  (forall s, In s (mf_styles m) -> exists ds d, get_contests_for im (bs_id s) = Ok ds /\ In d ds /\ cd_number_elected (ph_desc d) < 1) -> exists e, generate E ch lk draw m n rate all = Err e.
Proof.
  intros HL Hn Hm Hs. unfold generate. destruct (sample_election E ch m) as [[gs [im' cx]]|] eqn:He; cbn [rbind]; [|eauto].
  assert (im' = im).
  { unfold sample_election in He. repeat match type of He with rbind ?e _ = _ => destruct e eqn:?; cbn [rbind] in He; [|discriminate] end. injection He as _ He. subst.
    match goal with H : build_election _ _ _ _ _ = Ok _ |- _ => unfold build_election, builder_build in H; rewrite Hm in H; cbn [rbind] in H; destruct (negb _) in H; cbn [rbind get_optional] in H; [discriminate|injection H; auto] end. }
  subst im'. destruct (fake_ballots im n None false true lk) as [bs|] eqn:Hb; cbn [rbind]; [|eauto]. exfalso. destruct (drawn_ballots im lk n bs HL Hb) as [B1 B2].
  destruct bs as [|b bs]; [apply (f_equal (@List.length string)) in B1; rewrite !map_length, seq_length in B1; cbn in B1; lia|]. destruct (B2 b (or_introl eq_refl)) as (S1 & _). apply in_map_iff in S1 as (s & S1 & S2).
  destruct (make_internal_spec _ _ _ Hm) as (_ & Hst & _). rewrite Hst in S2. destruct (Hs s S2) as (ds & d & D1 & D2 & D3). rewrite S1 in D1. pose proof (no_seats_no_ballots im lk n _ HL Hb b ds d (or_introl eq_refl) D1 D2). lia.
Qed.
