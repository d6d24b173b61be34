(** * CliRun: the steps of a command line election: printing, encrypting, submitting, tallying and decrypting. *)
From Coq Require Import Permutation List.
From Verif Require Import Base Group Codec Hash DLog ElGamal ZK Poly Manifest Ballot Encrypt Box Tally Spec SpecElection SpecTally
  ListFacts GroupFacts ZKFacts CryptoThms ManifestThms EncryptFacts BallotFacts EncryptThms TallyFacts TallyThms TallyMore BoxFacts
  Ceremony SpecCeremony Shares SpecShares SharesFacts ShareRun SharesThms SharesMore Verify SpecVerify VerifyFacts SpecEndToEnd EndToEnd
  GuiDecrypt GuiElection Report SpecReport ReportFacts ReportLink ReportPages Cli SpecCli CliDec.
Local Open Scope Z_scope.
Local Open Scope list_scope.

(** ** printing *)
Section Print.
  Variables (m : manifest) (on : string -> string -> Prop) (votes : string -> string -> Z) (p : plain_tally).
  Hypotheses (Hv : manifest_is_valid m = true) (Ho : own_option_ids m) (Hf : con_form m (pt_contests p)).
  Hypothesis Hon : forall cid oid, on cid oid -> in_manifest m cid oid.
  Hypothesis Hp : forall cid oid n, count_of p cid oid = Some n <-> on cid oid /\ n = votes cid oid.
  Let line s (l : string * Z) := snd l = pl_tally s /\ exists o, In o (all_options m) /\ sd_id o = pl_id s /\
       ((exists c, In c (mf_candidates m) /\ ca_id c = sd_candidate_id o /\ if writes_in c then fst l = "Write-In"%string else called c (fst l)) \/
        (fst l = sd_candidate_id o /\ forall c, In c (mf_candidates m) -> ca_id c <> sd_candidate_id o)).
  Let block c (r : option string * list (string * Z)) := (exists d, In d (mf_contests m) /\ cd_id d = pn_id c /\ fst r = Some (cd_name d)) /\ Forall2 line (dvals (pn_selections c)) (snd r).
  Lemma block_shows d c r : In d (mf_contests m) -> In c (dvals (pt_contests p)) -> cd_id d = pn_id c -> block c r -> print_contest m on votes d r.
  Proof.
    intros Hd Hin Hid ((d' & D1 & D2 & D3) & HL). assert (d' = d) by (apply (contests_by_id m Hv); [assumption..|congruence]). subst d'. split; [exact D3|].
    destruct (form_of m p Hf) as [_ Hof]. destruct (Hof c Hin) as (N1 & _ & N3).
    assert (Hall : forall s, In s (dvals (pn_selections c)) -> on (cd_id d) (pl_id s) /\ exists o, option_of votes d s o).
    { intros s Hs. assert (Hcnt := form_counts m p c s Hf Hin Hs). apply Hp in Hcnt as [C1 C2]. rewrite <- Hid in C1, C2. split; [exact C1|].
      destruct (Hon _ _ C1) as (d' & o & O1 & O2 & O3 & O4). assert (d' = d) by (apply (contests_by_id m Hv); assumption). subst d'. exists o. split; [exact O3|]. split; [exact O4|]. congruence. }
    destruct (options_of votes d (dvals (pn_selections c))) as [os F1]; [intros s Hs; apply Hall, Hs|]. destruct (options_map votes d _ _ F1) as [M1 M2]. exists os.
    split; [apply (NoDup_map_inv sd_id); rewrite M1; exact N1|]. split.
    - intros o. split.
      + intros Ho'. destruct (Forall2_in_r _ _ _ _ F1 Ho') as (s & Hs & S1 & S2 & S3). split; [exact S1|]. rewrite S2. apply Hall, Hs.
      + intros [O1 O2]. assert (Hcnt : count_of p (cd_id d) (sd_id o) = Some (votes (cd_id d) (sd_id o))) by (apply Hp; auto).
        apply (counts_form m p _ _ _ Hf) in Hcnt as (c' & s & K1 & K2 & K3 & K4 & K5).
        assert (c' = c). { destruct (form_of m p Hf) as [HNc _]. apply (NoDup_inj pn_id (dvals (pt_contests p))); [exact HNc|assumption..|congruence]. } subst c'.
        destruct (Forall2_in_l _ _ _ _ F1 K3) as (o' & Ho' & S1 & S2 & S3). replace o with o'; [exact Ho'|]. apply (options_by_id m Ho d); [assumption..|congruence].
    - clear -F1 HL Hd Ho. revert os F1. induction HL as [|s l ss ls R HL IH]; intros os F1; inversion F1 as [|? o ? os' (S1 & S2 & S3) F1']; subst; [constructor|].
      constructor; [|apply IH, F1']. destruct R as (R1 & o' & R2 & R3 & R4). split; [rewrite R1; exact S3|].
      assert (o' = o). { apply (NoDup_inj sd_id (flat_map cd_selections (mf_contests m)) o' o Ho); [exact R2|apply in_flat_map; eauto|congruence]. } subst o'. exact R4.
  Qed.
  Lemma tally_printed : exists out, print_tally m p = Ok out /\ shows_print m on votes out.
  Proof.
    destruct (printed_right m p Hv Ho (form_of m p Hf)) as (out & R1 & R2). exists out. split; [exact R1|].
    assert (G : forall l o, Forall2 block l o -> incl l (dvals (pt_contests p)) -> exists ds, map cd_id ds = map pn_id l /\ incl ds (mf_contests m) /\ Forall2 (print_contest m on votes) ds o).
    { intros l o HF. induction HF as [|c r l rows R HF IH]; intros Hi; [exists []; split; [reflexivity|]; split; [intros x []|constructor]|].
      destruct IH as (ds & I1 & I2 & I3); [intros x Hx; apply Hi; right; exact Hx|]. assert (R' := R). destruct R as ((d & D1 & D2 & D3) & _). exists (d :: ds). cbn [map]. rewrite I1, D2. split; [reflexivity|]. split.
      - intros x [<-|Hx]; auto.
      - constructor; [|exact I3]. apply (block_shows d c r); [exact D1|apply Hi; left; reflexivity|exact D2|exact R']. }
    destruct (G _ _ R2 (incl_refl _)) as (ds & D1 & D2 & D3). exists ds.
    destruct (form_of m p Hf) as [HN _]. split; [apply (NoDup_map_inv cd_id); rewrite D1; exact HN|]. split; [exact D2|]. split; [|exact D3].
    intros d o Hd Hoo Hdo. assert (Hcnt : count_of p (cd_id d) (sd_id o) = Some (votes (cd_id d) (sd_id o))) by (apply Hp; auto).
    apply (counts_form m p _ _ _ Hf) in Hcnt as (c' & s & K1 & K2 & K3 & K4 & K5). assert (Hi : In (cd_id d) (map cd_id ds)) by (rewrite D1, <- K2; apply in_map, K1).
    apply in_map_iff in Hi as (d' & E1 & E2). replace d with d'; [exact E2|]. apply (contests_by_id m Hv); auto.
  Qed.
End Print.

(** ** encrypting and submitting *)
(** the voter behind the plaintext ballot [b] *)
Definition behind_ballot (st : pt_ballot -> box_state) (v : voter) (b : pt_ballot) : Prop := vr_ballot v = b /\ vr_state v = st b.
Lemma encrypt_loop_sound E st rnd im cx : forall bs i seed ebs, encrypt_loop E rnd i (mkEncMed im cx seed) bs = Ok ebs ->
  exists vs, Forall2 (behind_ballot st) vs bs /\ Forall2 (encrypted_as E im cx) vs ebs.
Proof.
  induction bs as [|b bs IH]; intros i seed ebs; cbn [encrypt_loop].
  - intros [= <-]. exists []. split; constructor.
  - unfold mediator_encrypt. cbn [em_manifest em_context em_seed]. destruct (encrypt_ballot E b im cx seed None false _ _) as [[eb|]|] eqn:He; cbn [rbind get_optional]; [|discriminate..].
    destruct (encrypt_loop E rnd (S i) _ bs) as [l|] eqn:Hl; cbn [rbind]; [|discriminate]. intros [= <-]. destruct (IH _ _ _ Hl) as (vs & V1 & V2).
    exists (mkVoter b (st b) seed None false (fst (rnd i)) (snd (rnd i)) :: vs). split; constructor; [split; reflexivity|exact V1|exact He|exact V2].
Qed.
Lemma encrypt_loop_runs E rnd im cx : in_subgroup E (cx_key cx) -> forall bs i seed, (forall j b, In b bs -> can_encrypt E im b (rnd j)) -> exists ebs, encrypt_loop E rnd i (mkEncMed im cx seed) bs = Ok ebs.
Proof.
  intros HK. induction bs as [|b bs IH]; intros i seed Hc; cbn [encrypt_loop]; [eauto|]. unfold mediator_encrypt. cbn [em_manifest em_context em_seed].
  destruct (Hc i b (or_introl eq_refl) cx seed HK) as [eb ->]. cbn [rbind get_optional]. destruct (IH (S i) (cb_code eb)) as [l ->]; [intros j x Hx; apply Hc; right; exact Hx|]. cbn [rbind]. eauto.
Qed.
Definition state_by (spoil_id : option string) (id : string) : box_state := if match spoil_id with Some i => String.eqb id i | None => false end then SPOILED else CAST.
Lemma cast_and_spoil_sound E sp im cx : forall ebs s x, cast_and_spoil E sp (mkBox im cx s) ebs = Ok x ->
  x = mkBox im cx (s ++ map (fun b => (cb_id b, submit_ballot E b (state_by sp (cb_id b)))) ebs) /\ NoDup (map cb_id ebs) /\ forall b, In b ebs -> ~ In (cb_id b) (dkeys s).
Proof.
  induction ebs as [|b ebs IH]; intros s x; cbn [cast_and_spoil].
  - intros [= <-]. rewrite app_nil_r. split; [reflexivity|]. split; [constructor|intros b []].
  - unfold box_submit, submit_to_box. cbn [bx_manifest bx_context bx_store]. destruct (ballot_valid_for_election E b im cx true) as [[]|]; cbn [rbind get_optional]; [|discriminate..].
    destruct (ds_get s (cb_id b)) eqn:Hg; cbn [rbind get_optional]; [discriminate|]. fold (state_by sp (cb_id b)). unfold ds_get, ds_set in *. change (sb_id (submit_ballot E b (state_by sp (cb_id b)))) with (cb_id b). rewrite dget_dset_same. cbn [rbind get_optional].
    assert (Hn : ~ In (cb_id b) (dkeys s)). { intros Hi. apply dget_some_key in Hi as [v Hv]. congruence. }
    rewrite (dset_new (cb_id b) _ s Hn). intros H. apply IH in H as (-> & H1 & H2). rewrite <- app_assoc. cbn [app map]. split; [reflexivity|]. split.
    + constructor; [|exact H1]. intros Hi. apply in_map_iff in Hi as (b' & Hb & Hi). apply (H2 b' Hi). unfold dkeys. rewrite map_app. apply in_or_app. right. left. symmetry. exact Hb.
    + intros b' [<-|Hi]; [exact Hn|]. intros Hk. apply (H2 b' Hi). unfold dkeys. rewrite map_app. apply in_or_app. left. exact Hk.
Qed.
Lemma cast_and_spoil_runs E sp im cx : forall ebs s, Forall (fun b => ballot_valid_for_election E b im cx true = Ok true) ebs -> NoDup (map cb_id ebs) -> (forall b, In b ebs -> ~ In (cb_id b) (dkeys s)) ->
  exists x, cast_and_spoil E sp (mkBox im cx s) ebs = Ok x.
Proof.
  induction ebs as [|b ebs IH]; intros s HF Hn Hs; cbn [cast_and_spoil]; [eauto|]. apply Forall_cons_iff in HF as [Hb HF]. cbn [map] in Hn. inversion Hn as [|? ? Hi Hn']; subst.
  unfold box_submit, submit_to_box. cbn [bx_manifest bx_context bx_store]. rewrite Hb. pose proof (Hs b (or_introl eq_refl)) as Hk.
  destruct (ds_get s (cb_id b)) as [y|] eqn:Hg; [exfalso; apply Hk, dget_some_key; eauto|]. fold (state_by sp (cb_id b)). unfold ds_get, ds_set in *. change (sb_id (submit_ballot E b (state_by sp (cb_id b)))) with (cb_id b). rewrite dget_dset_same. cbn [rbind get_optional].
  rewrite (dset_new (cb_id b) _ s Hk). apply IH; [exact HF|exact Hn'|]. intros b' Hb' Hin. unfold dkeys in Hin. rewrite map_app in Hin. apply in_app_iff in Hin as [Hin|[Hin|[]]]; [apply (Hs b' (or_intror Hb') Hin)|].
  cbn [fst] in Hin. apply Hi. rewrite Hin. apply in_map, Hb'.
Qed.

(** ** tallying, decrypting and printing what was submitted *)
Section Count.
  Context (E : env) (HE : valid_env E) (k : nat) (ss : list seat) (Hseats : good_seats E k ss) (Hne : ss <> []) (Hkn : (k <= length ss)%nat).
  Context (Hseqs : NoDup (map (fun s => st_seq s mod qq E) ss)).
  Context (m : manifest) (im : internal_manifest) (Hv : manifest_is_valid m = true) (Hm : make_internal E m = Ok im) (Hdist : distinct_option_ids im).
  Context (cx : context) (HQ : 0 <= cx_ext_hash cx < qq E) (Hgn : cx_guardians cx = len ss) (Hcq : cx_quorum cx <= len ss) (HKey : cx_key cx = gexp E (sumZ (map st_secret ss))).
  Context (vs : list voter) (ebs : list ct_ballot) (Henc : Forall2 (encrypted_as E im cx) vs ebs).
  Context (Hst : forall v, In v vs -> usable_style E im (vr_ballot v)) (Hids : NoDup (map vr_id vs)) (Hun : forall v, In v vs -> vr_state v <> UNKNOWN).
  Context (Hq : len (filter is_cast vs) < qq E) (Hd : len (filter is_cast vs) <= dmax E) (Hd1 : 1 <= dmax E).
  Context (ch : chance) (Hup : forall path, ch_up ch path = true).
  Context (av : list seat) (gs : list guardian) (Hav : Permutation av ss) (Hhold : Forall2 (holder E) av gs).
  Notation T := (total_tally E im cx vs ebs).
  Notation SB := (subs E vs ebs).
  Lemma key_sub : in_subgroup E (cx_key cx).
  Proof. rewrite HKey. apply (joint_subgroup E HE k ss Hseats). Qed.
  Lemma subs_tallied : cli_tally E true im cx SB = Ok T.
  Proof.
    unfold cli_tally. pose proof (im_nodup E m im Hv Hm) as Hin.
    destruct (batch_equals_append E im cx HE Hin "election-results" [] SB true) as [Hb _]; [constructor|apply (subs_good E m im cx HE Hv Hm key_sub Hdist vs ebs Henc Hst Hun)|apply (subs_nodup E im cx HE key_sub vs ebs Henc Hst Hids)|intros b _; cbn; tauto|].
    unfold run_appends in Hb at 1. cbn [fold_left fst] in Hb. rewrite Hb. reflexivity.
  Qed.
  Lemma box_aggregated : verify_aggregation E (fun _ => all_up) SB T m cx = Ok verified.
  Proof.
    rewrite <- (store_values E m im cx HE Hv Hm key_sub vs ebs Henc Hst Hids).
    apply (aggregated E m im cx HE Hv Hm key_sub Hdist vs ebs Henc Hst Hids Hun).
  Qed.
  Lemma subs_counted : exists r out, cli_decrypt E ch T (in_state SPOILED SB) gs cx m = Ok r /\ print_results m r = Ok out /\ rs_ciphertext r = T /\
    shows_print m (in_manifest m) (cast_count im vs) (po_tally out) /\
    Forall2 (fun v e => fst e = vr_id v /\ shows_print m (on_ballot im (vr_ballot v)) (vote_for im (vr_ballot v)) (snd e)) (filter is_spoiled vs) (po_spoiled out) /\
    dkeys (rs_spoiled r) = map vr_id (filter is_spoiled vs) /\ (forall i p, In (i, p) (rs_spoiled r) -> pt_id p = i) /\ pt_id (rs_tally r) = ty_id T /\
    (forall keys, has_keys keys gs -> verify_decryption E (rs_tally r) keys cx = Ok verified /\ forall i p, In (i, p) (rs_spoiled r) -> verify_decryption E p keys cx = Ok verified) /\
    good_coefficients E (map (fun s => (st_id s, st_seq s)) av) (rs_lagrange r).
  Proof.
    pose proof key_sub as HK. assert (Hm' : NoDup (map cd_id (mf_contests m))) by (apply manifest_is_valid_iff in Hv as (_ & _ & _ & _ & Hn & _); exact Hn).
    assert (Hown : own_option_ids m) by (apply (own_options E m im Hm Hdist)).
    destruct (cli_decrypts E HE k ss Hseats Hne Hkn Hseqs cx HQ Hgn Hcq T (in_state SPOILED SB) m (cast_count im vs) (spoiled_value im vs) Hm') with (up := ch_up ch) (rnd := ch_share ch) (av := av) (gs := gs) (ch := ch)
      as (r & R1 & R2 & (R3 & R4 & R5) & R6 & R7 & R8 & R9 & R10); try assumption; try reflexivity.
    - apply (total_distinct E m im cx HE Hv Hm HK Hdist vs ebs Henc Hst Hun).
    - rewrite <- HKey. apply (total_encrypts E m im cx HE Hv Hm HK Hdist vs ebs Henc Hst Hids Hun Hq Hd).
    - unfold in_state. apply NoDup_map_filter. apply (subs_nodup E im cx HE HK vs ebs Henc Hst Hids).
    - rewrite <- HKey. apply (spoiled_encrypts E m im cx HE Hv Hm HK Hdist vs ebs Henc Hst Hids Hd1).
    - exists r. assert (Hcnt : forall cid oid n, count_of (rs_tally r) cid oid = Some n <-> in_manifest m cid oid /\ n = cast_count im vs cid oid).
      { intros cid oid n. rewrite (R4 cid oid n), (total_options E m im cx HE Hv Hm HK Hdist vs ebs Henc Hst Hun). tauto. }
      destruct (tally_printed m (in_manifest m) (cast_count im vs) (rs_tally r) Hv Hown R5 (fun _ _ H => H) Hcnt) as (o1 & O1 & O2).
      pose proof (spoiled_ids E im cx HE HK vs ebs Henc Hst) as Hsi.
      assert (Hnd : NoDup (dkeys (rs_spoiled r))). { rewrite R6. unfold in_state. apply NoDup_map_filter. apply (subs_nodup E im cx HE HK vs ebs Henc Hst Hids). }
      assert (Hsp : exists o2, rmapM (fun kv => do x <- print_tally m (snd kv); Ok (fst kv, x)) (rs_spoiled r) = Ok o2 /\
        Forall2 (fun v e => fst e = vr_id v /\ shows_print m (on_ballot im (vr_ballot v)) (vote_for im (vr_ballot v)) (snd e)) (filter is_spoiled vs) o2).
      { assert (G : forall l ws, map fst l = map vr_id ws -> incl l (rs_spoiled r) -> incl ws (filter is_spoiled vs) -> exists o2, rmapM (fun kv => do x <- print_tally m (snd kv); Ok (fst kv, x)) l = Ok o2 /\
          Forall2 (fun v e => fst e = vr_id v /\ shows_print m (on_ballot im (vr_ballot v)) (vote_for im (vr_ballot v)) (snd e)) ws o2).
        { induction l as [|[i p] l IH]; intros [|v ws] Hk Hl Hw; try discriminate Hk; [exists []; split; [reflexivity|constructor]|]. cbn [map fst] in Hk. injection Hk as Hi Hk.
          destruct (IH ws Hk) as (o2 & P1 & P2); [intros x Hx; apply Hl; right; exact Hx|intros x Hx; apply Hw; right; exact Hx|].
          assert (Hvi : In v vs) by (apply (proj1 (proj1 (filter_In _ _ _) (Hw v (or_introl eq_refl))))). assert (Hvs : vr_state v = SPOILED).
          { pose proof (proj2 (proj1 (filter_In _ _ _) (Hw v (or_introl eq_refl)))) as H. unfold is_spoiled in H. destruct (vr_state v); [discriminate|reflexivity|discriminate]. }
          destruct (Forall2_in_l _ _ _ _ (subs_from E im cx vs ebs Henc) Hvi) as [sb [Hb Hc]]. destruct (from_id E im cx HE HK vs Hst v sb Hvi Hc) as [I1 I2].
          destruct (R7 sb) as (p' & B1 & B2 & B3); [apply filter_In; split; [exact Hb|rewrite I2, Hvs; reflexivity]|].
          assert (p' = p). { assert (Hp : dget i (rs_spoiled r) = Some p) by (apply in_dget; [exact Hnd|apply Hl; left; reflexivity]). rewrite I1, <- Hi, Hp in B1. congruence. } subst p'.
          destruct (R8 i p (Hl _ (or_introl eq_refl))) as [_ Hform].
          pose proof (spoiled_shows E m im cx HE Hv Hm HK Hdist vs Hst Hids v sb p Hvi Hc B3) as Hsh.
          destruct (tally_printed m (on_ballot im (vr_ballot v)) (vote_for im (vr_ballot v)) p Hv Hown Hform) as (o & P3 & P4); [|exact Hsh|].
          { intros cid oid Hon. assert (Hc' : count_of p cid oid = Some (vote_for im (vr_ballot v) cid oid)) by (apply Hsh; auto).
            apply (counts_form m p _ _ _ Hform) in Hc' as (c & s & K1 & K2 & K3 & K4 & _). destruct (form_of m p Hform) as [_ Hof]. destruct (Hof c K1) as (_ & _ & K5). rewrite <- K2, <- K4. apply K5, K3. }
          cbn [rmapM snd fst]. rewrite P3, P1. cbn [rbind]. eexists. split; [reflexivity|]. constructor; [|exact P2]. cbn [fst snd]. split; [exact Hi|exact P4]. }
        apply G; [|apply incl_refl..]. change (map fst (rs_spoiled r)) with (dkeys (rs_spoiled r)). rewrite R6. exact Hsi. }
      destruct Hsp as (o2 & P1 & P2). exists (mkPrinted o1 o2). split; [exact R1|]. unfold print_results. rewrite O1. cbn [rbind]. rewrite P1. cbn [rbind po_tally po_spoiled].
      split; [reflexivity|]. split; [exact R2|]. split; [exact O2|]. split; [exact P2|]. split; [rewrite R6; exact Hsi|]. split; [intros i p H; apply (R8 i p H)|]. split; [exact R3|]. split; [exact R9|exact R10].
  Qed.
End Count.
