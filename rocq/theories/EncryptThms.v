(** * EncryptThms: the statements of PropsEncrypt.v, proved *)
From Verif Require Import Base Group Codec Hash DLog ElGamal ZK Manifest Ballot Encrypt Spec SpecElection
  GroupFacts HashFacts ListFacts ElGamalFacts ZKFacts CodecFacts PolyFacts CryptoThms ManifestThms EncryptFacts BallotFacts
  Tiny Samples.
From Coq Require Import Permutation Sorted.
From Coq Require Import List.

Lemma contest_votes E c d K Q seed verify ec : valid_env E -> in_subgroup E K ->
  encrypt_contest E c d K Q seed verify = Ok (Some ec) ->
  bc_id ec = cd_id (ph_desc d) /\ bc_seq ec = cd_seq (ph_desc d) /\ bc_desc_hash ec = contest_hash E (ph_desc d) /\
  exists real extra vs, bc_selections ec = real ++ extra /\
    Forall2 (fun o s => encrypts_option E K false o (recorded_vote c d o) s) (cd_selections (ph_desc d)) real /\
    Forall2 (fun ov s => encrypts_option E K true (fst ov) (snd ov) s) (combine (ph_placeholders d) vs) extra /\
    (forall o, In o (cd_selections (ph_desc d)) -> recorded_vote c d o = 0 \/ recorded_vote c d o = 1) /\
    (forall v, In v vs -> v = 0 \/ v = 1) /\ length vs = length (ph_placeholders d) /\
    sumZ (map (recorded_vote c d) (cd_selections (ph_desc d))) + sumZ vs = cd_number_elected (ph_desc d) /\
    exists r, 0 <= r < qq E /\ is_encryption E K r (cd_number_elected (ph_desc d)) (ct_pad (bc_acc ec)) (ct_data (bc_acc ec)).
Proof.
  intros HE HK H. destruct (encrypt_contest_spec E HE _ _ _ _ _ _ _ HK H) as (real & extra & vs & Hce).
  split; [apply Hce|]. split; [apply Hce|]. split; [apply Hce|].
  exists real, extra, vs. split; [apply Hce|].
  pose proof (ce_real _ _ _ _ _ _ _ _ _ _ Hce) as Hr. pose proof (ce_extra _ _ _ _ _ _ _ _ _ _ Hce) as Hx.
  split; [eapply Forall2_impl'; [|exact Hr]; intros o e _ _ Ho; apply Ho|].
  split; [eapply Forall2_impl'; [|exact Hx]; intros o e _ _ Ho; apply Ho|].
  split; [intros o Ho; destruct (Forall2_in_l _ _ _ _ Hr Ho) as [e [_ He]]; apply He|].
  pose proof (ce_vs _ _ _ _ _ _ _ _ _ _ Hce) as Hvs.
  split; [intros v Hv; rewrite Hvs in Hv; exact (proj1 (Forall_forall _ _) (fill_01 _ _) v Hv)|].
  split; [rewrite Hvs; apply fill_length|].
  split; [apply Hce|].
  destruct (ce_proof _ _ _ _ _ _ _ _ _ _ Hce) as [r (Hr0 & Henc & _)]. eauto.
Qed.

Lemma recorded_is_voters c d o : overvoted c d = false -> NoDup (map ps_id (pc_selections c)) ->
  (forall s, In s (pc_selections c) -> ps_id s = sd_id o -> recorded_vote c d o = ps_vote s) /\
  (~ In (sd_id o) (map ps_id (pc_selections c)) -> recorded_vote c d o = 0).
Proof.
  intros Ho Hn. unfold recorded_vote, voter_choice. rewrite Ho, andb_false_r, find_find_first. split.
  - intros s Hs Hid. rewrite <- Hid.
    pose proof (find_first_unique ps_id _ _ Hn Hs) as Hf. cbv [eqb EqB_string] in Hf. rewrite Hf. reflexivity.
  - intros Hni. destruct (find_first _ _) as [s|] eqn:Hf; [|reflexivity]. exfalso. apply Hni.
    apply find_first_some in Hf as [Hs Hf]. apply String.eqb_eq in Hf. rewrite <- Hf. apply in_map, Hs.
Qed.
Lemma overvote_blank c d o : cd_number_elected (ph_desc d) < marked c -> 0 <= cd_number_elected (ph_desc d) ->
  recorded_vote c d o = 0.
Proof.
  intros H H0. unfold recorded_vote, overvoted. destruct (Z.leb_spec 1 (marked c)); [|lia].
  destruct (Z.ltb_spec (cd_number_elected (ph_desc d)) (marked c)); [reflexivity|lia].
Qed.

Definition dup_contest : pt_contest :=
  mkPcon "mayor" [mkPsel "mayor-ann" 0 false None; mkPsel "mayor-ann" 1 false None]%string.
Lemma dup_hyps : pt_contest_valid dup_contest (ph_of mayor) <> CheckInvalid /\
  (forall s, In s (pc_selections dup_contest) -> ps_vote s = 0 \/ ps_vote s = 1) /\
  seqs_nonneg (ph_of mayor) /\ usable_nonces medium (ph_of mayor) 5 /\ cd_selections (ph_desc (ph_of mayor)) <> [] /\
  (forall err data b, contest_error (pt_contest_valid dup_contest (ph_of mayor)) = Some (err, data, b) ->
     Z.of_nat (String.length (contest_data_json medium err data (write_ins dup_contest))) <= 510) /\
  limit_fits medium (cd_number_elected (ph_desc (ph_of mayor))).
Proof.
  split; [vm_compute; discriminate|]. split; [intros s Hs; cbn in Hs; destruct Hs as [<-|[<-|[]]]; cbn; auto|].
  split; [split; [vm_compute; discriminate|]; intros o Ho; cbn in Ho; repeat destruct Ho as [<-|Ho]; try contradiction; vm_compute; discriminate|].
  split; [intros o Ho; cbn in Ho; repeat destruct Ho as [<-|Ho]; try contradiction; cbv zeta; split; vm_compute; discriminate|].
  split; [discriminate|]. split.
  - intros err data x H. vm_compute in H. injection H as <- <- <-. vm_compute. discriminate.
  - vm_compute. repeat split; discriminate || reflexivity.
Qed.
Lemma dup_succeeds : exists ec, encrypt_contest medium dup_contest (ph_of mayor) (gexp medium 77) 9 5 true = Ok (Some ec).
Proof.
  destruct dup_hyps as (H1 & H2 & H3 & H4 & H5 & H6 & H7).
  apply encrypt_contest_succeeds; try assumption; [exact medium_valid|exact toy_hmac_ok|apply gexp_subgroup; [exact medium_valid|lia]|right; assumption|intros _; assumption].
Qed.
Lemma duplicate_loses_vote : exists E c d K Q seed ec s o e, valid_env E /\ in_subgroup E K /\
  encrypt_contest E c d K Q seed true = Ok (Some ec) /\ overvoted c d = false /\
  In s (pc_selections c) /\ In o (cd_selections (ph_desc d)) /\ ps_id s = sd_id o /\ ps_vote s = 1 /\
  In e (bc_selections ec) /\ cs_placeholder e = false /\ cs_id e = sd_id o /\
  forall e', In e' (bc_selections ec) -> cs_placeholder e' = false ->
    exists r, is_encryption E K r 0 (ct_pad (cs_ct e')) (ct_data (cs_ct e')).
Proof.
  destruct dup_succeeds as [ec Hec].
  assert (HK : in_subgroup medium (gexp medium 77)) by (apply gexp_subgroup; [exact medium_valid|lia]).
  destruct (contest_votes _ _ _ _ _ _ _ _ medium_valid HK Hec) as (_ & _ & _ & real & extra & vs & Hs & Hr & Hx & _).
  assert (Hrec : forall o, In o (cd_selections (ph_desc (ph_of mayor))) -> recorded_vote dup_contest (ph_of mayor) o = 0).
  { intros o Ho. cbn in Ho. destruct Ho as [<-|[<-|[]]]; reflexivity. }
  destruct (Forall2_in_l _ _ _ (mkSel "mayor-ann" 1 "ann") Hr (or_introl eq_refl)) as [e [He Henc]].
  exists medium, dup_contest, (ph_of mayor), (gexp medium 77), 9, 5, ec, (mkPsel "mayor-ann" 1 false None), (mkSel "mayor-ann" 1 "ann"), e.
  split; [exact medium_valid|]. split; [exact HK|]. split; [exact Hec|]. split; [reflexivity|].
  split; [right; left; reflexivity|]. split; [left; reflexivity|]. split; [reflexivity|]. split; [reflexivity|].
  split; [rewrite Hs; apply in_or_app; left; exact He|]. split; [apply Henc|]. split; [apply Henc|].
  intros e' He' Hph. rewrite Hs in He'. apply in_app_or in He' as [He'|He'].
  - destruct (Forall2_in_r _ _ _ _ Hr He') as [o [Ho Hoe]]. rewrite (Hrec o Ho) in Hoe.
    destruct Hoe as (_ & _ & _ & _ & r & _ & _ & Hi). eauto.
  - destruct (Forall2_in_r _ _ _ _ Hx He') as [o [Ho Hoe]]. destruct Hoe as (_ & _ & _ & Hp & _). congruence.
Qed.

Lemma full_vote_not_encrypted : exists E c d K Q seed, valid_env E /\ in_subgroup E K /\
  contest_ph_is_valid d = true /\ matches c d /\ marked c = cd_number_elected (ph_desc d) /\
  (forall s, In s (pc_selections c) -> ps_vote s = 1) /\ encrypt_contest E c d K Q seed true = Ok None.
Proof.
  destruct full_vote_rejected as (c & d & H1 & H2 & H3 & H4 & H5).
  exists medium, c, d, (gexp medium 77), 0, 0. split; [exact medium_valid|]. split; [apply gexp_subgroup; [exact medium_valid|lia]|].
  do 4 (split; [assumption|]). unfold encrypt_contest. rewrite H5. reflexivity.
Qed.

Definition long_text : string := String.concat "" (map (fun _ => "0123456789"%string) (seq 0 60)).
Lemma long_write_in_raises : exists E c d K Q seed, valid_env E /\ in_subgroup E K /\
  contest_ph_is_valid d = true /\ matches c d /\ marked c = cd_number_elected (ph_desc d) /\
  encrypt_contest E c d K Q seed true = Err TruncationError.
Proof.
  exists medium, (mkPcon "mayor" [mkPsel "mayor-ann" 1 false (Some long_text)]), (ph_of mayor), (gexp medium 77), 9, 5.
  split; [exact medium_valid|]. split; [apply gexp_subgroup; [exact medium_valid|lia]|].
  split; [reflexivity|]. split.
  - assert (Hv : pt_contest_valid (mkPcon "mayor" [mkPsel "mayor-ann" 1 false (Some long_text)]) (ph_of mayor) = CheckOk)
      by (vm_compute; reflexivity).
    exact (proj1 (proj1 (valid_ok_iff _ _) Hv)).
  - split; [reflexivity|]. vm_compute. reflexivity.
Qed.

(** ** a ballot whose contests are not listed in sequence order *)
Definition swapped_manifest : manifest := mkManifest "demo" "v0.95" "primary" "" ""
  (mf_gp_units demo_manifest) (mf_parties demo_manifest) (mf_candidates demo_manifest) [council; mayor]
  (mf_styles demo_manifest) None None.
Definition swapped_im : internal_manifest :=
  match make_internal medium swapped_manifest with Ok im => im | Err _ => mkInternal [] [] [] 0 end.
(** ** C26 *)
Definition history (bs : list ct_ballot) : list (Z * Z) := map (fun b => (cb_timestamp b, cb_hash b)) bs.

Lemma produced_hash_nonneg E : 0 < qq E -> forall reqs m b, In b (snd (mediator_run E m reqs)) -> 0 <= cb_hash b.
Proof.
  intros Hq. induction reqs as [|[[b0 rand] now] reqs IH]; intros m b; cbn [mediator_run]; [intros []|].
  destruct (mediator_encrypt E m b0 rand now) as [m1 r] eqn:He.
  destruct (mediator_run E m1 reqs) as [m2 bs] eqn:Hm. cbn [snd]. intros Hin. apply in_app_or in Hin as [Hin|Hin].
  - assert (Hr : encrypt_ballot E b0 (em_manifest m) (em_context m) (em_seed m) None false rand now = r).
    { unfold mediator_encrypt in He. destruct (encrypt_ballot _ _ _ _ _ _ _ _ _) as [[eb|]|]; injection He as _ <-; reflexivity. }
    destruct r as [[eb|]|]; cbn in Hin; try contradiction. destruct Hin as [->|[]].
    destruct (encrypt_ballot_form _ _ _ _ _ _ _ _ _ _ Hr) as (ds & ecs & _ & _ & ->).
    apply hash_elems_nonneg. assumption.
  - apply (IH m1). rewrite Hm. exact Hin.
Qed.

Lemma same_code_same_history E im im' cx cx' d d' reqs reqs' : 0 < qq E ->
  let r := mediator_run E (new_mediator E im cx d) reqs in
  let r' := mediator_run E (new_mediator E im' cx' d') reqs' in
  em_seed (fst r) = em_seed (fst r') ->
  (d = d' /\ map (fun b => (cb_timestamp b, cb_hash b)) (snd r) = map (fun b => (cb_timestamp b, cb_hash b)) (snd r')) \/
  exists s t, In s (device_text E d :: chain_texts E (device_hash E d) (map (fun b => (cb_timestamp b, cb_hash b)) (snd r))) /\
    In t (device_text E d' :: chain_texts E (device_hash E d') (map (fun b => (cb_timestamp b, cb_hash b)) (snd r'))) /\
    s <> t /\ sha E s mod qq E = sha E t mod qq E.
Proof.
  intros Hq r r' Heq.
  pose proof (mediator_run_chained E reqs (new_mediator E im cx d)) as H1.
  pose proof (mediator_run_chained E reqs' (new_mediator E im' cx' d')) as H2.
  apply chain_code_eq in H1. apply chain_code_eq in H2. fold r in H1. fold r' in H2. rewrite H1, H2 in Heq.
  refine (chain_unique E d d' Hq _ _ _ _ Heq).
  - apply Forall_forall. intros x Hx. apply in_map_iff in Hx as [b [<- Hb]]. apply (produced_hash_nonneg E Hq) in Hb. exact Hb.
  - apply Forall_forall. intros x Hx. apply in_map_iff in Hx as [b [<- Hb]]. apply (produced_hash_nonneg E Hq) in Hb. exact Hb.
Qed.

(** ** C41 *)
Lemma ct_eqb_eq a b : ct_eqb a b = true <-> a = b.
Proof.
  destruct a, b. unfold ct_eqb; cbn. rewrite andb_true_iff, !Z.eqb_eq. split; [intros [-> ->]; reflexivity|intros H; injection H as -> ->; auto].
Qed.
Lemma selection_valid_iff E s K Q : selection_is_valid_encryption E s (cs_desc_hash s) K Q = true <->
  cs_hash s = selection_hash E (cs_id s) (cs_desc_hash s) (cs_ct s) /\
  exists pf, cs_proof s = Some pf /\ disj_is_valid E pf (cs_ct s) K Q = true.
Proof.
  unfold selection_is_valid_encryption. rewrite Z.eqb_refl. cbn [negb].
  destruct (Z.eqb_spec (cs_hash s) (selection_hash E (cs_id s) (cs_desc_hash s) (cs_ct s))) as [He|He]; cbn [negb].
  - destruct (cs_proof s) as [pf|]; split.
    + eauto.
    + intros (_ & pf' & Hp & Hv). injection Hp as ->. exact Hv.
    + discriminate.
    + intros (_ & pf' & Hp & _). discriminate.
  - split; [discriminate|]. intros (H & _). contradiction.
Qed.
Lemma contest_valid_iff E c K Q : contest_is_valid_encryption E c (bc_desc_hash c) K Q = Ok true <->
  bc_hash c = contest_crypto_hash E (bc_id c) (bc_selections c) (bc_desc_hash c) /\
  elgamal_add E (map cs_ct (bc_selections c)) = Ok (bc_acc c) /\
  exists pf, bc_proof c = Some pf /\ const_is_valid E pf (bc_acc c) K Q = true.
Proof.
  unfold contest_is_valid_encryption. rewrite Z.eqb_refl. cbn [negb].
  destruct (Z.eqb_spec (bc_hash c) (contest_crypto_hash E (bc_id c) (bc_selections c) (bc_desc_hash c))) as [He|He]; cbn [negb].
  2:{ split; [discriminate|]. intros (H & _). contradiction. }
  destruct (bc_proof c) as [pf|].
  2:{ split; [discriminate|]. intros (_ & _ & pf & Hp & _). discriminate. }
  unfold accumulate_selections. destruct (elgamal_add E (map cs_ct (bc_selections c))) as [acc|e]; cbn [rbind].
  2:{ split; [discriminate|]. intros (_ & H & _). discriminate. }
  destruct (ct_eqb (bc_acc c) acc) eqn:Ha; cbn [negb].
  - apply ct_eqb_eq in Ha. rewrite Ha. split.
    + intros H. injection H as H. split; [assumption|]. split; [reflexivity|]. eauto.
    + intros (_ & _ & pf' & Hp & Hv). injection Hp as ->. rewrite Hv. reflexivity.
  - split; [discriminate|]. intros (_ & H & _). injection H as ->. assert (ct_eqb (bc_acc c) (bc_acc c) = true) by (apply ct_eqb_eq; reflexivity). congruence.
Qed.
Lemma contest_checks_iff E c K Q : contest_checks E c K Q = Ok true <->
  (forall s, In s (bc_selections c) -> selection_is_valid_encryption E s (cs_desc_hash s) K Q = true) /\
  contest_is_valid_encryption E c (bc_desc_hash c) K Q = Ok true.
Proof.
  unfold contest_checks. destruct (contest_is_valid_encryption E c (bc_desc_hash c) K Q) as [v|]; cbn [rbind].
  - rewrite <- forallb_forall. destruct (forallb _ _), v; cbn; split; intros H; try discriminate; try tauto;
      destruct H as [H1 H2]; try discriminate; reflexivity.
  - split; [discriminate|intros [_ H]; discriminate].
Qed.
Lemma rmapM_forallb {A} (f : A -> res bool) l :
  (do vs <- rmapM f l; Ok (forallb (fun v => v) vs)) = Ok true <-> forall x, In x l -> f x = Ok true.
Proof.
  split.
  - destruct (rmapM f l) as [vs|] eqn:Hr; cbn [rbind]; [|discriminate]. intros H. injection H as H.
    apply rmapM_iff in Hr. intros x Hx. destruct (Forall2_in_l _ _ _ _ Hr Hx) as [v [Hv Hfx]].
    rewrite forallb_forall in H. rewrite (H v Hv) in Hfx. exact Hfx.
  - intros H. destruct (rmapM_all_true f l H) as [vs [-> Hvs]]. cbn [rbind]. rewrite Hvs. reflexivity.
Qed.
Lemma ballot_valid_iff E b seed K Q : ballot_is_valid_encryption E b seed K Q = Ok true <->
  cb_manifest_hash b = seed /\ cb_hash b = ballot_crypto_hash_with E b seed /\
  forall c, In c (cb_contests b) -> contest_checks E c K Q = Ok true.
Proof.
  unfold ballot_is_valid_encryption.
  destruct (Z.eqb_spec seed (cb_manifest_hash b)) as [H1|H1]; cbn [negb].
  2:{ split; [discriminate|]. intros [H _]. congruence. }
  destruct (Z.eqb_spec (cb_hash b) (ballot_crypto_hash_with E b seed)) as [H2|H2]; cbn [negb].
  2:{ split; [discriminate|]. intros (_ & H & _). congruence. }
  rewrite rmapM_forallb. split; [intros H; auto|intros (_ & _ & H); exact H].
Qed.

Definition style_match (E : env) (b : ct_ballot) (d : contest_ph) : Prop :=
  exists c, find (fun c => String.eqb (cd_id (ph_desc d)) (bc_id c)) (cb_contests b) = Some c /\
    bc_desc_hash c = contest_hash E (ph_desc d) /\
    len (bc_selections c) = len (cd_selections (ph_desc d)) + len (ph_placeholders d) /\
    forall o, In o (cd_selections (ph_desc d)) ->
      exists s, find (fun s => String.eqb (sd_id o) (cs_id s)) (bc_selections c) = Some s /\
        cs_desc_hash s = selection_desc_hash E o.
Lemma style_contest_iff E b d : style_contest_ok E b d = true <-> style_match E b d.
Proof.
  unfold style_contest_ok, style_match. rewrite find_find_first. cbv [eqb EqB_string].
  destruct (find_first _ (cb_contests b)) as [c|].
  2:{ split; [discriminate|]. intros (c & H & _). discriminate. }
  unfold contest_valid_for_style. rewrite !andb_true_iff, !Z.eqb_eq, forallb_forall. split.
  - intros ((H1 & H2) & H3). exists c. split; [reflexivity|]. split; [assumption|]. split; [assumption|].
    intros o Ho. specialize (H3 o Ho). rewrite find_find_first. destruct (find_first _ (bc_selections c)) as [s|]; [|discriminate].
    exists s. split; [reflexivity|]. apply Z.eqb_eq, H3.
  - intros (c' & Hc & H1 & H2 & H3). injection Hc as <-. split; [split; assumption|].
    intros o Ho. destruct (H3 o Ho) as (s & Hs & Hh). rewrite find_find_first in Hs. rewrite Hs. apply Z.eqb_eq, Hh.
Qed.

Lemma accepted_iff E b im cx : ballot_valid_for_election E b im cx true = Ok true <->
  exists ds, get_contests_for im (cb_style b) = Ok ds /\
    (forall d, In d ds -> style_match E b d) /\
    cb_manifest_hash b = im_hash im /\ cb_hash b = ballot_crypto_hash_with E b (im_hash im) /\
    forall c, In c (cb_contests b) ->
      bc_hash c = contest_crypto_hash E (bc_id c) (bc_selections c) (bc_desc_hash c) /\
      elgamal_add E (map cs_ct (bc_selections c)) = Ok (bc_acc c) /\
      (exists pf, bc_proof c = Some pf /\ const_is_valid E pf (bc_acc c) (cx_key cx) (cx_ext_hash cx) = true) /\
      forall s, In s (bc_selections c) ->
        cs_hash s = selection_hash E (cs_id s) (cs_desc_hash s) (cs_ct s) /\
        exists pf, cs_proof s = Some pf /\ disj_is_valid E pf (cs_ct s) (cx_key cx) (cx_ext_hash cx) = true.
Proof.
  unfold ballot_valid_for_election, ballot_valid_for_style.
  destruct (get_contests_for im (cb_style b)) as [ds|]; cbn [rbind].
  2:{ split; [discriminate|]. intros (ds & H & _). discriminate. }
  assert (Hst : forallb (style_contest_ok E b) ds = true <-> forall d, In d ds -> style_match E b d).
  { rewrite forallb_forall. split; intros H d Hd; apply style_contest_iff, H, Hd. }
  destruct (forallb (style_contest_ok E b) ds) eqn:Hf; cbn [negb].
  2:{ split; [discriminate|]. intros (ds' & Hd & H & _). injection Hd as <-. apply Hst in H. discriminate. }
  assert (Hv : (do v <- ballot_is_valid_encryption E b (im_hash im) (cx_key cx) (cx_ext_hash cx); Ok v) = Ok true <->
               ballot_is_valid_encryption E b (im_hash im) (cx_key cx) (cx_ext_hash cx) = Ok true).
  { destruct (ballot_is_valid_encryption _ _ _ _ _); reflexivity. }
  rewrite Hv, ballot_valid_iff. split.
  - intros (H1 & H2 & H3). exists ds. split; [reflexivity|]. split; [apply Hst; reflexivity|]. split; [assumption|]. split; [assumption|].
    intros c Hc. specialize (H3 c Hc). apply contest_checks_iff in H3 as [H3 H4]. apply contest_valid_iff in H4 as (H4 & H5 & H6).
    split; [assumption|]. split; [assumption|]. split; [assumption|]. intros s Hs. apply selection_valid_iff, H3, Hs.
  - intros (ds' & Hd & H & H1 & H2 & H3). split; [assumption|]. split; [assumption|]. intros c Hc.
    destruct (H3 c Hc) as (H4 & H5 & H6 & H7). apply contest_checks_iff. split.
    + intros s Hs. apply selection_valid_iff, H7, Hs.
    + apply contest_valid_iff. auto.
Qed.

Lemma contest_sound E E' K Q Q' L c c' : valid_env E -> same_group E E' -> in_subgroup E K -> qq E * L <= pp E ->
  contest_checks E c K Q = Ok true -> contest_checks E' c' K Q' = Ok true -> bc_acc c = bc_acc c' -> forked_contest L c c' ->
  exists vs, Forall2 (fun s v => (v = 0 \/ v = 1) /\
                exists r, 0 <= r < qq E /\ is_encryption E K r v (ct_pad (cs_ct s)) (ct_data (cs_ct s))) (bc_selections c) vs /\
    sumZ vs mod qq E = L mod qq E.
Proof.
  intros HE HS HK HL Hc Hc' Hacc [HF (a & b & ch & v & ch' & v' & Hp & Hp' & Hne)].
  apply contest_checks_iff in Hc as [Hsel Hcon]. apply contest_checks_iff in Hc' as [Hsel' Hcon'].
  apply contest_valid_iff in Hcon as (_ & Hadd & pf & Hpf & Hval). apply contest_valid_iff in Hcon' as (_ & _ & pf' & Hpf' & Hval').
  rewrite Hp in Hpf. injection Hpf as <-. rewrite Hp' in Hpf'. injection Hpf' as <-. rewrite <- Hacc in Hval'.
  destruct (const_extract E E' HE HS _ _ _ _ _ _ _ _ _ _ _ HK HL Hval Hval' Hne) as [r [Hr HencL]].
  assert (Hl : exists l : list (ciphertext * Z * Z), map (fun '(c, _, _) => c) l = map cs_ct (bc_selections c) /\
     Forall (fun '(c, r, m) => 0 <= r /\ 0 <= m /\ is_encryption E K r m (ct_pad c) (ct_data c)) l /\
     Forall2 (fun s v => (v = 0 \/ v = 1) /\
                exists r, 0 <= r < qq E /\ is_encryption E K r v (ct_pad (cs_ct s)) (ct_data (cs_ct s))) (bc_selections c) (map (fun '(_, _, m) => m) l)).
  { clear Hadd Hp Hp' Hacc Hval Hval' HencL. revert Hsel Hsel'. induction HF as [|s s' ss ss' Hs HF IH]; intros Hsel Hsel'.
    - exists []. repeat split; constructor.
    - destruct IH as [l (H1 & H2 & H3)]; [intros; apply Hsel; right; assumption|intros; apply Hsel'; right; assumption|].
      destruct Hs as [Hct (a0 & b0 & a1 & b1 & c0 & c1 & cc & v0 & v1 & c0' & c1' & cc' & v0' & v1' & Hq1 & Hq2 & Hcc)].
      pose proof (Hsel s (or_introl eq_refl)) as Hv1. pose proof (Hsel' s' (or_introl eq_refl)) as Hv2.
      apply selection_valid_iff in Hv1 as (_ & p1 & Hp1 & Hv1). apply selection_valid_iff in Hv2 as (_ & p2 & Hp2 & Hv2).
      rewrite Hq1 in Hp1. injection Hp1 as <-. rewrite Hq2 in Hp2. injection Hp2 as <-. rewrite <- Hct in Hv2.
      destruct (disj_extract E E' HE HS _ _ _ _ _ _ _ _ _ _ _ _ _ _ _ _ _ _ HK Hv1 Hv2 Hcc) as (r0 & x & Hr0 & Hx & Hen).
      exists ((cs_ct s, r0, x) :: l). cbn [map]. rewrite H1. split; [reflexivity|]. split.
      + constructor; [|assumption]. split; [lia|]. split; [destruct Hx; lia|exact Hen].
      + constructor; [|assumption]. split; [exact Hx|]. eauto. }
  destruct Hl as [l (H1 & H2 & H3)].
  exists (map (fun '(_, _, m) => m) l). split; [exact H3|].
  assert (Hlne : l <> []). { intros ->. cbn in H1. rewrite <- H1 in Hadd. discriminate. }
  destruct (add_encryptions E HE K l HK Hlne H2) as [acc [Ha Henc]]. rewrite H1, Hadd in Ha. injection Ha as <-.
  destruct (subgroup_cyclic E K HE HK) as [s [Hs HKs]].
  assert (HKg : K = gexp E s) by (unfold gexp; exact HKs).
  assert (Hnn : 0 <= sumZ (map (fun '(_, r, _) => r) l) /\ 0 <= sumZ (map (fun '(_, _, m) => m) l)).
  { clear - H2. split; apply sumZ_nonneg; apply Forall_forall; intros y Hy; apply in_map_iff in Hy as [[[cc rr] mm] [<- Hy]];
      rewrite Forall_forall in H2; specialize (H2 _ Hy); cbn in H2; tauto. }
  assert (HL0 : 0 <= L) by (apply (const_accept_iff E HE) in Hval; tauto).
  rewrite HKg in Henc, HencL.
  refine (enc_unique E HE s _ r _ L (bc_acc c) _ _ _ _ HL0 Henc HencL); lia.
Qed.

(** an accepted ballot can contain a contest outside its style, an unknown selection in place of a
    placeholder, and a contest in which more options than seats are selected *)
Definition mk_sel (o : selection_desc) (i : string) (v r : Z) (ph : bool) : ct_selection :=
  match elgamal_encrypt medium v r (cx_key demo_cx) with
  | Ok (Some c) => match make_ct_selection medium i (sd_seq o) (selection_desc_hash medium o) c (cx_key demo_cx) (cx_ext_hash demo_cx) 21 v ph (Some r) with
                   | Ok s => s | Err _ => mkCsel "" 0 0 c 0 false None None end
  | _ => mkCsel "" 0 0 (mkCt 0 0) 0 false None None end.
Definition mk_con (c : contest_desc) (ss : list ct_selection) (total : Z) : ct_contest :=
  match make_ct_contest medium (cd_id c) (cd_seq c) (contest_hash medium c) ss (cx_key demo_cx) (cx_ext_hash demo_cx) 33 total None None with
  | Ok x => x | Err _ => mkCcon "" 0 0 [] (mkCt 0 0) 0 None None None end.
Definition rogue_ballot : ct_ballot := Eval vm_compute in
  make_ct_ballot medium "b" "county-only" (im_hash (demo_im medium)) (Some 3)
    [mk_con mayor [mk_sel (mkSel "mayor-ann" 1 "ann") "mayor-ann" 1 5 false; mk_sel (mkSel "mayor-bob" 2 "bob") "mayor-bob" 1 6 false;
                   mk_sel (mkSel "nobody" 9 "x") "nobody" 0 7 false] 2;
     mk_con council [mk_sel (mkSel "council-cy" 3 "cy") "council-cy" 1 8 false] 1] None None None 100.
Lemma rogue_accepted : ballot_valid_for_election medium rogue_ballot (demo_im medium) demo_cx true = Ok true.
Proof. vm_cast_no_check (eq_refl (Ok true)). Qed.
Lemma rogue_extra_contest : exists E im cx b ds c, valid_env E /\ in_subgroup E (cx_key cx) /\
  ballot_valid_for_election E b im cx true = Ok true /\ get_contests_for im (cb_style b) = Ok ds /\
  In c (cb_contests b) /\ ~ In (bc_id c) (map (fun d => cd_id (ph_desc d)) ds).
Proof.
  exists medium, (demo_im medium), demo_cx, rogue_ballot. do 2 eexists.
  split; [exact medium_valid|]. split; [apply gexp_subgroup; [exact medium_valid|lia]|].
  split; [exact rogue_accepted|]. split; [vm_compute; reflexivity|].
  split; [right; left; reflexivity|]. cbn. intros [H|[]]. discriminate.
Qed.
Lemma rogue_overvote : exists E im cx b ds c d, valid_env E /\ in_subgroup E (cx_key cx) /\
  ballot_valid_for_election E b im cx true = Ok true /\ get_contests_for im (cb_style b) = Ok ds /\ In d ds /\
  In c (cb_contests b) /\ bc_id c = cd_id (ph_desc d) /\ cd_number_elected (ph_desc d) = 1 /\
  elgamal_decrypt E (bc_acc c) 77 = Ok 2 /\
  (exists s, In s (bc_selections c) /\ ~ In (cs_id s) (map sd_id (cd_selections (ph_desc d) ++ ph_placeholders d))).
Proof.
  exists medium, (demo_im medium), demo_cx, rogue_ballot. eexists. do 2 eexists.
  split; [exact medium_valid|]. split; [apply gexp_subgroup; [exact medium_valid|lia]|].
  split; [exact rogue_accepted|]. split; [vm_compute; reflexivity|].
  split; [left; reflexivity|]. split; [left; reflexivity|]. split; [reflexivity|]. split; [reflexivity|].
  split; [vm_compute; reflexivity|]. eexists. split; [right; right; left; reflexivity|].
  cbn. intros H. repeat destruct H as [H|H]; try discriminate; contradiction.
Qed.

(** ** the demo election meets the hypotheses *)
Definition demo_ds : list contest_ph := [ph_of mayor; ph_of council].
Lemma demo_setup : manifest_is_valid demo_manifest = true /\ make_internal medium demo_manifest = Ok (demo_im medium) /\
  get_contests_for (demo_im medium) (pb_style demo_ballot) = Ok demo_ds /\ demo_ds <> [] /\ in_order demo_ds /\
  (forall d, In d demo_ds -> limit_fits medium (cd_number_elected (ph_desc d))).
Proof.
  split; [reflexivity|]. split; [vm_compute; reflexivity|]. split; [vm_compute; reflexivity|]. split; [discriminate|]. split.
  - constructor; [constructor; [constructor|constructor]|constructor; [vm_compute; discriminate|constructor]].
  - intros d Hd. unfold limit_fits. cbn in Hd. destruct Hd as [<-|[<-|[]]]; cbn [ph_of mayor council]; vm_compute; repeat split; discriminate || reflexivity.
Qed.
Lemma demo_key : in_subgroup medium (cx_key demo_cx).
Proof. apply gexp_subgroup; [exact medium_valid|lia]. Qed.
Lemma medium_hmac : hmac_32 medium.
Proof. exact toy_hmac_ok. Qed.
Lemma demo_succeeds_hyps :
  (forall d, In d demo_ds -> limit_fits medium (cd_number_elected (ph_desc d)) /\ seqs_nonneg d /\
     usable_nonces medium d (hash_elems medium [HElem (im_hash (demo_im medium)); HStr (pb_id demo_ballot); HElem 11])) /\
  (forall d, In d demo_ds -> let c := voter_contest demo_ballot d in
     pt_contest_valid c d <> CheckInvalid /\
     ((1 <=? marked c) && overvoted c d = true \/ forall s, In s (pc_selections c) -> ps_vote s = 0 \/ ps_vote s = 1) /\
     cd_selections (ph_desc d) <> [] /\
     (forall err data x, contest_error (pt_contest_valid c d) = Some (err, data, x) ->
       Z.of_nat (String.length (contest_data_json medium err data (write_ins c))) <= 510)).
Proof.
  split; intros d Hd.
  - split; [apply demo_setup, Hd|]. cbn in Hd. destruct Hd as [<-|[<-|[]]]; (split; [split; [vm_compute; discriminate|]|]);
      intros o Ho; cbn in Ho; repeat destruct Ho as [<-|Ho]; try contradiction; try (vm_compute; discriminate); cbv zeta; split; vm_compute; discriminate.
  - cbn in Hd. destruct Hd as [<-|[<-|[]]]; cbv zeta; (split; [vm_compute; discriminate|]); (split; [right|]);
      try (intros s Hs; vm_compute in Hs; repeat destruct Hs as [<-|Hs]; try contradiction; cbn; auto; fail);
      (split; [discriminate|]); intros err data x H; vm_compute in H; injection H as <- <- <-; vm_compute; discriminate.
Qed.

(** ** a ballot whose contests are not listed in sequence order *)
Lemma demo_votes_ok : forall d, In d demo_ds -> let c := voter_contest demo_ballot d in
     pt_contest_valid c d <> CheckInvalid /\
     ((1 <=? marked c) && overvoted c d = true \/ forall s, In s (pc_selections c) -> ps_vote s = 0 \/ ps_vote s = 1) /\
     cd_selections (ph_desc d) <> [] /\
     (forall err data x, contest_error (pt_contest_valid c d) = Some (err, data, x) ->
       Z.of_nat (String.length (contest_data_json medium err data (write_ins c))) <= 510).
Proof. exact (proj2 demo_succeeds_hyps). Qed.
Definition swapped_eb : ct_ballot :=
  get_ballot (encrypt_ballot medium demo_ballot swapped_im demo_cx 5 (Some 11) false 0 100).
Lemma swapped_ok : encrypt_ballot medium demo_ballot swapped_im demo_cx 5 (Some 11) false 0 100 = Ok (Some swapped_eb).
Proof.
  assert (H : exists eb, encrypt_ballot medium demo_ballot swapped_im demo_cx 5 (Some 11) false 0 100 = Ok (Some eb)).
  { refine (encrypt_ballot_succeeds medium swapped_im demo_cx demo_ballot 5 (Some 11) false 0 100 [ph_of council; ph_of mayor] swapped_manifest
      medium_valid medium_hmac _ _ demo_key _ _ _ _); [reflexivity|vm_compute; reflexivity|vm_compute; reflexivity|discriminate| |].
    - intros d Hd. assert (Hd' : In d demo_ds) by (cbn in *; tauto).
      split; [apply demo_setup, Hd'|]. split; [apply demo_succeeds_hyps, Hd'|].
      cbn in Hd. destruct Hd as [<-|[<-|[]]]; intros o Ho; cbn in Ho; repeat destruct Ho as [<-|Ho]; try contradiction;
        cbv zeta; split; vm_compute; discriminate.
    - intros d Hd. apply demo_votes_ok. cbn in *; tauto. }
  destruct H as [eb H]. unfold swapped_eb. rewrite H. reflexivity.
Qed.
Lemma swapped_order_refused : exists E m im cx b eseed nonce rand now eb, valid_env E /\
  manifest_is_valid m = true /\ make_internal E m = Ok im /\ in_subgroup E (cx_key cx) /\
  encrypt_ballot E b im cx eseed nonce false rand now = Ok (Some eb) /\
  ballot_is_valid_encryption E eb (im_hash im) (cx_key cx) (cx_ext_hash cx) = Ok false.
Proof.
  exists medium, swapped_manifest, swapped_im, demo_cx, demo_ballot, 5, (Some 11), 0, 100, swapped_eb.
  split; [exact medium_valid|]. split; [reflexivity|]. split; [vm_compute; reflexivity|].
  split; [exact demo_key|]. split; [exact swapped_ok|]. lazy. reflexivity.
Qed.
Lemma demo_eb_ok : encrypt_ballot medium demo_ballot (demo_im medium) demo_cx 5 (Some 11) true 0 100 = Ok (Some demo_eb).
Proof.
  assert (H : exists eb, encrypt_ballot medium demo_ballot (demo_im medium) demo_cx 5 (Some 11) true 0 100 = Ok (Some eb)).
  { destruct demo_setup as (H1 & H2 & H3 & H4 & H5 & _).
    refine (encrypt_ballot_succeeds medium (demo_im medium) demo_cx demo_ballot 5 (Some 11) true 0 100 demo_ds demo_manifest
      medium_valid medium_hmac H1 H2 demo_key H3 (fun _ => conj H4 H5) (proj1 demo_succeeds_hyps) (proj2 demo_succeeds_hyps)). }
  destruct H as [eb H]. unfold demo_eb. rewrite H. reflexivity.
Qed.

Lemma ballot_contests : forall E b im cx eseed nonce verify rand now eb,
  encrypt_ballot E b im cx eseed nonce verify rand now = Ok (Some eb) ->
  exists ds, get_contests_for im (pb_style b) = Ok ds /\
    cb_id eb = pb_id b /\ cb_style eb = pb_style b /\ cb_manifest_hash eb = im_hash im /\ cb_code_seed eb = eseed /\
    Forall2 (fun d ec => encrypt_contest E (voter_contest b d) d (cx_key cx) (cx_ext_hash cx)
      (hash_elems E [HElem (im_hash im); HStr (pb_id b); HElem (match nonce with Some n => n | None => rand end)]) verify
      = Ok (Some ec)) ds (cb_contests eb).
Proof.
  intros E b im cx eseed nonce verify rand now eb H.
  destruct (encrypt_ballot_form _ _ _ _ _ _ _ _ _ _ H) as (ds & ecs & Hds & HF & ->).
  exists ds. split; [exact Hds|]. do 4 (split; [reflexivity|]). exact HF.
Qed.

(** a prover who knows the nonces answers the challenges of two different hash functions from the same
    commitments *)
Definition medium' : env := mkEnv 65267 32633 3 (fun s => toy_sha (String "x" s) + 5) toy_hmac 1000 toy_jstr toy_jcoord.
Definition fork_of (E : env) : ct_contest :=
  let K := gexp medium 77 in
  let sel i v r :=
    let c := mkCt (gexp medium r) ((gexp medium v * K ^ r) mod pp medium) in
    let u := 3 in let w := 1 in let x := 1 in
    (* simulate the false branch with the fixed challenge w, be honest on the true one *)
    match make_disjunctive medium c r K 9 21 v with
    | Ok pf =>
      let ch := hash_elems E [HElem 9; HElem (ct_pad c); HElem (ct_data c); HElem (d_a0 pf); HElem (d_b0 pf); HElem (d_a1 pf); HElem (d_b1 pf)] in
      let pf' := if v =? 0
        then let c0 := a_minus_b_q medium ch (d_c1 pf) in
             mkDisj (d_a0 pf) (d_b0 pf) (d_a1 pf) (d_b1 pf) c0 (d_c1 pf) ch
               (a_plus_bc_q medium (a_minus_b_q medium (d_v0 pf) (mult_q medium [d_c0 pf; r])) c0 r) (d_v1 pf)
        else let c1 := a_minus_b_q medium ch (d_c0 pf) in
             mkDisj (d_a0 pf) (d_b0 pf) (d_a1 pf) (d_b1 pf) (d_c0 pf) c1 ch (d_v0 pf)
               (a_plus_bc_q medium (a_minus_b_q medium (d_v1 pf) (mult_q medium [d_c1 pf; r])) c1 r) in
      mkCsel i 1 7 c (selection_hash E i 7 c) false None (Some pf')
    | Err _ => mkCsel "" 0 0 c 0 false None None
    end in
  let ss := [sel "a"%string 1 5; sel "b"%string 0 6] in
  match accumulate_selections medium ss with
  | Ok acc =>
    let pf := make_constant medium acc 1 11 K 33 9 in
    let ch := hash_elems E [HElem 9; HElem (ct_pad acc); HElem (ct_data acc); HElem (cc_a pf); HElem (cc_b pf)] in
    let pf' := mkConst (cc_a pf) (cc_b pf) ch
       (a_plus_bc_q medium (a_minus_b_q medium (cc_v pf) (mult_q medium [cc_c pf; 11])) ch 11) 1 in
    mkCcon "c" 1 7 ss acc (contest_crypto_hash E "c" ss 7) None (Some pf') None
  | Err _ => mkCcon "" 0 0 [] (mkCt 0 0) 0 None None None
  end.
Definition fork_contest : ct_contest := Eval vm_compute in fork_of medium.
Definition fork_contest' : ct_contest := Eval vm_compute in fork_of medium'.
Lemma fork_witness : same_group medium medium' /\ qq medium * 1 <= pp medium /\
  contest_checks medium fork_contest (gexp medium 77) 9 = Ok true /\
  contest_checks medium' fork_contest' (gexp medium 77) 9 = Ok true /\
  bc_acc fork_contest = bc_acc fork_contest' /\ forked_contest 1 fork_contest fork_contest'.
Proof.
  split; [repeat split|]. split; [vm_compute; discriminate|]. split; [vm_cast_no_check (eq_refl (Ok true))|].
  split; [vm_cast_no_check (eq_refl (Ok true))|]. split; [reflexivity|]. split.
  - constructor; [|constructor; [|constructor]]; (split; [reflexivity|]);
      do 14 eexists; (split; [reflexivity|]); (split; [reflexivity|]); discriminate.
  - do 6 eexists. split; [reflexivity|]. split; [reflexivity|]. discriminate.
Qed.
