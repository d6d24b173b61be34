(** * EndToEnd: from the key ceremony to the decrypted tally. *)
From Verif Require Import Base Group Codec Hash DLog ElGamal ZK Poly Manifest Ballot Encrypt Box Tally Spec SpecElection SpecTally
  ListFacts GroupFacts ZKFacts CryptoThms ManifestThms EncryptFacts BallotFacts EncryptThms TallyFacts TallyThms TallyMore BoxFacts HonestFacts
  Ceremony SpecCeremony Shares SpecShares SharesFacts SharesThms SharesMore Verify SpecVerify VerifyFacts SpecEndToEnd.
From Coq Require Import Permutation List.

(** ** the options of a tally *)
Lemma tally_options_state E im cx id cs ss vf : NoDup (contest_ids im) -> distinct_option_ids im ->
  tally_options (state_of E im cx id cs ss vf) =
  flat_map (fun d => map (fun o => (cd_id (ph_desc d), sd_id o, fold_left (ct_mul E) (vf (cd_id (ph_desc d)) (sd_id o)) (mkCt 1 1))) (cd_selections (ph_desc d))) (im_contests im)
  /\ map tc_id (dvals (ty_contests (state_of E im cx id cs ss vf))) = contest_ids im.
Proof.
  intros Hn Hd. unfold tally_options, state_of. cbn [ty_contests]. rewrite build_eq by assumption. unfold upd, contest_ids. unfold dvals at 2 3. rewrite !map_map. cbn [fst snd tc_id].
  split; [|reflexivity]. unfold distinct_option_ids in Hd. rewrite map_flat in Hd. clear Hn.
  induction (im_contests im) as [|d l IH]; [reflexivity|]. cbn [map flat_map] in *. rewrite (IH (NoDup_app_r _ _ Hd)). f_equal.
  cbn [tc_id tc_selections]. unfold build_selections. rewrite dict_of_distinct.
  - unfold upd_sel, dvals. rewrite !map_map. reflexivity.
  - rewrite map_map. cbn [fst]. apply NoDup_app_l in Hd. rewrite map_app in Hd. apply (NoDup_app_l _ _ Hd).
Qed.
Lemma manifest_options E m im : make_internal E m = Ok im -> forall cid oid, in_manifest m cid oid <->
  exists d o, In d (im_contests im) /\ cd_id (ph_desc d) = cid /\ In o (cd_selections (ph_desc d)) /\ sd_id o = oid.
Proof.
  intros Hm cid oid. apply make_internal_spec in Hm as (_ & _ & _ & HF). split.
  - intros (c & o & Hc & H). destruct (Forall2_in_l _ _ _ _ HF Hc) as [d [Hd [_ Hq]]]. exists d, o. rewrite Hq. cbn. split; [rewrite <- Hq; exact Hd|exact H].
  - intros (d & o & Hc & H1 & H2 & H3). destruct (Forall2_in_r _ _ _ _ HF Hc) as [c [Hd [_ Hq]]]. exists c, o. rewrite Hq in H1, H2. cbn in H1, H2. auto.
Qed.
Lemma find_by_id {A} (f : A -> string) (l : list A) x : NoDup (map f l) -> In x l -> find (fun y => String.eqb (f y) (f x)) l = Some x.
Proof.
  induction l as [|y l IH]; cbn [map find]; intros Hn Hx; [destruct Hx|]. inversion Hn as [|? ? Hni Hn']; subst.
  destruct (String.eqb_spec (f y) (f x)) as [He|He].
  - destruct Hx as [->|Hx]; [reflexivity|]. exfalso. apply Hni. rewrite He. apply in_map, Hx.
  - destruct Hx as [->|Hx]; [congruence|]. apply IH; assumption.
Qed.
Lemma find_by_none {A} (f : A -> string) (l : list A) i : ~ In i (map f l) -> find (fun y => String.eqb (f y) i) l = None.
Proof.
  induction l as [|y l IH]; cbn [map find]; intros Hn; [reflexivity|].
  destruct (String.eqb_spec (f y) i) as [He|He]; [exfalso; apply Hn; left; exact He|]. apply IH. intros H. apply Hn. right. exact H.
Qed.
Lemma NoDup_option_ids im d : distinct_option_ids im -> In d (im_contests im) -> NoDup (map sd_id (cd_selections (ph_desc d) ++ ph_placeholders d)).
Proof.
  unfold distinct_option_ids. rewrite map_flat. induction (im_contests im) as [|x l IH]; cbn [flat_map]; intros Hn Hd; [destruct Hd|].
  destruct Hd as [->|Hd]; [apply (NoDup_app_l _ _ Hn)|apply IH; [apply (NoDup_app_r _ _ Hn)|exact Hd]].
Qed.

(** ** one voter *)
Section Voter.
  Context (E : env) (m : manifest) (im : internal_manifest) (cx : context).
  Context (HE : valid_env E) (Hv : manifest_is_valid m = true) (Hm : make_internal E m = Ok im) (HK : in_subgroup E (cx_key cx)).
  Context (Hdist : distinct_option_ids im).
  Lemma im_nodup : NoDup (contest_ids im).
  Proof. apply (internal_ids E m); assumption. Qed.
  Lemma find_option_in b ds d o : get_contests_for im (pb_style b) = Ok ds -> In d ds -> In o (cd_selections (ph_desc d)) ->
    find_option im b (cd_id (ph_desc d)) (sd_id o) = Some (d, o).
  Proof.
    intros Hds Hd Ho. unfold find_option. rewrite Hds. destruct (get_contests_sub _ _ _ Hds) as [Hsub Hnd].
    rewrite (find_by_id (fun d => cd_id (ph_desc d)) ds d (Hnd im_nodup) Hd).
    pose proof (NoDup_option_ids im d Hdist (Hsub d Hd)) as Hn. rewrite map_app in Hn. apply NoDup_app_l in Hn.
    rewrite (find_by_id sd_id _ o Hn Ho). reflexivity.
  Qed.
  Lemma find_option_inv b cid oid d o : find_option im b cid oid = Some (d, o) ->
    exists ds, get_contests_for im (pb_style b) = Ok ds /\ In d ds /\ cd_id (ph_desc d) = cid /\ In o (cd_selections (ph_desc d)) /\ sd_id o = oid.
  Proof.
    unfold find_option. destruct (get_contests_for im (pb_style b)) as [ds|]; [|discriminate].
    destruct (find _ ds) as [d'|] eqn:Hd; [|discriminate]. destruct (find _ (cd_selections (ph_desc d'))) as [o'|] eqn:Ho; [|discriminate].
    intros [= -> ->]. exists ds. apply find_some in Hd as [Hd Hi]. apply find_some in Ho as [Ho Hj]. apply String.eqb_eq in Hi, Hj. auto.
  Qed.
  Lemma same_contest_id d d' : In d (im_contests im) -> In d' (im_contests im) -> cd_id (ph_desc d) = cd_id (ph_desc d') -> d = d'.
  Proof.
    intros H1 H2 Hi. pose proof (find_by_id (fun d => cd_id (ph_desc d)) _ d im_nodup H1) as F1.
    pose proof (find_by_id (fun d => cd_id (ph_desc d)) _ d' im_nodup H2) as F2. cbv beta in F1, F2. rewrite Hi, F2 in F1. congruence.
  Qed.
  Context (v : voter) (eb : ct_ballot) (Henc : encrypted_as E im cx v eb) (Hst : usable_style E im (vr_ballot v)).
  Notation b := (vr_ballot v).
  Lemma voter_contests : exists ds, get_contests_for im (pb_style b) = Ok ds /\ cb_id eb = vr_id v /\
    well_made E b ds (cx_key cx) (cx_ext_hash cx) (seed_of E b im (vr_nonce v) (vr_rand v)) (cb_contests (sb_ballot (submit_ballot E eb (vr_state v)))) /\
    ds <> [] /\ in_order ds /\ (forall d, In d ds -> limit_fits E (cd_number_elected (ph_desc d))).
  Proof.
    destruct (encrypted_well_made E HE _ _ _ _ _ _ _ _ _ HK Henc) as (ds & H1 & H2 & _ & _ & H3).
    exists ds. split; [exact H1|]. split; [exact H2|]. split; [apply H3|]. apply (Hst ds H1).
  Qed.
  Lemma voter_votes d o st : In d (im_contests im) -> In o (cd_selections (ph_desc d)) ->
    let cid := cd_id (ph_desc d) in let oid := sd_id o in
    (votes_for (sb_ballot (submit_ballot E eb st)) cid oid = [] /\ vote_for im b cid oid = 0) \/
    exists c r, votes_for (sb_ballot (submit_ballot E eb st)) cid oid = [c] /\ 0 <= r /\ 0 <= vote_for im b cid oid /\
      is_encryption E (cx_key cx) r (vote_for im b cid oid) (ct_pad c) (ct_data c).
  Proof.
    intros Hd Ho. cbv zeta. destruct voter_contests as (ds & H1 & H2 & _ & H3 & H4 & H5).
    destruct (accept_votes E m im cx b (vr_seed v) (vr_nonce v) (vr_verify v) (vr_rand v) (vr_now v) eb ds HE Hv Hm HK H1 Henc st d o Hd Ho)
      as [[Hn Hz]|(Hin & c & r & Hc & Hr & H01 & He)].
    - left. split; [exact Hz|]. unfold vote_for. destruct (find_option im b _ _) as [[d' o']|] eqn:Hf; [exfalso|reflexivity].
      apply find_option_inv in Hf as (ds' & F1 & F2 & F3 & _). rewrite H1 in F1. injection F1 as <-. apply Hn.
      rewrite (same_contest_id d d'); [exact F2|exact Hd|apply (get_contests_sub _ _ _ H1), F2|symmetry; exact F3].
    - right. exists c, r. unfold vote_for. rewrite (find_option_in b ds d o H1 Hin Ho). split; [exact Hc|]. split; [lia|]. split; [lia|exact He].
  Qed.
  Lemma vote_01 cid oid : vote_for im b cid oid = 0 \/ vote_for im b cid oid = 1.
  Proof.
    destruct voter_contests as (ds & H1 & H2 & _ & H3 & H4 & H5). unfold vote_for. destruct (find_option im b cid oid) as [[d o]|] eqn:Hf; [|left; reflexivity].
    apply find_option_inv in Hf as (ds' & F1 & F2 & F3 & F4 & F5). rewrite H1 in F1. injection F1 as <-.
    destruct (accept_votes E m im cx b (vr_seed v) (vr_nonce v) (vr_verify v) (vr_rand v) (vr_now v) eb ds HE Hv Hm HK H1 Henc CAST d o) as [[Hn _]|(_ & c & r & _ & _ & H01 & _)];
      [apply (get_contests_sub _ _ _ H1), F2|exact F4|contradiction|exact H01].
  Qed.
  (** *** every entry of the ballot, placeholders included *)
  Definition shown_vote (cid oid : string) : Z :=
    match get_contests_for im (pb_style b) with
    | Ok ds => match find (fun d => String.eqb (cd_id (ph_desc d)) cid) ds with
               | Some d => match find (fun s => String.eqb (ps_id s) oid) (pc_selections (opened_contest (voter_contest b d) d false)) with
                           | Some s => ps_vote s | None => 0 end
               | None => 0 end
    | Err _ => 0
    end.
  Definition entry_ok (s : pt_selection) (e : ct_selection) : Prop :=
    cs_id e = ps_id s /\ (ps_vote s = 0 \/ ps_vote s = 1) /\ exists r, 0 <= r /\ is_encryption E (cx_key cx) r (ps_vote s) (ct_pad (cs_ct e)) (ct_data (cs_ct e)).
  Lemma contest_entries d c : (exists ec re ex vs, contest_encrypted E (voter_contest b d) d (cx_key cx) (cx_ext_hash cx) (seed_of E b im (vr_nonce v) (vr_rand v)) ec re ex vs /\
      (c = ec \/ c = strip_contest ec)) ->
    bc_id c = cd_id (ph_desc d) /\ Forall2 entry_ok (pc_selections (opened_contest (voter_contest b d) d false)) (bc_selections c).
  Proof.
    intros (ec & re & ex & vs & Hce & Hc).
    assert (H : bc_id ec = cd_id (ph_desc d) /\ Forall2 entry_ok (pc_selections (opened_contest (voter_contest b d) d false)) (bc_selections ec)).
    { split; [exact (ce_id _ _ _ _ _ _ _ _ _ _ Hce)|]. rewrite (ce_split _ _ _ _ _ _ _ _ _ _ Hce). unfold opened_contest. cbn [pc_selections].
      apply Forall2_app.
      - apply Forall2_map_l. eapply Forall2_impl'; [|exact (ce_real _ _ _ _ _ _ _ _ _ _ Hce)].
        intros o e _ _ (H01 & _ & (Hi & _ & _ & _ & r & _ & Hr & He) & _). split; [exact Hi|]. cbn [ps_vote]. split; [exact H01|]. exists r. split; [lia|exact He].
      - apply Forall2_map_l. rewrite <- (ce_vs _ _ _ _ _ _ _ _ _ _ Hce). eapply Forall2_impl'; [|exact (ce_extra _ _ _ _ _ _ _ _ _ _ Hce)].
        intros [o x] e _ _ (H01 & _ & (Hi & _ & _ & _ & r & _ & Hr & He) & _). split; [exact Hi|]. cbn [ps_vote]. split; [exact H01|]. exists r. split; [lia|exact He]. }
    destruct Hc as [-> | ->]; [exact H|]. destruct H as [H1 H2]. split; [exact H1|]. cbn [strip_contest bc_selections]. apply Forall2_map_r. exact H2.
  Qed.
  Lemma opened_ids d : map ps_id (pc_selections (opened_contest (voter_contest b d) d false)) = map sd_id (cd_selections (ph_desc d) ++ ph_placeholders d).
  Proof.
    unfold opened_contest. cbn [pc_selections]. rewrite !map_app, map_map. f_equal. rewrite map_map.
    generalize (cd_number_elected (ph_desc d) - sumZ (map (recorded_vote (voter_contest b d) d) (cd_selections (ph_desc d)))).
    induction (ph_placeholders d) as [|o l IH]; intros n; [reflexivity|]. cbn [fill combine map]. rewrite IH. reflexivity.
  Qed.
  Lemma ballot_entries : let bl := sb_ballot (submit_ballot E eb (vr_state v)) in
    ballot_distinct bl /\
    (forall cid oid ct, In (cid, oid, ct) (ballot_options bl) ->
       (exists r, 0 <= r /\ is_encryption E (cx_key cx) r (shown_vote cid oid) (ct_pad ct) (ct_data ct)) /\ (shown_vote cid oid = 0 \/ shown_vote cid oid = 1)) /\
    (forall cid oid, ((exists ct, In (cid, oid, ct) (ballot_options bl)) /\ in_manifest m cid oid) <-> on_ballot im b cid oid) /\
    (forall cid oid, on_ballot im b cid oid -> shown_vote cid oid = vote_for im b cid oid).
  Proof.
    cbv zeta. destruct voter_contests as (ds & H1 & H2 & Hw & H3 & H4 & H5). destruct (get_contests_sub _ _ _ H1) as [Hsub Hnd]. specialize (Hnd im_nodup).
    set (bl := sb_ballot (submit_ballot E eb (vr_state v))) in *.
    assert (HF : Forall2 (fun d c => bc_id c = cd_id (ph_desc d) /\ Forall2 entry_ok (pc_selections (opened_contest (voter_contest b d) d false)) (bc_selections c)) ds (cb_contests bl)).
    { eapply Forall2_impl'; [|exact Hw]. intros d c _ _. apply contest_entries. }
    assert (HV : Forall2 (votes_as E b (cx_key cx)) ds (cb_contests bl)) by (eapply made_votes; exact Hw).
    split; [|split; [|split]].
    - split; [apply (made_nodup E im b ds (cx_key cx) bl im_nodup H1 HV)|].
      destruct (made_own_ids E im b ds (cx_key cx) bl H1 HV Hdist) as [Hi _]. rewrite map_flat in Hi. unfold ballot_options. rewrite map_flat.
      erewrite flat_map_ext; [exact Hi|]. intros c. cbv beta. rewrite map_map. reflexivity.
    - intros cid oid ct Hin. unfold ballot_options in Hin. apply in_flat_map in Hin as [c [Hc Hin]]. apply in_map_iff in Hin as [e [He Hin]]. injection He as <- <- <-.
      destruct (Forall2_in_r _ _ _ _ HF Hc) as [d [Hd [Hi Hs]]]. destruct (Forall2_in_r _ _ _ _ Hs Hin) as [s [Hs' (S1 & S2 & S3)]].
      unfold shown_vote. rewrite H1, Hi, (find_by_id (fun d => cd_id (ph_desc d)) ds d Hnd Hd), S1.
      rewrite (find_by_id ps_id _ s); [auto| |exact Hs']. rewrite opened_ids. apply (NoDup_option_ids im); auto.
    - intros cid oid. rewrite (manifest_options E m im Hm). split.
      + intros [[ct Hin] (d & o & M1 & M2 & M3 & M4)]. unfold ballot_options in Hin. apply in_flat_map in Hin as [c [Hc Hin]]. apply in_map_iff in Hin as [e [He Hin]]. injection He as He1 He2 He3.
        destruct (Forall2_in_r _ _ _ _ HF Hc) as [d' [Hd [Hi Hs]]]. assert (d' = d) by (apply same_contest_id; [apply Hsub, Hd|exact M1|congruence]). subst d'.
        unfold on_ballot. rewrite <- M2, <- M4, (find_option_in b ds d o H1 Hd M3). discriminate.
      + unfold on_ballot. destruct (find_option im b cid oid) as [[d o]|] eqn:Hf; [intros _|congruence].
        apply find_option_inv in Hf as (ds' & F1 & F2 & F3 & F4 & F5). rewrite H1 in F1. injection F1 as <-. split; [|exists d, o; auto].
        destruct (Forall2_in_l _ _ _ _ HV F2) as [c [Hc (V1 & V2 & V3 & V4 & V5)]]. destruct (V5 o F4) as (e & _ & He & _). apply find_some in He as [He Hq]. apply String.eqb_eq in Hq.
        exists (cs_ct e). unfold ballot_options. apply in_flat_map. exists c. split; [exact Hc|]. apply in_map_iff. exists e. split; [|exact He]. congruence.
    - intros cid oid. unfold on_ballot, vote_for. destruct (find_option im b cid oid) as [[d o]|] eqn:Hf; [intros _|congruence].
      apply find_option_inv in Hf as (ds' & F1 & F2 & F3 & F4 & F5). rewrite H1 in F1. injection F1 as <-. subst cid oid.
      unfold shown_vote. rewrite H1, (find_by_id (fun d => cd_id (ph_desc d)) ds d Hnd F2).
      pose proof (find_by_id ps_id (pc_selections (opened_contest (voter_contest b d) d false)) (mkPsel (sd_id o) (recorded_vote (voter_contest b d) d o) false None)) as HX.
      cbn [ps_id] in HX. rewrite HX; [reflexivity| |].
      + rewrite opened_ids. apply (NoDup_option_ids im); auto.
      + unfold opened_contest. cbn [pc_selections]. apply in_or_app. left. apply (in_map (fun o => mkPsel (sd_id o) (recorded_vote (voter_contest b d) d o) false None)). exact F4.
  Qed.
End Voter.

(** ** all voters *)
Lemma box_all E valid : forall h seen, Forall (fun p => valid (fst p) = true) h -> NoDup (map (fun p => cb_id (fst p)) h) ->
  (forall p, In p h -> ~ In (cb_id (fst p)) seen) ->
  somes (box_answers E valid seen h) = map (fun p => submit_ballot E (fst p) (snd p)) h.
Proof.
  induction h as [|[b st] h IH]; intros seen HF Hn Hs; [reflexivity|]. inversion HF as [|? ? Hb HF']; subst. cbn [fst] in Hb. cbn [map] in Hn. inversion Hn as [|? ? Hni Hn']; subst.
  cbn [box_answers map fst snd]. pose proof (Hs _ (or_introl eq_refl)) as Hb'. apply inb_false in Hb'. cbn [fst] in Hb'. rewrite Hb, Hb'. cbn [negb andb].
  unfold somes in *. cbn [flat_map app]. f_equal. apply IH; [exact HF'|exact Hn'|].
  intros p Hp [Hi|Hi]; [|apply (Hs p (or_intror Hp) Hi)]. apply Hni. rewrite Hi. apply (in_map (fun p => cb_id (fst p)) h p Hp).
Qed.
Section Voters.
  Context (E : env) (m : manifest) (im : internal_manifest) (cx : context).
  Context (HE : valid_env E) (Hv : manifest_is_valid m = true) (Hm : make_internal E m = Ok im) (HK : in_subgroup E (cx_key cx)).
  Context (Hdist : distinct_option_ids im).
  Context (vs : list voter) (ebs : list ct_ballot) (Henc : Forall2 (encrypted_as E im cx) vs ebs).
  Context (Hst : forall v, In v vs -> usable_style E im (vr_ballot v)) (Hids : NoDup (map vr_id vs)) (Hun : forall v, In v vs -> vr_state v <> UNKNOWN).
  Definition history : list (ct_ballot * box_state) := combine ebs (map vr_state vs).
  Definition subs : list sub_ballot := map (fun p => submit_ballot E (fst p) (snd p)) history.
  Definition comes_from (v : voter) (sb : sub_ballot) : Prop := exists eb, encrypted_as E im cx v eb /\ sb = submit_ballot E eb (vr_state v).
  Lemma subs_from : Forall2 comes_from vs subs.
  Proof.
    unfold subs, history. clear Hst Hids Hun. induction Henc as [|v eb l l' H HF IH]; [constructor|]. cbn [map combine fst snd].
    constructor; [exists eb; auto|apply IH]. exact HF.
  Qed.
  Lemma from_id v sb : In v vs -> comes_from v sb -> sb_id sb = vr_id v /\ sb_state sb = vr_state v.
  Proof.
    intros Hi (eb & He & ->). destruct (voter_contests E im cx HE HK v eb He (Hst v Hi)) as (_ & _ & H & _). split; [exact H|reflexivity].
  Qed.
  Lemma from_good v sb : In v vs -> comes_from v sb ->
    passes E im cx sb true = true /\ sb_state sb <> UNKNOWN /\ complete im (sb_ballot sb) /\ own_ids im (sb_ballot sb).
  Proof.
    intros Hi (eb & He & ->). destruct (voter_contests E im cx HE HK v eb He (Hst v Hi)) as (ds & H1 & H2 & _ & H3 & H4 & H5).
    split; [eapply (accept_valid E m im cx); eassumption|]. split; [apply (Hun v Hi)|].
    split; [eapply (accept_complete E im cx); eassumption|eapply (accept_own E im cx); eassumption].
  Qed.
  Lemma subs_ids : map sb_id subs = map vr_id vs.
  Proof. symmetry. apply Forall2_map_eq. eapply Forall2_impl'; [|exact subs_from]. intros v sb Hi _ H. symmetry. apply (from_id v sb Hi H). Qed.
  Lemma subs_good : Forall (fun b => passes E im cx b true = true /\ sb_state b <> UNKNOWN /\ complete im (sb_ballot b) /\ own_ids im (sb_ballot b)) subs.
  Proof. apply Forall_forall. intros sb Hin. destruct (Forall2_in_r _ _ _ _ subs_from Hin) as [v [Hi H]]. apply (from_good v sb Hi H). Qed.
  Notation store := (bx_store (fst (run_box E (mkBox im cx ds_new) history))).
  Lemma box_store : ds_items store = map (fun b => (sb_id b, b)) subs.
  Proof.
    destruct (box_history E im cx history) as [_ ->]. f_equal. unfold subs. apply box_all.
    - apply Forall_forall. intros [eb st] Hin. cbn [fst]. unfold history in Hin.
      apply in_combine_l in Hin. destruct (Forall2_in_r _ _ _ _ Henc Hin) as [v [Hi H]].
      destruct (voter_contests E im cx HE HK v eb H (Hst v Hi)) as (ds & H1 & H2 & _ & H3 & H4 & H5).
      destruct (encrypted_ballot_valid E m im cx (vr_ballot v) _ _ _ _ _ eb ds HE Hv Hm HK H1 H3 H4 H5 H) as (_ & Hval & _). unfold valid_for. rewrite Hval. reflexivity.
    - replace (map (fun p => cb_id (fst p)) history) with (map vr_id vs); [exact Hids|]. rewrite <- subs_ids. unfold subs. rewrite map_map. reflexivity.
    - intros p _ [].
  Qed.
  Lemma subs_nodup : NoDup (map sb_id subs).
  Proof. rewrite subs_ids. exact Hids. Qed.
  Lemma store_values : ds_values store = subs.
  Proof. unfold ds_values. change (dvals store) with (map snd (ds_items store)). rewrite box_store, map_map. apply map_id. Qed.
  Lemma store_keys : ds_keys store = map sb_id subs.
  Proof. unfold ds_keys. change (dkeys store) with (map fst (ds_items store)). rewrite box_store, map_map. reflexivity. Qed.
  Lemma store_own i sb : ds_get store i = Some sb -> sb_id sb = i.
  Proof. intros H. apply dget_in in H. change (In (i, sb) (ds_items store)) in H. rewrite box_store in H. apply in_map_iff in H as [x [Hx _]]. congruence. Qed.
  Definition total_tally : tally := fst (run_appends E all_up (new_tally E "election-results" im cx) (map (fun b => (b, true)) subs)).
  Lemma tallied : tally_ballots E true store im cx = Ok (Some total_tally).
  Proof.
    rewrite (tally_ballots_form E im cx HE); [rewrite store_values; reflexivity|apply (im_nodup E m im Hv Hm)| |exact store_own|rewrite store_values; exact subs_good].
    rewrite store_keys. exact subs_nodup.
  Qed.
  Lemma all_counted : accepted (passes E im cx) [] (map (fun b => (b, true)) subs) = subs.
  Proof.
    apply accepted_all; [|exact subs_nodup|intros b _ []]. eapply Forall_impl; [|exact subs_good]. cbv beta. tauto.
  Qed.
  Definition value (cid oid : string) (sb : sub_ballot) : Z :=
    match find (fun v => String.eqb (vr_id v) (sb_id sb)) vs with Some v => vote_for im (vr_ballot v) cid oid | None => 0 end.
  Lemma value_from v sb cid oid : In v vs -> comes_from v sb -> value cid oid sb = vote_for im (vr_ballot v) cid oid.
  Proof. intros Hi H. unfold value. rewrite (proj1 (from_id v sb Hi H)), (find_by_id vr_id vs v Hids Hi). reflexivity. Qed.
  Lemma value_sum cid oid : sumZ (map (value cid oid) (in_state CAST subs)) = cast_count im vs cid oid.
  Proof.
    unfold cast_count, in_state. assert (H : forall l l', Forall2 comes_from l l' -> (forall v, In v l -> In v vs) ->
      sumZ (map (value cid oid) (filter (fun b => box_state_eqb (sb_state b) CAST) l')) = len (filter (fun v => is_cast v && (vote_for im (vr_ballot v) cid oid =? 1)) l)).
    { intros l l' HF. induction HF as [|v sb l l' H HF IH]; intros Hin; [reflexivity|]. cbn [filter].
      destruct (from_id v sb (Hin v (or_introl eq_refl)) H) as [_ Hs]. rewrite Hs. unfold is_cast at 1. specialize (IH (fun w Hw => Hin w (or_intror Hw))).
      destruct (box_state_eqb (vr_state v) CAST); cbn [andb]; [|exact IH]. cbn [map]. rewrite (value_from v sb cid oid (Hin v (or_introl eq_refl)) H).
      unfold sumZ in *. cbn [fold_right]. rewrite IH. destruct H as (eb & He & _).
      destruct (vote_01 E m im cx HE Hv Hm HK v eb He (Hst v (Hin v (or_introl eq_refl))) cid oid) as [-> | ->]; cbn [Z.eqb]; [reflexivity|].
      cbn [Pos.eqb]. unfold len. cbn [List.length]. lia. }
    apply H; [exact subs_from|auto].
  Qed.
  Lemma count_bound cid oid : 0 <= cast_count im vs cid oid <= len (filter is_cast vs).
  Proof.
    unfold cast_count, len. split; [lia|]. apply inj_le. clear. induction vs as [|v l IH]; [apply Nat.le_refl|]. cbn [filter].
    destruct (is_cast v), (vote_for im (vr_ballot v) cid oid =? 1); cbn [andb List.length]; lia.
  Qed.
  Lemma tally_form : exists cs ss vf, total_tally = state_of E im cx "election-results" cs ss vf.
  Proof.
    destruct (run_appends_form E im cx (im_nodup E m im Hv Hm) "election-results" (map (fun b => (b, true)) subs)) as [H _].
    - apply Forall_map. eapply Forall_impl; [|exact subs_good]. cbv beta. tauto.
    - unfold total_tally. rewrite H. eauto.
  Qed.
  Lemma total_distinct : tally_distinct total_tally.
  Proof.
    destruct tally_form as (cs & ss & vf & ->). destruct (tally_options_state E im cx "election-results" cs ss vf (im_nodup E m im Hv Hm) Hdist) as [H1 H2].
    split; [rewrite H2; apply (im_nodup E m im Hv Hm)|]. rewrite H1, map_flat. unfold distinct_option_ids in Hdist. rewrite map_flat in Hdist.
    revert Hdist. clear. intros H. erewrite flat_map_ext; [|intros d; rewrite map_map; cbn [fst snd]; reflexivity].
    induction (im_contests im) as [|d l IH]; [constructor|]. cbn [flat_map] in *. pose proof (NoDup_app_r _ _ H) as H2. rewrite map_app, <- app_assoc in H.
    specialize (IH H2). revert H. induction (map sd_id (cd_selections (ph_desc d))) as [|x xs IHx]; cbn [app]; intros H; [exact IH|].
    inversion H as [|? ? Hni Hn]; subst. constructor; [|apply IHx, Hn]. intros Hin. apply Hni. apply in_app_iff in Hin as [Hin|Hin]; apply in_or_app; [left; exact Hin|right].
    apply in_or_app. right. apply in_flat_map in Hin as [y [Hy Hx]]. apply in_flat_map. exists y. split; [exact Hy|]. rewrite map_app. apply in_or_app. left. exact Hx.
  Qed.
  Lemma total_options cid oid : (exists ct, In (cid, oid, ct) (tally_options total_tally)) <-> in_manifest m cid oid.
  Proof.
    destruct tally_form as (cs & ss & vf & ->). destruct (tally_options_state E im cx "election-results" cs ss vf (im_nodup E m im Hv Hm) Hdist) as [H1 _]. rewrite H1, (manifest_options E m im Hm). split.
    - intros [ct H]. apply in_flat_map in H as [d [Hd H]]. apply in_map_iff in H as [o [Ho H]]. injection Ho as <- <- <-. exists d, o. auto.
    - intros (d & o & Hd & <- & Ho & <-). eexists. apply in_flat_map. exists d. split; [exact Hd|]. apply in_map_iff. exists o. split; [reflexivity|exact Ho].
  Qed.
  Lemma total_entry cid oid ct : In (cid, oid, ct) (tally_options total_tally) ->
    exists d o, In d (im_contests im) /\ cd_id (ph_desc d) = cid /\ In o (cd_selections (ph_desc d)) /\ sd_id o = oid /\ total_of total_tally cid oid = Some ct.
  Proof.
    destruct tally_form as (cs & ss & vf & ->). destruct (tally_options_state E im cx "election-results" cs ss vf (im_nodup E m im Hv Hm) Hdist) as [H1 _]. rewrite H1.
    intros H. apply in_flat_map in H as [d [Hd H]]. apply in_map_iff in H as [o [Ho H]]. injection Ho as <- <- <-. exists d, o.
    do 4 (split; [auto|]). rewrite (total_of_state E im cx _ cs ss vf d o HE (im_nodup E m im Hv Hm) Hd H), (fold_ct_product E HE). reflexivity.
  Qed.
  Lemma total_encrypts : len (filter is_cast vs) < qq E -> len (filter is_cast vs) <= dmax E ->
    encrypts_all E (cx_key cx) (tally_options total_tally) (cast_count im vs).
  Proof.
    intros Hq Hd cid oid ct Hin. destruct (total_entry cid oid ct Hin) as (d & o & D1 & <- & D2 & <- & D3).
    pose proof (count_bound (cd_id (ph_desc d)) (sd_id o)) as Hb. split; [|lia].
    destruct (tally_encrypts_sum E im cx "election-results" (map (fun b => (b, true)) subs) (cx_key cx) HE (im_nodup E m im Hv Hm) HK) with (d := d) (o := o) (value := value (cd_id (ph_desc d)) (sd_id o))
      as (c & r & T1 & T2 & T3); [|exact D1|exact D2| |].
    - apply Forall_map. eapply Forall_impl; [|exact subs_good]. cbv beta. tauto.
    - rewrite all_counted. intros b Hb'. apply filter_In in Hb' as [Hb' _]. destruct (Forall2_in_r _ _ _ _ subs_from Hb') as [v [Hi H]].
      rewrite (value_from v b _ _ Hi H). destruct H as (eb & He & ->). apply (voter_votes E m im cx HE Hv Hm HK Hdist v eb He (Hst v Hi)); assumption.
    - fold total_tally in T1. rewrite D3 in T1. injection T1 as <-. rewrite all_counted, value_sum in T3. exists r. auto.
  Qed.
  Lemma spoiled_list : dvals (get_ballots store (Some SPOILED)) = in_state SPOILED subs.
  Proof.
    unfold get_ballots. rewrite box_store. rewrite dict_of_distinct.
    - unfold dvals, in_state. clear. induction subs as [|b l IH]; [reflexivity|]. cbn [map filter snd]. destruct (box_state_eqb (sb_state b) SPOILED); cbn [map snd]; rewrite IH; reflexivity.
    - apply NoDup_keys_filter. unfold dkeys. rewrite map_map. exact subs_nodup.
  Qed.
  Lemma spoiled_ids : map sb_id (in_state SPOILED subs) = map vr_id (filter is_spoiled vs).
  Proof.
    unfold in_state. assert (H : forall l l', Forall2 comes_from l l' -> (forall v, In v l -> In v vs) ->
      map sb_id (filter (fun b => box_state_eqb (sb_state b) SPOILED) l') = map vr_id (filter is_spoiled l)).
    { intros l l' HF. induction HF as [|v sb l l' H HF IH]; intros Hin; [reflexivity|]. cbn [filter].
      destruct (from_id v sb (Hin v (or_introl eq_refl)) H) as [Hi Hs]. rewrite Hs. unfold is_spoiled at 1. specialize (IH (fun w Hw => Hin w (or_intror Hw))).
      destruct (box_state_eqb (vr_state v) SPOILED); cbn [map]; [|exact IH]. rewrite IH, Hi. reflexivity. }
    apply H; [exact subs_from|auto].
  Qed.
  Lemma aggregated : verify_aggregation E (fun _ => all_up) (ds_values store) total_tally m cx = Ok verified.
  Proof.
    apply (aggregation_complete_store E store m cx im total_tally HE Hv Hm).
    - rewrite store_keys. exact subs_nodup.
    - exact store_own.
    - rewrite store_values. exact subs_good.
    - exact tallied.
  Qed.
  (** what a spoiled ballot shows *)
  Definition spoiled_value (bid cid oid : string) : Z :=
    match find (fun v => String.eqb (vr_id v) bid) vs with Some v => shown_vote im v cid oid | None => 0 end.
  Lemma spoiled_encrypts : 1 <= dmax E -> forall b, In b (in_state SPOILED subs) ->
    ballot_distinct (sb_ballot b) /\ encrypts_all E (cx_key cx) (ballot_options (sb_ballot b)) (spoiled_value (sb_id b)).
  Proof.
    intros Hd b Hb. apply filter_In in Hb as [Hb _]. destruct (Forall2_in_r _ _ _ _ subs_from Hb) as [v [Hi H]].
    pose proof (proj1 (from_id v b Hi H)) as Hid. destruct H as (eb & He & Hb').
    destruct (ballot_entries E m im cx HE Hv Hm HK Hdist v eb He (Hst v Hi)) as (B1 & B2 & _). rewrite <- Hb' in B1, B2. split; [exact B1|].
    intros cid oid ct Hin. unfold spoiled_value. rewrite Hid, (find_by_id vr_id vs v Hids Hi). destruct (B2 cid oid ct Hin) as [B3 B4]. split; [exact B3|].
    assert (1 < qq E) by (pose proof (ve_q E HE) as Hp; apply Znumtheory.prime_ge_2 in Hp; lia). lia.
  Qed.
  Lemma spoiled_shows v sb p : In v vs -> comes_from v sb -> shows p m (ballot_options (sb_ballot sb)) (spoiled_value (sb_id sb)) ->
    forall cid oid n, count_of p cid oid = Some n <-> on_ballot im (vr_ballot v) cid oid /\ n = vote_for im (vr_ballot v) cid oid.
  Proof.
    intros Hi H Hs cid oid n. pose proof (proj1 (from_id v sb Hi H)) as Hid. destruct H as (eb & He & Hb').
    destruct (ballot_entries E m im cx HE Hv Hm HK Hdist v eb He (Hst v Hi)) as (_ & _ & B3 & B4). rewrite <- Hb' in B3.
    rewrite (Hs cid oid n). unfold spoiled_value. rewrite Hid, (find_by_id vr_id vs v Hids Hi). split.
    - intros (H1 & H2 & ->). assert (Ho : on_ballot im (vr_ballot v) cid oid) by (apply B3; auto). split; [exact Ho|apply B4, Ho].
    - intros [Ho ->]. destruct (proj2 (B3 cid oid) Ho) as [H1 H2]. split; [exact H1|]. split; [exact H2|]. symmetry. apply B4, Ho.
  Qed.
End Voters.

(** ** the whole election *)
Lemma available_ready E ss (gs : list guardian) (av : list (seat * guardian)) : Forall2 (ready_guardian E ss) ss gs ->
  (forall a, In a av -> In a (combine ss gs)) -> Forall2 (ready_guardian E ss) (map fst av) (map snd av).
Proof.
  intros HF Hin.
  assert (H : forall s g, In (s, g) (combine ss gs) -> ready_guardian E ss s g).
  { clear Hin. revert HF. generalize ss at 2 3. intros ss0 HF. induction HF as [|s g l l' H HF IH]; [intros ? ? []|].
    intros s' g' [Heq|Hi]; [injection Heq as <- <-; exact H|apply IH, Hi]. }
  induction av as [|[s g] av IH]; [constructor|]. cbn [map fst snd]. constructor; [apply H, Hin; left; reflexivity|]. apply IH. intros; apply Hin; right; assumption.
Qed.
Lemma election : forall E rnd k ss mid m im, valid_env E -> hmac_32 E -> qq E <= 2 ^ 1024 -> good_seats E k ss -> NoDup (map st_seq ss) -> (forall a b, 0 <= rnd a b) ->
  manifest_is_valid m = true -> make_internal E m = Ok im -> distinct_option_ids im ->
  exists gs gs' med jk,
    rmapM (fun s => guardian_from_nonce E (st_id s) (st_seq s) (len ss) (Z.of_nat k) (st_draws s)) ss = Ok gs /\
    full_ceremony E rnd gs (new_mediator mid (mkDetails (len ss) (Z.of_nat k))) = Ok (gs', med) /\
    md_publish_joint_key E med = Some jk /\
    let cx := make_context E (len ss) (Z.of_nat k) (jk_key jk) (jk_hash jk) (im_hash im) in
    forall vs ebs, Forall2 (encrypted_as E im cx) vs ebs -> (forall v, In v vs -> usable_style E im (vr_ballot v)) ->
      NoDup (map vr_id vs) -> (forall v, In v vs -> vr_state v <> UNKNOWN) ->
      len (filter is_cast vs) < qq E -> len (filter is_cast vs) <= dmax E -> 1 <= dmax E ->
    let store := bx_store (fst (run_box E (mkBox im cx ds_new) (combine ebs (map vr_state vs)))) in
    let spoiled := dvals (get_ballots store (Some SPOILED)) in
    forall up rnd' dmid av, (forall path, up path = true) -> (forall a, In a av -> In a (combine ss gs')) -> NoDup (map fst av) -> (k <= length av)%nat ->
    exists t dm p ps,
      tally_ballots E true store im cx = Ok (Some t) /\
      compensated_setup E up rnd' (map snd av) (map share_key gs') (new_dmediator dmid cx) cx t spoiled = Ok dm /\
      dm_plaintext_tally E dm t m = Ok (Some p) /\
      (forall cid oid n, count_of p cid oid = Some n <-> in_manifest m cid oid /\ n = cast_count im vs cid oid) /\
      dm_plaintext_ballots E dm spoiled m = Ok (Some ps) /\
      dkeys ps = map vr_id (filter is_spoiled vs) /\
      (forall v, In v vs -> vr_state v = SPOILED -> exists pb, dget (vr_id v) ps = Some pb /\
         forall cid oid n, count_of pb cid oid = Some n <-> on_ballot im (vr_ballot v) cid oid /\ n = vote_for im (vr_ballot v) cid oid).
Proof.
  intros E rnd k ss mid m im HE Hh Hq1024 Hseats Hseq Hrnd Hv Hm Hdist.
  destruct (ceremony_ready E rnd k ss mid HE Hh Hq1024 Hseats Hrnd) as (gs & gs' & med & R1 & R2 & R3 & R4 & R5).
  exists gs, gs', med. eexists. split; [exact R1|]. split; [exact R2|]. split; [exact R3|]. cbn [jk_key jk_hash].
  set (cx := make_context E (len ss) (Z.of_nat k) _ _ _). intros vs ebs Henc Hst Hids Hun Hq Hd Hd1. cbv zeta.
  intros up rnd' dmid av Hup Hav Hnav Hk.
  assert (HK : in_subgroup E (cx_key cx)) by (apply (joint_subgroup E HE k ss Hseats)).
  change (combine ebs (map vr_state vs)) with (history vs ebs).
  rewrite (spoiled_list E m im cx HE Hv Hm HK vs ebs Henc Hst Hids).
  assert (Hm' : NoDup (map cd_id (mf_contests m))) by (apply manifest_is_valid_iff in Hv as (_ & _ & _ & _ & Hn & _); exact Hn).
  destruct (quorum_decrypts E k ss cx (total_tally E im cx vs ebs) (in_state SPOILED (subs E vs ebs)) up rnd' (map fst av) (map snd av) (map share_key gs') dmid m
     (cast_count im vs) (spoiled_value im vs)) as (dm & D1 & ((p & P1 & P2 & P3) & (ps & S1 & S2 & S3)) & _); try assumption; try reflexivity.
  - apply (ZKFacts.hash_range E HE).
  - intros s Hs. apply in_map_iff in Hs as [[s' g] [<- Hs]]. apply Hav in Hs. apply in_combine_l in Hs. exact Hs.
  - rewrite map_length. exact Hk.
  - apply (available_ready E ss gs' av R4 Hav).
  - apply (total_distinct E m im cx HE Hv Hm HK Hdist vs ebs Henc Hst Hun).
  - apply (total_encrypts E m im cx HE Hv Hm HK Hdist vs ebs Henc Hst Hids Hun Hq Hd).
  - unfold in_state. apply NoDup_map_filter. apply (subs_nodup E im cx HE HK vs ebs Henc Hst Hids).
  - apply (spoiled_encrypts E m im cx HE Hv Hm HK Hdist vs ebs Henc Hst Hids Hd1).
  - exists (total_tally E im cx vs ebs), dm, p, ps.
    split; [apply (tallied E m im cx HE Hv Hm HK Hdist vs ebs Henc Hst Hids Hun)|]. split; [exact D1|]. split; [exact P1|].
    split; [|split; [exact S1|split]].
    + intros cid oid n. rewrite (P3 cid oid n), (total_options E m im cx HE Hv Hm HK Hdist vs ebs Henc Hst Hun). tauto.
    + rewrite S2. apply (spoiled_ids E im cx HE HK vs ebs Henc Hst).
    + intros v Hi Hs. destruct (Forall2_in_l _ _ _ _ (subs_from E im cx vs ebs Henc) Hi) as [sb [Hb Hc]].
      destruct (from_id E im cx HE HK vs Hst v sb Hi Hc) as [I1 I2].
      destruct (S3 sb) as (pb & B1 & B2 & B3); [apply filter_In; split; [exact Hb|rewrite I2, Hs; reflexivity]|].
      exists pb. rewrite <- I1. split; [exact B1|]. apply (spoiled_shows E m im cx HE Hv Hm HK Hdist vs Hst Hids v sb pb Hi Hc B3).
Qed.
(** with all guardians there the published record also passes both verifications *)
Lemma election_verifies : forall E rnd k ss mid m im, valid_env E -> hmac_32 E -> qq E <= 2 ^ 1024 -> good_seats E k ss -> ss <> [] -> (k <= length ss)%nat -> (forall a b, 0 <= rnd a b) ->
  manifest_is_valid m = true -> make_internal E m = Ok im -> distinct_option_ids im ->
  exists gs gs' med jk,
    rmapM (fun s => guardian_from_nonce E (st_id s) (st_seq s) (len ss) (Z.of_nat k) (st_draws s)) ss = Ok gs /\
    full_ceremony E rnd gs (new_mediator mid (mkDetails (len ss) (Z.of_nat k))) = Ok (gs', med) /\
    md_publish_joint_key E med = Some jk /\
    let cx := make_context E (len ss) (Z.of_nat k) (jk_key jk) (jk_hash jk) (im_hash im) in
    forall vs ebs, Forall2 (encrypted_as E im cx) vs ebs -> (forall v, In v vs -> usable_style E im (vr_ballot v)) ->
      NoDup (map vr_id vs) -> (forall v, In v vs -> vr_state v <> UNKNOWN) ->
      len (filter is_cast vs) < qq E -> len (filter is_cast vs) <= dmax E -> 1 <= dmax E ->
    let store := bx_store (fst (run_box E (mkBox im cx ds_new) (combine ebs (map vr_state vs)))) in
    let spoiled := dvals (get_ballots store (Some SPOILED)) in
    forall up rnd' dmid keys, (forall path, up path = true) -> has_keys keys gs' ->
    exists t dm p,
      tally_ballots E true store im cx = Ok (Some t) /\
      verify_aggregation E (fun _ => all_up) (ds_values store) t m cx = Ok verified /\
      decryption_setup E up rnd' gs' (new_dmediator dmid cx) cx t spoiled = Ok dm /\
      dm_plaintext_tally E dm t m = Ok (Some p) /\
      verify_decryption E p keys cx = Ok verified /\
      (forall cid oid n, count_of p cid oid = Some n <-> in_manifest m cid oid /\ n = cast_count im vs cid oid).
Proof.
  intros E rnd k ss mid m im HE Hh Hq1024 Hseats Hne Hk Hrnd Hv Hm Hdist.
  destruct (ceremony_ready E rnd k ss mid HE Hh Hq1024 Hseats Hrnd) as (gs & gs' & med & R1 & R2 & R3 & R4 & R5).
  exists gs, gs', med. eexists. split; [exact R1|]. split; [exact R2|]. split; [exact R3|]. cbn [jk_key jk_hash].
  set (cx := make_context E (len ss) (Z.of_nat k) _ _ _). intros vs ebs Henc Hst Hids Hun Hq Hd Hd1. cbv zeta.
  intros up rnd' dmid keys Hup Hkeys.
  assert (HK : in_subgroup E (cx_key cx)) by (apply (joint_subgroup E HE k ss Hseats)).
  change (combine ebs (map vr_state vs)) with (history vs ebs).
  rewrite (spoiled_list E m im cx HE Hv Hm HK vs ebs Henc Hst Hids).
  assert (Hm' : NoDup (map cd_id (mf_contests m))) by (apply manifest_is_valid_iff in Hv as (_ & _ & _ & _ & Hn & _); exact Hn).
  destruct (honest_accepted E k ss cx (total_tally E im cx vs ebs) (in_state SPOILED (subs E vs ebs)) up rnd' ss gs' dmid m
     (cast_count im vs) (spoiled_value im vs) keys) as (dm & p & D1 & P1 & P3 & P4); try assumption; try reflexivity.
  - apply (ZKFacts.hash_range E HE).
  - cbn. unfold len. lia.
  - eapply Forall2_impl'; [|exact R4]. intros s g _ _ [H1 H2 _ _]. split; assumption.
  - apply (total_distinct E m im cx HE Hv Hm HK Hdist vs ebs Henc Hst Hun).
  - apply (total_encrypts E m im cx HE Hv Hm HK Hdist vs ebs Henc Hst Hids Hun Hq Hd).
  - unfold in_state. apply NoDup_map_filter. apply (subs_nodup E im cx HE HK vs ebs Henc Hst Hids).
  - apply (spoiled_encrypts E m im cx HE Hv Hm HK Hdist vs ebs Henc Hst Hids Hd1).
  - exists (total_tally E im cx vs ebs), dm, p.
    split; [apply (tallied E m im cx HE Hv Hm HK Hdist vs ebs Henc Hst Hids Hun)|].
    split; [apply (aggregated E m im cx HE Hv Hm HK Hdist vs ebs Henc Hst Hids Hun)|]. split; [exact D1|]. split; [exact P1|]. split; [exact P4|].
    intros cid oid n. rewrite (P3 cid oid n), (total_options E m im cx HE Hv Hm HK Hdist vs ebs Henc Hst Hun). tauto.
Qed.
