(** * CopyFacts: elections in which ballots are copied. *)
From Verif Require Import Base Group Codec Hash DLog ElGamal ZK Poly Manifest Ballot Encrypt Box Tally Spec SpecElection SpecTally
  ListFacts GroupFacts ZKFacts CryptoThms ManifestThms EncryptFacts BallotFacts EncryptThms TallyFacts TallyThms TallyMore BoxFacts HonestFacts
  Ceremony SpecCeremony Shares SpecShares SharesFacts SharesThms SharesMore Verify SpecVerify VerifyFacts SpecEndToEnd EndToEnd SpecCopy.
From Coq Require Import Permutation List.

(** ** a ballot that a device made, or a copy of one *)
Definition made (E : env) (im : internal_manifest) (cx : context) (v : voter) (eb : ct_ballot) : Prop :=
  encrypted_as E im cx v eb \/
  exists v0 eb0, encrypted_as E im cx v0 eb0 /\ pb_style (vr_ballot v) = pb_style (vr_ballot v0) /\ pb_contests (vr_ballot v) = pb_contests (vr_ballot v0) /\
    eb = copy_of E (sb_ballot (submit_ballot E eb0 (vr_state v0))) (vr_id v).
Lemma strip_twice cs : map strip_contest (map strip_contest cs) = map strip_contest cs.
Proof.
  rewrite map_map. apply map_ext. intros c. unfold strip_contest. cbn [bc_id bc_seq bc_desc_hash bc_selections bc_acc bc_hash bc_nonce bc_proof bc_ext]. rewrite map_map. reflexivity.
Qed.
Lemma copy_contests E b st st' i : cb_contests (sb_ballot (submit_ballot E (copy_of E (sb_ballot (submit_ballot E b st)) i) st')) = cb_contests (sb_ballot (submit_ballot E b st)).
Proof. unfold copy_of, submit_ballot, make_submitted. cbn [sb_ballot cb_contests]. rewrite !strip_twice. reflexivity. Qed.
Lemma copy_self E b st i : cb_contests (copy_of E (sb_ballot (submit_ballot E b st)) i) = cb_contests (sb_ballot (submit_ballot E b st)).
Proof. unfold copy_of, submit_ballot, make_submitted. cbn [sb_ballot cb_contests]. apply strip_twice. Qed.
Section Made.
  Context (E : env) (m : manifest) (im : internal_manifest) (cx : context).
  Context (HE : valid_env E) (Hv : manifest_is_valid m = true) (Hm : make_internal E m = Ok im) (HK : in_subgroup E (cx_key cx)).
  Context (Hdist : distinct_option_ids im).
  Lemma vote_copied b b0 cid oid : pb_style b = pb_style b0 -> pb_contests b = pb_contests b0 -> vote_for im b cid oid = vote_for im b0 cid oid.
  Proof. intros H1 H2. unfold vote_for, find_option, voter_contest. rewrite H1, H2. reflexivity. Qed.
  Lemma on_copied b b0 cid oid : pb_style b = pb_style b0 -> on_ballot im b cid oid <-> on_ballot im b0 cid oid.
  Proof. intros H1. unfold on_ballot, find_option. rewrite H1. tauto. Qed.
  Lemma shown_copied v v0 cid oid : pb_style (vr_ballot v) = pb_style (vr_ballot v0) -> pb_contests (vr_ballot v) = pb_contests (vr_ballot v0) -> shown_vote im v cid oid = shown_vote im v0 cid oid.
  Proof. intros H1 H2. unfold shown_vote, voter_contest. rewrite H1, H2. reflexivity. Qed.
  Context (v : voter) (eb : ct_ballot) (Hmade : made E im cx v eb) (Hst : usable_style E im (vr_ballot v)).
  Notation b := (vr_ballot v).
  Lemma made_id : cb_id eb = vr_id v.
  Proof.
    destruct Hmade as [He|(v0 & eb0 & _ & _ & _ & ->)]; [|reflexivity]. destruct (voter_contests E im cx HE HK v eb He Hst) as (_ & _ & H & _). exact H.
  Qed.
  Lemma usable_0 v0 : pb_style b = pb_style (vr_ballot v0) -> usable_style E im (vr_ballot v0).
  Proof. intros H ds Hds. apply Hst. rewrite H. exact Hds. Qed.
  Lemma made_good : ballot_valid_for_election E eb im cx true = Ok true /\ (forall st, passes E im cx (submit_ballot E eb st) true = true) /\
    (forall st, complete im (sb_ballot (submit_ballot E eb st))) /\ (forall st, own_ids im (sb_ballot (submit_ballot E eb st))).
  Proof.
    destruct Hmade as [He|(v0 & eb0 & He & S1 & S2 & ->)].
    - destruct (voter_contests E im cx HE HK v eb He Hst) as (ds & H1 & H2 & _ & H3 & H4 & H5).
      split; [apply (encrypted_ballot_valid E m im cx b _ _ _ _ _ eb ds HE Hv Hm HK H1 H3 H4 H5 He)|].
      split; [intros st; eapply (accept_valid E m im cx); eassumption|]. split; [intros st; eapply (accept_complete E im cx); eassumption|intros st; eapply (accept_own E im cx); eassumption].
    - destruct (voter_contests E im cx HE HK v0 eb0 He (usable_0 v0 S1)) as (ds & H1 & H2 & Hw & H3 & H4 & H5).
      destruct (encrypted_ballot_valid E m im cx (vr_ballot v0) _ _ _ _ _ eb0 ds HE Hv Hm HK H1 H3 H4 H5 He) as (_ & Hval & _).
      assert (Hstyle : cb_style eb0 = pb_style (vr_ballot v0) /\ cb_manifest_hash eb0 = im_hash im).
      { destruct (encrypt_ballot_form _ _ _ _ _ _ _ _ _ _ He) as (ds' & ecs & _ & _ & ->). split; reflexivity. }
      assert (Hnd : NoDup (map (fun d => cd_id (ph_desc d)) ds)).
      { apply (get_contests_sub _ _ _ H1). apply (internal_ids E m); assumption. }
      assert (W : forall x, cb_contests x = cb_contests (sb_ballot (submit_ballot E eb0 (vr_state v0))) -> cb_style x = cb_style eb0 -> cb_manifest_hash x = cb_manifest_hash eb0 ->
        cb_hash x = create_ballot_hash E (cb_id x) (cb_manifest_hash x) (cb_contests x) -> ballot_valid_for_election E x im cx true = Ok true).
      { intros x X1 X2 X3 X4. rewrite X1 in X4.
        assert (V : ballot_is_valid_encryption E x (im_hash im) (cx_key cx) (cx_ext_hash cx) = Ok true /\ ballot_valid_for_style E x im = Ok true).
        { refine (well_made_valid E HE (vr_ballot v0) ds _ _ _ _ x im HK Hw H5 H4 H3 Hnd _ X1 _ X4); [rewrite X2, (proj1 Hstyle); exact H1|rewrite X3; apply Hstyle]. }
        unfold ballot_valid_for_election. rewrite (proj2 V). cbn [rbind negb]. rewrite (proj1 V). reflexivity. }
      split; [|split; [|split]].
      + apply W; try reflexivity; [apply copy_self|]. rewrite copy_self. reflexivity.
      + intros st. unfold passes. rewrite W; try reflexivity; [apply copy_contests|]. rewrite copy_contests.
        unfold submit_ballot at 1, make_submitted at 1. cbn [sb_ballot cb_hash cb_id cb_manifest_hash]. rewrite copy_self. reflexivity.
      + intros st. unfold complete. rewrite copy_contests. eapply (accept_complete E im cx); eassumption.
      + intros st. unfold own_ids. rewrite copy_contests. eapply (accept_own E im cx); eassumption.
  Qed.
  Lemma made_01 cid oid : vote_for im b cid oid = 0 \/ vote_for im b cid oid = 1.
  Proof.
    destruct Hmade as [He|(v0 & eb0 & He & S1 & S2 & ->)]; [apply (vote_01 E m im cx HE Hv Hm HK v eb He Hst)|].
    rewrite (vote_copied _ (vr_ballot v0) cid oid S1 S2). apply (vote_01 E m im cx HE Hv Hm HK v0 eb0 He (usable_0 v0 S1)).
  Qed.
  Lemma made_cts d o st : In d (im_contests im) -> In o (cd_selections (ph_desc d)) ->
    let cid := cd_id (ph_desc d) in let oid := sd_id o in
    (votes_for (sb_ballot (submit_ballot E eb st)) cid oid = [] /\ vote_for im b cid oid = 0) \/
    exists c r, votes_for (sb_ballot (submit_ballot E eb st)) cid oid = [c] /\ 0 <= r /\ 0 <= vote_for im b cid oid /\
      is_encryption E (cx_key cx) r (vote_for im b cid oid) (ct_pad c) (ct_data c).
  Proof.
    destruct Hmade as [He|(v0 & eb0 & He & S1 & S2 & ->)]; [apply (voter_votes E m im cx HE Hv Hm HK Hdist v eb He Hst)|].
    intros Hd Ho. cbv zeta. rewrite (vote_copied _ (vr_ballot v0) _ _ S1 S2). unfold votes_for. rewrite copy_contests.
    apply (voter_votes E m im cx HE Hv Hm HK Hdist v0 eb0 He (usable_0 v0 S1) d o (vr_state v0) Hd Ho).
  Qed.
  Lemma made_entries : let bl := sb_ballot (submit_ballot E eb (vr_state v)) in
    ballot_distinct bl /\
    (forall cid oid ct, In (cid, oid, ct) (ballot_options bl) ->
       (exists r, 0 <= r /\ is_encryption E (cx_key cx) r (shown_vote im v cid oid) (ct_pad ct) (ct_data ct)) /\ (shown_vote im v cid oid = 0 \/ shown_vote im v cid oid = 1)) /\
    (forall cid oid, ((exists ct, In (cid, oid, ct) (ballot_options bl)) /\ in_manifest m cid oid) <-> on_ballot im b cid oid) /\
    (forall cid oid, on_ballot im b cid oid -> shown_vote im v cid oid = vote_for im b cid oid).
  Proof.
    destruct Hmade as [He|(v0 & eb0 & He & S1 & S2 & ->)]; [apply (ballot_entries E m im cx HE Hv Hm HK Hdist v eb He Hst)|].
    cbv zeta. destruct (ballot_entries E m im cx HE Hv Hm HK Hdist v0 eb0 He (usable_0 v0 S1)) as (B1 & B2 & B3 & B4).
    unfold ballot_distinct, ballot_options. rewrite copy_contests. split; [exact B1|]. split; [|split].
    - intros cid oid ct Hin. rewrite (shown_copied v v0 cid oid S1 S2). exact (B2 cid oid ct Hin).
    - intros cid oid. rewrite (on_copied b (vr_ballot v0) cid oid S1). apply B3.
    - intros cid oid Ho. rewrite (shown_copied v v0 cid oid S1 S2), (vote_copied _ (vr_ballot v0) _ _ S1 S2). apply B4. apply (on_copied b (vr_ballot v0) cid oid S1), Ho.
  Qed.
End Made.

(** ** all ballots of the box (as in EndToEnd.v) *)
Section Voters.
  Context (E : env) (m : manifest) (im : internal_manifest) (cx : context).
  Context (HE : valid_env E) (Hv : manifest_is_valid m = true) (Hm : make_internal E m = Ok im) (HK : in_subgroup E (cx_key cx)).
  Context (Hdist : distinct_option_ids im).
  Context (vs : list voter) (ebs : list ct_ballot) (Henc : Forall2 (made E im cx) vs ebs).
  Context (Hst : forall v, In v vs -> usable_style E im (vr_ballot v)) (Hids : NoDup (map vr_id vs)) (Hun : forall v, In v vs -> vr_state v <> UNKNOWN).
  Notation history := (combine ebs (map vr_state vs)).
  Definition subs : list sub_ballot := map (fun p => submit_ballot E (fst p) (snd p)) history.
  Definition comes_from (v : voter) (sb : sub_ballot) : Prop := exists eb, made E im cx v eb /\ sb = submit_ballot E eb (vr_state v).
  Lemma subs_from : Forall2 comes_from vs subs.
  Proof.
    unfold subs. clear Hst Hids Hun. induction Henc as [|v eb l l' H HF IH]; [constructor|]. cbn [map combine fst snd].
    constructor; [exists eb; auto|apply IH]. exact HF.
  Qed.
  Lemma from_id v sb : In v vs -> comes_from v sb -> sb_id sb = vr_id v /\ sb_state sb = vr_state v.
  Proof.
    intros Hi (eb & He & ->). split; [exact (made_id E im cx HE HK v eb He (Hst v Hi))|reflexivity].
  Qed.
  Lemma from_good v sb : In v vs -> comes_from v sb ->
    passes E im cx sb true = true /\ sb_state sb <> UNKNOWN /\ complete im (sb_ballot sb) /\ own_ids im (sb_ballot sb).
  Proof.
    intros Hi (eb & He & ->). destruct (made_good E m im cx HE Hv Hm HK Hdist v eb He (Hst v Hi)) as (_ & G & C & O).
    split; [apply G|]. split; [apply (Hun v Hi)|]. split; [apply C|apply O].
  Qed.
  Lemma subs_ids : map sb_id subs = map vr_id vs.
  Proof. symmetry. apply Forall2_map_eq. eapply Forall2_impl'; [|exact subs_from]. intros v sb Hi _ H. symmetry. apply (from_id v sb Hi H). Qed.
  Lemma subs_good : Forall (fun b => passes E im cx b true = true /\ sb_state b <> UNKNOWN /\ complete im (sb_ballot b) /\ own_ids im (sb_ballot b)) subs.
  Proof. apply Forall_forall. intros sb Hin. destruct (Forall2_in_r _ _ _ _ subs_from Hin) as [v [Hi H]]. apply (from_good v sb Hi H). Qed.
  Notation store := (bx_store (fst (run_box E (mkBox im cx ds_new) history))).
  Lemma box_store : ds_items store = map (fun b => (sb_id b, b)) subs.
  Proof.
    destruct (box_history E im cx history) as [_ ->]. f_equal. unfold subs. apply box_all.
    - apply Forall_forall. intros [eb st] Hin. cbn [fst].
      apply in_combine_l in Hin. destruct (Forall2_in_r _ _ _ _ Henc Hin) as [v [Hi H]].
      destruct (made_good E m im cx HE Hv Hm HK Hdist v eb H (Hst v Hi)) as (Hval & _). unfold valid_for. rewrite Hval. reflexivity.
    - replace (map (fun p => cb_id (fst p)) history) with (map vr_id vs); [exact Hids|]. rewrite <- subs_ids. unfold subs. rewrite map_map. reflexivity.
    - intros p _ [].
  Qed.
  Lemma subs_nodup : NoDup (map sb_id subs).
  Proof. rewrite subs_ids. exact Hids. Qed.
  Lemma store_values : ds_values store = subs.
  Proof. unfold ds_values. change (dvals store) with (map snd (ds_items store)). rewrite box_store, map_map. apply map_id. Qed.
  Lemma store_keys : ds_keys store = map sb_id subs.
  Proof. unfold ds_keys. change (dkeys store) with (map fst (ds_items store)). rewrite box_store, map_map. reflexivity. Qed.
  Lemma store_own i sb : ds_get store i = Some sb -> sb_id sb = i.
  Proof. intros H. apply dget_in in H. change (In (i, sb) (ds_items store)) in H. rewrite box_store in H. apply in_map_iff in H as [x [Hx _]]. congruence. Qed.
  Definition total_tally : tally := fst (run_appends E all_up (new_tally E "election-results" im cx) (map (fun b => (b, true)) subs)).
  Lemma tallied : tally_ballots E true store im cx = Ok (Some total_tally).
  Proof.
    rewrite (tally_ballots_form E im cx HE); [rewrite store_values; reflexivity|apply (im_nodup E m im Hv Hm)| |exact store_own|rewrite store_values; exact subs_good].
    rewrite store_keys. exact subs_nodup.
  Qed.
  Lemma all_counted : accepted (passes E im cx) [] (map (fun b => (b, true)) subs) = subs.
  Proof.
    apply accepted_all; [|exact subs_nodup|intros b _ []]. eapply Forall_impl; [|exact subs_good]. cbv beta. tauto.
  Qed.
  Definition value (cid oid : string) (sb : sub_ballot) : Z :=
    match find (fun v => String.eqb (vr_id v) (sb_id sb)) vs with Some v => vote_for im (vr_ballot v) cid oid | None => 0 end.
  Lemma value_from v sb cid oid : In v vs -> comes_from v sb -> value cid oid sb = vote_for im (vr_ballot v) cid oid.
  Proof. intros Hi H. unfold value. rewrite (proj1 (from_id v sb Hi H)), (find_by_id vr_id vs v Hids Hi). reflexivity. Qed.
  Lemma value_sum cid oid : sumZ (map (value cid oid) (in_state CAST subs)) = cast_count im vs cid oid.
  Proof.
    unfold cast_count, in_state. assert (H : forall l l', Forall2 comes_from l l' -> (forall v, In v l -> In v vs) ->
      sumZ (map (value cid oid) (filter (fun b => box_state_eqb (sb_state b) CAST) l')) = len (filter (fun v => is_cast v && (vote_for im (vr_ballot v) cid oid =? 1)) l)).
    { intros l l' HF. induction HF as [|v sb l l' H HF IH]; intros Hin; [reflexivity|]. cbn [filter].
      destruct (from_id v sb (Hin v (or_introl eq_refl)) H) as [_ Hs]. rewrite Hs. unfold is_cast at 1. specialize (IH (fun w Hw => Hin w (or_intror Hw))).
      destruct (box_state_eqb (vr_state v) CAST); cbn [andb]; [|exact IH]. cbn [map]. rewrite (value_from v sb cid oid (Hin v (or_introl eq_refl)) H).
      unfold sumZ in *. cbn [fold_right]. rewrite IH. destruct H as (eb & He & _).
      destruct (made_01 E m im cx HE Hv Hm HK v eb He (Hst v (Hin v (or_introl eq_refl))) cid oid) as [-> | ->]; cbn [Z.eqb]; [reflexivity|].
      cbn [Pos.eqb]. unfold len. cbn [List.length]. lia. }
    apply H; [exact subs_from|auto].
  Qed.
  Lemma count_bound cid oid : 0 <= cast_count im vs cid oid <= len (filter is_cast vs).
  Proof.
    unfold cast_count, len. split; [lia|]. apply inj_le. clear. induction vs as [|v l IH]; [apply Nat.le_refl|]. cbn [filter].
    destruct (is_cast v), (vote_for im (vr_ballot v) cid oid =? 1); cbn [andb List.length]; lia.
  Qed.
  Lemma tally_form : exists cs ss vf, total_tally = state_of E im cx "election-results" cs ss vf.
  Proof.
    destruct (run_appends_form E im cx (im_nodup E m im Hv Hm) "election-results" (map (fun b => (b, true)) subs)) as [H _].
    - apply Forall_map. eapply Forall_impl; [|exact subs_good]. cbv beta. tauto.
    - unfold total_tally. rewrite H. eauto.
  Qed.
  Lemma total_distinct : tally_distinct total_tally.
  Proof.
    destruct tally_form as (cs & ss & vf & ->). destruct (tally_options_state E im cx "election-results" cs ss vf (im_nodup E m im Hv Hm) Hdist) as [H1 H2].
    split; [rewrite H2; apply (im_nodup E m im Hv Hm)|]. rewrite H1, map_flat. unfold distinct_option_ids in Hdist. rewrite map_flat in Hdist.
    revert Hdist. clear. intros H. erewrite flat_map_ext; [|intros d; rewrite map_map; cbn [fst snd]; reflexivity].
    induction (im_contests im) as [|d l IH]; [constructor|]. cbn [flat_map] in *. pose proof (NoDup_app_r _ _ H) as H2. rewrite map_app, <- app_assoc in H.
    specialize (IH H2). revert H. induction (map sd_id (cd_selections (ph_desc d))) as [|x xs IHx]; cbn [app]; intros H; [exact IH|].
    inversion H as [|? ? Hni Hn]; subst. constructor; [|apply IHx, Hn]. intros Hin. apply Hni. apply in_app_iff in Hin as [Hin|Hin]; apply in_or_app; [left; exact Hin|right].
    apply in_or_app. right. apply in_flat_map in Hin as [y [Hy Hx]]. apply in_flat_map. exists y. split; [exact Hy|]. rewrite map_app. apply in_or_app. left. exact Hx.
  Qed.
  Lemma total_options cid oid : (exists ct, In (cid, oid, ct) (tally_options total_tally)) <-> in_manifest m cid oid.
  Proof.
    destruct tally_form as (cs & ss & vf & ->). destruct (tally_options_state E im cx "election-results" cs ss vf (im_nodup E m im Hv Hm) Hdist) as [H1 _]. rewrite H1, (manifest_options E m im Hm). split.
    - intros [ct H]. apply in_flat_map in H as [d [Hd H]]. apply in_map_iff in H as [o [Ho H]]. injection Ho as <- <- <-. exists d, o. auto.
    - intros (d & o & Hd & <- & Ho & <-). eexists. apply in_flat_map. exists d. split; [exact Hd|]. apply in_map_iff. exists o. split; [reflexivity|exact Ho].
  Qed.
  Lemma total_entry cid oid ct : In (cid, oid, ct) (tally_options total_tally) ->
    exists d o, In d (im_contests im) /\ cd_id (ph_desc d) = cid /\ In o (cd_selections (ph_desc d)) /\ sd_id o = oid /\ total_of total_tally cid oid = Some ct.
  Proof.
    destruct tally_form as (cs & ss & vf & ->). destruct (tally_options_state E im cx "election-results" cs ss vf (im_nodup E m im Hv Hm) Hdist) as [H1 _]. rewrite H1.
    intros H. apply in_flat_map in H as [d [Hd H]]. apply in_map_iff in H as [o [Ho H]]. injection Ho as <- <- <-. exists d, o.
    do 4 (split; [auto|]). rewrite (total_of_state E im cx _ cs ss vf d o HE (im_nodup E m im Hv Hm) Hd H), (fold_ct_product E HE). reflexivity.
  Qed.
  Lemma total_encrypts : len (filter is_cast vs) < qq E -> len (filter is_cast vs) <= dmax E ->
    encrypts_all E (cx_key cx) (tally_options total_tally) (cast_count im vs).
  Proof.
    intros Hq Hd cid oid ct Hin. destruct (total_entry cid oid ct Hin) as (d & o & D1 & <- & D2 & <- & D3).
    pose proof (count_bound (cd_id (ph_desc d)) (sd_id o)) as Hb. split; [|lia].
    destruct (tally_encrypts_sum E im cx "election-results" (map (fun b => (b, true)) subs) (cx_key cx) HE (im_nodup E m im Hv Hm) HK) with (d := d) (o := o) (value := value (cd_id (ph_desc d)) (sd_id o))
      as (c & r & T1 & T2 & T3); [|exact D1|exact D2| |].
    - apply Forall_map. eapply Forall_impl; [|exact subs_good]. cbv beta. tauto.
    - rewrite all_counted. intros b Hb'. apply filter_In in Hb' as [Hb' _]. destruct (Forall2_in_r _ _ _ _ subs_from Hb') as [v [Hi H]].
      rewrite (value_from v b _ _ Hi H). destruct H as (eb & He & ->). apply (made_cts E m im cx HE Hv Hm HK Hdist v eb He (Hst v Hi)); assumption.
    - fold total_tally in T1. rewrite D3 in T1. injection T1 as <-. rewrite all_counted, value_sum in T3. exists r. auto.
  Qed.
  Lemma spoiled_list : dvals (get_ballots store (Some SPOILED)) = in_state SPOILED subs.
  Proof.
    unfold get_ballots. rewrite box_store. rewrite dict_of_distinct.
    - unfold dvals, in_state. clear. induction subs as [|b l IH]; [reflexivity|]. cbn [map filter snd]. destruct (box_state_eqb (sb_state b) SPOILED); cbn [map snd]; rewrite IH; reflexivity.
    - apply NoDup_keys_filter. unfold dkeys. rewrite map_map. exact subs_nodup.
  Qed.
  Lemma spoiled_ids : map sb_id (in_state SPOILED subs) = map vr_id (filter is_spoiled vs).
  Proof.
    unfold in_state. assert (H : forall l l', Forall2 comes_from l l' -> (forall v, In v l -> In v vs) ->
      map sb_id (filter (fun b => box_state_eqb (sb_state b) SPOILED) l') = map vr_id (filter is_spoiled l)).
    { intros l l' HF. induction HF as [|v sb l l' H HF IH]; intros Hin; [reflexivity|]. cbn [filter].
      destruct (from_id v sb (Hin v (or_introl eq_refl)) H) as [Hi Hs]. rewrite Hs. unfold is_spoiled at 1. specialize (IH (fun w Hw => Hin w (or_intror Hw))).
      destruct (box_state_eqb (vr_state v) SPOILED); cbn [map]; [|exact IH]. rewrite IH, Hi. reflexivity. }
    apply H; [exact subs_from|auto].
  Qed.
  Lemma aggregated : verify_aggregation E (fun _ => all_up) (ds_values store) total_tally m cx = Ok verified.
  Proof.
    apply (aggregation_complete_store E store m cx im total_tally HE Hv Hm).
    - rewrite store_keys. exact subs_nodup.
    - exact store_own.
    - rewrite store_values. exact subs_good.
    - exact tallied.
  Qed.
  (** what a spoiled ballot shows *)
  Definition spoiled_value (bid cid oid : string) : Z :=
    match find (fun v => String.eqb (vr_id v) bid) vs with Some v => shown_vote im v cid oid | None => 0 end.
  Lemma spoiled_encrypts : 1 <= dmax E -> forall b, In b (in_state SPOILED subs) ->
    ballot_distinct (sb_ballot b) /\ encrypts_all E (cx_key cx) (ballot_options (sb_ballot b)) (spoiled_value (sb_id b)).
  Proof.
    intros Hd b Hb. apply filter_In in Hb as [Hb _]. destruct (Forall2_in_r _ _ _ _ subs_from Hb) as [v [Hi H]].
    pose proof (proj1 (from_id v b Hi H)) as Hid. destruct H as (eb & He & Hb').
    destruct (made_entries E m im cx HE Hv Hm HK Hdist v eb He (Hst v Hi)) as (B1 & B2 & _). rewrite <- Hb' in B1, B2. split; [exact B1|].
    intros cid oid ct Hin. unfold spoiled_value. rewrite Hid, (find_by_id vr_id vs v Hids Hi). destruct (B2 cid oid ct Hin) as [B3 B4]. split; [exact B3|].
    assert (1 < qq E) by (pose proof (ve_q E HE) as Hp; apply Znumtheory.prime_ge_2 in Hp; lia). lia.
  Qed.
  Lemma spoiled_shows v sb p : In v vs -> comes_from v sb -> shows p m (ballot_options (sb_ballot sb)) (spoiled_value (sb_id sb)) ->
    forall cid oid n, count_of p cid oid = Some n <-> on_ballot im (vr_ballot v) cid oid /\ n = vote_for im (vr_ballot v) cid oid.
  Proof.
    intros Hi H Hs cid oid n. pose proof (proj1 (from_id v sb Hi H)) as Hid. destruct H as (eb & He & Hb').
    destruct (made_entries E m im cx HE Hv Hm HK Hdist v eb He (Hst v Hi)) as (_ & _ & B3 & B4). rewrite <- Hb' in B3.
    rewrite (Hs cid oid n). unfold spoiled_value. rewrite Hid, (find_by_id vr_id vs v Hids Hi). split.
    - intros (H1 & H2 & ->). assert (Ho : on_ballot im (vr_ballot v) cid oid) by (apply B3; auto). split; [exact Ho|apply B4, Ho].
    - intros [Ho ->]. destruct (proj2 (B3 cid oid) Ho) as [H1 H2]. split; [exact H1|]. split; [exact H2|]. symmetry. apply B4, Ho.
  Qed.
End Voters.
