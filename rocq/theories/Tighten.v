(** * Tighten: lemmas about what calls answer, added after wrong programs were found to satisfy weaker theorems *)
From Coq Require Import List Permutation.
From Verif Require Import Base Group Codec Hash DLog ElGamal ZK Poly Spec Manifest Ballot SpecElection Encrypt Box Tally SpecTally Ceremony SpecCeremony Shares SpecShares
  ListFacts GroupFacts BoxFacts TallyFacts TallyThms TallyMore SharesFacts SharesThms SharesMore.

(** ** shares that are issued *)
Lemma collect_in {A} (key : A -> string) l : forall d d' a, collect key l d = Some d' -> In a (dvals d') -> In a (dvals d) \/ In (Some a) l.
Proof.
  induction l as [|[x|] l IH]; intros d d' a H Hi; cbn [collect] in H; [inversion H; subst; auto| |discriminate].
  destruct (IH _ _ _ H Hi) as [Hd|Hd]; [|right; right; exact Hd].
  unfold dvals in Hd. apply in_map_iff in Hd. destruct Hd as ([k v] & <- & Hd). cbn [snd].
  destruct (TallyFacts.dset_in _ _ _ _ _ Hd) as [He|Hd'].
  - right. left. inversion He. reflexivity.
  - left. unfold dvals. apply in_map_iff. exists (k, v). auto.
Qed.
Lemma schedule_in_list {A B} up (f : A -> B) args b : In b (schedule up (fun a => Ok (f a)) args) -> exists a, In a args /\ b = f a.
Proof.
  unfold schedule. destruct up; [|intros []]. destruct (rmapM (fun a => Ok (f a)) args) as [l|e] eqn:Hl; [|intros []].
  revert l Hl. induction args as [|a args IH]; intros l Hl; cbn [rmapM] in Hl; [inversion Hl; subst; intros []|].
  destruct (rmapM (fun a => Ok (f a)) args) as [l'|]; [|discriminate]. cbn in Hl. inversion Hl; subst. intros [<-|Hi]; [exists a; cbn; auto|].
  destruct (IH _ eq_refl Hi) as (a' & H1 & H2). exists a'. cbn. auto.
Qed.
Lemma number_in {A} (l : list A) a : In a (number l) -> In (snd a) l.
Proof. intros H. rewrite <- (number_snd l). apply in_map. exact H. Qed.

Section Issue.
  Variable E : env.
  Lemma share_contests_in up rnd k ext cs : forall i d d' c, share_contests E up rnd k ext i cs d = Some d' -> In c (dvals d') ->
    In c (dvals d) \/ exists cc j, In cc cs /\ share_for_contest E (up j) (rnd j) k cc ext = Some c.
  Proof.
    induction cs as [|cc cs IH]; intros i d d' c H Hi; cbn [share_contests] in H; [inversion H; subst; auto|].
    destruct (share_for_contest E (up i) (rnd i) k cc ext) as [dn|] eqn:Hdn; [|discriminate].
    destruct (IH _ _ _ _ H Hi) as [Hd|(c' & j & H1 & H2)]; [|right; exists c', j; cbn; auto].
    unfold dvals in Hd. apply in_map_iff in Hd. destruct Hd as ([k' v] & <- & Hd). cbn [snd].
    destruct (TallyFacts.dset_in _ _ _ _ _ Hd) as [He|Hd'].
    - right. exists cc, i. inversion He. subst. cbn. auto.
    - left. unfold dvals. apply in_map_iff. exists (k', v). auto.
  Qed.
  Lemma share_of_checked up rnd k ext id cs sh d : share_of E up rnd k ext id cs = Some sh -> In d (share_entries sh) ->
    exists cc s, In cc cs /\ In s (cc_selections cc) /\ dc_id d = fst s /\ dec_sel_valid E d (snd s) (sh_key sh) ext = true.
  Proof.
    unfold share_of. destruct (share_contests E up rnd k ext 0 cs []) as [dd|] eqn:Hd; [|discriminate]. intros H Hi. inversion H; subst. clear H.
    unfold share_entries in Hi. cbn [sh_contests sh_key] in *. apply in_flat_map in Hi. destruct Hi as (c & Hc & Hi).
    destruct (share_contests_in _ _ _ _ _ _ _ _ _ Hd Hc) as [[]|(cc & j & Hcc & Hs)]. exists cc.
    unfold share_for_contest in Hs. destruct (collect _ _ _) as [sels|] eqn:Hcl; [|discriminate]. inversion Hs; subst. cbn [dn_selections] in Hi.
    destruct (collect_in _ _ _ _ _ Hcl Hi) as [[]|Hin]. destruct (schedule_in_list _ _ _ _ Hin) as (a & Ha & He).
    exists (snd a). split; [exact Hcc|]. split; [apply number_in; exact Ha|].
    unfold share_for_selection, partially_decrypt in He. destruct (cp_is_valid _ _ _ _ _ _) eqn:Hv; [|discriminate]. inversion He; subst.
    unfold create_with_proof, dec_sel_valid. cbn. auto.
  Qed.
  Lemma comp_contests_in up rnd y a b ext cs : forall i d d' c, comp_contests E up rnd y a b ext i cs d = Some d' -> In c (dvals d') ->
    In c (dvals d) \/ exists cc j, In cc cs /\ comp_for_contest E (up j) (rnd j) y a b cc ext = Some c.
  Proof.
    induction cs as [|cc cs IH]; intros i d d' c H Hi; cbn [comp_contests] in H; [inversion H; subst; auto|].
    destruct (comp_for_contest E (up i) (rnd i) y a b cc ext) as [dn|] eqn:Hdn; [|discriminate].
    destruct (IH _ _ _ _ H Hi) as [Hd|(c' & j & H1 & H2)]; [|right; exists c', j; cbn; auto].
    unfold dvals in Hd. apply in_map_iff in Hd. destruct Hd as ([k' v] & <- & Hd). cbn [snd].
    destruct (TallyFacts.dset_in _ _ _ _ _ Hd) as [He|Hd'].
    - right. exists cc, i. inversion He. subst. cbn. auto.
    - left. unfold dvals. apply in_map_iff. exists (k', v). auto.
  Qed.
  Lemma comp_of_checked up rnd y a b ext id cs sh d c : comp_of E up rnd y a b ext id cs = Some sh -> In c (dvals (csh_contests sh)) -> In d (dvals (co_selections c)) ->
    exists cc s, In cc cs /\ In s (cc_selections cc) /\ cm_id d = fst s /\ cm_recovery d = compute_recovery_public_key E a b /\
      cp_is_valid E (cm_proof d) (snd s) (cm_recovery d) (cm_share d) ext = true.
  Proof.
    unfold comp_of. destruct (comp_contests E up rnd y a b ext 0 cs []) as [dd|] eqn:Hd; [|discriminate]. intros H Hc Hi. inversion H; subst. clear H.
    cbn [csh_contests] in *.
    destruct (comp_contests_in _ _ _ _ _ _ _ _ _ _ _ Hd Hc) as [[]|(cc & j & Hcc & Hs)]. exists cc.
    unfold comp_for_contest in Hs. destruct (collect _ _ _) as [sels|] eqn:Hcl; [|discriminate]. inversion Hs; subst. cbn [co_selections] in Hi.
    destruct (collect_in _ _ _ _ _ Hcl Hi) as [[]|Hin]. destruct (schedule_in_list _ _ _ _ Hin) as (x & Ha & He).
    exists (snd x). split; [exact Hcc|]. split; [apply number_in; exact Ha|].
    unfold comp_for_selection in He. destruct (decrypt_with_threshold _ _ _ _ _) as [m pf]. destruct (cp_is_valid _ _ _ _ _ _) eqn:Hv; [|discriminate]. inversion He; subst.
    cbn. auto.
  Qed.
  Lemma tally_option t cc s : In cc (map tally_cc (dvals (ty_contests t))) -> In s (cc_selections cc) -> In (cc_id cc, fst s, snd s) (tally_options t).
  Proof.
    intros Hc Hs. apply in_map_iff in Hc. destruct Hc as (c & <- & Hc). cbn [tally_cc cc_selections cc_id] in *. apply in_map_iff in Hs. destruct Hs as (x & <- & Hx).
    unfold tally_options. apply in_flat_map. exists c. split; [exact Hc|]. apply in_map_iff. exists x. auto.
  Qed.
  Lemma ballot_option b cc s : In cc (map ballot_cc (cb_contests b)) -> In s (cc_selections cc) -> In (cc_id cc, fst s, snd s) (ballot_options b).
  Proof.
    intros Hc Hs. apply in_map_iff in Hc. destruct Hc as (c & <- & Hc). cbn [ballot_cc cc_selections cc_id] in *. apply in_map_iff in Hs. destruct Hs as (x & <- & Hx).
    unfold ballot_options. apply in_flat_map. exists c. split; [exact Hc|]. apply in_map_iff. exists x. auto.
  Qed.
End Issue.

Lemma issued_checked : forall E up rnd k cx sh d, In d (share_entries sh) ->
  (forall t, compute_decryption_share E up rnd k t cx = Some sh ->
     exists cid ct, In (cid, dc_id d, ct) (tally_options t) /\ dec_sel_valid E d ct (sh_key sh) (cx_ext_hash cx) = true) /\
  (forall b, compute_decryption_share_for_ballot E up rnd k b cx = Some sh ->
     exists cid ct, In (cid, dc_id d, ct) (ballot_options (sb_ballot b)) /\ dec_sel_valid E d ct (sh_key sh) (cx_ext_hash cx) = true).
Proof.
  intros E up rnd k cx sh d Hd. split; intros t H; destruct (share_of_checked _ _ _ _ _ _ _ _ _ H Hd) as (cc & s & H1 & H2 & H3 & H4);
    exists (cc_id cc), (snd s); rewrite H3; (split; [|exact H4]); [apply tally_option|apply ballot_option]; assumption.
Qed.
Lemma issued_comp_checked : forall E up rnd y a b cx sh c d, In c (dvals (csh_contests sh)) -> In d (dvals (co_selections c)) ->
  (forall t, compute_compensated_share E up rnd y a b t cx = Some sh ->
     exists cid ct, In (cid, cm_id d, ct) (tally_options t) /\ cm_recovery d = compute_recovery_public_key E a b /\
       cp_is_valid E (cm_proof d) ct (cm_recovery d) (cm_share d) (cx_ext_hash cx) = true) /\
  (forall s, compute_compensated_share_for_ballot E up rnd y b a s cx = Some sh ->
     exists cid ct, In (cid, cm_id d, ct) (ballot_options (sb_ballot s)) /\ cm_recovery d = compute_recovery_public_key E a b /\
       cp_is_valid E (cm_proof d) ct (cm_recovery d) (cm_share d) (cx_ext_hash cx) = true).
Proof.
  intros E up rnd y a b cx sh c d Hc Hd. split; intros t H; destruct (comp_of_checked _ _ _ _ _ _ _ _ _ _ _ _ H Hc Hd) as (cc & s & H1 & H2 & H3 & H4 & H5);
    exists (cc_id cc), (snd s); rewrite H3; (split; [|split; [exact H4|exact H5]]); [apply tally_option|apply ballot_option]; assumption.
Qed.
Lemma valid_proved : forall E d ct key ext, dec_sel_valid E d ct key ext = true ->
  (exists pf, dc_proof d = Some pf /\ dc_parts d = None /\ cp_is_valid E pf ct key (dc_share d) ext = true) \/
  (exists parts, dc_proof d = None /\ dc_parts d = Some parts /\
     forall o part, In (o, part) parts -> cp_is_valid E (cm_proof part) ct (cm_recovery part) (cm_share part) ext = true).
Proof.
  intros E d ct key ext. unfold dec_sel_valid. destruct (dc_proof d) as [pf|], (dc_parts d) as [parts|]; try discriminate; intros H.
  - left. exists pf. auto.
  - right. exists parts. split; [reflexivity|]. split; [reflexivity|]. intros o part Hi. rewrite forallb_forall in H. apply H.
    unfold dvals. apply in_map_iff. exists (o, part). auto.
Qed.
Lemma shown_proved : forall E m t mf p cid oid ps d, valid_env E -> dm_plaintext_tally E m t mf = Ok (Some p) -> shown p cid oid ps -> In d (pl_shares ps) ->
  exists sh, In sh (dvals (dm_tally m)) /\ In d (share_entries sh) /\
  ((exists pf, dc_proof d = Some pf /\ dc_parts d = None /\ cp_is_valid E pf (pl_message ps) (sh_key sh) (dc_share d) (cx_ext_hash (dm_context m)) = true) \/
   (exists parts, dc_proof d = None /\ dc_parts d = Some parts /\
     forall o part, In (o, part) parts -> cp_is_valid E (cm_proof part) (pl_message ps) (cm_recovery part) (cm_share part) (cx_ext_hash (dm_context m)) = true)).
Proof.
  intros E m t mf p cid oid ps d HE Hp Hs Hd. destruct (tally_backed E m t mf p cid oid ps HE Hp Hs) as (ct & _ & <- & Hf & _).
  rewrite Forall_forall in Hf. destruct (Hf d Hd) as (_ & sh & H1 & H2 & H3). exists sh. split; [exact H1|]. split; [exact H2|].
  apply valid_proved. exact H3.
Qed.

(** ** the box *)
Lemma box_cast_spoil : forall E x b sb,
  (snd (box_cast E x b) = Ok (Some sb) -> sb_state sb = CAST /\ sb_id sb = cb_id b /\ ds_get (bx_store x) (cb_id b) = None /\ ds_get (bx_store (fst (box_cast E x b))) (cb_id b) = Some sb) /\
  (snd (box_spoil E x b) = Ok (Some sb) -> sb_state sb = SPOILED /\ sb_id sb = cb_id b /\ ds_get (bx_store x) (cb_id b) = None /\ ds_get (bx_store (fst (box_spoil E x b))) (cb_id b) = Some sb).
Proof.
  intros E x b sb. unfold box_cast, box_spoil, box_submit, submit_to_box.
  destruct (ballot_valid_for_election E b _ _ true) as [[|]|e]; [|split; discriminate|split; discriminate].
  destruct (ds_get (bx_store x) (cb_id b)) as [y|] eqn:Hg; [split; discriminate|].
  unfold submit_ballot. cbn [sb_id make_submitted sb_ballot cb_id fst snd bx_store sb_state].
  assert (Hd : forall v : sub_ballot, ds_get (ds_set (bx_store x) (cb_id b) v) (cb_id b) = Some v) by (intros v; unfold ds_get, ds_set; apply dget_dset_same).
  unfold sb_id in *. cbn [make_submitted sb_ballot cb_id]. unfold make_submitted. cbn. rewrite !Hd.
  split; intros H; inversion H; subst; cbn; auto.
Qed.

(** ** the tally *)
Lemma add_contests_keys E up cs : forall i d, dkeys (fst (add_contests E up i cs d)) = dkeys d.
Proof.
  induction cs as [|c cs IH]; intros i d; cbn [add_contests]; [reflexivity|].
  destruct (dget (bc_id c) d) as [tc|] eqn:Hg; [|reflexivity].
  destruct (accumulate_contest E (up i) tc (bc_selections c)) as [tc' r].
  assert (Hk : dkeys (dset (bc_id c) tc' d) = dkeys d) by (apply dset_keys_same; apply dget_some_key; eauto).
  destruct r as [[|]|e]; [rewrite IH; exact Hk|exact Hk|exact Hk].
Qed.
Lemma add_contests_unknown E up cs : forall i d c, In c cs -> ~ In (bc_id c) (dkeys d) -> snd (add_contests E up i cs d) <> Ok true.
Proof.
  induction cs as [|c' cs IH]; intros i d c Hi Hn; [destruct Hi|]. cbn [add_contests].
  destruct (dget (bc_id c') d) as [tc|] eqn:Hg; [|discriminate].
  destruct Hi as [->|Hi]; [destruct Hn; apply dget_some_key; eauto|].
  destruct (accumulate_contest E (up i) tc (bc_selections c')) as [tc' r].
  destruct r as [[|]|e]; [|discriminate|discriminate]. apply (IH _ _ c Hi).
  rewrite dset_keys_same; [exact Hn|]. apply dget_some_key; eauto.
Qed.
Lemma dict_of_keys_in {V} (l : list (string * V)) k : In k (dkeys (dict_of l)) <-> In k (map fst l).
Proof.
  unfold dict_of. assert (H : forall d, In k (dkeys (fold_left (fun d kv => dset (fst kv) (snd kv) d) l d)) <-> In k (map fst l) \/ In k (dkeys d)).
  { induction l as [|[a v] l IH]; intros d; cbn [fold_left map fst snd In]; [tauto|]. rewrite IH, dkeys_dset_in. intuition. }
  rewrite H. cbn. tauto.
Qed.
Lemma build_keys E im c : In c (dkeys (build_collection E im)) <-> In c (contest_ids im).
Proof.
  unfold build_collection, contest_ids. rewrite dict_of_keys_in. rewrite map_map. reflexivity.
Qed.
Lemma append_keys E up t b v : dkeys (ty_contests (fst (append E up t b v))) = dkeys (ty_contests t).
Proof.
  unfold append. destruct (box_state_eqb (sb_state b) UNKNOWN); [reflexivity|]. destruct (tally_contains t b); [reflexivity|].
  destruct (ballot_valid_for_election E _ _ _ v) as [[|]|e]; try reflexivity. destruct (sb_state b); try reflexivity.
  unfold add_cast. pose proof (add_contests_keys E up (cb_contests (sb_ballot b)) 0 (ty_contests t)) as H.
  destruct (add_contests E up 0 (cb_contests (sb_ballot b)) (ty_contests t)) as [d r]. cbn [fst] in H. destruct r as [[|]|e]; cbn; exact H.
Qed.
Lemma unknown_contest : forall E im cx id h up b v c, sb_state b = CAST -> In c (cb_contests (sb_ballot b)) -> ~ In (bc_id c) (contest_ids im) ->
  let t := fst (run_any E (new_tally E id im cx) h) in
  said_yes (snd (append E up t b v)) = false.
Proof.
  intros E im cx id h up b v c Hst Hc Hn t.
  assert (Hk : ~ In (bc_id c) (dkeys (ty_contests t))).
  { unfold t, run_any. apply (run_any_inv E (fun t => ~ In (bc_id c) (dkeys (ty_contests t)))).
    - intros. rewrite append_keys. assumption.
    - cbn [new_tally ty_contests]. rewrite build_keys. exact Hn. }
  unfold append. rewrite Hst. cbn [box_state_eqb]. destruct (tally_contains t b); [reflexivity|].
  destruct (ballot_valid_for_election E _ _ _ v) as [[|]|e]; try reflexivity.
  unfold add_cast. pose proof (add_contests_unknown E up (cb_contests (sb_ballot b)) 0 (ty_contests t) c Hc Hk) as H.
  destruct (add_contests E up 0 (cb_contests (sb_ballot b)) (ty_contests t)) as [d r]. cbn [snd] in H. destruct r as [[|]|e]; cbn; try reflexivity. destruct H; reflexivity.
Qed.
Lemma tally_ballot_answer : forall E up b t t' r, tally_ballot E up b t = (t', r) ->
  t' = fst (append E up t b true) /\
  (forall t'', r = Ok (Some t'') -> t'' = t' /\ said_yes (snd (append E up t b true)) = true /\ (In (sb_id b) (ty_cast t') \/ In (sb_id b) (ty_spoiled t'))) /\
  (said_yes (snd (append E up t b true)) = true -> r = Ok (Some t')) /\
  (snd (append E up t b true) = Ok false -> r = Ok None).
Proof.
  intros E up b t t' r. unfold tally_ballot. destruct (box_state_eqb (sb_state b) UNKNOWN) eqn:Hu.
  - intros H. inversion H; subst. unfold append. rewrite Hu. cbn. split; [reflexivity|]. split; [discriminate|]. split; [discriminate|reflexivity].
  - destruct (append E up t b true) as [t1 r1] eqn:Ha. intros H. inversion H; subst. cbn [fst snd]. split; [reflexivity|].
    destruct r1 as [[|]|e]; cbn; (split; [|split; [try discriminate; reflexivity|try discriminate; reflexivity]]); try discriminate.
    intros t'' Ht. inversion Ht; subst. split; [reflexivity|]. split; [reflexivity|].
    revert Ha. unfold append. rewrite Hu. destruct (tally_contains t b); [discriminate|].
    destruct (ballot_valid_for_election E _ _ _ true) as [[|]|e]; try discriminate. destruct (sb_state b); [| |discriminate].
    + unfold add_cast. destruct (add_contests E up 0 (cb_contests (sb_ballot b)) (ty_contests t)) as [d r]. destruct r as [[|]|e]; intros Ha; inversion Ha; subst.
      left. unfold with_cast. cbn [ty_cast]. apply set_add_in. auto.
    + intros Ha; inversion Ha; subst. right. unfold add_spoiled. cbn [ty_spoiled]. apply set_add_in. auto.
Qed.
