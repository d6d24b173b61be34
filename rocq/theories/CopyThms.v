(** * CopyThms: what copies of encrypted ballots do to an election. *)
From Verif Require Import Base Group Codec Hash DLog ElGamal ZK Poly Manifest Ballot Encrypt Box Tally Spec SpecElection SpecTally
  ListFacts GroupFacts ZKFacts CryptoThms ManifestThms EncryptFacts BallotFacts EncryptThms TallyFacts TallyThms TallyMore BoxFacts HonestFacts
  Ceremony SpecCeremony Shares SpecShares SharesFacts SharesThms SharesMore Verify SpecVerify VerifyFacts SpecEndToEnd EndToEnd SpecCopy CopyFacts.
From Coq Require Import Permutation List.

Lemma answers_all E valid : forall h seen, Forall (fun p => valid (fst p) = true) h -> NoDup (map (fun p => cb_id (fst p)) h) ->
  (forall p, In p h -> ~ In (cb_id (fst p)) seen) -> box_answers E valid seen h = map (fun p => Some (submit_ballot E (fst p) (snd p))) h.
Proof.
  induction h as [|[b st] h IH]; intros seen HF Hn Hs; [reflexivity|]. inversion HF as [|? ? Hb HF']; subst. cbn [fst] in Hb. cbn [map] in Hn. inversion Hn as [|? ? Hni Hn']; subst.
  cbn [box_answers map fst snd]. pose proof (Hs _ (or_introl eq_refl)) as Hb'. apply inb_false in Hb'. cbn [fst] in Hb'. rewrite Hb, Hb'. cbn [negb andb]. f_equal. apply IH; [exact HF'|exact Hn'|].
  intros p Hp [Hi|Hi]; [|apply (Hs p (or_intror Hp) Hi)]. apply Hni. rewrite Hi. apply (in_map (fun p => cb_id (fst p)) h p Hp).
Qed.
Lemma all_answered (rs : list (res (option sub_ballot))) : forall l, map answer_of rs = map Some l -> rs = map (fun x => Ok (Some x)) l.
Proof.
  induction rs as [|r rs IH]; intros [|x l] H; try discriminate; [reflexivity|]. cbn [map] in H. injection H as H1 H2. rewrite (IH l H2). cbn [map]. f_equal.
  destruct r as [[y|]|]; cbn [answer_of] in H1; congruence.
Qed.
Definition as_voter (t : theft) : voter :=
  mkVoter (mkPbal (th_id t) (pb_style (vr_ballot (th_voter t))) (pb_contests (vr_ballot (th_voter t)))) (th_state t) 0 None false 0 0.
Lemma combine_app' {A B} (a a' : list A) (b b' : list B) : List.length a = List.length b -> combine (a ++ a') (b ++ b') = combine a b ++ combine a' b'.
Proof. revert b. induction a as [|x a IH]; intros [|y b] H; try discriminate; [reflexivity|]. cbn [app combine]. rewrite IH by (injection H; auto). reflexivity. Qed.
Lemma f2_len {A B} (R : A -> B -> Prop) l l' : Forall2 R l l' -> List.length l = List.length l'.
Proof. induction 1; cbn [List.length]; congruence. Qed.
Section Thefts.
  Context (E : env) (m : manifest) (im : internal_manifest) (cx : context) (vs : list voter) (ebs : list ct_ballot) (ts : list theft).
  Context (Henc : Forall2 (encrypted_as E im cx) vs ebs) (Hfrom : forall t, In t ts -> In (th_voter t, th_ballot t) (combine vs ebs)).
  Notation vs' := (vs ++ map as_voter ts). Notation ebs' := (ebs ++ map (stolen E) ts).
  Lemma thefts_history : with_thefts E vs ebs ts = combine ebs' (map vr_state vs').
  Proof.
    unfold with_thefts. rewrite map_app, combine_app'; [|rewrite map_length; symmetry; exact (f2_len _ _ _ Henc)]. f_equal.
    clear. induction ts as [|t l IH]; [reflexivity|]. cbn [map combine]. rewrite IH. reflexivity.
  Qed.
  Lemma pair_encrypted v eb : In (v, eb) (combine vs ebs) -> encrypted_as E im cx v eb.
  Proof.
    clear Hfrom. intros H. induction Henc as [|v' eb' l l' H1 HF IH]; [destruct H|]. destruct H as [H|H]; [injection H as <- <-; exact H1|exact (IH HF H)].
  Qed.
  Lemma thefts_made : Forall2 (made E im cx) vs' ebs'.
  Proof.
    apply Forall2_app; [eapply Forall2_impl'; [|exact Henc]; intros v eb _ _ H; left; exact H|].
    assert (H : forall t, In t ts -> made E im cx (as_voter t) (stolen E t)).
    { intros t Ht. right. exists (th_voter t), (th_ballot t). split; [apply pair_encrypted, Hfrom, Ht|]. repeat split. }
    clear Hfrom. induction ts as [|t l IH]; [constructor|]. cbn [map]. constructor; [apply H; left; reflexivity|apply IH]. intros x Hx. apply H. right. exact Hx.
  Qed.
  Lemma thefts_ids : map vr_id vs' = map vr_id vs ++ map th_id ts.
  Proof. rewrite map_app, map_map. reflexivity. Qed.
  Lemma thefts_usable : (forall v, In v vs -> usable_style E im (vr_ballot v)) -> forall v, In v vs' -> usable_style E im (vr_ballot v).
  Proof.
    intros H v Hin. apply in_app_or in Hin as [Hin|Hin]; [apply H, Hin|]. apply in_map_iff in Hin as (t & <- & Ht). intros ds Hds. apply (H (th_voter t)); [|exact Hds].
    apply Hfrom in Ht. apply in_combine_l in Ht. exact Ht.
  Qed.
  Lemma thefts_states : (forall v, In v vs -> vr_state v <> UNKNOWN) -> (forall t, In t ts -> th_state t <> UNKNOWN) -> forall v, In v vs' -> vr_state v <> UNKNOWN.
  Proof. intros H1 H2 v Hin. apply in_app_or in Hin as [Hin|Hin]; [apply H1, Hin|]. apply in_map_iff in Hin as (t & <- & Ht). apply (H2 t Ht). Qed.
  Lemma thefts_cast : len (filter is_cast vs') = len (filter is_cast vs) + len (cast_thefts ts).
  Proof.
    rewrite filter_app. unfold len. rewrite app_length, Nat2Z.inj_add. f_equal. f_equal. unfold cast_thefts. clear. induction ts as [|t l IH]; [reflexivity|]. cbn [map filter]. unfold is_cast at 1. cbn [as_voter vr_state].
    destruct (box_state_eqb (th_state t) CAST); cbn [List.length]; rewrite IH; reflexivity.
  Qed.
  Lemma thefts_count cid oid : cast_count im vs' cid oid = cast_count im vs cid oid + stolen_count im ts cid oid.
  Proof.
    unfold cast_count. rewrite filter_app. unfold len. rewrite app_length, Nat2Z.inj_add. f_equal. unfold stolen_count, cast_thefts, len. f_equal. clear. induction ts as [|t l IH]; [reflexivity|].
    cbn [map filter]. unfold is_cast at 1. rewrite (vote_copied im (vr_ballot (as_voter t)) (vr_ballot (th_voter t)) cid oid eq_refl eq_refl). cbn [as_voter vr_state].
    destruct (box_state_eqb (th_state t) CAST); cbn [andb filter]; [|exact IH]. destruct (vote_for im (vr_ballot (th_voter t)) cid oid =? 1); cbn [List.length]; rewrite IH; reflexivity.
  Qed.
  Lemma thefts_spoiled : map vr_id (filter is_spoiled vs') = map vr_id (filter is_spoiled vs) ++ map th_id (filter (fun t => box_state_eqb (th_state t) SPOILED) ts).
  Proof.
    rewrite filter_app, map_app. f_equal. clear. induction ts as [|t l IH]; [reflexivity|]. cbn [map filter]. unfold is_spoiled at 1. cbn [as_voter vr_state].
    destruct (box_state_eqb (th_state t) SPOILED); cbn [map]; rewrite IH; reflexivity.
  Qed.
End Thefts.
Lemma thefts_taken E m im cx vs ebs ts : valid_env E -> manifest_is_valid m = true -> make_internal E m = Ok im -> in_subgroup E (cx_key cx) -> distinct_option_ids im ->
  Forall2 (encrypted_as E im cx) vs ebs -> (forall v, In v vs -> usable_style E im (vr_ballot v)) -> (forall t, In t ts -> In (th_voter t, th_ballot t) (combine vs ebs)) ->
  NoDup (map vr_id vs ++ map th_id ts) ->
  snd (run_box E (mkBox im cx ds_new) (with_thefts E vs ebs ts)) = map (fun p => Ok (Some (submit_ballot E (fst p) (snd p)))) (with_thefts E vs ebs ts).
Proof.
  intros HE Hv Hm HK Hdist Henc Hst Hfrom Hids. rewrite <- (map_map (fun p => submit_ballot E (fst p) (snd p)) (fun x => Ok (Some x))). apply all_answered. rewrite map_map.
  rewrite (proj1 (box_history E im cx _)). pose proof (thefts_made E im cx vs ebs ts Henc Hfrom) as Hmade. pose proof (thefts_usable E im vs ebs ts Hfrom Hst) as Hst'.
  rewrite (thefts_history E im cx vs ebs ts Henc). apply answers_all; [| |intros p _ []].
  - apply Forall_forall. intros [eb st] Hin. cbn [fst]. apply in_combine_l in Hin. destruct (Forall2_in_r _ _ _ _ Hmade Hin) as [v [Hi H]].
    destruct (made_good E m im cx HE Hv Hm HK Hdist v eb H (Hst' v Hi)) as (Hval & _). unfold valid_for. rewrite Hval. reflexivity.
  - rewrite <- thefts_ids in Hids. rewrite <- (subs_ids E im cx HE HK _ _ Hmade Hst') in Hids. unfold subs in Hids. rewrite map_map in Hids. exact Hids.
Qed.
Lemma election_with_copies : forall E rnd k ss mid m im, valid_env E -> hmac_32 E -> qq E <= 2 ^ 1024 -> good_seats E k ss -> NoDup (map st_seq ss) -> (forall a b, 0 <= rnd a b) ->
  manifest_is_valid m = true -> make_internal E m = Ok im -> distinct_option_ids im ->
  exists gs gs' med jk,
    rmapM (fun s => guardian_from_nonce E (st_id s) (st_seq s) (len ss) (Z.of_nat k) (st_draws s)) ss = Ok gs /\
    full_ceremony E rnd gs (new_mediator mid (mkDetails (len ss) (Z.of_nat k))) = Ok (gs', med) /\
    md_publish_joint_key E med = Some jk /\
    let cx := make_context E (len ss) (Z.of_nat k) (jk_key jk) (jk_hash jk) (im_hash im) in
    forall vs ebs ts, Forall2 (encrypted_as E im cx) vs ebs -> (forall v, In v vs -> usable_style E im (vr_ballot v)) ->
      (forall t, In t ts -> In (th_voter t, th_ballot t) (combine vs ebs)) ->
      NoDup (map vr_id vs ++ map th_id ts) -> (forall v, In v vs -> vr_state v <> UNKNOWN) -> (forall t, In t ts -> th_state t <> UNKNOWN) ->
      len (filter is_cast vs) + len (cast_thefts ts) < qq E -> len (filter is_cast vs) + len (cast_thefts ts) <= dmax E -> 1 <= dmax E ->
    let store := bx_store (fst (run_box E (mkBox im cx ds_new) (with_thefts E vs ebs ts))) in
    let spoiled := dvals (get_ballots store (Some SPOILED)) in
    snd (run_box E (mkBox im cx ds_new) (with_thefts E vs ebs ts)) = map (fun p => Ok (Some (submit_ballot E (fst p) (snd p)))) (with_thefts E vs ebs ts) /\
    forall up rnd' dmid av, (forall path, up path = true) -> (forall a, In a av -> In a (combine ss gs')) -> NoDup (map fst av) -> (k <= length av)%nat ->
    exists t dm p ps,
      tally_ballots E true store im cx = Ok (Some t) /\
      verify_aggregation E (fun _ => all_up) (ds_values store) t m cx = Ok verified /\
      compensated_setup E up rnd' (map snd av) (map share_key gs') (new_dmediator dmid cx) cx t spoiled = Ok dm /\
      dm_plaintext_tally E dm t m = Ok (Some p) /\
      (forall cid oid n, count_of p cid oid = Some n <-> in_manifest m cid oid /\ n = cast_count im vs cid oid + stolen_count im ts cid oid) /\
      dm_plaintext_ballots E dm spoiled m = Ok (Some ps) /\
      dkeys ps = map vr_id (filter is_spoiled vs) ++ map th_id (filter (fun t => box_state_eqb (th_state t) SPOILED) ts) /\
      (forall t, In t ts -> th_state t = SPOILED -> exists pb, dget (th_id t) ps = Some pb /\
         forall cid oid n, count_of pb cid oid = Some n <-> on_ballot im (vr_ballot (th_voter t)) cid oid /\ n = vote_for im (vr_ballot (th_voter t)) cid oid).
Proof.
  intros E rnd k ss mid m im HE Hh Hq1024 Hseats Hseq Hrnd Hv Hm Hdist.
  destruct (ceremony_ready E rnd k ss mid HE Hh Hq1024 Hseats Hrnd) as (gs & gs' & med & R1 & R2 & R3 & R4 & R5).
  exists gs, gs', med. eexists. split; [exact R1|]. split; [exact R2|]. split; [exact R3|]. cbn [jk_key jk_hash].
  set (cx := make_context E (len ss) (Z.of_nat k) _ _ _). intros vs0 ebs0 ts Henc0 Hst0 Hfrom Hids0 Hun0 Hts Hq Hd Hd1. cbv zeta.
  assert (HK : in_subgroup E (cx_key cx)) by (apply (joint_subgroup E HE k ss Hseats)).
  split; [apply (thefts_taken E m im cx vs0 ebs0 ts HE Hv Hm HK Hdist Henc0 Hst0 Hfrom Hids0)|].
  intros up rnd' dmid av Hup Hav Hnav Hk.
  pose proof (thefts_made E im cx vs0 ebs0 ts Henc0 Hfrom) as Henc. pose proof (thefts_usable E im vs0 ebs0 ts Hfrom Hst0) as Hst.
  pose proof (thefts_states vs0 ts Hun0 Hts) as Hun. rewrite <- (thefts_ids vs0 ts) in Hids0. rewrite <- (thefts_cast vs0 ts) in Hq, Hd.
  rewrite (thefts_history E im cx vs0 ebs0 ts Henc0). rewrite <- thefts_spoiled.
  assert (Hcount : forall cid oid, cast_count im vs0 cid oid + stolen_count im ts cid oid = cast_count im (vs0 ++ map as_voter ts) cid oid) by (intros; symmetry; apply thefts_count).
  assert (Hin_t : forall t, In t ts -> In (as_voter t) (vs0 ++ map as_voter ts)) by (intros t Ht; apply in_or_app; right; apply in_map, Ht).
  revert Henc Hst Hun Hids0 Hq Hd Hcount Hin_t. generalize (vs0 ++ map as_voter ts) (ebs0 ++ map (stolen E) ts). intros vs ebs Henc Hst Hun Hids Hq Hd Hcount Hin_t.
  rewrite (spoiled_list E m im cx HE Hv Hm HK Hdist vs ebs Henc Hst Hids).
  assert (Hm' : NoDup (map cd_id (mf_contests m))) by (apply manifest_is_valid_iff in Hv as (_ & _ & _ & _ & Hn & _); exact Hn).
  destruct (quorum_decrypts E k ss cx (total_tally E im cx vs ebs) (in_state SPOILED (subs E vs ebs)) up rnd' (map fst av) (map snd av) (map share_key gs') dmid m
     (cast_count im vs) (spoiled_value im vs)) as (dm & D1 & ((p & P1 & P2 & P3) & (ps & S1 & S2 & S3)) & _); try assumption; try reflexivity.
  - apply (ZKFacts.hash_range E HE).
  - intros s Hs. apply in_map_iff in Hs as [[s' g] [<- Hs]]. apply Hav in Hs. apply in_combine_l in Hs. exact Hs.
  - rewrite map_length. exact Hk.
  - apply (available_ready E ss gs' av R4 Hav).
  - apply (total_distinct E m im cx HE Hv Hm HK Hdist vs ebs Henc Hst Hun).
  - apply (total_encrypts E m im cx HE Hv Hm HK Hdist vs ebs Henc Hst Hids Hun Hq Hd).
  - unfold in_state. apply NoDup_map_filter. apply (subs_nodup E im cx HE HK vs ebs Henc Hst Hids).
  - apply (spoiled_encrypts E m im cx HE Hv Hm HK Hdist vs ebs Henc Hst Hids Hd1).
  - exists (total_tally E im cx vs ebs), dm, p, ps.
    split; [apply (tallied E m im cx HE Hv Hm HK Hdist vs ebs Henc Hst Hids Hun)|]. split; [apply (aggregated E m im cx HE Hv Hm HK Hdist vs ebs Henc Hst Hids Hun)|]. split; [exact D1|]. split; [exact P1|].
    split; [|split; [exact S1|split]].
    + intros cid oid n. rewrite (P3 cid oid n), (total_options E m im cx HE Hv Hm HK Hdist vs ebs Henc Hst Hun), (Hcount cid oid). tauto.
    + rewrite S2. apply (spoiled_ids E im cx HE HK vs ebs Henc Hst).
    + intros t Ht Hs. destruct (Forall2_in_l _ _ _ _ (subs_from E im cx vs ebs Henc) (Hin_t t Ht)) as [sb [Hb Hc]].
      destruct (from_id E im cx HE HK vs Hst (as_voter t) sb (Hin_t t Ht) Hc) as [I1 I2].
      destruct (S3 sb) as (pb & B1 & B2 & B3); [apply filter_In; split; [exact Hb|rewrite I2; cbn [as_voter vr_state]; rewrite Hs; reflexivity]|].
      exists pb. rewrite I1 in B1. split; [exact B1|]. intros cid oid n. rewrite <- (vote_copied im (vr_ballot (as_voter t)) (vr_ballot (th_voter t)) cid oid eq_refl eq_refl).
      rewrite <- (on_copied im (vr_ballot (as_voter t)) (vr_ballot (th_voter t)) cid oid eq_refl).
      apply (spoiled_shows E m im cx HE Hv Hm HK Hdist vs Hst Hids (as_voter t) sb pb (Hin_t t Ht) Hc B3).
Qed.

(** ** any ballot in a box can be copied *)
Lemma sorted_strip cs : sort_by bc_seq (map strip_contest cs) = map strip_contest cs -> sort_by bc_seq cs = cs.
Proof.
  intros H. apply sort_by_id. pose proof (sort_by_sorted bc_seq (map strip_contest cs)) as Hs. rewrite H in Hs. clear H. revert Hs. unfold sorted_by. induction cs as [|c cs IH]; intros Hs; [constructor|].
  cbn [map] in Hs. inversion Hs as [|? ? H1 H2]; subst. constructor; [apply IH, H1|]. apply Forall_forall. intros x Hx. rewrite Forall_forall in H2. exact (H2 (strip_contest x) (in_map strip_contest cs x Hx)).
Qed.
Lemma copy_valid E im cx b st i : ballot_valid_for_election E b im cx true = Ok true -> sort_by bc_seq (cb_contests b) = cb_contests b -> cb_contests b <> [] ->
  ballot_valid_for_election E (copy_of E (sb_ballot (submit_ballot E b st)) i) im cx true = Ok true.
Proof.
  intros Hv Hs Hn. set (b' := mkCbal i (cb_style b) (cb_manifest_hash b) (cb_code_seed b) (cb_contests b) (cb_code b) (cb_timestamp b) (create_ballot_hash E i (cb_manifest_hash b) (cb_contests b)) None).
  assert (Hv' : ballot_valid_for_election E b' im cx true = Ok true).
  { apply accepted_iff in Hv as (ds & H1 & H2 & H3 & H4 & H5). apply accepted_iff. exists ds. split; [exact H1|]. split; [intros d Hd; exact (H2 d Hd)|]. split; [exact H3|]. split; [|exact H5].
    unfold b', ballot_crypto_hash_with, create_ballot_hash. cbn [cb_hash cb_contests cb_id]. rewrite Hs, H3. destruct (cb_contests b); [destruct (Hn eq_refl)|reflexivity]. }
  pose proof (stored_valid E im cx b' UNKNOWN Hv' Hs Hn) as H.
  replace (copy_of E (sb_ballot (submit_ballot E b st)) i) with (sb_ballot (submit_ballot E b' UNKNOWN)); [exact H|].
  unfold copy_of, submit_ballot, make_submitted. cbn [sb_ballot cb_contests cb_id cb_style cb_manifest_hash cb_code_seed cb_code cb_timestamp b']. rewrite strip_twice. f_equal.
  unfold create_ballot_hash. rewrite (sort_by_map bc_seq bc_seq strip_contest) by reflexivity. rewrite map_map. reflexivity.
Qed.
Lemma box_same E im cx h : bx_manifest (fst (run_box E (mkBox im cx ds_new) h)) = im /\ bx_context (fst (run_box E (mkBox im cx ds_new) h)) = cx.
Proof.
  unfold run_box.
  assert (G : forall h x (rs : list (res (option sub_ballot))), bx_manifest x = im -> bx_context x = cx -> bx_manifest (fst (fold_left (fun '(x, rs) '(b, st) => let '(x', r) := box_submit E x b st in (x', rs ++ [r])) h (x, rs))) = im /\
    bx_context (fst (fold_left (fun '(x, rs) '(b, st) => let '(x', r) := box_submit E x b st in (x', rs ++ [r])) h (x, rs))) = cx).
  { intros h0. induction h0 as [|[b st] h0 IH]; intros x rs H1 H2; [split; assumption|]. cbn [fold_left]. destruct (box_submit E x b st) as [x' r] eqn:Hb. apply IH; unfold box_submit in Hb; destruct (submit_to_box _ _ _ _ _ _) in Hb; injection Hb as <- _; assumption. }
  apply G; reflexivity.
Qed.
Lemma copy_taken E im cx h i sb j st : let x := fst (run_box E (mkBox im cx ds_new) h) in
  ds_get (bx_store x) i = Some sb -> sort_by bc_seq (cb_contests (sb_ballot sb)) = cb_contests (sb_ballot sb) -> cb_contests (sb_ballot sb) <> [] -> ds_get (bx_store x) j = None ->
  exists sb', snd (box_submit E x (copy_of E (sb_ballot sb) j) st) = Ok (Some sb') /\ sb_id sb' = j /\ sb_state sb' = st /\ cb_contests (sb_ballot sb') = cb_contests (sb_ballot sb) /\
    cb_style (sb_ballot sb') = cb_style (sb_ballot sb) /\ cb_code (sb_ballot sb') = cb_code (sb_ballot sb) /\
    ds_get (bx_store (fst (box_submit E x (copy_of E (sb_ballot sb) j) st))) j = Some sb' /\ ds_get (bx_store (fst (box_submit E x (copy_of E (sb_ballot sb) j) st))) i = Some sb.
Proof.
  cbv zeta. intros Hg Hs Hn Hj. destruct (box_contents E im cx h i sb Hg) as (b & st0 & _ & Hv & -> & Hi).
  pose proof (box_same E im cx h) as Hx.
  destruct (fst (run_box E (mkBox im cx ds_new) h)) as [im' cx' s]. cbn [bx_manifest bx_context bx_store] in *. destruct Hx as [-> ->].
  pose proof (copy_valid E im cx b st0 j Hv (sorted_strip _ Hs)) as Hc. 
  assert (Hn' : cb_contests b <> []) by (intros H; apply Hn; unfold submit_ballot, make_submitted; cbn [sb_ballot cb_contests]; rewrite H; reflexivity). specialize (Hc Hn').
  unfold box_submit, submit_to_box. cbn [bx_manifest bx_context bx_store]. rewrite Hc. set (c := copy_of E (sb_ballot (submit_ballot E b st0)) j) in *. change (cb_id c) with j. rewrite Hj.
  change (sb_id (submit_ballot E c st)) with j. cbn [fst snd bx_store]. unfold ds_get, ds_set in *. rewrite dget_dset_same. exists (submit_ballot E c st).
  split; [reflexivity|]. split; [reflexivity|]. split; [reflexivity|]. split; [apply copy_contests|]. split; [reflexivity|]. split; [reflexivity|]. split; [reflexivity|].
  rewrite dget_dset_other; [exact Hg|]. intros ->. congruence.
Qed.
(** ** contests of different ballots *)
Lemma strip_one c : strip_contest (strip_contest c) = strip_contest c.
Proof. unfold strip_contest. cbn [bc_id bc_seq bc_desc_hash bc_selections bc_acc bc_hash bc_nonce bc_proof bc_ext]. rewrite map_map. reflexivity. Qed.
Lemma mixture_facts l1 l2 l : mixture l1 l2 l -> (forall c, In c l -> In c l1 \/ In c l2) /\ map bc_seq l = map bc_seq l1 /\
  (forall f, find_first (fun c => eqb f (bc_id c)) l = find_first (fun c => eqb f (bc_id c)) l1 \/ find_first (fun c => eqb f (bc_id c)) l = find_first (fun c => eqb f (bc_id c)) l2).
Proof.
  induction 1 as [|c1 c2 c l1 l2 l H1 H2 H3 HM (I1 & I2 & I3)]; [cbn; auto|]. split; [|split].
  - intros x [<-|Hx]; [destruct H3 as [-> | ->]; [left|right]; left; reflexivity|]. destruct (I1 x Hx) as [H|H]; [left|right]; right; exact H.
  - cbn [map]. rewrite I2. destruct H3 as [-> | ->]; congruence.
  - intros f. cbn [find_first]. rewrite <- H1. replace (bc_id c) with (bc_id c1) by (destruct H3 as [-> | ->]; congruence).
    destruct (eqb f (bc_id c1)); [destruct H3 as [-> | ->]; auto|apply I3].
Qed.
Lemma sorted_seq l l' : map bc_seq l = map bc_seq l' -> sort_by bc_seq l' = l' -> sort_by bc_seq l = l.
Proof.
  intros Hm H. apply sort_by_id. pose proof (sort_by_sorted bc_seq l') as Hs. rewrite H in Hs. clear H. revert l' Hm Hs. unfold sorted_by. induction l as [|c l IH]; intros [|c' l'] Hm Hs; try discriminate; [constructor|].
  cbn [map] in Hm. injection Hm as H1 H2. inversion Hs as [|? ? S1 S2]; subst. constructor; [apply (IH l' H2 S1)|]. rewrite Forall_forall in *. intros x Hx.
  assert (Hy : In (bc_seq x) (map bc_seq l')) by (rewrite <- H2; apply in_map, Hx). apply in_map_iff in Hy as (y & Hy & Hi). rewrite H1, <- Hy. apply S2, Hi.
Qed.
Lemma mix_valid E im cx b1 b2 cs i : ballot_valid_for_election E b1 im cx true = Ok true -> ballot_valid_for_election E b2 im cx true = Ok true -> cb_style b1 = cb_style b2 ->
  sort_by bc_seq (cb_contests b1) = cb_contests b1 -> cb_contests b1 <> [] -> mixture (cb_contests b1) (cb_contests b2) cs ->
  ballot_valid_for_election E (mix_of E b1 cs i) im cx true = Ok true.
Proof.
  intros Hv1 Hv2 Hst Hs Hn Hmix. destruct (mixture_facts _ _ _ Hmix) as (M1 & M2 & M3). pose proof (sorted_seq _ _ M2 Hs) as Hs'.
  assert (Hn' : cs <> []) by (intros ->; destruct (cb_contests b1); [apply Hn; reflexivity|discriminate M2]).
  set (b' := mkCbal i (cb_style b1) (cb_manifest_hash b1) (cb_code_seed b1) cs (cb_code b1) (cb_timestamp b1) (create_ballot_hash E i (cb_manifest_hash b1) cs) None).
  assert (Hv' : ballot_valid_for_election E b' im cx true = Ok true).
  { apply accepted_iff in Hv1 as (ds & H1 & H2 & H3 & H4 & H5). apply accepted_iff in Hv2 as (ds2 & G1 & G2 & G3 & G4 & G5). rewrite <- Hst, H1 in G1. injection G1 as <-.
    apply accepted_iff. exists ds. split; [exact H1|]. split; [|split; [exact H3|split]].
    - intros d Hd. apply style_contest_iff. specialize (H2 d Hd). specialize (G2 d Hd). apply style_contest_iff in H2. apply style_contest_iff in G2. unfold style_contest_ok in *. cbn [b' cb_contests].
      destruct (M3 (cd_id (ph_desc d))) as [-> | ->]; assumption.
    - unfold b', ballot_crypto_hash_with, create_ballot_hash. cbn [cb_hash cb_contests cb_id]. rewrite Hs', H3. destruct cs; [destruct (Hn' eq_refl)|reflexivity].
    - intros c Hc. destruct (M1 c Hc) as [H|H]; [exact (H5 c H)|exact (G5 c H)]. }
  exact (stored_valid E im cx b' UNKNOWN Hv' Hs' Hn').
Qed.
Lemma strip_submitted E b st : map strip_contest (cb_contests (sb_ballot (submit_ballot E b st))) = cb_contests (sb_ballot (submit_ballot E b st)).
Proof. apply strip_twice. Qed.
Lemma mix_taken E im cx h i1 sb1 i2 sb2 cs j st : let x := fst (run_box E (mkBox im cx ds_new) h) in
  ds_get (bx_store x) i1 = Some sb1 -> ds_get (bx_store x) i2 = Some sb2 -> cb_style (sb_ballot sb1) = cb_style (sb_ballot sb2) ->
  sort_by bc_seq (cb_contests (sb_ballot sb1)) = cb_contests (sb_ballot sb1) -> sort_by bc_seq (cb_contests (sb_ballot sb2)) = cb_contests (sb_ballot sb2) -> cb_contests (sb_ballot sb1) <> [] ->
  mixture (cb_contests (sb_ballot sb1)) (cb_contests (sb_ballot sb2)) cs -> ds_get (bx_store x) j = None ->
  exists sb', snd (box_submit E x (mix_of E (sb_ballot sb1) cs j) st) = Ok (Some sb') /\ sb_id sb' = j /\ sb_state sb' = st /\ cb_contests (sb_ballot sb') = cs.
Proof.
  cbv zeta. intros Hg1 Hg2 Hst Hs1 Hs2 Hn Hmix Hj. pose proof (box_same E im cx h) as Hx.
  destruct (box_contents E im cx h i1 sb1 Hg1) as (b1 & s1 & _ & Hv1 & -> & Hi1). destruct (box_contents E im cx h i2 sb2 Hg2) as (b2 & s2 & _ & Hv2 & -> & Hi2).
  destruct (fst (run_box E (mkBox im cx ds_new) h)) as [im' cx' s]. cbn [bx_manifest bx_context bx_store] in *. destruct Hx as [-> ->].
  assert (N1 : cb_contests b1 <> []) by (intros H; apply Hn; unfold submit_ballot, make_submitted; cbn [sb_ballot cb_contests]; rewrite H; reflexivity).
  assert (N2 : cb_contests b2 <> []).
  { intros H. unfold submit_ballot, make_submitted in Hmix. cbn [sb_ballot cb_contests] in Hmix. rewrite H in Hmix. destruct (cb_contests b1); [apply N1; reflexivity|inversion Hmix]. }
  pose proof (stored_valid E im cx b1 s1 Hv1 (sorted_strip _ Hs1) N1) as V1. pose proof (stored_valid E im cx b2 s2 Hv2 (sorted_strip _ Hs2) N2) as V2.
  pose proof (mix_valid E im cx _ _ cs j V1 V2 Hst Hs1 Hn Hmix) as Hc.
  assert (Hcs : map strip_contest cs = cs).
  { rewrite <- (map_id cs) at 2. apply map_ext_in. intros c Hin. destruct (proj1 (mixture_facts _ _ _ Hmix) c Hin) as [H|H].
    - pose proof (strip_submitted E b1 s1) as G. rewrite <- G in H. apply in_map_iff in H as (y & <- & _). apply strip_one.
    - pose proof (strip_submitted E b2 s2) as G. rewrite <- G in H. apply in_map_iff in H as (y & <- & _). apply strip_one. }
  unfold box_submit, submit_to_box. cbn [bx_manifest bx_context bx_store]. rewrite Hc. set (c := mix_of E (sb_ballot (submit_ballot E b1 s1)) cs j) in *. change (cb_id c) with j. rewrite Hj.
  change (sb_id (submit_ballot E c st)) with j. cbn [fst snd bx_store]. unfold ds_get, ds_set in *. rewrite dget_dset_same. exists (submit_ballot E c st).
  split; [reflexivity|]. split; [reflexivity|]. split; [reflexivity|]. unfold c, mix_of, submit_ballot, make_submitted. cbn [sb_ballot cb_contests]. rewrite !Hcs. reflexivity.
Qed.
