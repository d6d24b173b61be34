(** * PropsEncrypt: the properties of ballot encryption and ballot validation (C23, C24, C26, C41).
    Only theorems and non-vacuity examples; the vocabulary is in Spec.v and SpecElection.v. *)
From Verif Require Import Base Group Codec Hash DLog ElGamal ZK Manifest Ballot Encrypt Spec SpecElection
  Tiny Samples ListFacts CryptoThms EncryptFacts BallotFacts EncryptThms.

(** ** C23: what a contest is encrypted to *)
(** Whenever encrypt_contest returns a contest: one selection per option, in the order of the
    description, encrypting the recorded vote of that option, followed by the placeholders; all values
    are 0 or 1 and together they make up the number of seats, which is also what the accumulated
    ciphertext encrypts. *)
Theorem C23_contest_votes : forall E c d K Q seed verify ec, valid_env E -> in_subgroup E K ->
  encrypt_contest E c d K Q seed verify = Ok (Some ec) ->
  bc_id ec = cd_id (ph_desc d) /\ bc_seq ec = cd_seq (ph_desc d) /\ bc_desc_hash ec = contest_hash E (ph_desc d) /\
  exists real extra vs, bc_selections ec = real ++ extra /\
    Forall2 (fun o s => encrypts_option E K false o (recorded_vote c d o) s) (cd_selections (ph_desc d)) real /\
    Forall2 (fun ov s => encrypts_option E K true (fst ov) (snd ov) s) (combine (ph_placeholders d) vs) extra /\
    (forall o, In o (cd_selections (ph_desc d)) -> recorded_vote c d o = 0 \/ recorded_vote c d o = 1) /\
    (forall v, In v vs -> v = 0 \/ v = 1) /\ List.length vs = List.length (ph_placeholders d) /\
    sumZ (map (recorded_vote c d) (cd_selections (ph_desc d))) + sumZ vs = cd_number_elected (ph_desc d) /\
    exists r, 0 <= r < qq E /\ is_encryption E K r (cd_number_elected (ph_desc d)) (ct_pad (bc_acc ec)) (ct_data (bc_acc ec)).
Proof. exact contest_votes. Qed.
Print Assumptions C23_contest_votes.
Example C23_contest_votes_ex :
  exists ec, encrypt_contest medium dup_contest (ph_of mayor) (gexp medium 77) 9 5 true = Ok (Some ec).
Proof. exact dup_succeeds. Qed.

(** The recorded vote is the voter's own entry for the option, and 0 if there is none, when the contest
    is not overvoted and the voter's entries have distinct ids ... *)
Theorem C23_recorded_is_voters_choice : forall c d o, overvoted c d = false -> NoDup (map ps_id (pc_selections c)) ->
  (forall s, In s (pc_selections c) -> ps_id s = sd_id o -> recorded_vote c d o = ps_vote s) /\
  (~ In (sd_id o) (map ps_id (pc_selections c)) -> recorded_vote c d o = 0).
Proof. exact recorded_is_voters. Qed.
Print Assumptions C23_recorded_is_voters_choice.
(** ... and an overvote is recorded as no selection at all. *)
Theorem C23_overvote_recorded_blank : forall c d o, cd_number_elected (ph_desc d) < marked c ->
  0 <= cd_number_elected (ph_desc d) -> recorded_vote c d o = 0.
Proof. exact overvote_blank. Qed.
Print Assumptions C23_overvote_recorded_blank.
Example C23_recorded_ex :
  let c := mkPcon "council" [mkPsel "council-di" 1 false None; mkPsel "council-cy" 1 false None]%string in
  let o := mkPcon "mayor" [mkPsel "mayor-ann" 1 false None; mkPsel "mayor-bob" 1 false None]%string in
  overvoted c (ph_of council) = false /\ map (recorded_vote c (ph_of council)) (cd_selections council) = [1; 1; 0] /\
  overvoted o (ph_of mayor) = true /\ marked o = 2 /\ map (recorded_vote o (ph_of mayor)) (cd_selections mayor) = [0; 0].
Proof. vm_compute. repeat split; reflexivity. Qed.

(** It does return a contest for every contest that is well formed (C48), with 0/1 votes (or overvoted),
    non-negative sequence orders, contest data within 510 bytes and no derived nonce equal to zero. *)
Theorem C23_succeeds : forall E, valid_env E -> hmac_32 E -> forall c d K Q seed verify, in_subgroup E K ->
  pt_contest_valid c d <> CheckInvalid ->
  ((1 <=? marked c) && overvoted c d = true \/
   forall s, In s (pc_selections c) -> ps_vote s = 0 \/ ps_vote s = 1) ->
  seqs_nonneg d -> usable_nonces E d seed -> cd_selections (ph_desc d) <> [] ->
  (forall err data b, contest_error (pt_contest_valid c d) = Some (err, data, b) ->
     Z.of_nat (String.length (contest_data_json E err data (write_ins c))) <= 510) ->
  (verify = true -> limit_fits E (cd_number_elected (ph_desc d))) ->
  exists ec, encrypt_contest E c d K Q seed verify = Ok (Some ec).
Proof. exact encrypt_contest_succeeds. Qed.
Print Assumptions C23_succeeds.
(** see C24_succeeds_ex for a concrete case of these hypotheses *)

(** Two entries for the same option: only the first counts, so a mark can be lost. *)
Theorem C23_duplicate_entries_refuted : exists E c d K Q seed ec s o e, valid_env E /\ in_subgroup E K /\
  encrypt_contest E c d K Q seed true = Ok (Some ec) /\ overvoted c d = false /\
  In s (pc_selections c) /\ In o (cd_selections (ph_desc d)) /\ ps_id s = sd_id o /\ ps_vote s = 1 /\
  In e (bc_selections ec) /\ cs_placeholder e = false /\ cs_id e = sd_id o /\
  forall e', In e' (bc_selections ec) -> cs_placeholder e' = false ->
    exists r, is_encryption E K r 0 (ct_pad (cs_ct e')) (ct_data (cs_ct e')).
Proof. exact duplicate_loses_vote. Qed.
Print Assumptions C23_duplicate_entries_refuted.
(** A full vote is not encrypted when the contest allows more votes than it has seats. *)
Theorem C23_full_vote_refuted : exists E c d K Q seed, valid_env E /\ in_subgroup E K /\
  contest_ph_is_valid d = true /\ matches c d /\ marked c = cd_number_elected (ph_desc d) /\
  (forall s, In s (pc_selections c) -> ps_vote s = 1) /\ encrypt_contest E c d K Q seed true = Ok None.
Proof. exact full_vote_not_encrypted. Qed.
Print Assumptions C23_full_vote_refuted.
(** A long write-in makes encrypt_contest raise instead of returning. *)
Theorem C23_long_write_in_refuted : exists E c d K Q seed, valid_env E /\ in_subgroup E K /\
  contest_ph_is_valid d = true /\ matches c d /\ marked c = cd_number_elected (ph_desc d) /\
  encrypt_contest E c d K Q seed true = Err TruncationError.
Proof. exact long_write_in_raises. Qed.
Print Assumptions C23_long_write_in_refuted.

(** ** C24: an encrypted ballot passes every check *)
(** For a valid manifest whose contests (of the ballot's style) are listed in sequence order, are at least
    one and have limits that fit the group, whatever encrypt_ballot returns passes both checks, as
    returned and also after submission (with nonces removed). *)
Theorem C24_encrypted_ballot_valid : forall E m im cx b eseed nonce verify rand now eb ds, valid_env E ->
  manifest_is_valid m = true -> make_internal E m = Ok im -> in_subgroup E (cx_key cx) ->
  get_contests_for im (pb_style b) = Ok ds -> ds <> [] -> in_order ds ->
  (forall d, In d ds -> limit_fits E (cd_number_elected (ph_desc d))) ->
  encrypt_ballot E b im cx eseed nonce verify rand now = Ok (Some eb) ->
  ballot_is_valid_encryption E eb (im_hash im) (cx_key cx) (cx_ext_hash cx) = Ok true /\
  ballot_valid_for_election E eb im cx true = Ok true /\
  (forall state t sb, sb = make_submitted E (cb_id eb) (cb_style eb) (cb_manifest_hash eb) (Some (cb_code_seed eb))
                     (cb_contests eb) (Some (cb_code eb)) (Some (cb_timestamp eb)) state t ->
     ballot_is_valid_encryption E (sb_ballot sb) (im_hash im) (cx_key cx) (cx_ext_hash cx) = Ok true /\
     ballot_valid_for_election E (sb_ballot sb) im cx true = Ok true).
Proof. exact encrypted_ballot_valid. Qed.
Print Assumptions C24_encrypted_ballot_valid.
Example C24_encrypted_ballot_valid_ex :
  (manifest_is_valid demo_manifest = true /\ make_internal medium demo_manifest = Ok (demo_im medium) /\
   get_contests_for (demo_im medium) (pb_style demo_ballot) = Ok demo_ds /\ demo_ds <> [] /\ in_order demo_ds /\
   (forall d, In d demo_ds -> limit_fits medium (cd_number_elected (ph_desc d)))) /\
  in_subgroup medium (cx_key demo_cx) /\
  encrypt_ballot medium demo_ballot (demo_im medium) demo_cx 5 (Some 11) true 0 100 = Ok (Some demo_eb).
Proof. split; [exact demo_setup|]. split; [exact demo_key|exact demo_eb_ok]. Qed.
(** The contests of the encrypted ballot are those of the style, in order, each the encryption of the
    voter's entry for it (a blank one if the voter skipped it); C23 says what each contains. *)
Theorem C24_ballot_contests : forall E b im cx eseed nonce verify rand now eb,
  encrypt_ballot E b im cx eseed nonce verify rand now = Ok (Some eb) ->
  exists ds, get_contests_for im (pb_style b) = Ok ds /\
    cb_id eb = pb_id b /\ cb_style eb = pb_style b /\ cb_manifest_hash eb = im_hash im /\ cb_code_seed eb = eseed /\
    Forall2 (fun d ec => encrypt_contest E (voter_contest b d) d (cx_key cx) (cx_ext_hash cx)
      (hash_elems E [HElem (im_hash im); HStr (pb_id b); HElem (match nonce with Some n => n | None => rand end)]) verify
      = Ok (Some ec)) ds (cb_contests eb).
Proof. exact ballot_contests. Qed.
Print Assumptions C24_ballot_contests.
(** and it does return a ballot *)
Theorem C24_succeeds : forall E im cx b eseed nonce verify rand now ds m, valid_env E -> hmac_32 E ->
  manifest_is_valid m = true -> make_internal E m = Ok im -> in_subgroup E (cx_key cx) ->
  get_contests_for im (pb_style b) = Ok ds -> (verify = true -> ds <> [] /\ in_order ds) ->
  (forall d, In d ds -> limit_fits E (cd_number_elected (ph_desc d)) /\ seqs_nonneg d /\
     usable_nonces E d (hash_elems E [HElem (im_hash im); HStr (pb_id b); HElem (match nonce with Some n => n | None => rand end)])) ->
  (forall d, In d ds -> let c := voter_contest b d in
     pt_contest_valid c d <> CheckInvalid /\
     ((1 <=? marked c) && overvoted c d = true \/ forall s, In s (pc_selections c) -> ps_vote s = 0 \/ ps_vote s = 1) /\
     cd_selections (ph_desc d) <> [] /\
     (forall err data x, contest_error (pt_contest_valid c d) = Some (err, data, x) ->
       Z.of_nat (String.length (contest_data_json E err data (write_ins c))) <= 510)) ->
  exists eb, encrypt_ballot E b im cx eseed nonce verify rand now = Ok (Some eb).
Proof. exact encrypt_ballot_succeeds. Qed.
Print Assumptions C24_succeeds.
Example C24_succeeds_ex : hmac_32 medium /\
  (forall d, In d demo_ds -> limit_fits medium (cd_number_elected (ph_desc d)) /\ seqs_nonneg d /\
     usable_nonces medium d (hash_elems medium [HElem (im_hash (demo_im medium)); HStr (pb_id demo_ballot); HElem 11])) /\
  (forall d, In d demo_ds -> let c := voter_contest demo_ballot d in
     pt_contest_valid c d <> CheckInvalid /\
     ((1 <=? marked c) && overvoted c d = true \/ forall s, In s (pc_selections c) -> ps_vote s = 0 \/ ps_vote s = 1) /\
     cd_selections (ph_desc d) <> [] /\
     (forall err data x, contest_error (pt_contest_valid c d) = Some (err, data, x) ->
       Z.of_nat (String.length (contest_data_json medium err data (write_ins c))) <= 510)).
Proof. split; [exact medium_hmac|exact demo_succeeds_hyps]. Qed.
(** Without the condition on the order of the contests the claim is false, even for a valid manifest. *)
Theorem C24_contest_order_refuted : exists E m im cx b eseed nonce rand now eb, valid_env E /\
  manifest_is_valid m = true /\ make_internal E m = Ok im /\ in_subgroup E (cx_key cx) /\
  encrypt_ballot E b im cx eseed nonce false rand now = Ok (Some eb) /\
  ballot_is_valid_encryption E eb (im_hash im) (cx_key cx) (cx_ext_hash cx) = Ok false.
Proof. exact swapped_order_refused. Qed.
Print Assumptions C24_contest_order_refuted.

(** ** C26: the chain of confirmation codes *)
(** [mediator_run] (BallotFacts.v) feeds a list of requests to an EncryptionMediator and collects the
    ballots it returns; failed requests return nothing. *)
Theorem C26_codes_chain : forall E reqs m,
  chained E (em_seed m) (snd (mediator_run E m reqs)) (em_seed (fst (mediator_run E m reqs))).
Proof. exact mediator_run_chained. Qed.
Print Assumptions C26_codes_chain.
Theorem C26_same_code_same_history : forall E im im' cx cx' d d' reqs reqs', 0 < qq E ->
  let r := mediator_run E (new_mediator E im cx d) reqs in
  let r' := mediator_run E (new_mediator E im' cx' d') reqs' in
  em_seed (fst r) = em_seed (fst r') ->
  (d = d' /\ map (fun b => (cb_timestamp b, cb_hash b)) (snd r) = map (fun b => (cb_timestamp b, cb_hash b)) (snd r')) \/
  exists s t, In s (device_text E d :: chain_texts E (device_hash E d) (map (fun b => (cb_timestamp b, cb_hash b)) (snd r))) /\
    In t (device_text E d' :: chain_texts E (device_hash E d') (map (fun b => (cb_timestamp b, cb_hash b)) (snd r'))) /\
    s <> t /\ sha E s mod qq E = sha E t mod qq E.
Proof. exact same_code_same_history. Qed.
Print Assumptions C26_same_code_same_history.
(** a run of three requests, the second of which fails (unknown ballot style) *)
Example C26_ex :
  let d := mkDevice 1 2 3 "polling-place" in
  let r := mediator_run medium (new_mediator medium (demo_im medium) demo_cx d)
             [(demo_ballot, 11, 100); (mkPbal "b" "no-such-style" [], 12, 101); (over_ballot, 13, 102)] in
  map cb_id (snd r) = ["ballot-1"; "ballot-2"]%string.
Proof. lazy. reflexivity. Qed.

(** ** C41: what an accepted ballot contains *)
(** Exactly when ballot_is_valid_for_election accepts: every contest of the style is on the ballot with
    the expected hash, the expected number of selections and every described option with its hash; and
    the hashes, sums and proofs of everything on the ballot check. *)
Theorem C41_accepts_exactly : forall E b im cx, ballot_valid_for_election E b im cx true = Ok true <->
  exists ds, get_contests_for im (cb_style b) = Ok ds /\
    (forall d, In d ds ->
      exists c, find (fun c => String.eqb (cd_id (ph_desc d)) (bc_id c)) (cb_contests b) = Some c /\
        bc_desc_hash c = contest_hash E (ph_desc d) /\
        len (bc_selections c) = len (cd_selections (ph_desc d)) + len (ph_placeholders d) /\
        forall o, In o (cd_selections (ph_desc d)) ->
          exists s, find (fun s => String.eqb (sd_id o) (cs_id s)) (bc_selections c) = Some s /\
            cs_desc_hash s = selection_desc_hash E o) /\
    cb_manifest_hash b = im_hash im /\ cb_hash b = ballot_crypto_hash_with E b (im_hash im) /\
    forall c, In c (cb_contests b) ->
      bc_hash c = contest_crypto_hash E (bc_id c) (bc_selections c) (bc_desc_hash c) /\
      elgamal_add E (map cs_ct (bc_selections c)) = Ok (bc_acc c) /\
      (exists pf, bc_proof c = Some pf /\ const_is_valid E pf (bc_acc c) (cx_key cx) (cx_ext_hash cx) = true) /\
      forall s, In s (bc_selections c) ->
        cs_hash s = selection_hash E (cs_id s) (cs_desc_hash s) (cs_ct s) /\
        exists pf, cs_proof s = Some pf /\ disj_is_valid E pf (cs_ct s) (cx_key cx) (cx_ext_hash cx) = true.
Proof. exact accepted_iff. Qed.
Print Assumptions C41_accepts_exactly.
Example C41_accepts_ex : ballot_valid_for_election medium rogue_ballot (demo_im medium) demo_cx true = Ok true.
Proof. exact rogue_accepted. Qed.

(** A prover who can answer a second set of challenges for a contest has encrypted a 0 or a 1 in every
    selection, and the number proved in the contest's limit proof is the sum of them. *)
Theorem C41_contest_sound : forall E E' K Q Q' L c c', valid_env E -> same_group E E' -> in_subgroup E K ->
  qq E * L <= pp E ->
  contest_checks E c K Q = Ok true -> contest_checks E' c' K Q' = Ok true -> bc_acc c = bc_acc c' -> forked_contest L c c' ->
  exists vs, Forall2 (fun s v => (v = 0 \/ v = 1) /\
                exists r, 0 <= r < qq E /\ is_encryption E K r v (ct_pad (cs_ct s)) (ct_data (cs_ct s))) (bc_selections c) vs /\
    sumZ vs mod qq E = L mod qq E.
Proof. exact contest_sound. Qed.
Print Assumptions C41_contest_sound.
Example C41_contest_sound_ex : same_group medium medium' /\ qq medium * 1 <= pp medium /\
  contest_checks medium fork_contest (gexp medium 77) 9 = Ok true /\
  contest_checks medium' fork_contest' (gexp medium 77) 9 = Ok true /\
  bc_acc fork_contest = bc_acc fork_contest' /\ forked_contest 1 fork_contest fork_contest'.
Proof. exact fork_witness. Qed.

(** What acceptance does not guarantee: the ballot may hold contests outside its style ... *)
Theorem C41_extra_contest_refuted : exists E im cx b ds c, valid_env E /\ in_subgroup E (cx_key cx) /\
  ballot_valid_for_election E b im cx true = Ok true /\ get_contests_for im (cb_style b) = Ok ds /\
  In c (cb_contests b) /\ ~ In (bc_id c) (map (fun d => cd_id (ph_desc d)) ds).
Proof. exact rogue_extra_contest. Qed.
Print Assumptions C41_extra_contest_refuted.
(** ... and a contest with one seat may select two options and hold a selection nobody described. *)
Theorem C41_limit_refuted : exists E im cx b ds c d, valid_env E /\ in_subgroup E (cx_key cx) /\
  ballot_valid_for_election E b im cx true = Ok true /\ get_contests_for im (cb_style b) = Ok ds /\ In d ds /\
  In c (cb_contests b) /\ bc_id c = cd_id (ph_desc d) /\ cd_number_elected (ph_desc d) = 1 /\
  elgamal_decrypt E (bc_acc c) 77 = Ok 2 /\
  (exists s, In s (bc_selections c) /\ ~ In (cs_id s) (map sd_id (cd_selections (ph_desc d) ++ ph_placeholders d))).
Proof. exact rogue_overvote. Qed.
Print Assumptions C41_limit_refuted.
