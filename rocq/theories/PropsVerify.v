(** * PropsVerify: the properties of the verification functions (C43, C44, C50).
    Only theorems and non-vacuity examples; the vocabulary is in SpecTally.v, SpecShares.v and SpecVerify.v. *)
From Verif Require Import Base Group Codec Hash DLog ElGamal ZK Spec Tiny Manifest Ballot Encrypt SpecElection Samples EncryptThms Box Tally SpecTally TallyThms TallySamples BoxTallyRefuted
  Ceremony SpecCeremony Shares SpecShares SharesThms SharesMore SharesSamples Verify SpecVerify VerifyFacts VerifySamples.
From Coq Require Import Permutation List.

(** ** C43: a published tally is recomputed *)
(** verify_aggregation accepts exactly if no append of the submitted ballots to an empty tally raises and the
    result has the same ids and the same contests, options, hashes and ciphertexts as the published tally. *)
Theorem C43_accepts_exactly : forall E up bs t m cx im, make_internal E m = Ok im -> tally_dicts t ->
  let r := run_any E (new_tally E "verify" im cx) (calls up bs) in
  (verify_aggregation E up bs t m cx = Ok verified <-> none_raised (snd r) /\ same_tally (fst r) t).
Proof. exact aggregation_exact. Qed.
Print Assumptions C43_accepts_exactly.
(** At most one tally passes for given ballots. *)
Theorem C43_unique : forall E up bs t t' m cx im, make_internal E m = Ok im -> tally_dicts t -> tally_dicts t' ->
  verify_aggregation E up bs t m cx = Ok verified -> (verify_aggregation E up bs t' m cx = Ok verified <-> same_tally t t').
Proof. exact aggregation_unique. Qed.
Print Assumptions C43_unique.
(** What an accepted tally holds: the ids are those of the ballots that count (valid, first with their id), and the
    total of each option of the manifest, and of nothing else, is the product of the votes of the CAST ones. *)
Theorem C43_accepted_is_total : forall E bs t m cx im, valid_env E -> manifest_is_valid m = true -> make_internal E m = Ok im -> tally_dicts t ->
  (forall b, In b bs -> complete im (sb_ballot b)) -> verify_aggregation E (fun _ => all_up) bs t m cx = Ok verified ->
  let counted := accepted (passes E im cx) [] (with_true bs) in
  same_ids (ty_cast t) (map sb_id (in_state CAST counted)) /\ same_ids (ty_spoiled t) (map sb_id (in_state SPOILED counted)) /\
  forall cid oid c, total_of t cid oid = Some c <->
    exists d o, In d (im_contests im) /\ In o (cd_selections (ph_desc d)) /\ cid = cd_id (ph_desc d) /\ oid = sd_id o /\
      c = product E (flat_map (fun b => votes_for (sb_ballot b) cid oid) (in_state CAST counted)).
Proof. exact aggregation_sound. Qed.
Print Assumptions C43_accepted_is_total.
(** A tally made by appending the same ballots in any order, under any name, is accepted, *)
Theorem C43_any_order_accepted : forall E bs bs' id m cx im, valid_env E -> manifest_is_valid m = true -> make_internal E m = Ok im ->
  (forall b, In b bs -> complete im (sb_ballot b) /\ checks_answer E im cx b) -> Permutation bs bs' -> NoDup (map sb_id bs) ->
  verify_aggregation E (fun _ => all_up) bs (fst (run_appends E all_up (new_tally E id im cx) (with_true bs'))) m cx = Ok verified.
Proof. exact aggregation_complete. Qed.
Print Assumptions C43_any_order_accepted.
(** and so is the one tally_ballots makes from a store. *)
Theorem C43_tally_ballots_accepted : forall E (s : ballot_store) m cx im t, valid_env E -> manifest_is_valid m = true -> make_internal E m = Ok im ->
  NoDup (ds_keys s) -> (forall i sb, ds_get s i = Some sb -> sb_id sb = i) ->
  Forall (fun b => passes E im cx b true = true /\ sb_state b <> UNKNOWN /\ complete im (sb_ballot b) /\ own_ids im (sb_ballot b)) (ds_values s) ->
  tally_ballots E true s im cx = Ok (Some t) -> verify_aggregation E (fun _ => all_up) (ds_values s) t m cx = Ok verified.
Proof. exact aggregation_complete_store. Qed.
Print Assumptions C43_tally_ballots_accepted.
(** a tally of Ann's ballot, in which Ann has one vote *)
Example C43_ex : let t := fst (run_appends medium all_up (new_tally medium "published" (demo_im medium) demo_cx) (with_true [ann_cast])) in
  valid_env medium /\ manifest_is_valid demo_manifest = true /\ make_internal medium demo_manifest = Ok (demo_im medium) /\ tally_dicts t /\
  complete (demo_im medium) (sb_ballot ann_cast) /\ checks_answer medium (demo_im medium) demo_cx ann_cast /\
  verify_aggregation medium (fun _ => all_up) [ann_cast] t demo_manifest demo_cx = Ok verified /\ opened (total_of t "mayor" "mayor-ann") = Ok 1.
Proof.
  destruct demo_setup as (D1 & D2 & _). intros t. assert (Hc : complete (demo_im medium) (sb_ballot ann_cast)) by (apply completeb_ok; vm_compute; reflexivity).
  assert (Hv : checks_answer medium (demo_im medium) demo_cx ann_cast) by (exists true; exact ann_cast_valid).
  split; [exact medium_valid|]. split; [exact D1|]. split; [exact D2|]. split; [unfold t; rewrite run_appends_any; apply run_any_dicts|]. split; [exact Hc|]. split; [exact Hv|]. split.
  - apply (C43_any_order_accepted medium [ann_cast] [ann_cast] "published" demo_manifest demo_cx (demo_im medium) medium_valid D1 D2); [|apply Permutation_refl|repeat constructor; intros []].
    intros b [<-|[]]. auto.
  - unfold t, run_appends, with_true. cbn [map fold_left fst]. unfold append. change (box_state_eqb (sb_state ann_cast) UNKNOWN) with false. change (tally_contains _ ann_cast) with false.
    cbn [new_tally ty_manifest ty_context]. rewrite ann_cast_valid. change (sb_state ann_cast) with CAST. rewrite <- demo_imv_eq. vm_compute. reflexivity.
Qed.
(** verify_aggregation adds with the same pool as the tally.  If the pool fails while it verifies, a tally in which
    every total is 1 is accepted although it holds a ballot with a vote for Ann. *)
Theorem C43_failed_pool_refuted : exists E up b t m cx im, valid_env E /\ make_internal E m = Ok im /\ tally_dicts t /\ complete im (sb_ballot b) /\
  sb_state b = CAST /\ ballot_valid_for_election E (sb_ballot b) im cx true = Ok true /\ ty_cast t = [sb_id b] /\
  verify_aggregation E up [b] t m cx = Ok verified /\
  total_of t "mayor" "mayor-ann" = Some (mkCt 1 1) /\
  exists c, votes_for (sb_ballot b) "mayor" "mayor-ann" = [c] /\ elgamal_decrypt E c 77 = Ok 1.
Proof.
  destruct demo_setup as (D1 & D2 & _).
  exists medium, (fun _ _ => false), ann_cast, (mkTally "published" (demo_im medium) demo_cx ["ann-voter"%string] [] (ty_contests (new_tally medium "verify" (demo_im medium) demo_cx))), demo_manifest, demo_cx, (demo_im medium).
  assert (Ht : tally_dicts (mkTally "published" (demo_im medium) demo_cx ["ann-voter"%string] [] (ty_contests (new_tally medium "verify" (demo_im medium) demo_cx)))) by (apply new_tally_dicts).
  split; [exact medium_valid|]. split; [exact D2|]. split; [exact Ht|]. split; [apply completeb_ok; vm_compute; reflexivity|]. split; [reflexivity|]. split; [exact ann_cast_valid|]. split; [reflexivity|]. split.
  - apply (C43_accepts_exactly medium _ [ann_cast] _ demo_manifest demo_cx (demo_im medium) D2 Ht). change (calls (fun _ _ => false) [ann_cast]) with [((fun _ : nat => false), ann_cast, true)]. unfold run_any. cbn [fold_left].
    assert (Ha : append medium (fun _ => false) (new_tally medium "verify" (demo_im medium) demo_cx) ann_cast true =
      (mkTally "verify" (demo_im medium) demo_cx ["ann-voter"%string] [] (ty_contests (new_tally medium "verify" (demo_im medium) demo_cx)), Ok true)).
    { unfold append. change (box_state_eqb (sb_state ann_cast) UNKNOWN) with false. change (tally_contains _ ann_cast) with false.
      cbn [new_tally ty_manifest ty_context]. rewrite ann_cast_valid. change (sb_state ann_cast) with CAST. rewrite <- demo_imv_eq. vm_compute. reflexivity. }
    rewrite Ha. cbn [fst snd app]. split; [intros e [H|[]]; discriminate|]. split; [intros i; reflexivity|]. split; [intros i; reflexivity|]. apply same_map_refl. apply same_contest_refl.
  - split; [rewrite <- demo_imv_eq; vm_compute; reflexivity|]. eexists. split; [vm_compute; reflexivity|]. vm_compute. reflexivity.
Qed.
Print Assumptions C43_failed_pool_refuted.

(** ** C44: a published decryption is checked *)
(** verify_decryption accepts exactly if every share shown in the plaintext is by a known guardian and carries a
    proof that checks against that guardian's key and the option's ciphertext. *)
Theorem C44_accepts_exactly : forall E keys cx p, verify_decryption E p keys cx = Ok verified <->
  forall oid ct d, shown_share p oid ct d -> exists k, dget (dc_guardian d) keys = Some k /\ proof_holds E d ct (pk_key k) (cx_ext_hash cx).
Proof. exact accepts_exactly. Qed.
Print Assumptions C44_accepts_exactly.
(** If every share is by a known guardian and carries a proof, it answers; and it names an option with a share
    whose proof does not check, unless they all do. *)
Theorem C44_rejects_exactly : forall E keys cx p, (forall oid ct d, shown_share p oid ct d -> dmem (dc_guardian d) keys = true /\ dc_proof d <> None) ->
  (exists oid ct d, verify_decryption E p keys cx = Ok (rejected ("verify_decryption: " ++ oid ++ " selection is not valid")) /\ shown_share p oid ct d /\
     exists k, dget (dc_guardian d) keys = Some k /\ ~ proof_holds E d ct (pk_key k) (cx_ext_hash cx)) \/
  (verify_decryption E p keys cx = Ok verified /\ forall oid ct d k, shown_share p oid ct d -> dget (dc_guardian d) keys = Some k -> proof_holds E d ct (pk_key k) (cx_ext_hash cx)).
Proof. exact rejects_exactly. Qed.
Print Assumptions C44_rejects_exactly.
(** The plaintext tally of any decryption by all guardians verifies with their keys: the mediator shows only shares
    it has checked. *)
Theorem C44_decrypted_verifies : forall E up rnd gs mid cx t bs m mf p keys, valid_env E -> decryption_setup E up rnd gs (new_dmediator mid cx) cx t bs = Ok m ->
  dm_plaintext_tally E m t mf = Ok (Some p) -> has_keys keys gs -> verify_decryption E p keys cx = Ok verified.
Proof. exact setup_verifies. Qed.
Print Assumptions C44_decrypted_verifies.
Theorem C44_ballots_verify : forall E up rnd gs mid cx t bs m mf ps id p keys, valid_env E -> decryption_setup E up rnd gs (new_dmediator mid cx) cx t bs = Ok m ->
  dm_plaintext_ballots E m bs mf = Ok (Some ps) -> In (id, p) ps -> has_keys keys gs -> verify_decryption E p keys cx = Ok verified.
Proof. exact setup_verifies_ballots. Qed.
Print Assumptions C44_ballots_verify.
(** Together with C34: the honest decryption by all guardians produces a tally, and it verifies. *)
Theorem C44_honest_accepted : forall E k ss cx t bs up rnd av gs mid mf M MB keys, valid_env E -> good_seats E k ss -> ss <> [] ->
  0 <= cx_ext_hash cx < qq E -> cx_guardians cx = len ss -> cx_quorum cx <= len ss -> (forall path, up path = true) ->
  Permutation av ss -> Forall2 (holder E) av gs -> NoDup (map cd_id (mf_contests mf)) ->
  tally_distinct t -> encrypts_all E (gexp E (sumZ (map st_secret ss))) (tally_options t) M ->
  NoDup (map sb_id bs) -> (forall b, In b bs -> ballot_distinct (sb_ballot b) /\ encrypts_all E (gexp E (sumZ (map st_secret ss))) (ballot_options (sb_ballot b)) (MB (sb_id b))) ->
  has_keys keys gs ->
  exists m p, decryption_setup E up rnd gs (new_dmediator mid cx) cx t bs = Ok m /\ dm_plaintext_tally E m t mf = Ok (Some p) /\
    shows p mf (tally_options t) M /\ verify_decryption E p keys cx = Ok verified.
Proof. exact honest_accepted. Qed.
Print Assumptions C44_honest_accepted.
(** A share in a verified plaintext whose prover can answer a second challenge is A^s, where g^s is the guardian's key. *)
Theorem C44_verified_share_sound : forall E E' keys cx cx' p p' oid ct d d' pf pf', valid_env E -> same_group E E' ->
  verify_decryption E p keys cx = Ok verified -> verify_decryption E' p' keys cx' = Ok verified -> shown_share p oid ct d -> shown_share p' oid ct d' ->
  dc_guardian d = dc_guardian d' -> dc_share d = dc_share d' -> dc_proof d = Some pf -> dc_proof d' = Some pf' ->
  cp_a pf = cp_a pf' -> cp_b pf = cp_b pf' -> cp_c pf <> cp_c pf' ->
  exists k s, dget (dc_guardian d) keys = Some k /\ 0 <= s < qq E /\ pk_key k = gexp E s /\ dc_share d = ct_pad ct ^ s mod pp E.
Proof. exact verified_share_sound. Qed.
Print Assumptions C44_verified_share_sound.
(** two guardians decrypt two votes *)
Example C44_ex : dm_plaintext_tally tiny (dm_run tiny (new_dmediator "m" (sm_cx 2 2)) vf_run) sm_t2 sm_manifest = Ok (Some vf_plain) /\
  count_of vf_plain "mayor" "mayor-ann" = Some 2 /\ (exists oid ct d, shown_share vf_plain oid ct d) /\
  verify_decryption tiny vf_plain vf_keys (sm_cx 2 2) = Ok verified /\
  verify_decryption tiny (recount (fun v => v) (map bad_share) vf_plain) vf_keys (sm_cx 2 2) = Ok (rejected "verify_decryption: mayor-ann selection is not valid").
Proof.
  split; [vm_compute; reflexivity|]. split; [reflexivity|]. split; [|split; vm_compute; reflexivity].
  do 3 eexists. unfold shown_share. do 3 eexists. split; [left; reflexivity|]. split; [left; reflexivity|]. split; [reflexivity|]. left. reflexivity.
Qed.
(** It does not compare the count with the shares: a tally with a wrong count is accepted, *)
Theorem C44_wrong_count_refuted : exists E cx t mf M keys m p p' cid oid v, valid_env E /\ encrypts_all E (gexp E 7) (tally_options t) M /\
  dm_plaintext_tally E m t mf = Ok (Some p) /\ count_of p cid oid = Some (M cid oid) /\ verify_decryption E p keys cx = Ok verified /\
  (forall o ct d, shown_share p o ct d <-> shown_share p' o ct d) /\ count_of p' cid oid = Some v /\ v <> M cid oid /\ verify_decryption E p' keys cx = Ok verified.
Proof. exact wrong_count_accepted. Qed.
Print Assumptions C44_wrong_count_refuted.
(** and so is one that shows no shares at all. *)
Theorem C44_no_shares_refuted : exists E cx t mf M keys m p p' cid oid v, valid_env E /\ encrypts_all E (gexp E 7) (tally_options t) M /\
  dm_plaintext_tally E m t mf = Ok (Some p) /\ keys <> [] /\ (forall o ct d, ~ shown_share p' o ct d) /\
  map fst (pt_contests p') = map fst (pt_contests p) /\ count_of p' cid oid = Some v /\ v <> M cid oid /\ verify_decryption E p' keys cx = Ok verified.
Proof. exact no_shares_accepted. Qed.
Print Assumptions C44_no_shares_refuted.
(** If a guardian is missing, the honest decryption shows its reconstructed share, which has no proof of its own:
    verify_decryption raises on the right result. *)
Theorem C44_missing_guardian_refuted : exists E cx t mf M s1 s2 s3 k1 k2 k3 sh1 sh2 c1 c2 p keys, valid_env E /\ key_of E s1 k1 /\ key_of E s2 k2 /\ key_of E s3 k3 /\ tally_distinct t /\
  encrypts_all E (gexp E (st_secret s1 + st_secret s2 + st_secret s3)) (tally_options t) M /\
  dm_plaintext_tally E (dm_run E (new_dmediator "m" cx) [Present k1 sh1 None; Present k2 sh2 None; Absent k3; Compensate c1; Compensate c2; Rebuild t]) t mf = Ok (Some p) /\
  (forall cid oid ct, In (cid, oid, ct) (tally_options t) -> count_of p cid oid = Some (M cid oid)) /\
  keys = [(pk_owner k1, k1); (pk_owner k2, k2); (pk_owner k3, k3)] /\ verify_decryption E p keys cx = Err AttributeError.
Proof. exact missing_guardian_raises. Qed.
Print Assumptions C44_missing_guardian_refuted.

(** ** C50: verify_ballot *)
(** verify_ballot accepts exactly if the manifest hash is the manifest's and every hash, sum and proof checks. *)
Theorem C50_accepts_exactly : forall E b m cx, verify_ballot E b m cx = Ok verified <->
  cb_manifest_hash b = manifest_hash E m /\ cb_hash b = ballot_crypto_hash_with E b (manifest_hash E m) /\
  forall c, In c (cb_contests b) ->
    bc_hash c = contest_crypto_hash E (bc_id c) (bc_selections c) (bc_desc_hash c) /\
    elgamal_add E (map cs_ct (bc_selections c)) = Ok (bc_acc c) /\
    (exists pf, bc_proof c = Some pf /\ const_is_valid E pf (bc_acc c) (cx_key cx) (cx_ext_hash cx) = true) /\
    forall s, In s (bc_selections c) ->
      cs_hash s = selection_hash E (cs_id s) (cs_desc_hash s) (cs_ct s) /\
      exists pf, cs_proof s = Some pf /\ disj_is_valid E pf (cs_ct s) (cx_key cx) (cx_ext_hash cx) = true.
Proof. exact verify_ballot_spelled. Qed.
Print Assumptions C50_accepts_exactly.
(** Whatever the election accepts, verify_ballot accepts, *)
Theorem C50_election_accepts : forall E b m im cx, make_internal E m = Ok im -> ballot_valid_for_election E b im cx true = Ok true -> verify_ballot E b m cx = Ok verified.
Proof. exact accepted_verifies. Qed.
Print Assumptions C50_election_accepts.
(** in particular every encrypted ballot. *)
Theorem C50_encrypted_verifies : forall E m im cx b eseed nonce verify rand now eb ds, valid_env E ->
  manifest_is_valid m = true -> make_internal E m = Ok im -> in_subgroup E (cx_key cx) ->
  get_contests_for im (pb_style b) = Ok ds -> ds <> [] -> in_order ds ->
  (forall d, In d ds -> limit_fits E (cd_number_elected (ph_desc d))) ->
  encrypt_ballot E b im cx eseed nonce verify rand now = Ok (Some eb) -> verify_ballot E eb m cx = Ok verified.
Proof. exact encrypted_verifies. Qed.
Print Assumptions C50_encrypted_verifies.
Example C50_ex : verify_ballot medium ann_ballot demo_manifest demo_cx = Ok verified /\ verify_ballot medium demo_eb demo_manifest demo_cx = Ok verified /\
  (exists c s, cb_contests ann_ballot = [c] /\ In s (bc_selections c)).
Proof.
  destruct demo_setup as (D1 & D2 & D3 & D4 & D5 & D6). split; [exact (C50_election_accepts medium ann_ballot demo_manifest (demo_im medium) demo_cx D2 ann_valid)|].
  split; [exact (C50_encrypted_verifies medium demo_manifest (demo_im medium) demo_cx demo_ballot 5 (Some 11) true 0 100 demo_eb demo_ds medium_valid D1 D2 demo_key D3 D4 D5 D6 demo_eb_ok)|].
  do 2 eexists. split; [reflexivity|left; reflexivity].
Qed.
(** It does not look at the ballot style: a ballot without contests verifies, though the election refuses it. *)
Theorem C50_empty_ballot_refuted : exists E b m im cx, valid_env E /\ manifest_is_valid m = true /\ make_internal E m = Ok im /\ cb_contests b = [] /\
  ballot_valid_for_election E b im cx true = Ok false /\ verify_ballot E b m cx = Ok verified.
Proof. exact empty_ballot_verifies. Qed.
Print Assumptions C50_empty_ballot_refuted.
