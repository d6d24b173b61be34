(** * PropsShares: the properties of decryption by guardians (C16, C34, C35, C36, C37 and the share half of C46).
    Only theorems and non-vacuity examples; the vocabulary is in Spec.v, SpecCeremony.v and SpecShares.v. *)
From Verif Require Import Base Group Codec Hash DLog ElGamal ZK Poly Spec Tiny Manifest Ballot SpecElection Encrypt Samples EncryptThms Box Tally TallySamples Ceremony SpecCeremony Shares SpecShares
  GroupFacts SharesThms SharesMore DMediatorFacts SharesSamples Tighten.
From Coq Require Import Permutation List.

(** ** C16: recovery keys *)
(** The recovery key computed from a missing guardian's commitments g^a0, g^a1, ... is g to the value of the
    polynomial a0 + a1 x + ... at the sequence order of the guardian that stands in. *)
Theorem C16_recovery_key : forall E present missing coeffs, valid_env E -> Forall (fun a => 0 <= a) coeffs -> pk_commitments missing = map (gexp E) coeffs ->
  compute_recovery_public_key E present missing = gexp E (poly_at coeffs (pk_seq present) mod qq E).
Proof. exact recovery_key. Qed.
Print Assumptions C16_recovery_key.
(** For a guardian that went through the ceremony it is g to the coordinate that decrypting its backup gives. *)
Theorem C16_matches_backup : forall E ss s g r, valid_env E -> Forall (fun a => 0 <= a) (st_secrets r) -> ready_guardian E ss s g -> In r ss -> st_id r <> st_id s ->
  exists b k y, dget (st_id r) (gd_backups g) = Some b /\ decrypt_backup E b (gd_keys g) = Ok (Some y) /\ dget (st_id r) (gd_pubkeys g) = Some k
    /\ compute_recovery_public_key E (share_key g) k = gexp E y.
Proof. exact recovery_key_backup. Qed.
Print Assumptions C16_matches_backup.
(** Whatever the commitments are, a coordinate passes the ceremony's check exactly if g to it is the recovery key. *)
Theorem C16_verified_iff : forall E present missing y, valid_env E -> Forall (in_subgroup E) (pk_commitments missing) -> 0 <= pk_seq present < qq E ->
  (forall j, 0 <= j < zlen (pk_commitments missing) -> pk_seq present ^ j < pp E) -> 0 <= y ->
  (verify_polynomial_coordinate E y (pk_seq present) (pk_commitments missing) = Ok true <-> compute_recovery_public_key E present missing = gexp E y).
Proof. exact recovery_key_verify. Qed.
Print Assumptions C16_verified_iff.
Example C16_ex : compute_recovery_public_key tiny (share_keys sm_k1) (share_keys sm_k3) = gexp tiny 11
  /\ pk_commitments (share_keys sm_k3) = map (gexp tiny) [5; 6] /\ Forall (in_subgroup tiny) (pk_commitments (share_keys sm_k3))
  /\ verify_polynomial_coordinate tiny 11 1 (pk_commitments (share_keys sm_k3)) = Ok true
  /\ verify_polynomial_coordinate tiny 10 1 (pk_commitments (share_keys sm_k3)) = Ok false.
Proof.
  split; [vm_compute; reflexivity|]. split; [vm_compute; reflexivity|]. split; [repeat constructor; vm_compute; try discriminate; reflexivity|].
  split; vm_compute; reflexivity.
Qed.
Example C16_backup_ex : exists g, ready_guardian medium dec_seats (mkSeat "alice" 1 [(40, 2); (5, 3)]) g.
Proof. destruct dec_ready as [gs H]. inversion H; subst. eauto. Qed.

(** ** C34: all guardians decrypt *)
(** Any number of guardians that hold their secrets, announcing in any order, with any randomness: the run
    completes, the mediator shows for the tally and for every ballot exactly the encrypted values of the
    manifest's options, and it holds the right share A^secret of every guardian. *)
Theorem C34_all_decrypt : forall E k ss cx t bs up rnd av gs mid mf M MB, valid_env E -> good_seats E k ss -> ss <> [] ->
  0 <= cx_ext_hash cx < qq E -> cx_guardians cx = len ss -> cx_quorum cx <= len ss -> (forall path, up path = true) ->
  Permutation av ss -> Forall2 (holder E) av gs -> NoDup (map cd_id (mf_contests mf)) ->
  tally_distinct t -> encrypts_all E (gexp E (sumZ (map st_secret ss))) (tally_options t) M ->
  NoDup (map sb_id bs) -> (forall b, In b bs -> ballot_distinct (sb_ballot b) /\ encrypts_all E (gexp E (sumZ (map st_secret ss))) (ballot_options (sb_ballot b)) (MB (sb_id b))) ->
  exists m, decryption_setup E up rnd gs (new_dmediator mid cx) cx t bs = Ok m /\ decrypts E m t bs mf M MB /\ has_all_shares E ss m t bs.
Proof. exact all_decrypt. Qed.
Print Assumptions C34_all_decrypt.
(** The value shown is the one that decrypting with the joint secret gives. *)
Theorem C34_joint_secret : forall E s l M cid oid ct, valid_env E -> 0 <= s -> encrypts_all E (gexp E s) l M -> In (cid, oid, ct) l ->
  elgamal_decrypt E ct s = Ok (M cid oid).
Proof. exact joint_secret_same. Qed.
Print Assumptions C34_joint_secret.
Example C34_ex : exists gs, valid_env medium /\ good_seats medium 2 dec_seats /\ 0 <= cx_ext_hash demo_cx < qq medium /\ cx_guardians demo_cx = len dec_seats
  /\ cx_quorum demo_cx <= len dec_seats /\ Permutation (rev dec_seats) dec_seats /\ Forall2 (holder medium) (rev dec_seats) gs
  /\ NoDup (map cd_id (mf_contests demo_manifest)) /\ tally_distinct dec_tally
  /\ encrypts_all medium (gexp medium (sumZ (map st_secret dec_seats))) (tally_options dec_tally) dec_count
  /\ ballot_distinct (sb_ballot bob_spoiled)
  /\ encrypts_all medium (gexp medium (sumZ (map st_secret dec_seats))) (ballot_options (sb_ballot bob_spoiled)) (dec_ballot_count (sb_id bob_spoiled))
  /\ dec_count "mayor" "mayor-ann" = 1 /\ dec_count "council" "council-di" = 0.
Proof.
  destruct dec_holders as [gs H]. exists gs. split; [exact medium_valid|]. split; [exact dec_seats_good|]. split; [exact demo_ext|]. split; [reflexivity|]. split; [vm_compute; discriminate|].
  split; [symmetry; apply Permutation_rev|]. split; [exact H|]. split; [vm_compute; repeat constructor; cbn; intuition discriminate|]. split; [exact dec_tally_distinct|].
  split; [exact dec_tally_encrypts|]. split; [exact dec_ballot_distinct|]. split; [exact dec_ballot_encrypts|split; reflexivity].
Qed.
(** Options of different contests need different ids.  Two questions with options "yes" and "no" make a valid
    manifest, but the honest decryption of their tally has no result. *)
Theorem C34_same_option_ids_refuted : exists E up rnd cx t mf M s g m, valid_env E /\ manifest_is_valid mf = true /\ good_seats E 1 [s] /\ holder E s g /\
  cx_guardians cx = 1 /\ cx_quorum cx = 1 /\ (forall path, up path = true) /\
  NoDup (map tc_id (dvals (ty_contests t))) /\ encrypts_all E (gexp E (st_secret s)) (tally_options t) M /\
  decryption_setup E up rnd [g] (new_dmediator "m" cx) cx t [] = Ok m /\ dm_plaintext_tally E m t mf = Ok None.
Proof. exact same_option_ids. Qed.
Print Assumptions C34_same_option_ids_refuted.

(** ** C35: every quorum decrypts *)
(** Take any seats with different orders, any set of at least k of them, and the guardians in these seats after
    the ceremony.  They announce, compensate for the others, and the mediator reconstructs the missing shares:
    the run completes, shows exactly the encrypted values, and holds for every guardian, present or missing,
    the share A^secret that guardian would have given. *)
Theorem C35_quorum_decrypts : forall E k ss cx t bs up rnd av gs all_keys mid mf M MB, valid_env E -> good_seats E k ss -> NoDup (map st_seq ss) ->
  0 <= cx_ext_hash cx < qq E -> cx_guardians cx = len ss -> cx_quorum cx = Z.of_nat k -> (forall path, up path = true) ->
  (forall s, In s av -> In s ss) -> NoDup av -> (k <= List.length av)%nat ->
  Forall2 (ready_guardian E ss) av gs -> Forall2 (key_of E) ss all_keys -> NoDup (map cd_id (mf_contests mf)) ->
  tally_distinct t -> encrypts_all E (gexp E (sumZ (map st_secret ss))) (tally_options t) M ->
  NoDup (map sb_id bs) -> (forall b, In b bs -> ballot_distinct (sb_ballot b) /\ encrypts_all E (gexp E (sumZ (map st_secret ss))) (ballot_options (sb_ballot b)) (MB (sb_id b))) ->
  exists m, compensated_setup E up rnd gs all_keys (new_dmediator mid cx) cx t bs = Ok m /\ decrypts E m t bs mf M MB /\ has_all_shares E ss m t bs.
Proof. exact quorum_decrypts. Qed.
Print Assumptions C35_quorum_decrypts.
(** The guardians of an honest ceremony are ready for this. *)
Theorem C35_ceremony_ready : forall E rnd k ss mid, valid_env E -> hmac_32 E -> qq E <= 2 ^ 1024 -> good_seats E k ss -> (forall a b, 0 <= rnd a b) ->
  exists gs gs' m,
    rmapM (fun s => guardian_from_nonce E (st_id s) (st_seq s) (len ss) (Z.of_nat k) (st_draws s)) ss = Ok gs
    /\ full_ceremony E rnd gs (new_mediator mid (mkDetails (len ss) (Z.of_nat k))) = Ok (gs', m)
    /\ md_publish_joint_key E m = Some (mkJoint (gexp E (sumZ (map st_secret ss)))
         (hash_elems E [HList (map HElem (flat_map (fun s => map (gexp E) (st_secrets s)) ss))]))
    /\ Forall2 (ready_guardian E ss) ss gs' /\ Forall2 (key_of E) ss (map share_key gs').
Proof. exact ceremony_ready. Qed.
Print Assumptions C35_ceremony_ready.
(** carol and alice decrypt without bob *)
Example C35_ex : exists gs all_keys, valid_env medium /\ good_seats medium 2 dec_seats /\ NoDup (map st_seq dec_seats) /\ cx_guardians demo_cx = len dec_seats
  /\ cx_quorum demo_cx = Z.of_nat 2 /\ (forall s, In s dec_available -> In s dec_seats) /\ NoDup dec_available /\ List.length dec_available = 2%nat /\ List.length dec_seats = 3%nat
  /\ Forall2 (ready_guardian medium dec_seats) dec_available gs /\ Forall2 (key_of medium) dec_seats all_keys.
Proof.
  destruct dec_quorum as (gs & ks & H1 & H2). exists gs, ks. split; [exact medium_valid|]. split; [exact dec_seats_good|]. split; [cbn; repeat constructor; cbn; lia|].
  do 2 (split; [reflexivity|]). split; [intros s [<-|[<-|[]]]; cbn; auto|]. split; [repeat constructor; cbn; intuition discriminate|]. do 2 (split; [reflexivity|]). split; assumption.
Qed.
(** The mediator does not notice that compensated shares were never sent: it rebuilds the missing share as 1 and
    shows a wrong tally. *)
Theorem C35_no_compensation_refuted : exists E cx t mf M s1 s2 s3 k1 k2 k3 sh1 sh2 p, valid_env E /\ key_of E s1 k1 /\ key_of E s2 k2 /\ key_of E s3 k3 /\ tally_distinct t /\
  encrypts_all E (gexp E (st_secret s1 + st_secret s2 + st_secret s3)) (tally_options t) M /\
  right_share E s1 (tally_options t) sh1 /\ right_share E s2 (tally_options t) sh2 /\
  dm_plaintext_tally E (dm_run E (new_dmediator "m" cx) [Present k1 sh1 None; Present k2 sh2 None; Absent k3; Rebuild t]) t mf = Ok (Some p) /\
  exists cid oid v, count_of p cid oid = Some v /\ v <> M cid oid.
Proof. exact no_compensation. Qed.
Print Assumptions C35_no_compensation_refuted.

(** ** C36: shares and their checks *)
(** The share an honest guardian computes for a tally or a ballot of subgroup ciphertexts has A^secret for every
    option and every entry passes the check against the guardian's key. *)
Theorem C36_honest_shares : forall E up rnd k t bs cx, valid_env E -> 0 <= cx_ext_hash cx < qq E -> (forall c, up c = true) ->
  0 <= ek_secret k < qq E -> kp_public (ek_pair k) = gexp E (ek_secret k) ->
  (tally_distinct t -> subgroup_all E (tally_options t) ->
     exists sh, compute_decryption_share E up rnd k t cx = Some sh /\ sh_guardian sh = ek_owner k /\ sh_key sh = kp_public (ek_pair k) /\
       forall cid oid ct, In (cid, oid, ct) (tally_options t) -> exists d, share_entry sh cid oid = Some d
         /\ dc_share d = ct_pad ct ^ ek_secret k mod pp E /\ dec_sel_valid E d ct (sh_key sh) (cx_ext_hash cx) = true) /\
  (ballot_distinct (sb_ballot bs) -> subgroup_all E (ballot_options (sb_ballot bs)) ->
     exists sh, compute_decryption_share_for_ballot E up rnd k bs cx = Some sh /\ sh_guardian sh = ek_owner k /\ sh_key sh = kp_public (ek_pair k) /\
       forall cid oid ct, In (cid, oid, ct) (ballot_options (sb_ballot bs)) -> exists d, share_entry sh cid oid = Some d
         /\ dc_share d = ct_pad ct ^ ek_secret k mod pp E /\ dec_sel_valid E d ct (sh_key sh) (cx_ext_hash cx) = true).
Proof. exact honest_shares_verify. Qed.
Print Assumptions C36_honest_shares.
(** So does the compensated share of a guardian that uses the right coordinate; its recovery key is the one
    everybody can compute from the missing guardian's commitments. *)
Theorem C36_honest_compensation : forall E up rnd y present missing coeffs t cx, valid_env E -> 0 <= cx_ext_hash cx < qq E -> (forall c, up c = true) ->
  Forall (fun a => 0 <= a) coeffs -> pk_commitments missing = map (gexp E) coeffs -> y = poly_at coeffs (pk_seq present) mod qq E ->
  tally_distinct t -> subgroup_all E (tally_options t) ->
  exists sh, compute_compensated_share E up rnd y present missing t cx = Some sh /\ csh_guardian sh = pk_owner present /\ csh_missing sh = pk_owner missing /\
    forall cid oid ct, In (cid, oid, ct) (tally_options t) -> exists d, comp_entry sh cid oid = Some d /\ cm_share d = ct_pad ct ^ y mod pp E
      /\ cm_recovery d = compute_recovery_public_key E present missing /\ cp_is_valid E (cm_proof d) ct (cm_recovery d) (cm_share d) (cx_ext_hash cx) = true.
Proof. exact honest_compensation_verifies. Qed.
Print Assumptions C36_honest_compensation.
Example C36_ex : 0 <= ek_secret sm_k1 < qq tiny /\ kp_public (ek_pair sm_k1) = gexp tiny (ek_secret sm_k1) /\ tally_distinct sm_t3 /\ subgroup_all tiny (tally_options sm_t3)
  /\ tally_options sm_t3 <> [] /\ pk_commitments (share_keys sm_k3) = map (gexp tiny) [5; 6].
Proof.
  split; [vm_compute; split; congruence|]. split; [vm_compute; reflexivity|]. split; [apply sm_encrypts3|]. split; [|split; [discriminate|vm_compute; reflexivity]].
  intros cid oid ct Hin. cbn in Hin. destruct Hin as [Hin|[]]. inversion Hin; subst. repeat split; try (vm_compute; discriminate); vm_compute; reflexivity.
Qed.
(** Whatever the key pair, a share that is issued has only entries that pass the check against its key: a guardian
    whose public key does not fit the secret issues no share with wrong entries. *)
Theorem C36_issued_shares : forall E up rnd k cx sh d, In d (share_entries sh) ->
  (forall t, compute_decryption_share E up rnd k t cx = Some sh ->
     exists cid ct, In (cid, dc_id d, ct) (tally_options t) /\ dec_sel_valid E d ct (sh_key sh) (cx_ext_hash cx) = true) /\
  (forall b, compute_decryption_share_for_ballot E up rnd k b cx = Some sh ->
     exists cid ct, In (cid, dc_id d, ct) (ballot_options (sb_ballot b)) /\ dec_sel_valid E d ct (sh_key sh) (cx_ext_hash cx) = true).
Proof. exact issued_checked. Qed.
Print Assumptions C36_issued_shares.
Example C36_issued_shares_ex : compute_decryption_share tiny (fun _ => true) (fun _ _ => 3) sm_k1 sm_t2 (sm_cx 2 2) = Some sm_honest1 /\ share_entries sm_honest1 <> [] /\
  compute_decryption_share tiny (fun _ => true) (fun _ _ => 3) (mkKeys (ek_owner sm_k1) (ek_seq sm_k1) {| kp_secret := ek_secret sm_k1; kp_public := gexp tiny 5 |} (ek_poly sm_k1)) sm_t2 (sm_cx 2 2) = None.
Proof. split; [vm_compute; reflexivity|]. split; [discriminate|vm_compute; reflexivity]. Qed.
(** The same for compensated shares, whatever the coordinate, against the recovery key of the missing guardian. *)
Theorem C36_issued_compensation : forall E up rnd y a b cx sh c d, In c (dvals (csh_contests sh)) -> In d (dvals (co_selections c)) ->
  (forall t, compute_compensated_share E up rnd y a b t cx = Some sh ->
     exists cid ct, In (cid, cm_id d, ct) (tally_options t) /\ cm_recovery d = compute_recovery_public_key E a b /\
       cp_is_valid E (cm_proof d) ct (cm_recovery d) (cm_share d) (cx_ext_hash cx) = true) /\
  (forall s, compute_compensated_share_for_ballot E up rnd y b a s cx = Some sh ->
     exists cid ct, In (cid, cm_id d, ct) (ballot_options (sb_ballot s)) /\ cm_recovery d = compute_recovery_public_key E a b /\
       cp_is_valid E (cm_proof d) ct (cm_recovery d) (cm_share d) (cx_ext_hash cx) = true).
Proof. exact issued_comp_checked. Qed.
Print Assumptions C36_issued_compensation.
Example C36_issued_compensation_ex : (exists sh, compute_compensated_share tiny (fun _ => true) (fun _ _ => 3) 11 (share_keys sm_k1) (share_keys sm_k3) sm_t3 (sm_cx 2 2) = Some sh) /\
  compute_compensated_share tiny (fun _ => true) (fun _ _ => 3) 10 (share_keys sm_k1) (share_keys sm_k3) sm_t3 (sm_cx 2 2) = None.
Proof. split; [eexists; vm_compute; reflexivity|vm_compute; reflexivity]. Qed.
(** Special soundness: two accepted entries with the same commitments, for the same key, ciphertext and share
    value, but different challenges show that the value is right: A^s for the s with key = g^s.  So for a wrong
    value at most one challenge can be answered. *)
Theorem C36_special_soundness : forall E E', valid_env E -> same_group E E' -> forall d d' pf pf' ct key ext ext',
  dc_proof d = Some pf -> dc_proof d' = Some pf' -> cp_a pf = cp_a pf' -> cp_b pf = cp_b pf' -> cp_c pf <> cp_c pf' -> dc_share d = dc_share d' ->
  dec_sel_valid E d ct key ext = true -> dec_sel_valid E' d' ct key ext' = true ->
  exists s, 0 <= s < qq E /\ key = gexp E s /\ dc_share d = ct_pad ct ^ s mod pp E.
Proof. exact share_extract. Qed.
Print Assumptions C36_special_soundness.
Example C36_special_soundness_ex : same_group tiny tiny' /\ dec_sel_valid tiny (sm_fork tiny) (sm_ct 2 1 12) (gexp tiny 3) 7 = true
  /\ dec_sel_valid tiny' (sm_fork tiny') (sm_ct 2 1 12) (gexp tiny 3) 7 = true /\ dc_share (sm_fork tiny) = dc_share (sm_fork tiny')
  /\ exists pf pf', dc_proof (sm_fork tiny) = Some pf /\ dc_proof (sm_fork tiny') = Some pf' /\ cp_a pf = cp_a pf' /\ cp_b pf = cp_b pf' /\ cp_c pf <> cp_c pf'.
Proof.
  split; [repeat split|]. split; [vm_compute; reflexivity|]. split; [vm_compute; reflexivity|]. split; [vm_compute; reflexivity|].
  do 2 eexists. do 4 (split; [vm_compute; reflexivity|]). vm_compute. discriminate.
Qed.
(** What a shown tally rests on, whatever was sent to the mediator: the value shown for an option comes from its
    ciphertext (A, B) and from entries of held shares, each of which passed its check against the key that the
    share carries, and g^value times the product of these entries is B. *)
Theorem C36_shown_is_backed : forall E m t mf p cid oid ps, valid_env E -> dm_plaintext_tally E m t mf = Ok (Some p) -> shown p cid oid ps ->
  exists ct, In (cid, oid, ct) (tally_options t) /\ pl_message ps = ct /\
    Forall (fun d => dc_id d = oid /\ exists sh, In sh (dvals (dm_tally m)) /\ In d (share_entries sh) /\ dec_sel_valid E d ct (sh_key sh) (cx_ext_hash (dm_context m)) = true) (pl_shares ps) /\
    0 <= pl_tally ps <= Z.max 0 (dmax E) /\ (gexp E (pl_tally ps) * prodZ (map dc_share (pl_shares ps))) mod pp E = ct_data ct mod pp E.
Proof. exact tally_backed. Qed.
Print Assumptions C36_shown_is_backed.
Example C36_shown_ex : exists p ps, dm_plaintext_tally tiny (dm_run tiny (new_dmediator "m" (sm_cx 2 2)) [Present (share_keys sm_k1) sm_honest1 None; Present (share_keys sm_k2) (sm_share sm_k2 sm_t2) None])
  sm_t2 sm_manifest = Ok (Some p) /\ shown p "mayor" "mayor-ann" ps /\ pl_tally ps = 2 /\ List.length (pl_shares ps) = 2%nat.
Proof. do 2 eexists. split; [vm_compute; reflexivity|]. split; [eexists; split; vm_compute; reflexivity|]. split; reflexivity. Qed.
(** Every entry behind a shown value carries either one proof that verifies against the key of its share, or
    compensating parts that all carry proofs that verify against their recovery keys; never neither nor both. *)
Theorem C36_shown_is_proved : forall E m t mf p cid oid ps d, valid_env E -> dm_plaintext_tally E m t mf = Ok (Some p) -> shown p cid oid ps -> In d (pl_shares ps) ->
  exists sh, In sh (dvals (dm_tally m)) /\ In d (share_entries sh) /\
  ((exists pf, dc_proof d = Some pf /\ dc_parts d = None /\ cp_is_valid E pf (pl_message ps) (sh_key sh) (dc_share d) (cx_ext_hash (dm_context m)) = true) \/
   (exists parts, dc_proof d = None /\ dc_parts d = Some parts /\
     forall o part, In (o, part) parts -> cp_is_valid E (cm_proof part) (pl_message ps) (cm_recovery part) (cm_share part) (cx_ext_hash (dm_context m)) = true)).
Proof. exact shown_proved. Qed.
Print Assumptions C36_shown_is_proved.
(** The checks do not tie a share to the announced guardian: a share made with somebody else's key is believed, *)
Theorem C36_foreign_key_refuted : exists E cx t mf M s1 s2 k1 k2 sh1 sh2 p, valid_env E /\ key_of E s1 k1 /\ key_of E s2 k2 /\ tally_distinct t /\
  encrypts_all E (gexp E (st_secret s1 + st_secret s2)) (tally_options t) M /\ right_share E s1 (tally_options t) sh1 /\ sh_guardian sh2 = st_id s2 /\
  dm_plaintext_tally E (dm_run E (new_dmediator "m" cx) [Present k1 sh1 None; Present k2 sh2 None]) t mf = Ok (Some p) /\
  exists cid oid v, count_of p cid oid = Some v /\ v <> M cid oid.
Proof. exact foreign_key. Qed.
Print Assumptions C36_foreign_key_refuted.
(** and a compensated share made with a wrong coordinate passes, since it is checked against the recovery key it
    carries. *)
Theorem C36_wrong_coordinate_refuted : exists E cx t mf M s1 s2 s3 k1 k2 k3 sh1 sh2 c1 c2 p, valid_env E /\ key_of E s1 k1 /\ key_of E s2 k2 /\ key_of E s3 k3 /\ tally_distinct t /\
  encrypts_all E (gexp E (st_secret s1 + st_secret s2 + st_secret s3)) (tally_options t) M /\
  right_share E s1 (tally_options t) sh1 /\ right_share E s2 (tally_options t) sh2 /\
  csh_guardian c1 = st_id s1 /\ csh_missing c1 = st_id s3 /\ csh_guardian c2 = st_id s2 /\ csh_missing c2 = st_id s3 /\
  dm_plaintext_tally E (dm_run E (new_dmediator "m" cx) [Present k1 sh1 None; Present k2 sh2 None; Absent k3; Compensate c1; Compensate c2; Rebuild t]) t mf = Ok (Some p) /\
  exists cid oid v, count_of p cid oid = Some v /\ v <> M cid oid.
Proof. exact wrong_coordinate. Qed.
Print Assumptions C36_wrong_coordinate_refuted.

(** ** C37: the decryption mediator *)
(** In every history the available guardians are those that announced themselves, each with the key of the first
    announcement; the missing ones were declared missing and never announced themselves. *)
Theorem C37_guardians : forall E id cx h, let m := dm_run E (new_dmediator id cx) h in
    map pk_owner (dm_get_available m) = firsts (map pk_owner (present_keys h))
    /\ (forall k, In k (dm_get_available m) <-> first_key (pk_owner k) (present_keys h) = Some k)
    /\ NoDup (map pk_owner (dm_get_missing m))
    /\ (forall k, In k (dm_get_missing m) -> In k (absent_keys h) /\ ~ present h (pk_owner k))
    /\ (forall k, In (Absent k) h -> ~ present h (pk_owner k) -> In (pk_owner k) (map pk_owner (dm_get_missing m))).
Proof. exact dm_guardians. Qed.
Print Assumptions C37_guardians.
(** There is an answer for the tally only if at least a quorum is available, available and missing guardians
    together are all guardians, and there is a share for exactly each of them. *)
Theorem C37_no_early_tally : forall E id cx h t mf, let m := dm_run E (new_dmediator id cx) h in dm_plaintext_tally E m t mf <> Ok None ->
    cx_quorum cx <= len (dm_get_available m) /\ len (dm_get_available m) + len (dm_get_missing m) = cx_guardians cx /\ len (dm_tally m) = cx_guardians cx /\
    (forall o, In o (dkeys (dm_tally m)) <-> In o (map pk_owner (dm_get_available m)) \/ In o (map pk_owner (dm_get_missing m))).
Proof. exact dm_no_early_tally. Qed.
Print Assumptions C37_no_early_tally.
(** The same for ballots: only those asked for, and only with a share for each guardian. *)
Theorem C37_no_early_ballots : forall E id cx h bs mf, let m := dm_run E (new_dmediator id cx) h in dm_plaintext_ballots E m bs mf <> Ok None ->
    cx_quorum cx <= len (dm_get_available m) /\ len (dm_get_available m) + len (dm_get_missing m) = cx_guardians cx /\
    forall ps, dm_plaintext_ballots E m bs mf = Ok (Some ps) -> forall b p, dget b ps = Some p -> pt_id p = b /\ In b (map sb_id bs) /\
      exists shs, dget b (dm_ballots m) = Some shs /\ len shs = cx_guardians cx /\
      (forall o, In o (dkeys shs) <-> In o (map pk_owner (dm_get_available m)) \/ In o (map pk_owner (dm_get_missing m))).
Proof. exact dm_no_early_ballots. Qed.
Print Assumptions C37_no_early_ballots.
(** A second announcement changes nothing, *)
Theorem C37_announce_twice : forall E id cx h k sh bl, present h (pk_owner k) ->
  dm_run E (new_dmediator id cx) (h ++ [Present k sh bl]) = dm_run E (new_dmediator id cx) h.
Proof. exact dm_announce_again. Qed.
Print Assumptions C37_announce_twice.
(** and the share a guardian sent with its first announcement is the one that stays. *)
Theorem C37_first_share_stays : forall E id cx h o, present h o -> dget o (dm_tally (dm_run E (new_dmediator id cx) h)) = first_share o h.
Proof. exact dm_first_share. Qed.
Print Assumptions C37_first_share_stays.
Example C37_ex : let h := [Absent (share_keys sm_k2); Present (share_keys sm_k1) sm_share1 None; Present (share_keys sm_k2) sm_share2 None;
    Present (share_keys sm_k1) sm_share2 None; Absent (share_keys sm_k3); Absent (share_keys sm_k1); Compensate sm_comp1; Compensate sm_comp2; Rebuild sm_t3] in
  let m := dm_run tiny (new_dmediator "m" (sm_cx 3 2)) h in
  map pk_owner (dm_get_available m) = ["alice"; "bob"]%string /\ map pk_owner (dm_get_missing m) = ["carol"]%string
  /\ dm_plaintext_tally tiny m sm_t3 sm_manifest <> Ok None
  /\ dm_plaintext_tally tiny (dm_run tiny (new_dmediator "m" (sm_cx 3 2)) (firstn 8 h)) sm_t3 sm_manifest = Ok None
  /\ present h "bob" /\ dget "alice"%string (dm_tally m) = Some sm_share1.
Proof.
  cbv zeta. split; [vm_compute; reflexivity|]. split; [vm_compute; reflexivity|]. split; [vm_compute; discriminate|]. split; [vm_compute; reflexivity|].
  split; [vm_compute; auto|vm_compute; reflexivity].
Qed.

(** ** C46: a failing pool and decryption shares *)
(** When the process pool fails while a share is computed, the contest's share comes out empty, no failure is
    reported, and the mediator shows a wrong tally. *)
Theorem C46_share_pool_refuted : exists E up rnd cx t mf M s1 s2 k2 k1 sh1 sh2 p, valid_env E /\ key_of E s1 k1 /\ holder E s2 (new_guardian k2 (mkDetails 2 2) [] [] [] []) /\
  tally_distinct t /\ encrypts_all E (gexp E (st_secret s1 + st_secret s2)) (tally_options t) M /\ right_share E s1 (tally_options t) sh1 /\
  compute_decryption_share E up rnd k2 t cx = Some sh2 /\ (forall c, up c = false) /\
  dm_plaintext_tally E (dm_run E (new_dmediator "m" cx) [Present k1 sh1 None; Present (share_keys k2) sh2 None]) t mf = Ok (Some p) /\
  exists cid oid v, count_of p cid oid = Some v /\ v <> M cid oid.
Proof. exact failed_pool_share. Qed.
Print Assumptions C46_share_pool_refuted.
