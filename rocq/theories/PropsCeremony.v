(** * PropsCeremony: the properties of the key ceremony (C32, C33, C45).
    Only theorems and non-vacuity examples; the vocabulary is in Spec.v and SpecCeremony.v. *)
From Verif Require Import Base Group Codec Hash DLog ElGamal ZK Poly Ceremony Spec SpecElection SpecCeremony
  Tiny GroupFacts EncryptThms MediatorFacts CeremonyFacts CeremonyThms.
From Coq Require Import List.

(** ** C32: when a joint key is published *)
(** In every history of mediator calls a joint key is published only if, since the last restart, as many
    different owners announced a key as the ceremony has guardians, backups for n(n-1) different ordered pairs
    of different ids were sent, and for n(n-1) such pairs somebody reported a successful check.  The key is the
    product of the latest key of each owner, and the hash covers their commitments in the order in which the
    owners first announced. *)
Theorem C32_joint_key : forall E id d h jk, valid_env E ->
  md_publish_joint_key E (ceremony_run E (new_mediator id d) h) = Some jk ->
  let n := dt_number (fst (since_restart d h)) in
  let h' := snd (since_restart d h) in
  exists ks, map pk_owner ks = firsts (map pk_owner (keys_sent h'))
    /\ Forall (fun k => latest_key (pk_owner k) (keys_sent h') = Some k) ks
    /\ len ks = n
    /\ jk_key jk = prodZ (map pk_key ks) mod pp E
    /\ jk_hash jk = hash_elems E [HList (map HElem (flat_map pk_commitments ks))]
    /\ (exists ps, NoDup ps /\ len ps = (n - 1) * n
          /\ forall o r, In (o, r) ps -> o <> r /\ backup_sent h' o r)
    /\ (exists ps, NoDup ps /\ len ps = (n - 1) * n
          /\ forall o r, In (o, r) ps -> o <> r /\ reported_good E id h' o r).
Proof. intros E id d h jk HE. exact (joint_key_published E HE id d h jk). Qed.
Print Assumptions C32_joint_key.
(** If the messages name only guardians that announced, then every pair of them exchanged a backup that was
    reported good. *)
Theorem C32_all_pairs : forall E id d h jk, valid_env E ->
  md_publish_joint_key E (ceremony_run E (new_mediator id d) h) = Some jk ->
  let h' := snd (since_restart d h) in
  let owners := map pk_owner (keys_sent h') in
  (forall b, In b (backups_sent h') -> In (bk_owner b) owners /\ In (bk_designated b) owners) ->
  (forall v, In v (verifications_sent h') -> In (vf_owner v) owners /\ In (vf_designated v) owners) ->
  (forall c, In c (challenges_sent h') -> In (ch_owner c) owners /\ In (ch_designated c) owners) ->
  forall o r, In o owners -> In r owners -> o <> r -> backup_sent h' o r /\ reported_good E id h' o r.
Proof. intros E id d h jk HE. exact (joint_key_all_pairs E HE id d h jk). Qed.
Print Assumptions C32_all_pairs.
Example C32_example : valid_env tiny /\
  (exists jk, md_publish_joint_key tiny (ceremony_run tiny (new_mediator "m" (mkDetails 2 1)) demo_good) = Some jk /\ jk_key jk = gexp tiny 7)
  /\ In "alice"%string (map pk_owner (keys_sent demo_good)) /\ In "bob"%string (map pk_owner (keys_sent demo_good)).
Proof. split; [exact tiny_valid|]. split; [exact demo_good_publishes|]. cbn; auto. Qed.
(** The condition on the ids is needed: messages about strangers are counted. *)
Theorem C32_strangers_counted_refuted : exists E id d h jk o r, valid_env E
  /\ md_publish_joint_key E (ceremony_run E (new_mediator id d) h) = Some jk
  /\ In o (map pk_owner (keys_sent h)) /\ In r (map pk_owner (keys_sent h)) /\ o <> r
  /\ ~ backup_sent h o r /\ ~ reported_good E id h o r.
Proof. exact strangers_counted. Qed.
Print Assumptions C32_strangers_counted_refuted.
(** The latest key need not be the one whose backups were checked: an owner may announce again at the end. *)
Theorem C32_key_replaced_refuted : exists E id d h k jk jk', valid_env E
  /\ md_publish_joint_key E (ceremony_run E (new_mediator id d) h) = Some jk
  /\ md_publish_joint_key E (ceremony_run E (new_mediator id d) (h ++ [Announce k])) = Some jk'
  /\ jk_key jk <> jk_key jk'.
Proof. exact key_replaced. Qed.
Print Assumptions C32_key_replaced_refuted.
(** A failed check is overruled by a challenge that carries commitments other than the announced ones. *)
Theorem C32_challenge_refuted : exists E id d h c jk k, valid_env E
  /\ vs_failed (get_verification_state (ceremony_run E (new_mediator id d) h)) = [(ch_owner c, ch_designated c)]
  /\ md_publish_joint_key E (ceremony_run E (new_mediator id d) (h ++ [SendChallenge c])) = Some jk
  /\ latest_key (ch_owner c) (keys_sent h) = Some k /\ pk_commitments k <> ch_commitments c.
Proof. exact challenge_overrules. Qed.
Print Assumptions C32_challenge_refuted.
(** What a guardian is handed: one backup from every other announced guardian. *)
Theorem C32_shared_backups : forall m id bs, id <> EmptyString -> share_backups m (Some id) = Ok (Some bs) ->
  Forall2 (fun o b => dget (o, id) (md_backups m) = Some b) (filter (fun g => negb (eqb id g)) (dkeys (md_keys m))) bs.
Proof. exact share_backups_spec. Qed.
Print Assumptions C32_shared_backups.
Example C32_shared_example : share_backups (ceremony_run tiny (new_mediator "m" (mkDetails 2 1)) demo_good) (Some "bob"%string)
  = Ok (Some [demo_bk "alice" "bob"]).
Proof. vm_compute. reflexivity. Qed.
(** It is handed them before all backups are available, contrary to the check in the code. *)
Theorem C32_shared_too_early_refuted : exists E id d h m, m = ceremony_run E (new_mediator id d) h /\ all_backups_available m = false
  /\ (exists bs, share_backups m (Some "bob"%string) = Ok (Some bs) /\ bs <> []) /\ share_backups m (Some "alice"%string) = Err KeyError.
Proof. exact shared_too_early. Qed.
Print Assumptions C32_shared_too_early_refuted.
(** The joint key a guardian computes itself is the product of its own key and the latest key of each other
    owner, once it knows as many keys as there are guardians and n-1 receivers reported success last. *)
Theorem C32_guardian_joint_key : forall E id seq n q draws g h jk, valid_env E -> guardian_from_nonce E id seq n q draws = Ok g ->
  gd_publish_joint_key E (guardian_run E g h) = Some jk ->
  let number := dt_number (gd_details (guardian_run E g h)) in
  exists ks, map pk_owner ks = firsts (map pk_owner (share_key g :: keys_saved h))
    /\ Forall (fun k => latest_key (pk_owner k) (share_key g :: keys_saved h) = Some k) ks
    /\ len ks = number /\ jk = prodZ (map pk_key ks) mod pp E
    /\ len (firsts (map vf_designated (verifications_saved h))) = number - 1
    /\ forall r, In r (map vf_designated (verifications_saved h)) ->
         exists v, latest_verification r (verifications_saved h) = Some v /\ vf_verified v = true.
Proof. exact guardian_joint_key. Qed.
Print Assumptions C32_guardian_joint_key.
Example C32_guardian_example : exists g, guardian_from_nonce tiny "alice" 1 2 1 [(3, 4)] = Ok g
  /\ gd_publish_joint_key tiny (guardian_run tiny g [SaveKey (demo_pk "bob" 2 4); SaveVerification (mkVerif "alice" "bob" "bob" true)])
     = Some (gexp tiny 7).
Proof. eexists. split; vm_compute; reflexivity. Qed.

(** ** C33: the honest ceremony *)
(** Any number of guardians with different ids, each with a polynomial of k coefficients, run the three rounds
    without an exception; every verification succeeds; the published key is g to the sum of the secrets; and
    afterwards every guardian holds everybody's key and can decrypt from everybody else's backup the value of
    their polynomial at its own sequence order. *)
Theorem C33_honest_ceremony : forall E rnd k ss mid, valid_env E -> hmac_32 E -> qq E <= 2 ^ 1024 -> good_seats E k ss ->
  (forall a b, 0 <= rnd a b) ->
  exists gs gs' m,
    rmapM (fun s => guardian_from_nonce E (st_id s) (st_seq s) (len ss) (Z.of_nat k) (st_draws s)) ss = Ok gs
    /\ full_ceremony E rnd gs (new_mediator mid (mkDetails (len ss) (Z.of_nat k))) = Ok (gs', m)
    /\ get_verification_state m = mkVstate true true []
    /\ md_publish_joint_key E m = Some (mkJoint (gexp E (sumZ (map st_secret ss)))
         (hash_elems E [HList (map HElem (flat_map (fun s => map (gexp E) (st_secrets s)) ss))]))
    /\ Forall2 (fun s g => gd_id g = st_id s /\ gd_seq g = st_seq s /\ ek_secret (gd_keys g) = st_secret s
         /\ all_guardian_keys_received g = true /\ gd_all_backups_received g = true
         /\ dget (st_id s) (gd_pubkeys g) = Some (share_key g)
         /\ forall r, In r ss -> exists pk, dget (st_id r) (gd_pubkeys g) = Some pk
              /\ pk_owner pk = st_id r /\ pk_key pk = gexp E (st_secret r) /\ pk_commitments pk = map (gexp E) (st_secrets r) /\ pk_seq pk = st_seq r
              /\ (st_id r <> st_id s -> exists b bytes, dget (st_id r) (gd_backups g) = Some b
                    /\ hashed_decrypt E (bk_coordinate b) (st_secret s) (get_backup_seed E (st_id s) (st_seq s)) = Ok (Some bytes)
                    /\ coordinate_from_bytes E bytes = Ok (poly_at (st_secrets r) (st_seq s) mod qq E))) ss gs'.
Proof. exact honest_ceremony. Qed.
Print Assumptions C33_honest_ceremony.
Example C33_example : valid_env medium /\ hmac_32 medium /\ qq medium <= 2 ^ 1024 /\ good_seats medium 2 demo_seats /\ List.length demo_seats = 3%nat.
Proof. split; [exact medium_valid|]. split; [exact medium_hmac|]. split; [vm_compute; discriminate|]. split; [exact demo_seats_good|reflexivity]. Qed.
(** A guardian that can decrypt a backup approves it exactly if it carries the value of the sender's committed
    polynomial at the backup's sequence order, so a wrong backup is always noticed. *)
Theorem C33_backup_check : forall E me b pk coeffs keys bytes y, valid_env E ->
  pk_commitments pk = map (gexp E) coeffs -> Forall (fun a => 0 <= a) coeffs ->
  0 <= bk_seq b < qq E -> (forall j, 0 <= j < zlen coeffs -> bk_seq b ^ j < pp E) ->
  hashed_decrypt E (bk_coordinate b) (ek_secret keys) (get_backup_seed E me (bk_seq b)) = Ok (Some bytes) ->
  coordinate_from_bytes E bytes = Ok y ->
  exists v, verify_backup E me b pk keys = Ok v /\ vf_owner v = bk_owner b /\ vf_designated v = bk_designated b /\ vf_verifier v = me
    /\ (vf_verified v = true <-> y = poly_at coeffs (bk_seq b) mod qq E).
Proof. exact backup_check. Qed.
Print Assumptions C33_backup_check.
(** An honest guardian can always answer a challenge: the answer reveals the committed polynomial's value and
    every verifier accepts it. *)
Theorem C33_challenge_answered : forall E verifier b draws, valid_env E ->
  Forall (fun d => 0 <= fst d < qq E) draws -> 0 <= bk_seq b < qq E -> (forall j, 0 <= j < zlen draws -> bk_seq b ^ j < pp E) ->
  exists c, generate_challenge E b (generate_polynomial E draws) = Ok c
    /\ ch_commitments c = map (fun d => gexp E (fst d)) draws
    /\ ch_value c = poly_at (map fst draws) (bk_seq b) mod qq E
    /\ verify_challenge E verifier c = Ok (mkVerif (bk_owner b) (bk_designated b) verifier true).
Proof. exact challenge_answered. Qed.
Print Assumptions C33_challenge_answered.
Example C33_challenge_example : Forall (fun d => 0 <= fst d < qq medium) [(7, 2); (5, 3)] /\ 0 <= bk_seq (demo_bk "alice" "bob") < qq medium
  /\ generate_challenge medium (demo_bk "alice" "bob") (generate_polynomial medium [(7, 2); (5, 3)])
     <> generate_challenge medium (demo_bk "alice" "bob") (generate_polynomial medium [(7, 2); (6, 3)]).
Proof. split; [repeat constructor; cbn; lia|]. split; [cbn; lia|]. vm_compute. discriminate. Qed.

(** ** C45: private records *)
(** However a guardian was made and whatever it went through, importing what it exported gives back the same
    guardian, provided nobody else's key was saved under its own id. *)
Theorem C45_roundtrip : forall E g h, made_guardian E g -> (forall k, In k (keys_saved h) -> pk_owner k <> gd_id g) ->
  let g' := guardian_run E g h in
  guardian_from_private_record (export_private_data g') (dt_number (gd_details g')) (dt_quorum (gd_details g')) = g'.
Proof. exact import_export. Qed.
Print Assumptions C45_roundtrip.
Example C45_example : exists g, guardian_from_nonce tiny "alice" 1 2 1 [(3, 4)] = Ok g /\
  let h := [SaveKey (demo_pk "bob" 2 4); SaveBackup (demo_bk "bob" "alice"); SetDetails 3 2; SaveVerification (mkVerif "alice" "bob" "bob" true)] in
  (forall k, In k (keys_saved h) -> pk_owner k <> gd_id g) /\ guardian_run tiny g h <> g.
Proof.
  eexists. split; [vm_compute; reflexivity|]. split; [|vm_compute; discriminate].
  intros k [<-|[]]. vm_compute. discriminate.
Qed.
(** In every state the keys, backups and verifications come back, with the stated number and quorum, and the
    public keys too except that the guardian's own entry is its own key. *)
Theorem C45_any_state : forall g n q, let g' := guardian_from_private_record (export_private_data g) n q in
  gd_keys g' = gd_keys g /\ gd_to_share g' = gd_to_share g /\ gd_backups g' = gd_backups g /\ gd_verifs g' = gd_verifs g
  /\ gd_details g' = mkDetails n q
  /\ forall o, dget o (gd_pubkeys g') = if eqb o (gd_id g) then Some (share_key g) else dget o (gd_pubkeys g).
Proof. exact import_general. Qed.
Print Assumptions C45_any_state.
Theorem C45_own_key_refuted : exists E g k n q, made_guardian E g
  /\ guardian_from_private_record (export_private_data (guardian_run E g [SaveKey k])) n q <> guardian_run E g [SaveKey k]
  /\ gd_details (guardian_run E g [SaveKey k]) = mkDetails n q.
Proof. exact own_key_lost. Qed.
Print Assumptions C45_own_key_refuted.
