(** * Ceremony: model of key_ceremony.py, key_ceremony_mediator.py, the key ceremony half of guardian.py
    and the key ceremony orchestrator.  Definitions only.

    Random draws (rand_q) are arguments.  A mutating method returns the new object. *)
From Verif Require Import Base Group Codec Hash DLog ElGamal ZK Poly Manifest Ballot Encrypt.


(** ** key_ceremony.py *)
(** 29-57 ElectionPublicKey *)
Record public_key := mkPk { pk_owner : string; pk_seq : Z; pk_key : Z; pk_commitments : list Z; pk_proofs : list schnorr }.
(** 60-82 ElectionKeyPair *)
Record key_pair := mkKeys { ek_owner : string; ek_seq : Z; ek_pair : keypair; ek_poly : polynomial }.
Definition ek_secret (k : key_pair) : Z := kp_secret (ek_pair k).
(** 84-92 share *)
Definition share_keys (k : key_pair) : public_key :=
  mkPk (ek_owner k) (ek_seq k) (kp_public (ek_pair k)) (get_commitments (ek_poly k)) (get_proofs (ek_poly k)).
(** 95-111 ElectionJointKey *)
Record joint_key := mkJoint { jk_key : Z; jk_hash : Z }.
(** 113-135 ElectionPartialKeyBackup *)
Record backup := mkBackup { bk_owner : string; bk_designated : string; bk_seq : Z; bk_coordinate : hashed_ct }.
(** 138-143 CeremonyDetails *)
Record details := mkDetails { dt_number : Z; dt_quorum : Z }.
(** 146-153 ElectionPartialKeyVerification *)
Record verification := mkVerif { vf_owner : string; vf_designated : string; vf_verifier : string; vf_verified : bool }.
(** 156-165 ElectionPartialKeyChallenge *)
Record challenge := mkChal { ch_owner : string; ch_designated : string; ch_seq : Z; ch_value : Z;
                             ch_commitments : list Z; ch_proofs : list schnorr }.

(** 172-183 CoordinateData.  to_raw writes the dataclass with one str field, whose value is the element's
    hex digits (an ElementModQ is a str), as this text: *)
Definition coordinate_json (c : Z) : string := ("{""coordinate"": """ ++ int_to_hex c ++ """}")%string.
(** serialize.py:47-48 padded_encode with the 512 byte default *)
Definition coordinate_to_bytes (c : Z) : res (list Z) := padded_encode (coordinate_json c).
(** from_raw of a text of exactly that form gives the hex digits; every other byte string is left to
    [jcoord] (the json and dacite libraries) *)
Fixpoint strip_prefix (p : string) (bs : list Z) : option (list Z) :=
  match p, bs with
  | EmptyString, _ => Some bs
  | String c p', b :: bs' => if Z.of_N (N_of_ascii c) =? b then strip_prefix p' bs' else None
  | String _ _, [] => None
  end.
Fixpoint take_hex (bs : list Z) : string * list Z :=
  match bs with
  | [] => (EmptyString, [])
  | b :: bs' => let c := ascii_of_N (Z.to_N b) in
                if existsb (Ascii.eqb c) (list_ascii_of_string "0123456789ABCDEF") && (Z.of_N (N_of_ascii c) =? b) then let '(s, r) := take_hex bs' in (String c s, r) else (EmptyString, bs)
  end.
Definition parse_coordinate (bs : list Z) : option string :=
  match strip_prefix "{""coordinate"": """ bs with
  | None => None
  | Some bs1 => let '(hex, bs2) := take_hex bs1 in
                match strip_prefix """}" bs2 with
                | Some [] => Some hex
                | _ => None
                end
  end.
(** serialize.py:51-54 padded_decode, then dacite casts the str with ElementModQ, which parses the hex
    digits and checks the bounds (big_integer.py:34-42, group.py:23-29) *)
Definition coordinate_from_bytes (E : env) (padded : list Z) : res Z :=
  let raw := remove_padding padded 512 in
  do hex <- match parse_coordinate raw with Some h => Ok h | None => jcoord E raw end;
  do n <- hex_to_int hex; ElementModQ E n.

(** 186-198 generate_election_key_pair; [draws] has one (value, Schnorr nonce) pair for each of the
    quorum coefficients, and coefficients[0] raises for quorum 0 *)
Definition generate_election_key_pair (E : env) (id : string) (seq : Z) (draws : list (Z * Z)) : res key_pair :=
  match generate_polynomial E draws with
  | [] => Err IndexError
  | (c :: _) as pl => Ok (mkKeys id seq {| kp_secret := co_value c; kp_public := co_commitment c |} pl)
  end.
(** 236-237 get_backup_seed *)
Definition get_backup_seed (E : env) (id : string) (seq : Z) : Z := hash_elems E [HStr id; HInt seq].
(** 201-233 generate_election_partial_key_backup *)
Definition generate_backup (E : env) (sender : string) (pl : polynomial) (receiver : public_key) (nonce : Z) : res backup :=
  do coordinate <- compute_polynomial_coordinate E (pk_seq receiver) pl;
  do bytes <- coordinate_to_bytes coordinate;
  do c <- hashed_elgamal_encrypt E bytes nonce (pk_key receiver) (get_backup_seed E (pk_owner receiver) (pk_seq receiver));
  Ok (mkBackup sender (pk_owner receiver) (pk_seq receiver) c).
(** 240-276 verify_election_partial_key_backup *)
Definition verify_backup (E : env) (receiver : string) (b : backup) (sender_key : public_key) (receiver_keys : key_pair) : res verification :=
  do o <- hashed_decrypt E (bk_coordinate b) (ek_secret receiver_keys) (get_backup_seed E receiver (bk_seq b));
  do bytes <- get_optional o;
  do coordinate <- coordinate_from_bytes E bytes;
  do ok <- verify_polynomial_coordinate E coordinate (bk_seq b) (pk_commitments sender_key);
  Ok (mkVerif (bk_owner b) (bk_designated b) receiver ok).
(** 279-296 generate_election_partial_key_challenge *)
Definition generate_challenge (E : env) (b : backup) (pl : polynomial) : res challenge :=
  do v <- compute_polynomial_coordinate E (bk_seq b) pl;
  Ok (mkChal (bk_owner b) (bk_designated b) (bk_seq b) v (get_commitments pl) (get_proofs pl)).
(** 299-317 verify_election_partial_key_challenge *)
Definition verify_challenge (E : env) (verifier : string) (c : challenge) : res verification :=
  do ok <- verify_polynomial_coordinate E (ch_value c) (ch_seq c) (ch_commitments c);
  Ok (mkVerif (ch_owner c) (ch_designated c) verifier ok).
(** 320-340 combine_election_public_keys *)
Definition combine_keys (E : env) (ks : list public_key) : joint_key :=
  mkJoint (elgamal_combine_public_keys E (map pk_key ks)) (hash_elems E [HList (map HElem (flat_map pk_commitments ks))]).

(** ** key_ceremony_mediator.py 33-65 KeyCeremonyMediator; GuardianPair is a pair of ids.  The challenges
    dictionary is never read or written after it is created and is left out. *)
Record mediator := mkMediator { md_id : string; md_details : details; md_keys : dict string public_key;
  md_backups : dict (string * string) backup; md_verifs : dict (string * string) verification }.
Definition new_mediator (id : string) (d : details) : mediator := mkMediator id d [] [] [].
(** 68-73 announce, 191-196 *)
Definition md_announce (m : mediator) (k : public_key) : mediator :=
  mkMediator (md_id m) (md_details m) (dset (pk_owner k) k (md_keys m)) (md_backups m) (md_verifs m).
(** 75-82 *)
Definition all_guardians_announced (m : mediator) : bool := len (md_keys m) =? dt_number (md_details m).
(** 84-97 share_announced *)
Definition share_announced (m : mediator) (id : option string) : option (list public_key) :=
  if negb (all_guardians_announced m) then None
  else Some (map snd (filter (fun kv => match id with Some i => negb (eqb (fst kv) i) | None => true end) (md_keys m))).
(** 201-214 _receive_election_partial_key_backup *)
Definition md_receive_backup (m : mediator) (b : backup) : mediator :=
  if eqb (bk_owner b) (bk_designated b) then m
  else mkMediator (md_id m) (md_details m) (md_keys m) (dset (bk_owner b, bk_designated b) b (md_backups m)) (md_verifs m).
(** 100-107 receive_backups *)
Definition receive_backups (m : mediator) (bs : list backup) : mediator :=
  if negb (all_guardians_announced m) then m else fold_left md_receive_backup bs m.
(** 109-117, 216-225 all_backups_available *)
Definition all_backups_available (m : mediator) : bool :=
  all_guardians_announced m && (len (md_backups m) =? (dt_number (md_details m) - 1) * dt_number (md_details m)).
(** 227-243 _share_election_partial_key_backups_to_guardian: [] raises KeyError for a missing pair *)
Definition backups_to_guardian (m : mediator) (id : string) : res (list backup) :=
  rmapM (fun g => dindex (g, id) (md_backups m)) (filter (fun g => negb (eqb id g)) (dkeys (md_keys m))).
(** 119-131 share_backups.  [self.all_backups_available] is not called, so it counts as true; an empty id
    counts as no id. *)
Definition share_backups (m : mediator) (id : option string) : res (option (list backup)) :=
  if negb (all_guardians_announced m) then Ok None
  else match id with
       | None | Some EmptyString => Ok (Some (dvals (md_backups m)))
       | Some i => do bs <- backups_to_guardian m i; Ok (Some bs)
       end.
(** 246-257 _receive_election_partial_key_verification *)
Definition md_receive_verification (m : mediator) (v : verification) : mediator :=
  if eqb (vf_owner v) (vf_designated v) then m
  else mkMediator (md_id m) (md_details m) (md_keys m) (md_backups m) (dset (vf_owner v, vf_designated v) v (md_verifs m)).
(** 134-143 receive_backup_verifications *)
Definition receive_verifications (m : mediator) (vs : list verification) : mediator :=
  if negb (all_backups_available m) then m else fold_left md_receive_verification vs m.
(** 24-30 BackupVerificationState *)
Record verification_state := mkVstate { vs_all_sent : bool; vs_all_verified : bool; vs_failed : list (string * string) }.
(** 259-271 *)
Definition all_verifications_received (m : mediator) : bool :=
  len (md_verifs m) =? (dt_number (md_details m) - 1) * dt_number (md_details m).
(** 145-151 get_verification_state, 273-291 *)
Definition get_verification_state (m : mediator) : verification_state :=
  if negb (all_backups_available m) || negb (all_verifications_received m) then mkVstate false false []
  else let failed := map (fun v => (vf_owner v, vf_designated v)) (filter (fun v => negb (vf_verified v)) (dvals (md_verifs m))) in
       mkVstate true (len failed =? 0) failed.
(** 153-154 *)
Definition md_all_verified (m : mediator) : bool := vs_all_verified (get_verification_state m).
(** 157-166 verify_challenge *)
Definition md_verify_challenge (E : env) (m : mediator) (c : challenge) : mediator * res verification :=
  match verify_challenge E (md_id m) c with
  | Err e => (m, Err e)
  | Ok v => (if vf_verified v then md_receive_verification m v else m, Ok v)
  end.
(** 169-177 publish_joint_key *)
Definition md_publish_joint_key (E : env) (m : mediator) : option joint_key :=
  if negb (md_all_verified m) then None else Some (combine_keys E (dvals (md_keys m))).
(** 179-188 reset *)
Definition md_reset (m : mediator) (d : details) : mediator := mkMediator (md_id m) d [] [] [].

(** ** guardian.py *)
(** 150-187 Guardian *)
Record guardian := mkGuardian { gd_keys : key_pair; gd_details : details; gd_to_share : dict string backup;
  gd_pubkeys : dict string public_key; gd_backups : dict string backup; gd_verifs : dict string verification }.
Definition gd_id (g : guardian) : string := ek_owner (gd_keys g).       (* 189-191 *)
Definition gd_seq (g : guardian) : Z := ek_seq (gd_keys g).             (* 193-195 *)
(** 284-290 share_key *)
Definition share_key (g : guardian) : public_key := share_keys (gd_keys g).
(** 292-298 save_guardian_key *)
Definition save_guardian_key (g : guardian) (k : public_key) : guardian :=
  mkGuardian (gd_keys g) (gd_details g) (gd_to_share g) (dset (pk_owner k) k (gd_pubkeys g)) (gd_backups g) (gd_verifs g).
(** 150-187 __init__; an argument left out is the empty dictionary *)
Definition new_guardian (k : key_pair) (d : details) (pubkeys : dict string public_key) (backups to_share : dict string backup)
    (verifs : dict string verification) : guardian :=
  save_guardian_key (mkGuardian k d to_share pubkeys backups verifs) (share_keys k).
(** 215-228 from_nonce *)
Definition guardian_from_nonce (E : env) (id : string) (seq number quorum : Z) (draws : list (Z * Z)) : res guardian :=
  do k <- generate_election_key_pair E id seq draws; Ok (new_guardian k (mkDetails number quorum) [] [] [] []).
(** 198-212 from_public_key *)
Definition guardian_from_public_key (number quorum : Z) (k : public_key) : guardian :=
  new_guardian (mkKeys (pk_owner k) (pk_seq k) {| kp_secret := 0; kp_public := pk_key k |} []) (mkDetails number quorum) [] [] [] [].
(** 91-113 PrivateGuardianRecord *)
Record private_record := mkPrivate { pr_id : string; pr_keys : key_pair; pr_to_share : dict string backup;
  pr_pubkeys : dict string public_key; pr_backups : dict string backup; pr_verifs : dict string verification }.
(** 252-261 export_private_data *)
Definition export_private_data (g : guardian) : private_record :=
  mkPrivate (gd_id g) (gd_keys g) (gd_to_share g) (gd_pubkeys g) (gd_backups g) (gd_verifs g).
(** 231-246 from_private_record *)
Definition guardian_from_private_record (r : private_record) (number quorum : Z) : guardian :=
  new_guardian (pr_keys r) (mkDetails number quorum) (pr_pubkeys r) (pr_backups r) (pr_to_share r) (pr_verifs r).
(** 40-88 GuardianRecord, publish_guardian_record, 248-250 publish *)
Record guardian_record := mkRecord { gr_id : string; gr_seq : Z; gr_key : Z; gr_commitments : list Z; gr_proofs : list schnorr }.
Definition publish_guardian_record (k : public_key) : guardian_record :=
  mkRecord (pk_owner k) (pk_seq k) (pk_key k) (pk_commitments k) (pk_proofs k).
Definition guardian_publish (g : guardian) : guardian_record := publish_guardian_record (share_key g).
(** 263-270 set_ceremony_details *)
Definition set_ceremony_details (g : guardian) (number quorum : Z) : guardian :=
  mkGuardian (gd_keys g) (mkDetails number quorum) (gd_to_share g) (gd_pubkeys g) (gd_backups g) (gd_verifs g).
(** 300-309 *)
Definition all_guardian_keys_received (g : guardian) : bool := len (gd_pubkeys g) =? dt_number (gd_details g).
Definition gd_with_to_share (g : guardian) (id : string) (b : backup) : guardian :=
  mkGuardian (gd_keys g) (gd_details g) (dset id b (gd_to_share g)) (gd_pubkeys g) (gd_backups g) (gd_verifs g).
(** 311-326 generate_election_partial_key_backups: the loop over the known keys (its own included); [rnd]
    gives the draw used for each receiver.  The backups made before an exception stay. *)
Fixpoint generate_backups_loop (E : env) (rnd : string -> Z) (ks : list public_key) (g : guardian) : guardian * res bool :=
  match ks with
  | [] => (g, Ok true)
  | k :: ks' =>
    match generate_backup E (gd_id g) (ek_poly (gd_keys g)) k (rnd (pk_owner k)) with
    | Err e => (g, Err e)
    | Ok b => generate_backups_loop E rnd ks' (gd_with_to_share g (pk_owner k) b)
    end
  end.
Definition gd_generate_backups (E : env) (rnd : string -> Z) (g : guardian) : guardian * res bool :=
  generate_backups_loop E rnd (dvals (gd_pubkeys g)) g.
(** 329-346 share_election_partial_key_backup(s) *)
Definition gd_share_backup (g : guardian) (id : string) : option backup := dget id (gd_to_share g).
Definition gd_share_backups (g : guardian) : list backup := dvals (gd_to_share g).
(** 348-356 save_election_partial_key_backup *)
Definition gd_save_backup (g : guardian) (b : backup) : guardian :=
  mkGuardian (gd_keys g) (gd_details g) (gd_to_share g) (gd_pubkeys g) (dset (bk_owner b) b (gd_backups g)) (gd_verifs g).
(** 358-367 *)
Definition gd_all_backups_received (g : guardian) : bool := len (gd_backups g) =? dt_number (gd_details g) - 1.
(** 370-389 verify_election_partial_key_backup *)
Definition gd_verify_backup (E : env) (g : guardian) (id : string) : res verification :=
  match dget id (gd_backups g), dget id (gd_pubkeys g) with
  | Some b, Some k => verify_backup E (gd_id g) b k (gd_keys g)
  | _, _ => Err ValueError
  end.
(** 391-405 publish_election_backup_challenge *)
Definition gd_publish_challenge (E : env) (g : guardian) (id : string) : res (option challenge) :=
  match dget id (gd_to_share g) with
  | None => Ok None
  | Some b => do c <- generate_challenge E b (ek_poly (gd_keys g)); Ok (Some c)
  end.
(** 407-416 verify_election_partial_key_challenge *)
Definition gd_verify_challenge (E : env) (g : guardian) (c : challenge) : res verification := verify_challenge E (gd_id g) c.
(** 418-428 save_election_partial_key_verification *)
Definition gd_save_verification (g : guardian) (v : verification) : guardian :=
  mkGuardian (gd_keys g) (gd_details g) (gd_to_share g) (gd_pubkeys g) (gd_backups g) (dset (vf_designated v) v (gd_verifs g)).
(** 430-442 all_election_partial_key_backups_verified *)
Definition gd_all_verified (g : guardian) : bool :=
  (len (gd_verifs g) =? dt_number (gd_details g) - 1) && forallb vf_verified (dvals (gd_verifs g)).
(** 445-460 publish_joint_key *)
Definition gd_publish_joint_key (E : env) (g : guardian) : option Z :=
  if negb (all_guardian_keys_received g) then None
  else if negb (gd_all_verified g) then None
  else Some (elgamal_combine_public_keys E (map pk_key (dvals (gd_pubkeys g)))).

(** ** electionguard_tools/helpers/key_ceremony_orchestrator.py *)
(** 34-46 perform_round_1 *)
Definition round_1 (gs : list guardian) (m : mediator) : res (list guardian * mediator) :=
  let m1 := fold_left (fun m g => md_announce m (share_key g)) gs m in
  do gs1 <- rmapM (fun g => do ks <- get_optional (share_announced m1 (Some (gd_id g)));
                            Ok (fold_left save_guardian_key ks g)) gs;
  Ok (gs1, m1).
(** 48-61 perform_round_2; [rnd i j] is the draw guardian i uses in the backup for j.  The answer of
    generate_election_partial_key_backups is not looked at. *)
Fixpoint send_backups (E : env) (rnd : string -> string -> Z) (gs : list guardian) (m : mediator) : res (list guardian * mediator) :=
  match gs with
  | [] => Ok ([], m)
  | g :: gs' =>
    let '(g', r) := gd_generate_backups E (rnd (gd_id g)) g in
    do _ <- r;
    do r' <- send_backups E rnd gs' (receive_backups m (gd_share_backups g'));
    Ok (g' :: fst r', snd r')
  end.
Definition round_2 (E : env) (rnd : string -> string -> Z) (gs : list guardian) (m : mediator) : res (list guardian * mediator) :=
  do r <- send_backups E rnd gs m;
  let m1 := snd r in
  do gs2 <- rmapM (fun g => do o <- share_backups m1 (Some (gd_id g)); do bs <- get_optional o;
                            Ok (fold_left gd_save_backup bs g)) (fst r);
  Ok (gs2, m1).
(** 63-80 perform_round_3; [is not] between two ids is modelled as different ids *)
Definition round_3 (E : env) (gs : list guardian) (m : mediator) : res mediator :=
  rfold (fun m g =>
    rfold (fun m o =>
      do vs <- (if eqb (gd_id g) (gd_id o) then Ok [] else do v <- gd_verify_backup E g (gd_id o); Ok [v]);
      Ok (receive_verifications m vs)) gs m) gs m.
(** 24-32 perform_full_ceremony *)
Definition full_ceremony (E : env) (rnd : string -> string -> Z) (gs : list guardian) (m : mediator) : res (list guardian * mediator) :=
  do r1 <- round_1 gs m;
  do r2 <- round_2 E rnd (fst r1) (snd r1);
  do m3 <- round_3 E (fst r2) (snd r2);
  Ok (fst r2, m3).
