(** * Shares: model of decryption_share.py, decryption.py, decrypt_with_shares.py, the decryption half of
    guardian.py, decryption_mediator.py and the tally ceremony orchestrator.  Definitions only.

    The random draws (rand_q) and the health of the worker pool are arguments.  [rnd i] is the draw of the task
    for the i-th selection of a contest, [rnd c i] that of the i-th selection of the c-th contest; [up c] is
    false when the pool fails for the c-th contest. *)
From Verif Require Import Base Group Codec Hash DLog ElGamal ZK Poly Manifest Ballot Box Tally Ceremony.

(** ** decryption_share.py *)
(** 15-45 CiphertextCompensatedDecryptionSelection *)
Record comp_sel := mkCompSel { cm_id : string; cm_guardian : string; cm_missing : string; cm_share : Z; cm_recovery : Z; cm_proof : cp_proof }.
(** 52-88 CiphertextDecryptionSelection *)
Record dec_sel := mkDecSel { dc_id : string; dc_guardian : string; dc_share : Z; dc_proof : option cp_proof;
  dc_parts : option (dict string comp_sel) }.
(** 90-157 is_valid *)
Definition dec_sel_valid (E : env) (d : dec_sel) (msg : ciphertext) (key ext : Z) : bool :=
  match dc_proof d, dc_parts d with
  | None, None => false
  | Some _, Some _ => false
  | Some pf, None => cp_is_valid E pf msg key (dc_share d) ext
  | None, Some parts => forallb (fun part => cp_is_valid E (cm_proof part) msg (cm_recovery part) (cm_share part) ext) (dvals parts)
  end.
(** 160-191 create_ciphertext_decryption_selection, with a proof and with a dictionary of parts *)
Definition create_with_proof (id guardian : string) (share : Z) (pf : cp_proof) : dec_sel := mkDecSel id guardian share (Some pf) None.
Definition create_with_parts (id guardian : string) (share : Z) (parts : dict string comp_sel) : dec_sel := mkDecSel id guardian share None (Some parts).
(** 194-213 CiphertextDecryptionContest *)
Record dec_con := mkDecCon { dn_id : string; dn_guardian : string; dn_hash : Z; dn_selections : dict string dec_sel }.
(** 216-240 CiphertextCompensatedDecryptionContest *)
Record comp_con := mkCompCon { co_id : string; co_guardian : string; co_missing : string; co_hash : Z; co_selections : dict string comp_sel }.
(** 243-262 DecryptionShare *)
Record dec_share := mkShare { sh_id : string; sh_guardian : string; sh_key : Z; sh_contests : dict string dec_con }.
(** 265-290 CompensatedDecryptionShare *)
Record comp_share := mkCompShare { cs_tally : string; csh_guardian : string; csh_missing : string; csh_key : Z; csh_contests : dict string comp_con }.
(** 293-307 get_shares_for_selection: looks through all contests; the last match of a guardian wins *)
Definition get_shares_for_selection (id : string) (shares : dict string dec_share) : dict string (Z * dec_sel) :=
  fold_left (fun acc sh =>
    fold_left (fun acc dn =>
      fold_left (fun acc d => if eqb (dc_id d) id then dset (sh_guardian sh) (sh_key sh, d) acc else acc) (dvals (dn_selections dn)) acc)
    (dvals (sh_contests sh)) acc) (dvals shares) [].

(** ** decryption.py *)
(** ballot.py:77-100 CiphertextContest; of a CiphertextSelection only the id and the ciphertext matter here *)
Record cipher_contest := mkCipherCon { cc_id : string; cc_seq : Z; cc_hash : Z; cc_selections : list (string * ciphertext) }.
(** 69-74: the CiphertextContest made from a tally contest *)
Definition tally_cc (t : tally_contest) : cipher_contest :=
  mkCipherCon (tc_id t) (tc_seq t) (tc_hash t) (map (fun s => (ts_id s, ts_ct s)) (dvals (tc_selections t))).
(** 160-165: the CiphertextContest made from a ballot contest *)
Definition ballot_cc (c : ct_contest) : cipher_contest :=
  mkCipherCon (bc_id c) (bc_seq c) (bc_desc_hash c) (map (fun s => (cs_id s, cs_ct s)) (bc_selections c)).
Definition number {A} (l : list A) : list (nat * A) := combine (seq 0 (length l)) l.

(** 424-457 partially_decrypt *)
Definition partially_decrypt (E : env) (k : key_pair) (c : ciphertext) (ext seed : Z) : Z * cp_proof :=
  let m := partial_decrypt E c (ek_secret k) in
  (m, make_chaum_pedersen E c (ek_secret k) m seed ext).
(** 323-357 compute_decryption_share_for_selection *)
Definition share_for_selection (E : env) (k : key_pair) (s : string * ciphertext) (ext seed : Z) : option dec_sel :=
  let '(m, pf) := partially_decrypt E k (snd s) ext seed in
  if cp_is_valid E pf (snd s) (kp_public (ek_pair k)) m ext then Some (create_with_proof (fst s) (ek_owner k) m pf) else None.
(** the loops 255-258 and 308-311 over the results *)
Fixpoint collect {A} (key : A -> string) (l : list (option A)) (d : dict string A) : option (dict string A) :=
  match l with
  | [] => Some d
  | None :: _ => None
  | Some a :: l' => collect key l' (dset (key a) a d)
  end.
(** 230-266 compute_decryption_share_for_contest; the tasks themselves cannot raise *)
Definition share_for_contest (E : env) (up : bool) (rnd : nat -> Z) (k : key_pair) (c : cipher_contest) (ext : Z) : option dec_con :=
  let ds := schedule up (fun a => Ok (share_for_selection E k (snd a) ext (rnd (fst a)))) (number (cc_selections c)) in
  match collect dc_id ds [] with
  | None => None
  | Some sels => Some (mkDecCon (cc_id c) (ek_owner k) (cc_hash c) sels)
  end.
(** the loops 63-80 and 157-171 over the contests *)
Fixpoint share_contests (E : env) (up : nat -> bool) (rnd : nat -> nat -> Z) (k : key_pair) (ext : Z) (i : nat)
    (cs : list cipher_contest) (d : dict string dec_con) : option (dict string dec_con) :=
  match cs with
  | [] => Some d
  | c :: cs' =>
    match share_for_contest E (up i) (rnd i) k c ext with
    | None => None
    | Some dn => share_contests E up rnd k ext (S i) cs' (dset (cc_id c) dn d)
    end
  end.
Definition share_of (E : env) (up : nat -> bool) (rnd : nat -> nat -> Z) (k : key_pair) (ext : Z) (id : string) (cs : list cipher_contest) : option dec_share :=
  match share_contests E up rnd k ext 0 cs [] with
  | None => None
  | Some d => Some (mkShare id (ek_owner k) (kp_public (ek_pair k)) d)
  end.
(** 48-87 compute_decryption_share *)
Definition compute_decryption_share (E : env) (up : nat -> bool) (rnd : nat -> nat -> Z) (k : key_pair) (t : tally) (cx : context) : option dec_share :=
  share_of E up rnd k (cx_ext_hash cx) (ty_id t) (map tally_cc (dvals (ty_contests t))).
(** 140-178 compute_decryption_share_for_ballot *)
Definition compute_decryption_share_for_ballot (E : env) (up : nat -> bool) (rnd : nat -> nat -> Z) (k : key_pair) (b : sub_ballot) (cx : context) : option dec_share :=
  share_of E up rnd k (cx_ext_hash cx) (sb_id b) (map ballot_cc (cb_contests (sb_ballot b))).

(** 460-484 decrypt_backup *)
Definition decrypt_backup (E : env) (b : backup) (k : key_pair) : res (option Z) :=
  do o <- hashed_decrypt E (bk_coordinate b) (ek_secret k) (get_backup_seed E (ek_owner k) (ek_seq k));
  match o with
  | None => Ok None
  | Some bytes => do y <- coordinate_from_bytes E bytes; Ok (Some y)
  end.
(** 487-521 decrypt_with_threshold *)
Definition decrypt_with_threshold (E : env) (coordinate : Z) (c : ciphertext) (ext seed : Z) : Z * cp_proof :=
  let m := partial_decrypt E c coordinate in (m, make_chaum_pedersen E c coordinate m seed ext).
(** 524-538 compute_recovery_public_key *)
Fixpoint recovery_loop (E : env) (x i acc : Z) (commitments : list Z) : Z :=
  match commitments with
  | [] => acc
  | k :: ks => recovery_loop E x (i + 1) (mult_p E [acc; pow_p E k (pow_q E x i)]) ks
  end.
Definition compute_recovery_public_key (E : env) (guardian missing : public_key) : Z :=
  recovery_loop E (pk_seq guardian) 0 1 (pk_commitments missing).
(** 360-421 compute_compensated_decryption_share_for_selection *)
Definition comp_for_selection (E : env) (coordinate : Z) (present missing : public_key) (s : string * ciphertext) (ext seed : Z) : option comp_sel :=
  let '(m, pf) := decrypt_with_threshold E coordinate (snd s) ext seed in
  let rk := compute_recovery_public_key E present missing in
  if cp_is_valid E pf (snd s) rk m ext then Some (mkCompSel (fst s) (pk_owner present) (pk_owner missing) m rk pf) else None.
(** 269-320 compute_compensated_decryption_share_for_contest *)
Definition comp_for_contest (E : env) (up : bool) (rnd : nat -> Z) (coordinate : Z) (present missing : public_key) (c : cipher_contest) (ext : Z) : option comp_con :=
  let ds := schedule up (fun a => Ok (comp_for_selection E coordinate present missing (snd a) ext (rnd (fst a)))) (number (cc_selections c)) in
  match collect cm_id ds [] with
  | None => None
  | Some sels => Some (mkCompCon (cc_id c) (pk_owner present) (pk_owner missing) (cc_hash c) sels)
  end.
Fixpoint comp_contests (E : env) (up : nat -> bool) (rnd : nat -> nat -> Z) (coordinate : Z) (present missing : public_key) (ext : Z) (i : nat)
    (cs : list cipher_contest) (d : dict string comp_con) : option (dict string comp_con) :=
  match cs with
  | [] => Some d
  | c :: cs' =>
    match comp_for_contest E (up i) (rnd i) coordinate present missing c ext with
    | None => None
    | Some dn => comp_contests E up rnd coordinate present missing ext (S i) cs' (dset (cc_id c) dn d)
    end
  end.
Definition comp_of (E : env) (up : nat -> bool) (rnd : nat -> nat -> Z) (coordinate : Z) (present missing : public_key) (ext : Z) (id : string)
    (cs : list cipher_contest) : option comp_share :=
  match comp_contests E up rnd coordinate present missing ext 0 cs [] with
  | None => None
  | Some d => Some (mkCompShare id (pk_owner present) (pk_owner missing) (pk_key present) d)
  end.
(** 90-137 compute_compensated_decryption_share *)
Definition compute_compensated_share (E : env) (up : nat -> bool) (rnd : nat -> nat -> Z) (coordinate : Z) (present missing : public_key) (t : tally) (cx : context) : option comp_share :=
  comp_of E up rnd coordinate present missing (cx_ext_hash cx) (ty_id t) (map tally_cc (dvals (ty_contests t))).
(** 181-227 compute_compensated_decryption_share_for_ballot *)
Definition compute_compensated_share_for_ballot (E : env) (up : nat -> bool) (rnd : nat -> nat -> Z) (coordinate : Z) (missing present : public_key) (b : sub_ballot) (cx : context) : option comp_share :=
  comp_of E up rnd coordinate present missing (cx_ext_hash cx) (sb_id b) (map ballot_cc (cb_contests (sb_ballot b))).

(** 620-671 reconstruct_decryption_contest *)
Definition dict_mapM {A B} (f : A -> res B) (d : dict string A) : res (dict string B) :=
  rmapM (fun kv => do b <- f (snd kv); Ok (fst kv, b)) d.
Definition reconstruct_selection (E : env) (missing : string) (contest_shares : dict string comp_con) (lagrange : dict string Z)
    (s : string * ciphertext) : res (string * dec_sel) :=
  do parts <- dict_mapM (fun cc => dindex (fst s) (co_selections cc)) contest_shares;
  do pows <- rmapM (fun kv => do w <- dindex (fst kv) lagrange; Ok (pow_p E (cm_share (snd kv)) w)) parts;
  Ok (fst s, create_with_parts (fst s) missing (mult_p E pows) parts).
Definition reconstruct_contest (E : env) (missing : string) (c : cipher_contest) (shares : dict string comp_share) (lagrange : dict string Z) : res dec_con :=
  do contest_shares <- dict_mapM (fun sh => dindex (cc_id c) (csh_contests sh)) shares;
  do sels <- rmapM (reconstruct_selection E missing contest_shares lagrange) (cc_selections c);
  Ok (mkDecCon (cc_id c) missing (cc_hash c) (dict_of sels)).
Definition reconstruct (E : env) (missing : public_key) (id : string) (cs : list cipher_contest) (shares : dict string comp_share) (lagrange : dict string Z) : res dec_share :=
  do dns <- rmapM (fun c => do dn <- reconstruct_contest E (pk_owner missing) c shares lagrange; Ok (cc_id c, dn)) cs;
  Ok (mkShare id (pk_owner missing) (pk_key missing) (dict_of dns)).
(** 541-577 reconstruct_decryption_share *)
Definition reconstruct_share (E : env) (missing : public_key) (t : tally) (shares : dict string comp_share) (lagrange : dict string Z) : res dec_share :=
  reconstruct E missing (ty_id t) (map tally_cc (dvals (ty_contests t))) shares lagrange.
(** 580-617 reconstruct_decryption_share_for_ballot *)
Definition reconstruct_share_for_ballot (E : env) (missing : public_key) (b : sub_ballot) (shares : dict string comp_share) (lagrange : dict string Z) : res dec_share :=
  reconstruct E missing (sb_id b) (map ballot_cc (cb_contests (sb_ballot b))) shares lagrange.
(** 689-704 compute_lagrange_coefficients_for_guardian *)
Definition lagrange_for (E : env) (k : public_key) (others : list public_key) : res Z :=
  compute_lagrange_coefficient E (pk_seq k) (map pk_seq (filter (fun o => negb (eqb (pk_owner o) (pk_owner k))) others)).
(** 674-686 compute_lagrange_coefficients_for_guardians *)
Definition lagrange_all (E : env) (ks : list public_key) : res (dict string Z) :=
  do l <- rmapM (fun k => do w <- lagrange_for E k ks; Ok (pk_owner k, w)) ks; Ok (dict_of l).

(** ** decrypt_with_shares.py *)
(** tally.py:25-37 PlaintextTallySelection, 73-79 PlaintextTallyContest, 171-177 PlaintextTally *)
Record plain_sel := mkPlainSel { pl_id : string; pl_tally : Z; pl_value : Z; pl_message : ciphertext; pl_shares : list dec_sel }.
Record plain_con := mkPlainCon { pn_id : string; pn_selections : dict string plain_sel }.
Record plain_tally := mkPlainTally { pt_id : string; pt_contests : dict string plain_con }.
(** 158-201 decrypt_selection_with_decryption_shares, with the validity check on *)
Definition decrypt_selection_shares (E : env) (s : string * ciphertext) (shares : dict string (Z * dec_sel)) (ext : Z) : res (option plain_sel) :=
  if negb (forallb (fun kd => dec_sel_valid E (snd kd) (snd s) (fst kd) ext) (dvals shares)) then Ok None
  else
    let product := mult_p E (map (fun kd => dc_share (snd kd)) (dvals shares)) in
    do value <- div_p E (ct_data (snd s)) product;
    do t <- dlog E value;
    Ok (Some (mkPlainSel (fst s) t value (snd s) (map snd (dvals shares)))).
(** 117-155 decrypt_contest_with_decryption_shares *)
Fixpoint decrypt_selections_shares (E : env) (shares : dict string dec_share) (ext : Z) (ids : list string) (remove : bool)
    (ss : list (string * ciphertext)) (d : dict string plain_sel) : res (option (dict string plain_sel)) :=
  match ss with
  | [] => Ok (Some d)
  | s :: ss' =>
    if negb (inb (fst s) ids) && remove then decrypt_selections_shares E shares ext ids remove ss' d
    else
      do o <- decrypt_selection_shares E s (get_shares_for_selection (fst s) shares) ext;
      match o with
      | None => Ok None
      | Some p => decrypt_selections_shares E shares ext ids remove ss' (dset (pl_id p) p d)
      end
  end.
Definition decrypt_contest_shares (E : env) (c : cipher_contest) (shares : dict string dec_share) (ext : Z) (desc : contest_desc) (remove : bool) : res (option plain_con) :=
  do o <- decrypt_selections_shares E shares ext (map sd_id (cd_selections desc)) remove (cc_selections c) [];
  Ok (match o with None => None | Some d => Some (mkPlainCon (cc_id c) d) end).
(** the loops 49-68 and 93-112 over the contests *)
Fixpoint decrypt_contests_shares (E : env) (shares : dict string dec_share) (ext : Z) (descs : dict string contest_desc) (remove : bool)
    (cs : list cipher_contest) (d : dict string plain_con) : res (option (dict string plain_con)) :=
  match cs with
  | [] => Ok (Some d)
  | c :: cs' =>
    match dget (cc_id c) descs with
    | None => decrypt_contests_shares E shares ext descs remove cs' d
    | Some desc =>
      do o <- decrypt_contest_shares E c shares ext desc remove;
      match o with
      | None => Ok None
      | Some p => decrypt_contests_shares E shares ext descs remove cs' (dset (cc_id c) p d)
      end
    end
  end.
Definition decrypt_shares (E : env) (id : string) (cs : list cipher_contest) (shares : dict string dec_share) (ext : Z) (m : manifest) (remove : bool) : res (option plain_tally) :=
  do o <- decrypt_contests_shares E shares ext (dict_of (map (fun d => (cd_id d, d)) (mf_contests m))) remove cs [];
  Ok (match o with None => None | Some d => Some (mkPlainTally id d) end).
(** 29-70 decrypt_tally *)
Definition decrypt_tally (E : env) (t : tally) (shares : dict string dec_share) (ext : Z) (m : manifest) (remove : bool) : res (option plain_tally) :=
  decrypt_shares E (ty_id t) (map tally_cc (dvals (ty_contests t))) shares ext m remove.
(** 73-114 decrypt_ballot *)
Definition decrypt_ballot (E : env) (b : sub_ballot) (shares : dict string dec_share) (ext : Z) (m : manifest) (remove : bool) : res (option plain_tally) :=
  decrypt_shares E (sb_id b) (map ballot_cc (cb_contests (sb_ballot b))) shares ext m remove.

(** ** guardian.py, the decryption half *)
(** 462-466 share_other_guardian_key *)
Definition gd_share_other_key (g : guardian) (id : string) : option public_key := dget id (gd_pubkeys g).
(** 468-482 compute_tally_share *)
Definition gd_tally_share (E : env) (up : nat -> bool) (rnd : nat -> nat -> Z) (g : guardian) (t : tally) (cx : context) : option dec_share :=
  compute_decryption_share E up rnd (gd_keys g) t cx.
(** 484-502 compute_ballot_shares; the first index of [up] and [rnd] counts the ballots *)
Definition gd_ballot_shares (E : env) (up : nat -> nat -> bool) (rnd : nat -> nat -> nat -> Z) (g : guardian) (bs : list sub_ballot) (cx : context)
  : dict string (option dec_share) :=
  dict_of (map (fun ib => (sb_id (snd ib), compute_decryption_share_for_ballot E (up (fst ib)) (rnd (fst ib)) (gd_keys g) (snd ib) cx)) (number bs)).
(** 504-534 compute_compensated_tally_share, 272-282 decrypt_backup *)
Definition gd_compensated_tally (E : env) (up : nat -> bool) (rnd : nat -> nat -> Z) (g : guardian) (missing : string) (t : tally) (cx : context) : res (option comp_share) :=
  match dget missing (gd_pubkeys g), dget missing (gd_backups g) with
  | Some mk, Some b =>
    do o <- decrypt_backup E b (gd_keys g);
    do y <- get_optional o;
    Ok (compute_compensated_share E up rnd y (share_key g) mk t cx)
  | _, _ => Ok None
  end.
(** 536-573 compute_compensated_ballot_shares: get_optional is called for each ballot, so with no ballots a
    backup that does not decrypt goes unnoticed *)
Definition gd_compensated_ballots (E : env) (up : nat -> nat -> bool) (rnd : nat -> nat -> nat -> Z) (g : guardian) (missing : string) (bs : list sub_ballot) (cx : context)
  : res (dict string (option comp_share)) :=
  let none := dict_of (map (fun b => (sb_id b, None)) bs) in
  match dget missing (gd_pubkeys g), dget missing (gd_backups g) with
  | Some mk, Some b =>
    do o <- decrypt_backup E b (gd_keys g);
    rfold (fun d ib => do y <- get_optional o;
      Ok (dset (sb_id (snd ib)) (compute_compensated_share_for_ballot E (up (fst ib)) (rnd (fst ib)) y mk (share_key g) (snd ib) cx) d)) (number bs) none
  | _, _ => Ok none
  end.
(** 579-587 get_valid_ballot_shares *)
Definition valid_ballot_shares {A} (d : dict string (option A)) : dict string A :=
  fold_left (fun acc kv => match snd kv with Some s => dset (fst kv) s acc | None => acc end) d [].

(** ** decryption_mediator.py *)
(** 25-61 DecryptionMediator *)
Record dmediator := mkDmed { dm_id : string; dm_context : context; dm_available : dict string public_key; dm_missing : dict string public_key;
  dm_tally : dict string dec_share; dm_ballots : dict string (dict string dec_share);
  dm_ctally : dict (string * string) comp_share; dm_cballots : dict string (dict (string * string) comp_share) }.
Definition new_dmediator (id : string) (cx : context) : dmediator := mkDmed id cx [] [] [] [] [] [].
Definition dm_with_tally (m : dmediator) d := mkDmed (dm_id m) (dm_context m) (dm_available m) (dm_missing m) d (dm_ballots m) (dm_ctally m) (dm_cballots m).
Definition dm_with_ballots (m : dmediator) d := mkDmed (dm_id m) (dm_context m) (dm_available m) (dm_missing m) (dm_tally m) d (dm_ctally m) (dm_cballots m).
Definition dm_with_missing (m : dmediator) d := mkDmed (dm_id m) (dm_context m) (dm_available m) d (dm_tally m) (dm_ballots m) (dm_ctally m) (dm_cballots m).
(** 319-331 _save_ballot_shares *)
Definition save_ballot_share (guardian : string) (d : dict string (dict string dec_share)) (kv : string * option dec_share) : dict string (dict string dec_share) :=
  let shares := match dget (fst kv) d with Some s => s | None => [] end in
  dset (fst kv) (match snd kv with Some s => dset guardian s shares | None => shares end) d.
(** 63-90 announce, 313-317 _save_tally_share, 333-340 _mark_available *)
Definition dm_announce (m : dmediator) (k : public_key) (share : dec_share) (ballots : option (dict string (option dec_share))) : dmediator :=
  let id := pk_owner k in
  if dmem id (dm_available m) then m
  else mkDmed (dm_id m) (dm_context m) (dset id k (dm_available m)) (dpop id (dm_missing m)) (dset id share (dm_tally m))
         (match ballots with None => dm_ballots m | Some bs => fold_left (save_ballot_share id) bs (dm_ballots m) end)
         (dm_ctally m) (dm_cballots m).
(** 92-105 announce_missing, 342-344 _mark_missing *)
Definition dm_announce_missing (m : dmediator) (k : public_key) : dmediator :=
  if dmem (pk_owner k) (dm_available m) then m else dm_with_missing m (dset (pk_owner k) k (dm_missing m)).
(** dataclass equality of ElectionPublicKey *)
Definition schnorr_eqb (a b : schnorr) : bool :=
  (s_key a =? s_key b) && (s_com a =? s_com b) && (s_chal a =? s_chal b) && (s_resp a =? s_resp b).
Definition public_key_eqb (a b : public_key) : bool :=
  eqb (pk_owner a) (pk_owner b) && (pk_seq a =? pk_seq b) && (pk_key a =? pk_key b)
  && list_eqb Z.eqb (pk_commitments a) (pk_commitments b) && list_eqb schnorr_eqb (pk_proofs a) (pk_proofs b).
(** 107-136 validate_missing_guardians *)
Fixpoint validate_missing_loop (ks : dict string public_key) (d : dict string public_key) : dict string public_key * bool :=
  match ks with
  | [] => (d, true)
  | (id, k) :: ks' =>
    match dget id d with
    | Some k' => if public_key_eqb k' k then validate_missing_loop ks' d else (d, false)
    | None => validate_missing_loop ks' (dset id k d)
    end
  end.
Definition dm_validate_missing (m : dmediator) (ks : list public_key) : dmediator * bool :=
  let missing := dict_of (map (fun k => (pk_owner k, k)) (filter (fun k => negb (dmem (pk_owner k) (dm_available m))) ks)) in
  let '(d, ok) := validate_missing_loop missing (dm_missing m) in (dm_with_missing m d, ok).
(** 138-157 announcement_complete *)
Definition announcement_complete (m : dmediator) : bool :=
  (cx_quorum (dm_context m) <=? len (dm_available m)) && (len (dm_available m) + len (dm_missing m) =? cx_guardians (dm_context m)).
(** 159-171 get_available_guardians, get_missing_guardians *)
Definition dm_get_available (m : dmediator) : list public_key := dvals (dm_available m).
Definition dm_get_missing (m : dmediator) : list public_key := dvals (dm_missing m).
(** 173-181 receive_tally_compensation_share *)
Definition dm_receive_tally (m : dmediator) (s : comp_share) : dmediator :=
  mkDmed (dm_id m) (dm_context m) (dm_available m) (dm_missing m) (dm_tally m) (dm_ballots m)
    (dset (csh_guardian s, csh_missing s) s (dm_ctally m)) (dm_cballots m).
(** 183-193 receive_ballot_compensation_shares *)
Definition dm_receive_ballots (m : dmediator) (d : dict string comp_share) : dmediator :=
  mkDmed (dm_id m) (dm_context m) (dm_available m) (dm_missing m) (dm_tally m) (dm_ballots m) (dm_ctally m)
    (fold_left (fun acc kv => dset (fst kv) (dset (csh_guardian (snd kv), csh_missing (snd kv)) (snd kv)
                                               (match dget (fst kv) acc with Some s => s | None => [] end)) acc) d (dm_cballots m)).
(** 353-364 _filter_by_missing_guardian *)
Definition filter_by_missing (missing : string) (d : dict (string * string) comp_share) : dict string comp_share :=
  fold_left (fun acc kv => if eqb (snd (fst kv)) missing then dset (fst (fst kv)) (snd kv) acc else acc) d [].
(** 200-222 reconstruct_shares_for_tally: the loop; shares reconstructed before an exception stay *)
Fixpoint reconstruct_tally_loop (E : env) (t : tally) (ctally : dict (string * string) comp_share) (lagrange : dict string Z)
    (missing : dict string public_key) (d : dict string dec_share) : dict string dec_share * res unit :=
  match missing with
  | [] => (d, Ok tt)
  | (id, k) :: missing' =>
    if dmem id d then reconstruct_tally_loop E t ctally lagrange missing' d
    else match reconstruct_share E k t (filter_by_missing id ctally) lagrange with
         | Err e => (d, Err e)
         | Ok s => reconstruct_tally_loop E t ctally lagrange missing' (dset id s d)
         end
  end.
Definition dm_reconstruct_tally (E : env) (m : dmediator) (t : tally) : dmediator * res unit :=
  match lagrange_all E (dvals (dm_available m)) with
  | Err e => (m, Err e)
  | Ok lagrange => let '(d, r) := reconstruct_tally_loop E t (dm_ctally m) lagrange (dm_missing m) (dm_tally m) in (dm_with_tally m d, r)
  end.
(** 224-256 reconstruct_shares_for_ballots *)
Fixpoint reconstruct_ballot_loop (E : env) (b : sub_ballot) (cballots : option (dict (string * string) comp_share)) (lagrange : dict string Z)
    (missing : dict string public_key) (d : dict string dec_share) : dict string dec_share * res unit :=
  match missing with
  | [] => (d, Ok tt)
  | (id, k) :: missing' =>
    if dmem id d then reconstruct_ballot_loop E b cballots lagrange missing' d
    else match cballots with
         | None => (d, Err KeyError)
         | Some cs =>
           match reconstruct_share_for_ballot E k b (filter_by_missing id cs) lagrange with
           | Err e => (d, Err e)
           | Ok s => reconstruct_ballot_loop E b cballots lagrange missing' (dset id s d)
           end
         end
  end.
Fixpoint reconstruct_ballots_loop (E : env) (m : dmediator) (lagrange : dict string Z) (bs : list sub_ballot) (d : dict string (dict string dec_share))
  : dict string (dict string dec_share) * res unit :=
  match bs with
  | [] => (d, Ok tt)
  | b :: bs' =>
    match dget (sb_id b) d with
    | None => (d, Err KeyError)
    | Some shares =>
      let '(shares', r) := reconstruct_ballot_loop E b (dget (sb_id b) (dm_cballots m)) lagrange (dm_missing m) shares in
      let d' := dset (sb_id b) shares' d in
      match r with
      | Err e => (d', Err e)
      | Ok _ => reconstruct_ballots_loop E m lagrange bs' d'
      end
    end
  end.
Definition dm_reconstruct_ballots (E : env) (m : dmediator) (bs : list sub_ballot) : dmediator * res unit :=
  match lagrange_all E (dvals (dm_available m)) with
  | Err e => (m, Err e)
  | Ok lagrange => let '(d, r) := reconstruct_ballots_loop E m lagrange bs (dm_ballots m) in (dm_with_ballots m d, r)
  end.
(** 346-350 _ready_to_decrypt *)
Definition ready_to_decrypt (m : dmediator) (shares : dict string dec_share) : bool := len shares =? cx_guardians (dm_context m).
(** 258-278 get_plaintext_tally *)
Definition dm_plaintext_tally (E : env) (m : dmediator) (t : tally) (mf : manifest) : res (option plain_tally) :=
  if negb (announcement_complete m) || negb (ready_to_decrypt m (dm_tally m)) then Ok None
  else decrypt_tally E t (dm_tally m) (cx_ext_hash (dm_context m)) mf true.
(** 280-311 get_plaintext_ballots *)
Fixpoint plaintext_ballots_loop (E : env) (m : dmediator) (mf : manifest) (bs : list sub_ballot) (d : dict string plain_tally) : res (dict string plain_tally) :=
  match bs with
  | [] => Ok d
  | b :: bs' =>
    match dget (sb_id b) (dm_ballots m) with
    | None | Some [] => plaintext_ballots_loop E m mf bs' d
    | Some shares =>
      if negb (ready_to_decrypt m shares) then plaintext_ballots_loop E m mf bs' d
      else
        do o <- decrypt_ballot E b shares (cx_ext_hash (dm_context m)) mf true;
        plaintext_ballots_loop E m mf bs' (match o with Some p => dset (pt_id p) p d | None => d end)
    end
  end.
Definition dm_plaintext_ballots (E : env) (m : dmediator) (bs : list sub_ballot) (mf : manifest) : res (option (dict string plain_tally)) :=
  if negb (announcement_complete m) then Ok None
  else do d <- plaintext_ballots_loop E m mf bs []; Ok (Some d).

(** ** electionguard_tools/helpers/tally_ceremony_orchestrator.py.  The pool and the draws are addressed by a
    path of indices: guardian, then 0 for the tally or 1 + the ballot's index, contest and selection; with the missing
    guardian's index second for compensated shares. *)
(** 60-96 announcement *)
Definition announce_one (E : env) (up : list nat -> bool) (rnd : list nat -> Z) (t : tally) (bs : list sub_ballot) (cx : context)
    (m : dmediator) (ig : nat * guardian) : res dmediator :=
  let '(i, g) := ig in
  do share <- get_optional (gd_tally_share E (fun c => up [i; 0%nat; c]) (fun c s => rnd [i; 0%nat; c; s]) g t cx);
  let ballots := valid_ballot_shares (gd_ballot_shares E (fun b c => up [i; S b; c]) (fun b c s => rnd [i; S b; c; s]) g bs cx) in
  Ok (dm_announce m (share_key g) share (Some (map (fun kv => (fst kv, Some (snd kv))) ballots))).
Definition announcement (E : env) (up : list nat -> bool) (rnd : list nat -> Z) (gs : list guardian) (all_keys : list public_key) (m : dmediator)
    (cx : context) (t : tally) (bs : list sub_ballot) : res dmediator :=
  do m1 <- rfold (announce_one E up rnd t bs cx) (number gs) m;
  let missing := filter (fun k => negb (inb (pk_owner k) (map gd_id gs))) all_keys in
  Ok (fold_left dm_announce_missing missing m1).
(** 99-133 exchange_compensated_decryption_shares *)
Definition exchange_one (E : env) (up : list nat -> bool) (rnd : list nat -> Z) (t : tally) (bs : list sub_ballot) (cx : context) (ig : nat * guardian)
    (m : dmediator) (ik : nat * public_key) : res dmediator :=
  let '(i, g) := ig in let '(j, k) := ik in
  do o <- gd_compensated_tally E (fun c => up [i; j; 0%nat; c]) (fun c s => rnd [i; j; 0%nat; c; s]) g (pk_owner k) t cx;
  let m1 := match o with Some s => dm_receive_tally m s | None => m end in
  do d <- gd_compensated_ballots E (fun b c => up [i; j; S b; c]) (fun b c s => rnd [i; j; S b; c; s]) g (pk_owner k) bs cx;
  Ok (dm_receive_ballots m1 (valid_ballot_shares d)).
Definition exchange (E : env) (up : list nat -> bool) (rnd : list nat -> Z) (gs : list guardian) (m : dmediator)
    (cx : context) (t : tally) (bs : list sub_ballot) : res dmediator :=
  let missing := dm_get_missing m in
  do m1 <- rfold (fun m ig => rfold (exchange_one E up rnd t bs cx ig) (number missing) m) (number gs) m;
  let '(m2, r) := dm_reconstruct_tally E m1 t in
  do _ <- r;
  let '(m3, r) := dm_reconstruct_ballots E m2 bs in
  do _ <- r; Ok m3.
(** 16-33 perform_decryption_setup *)
Definition decryption_setup (E : env) (up : list nat -> bool) (rnd : list nat -> Z) (gs : list guardian) (m : dmediator)
    (cx : context) (t : tally) (bs : list sub_ballot) : res dmediator :=
  announcement E up rnd gs (map share_key gs) m cx t bs.
(** 36-57 perform_compensated_decryption_setup *)
Definition compensated_setup (E : env) (up : list nat -> bool) (rnd : list nat -> Z) (gs : list guardian) (all_keys : list public_key) (m : dmediator)
    (cx : context) (t : tally) (bs : list sub_ballot) : res dmediator :=
  do m1 <- announcement E up rnd gs all_keys m cx t bs; exchange E up rnd gs m1 cx t bs.
