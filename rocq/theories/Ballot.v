(** * Ballot: model of ballot.py, ballot_code.py, ballot_validator.py and election.py.
    Definitions only. *)
From Verif Require Import Base Group Codec Hash DLog ElGamal ZK Manifest.

(** ** Plaintext side *)
(** ballot.py:50-74 PlaintextBallotSelection *)
Record pt_selection := mkPsel {
  ps_id : string; ps_vote : Z; ps_placeholder : bool; ps_write_in : option string }.
(** ballot.py:76-93 PlaintextBallotSelection.is_valid *)
Definition pt_selection_is_valid (s : pt_selection) (expected_object_id : string) : bool :=
  eqb (ps_id s) expected_object_id && negb ((ps_vote s <? 0) || (1 <? ps_vote s)).

(** ballot.py:289-307 PlaintextBallotContest *)
Record pt_contest := mkPcon { pc_id : string; pc_selections : list pt_selection }.
(** ballot.py:309-315 selected_ids; the functools cache is not modelled (contests are not mutated) *)
Definition selected_ids (c : pt_contest) : list string :=
  map ps_id (filter (fun s => 0 <? ps_vote s) (pc_selections c)).
(** ballot.py:317-324 total_selected *)
Definition total_selected (c : pt_contest) : Z :=
  fold_left (fun prev s => prev + (if 0 <? ps_vote s then 1 else 0)) (pc_selections c) 0.
(** ballot.py:326-329 total_votes *)
Definition total_votes (c : pt_contest) : Z :=
  fold_left (fun prev s => prev + ps_vote s) (pc_selections c) 0.
(** ballot.py:331-338 write_ins *)
Definition write_ins (c : pt_contest) : option (dict string string) :=
  let d := dict_of (flat_map (fun s => match ps_write_in s with
                                       | Some w => [(ps_id s, w)] | None => [] end) (pc_selections c)) in
  match d with [] => None | _ => Some d end.

(** The outcome of ballot.py:340-385 PlaintextBallotContest.valid: normal return or the exception
    (utils.py:25-63) it raises. *)
Inductive contest_check :=
| CheckOk
| CheckNull                         (* NullVoteException *)
| CheckUnder                        (* UnderVoteException *)
| CheckOver (ids : list string)     (* OverVoteException *)
| CheckInvalid.                     (* any other ContestException *)
Definition pt_contest_valid (c : pt_contest) (d : contest_ph) : contest_check :=
  let desc := ph_desc d in
  if negb (eqb (pc_id c) (cd_id desc))
     || (len (cd_selections desc) <? len (pc_selections c))
     || negb (contest_ph_is_valid d)
  then CheckInvalid
  else if negb (forallb (fun s => inb (ps_id s) (map sd_id (cd_selections desc))) (pc_selections c))
  then CheckInvalid
  else if total_selected c <? 1 then CheckNull
  else if total_selected c <? cd_number_elected desc then CheckUnder
  else if cd_number_elected desc <? total_selected c then CheckOver (selected_ids c)
  else match cd_votes_allowed desc with
       | None => CheckOk
       | Some va =>
         if va <? total_votes c then CheckOver (selected_ids c)
         else if total_selected c <? va then CheckInvalid
         else CheckOk
       end.

(** ballot.py:387-437 PlaintextBallotContest.is_valid *)
Definition pt_contest_is_valid (c : pt_contest) (expected_object_id : string)
    (expected_number_selections expected_number_elected : Z) (votes_allowed : option Z) : bool :=
  let number_elected :=
    fold_left (fun n s => if 1 <=? ps_vote s then n + 1 else n) (pc_selections c) 0 in
  let votes := fold_left (fun n s => n + ps_vote s) (pc_selections c) 0 in
  if negb (eqb (pc_id c) expected_object_id) then false
  else if expected_number_selections <? len (pc_selections c) then false
  else if expected_number_elected <? number_elected then false
  else match votes_allowed with
       | Some va => if va <? votes then false else true
       | None => true
       end.

(** ballot.py:695-706 PlaintextBallot *)
Record pt_ballot := mkPbal { pb_id : string; pb_style : string; pb_contests : list pt_contest }.
(** ballot.py:708-723 PlaintextBallot.is_valid *)
Definition pt_ballot_is_valid (b : pt_ballot) (expected_style : string) : bool :=
  eqb (pb_style b) expected_style.

(** ** Ciphertext side *)
(** ballot.py:126-170 CiphertextBallotSelection *)
Record ct_selection := mkCsel {
  cs_id : string; cs_seq : Z; cs_desc_hash : Z; cs_ct : ciphertext; cs_hash : Z;
  cs_placeholder : bool; cs_nonce : option Z; cs_proof : option disj_proof }.
(** ballot.py:217-236 crypto_hash_with *)
Definition selection_hash (E : env) (object_id : string) (seed : Z) (c : ciphertext) : Z :=
  hash_elems E [HStr object_id; HElem seed; HElem (ct_hash E c)].
(** ballot.py:172-215 CiphertextBallotSelection.is_valid_encryption *)
Definition selection_is_valid_encryption (E : env) (s : ct_selection) (seed K Q : Z) : bool :=
  if negb (seed =? cs_desc_hash s) then false
  else if negb (cs_hash s =? selection_hash E (cs_id s) seed (cs_ct s)) then false
  else match cs_proof s with
       | None => false
       | Some pf => disj_is_valid E pf (cs_ct s) K Q
       end.
(** ballot.py:239-286 make_ciphertext_ballot_selection, with crypto_hash and proof not given *)
Definition make_ct_selection (E : env) (object_id : string) (seq desc_hash : Z) (c : ciphertext)
    (K Q proof_seed vote : Z) (placeholder : bool) (nonce : option Z) : res ct_selection :=
  let h := selection_hash E object_id desc_hash c in
  match nonce with
  | None => Ok (mkCsel object_id seq desc_hash c h placeholder None None)
  | Some n => do pf <- make_disjunctive E c n K Q proof_seed vote;
              Ok (mkCsel object_id seq desc_hash c h placeholder (Some n) (Some pf))
  end.

(** ballot.py:461-500 CiphertextBallotContest *)
Record ct_contest := mkCcon {
  bc_id : string; bc_seq : Z; bc_desc_hash : Z; bc_selections : list ct_selection;
  bc_acc : ciphertext; bc_hash : Z; bc_nonce : option Z; bc_proof : option const_proof;
  bc_ext : option hashed_ct }.
(** ballot.py:604-607 _ciphertext_ballot_elgamal_accumulate *)
Definition accumulate_selections (E : env) (ss : list ct_selection) : res ciphertext :=
  elgamal_add E (map cs_ct ss).
(** ballot.py:610-625 _ciphertext_ballot_context_crypto_hash *)
Definition contest_crypto_hash (E : env) (object_id : string) (ss : list ct_selection) (seed : Z) : Z :=
  match ss with
  | [] => 0
  | _ => hash_elems E (HStr object_id :: HElem seed
                       :: map (fun s => HElem (cs_hash s)) (sort_by cs_seq ss))
  end.
(** ballot.py:628-640 _ciphertext_ballot_contest_aggregate_nonce *)
Fixpoint all_nonces (ss : list ct_selection) : option (list Z) :=
  match ss with
  | [] => Some []
  | s :: ss' => match cs_nonce s, all_nonces ss' with
                | Some n, Some ns => Some (n :: ns) | _, _ => None end
  end.
Definition aggregate_nonce (E : env) (ss : list ct_selection) : option Z :=
  option_map (add_q E) (all_nonces ss).
(** ballot.py:546-601 CiphertextBallotContest.is_valid_encryption *)
Definition contest_is_valid_encryption (E : env) (c : ct_contest) (seed K Q : Z) : res bool :=
  if negb (seed =? bc_desc_hash c) then Ok false
  else if negb (bc_hash c =? contest_crypto_hash E (bc_id c) (bc_selections c) seed) then Ok false
  else match bc_proof c with
       | None => Ok false
       | Some pf =>
         do acc <- accumulate_selections E (bc_selections c);
         if negb (ct_eqb (bc_acc c) acc) then Ok false
         else Ok (const_is_valid E pf acc K Q)
       end.
(** ballot.py:643-692 make_ciphertext_ballot_contest, with crypto_hash and proof not given *)
Definition make_ct_contest (E : env) (object_id : string) (seq desc_hash : Z) (ss : list ct_selection)
    (K Q proof_seed number_elected : Z) (nonce : option Z) (ext : option hashed_ct) : res ct_contest :=
  let h := contest_crypto_hash E object_id ss desc_hash in
  let aggregate := aggregate_nonce E ss in
  do acc <- accumulate_selections E ss;
  let pf := option_map (fun ag => make_constant E acc number_elected ag K proof_seed Q) aggregate in
  Ok (mkCcon object_id seq desc_hash ss acc h nonce pf ext).

(** ballot.py:736-772 CiphertextBallot *)
Record ct_ballot := mkCbal {
  cb_id : string; cb_style : string; cb_manifest_hash : Z; cb_code_seed : Z;
  cb_contests : list ct_contest; cb_code : Z; cb_timestamp : Z; cb_hash : Z; cb_nonce : option Z }.
(** ballot.py:791-799 nonce_seed *)
Definition ballot_nonce_seed (E : env) (manifest_hash : Z) (object_id : string) (nonce : Z) : Z :=
  hash_elems E [HElem manifest_hash; HStr object_id; HElem nonce].
(** ballot.py:801-813 hashed_ballot_nonce *)
Definition hashed_ballot_nonce (E : env) (b : ct_ballot) : option Z :=
  option_map (ballot_nonce_seed E (cb_manifest_hash b) (cb_id b)) (cb_nonce b).
(** ballot.py:815-831 crypto_hash_with: contests in ballot order *)
Definition ballot_crypto_hash_with (E : env) (b : ct_ballot) (seed : Z) : Z :=
  match cb_contests b with
  | [] => 0
  | cs => hash_elems E (HStr (cb_id b) :: HElem seed :: map (fun c => HElem (bc_hash c)) cs)
  end.
(** ballot.py:868-887: every check is evaluated, so an exception propagates even after a failure *)
Definition contest_checks (E : env) (c : ct_contest) (K Q : Z) : res bool :=
  let sels := forallb (fun s => selection_is_valid_encryption E s (cs_desc_hash s) K Q) (bc_selections c) in
  do v <- contest_is_valid_encryption E c (bc_desc_hash c) K Q;
  Ok (sels && v).
(** ballot.py:833-887 CiphertextBallot.is_valid_encryption *)
Definition ballot_is_valid_encryption (E : env) (b : ct_ballot) (seed K Q : Z) : res bool :=
  if negb (seed =? cb_manifest_hash b) then Ok false
  else if negb (cb_hash b =? ballot_crypto_hash_with E b seed) then Ok false
  else do vs <- rmapM (fun c => contest_checks E c K Q) (cb_contests b);
       Ok (forallb (fun v => v) vs).

(** ballot_code.py:5-17 get_hash_for_device *)
Definition get_hash_for_device (E : env) (device_id session_id launch_code : Z) (location : string) : Z :=
  hash_elems E [HInt device_id; HInt session_id; HInt launch_code; HStr location].
(** ballot_code.py:20-30 get_ballot_code *)
Definition get_ballot_code (E : env) (prev_code timestamp ballot_hash : Z) : Z :=
  hash_elems E [HElem prev_code; HInt timestamp; HElem ballot_hash].

(** ballot.py:982-990 create_ballot_hash: contests sorted by sequence_order *)
Definition create_ballot_hash (E : env) (ballot_id : string) (desc_hash : Z) (cs : list ct_contest) : Z :=
  hash_elems E (HStr ballot_id :: HElem desc_hash
                :: map (fun c => HElem (bc_hash c)) (sort_by bc_seq cs)).
(** ballot.py:935-979 make_ciphertext_ballot; [now] is the clock value used when no timestamp is given *)
Definition make_ct_ballot (E : env) (object_id style_id : string) (manifest_hash : Z)
    (code_seed : option Z) (contests : list ct_contest) (nonce timestamp code : option Z) (now : Z)
  : ct_ballot :=
  let h := create_ballot_hash E object_id manifest_hash contests in
  let ts := match timestamp with Some t => t | None => now end in
  let seed := match code_seed with Some s => s | None => manifest_hash end in
  let code := match code with Some c => c | None => get_ballot_code E seed ts h end in
  mkCbal object_id style_id manifest_hash seed contests code ts h nonce.

(** ballot.py:890-906 BallotBoxState *)
Inductive box_state := CAST | SPOILED | UNKNOWN.
Definition box_state_eqb (a b : box_state) : bool :=
  match a, b with CAST, CAST | SPOILED, SPOILED | UNKNOWN, UNKNOWN => true | _, _ => false end.
(** ballot.py:909-922 SubmittedBallot: a ciphertext ballot with a state *)
Record sub_ballot := mkSub { sb_ballot : ct_ballot; sb_state : box_state }.
Definition sb_id (b : sub_ballot) : string := cb_id (sb_ballot b).

(** ballot.py:1027-1034: replace(selection, nonce=None), replace(contest, nonce=None, ...) *)
Definition strip_selection (s : ct_selection) : ct_selection :=
  mkCsel (cs_id s) (cs_seq s) (cs_desc_hash s) (cs_ct s) (cs_hash s) (cs_placeholder s) None (cs_proof s).
Definition strip_contest (c : ct_contest) : ct_contest :=
  mkCcon (bc_id c) (bc_seq c) (bc_desc_hash c) (map strip_selection (bc_selections c))
         (bc_acc c) (bc_hash c) None (bc_proof c) (bc_ext c).
(** ballot.py:993-1047 make_ciphertext_submitted_ballot *)
Definition make_submitted (E : env) (object_id style_id : string) (manifest_hash : Z)
    (code_seed : option Z) (contests : list ct_contest) (code timestamp : option Z)
    (state : box_state) (now : Z) : sub_ballot :=
  let h := create_ballot_hash E object_id manifest_hash contests in
  let ts := match timestamp with Some t => t | None => now end in
  let seed := match code_seed with Some s => s | None => manifest_hash end in
  let code := match code with Some c => c | None => get_ballot_code E seed ts h end in
  mkSub (mkCbal object_id style_id manifest_hash seed (map strip_contest contests) code ts h None) state.

(** ** election.py:33-139 *)
Record context := mkContext {
  cx_guardians : Z; cx_quorum : Z; cx_key : Z; cx_commitment_hash : Z; cx_manifest_hash : Z;
  cx_base_hash : Z; cx_ext_hash : Z }.
(** election.py:87-139 make_ciphertext_election_context (extended_data and configuration are carried
    along unused by the modelled code and are left out) *)
Definition make_context (E : env) (n k key commitment_hash manifest_hash : Z) : context :=
  let base := hash_elems E [HElem (pp E); HElem (qq E); HElem (gg E); HInt n; HInt k; HElem manifest_hash] in
  mkContext n k key commitment_hash manifest_hash base (hash_elems E [HElem base; HElem commitment_hash]).

(** ** ballot_validator.py *)
(** 38-56 selection_is_valid_for_style *)
Definition selection_valid_for_style (E : env) (s : ct_selection) (d : selection_desc) : bool :=
  cs_desc_hash s =? selection_desc_hash E d.
(** 59-87 contest_is_valid_for_style *)
Definition contest_valid_for_style (E : env) (c : ct_contest) (d : contest_ph) : bool :=
  (bc_desc_hash c =? contest_hash E (ph_desc d))
  && (len (bc_selections c) =? len (cd_selections (ph_desc d)) + len (ph_placeholders d)).
(** 101-133: the checks for one contest description *)
Definition style_contest_ok (E : env) (b : ct_ballot) (d : contest_ph) : bool :=
  match find_first (fun c => eqb (cd_id (ph_desc d)) (bc_id c)) (cb_contests b) with
  | None => false
  | Some c =>
    contest_valid_for_style E c d
    && forallb (fun sd => match find_first (fun s => eqb (sd_id sd) (cs_id s)) (bc_selections c) with
                          | None => false
                          | Some s => selection_valid_for_style E s sd
                          end) (cd_selections (ph_desc d))
  end.
(** 90-135 ballot_is_valid_for_style *)
Definition ballot_valid_for_style (E : env) (b : ct_ballot) (im : internal_manifest) : res bool :=
  do ds <- get_contests_for im (cb_style b);
  Ok (forallb (style_contest_ok E b) ds).
(** 11-35 ballot_is_valid_for_election *)
Definition ballot_valid_for_election (E : env) (b : ct_ballot) (im : internal_manifest) (cx : context)
    (should_validate : bool) : res bool :=
  do st <- ballot_valid_for_style E b im;
  if negb st then Ok false
  else if should_validate then
    do v <- ballot_is_valid_encryption E b (im_hash im) (cx_key cx) (cx_ext_hash cx);
    Ok v
  else Ok true.
