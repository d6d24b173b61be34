(** * Verify: model of electionguard_verify/verify.py.  Definitions only. *)
From Verif Require Import Base Group Codec Hash DLog ElGamal ZK Manifest Ballot Box Tally Ceremony Shares.
Local Open Scope string_scope.

(** 16-23 Verification *)
Record verification := mkVer { vn_ok : bool; vn_message : option string }.
Definition verified : verification := mkVer true None.
Definition rejected (msg : string) : verification := mkVer false (Some msg).

(** 26-45 verify_ballot *)
Definition verify_ballot (E : env) (b : ct_ballot) (m : manifest) (cx : context) : res verification :=
  do ok <- ballot_is_valid_encryption E b (manifest_hash E m) (cx_key cx) (cx_ext_hash cx);
  Ok (if ok : bool then verified else rejected ("verify_ballot: mismatching ballot encryption " ++ cb_id b)).

(** 55-62, one share: [.get(id).key] of an unknown guardian and [.is_valid] of a missing proof raise *)
Definition verify_share (E : env) (keys : dict string public_key) (cx : context) (msg : ciphertext) (d : dec_sel) : res bool :=
  match dget (dc_guardian d) keys with
  | None => Err AttributeError
  | Some k =>
    match dc_proof d with
    | None => Err AttributeError
    | Some pf => Ok (cp_is_valid E pf msg (pk_key k) (dc_share d) (cx_ext_hash cx))
    end
  end.
(** 54-66 the three loops; None: all passed, Some id: the selection id in the message *)
Fixpoint verify_shares (E : env) (keys : dict string public_key) (cx : context) (id : string) (msg : ciphertext) (ds : list dec_sel) : res (option string) :=
  match ds with
  | [] => Ok None
  | d :: ds' => do ok <- verify_share E keys cx msg d; if ok : bool then verify_shares E keys cx id msg ds' else Ok (Some id)
  end.
Fixpoint verify_selections (E : env) (keys : dict string public_key) (cx : context) (ss : dict string plain_sel) : res (option string) :=
  match ss with
  | [] => Ok None
  | (id, s) :: ss' =>
    do o <- verify_shares E keys cx id (pl_message s) (pl_shares s);
    match o with Some i => Ok (Some i) | None => verify_selections E keys cx ss' end
  end.
Fixpoint verify_contests (E : env) (keys : dict string public_key) (cx : context) (cs : dict string plain_con) : res (option string) :=
  match cs with
  | [] => Ok None
  | (_, c) :: cs' =>
    do o <- verify_selections E keys cx (pn_selections c);
    match o with Some i => Ok (Some i) | None => verify_contests E keys cx cs' end
  end.
(** 48-68 verify_decryption *)
Definition verify_decryption (E : env) (p : plain_tally) (keys : dict string public_key) (cx : context) : res verification :=
  do o <- verify_contests E keys cx (pt_contests p);
  Ok (match o with None => verified | Some id => rejected ("verify_decryption: " ++ id ++ " selection is not valid") end).

(** equality of two dictionaries: the same keys with equal values, in any order *)
Definition dict_eqb {V} (f : V -> V -> bool) (a b : dict string V) : bool :=
  (len a =? len b)%Z && forallb (fun kv => match dget (fst kv) b with Some v => f (snd kv) v | None => false end) a.
(** dataclass equality of CiphertextTallySelection (tally.py:41-60) and CiphertextTallyContest (tally.py:82-97) *)
Definition tally_selection_eqb (a b : tally_selection) : bool :=
  eqb (ts_id a) (ts_id b) && (ts_seq a =? ts_seq b)%Z && (ts_hash a =? ts_hash b)%Z && ct_eqb (ts_ct a) (ts_ct b).
Definition tally_contest_eqb (a b : tally_contest) : bool :=
  eqb (tc_id a) (tc_id b) && (tc_seq a =? tc_seq b)%Z && (tc_hash a =? tc_hash b)%Z && dict_eqb tally_selection_eqb (tc_selections a) (tc_selections b).
(** 79-80: the answers of append are ignored, its exceptions are not; [up i c]: the pool works for the c-th
    contest of the i-th ballot *)
Fixpoint append_all (E : env) (up : nat -> nat -> bool) (i : nat) (bs : list sub_ballot) (t : tally) : res tally :=
  match bs with
  | [] => Ok t
  | b :: bs' => let '(t', r) := append E (up i) t b true in do _ <- r; append_all E up (S i) bs' t'
  end.
(** 71-97 verify_aggregation; the tally is a CiphertextTally, so the isinstance test passes *)
Definition verify_aggregation (E : env) (up : nat -> nat -> bool) (bs : list sub_ballot) (t : tally) (m : manifest) (cx : context) : res verification :=
  do im <- make_internal E m;
  do n <- append_all E up 0 bs (new_tally E "verify" im cx);
  Ok (if set_eqb (ty_cast n) (ty_cast t) && set_eqb (ty_spoiled n) (ty_spoiled t) && dict_eqb tally_contest_eqb (ty_contests n) (ty_contests t)
      then verified
      else rejected "verify_aggregation: aggregated value of ballots doesn't matches with tally").
