(** * SpecCopy: copies of encrypted ballots. *)
From Verif Require Import Base Group Hash ElGamal Manifest Ballot Encrypt SpecElection Box SpecTally SpecEndToEnd.
From Coq Require Import List.

(** what anybody makes of a ballot of the record with make_ciphertext_submitted_ballot (ballot.py:993-1047): all that is in it, under another id *)
Definition copy_of (E : env) (b : ct_ballot) (id : string) : ct_ballot :=
  sb_ballot (make_submitted E id (cb_style b) (cb_manifest_hash b) (Some (cb_code_seed b)) (cb_contests b) (Some (cb_code b)) (Some (cb_timestamp b)) UNKNOWN 0).
(** a copy of the ballot that the device of a voter made, the id of the copy, and whether it is cast or spoiled *)
Record theft := mkTheft { th_voter : voter; th_ballot : ct_ballot; th_id : string; th_state : box_state }.
(** the thief takes the ballot as it is stored *)
Definition stolen (E : env) (t : theft) : ct_ballot := copy_of E (sb_ballot (submit_ballot E (th_ballot t) (vr_state (th_voter t)))) (th_id t).
(** the voters submit their ballots, and then the thieves theirs *)
Definition with_thefts (E : env) (vs : list voter) (ebs : list ct_ballot) (ts : list theft) : list (ct_ballot * box_state) :=
  combine ebs (map vr_state vs) ++ map (fun t => (stolen E t, th_state t)) ts.
(** the copies that are cast, and those of them that have a vote for an option *)
Definition cast_thefts (ts : list theft) : list theft := filter (fun t => box_state_eqb (th_state t) CAST) ts.
Definition stolen_count (im : internal_manifest) (ts : list theft) (cid oid : string) : Z :=
  len (filter (fun t => vote_for im (vr_ballot (th_voter t)) cid oid =? 1) (cast_thefts ts)).
(** the same with contests of two ballots, each contest taken from one of them *)
Inductive mixture : list ct_contest -> list ct_contest -> list ct_contest -> Prop :=
| mix_none : mixture [] [] []
| mix_next c1 c2 c l1 l2 l : bc_id c1 = bc_id c2 -> bc_seq c1 = bc_seq c2 -> c = c1 \/ c = c2 -> mixture l1 l2 l -> mixture (c1 :: l1) (c2 :: l2) (c :: l).
Definition mix_of (E : env) (b : ct_ballot) (cs : list ct_contest) (id : string) : ct_ballot :=
  sb_ballot (make_submitted E id (cb_style b) (cb_manifest_hash b) (Some (cb_code_seed b)) cs (Some (cb_code b)) (Some (cb_timestamp b)) UNKNOWN 0).
