(** * SpecVerify: the plain vocabulary of the verification properties. *)
From Verif Require Import Base Group Codec Hash ElGamal ZK Spec Manifest Ballot Box Tally Ceremony Shares SpecTally.
From Coq Require Import List.

(** the plaintext shows the share [d] for the option [oid], of which [ct] is the ciphertext *)
Definition shown_share (p : plain_tally) (oid : string) (ct : ciphertext) (d : dec_sel) : Prop :=
  exists cid pc ps, In (cid, pc) (pt_contests p) /\ In (oid, ps) (pn_selections pc) /\ pl_message ps = ct /\ In d (pl_shares ps).
(** the share carries a proof that checks against the key and ciphertext *)
Definition proof_holds (E : env) (d : dec_sel) (ct : ciphertext) (key ext : Z) : Prop :=
  exists pf, dc_proof d = Some pf /\ cp_is_valid E pf ct key (dc_share d) ext = true.

(** two finite maps have the same keys, and values related by [R] *)
Definition same_map {V} (R : V -> V -> Prop) (a b : dict string V) : Prop :=
  forall k, match dget k a, dget k b with Some v, Some w => R v w | None, None => True | _, _ => False end.
(** the same contest: id, order, description hash, and for every option the same id, order, hash and ciphertext *)
Definition same_contest (a b : tally_contest) : Prop :=
  tc_id a = tc_id b /\ tc_seq a = tc_seq b /\ tc_hash a = tc_hash b /\ same_map eq (tc_selections a) (tc_selections b).
Definition same_ids (a b : list string) : Prop := forall i, In i a <-> In i b.
(** the same ballot ids and the same totals *)
Definition same_tally (a b : tally) : Prop :=
  same_ids (ty_cast a) (ty_cast b) /\ same_ids (ty_spoiled a) (ty_spoiled b) /\ same_map same_contest (ty_contests a) (ty_contests b).
(** a tally as Python holds it: keys of dictionaries are different *)
Definition tally_dicts (t : tally) : Prop :=
  NoDup (dkeys (ty_contests t)) /\ forall k c, In (k, c) (ty_contests t) -> NoDup (dkeys (tc_selections c)).
(** no call raised *)
Definition none_raised {A} (rs : list (res A)) : Prop := forall e, ~ In (Err e) rs.
(** append calls for these ballots with validation, with the pools [up i] during the i-th *)
Definition calls (up : nat -> nat -> bool) (bs : list sub_ballot) : list ((nat -> bool) * sub_ballot * bool) :=
  map (fun ib => (up (fst ib), snd ib, true)) (number bs).
(** the published keys of these guardians *)
Definition has_keys (keys : dict string public_key) (gs : list guardian) : Prop :=
  forall g, In g gs -> exists k, dget (pk_owner (share_key g)) keys = Some k /\ pk_key k = pk_key (share_key g).
(** each ballot appended with validation *)
Definition with_true (bs : list sub_ballot) : list (sub_ballot * bool) := map (fun b => (b, true)) bs.
(** the checks of the election do not raise for this ballot *)
Definition checks_answer (E : env) (im : internal_manifest) (cx : context) (b : sub_ballot) : Prop :=
  exists v, ballot_valid_for_election E (sb_ballot b) im cx true = Ok v.
