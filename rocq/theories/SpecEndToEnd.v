(** * SpecEndToEnd: the plain vocabulary of the whole election. *)
From Verif Require Import Base Group Hash ElGamal Manifest Ballot Encrypt SpecElection Box SpecTally.
From Coq Require Import List.

(** a voter: the ballot, whether it is cast or spoiled, and how the device encrypts it (code seed, nonce, whether
    the device checks its proofs, random value, time) *)
Record voter := mkVoter { vr_ballot : pt_ballot; vr_state : box_state; vr_seed : Z; vr_nonce : option Z;
  vr_verify : bool; vr_rand : Z; vr_now : Z }.
Definition vr_id (v : voter) : string := pb_id (vr_ballot v).
(** the voter's device produced [eb] *)
Definition encrypted_as (E : env) (im : internal_manifest) (cx : context) (v : voter) (eb : ct_ballot) : Prop :=
  encrypt_ballot E (vr_ballot v) im cx (vr_seed v) (vr_nonce v) (vr_verify v) (vr_rand v) (vr_now v) = Ok (Some eb).
(** the contest and option of the voter's ballot style with these ids, if there are any *)
Definition find_option (im : internal_manifest) (b : pt_ballot) (cid oid : string) : option (contest_ph * selection_desc) :=
  match get_contests_for im (pb_style b) with
  | Ok ds => match find (fun d => String.eqb (cd_id (ph_desc d)) cid) ds with
             | Some d => option_map (pair d) (find (fun o => String.eqb (sd_id o) oid) (cd_selections (ph_desc d)))
             | None => None
             end
  | Err _ => None
  end.
(** the voter's vote for an option: 0 if it is not on the ballot or the contest is overvoted, otherwise what the voter marked *)
Definition vote_for (im : internal_manifest) (b : pt_ballot) (cid oid : string) : Z :=
  match find_option im b cid oid with Some (d, o) => recorded_vote (voter_contest b d) d o | None => 0 end.
Definition on_ballot (im : internal_manifest) (b : pt_ballot) (cid oid : string) : Prop := find_option im b cid oid <> None.
Definition is_cast (v : voter) : bool := box_state_eqb (vr_state v) CAST.
Definition is_spoiled (v : voter) : bool := box_state_eqb (vr_state v) SPOILED.
(** the number of cast ballots that selected the option *)
Definition cast_count (im : internal_manifest) (vs : list voter) (cid oid : string) : Z :=
  len (filter (fun v => is_cast v && (vote_for im (vr_ballot v) cid oid =? 1)) vs).
(** the contests of the voter's style are in order and small enough to be proved *)
Definition usable_style (E : env) (im : internal_manifest) (b : pt_ballot) : Prop :=
  forall ds, get_contests_for im (pb_style b) = Ok ds ->
    ds <> [] /\ in_order ds /\ forall d, In d ds -> limit_fits E (cd_number_elected (ph_desc d)).
