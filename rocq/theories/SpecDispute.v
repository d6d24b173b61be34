(** * SpecDispute: what is said about disputed backups (C72). *)
From Verif Require Import Base Group Spec Codec Hash ElGamal ZK Poly Ceremony SpecCeremony.
Import List.

(** two different guardians *)
Definition two_of (ids : list string) (o r : string) : Prop := In o ids /\ In r ids /\ o <> r.
(** a call of the third or fourth round, by and about guardians of this ceremony; the reports themselves may be anything *)
Inductive late_call (ids : list string) : ceremony_call -> Prop :=
| late_reports vs : (forall v, In v vs -> In (vf_owner v) ids /\ In (vf_designated v) ids) -> late_call ids (SendVerifications vs)
| late_challenge c : In (ch_owner c) ids -> In (ch_designated c) ids -> late_call ids (SendChallenge c).
(** what a call says about backups: whose, for whom, and whether it is good; a challenge counts only if it checks out *)
Definition says (E : env) (c : ceremony_call) : list (string * string * bool) :=
  match c with
  | SendVerifications vs => map (fun v => (vf_owner v, vf_designated v, vf_verified v)) vs
  | SendChallenge c => match verify_polynomial_coordinate E (ch_value c) (ch_seq c) (ch_commitments c) with Ok true => [(ch_owner c, ch_designated c, true)] | _ => [] end
  | _ => []
  end.
(** the last word about the backup of [o] for [r] *)
Definition last_word (E : env) (h : list ceremony_call) (o r : string) : option bool :=
  option_map snd (find (fun x => eqb (fst x) (o, r)) (rev (flat_map (says E) h))).
(** the owner of a disputed backup answers *)
Definition answer (E : env) (gs : list guardian) (pair : string * string) : res challenge :=
  match find (fun g => eqb (gd_id g) (fst pair)) gs with
  | Some g => do c <- gd_publish_challenge E g (snd pair); get_optional c
  | None => Err KeyError
  end.
(** the key of the honest ceremony *)
Definition honest_key (E : env) (ss : list seat) : joint_key :=
  mkJoint (gexp E (sumZ (map st_secret ss))) (hash_elems E [HList (map HElem (flat_map (fun s => map (gexp E) (st_secrets s)) ss))]).
(** the guardians [gs] and the mediator [m] after the first two rounds *)
Definition two_rounds (E : env) (rnd : string -> string -> Z) (k : nat) (ss : list seat) (mid : string) (gs : list guardian) (m : mediator) : Prop :=
  exists gs0 r1, rmapM (fun s => guardian_from_nonce E (st_id s) (st_seq s) (len ss) (Z.of_nat k) (st_draws s)) ss = Ok gs0 /\
    round_1 gs0 (new_mediator mid (mkDetails (len ss) (Z.of_nat k))) = Ok r1 /\ round_2 E rnd (fst r1) (snd r1) = Ok (gs, m).
