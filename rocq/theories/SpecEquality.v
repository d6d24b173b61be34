(** * SpecEquality: what the statements of C68 say, with no reference to how [==] is computed. *)
From Coq Require Import List QArith Permutation.
From Verif Require Import Base Group Codec Hash ElGamal ZK Manifest Ballot.
Local Open Scope list_scope.

(** the second list, in some order, answers the first one element by element *)
Definition pairs_up {A} (R : A -> A -> Prop) (l l' : list A) : Prop :=
  exists k, Permutation l' k /\ Forall2 R l k.

(** two contests that agree on everything but their ids, the order of their selections, and the
    parties of a primary *)
Definition same_contest (a b : contest_desc) : Prop :=
  cd_district a = cd_district b /\ cd_seq a = cd_seq b /\ cd_vote_variation a = cd_vote_variation b /\
  cd_number_elected a = cd_number_elected b /\ cd_votes_allowed a = cd_votes_allowed b /\
  cd_name a = cd_name b /\ Permutation (cd_selections a) (cd_selections b) /\
  cd_title a = cd_title b /\ cd_subtitle a = cd_subtitle b.

(** two manifests that say the same but for: the version of the specification, the order of the
    lists, and what the relation R leaves open between two contests *)
Definition same_manifest (R : contest_desc -> contest_desc -> Prop) (a b : manifest) : Prop :=
  mf_scope_id a = mf_scope_id b /\ mf_type a = mf_type b /\ mf_start a = mf_start b /\ mf_end a = mf_end b /\
  Permutation (mf_gp_units a) (mf_gp_units b) /\ Permutation (mf_parties a) (mf_parties b) /\
  Permutation (mf_candidates a) (mf_candidates b) /\ pairs_up R (mf_contests a) (mf_contests b) /\
  Permutation (mf_styles a) (mf_styles b) /\ mf_name a = mf_name b /\ mf_contact a = mf_contact b.

(** a contest that was only put in another order *)
Definition reordered_contest (a b : contest_desc) : Prop :=
  a = b \/
  (cd_id a = cd_id b /\ same_contest a b /\ (cd_primary_party_ids a = None \/ cd_primary_party_ids b = None) /\
   NoDup (map sd_id (cd_selections a))).

(** no two units, parties, candidates, contests or styles of the manifest have one id *)
Definition ids_differ (m : manifest) : Prop :=
  NoDup (map gu_id (mf_gp_units m)) /\ NoDup (map pa_id (mf_parties m)) /\
  NoDup (map ca_id (mf_candidates m)) /\ NoDup (map cd_id (mf_contests m)) /\
  NoDup (map bs_id (mf_styles m)).

(** two manifests that list the same ids in the same order *)
Definition same_order (a b : manifest) : Prop :=
  map gu_id (mf_gp_units a) = map gu_id (mf_gp_units b) /\ map pa_id (mf_parties a) = map pa_id (mf_parties b) /\
  map bs_id (mf_styles a) = map bs_id (mf_styles b) /\
  map (fun c => (cd_id c, map sd_id (cd_selections c))) (mf_contests a)
  = map (fun c => (cd_id c, map sd_id (cd_selections c))) (mf_contests b).

(** no contest of the manifest is a CandidateContestDescription *)
Definition plain (m : manifest) : Prop :=
  Forall (fun c => cd_primary_party_ids c = None) (mf_contests m).

Definition rename_contest (f : string -> string) (c : contest_desc) : contest_desc :=
  mkContest (f (cd_id c)) (cd_seq c) (cd_district c) (cd_vote_variation c) (cd_number_elected c)
    (cd_votes_allowed c) (cd_name c) (cd_selections c) (cd_title c) (cd_subtitle c) (cd_primary_party_ids c).
Definition with_contests (m : manifest) (cs : list contest_desc) : manifest :=
  mkManifest (mf_scope_id m) (mf_spec_version m) (mf_type m) (mf_start m) (mf_end m) (mf_gp_units m)
    (mf_parties m) (mf_candidates m) cs (mf_styles m) (mf_name m) (mf_contact m).
Definition with_candidates (m : manifest) (version : string) (cs : list candidate) : manifest :=
  mkManifest (mf_scope_id m) version (mf_type m) (mf_start m) (mf_end m) (mf_gp_units m)
    (mf_parties m) cs (mf_contests m) (mf_styles m) (mf_name m) (mf_contact m).

(** ** Ballots *)
(** two plaintext contests with the same selections; nothing is said of the contests' ids *)
Definition same_votes (a b : pt_contest) : Prop := Permutation (pc_selections a) (pc_selections b).
(** what the voter chose on a ballot, contest by contest *)
Definition choices (b : pt_ballot) : list (string * list string) :=
  map (fun c => (pc_id c, selected_ids c)) (pb_contests b).
(** every contest and every selection of the ballot is one of the manifest *)
Definition on_manifest (m : manifest) (b : pt_ballot) : Prop :=
  Forall (fun c => exists d, In d (mf_contests m) /\ cd_id d = pc_id c /\
    Forall (fun s => In (ps_id s) (map sd_id (cd_selections d))) (pc_selections c)) (pb_contests b).

(** two encrypted contests that agree on all but the order of the selections, the sequence order, the
    accumulation and the extended data *)
Definition same_encrypted_contest (a b : ct_contest) : Prop :=
  bc_id a = bc_id b /\ Permutation (bc_selections a) (bc_selections b) /\
  bc_desc_hash a = bc_desc_hash b /\ bc_hash a = bc_hash b /\ bc_nonce a = bc_nonce b /\ bc_proof a = bc_proof b.
Definition same_encrypted (a b : ct_ballot) : Prop :=
  cb_id a = cb_id b /\ cb_style a = cb_style b /\ cb_manifest_hash a = cb_manifest_hash b /\
  cb_code_seed a = cb_code_seed b /\ pairs_up same_encrypted_contest (cb_contests a) (cb_contests b) /\
  cb_code a = cb_code b /\ cb_timestamp a = cb_timestamp b /\ cb_hash a = cb_hash b /\ cb_nonce a = cb_nonce b.
(** no two contests of the ballot, and no two selections of a contest, have one id *)
Definition ballot_ids_differ (b : ct_ballot) : Prop :=
  NoDup (map bc_id (cb_contests b)) /\
  Forall (fun c => NoDup (map cs_id (bc_selections c))) (cb_contests b).
