(** * Equality: model of the comparison [==] of manifests and ballots.  Definitions only.
    The isinstance tests are the types of the model.  Datetimes are compared as the texts that stand
    for them (Manifest.v). *)
From Coq Require Import List QArith Permutation.
From Verif Require Import Base Group Codec Hash ElGamal ZK Manifest Ballot.
Local Open Scope list_scope.
Local Open Scope Z_scope.

(** sorted(l, key=lambda x: x.object_id): Python's sort is stable and compares the texts *)
Fixpoint insert_id {A} (key : A -> string) (x : A) (l : list A) : list A :=
  match l with
  | [] => [x]
  | y :: l' => if String.leb (key x) (key y) then x :: l else y :: insert_id key x l'
  end.
Definition sort_id {A} (key : A -> string) (l : list A) : list A := fold_right (insert_id key) [] l.

(** election_object_base.py:35-45 list_eq *)
Definition list_eq {A} (key : A -> string) (same : A -> A -> bool) (l1 l2 : list A) : bool :=
  list_eqb same (sort_id key l1) (sort_id key l2).

(** The comparison @dataclass(eq=True) generates: every field.  It is written below for each class
    with the help of these two, for a field that may be None and for a field that is a list. *)
Definition opt_eqb {A} (same : A -> A -> bool) (a b : option A) : bool :=
  match a, b with Some x, Some y => same x y | None, None => true | _, _ => false end.
Definition strs_eqb : list string -> list string -> bool := list_eqb eqb.

(** manifest.py:99-100 AnnotatedString *)
Definition annotated_eq (a b : annotated) : bool :=
  eqb (an_annotation a) (an_annotation b) && eqb (an_value a) (an_value b).
(** manifest.py:128-129 Language *)
Definition language_eq (a b : language) : bool :=
  eqb (la_value a) (la_value b) && eqb (la_language a) (la_language b).
(** manifest.py:157-158 InternationalizedText *)
Definition i18n_eq (a b : i18n) : bool := list_eqb language_eq a b.
(** manifest.py:183-184 ContactInformation *)
Definition contact_eq (a b : contact) : bool :=
  opt_eqb strs_eqb (co_address a) (co_address b)
  && opt_eqb (list_eqb annotated_eq) (co_email a) (co_email b)
  && opt_eqb (list_eqb annotated_eq) (co_phone a) (co_phone b)
  && opt_eqb eqb (co_name a) (co_name b).
(** manifest.py:217-218 GeopoliticalUnit *)
Definition gp_unit_eq (a b : gp_unit) : bool :=
  eqb (gu_id a) (gu_id b) && eqb (gu_name a) (gu_name b) && eqb (gu_type a) (gu_type b)
  && opt_eqb contact_eq (gu_contact a) (gu_contact b).
(** manifest.py:239-240 BallotStyle *)
Definition style_eq (a b : ballot_style) : bool :=
  eqb (bs_id a) (bs_id b) && opt_eqb strs_eqb (bs_gp_unit_ids a) (bs_gp_unit_ids b)
  && opt_eqb strs_eqb (bs_party_ids a) (bs_party_ids b) && opt_eqb eqb (bs_image_uri a) (bs_image_uri b).
(** manifest.py:259-260 Party *)
Definition party_eq (a b : party) : bool :=
  eqb (pa_id a) (pa_id b) && i18n_eq (pa_name a) (pa_name b)
  && opt_eqb eqb (pa_abbreviation a) (pa_abbreviation b)
  && opt_eqb eqb (pa_color a) (pa_color b) && opt_eqb eqb (pa_logo_uri a) (pa_logo_uri b).
(** manifest.py:291-292 Candidate *)
Definition candidate_eq (a b : candidate) : bool :=
  eqb (ca_id a) (ca_id b) && i18n_eq (ca_name a) (ca_name b)
  && opt_eqb eqb (ca_party_id a) (ca_party_id b) && opt_eqb eqb (ca_image_uri a) (ca_image_uri b)
  && opt_eqb Bool.eqb (ca_is_write_in a) (ca_is_write_in b).
(** manifest.py:322-323 SelectionDescription *)
Definition sel_eq (a b : selection_desc) : bool :=
  eqb (sd_id a) (sd_id b) && (sd_seq a =? sd_seq b) && eqb (sd_candidate_id a) (sd_candidate_id b).

(** manifest.py:386-398 ContestDescription.__eq__: the id of the contest is not looked at *)
Definition plain_contest_eq (a b : contest_desc) : bool :=
  eqb (cd_district a) (cd_district b) && (cd_seq a =? cd_seq b)
  && eqb (cd_vote_variation a) (cd_vote_variation b)
  && (cd_number_elected a =? cd_number_elected b)
  && opt_eqb Z.eqb (cd_votes_allowed a) (cd_votes_allowed b)
  && eqb (cd_name a) (cd_name b)
  && list_eq sd_id sel_eq (cd_selections a) (cd_selections b)
  && opt_eqb i18n_eq (cd_title a) (cd_title b) && opt_eqb i18n_eq (cd_subtitle a) (cd_subtitle b).
(** manifest.py:494-495: two CandidateContestDescriptions are compared by the generated comparison *)
Definition candidate_contest_eq (a b : contest_desc) (pa pb : list string) : bool :=
  eqb (cd_id a) (cd_id b) && (cd_seq a =? cd_seq b) && eqb (cd_district a) (cd_district b)
  && eqb (cd_vote_variation a) (cd_vote_variation b)
  && (cd_number_elected a =? cd_number_elected b)
  && opt_eqb Z.eqb (cd_votes_allowed a) (cd_votes_allowed b)
  && eqb (cd_name a) (cd_name b)
  && list_eqb sel_eq (cd_selections a) (cd_selections b)
  && opt_eqb i18n_eq (cd_title a) (cd_title b) && opt_eqb i18n_eq (cd_subtitle a) (cd_subtitle b)
  && strs_eqb pa pb.
(** a == b.  When only one of the two is of the subclass the generated comparison answers
    NotImplemented, and Python asks the other one, which accepts any ContestDescription.
    Simplification: a ReferendumContestDescription is read as a plain ContestDescription (Manifest.v
    does not tell them apart). *)
Definition contest_eq (a b : contest_desc) : bool :=
  match cd_primary_party_ids a, cd_primary_party_ids b with
  | Some pa, Some pb => candidate_contest_eq a b pa pb
  | Some _, None => plain_contest_eq b a
  | None, _ => plain_contest_eq a b
  end.

(** manifest.py:635-649 Manifest.__eq__: the version of the specification is not looked at *)
Definition manifest_eq (a b : manifest) : bool :=
  eqb (mf_scope_id a) (mf_scope_id b) && eqb (mf_type a) (mf_type b)
  && eqb (mf_start a) (mf_start b) && eqb (mf_end a) (mf_end b)
  && list_eq gu_id gp_unit_eq (mf_gp_units a) (mf_gp_units b)
  && list_eq pa_id party_eq (mf_parties a) (mf_parties b)
  && list_eq ca_id candidate_eq (mf_candidates a) (mf_candidates b)
  && list_eq cd_id contest_eq (mf_contests a) (mf_contests b)
  && list_eq bs_id style_eq (mf_styles a) (mf_styles b)
  && opt_eqb i18n_eq (mf_name a) (mf_name b) && opt_eqb contact_eq (mf_contact a) (mf_contact b).

(** ballot.py:95-102 PlaintextBallotSelection.__eq__ *)
Definition pt_selection_eq (a b : pt_selection) : bool :=
  eqb (ps_id a) (ps_id b) && (ps_vote a =? ps_vote b)
  && Bool.eqb (ps_placeholder a) (ps_placeholder b) && opt_eqb eqb (ps_write_in a) (ps_write_in b).
(** ballot.py:439-442 PlaintextBallotContest.__eq__: the id of the contest is not looked at *)
Definition pt_contest_eq (a b : pt_contest) : bool :=
  list_eq ps_id pt_selection_eq (pc_selections a) (pc_selections b).
(** ballot.py:725-730 PlaintextBallot.__eq__: the id of the ballot is not looked at *)
Definition pt_ballot_eq (a b : pt_ballot) : bool :=
  eqb (pb_style a) (pb_style b) && list_eq pc_id pt_contest_eq (pb_contests a) (pb_contests b).

(** chaum_pedersen.py:31-52 DisjunctiveChaumPedersenProof, a dataclass *)
Definition disj_eq (a b : disj_proof) : bool :=
  (d_a0 a =? d_a0 b) && (d_b0 a =? d_b0 b) && (d_a1 a =? d_a1 b) && (d_b1 a =? d_b1 b)
  && (d_c0 a =? d_c0 b) && (d_c1 a =? d_c1 b) && (d_c a =? d_c b)
  && (d_v0 a =? d_v0 b) && (d_v1 a =? d_v1 b).
(** chaum_pedersen.py:258-275 ConstantChaumPedersenProof, a dataclass *)
Definition const_eq (a b : const_proof) : bool :=
  (cc_a a =? cc_a b) && (cc_b a =? cc_b b) && (cc_c a =? cc_c b) && (cc_v a =? cc_v b)
  && (cc_constant a =? cc_constant b).
(** ballot.py:126-170 CiphertextBallotSelection: every field *)
Definition ct_selection_eq (a b : ct_selection) : bool :=
  eqb (cs_id a) (cs_id b) && (cs_seq a =? cs_seq b) && (cs_desc_hash a =? cs_desc_hash b)
  && ct_eqb (cs_ct a) (cs_ct b) && (cs_hash a =? cs_hash b)
  && Bool.eqb (cs_placeholder a) (cs_placeholder b)
  && opt_eqb Z.eqb (cs_nonce a) (cs_nonce b) && opt_eqb disj_eq (cs_proof a) (cs_proof b).
(** ballot.py:502-511 CiphertextBallotContest.__eq__: not the sequence order, not the accumulation and
    not the extended data *)
Definition ct_contest_eq (a b : ct_contest) : bool :=
  eqb (bc_id a) (bc_id b)
  && list_eq cs_id ct_selection_eq (bc_selections a) (bc_selections b)
  && (bc_desc_hash a =? bc_desc_hash b) && (bc_hash a =? bc_hash b)
  && opt_eqb Z.eqb (bc_nonce a) (bc_nonce b) && opt_eqb const_eq (bc_proof a) (bc_proof b).
(** ballot.py:774-786 CiphertextBallot.__eq__ *)
Definition ct_ballot_eq (a b : ct_ballot) : bool :=
  eqb (cb_id a) (cb_id b) && eqb (cb_style a) (cb_style b)
  && (cb_manifest_hash a =? cb_manifest_hash b) && (cb_code_seed a =? cb_code_seed b)
  && list_eq bc_id ct_contest_eq (cb_contests a) (cb_contests b)
  && (cb_code a =? cb_code b) && (cb_timestamp a =? cb_timestamp b) && (cb_hash a =? cb_hash b)
  && opt_eqb Z.eqb (cb_nonce a) (cb_nonce b).
(** ballot.py:924-929 SubmittedBallot.__eq__ *)
Definition sub_ballot_eq (a b : sub_ballot) : bool :=
  ct_ballot_eq (sb_ballot a) (sb_ballot b) && box_state_eqb (sb_state a) (sb_state b).
