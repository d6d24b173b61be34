(** * SpecMark: what is said about ballots made at random (C63). *)
From Coq Require Import List Permutation.
From Verif Require Import Base Group Codec Hash Manifest Ballot Encrypt SpecElection Cli SpecCli Mark.
Local Open Scope Z_scope.
Local Open Scope list_scope.

(** the generators only change the order of what they shuffle *)
Definition shuffles (lk : contest_luck) : Prop := (forall l, Permutation (cl_order lk l) l) /\ (forall l, Permutation (cl_mix lk l) l).
Definition honest_luck (lk : luck) : Prop := forall i j, shuffles (lk_contest lk i j).
(** uuids are distinct and can be part of a file name *)
Definition fresh_ids (lk : luck) (n : Z) : Prop :=
  NoDup (map (lk_uuid lk) (seq 0 (Z.to_nat n))) /\ forall i, (i < Z.to_nat n)%nat -> has_slash (lk_uuid lk i) = false.

(** entries for options of the contest, each option at most once, marked or not marked *)
Definition filled_in (d : contest_ph) (c : pt_contest) : Prop :=
  pc_id c = cd_id (ph_desc d) /\ NoDup (map ps_id (pc_selections c)) /\
  forall s, In s (pc_selections c) -> In (ps_id s) (map sd_id (cd_selections (ph_desc d))) /\ (ps_vote s = 0 \/ ps_vote s = 1) /\ ps_placeholder s = false /\ ps_write_in s = None.
(** a ballot with an entry for every contest of its style, in order, and in each as many marks as there are seats *)
Definition full_ballot (im : internal_manifest) (b : pt_ballot) : Prop :=
  exists ds, get_contests_for im (pb_style b) = Ok ds /\ Forall2 (fun d c => filled_in d c /\ SpecElection.marked c = cd_number_elected (ph_desc d)) ds (pb_contests b).
(** the ballot has this contest *)
Definition has_contest (im : internal_manifest) (cid : string) (b : pt_ballot) : bool :=
  match get_contests_for im (pb_style b) with Ok ds => existsb (fun d => String.eqb (cd_id (ph_desc d)) cid) ds | Err _ => false end.
(** the texts that are encrypted along with a contest without write-ins fit their field *)
Definition short_texts (E : env) : Prop :=
  forall e, e = None \/ e = Some "nullvote"%string -> Z.of_nat (String.length (contest_data_json E e None None)) <= 510.
