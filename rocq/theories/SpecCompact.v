(** * SpecCompact: the plain vocabulary of the compact ballot properties. *)
From Verif Require Import Base Manifest Ballot.
From Coq Require Import List.

(** the ballot lists every contest and option of the manifest, in sequence order, each with a vote 0 or 1 *)
Definition lists_everything (im : internal_manifest) (b : pt_ballot) : Prop :=
  Forall2 (fun d c => pc_id c = cd_id (ph_desc d) /\
      Forall2 (fun o s => ps_id s = sd_id o /\ (ps_vote s = 0 \/ ps_vote s = 1)) (sort_by sd_seq (cd_selections (ph_desc d))) (pc_selections c))
    (sort_by (fun d => cd_seq (ph_desc d)) (im_contests im)) (pb_contests b).
Definition all_selections (b : pt_ballot) : list pt_selection := flat_map pc_selections (pb_contests b).
(** a written-in text that is not empty *)
Definition text_of (s : pt_selection) : option string :=
  match ps_write_in s with Some w => if String.eqb w "" then None else Some w | None => None end.
(** the same contests with the same votes *)
Definition same_votes (b b' : pt_ballot) : Prop :=
  pb_id b' = pb_id b /\ pb_style b' = pb_style b /\
  Forall2 (fun c c' => pc_id c' = pc_id c /\ Forall2 (fun s s' => ps_id s' = ps_id s /\ ps_vote s' = ps_vote s) (pc_selections c) (pc_selections c')) (pb_contests b) (pb_contests b').
(** nothing written in and no entry marked as a placeholder *)
Definition plain_entries (b : pt_ballot) : Prop :=
  forall s, In s (all_selections b) -> ps_placeholder s = false /\ ps_write_in s = None.
