(** * SpecSample: what is said about sample elections (C71). *)
From Coq Require Import List.
From Verif Require Import Base Group Codec Hash Manifest Ballot Encrypt Box Tally Ceremony Shares Spec SpecElection SpecTally SpecShares Verify SpecVerify SpecEndToEnd GuiDecrypt GuiElection Cli SpecCli Mark SpecMark SampleGen.
Local Open Scope Z_scope.
Local Open Scope list_scope.

(** a ballot with an entry for every contest of its style, in order, and in none more marks than there are seats *)
Definition allowed_ballot (im : internal_manifest) (b : pt_ballot) : Prop :=
  exists ds, get_contests_for im (pb_style b) = Ok ds /\ Forall2 (fun d c => filled_in d c /\ SpecElection.marked c <= cd_number_elected (ph_desc d)) ds (pb_contests b).
(** a mark in every contest *)
Definition no_blank_contest (b : pt_ballot) : Prop := forall c, In c (pb_contests b) -> 1 <= SpecElection.marked c.
(** a number in the count; what is not there has no votes *)
Definition counted (d : dict string Z) (oid : string) : Z := match dget oid d with Some n => n | None => 0 end.
(** the number between 0 and 100 that is drawn for a ballot is below the rate *)
Definition drawn (rate : Z) (draw : nat -> Z) (i : nat) : bool := draw i mod 101 <? rate.
Definition spoiled_ones (rate : Z) (draw : nat -> Z) (bs : list pt_ballot) : list pt_ballot := map snd (filter (fun ib => drawn rate draw (fst ib)) (number bs)).
Definition cast_ones (rate : Z) (draw : nat -> Z) (bs : list pt_ballot) : list pt_ballot := map snd (filter (fun ib => negb (drawn rate draw (fst ib))) (number bs)).

(** the guardians that take part in the decryption: all five, or the first three *)
Definition taking_part (all : bool) : list (string * Z) := map (fun x => (decimal x, x)) (if all then [1; 2; 3; 4; 5] else [1; 2; 3]).
(** what is written about a sample election of [n] ballots *)
Record good_sample (E : env) (m : manifest) (im : internal_manifest) (lk : luck) (draw : nat -> Z) (n rate : Z) (all : bool) (s : sample) : Prop := {
  gs_manifest : sm_manifest s = m;
  gs_context : cx_guardians (sm_context s) = 5 /\ cx_quorum (sm_context s) = 3;
  gs_guardians : map gd_id (sm_guardians s) = ["1"; "2"; "3"; "4"; "5"]%string /\ Forall (fun g => good_published E 3 (guardian_publish g)) (sm_guardians s);
  gs_ids : map pb_id (sm_plain s) = map (fun i => "ballot-" ++ lk_uuid lk i)%string (seq 0 (Z.to_nat n));
  gs_rules : forall b, In b (sm_plain s) -> In (pb_style b) (map bs_id (mf_styles m)) /\ allowed_ballot im b /\ no_blank_contest b;
  gs_cipher : map cb_id (sm_cipher s) = map pb_id (sm_plain s) /\ map sb_ballot (sm_submitted s) = map (fun b => sb_ballot (submit_ballot E b CAST)) (sm_cipher s);
  gs_states : map sb_state (sm_submitted s) = map (fun i => if drawn rate draw i then SPOILED else CAST) (seq 0 (Z.to_nat n));
  gs_ballots : Forall (fun sb => passes E im (sm_context s) sb true = true) (sm_submitted s);
  gs_aggregation : verify_aggregation E (fun _ => all_up) (sm_submitted s) (sm_ciphertext s) m (sm_context s) = Ok verified;
  gs_tally : forall cid oid k, count_of (sm_tally s) cid oid = Some k <-> in_manifest m cid oid /\ k = SpecCli.marked im (cast_ones rate draw (sm_plain s)) cid oid;
  gs_accumulated : exists d, accumulate (cast_ones rate draw (sm_plain s)) = Ok d /\ forall cid oid, in_manifest m cid oid -> count_of (sm_tally s) cid oid = Some (counted d oid);
  gs_spoiled : Forall2 (fun b p => pt_id p = pb_id b /\ forall cid oid k, count_of p cid oid = Some k <-> on_ballot im b cid oid /\ k = vote_for im b cid oid) (spoiled_ones rate draw (sm_plain s)) (sm_spoiled s);
  gs_decryption : all = true -> forall keys, has_keys keys (sm_guardians s) -> verify_decryption E (sm_tally s) keys (sm_context s) = Ok verified /\ forall p, In p (sm_spoiled s) -> verify_decryption E p keys (sm_context s) = Ok verified;
  gs_coefficients : good_coefficients E (taking_part all) (sm_lagrange s) }.
