(** * PropsCompact: the properties of compact ballots (C40).  Only theorems and non-vacuity examples; the
    vocabulary is in SpecCompact.v. *)
From Verif Require Import Base Group Codec Hash DLog ElGamal ZK Spec Tiny Manifest Ballot Encrypt SpecElection Samples EncryptThms Box Tally TallySamples Compact SpecCompact CompactFacts CompactSamples.
From Coq Require Import List.

(** ** C40: compact ballots *)
(** A submitted ballot is given back, entry by entry, code and timestamp included, if the plaintext lists every
    contest and option of the manifest in sequence order, its style has all the contests, and nothing is written in. *)
Theorem C40_submitted_roundtrip : forall E im cx b eseed nonce verify rand now eb st master, lists_everything im b -> plain_entries b ->
  (forall ds c, get_contests_for im (pb_style b) = Ok ds -> In c (pb_contests b) -> In (pc_id c) (map (fun d => cd_id (ph_desc d)) ds)) ->
  encrypt_ballot E b im cx eseed nonce verify rand now = Ok (Some eb) -> cb_nonce eb = Some master ->
  expand_submitted E (compress_submitted (submit_ballot E eb st) b master) im cx = Ok (submit_ballot E eb st).
Proof. exact submitted_roundtrip. Qed.
Print Assumptions C40_submitted_roundtrip.
(** Under the same conditions the plaintext ballot is given back. *)
Theorem C40_plaintext_roundtrip : forall im b ds, lists_everything im b -> get_contests_for im (pb_style b) = Ok ds -> plain_entries b ->
  (forall c, In c (pb_contests b) -> In (pc_id c) (map (fun d => cd_id (ph_desc d)) ds)) -> expand_plain (compress_plain b) im = Ok b.
Proof. exact expand_exact. Qed.
Print Assumptions C40_plaintext_roundtrip.
(** What remains if the style lacks contests or something is written in: every vote is kept, entries are marked as
    placeholders exactly in the contests outside the style, and every text has moved to the next entry. *)
Theorem C40_expand_exactly : forall im b ds, lists_everything im b -> get_contests_for im (pb_style b) = Ok ds ->
  exists b', expand_plain (compress_plain b) im = Ok b' /\ same_votes b b' /\
    (forall c s, In c (pb_contests b') -> In s (pc_selections c) -> (ps_placeholder s = false <-> In (pc_id c) (map (fun d => cd_id (ph_desc d)) ds))) /\
    forall i s', nth_error (all_selections b') i = Some s' ->
      ps_write_in s' = match i with O => None | S j => match nth_error (all_selections b) j with Some s => text_of s | None => None end end.
Proof. exact expand_plaintext. Qed.
Print Assumptions C40_expand_exactly.
Example C40_ex : lists_everything (demo_im medium) listed_ballot /\ plain_entries listed_ballot /\
  (forall ds c, get_contests_for (demo_im medium) (pb_style listed_ballot) = Ok ds -> In c (pb_contests listed_ballot) -> In (pc_id c) (map (fun d => cd_id (ph_desc d)) ds)) /\
  encrypt_ballot medium listed_ballot (demo_im medium) demo_cx 5 (Some 11) true 0 100 = Ok (Some listed_eb) /\ cb_nonce listed_eb = Some 11 /\
  compact_selections listed_ballot = [false; true; true; false; false].
Proof. split; [exact listed_ok|]. split; [exact listed_plain|]. split; [exact listed_in_style|]. split; [apply listed_eb_ok|]. split; [apply listed_eb_ok|reflexivity]. Qed.
(** A text written in for the first option comes back at the second, and the last one is lost. *)
Theorem C40_write_in_refuted : exists im b ds b', lists_everything im b /\ get_contests_for im (pb_style b) = Ok ds /\
  (forall c, In c (pb_contests b) -> In (pc_id c) (map (fun d => cd_id (ph_desc d)) ds)) /\ expand_plain (compress_plain b) im = Ok b' /\
  map ps_write_in (all_selections b) = [Some "Anna"; None; None; None; Some "Cyril"]%string /\
  map ps_write_in (all_selections b') = [None; Some "Anna"; None; None; None]%string.
Proof.
  exists demo_imv, written_ballot. do 2 eexists. split; [unfold lists_everything; vm_compute; repeat constructor; (left; reflexivity) || (right; reflexivity)|]. split; [vm_compute; reflexivity|].
  split; [intros c Hc; cbn in Hc; destruct Hc as [<-|[<-|[]]]; cbn; auto|]. split; [vm_compute; reflexivity|]. split; reflexivity.
Qed.
Print Assumptions C40_write_in_refuted.
(** A ballot for a style with only one of the contests cannot be expanded. *)
Theorem C40_style_refuted : exists im b ds, get_contests_for im (pb_style b) = Ok ds /\ map pc_id (pb_contests b) = map (fun d => cd_id (ph_desc d)) ds /\
  expand_plain (compress_plain b) im = Err IndexError.
Proof. exists demo_imv, county_voter. eexists. split; [vm_compute; reflexivity|]. split; reflexivity. Qed.
Print Assumptions C40_style_refuted.
(** A ballot that lists the options in the order of the manifest, which need not be the sequence order, comes back
    with the vote for another candidate. *)
Theorem C40_option_order_refuted : exists im b b', expand_plain (compress_plain b) im = Ok b' /\
  map (fun c => (pc_id c, map ps_id (pc_selections c))) (pb_contests b) = map (fun d => (cd_id (ph_desc d), map sd_id (cd_selections (ph_desc d)))) (im_contests im) /\
  map selected_ids (pb_contests b) = [["mayor-ann"]; ["council-cy"]]%string /\ map selected_ids (pb_contests b') = [["mayor-ann"]; ["council-di"]]%string.
Proof. exists demo_imv, manifest_order_ballot. eexists. split; [vm_compute; reflexivity|]. split; [reflexivity|]. split; reflexivity. Qed.
Print Assumptions C40_option_order_refuted.
