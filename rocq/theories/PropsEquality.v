(** * PropsEquality: the theorems of C68 about [==]. *)
From Coq Require Import List QArith Permutation Bool.
From Verif Require Import Base Group Codec Hash DLog ElGamal ZK Manifest Ballot Encrypt Box Tally Spec SpecElection SpecTally Tiny Samples TallySamples Equality SpecEquality EqualityFacts EqualityThms EqualitySamples.
Local Open Scope list_scope.

(** C68: two manifests are equal only if they say the same, the order of the lists, the ids of the
    contests, the parties of a primary and the version of the specification apart. *)
Theorem C68_equal_manifests (a b : manifest) : manifest_eq a b = true -> same_manifest same_contest a b.
Proof. exact (manifest_eq_same a b). Qed.
Print Assumptions C68_equal_manifests.

(** C68: a manifest is equal to itself with its lists, and the selections of its contests, in any other
    order and under any other version of the specification. *)
Theorem C68_reordered (a b : manifest) : ids_differ a -> same_manifest reordered_contest a b -> manifest_eq a b = true.
Proof. exact (reordered_manifest_eq a b). Qed.
Print Assumptions C68_reordered.
Example C68_reordered_example : ids_differ demo_manifest /\ same_manifest reordered_contest demo_manifest demo_turned /\ manifest_eq demo_manifest demo_turned = true.
Proof. exact (conj demo_differ (conj demo_reordered (reordered_manifest_eq _ _ demo_differ demo_reordered))). Qed.

(** C68: the comparison of manifests can be read from either side, and between manifests whose
    contests are all plain ContestDescriptions it can be chained. *)
Theorem C68_equivalence : (forall m, manifest_eq m m = true) /\ (forall a b, manifest_eq a b = manifest_eq b a) /\
  (forall a b c, plain a -> plain b -> plain c -> manifest_eq a b = true -> manifest_eq b c = true -> manifest_eq a c = true).
Proof. exact (conj manifest_eq_refl (conj manifest_eq_sym manifest_eq_trans)). Qed.
Print Assumptions C68_equivalence.
Example C68_equivalence_example : plain (with_contests demo_manifest [mayor_plain; council]) /\ plain (with_contests demo_manifest [council; mayor_plain]) /\
  manifest_eq (with_contests demo_manifest [mayor_plain; council]) (with_contests demo_manifest [council_turned; mayor_plain]) = true.
Proof. repeat split; repeat constructor. Qed.

(** C68: but with a CandidateContestDescription among them a first manifest may equal a second, the
    second a third, and the first not the third. *)
Theorem C68_chain_refuted : exists a b c,
  manifest_is_valid a = true /\ manifest_is_valid b = true /\ manifest_is_valid c = true /\
  manifest_eq a b = true /\ manifest_eq b c = true /\ manifest_eq a c = false.
Proof. exact (ex_intro _ _ (ex_intro _ _ (ex_intro _ _ three))). Qed.
Print Assumptions C68_chain_refuted.

(** C68: equal manifests that list the same ids in the same order have the same hash. *)
Theorem C68_same_order_same_hash (E : env) (a b : manifest) :
  ids_differ b -> Forall (fun c => NoDup (map sd_id (cd_selections c))) (mf_contests b) -> same_order a b ->
  manifest_eq a b = true -> manifest_hash E a = manifest_hash E b.
Proof. exact (same_order_hash E a b). Qed.
Print Assumptions C68_same_order_same_hash.
Example C68_same_order_example : ids_differ demo_manifest /\ Forall (fun c => NoDup (map sd_id (cd_selections c))) (mf_contests demo_manifest) /\
  same_order (with_candidates demo_manifest "v1.0" (rev (mf_candidates demo_manifest))) demo_manifest /\
  manifest_eq (with_candidates demo_manifest "v1.0" (rev (mf_candidates demo_manifest))) demo_manifest = true.
Proof.
  split; [exact demo_differ|]. split; [repeat constructor; simpl; intuition discriminate|]. split; [repeat split|].
  vm_compute. reflexivity.
Qed.

(** C68: it is not so that equal manifests have the same hash: the order of the contests enters the
    hash and not the comparison. *)
Theorem C68_equal_means_same_hash_refuted : exists a b,
  manifest_is_valid a = true /\ manifest_is_valid b = true /\ manifest_eq a b = true /\
  (manifest_hash medium a =? manifest_hash medium b)%Z = false.
Proof. exact (ex_intro _ _ (ex_intro _ _ turned_hash)). Qed.
Print Assumptions C68_equal_means_same_hash_refuted.

(** C68: nor that the hash tells unequal manifests apart: it does not look at the candidates at all, so
    two candidates may change names under one hash, whatever the hash function. *)
Theorem C68_hash_blind_to_candidates (E : env) (m : manifest) (version : string) (cs : list candidate) :
  manifest_hash E (with_candidates m version cs) = manifest_hash E m.
Proof. exact (hash_blind E m version cs). Qed.
Print Assumptions C68_hash_blind_to_candidates.
Theorem C68_same_hash_means_equal_refuted : exists a b,
  manifest_is_valid a = true /\ manifest_is_valid b = true /\ manifest_eq a b = false /\
  (forall E, manifest_hash E a = manifest_hash E b) /\
  dget "ann"%string (candidate_names a "en") = Some "Ann"%string /\ dget "ann"%string (candidate_names b "en") = Some "Bob"%string.
Proof.
  exact (ex_intro _ demo_manifest (ex_intro _ demo_swapped (conj (proj1 turned_hash) (conj (proj1 swapped_hash)
    (conj (proj2 swapped_hash) (conj (fun E => eq_sym (hash_blind E _ _ _)) (conj eq_refl eq_refl))))))).
Qed.
Print Assumptions C68_same_hash_means_equal_refuted.

(** C68: the comparison neither heeds nor ignores the ids of the contests: renaming a contest leaves a
    manifest equal or not according to where the new name falls in the alphabet. *)
Theorem C68_contest_ids_refuted : exists m f g,
  let m1 := with_contests m (map (rename_contest f) (mf_contests m)) in
  let m2 := with_contests m (map (rename_contest g) (mf_contests m)) in
  manifest_is_valid m1 = true /\ manifest_is_valid m2 = true /\ manifest_eq m m1 = true /\ manifest_eq m m2 = false /\
  map cd_id (mf_contests m) <> map cd_id (mf_contests m1).
Proof.
  exists demo_manifest, to_sheriff, to_zone. destruct renamed as (A & B & C & D).
  exact (conj A (conj B (conj C (conj D renamed_ids)))).
Qed.
Print Assumptions C68_contest_ids_refuted.

(** C68: two plaintext ballots are equal only if they have one style and their contests can be paired
    so that the selections agree; and they are equal if the contests so paired have the same id. *)
Theorem C68_equal_ballots (a b : pt_ballot) : pt_ballot_eq a b = true ->
  pb_style a = pb_style b /\ pairs_up same_votes (pb_contests a) (pb_contests b).
Proof. exact (pt_ballot_same a b). Qed.
Print Assumptions C68_equal_ballots.
Theorem C68_reordered_ballots (a b : pt_ballot) :
  NoDup (map pc_id (pb_contests a)) -> Forall (fun c => NoDup (map ps_id (pc_selections c))) (pb_contests a) ->
  pb_style a = pb_style b -> pairs_up (fun x y => pc_id x = pc_id y /\ same_votes x y) (pb_contests a) (pb_contests b) ->
  pt_ballot_eq a b = true.
Proof. exact (pt_ballot_back a b). Qed.
Print Assumptions C68_reordered_ballots.
Example C68_reordered_ballots_example : let a := demo_ballot in let b := mkPbal "another" "full" (rev (pb_contests demo_ballot)) in
  NoDup (map pc_id (pb_contests a)) /\ Forall (fun c => NoDup (map ps_id (pc_selections c))) (pb_contests a) /\
  pairs_up (fun x y => pc_id x = pc_id y /\ same_votes x y) (pb_contests a) (pb_contests b) /\ pt_ballot_eq a b = true.
Proof.
  simpl. split; [repeat constructor; simpl; intuition discriminate|]. split; [repeat constructor; simpl; intuition discriminate|].
  split; [|reflexivity]. eexists. split; [apply perm_swap|]. repeat constructor.
Qed.

(** C68: so two ballots that vote in different contests can be equal. *)
Theorem C68_equal_means_same_choices_refuted : exists m a b,
  manifest_is_valid m = true /\ on_manifest m a /\ on_manifest m b /\ pt_ballot_eq a b = true /\
  choices a = [("tax", ["yes"])]%string /\ choices b = [("bridge", ["yes"])]%string.
Proof.
  exact (ex_intro _ measures (ex_intro _ (yes_to "tax") (ex_intro _ (yes_to "bridge") (conj (proj1 yes_equal)
    (conj (yes_on "tax"%string 1%Z (or_introl eq_refl)) (conj (yes_on "bridge"%string 2%Z (or_intror (or_introl eq_refl)))
    (conj (proj2 yes_equal) (conj eq_refl eq_refl)))))))).
Qed.
Print Assumptions C68_equal_means_same_choices_refuted.

(** C68: two submitted ballots are equal exactly if they were both cast, or both spoiled, and agree on the
    id, the style, the code and its seed, the hashes, the nonce, and contest by contest on the
    selections, their proofs, the hashes and the proof. *)
Theorem C68_equal_submitted (a b : sub_ballot) : ballot_ids_differ (sb_ballot a) ->
  (sub_ballot_eq a b = true <-> same_encrypted (sb_ballot a) (sb_ballot b) /\ sb_state a = sb_state b).
Proof. exact (sub_ballot_iff a b). Qed.
Print Assumptions C68_equal_submitted.
Theorem C68_equal_encrypted (a b : ct_ballot) : ballot_ids_differ a -> (ct_ballot_eq a b = true <-> same_encrypted a b).
Proof. exact (ct_ballot_iff a b). Qed.
Print Assumptions C68_equal_encrypted.
Example C68_equal_encrypted_example : ballot_ids_differ ann_ballot /\ length (concat (map bc_selections (cb_contests ann_ballot))) = 3%nat /\
  ct_ballot_eq ann_ballot bob_ballot = false.
Proof. exact (conj ann_differ (conj eq_refl eq_refl)). Qed.

(** C68: equal encrypted ballots may carry different extended data, both valid; and one of two equal
    ballots may be valid and the other not. *)
Theorem C68_equal_means_same_ballot_refuted : exists im cx a b c,
  ballot_valid_for_election medium a im cx true = Ok true /\
  ballot_valid_for_election medium b im cx true = Ok true /\ ct_ballot_eq a b = true /\
  map bc_ext (cb_contests a) <> map bc_ext (cb_contests b) /\
  ballot_valid_for_election medium c im cx true = Ok false /\ ct_ballot_eq a c = true.
Proof.
  exists (demo_im medium), demo_cx, ann_ballot, (with_ext (Some some_ext) ann_ballot), (with_acc (mkCt 1 1) ann_ballot).
  exact (conj ann_valid (conj ann_ext_valid (conj (proj1 ann_equal) (conj ann_ext_other (conj ann_acc_invalid (proj2 ann_equal)))))).
Qed.
Print Assumptions C68_equal_means_same_ballot_refuted.
