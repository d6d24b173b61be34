(** * EqualitySamples: literals for the examples of C68. *)
From Coq Require Import List QArith Permutation Bool.
From Verif Require Import Base Group Codec Hash DLog ElGamal ZK Manifest Ballot Encrypt Box Tally Spec SpecElection SpecTally Tiny Samples TallySamples Equality SpecEquality.
Local Open Scope list_scope.
Local Open Scope string_scope.

(** the demo election with the contests, the units and the selections of the council in another order *)
Definition council_turned : contest_desc := mkContest "council" 2 "town" "n_of_m" 2 None "Council"
  [mkSel "council-ed" 2 "ed"; mkSel "council-cy" 3 "cy"; mkSel "council-di" 1 "di"] None None None.
Definition demo_turned : manifest := mkManifest "demo" "v1.0" (mf_type demo_manifest) (mf_start demo_manifest) (mf_end demo_manifest)
  (rev (mf_gp_units demo_manifest)) (mf_parties demo_manifest) (rev (mf_candidates demo_manifest))
  [council_turned; mayor] (rev (mf_styles demo_manifest)) (mf_name demo_manifest) (mf_contact demo_manifest).
(** Ann and Bob have changed places *)
Definition demo_swapped : manifest := with_candidates demo_manifest "v0.95"
  [mkCandidate "ann" (txt "Bob") (Some "blue") None None; mkCandidate "bob" (txt "Ann") None None (Some false);
   mkCandidate "cy" (txt "Cy") None None None; mkCandidate "di" (txt "Di") None None None;
   mkCandidate "ed" (txt "Ed") None None (Some true)].
Definition to_sheriff (s : string) : string := if String.eqb s "council" then "a-board" else s.
Definition to_zone (s : string) : string := if String.eqb s "council" then "zone-board" else s.
(** the contest for mayor without its parties, and with its selections the other way round *)
Definition mayor_plain : contest_desc := mkContest "mayor" 1 "county" "one_of_m" 1 (Some 1%Z) "Mayor"
  [mkSel "mayor-ann" 1 "ann"; mkSel "mayor-bob" 2 "bob"] (Some (txt "Mayor")) None None.
Definition mayor_turned : contest_desc := mkContest "mayor" 1 "county" "one_of_m" 1 (Some 1%Z) "Mayor"
  [mkSel "mayor-bob" 2 "bob"; mkSel "mayor-ann" 1 "ann"] (Some (txt "Mayor")) None (Some ["blue"]).

(** two measures, each with the selections "yes" and "no" *)
Definition measure (id : string) (n : Z) : contest_desc := mkContest id n "county" "one_of_m" 1 (Some 1%Z) id
  [mkSel "yes" 1 "ann"; mkSel "no" 2 "bob"] None None None.
Definition measures : manifest := with_contests demo_manifest [measure "tax" 1; measure "bridge" 2].
Definition yes_to (contest : string) : pt_ballot := mkPbal "ballot-1" "full"
  [mkPcon contest [mkPsel "yes" 1 false None; mkPsel "no" 0 false None]].

(** the ballot with other extended data, and with another accumulation, in its contests *)
Definition with_ext (e : option hashed_ct) (b : ct_ballot) : ct_ballot :=
  mkCbal (cb_id b) (cb_style b) (cb_manifest_hash b) (cb_code_seed b)
    (map (fun c => mkCcon (bc_id c) (bc_seq c) (bc_desc_hash c) (bc_selections c) (bc_acc c) (bc_hash c) (bc_nonce c) (bc_proof c) e) (cb_contests b))
    (cb_code b) (cb_timestamp b) (cb_hash b) (cb_nonce b).
Definition with_acc (a : ciphertext) (b : ct_ballot) : ct_ballot :=
  mkCbal (cb_id b) (cb_style b) (cb_manifest_hash b) (cb_code_seed b)
    (map (fun c => mkCcon (bc_id c) (bc_seq c) (bc_desc_hash c) (bc_selections c) a (bc_hash c) (bc_nonce c) (bc_proof c) (bc_ext c)) (cb_contests b))
    (cb_code b) (cb_timestamp b) (cb_hash b) (cb_nonce b).

Lemma turned_hash : manifest_is_valid demo_manifest = true /\ manifest_is_valid demo_turned = true /\
  manifest_eq demo_manifest demo_turned = true /\ Z.eqb (manifest_hash medium demo_manifest) (manifest_hash medium demo_turned) = false.
Proof. vm_compute. auto. Qed.
Lemma swapped_hash : manifest_is_valid demo_swapped = true /\ manifest_eq demo_manifest demo_swapped = false.
Proof. vm_compute. auto. Qed.
Lemma renamed : let m := demo_manifest in
  let m1 := with_contests m (map (rename_contest to_sheriff) (mf_contests m)) in
  let m2 := with_contests m (map (rename_contest to_zone) (mf_contests m)) in
  manifest_is_valid m1 = true /\ manifest_is_valid m2 = true /\ manifest_eq m m1 = true /\ manifest_eq m m2 = false.
Proof. vm_compute. auto. Qed.
Lemma three : let a := with_contests demo_manifest [mayor; council] in
  let b := with_contests demo_manifest [mayor_plain; council] in let c := with_contests demo_manifest [mayor_turned; council] in
  manifest_is_valid a = true /\ manifest_is_valid b = true /\ manifest_is_valid c = true /\
  manifest_eq a b = true /\ manifest_eq b c = true /\ manifest_eq a c = false.
Proof. vm_compute. repeat split. Qed.
Lemma yes_equal : manifest_is_valid measures = true /\ pt_ballot_eq (yes_to "tax") (yes_to "bridge") = true.
Proof. vm_compute. auto. Qed.
Lemma yes_on c n : In (measure c n) (mf_contests measures) -> on_manifest measures (yes_to c).
Proof.
  intro H. constructor; [|constructor]. exists (measure c n). split; [exact H|]. split; [reflexivity|].
  constructor; [simpl; auto|]. constructor; [simpl; auto|constructor].
Qed.
Lemma demo_differ : ids_differ demo_manifest.
Proof. repeat split; simpl; repeat constructor; simpl; intuition discriminate. Qed.
Lemma demo_reordered : same_manifest reordered_contest demo_manifest demo_turned.
Proof.
  unfold same_manifest. repeat (split; [reflexivity || apply Permutation_rev|]).
  split; [|split; [apply Permutation_rev|split; reflexivity]].
  exists [mayor; council_turned]. split; [apply perm_swap|]. constructor; [left; reflexivity|]. constructor; [|constructor].
  right. split; [reflexivity|]. split; [|split; [left; reflexivity|simpl; repeat constructor; simpl; intuition discriminate]].
  unfold same_contest. repeat (split; [reflexivity|]). split; [|split; reflexivity].
  simpl. change (Permutation ([mkSel "council-cy" 3 "cy"; mkSel "council-di" 1 "di"] ++ [mkSel "council-ed" 2 "ed"])
                             ([mkSel "council-ed" 2 "ed"] ++ [mkSel "council-cy" 3 "cy"; mkSel "council-di" 1 "di"])).
  apply Permutation_app_comm.
Qed.
Lemma ann_differ : ballot_ids_differ ann_ballot.
Proof. split; simpl; repeat constructor; simpl; intuition discriminate. Qed.
Definition some_ext : hashed_ct := mkHct 5 "00" "11".
Lemma ann_ext_valid : ballot_valid_for_election medium (with_ext (Some some_ext) ann_ballot) (demo_im medium) demo_cx true = Ok true.
Proof. vm_cast_no_check (eq_refl (Ok true)). Qed.
Lemma ann_acc_invalid : ballot_valid_for_election medium (with_acc (mkCt 1 1) ann_ballot) (demo_im medium) demo_cx true = Ok false.
Proof. vm_cast_no_check (eq_refl (Ok false)). Qed.
Lemma ann_equal : ct_ballot_eq ann_ballot (with_ext (Some some_ext) ann_ballot) = true /\ ct_ballot_eq ann_ballot (with_acc (mkCt 1 1) ann_ballot) = true.
Proof. vm_compute. auto. Qed.
Lemma renamed_ids : map cd_id (mf_contests demo_manifest) <> map cd_id (mf_contests (with_contests demo_manifest (map (rename_contest to_sheriff) (mf_contests demo_manifest)))).
Proof. intro H. vm_compute in H. discriminate H. Qed.
Lemma ann_ext_other : map bc_ext (cb_contests ann_ballot) <> map bc_ext (cb_contests (with_ext (Some some_ext) ann_ballot)).
Proof. intro H. vm_compute in H. discriminate H. Qed.
