(** * TallySamples: literal ballots for the examples of the box and tally properties. *)
From Verif Require Import Base Group Codec Hash DLog ElGamal ZK Manifest Ballot Encrypt Box Tally Spec SpecElection SpecTally Tiny Samples EncryptThms TallyThms.
From Coq Require Import List.

(** ballots of the style "county-only" with [a] votes for Ann and [b] for Bob, one placeholder *)
Definition county_contest (a b r : Z) : ct_contest :=
  mk_con mayor [mk_sel (mkSel "mayor-ann" 1 "ann") "mayor-ann" a r false; mk_sel (mkSel "mayor-bob" 2 "bob") "mayor-bob" b (r + 1) false;
                match ph_placeholders (ph_of mayor) with o :: _ => mk_sel o (sd_id o) (1 - a - b) (r + 2) true | [] => mk_sel (mkSel "" 0 "") "" 0 1 true end] 1.
Definition county_ballot (id : string) (cs : list ct_contest) : ct_ballot :=
  make_ct_ballot medium id "county-only" (im_hash (demo_im medium)) (Some 3) cs (Some 99) None None 100.
Definition ann_ballot : ct_ballot := Eval vm_compute in county_ballot "ann-voter" [county_contest 1 0 5].
Definition bob_ballot : ct_ballot := Eval vm_compute in county_ballot "bob-voter" [county_contest 0 1 15].
Definition twice_ballot : ct_ballot := Eval vm_compute in county_ballot "two-time-voter" [county_contest 1 0 5; county_contest 1 0 5].
(** the contests of the rogue ballot in the opposite order, with a matching ballot hash *)
Definition unsorted_ballot : ct_ballot := Eval vm_compute in
  let b := mkCbal "b" "county-only" (im_hash (demo_im medium)) 3 (rev (cb_contests rogue_ballot)) 7 100 0 None in
  mkCbal "b" "county-only" (im_hash (demo_im medium)) 3 (rev (cb_contests rogue_ballot)) 7 100 (ballot_crypto_hash_with medium b (im_hash (demo_im medium))) None.
Definition ann_cast : sub_ballot := Eval vm_compute in submit_ballot medium ann_ballot CAST.
Definition bob_cast : sub_ballot := Eval vm_compute in submit_ballot medium bob_ballot CAST.
Definition bob_spoiled : sub_ballot := Eval vm_compute in submit_ballot medium bob_ballot SPOILED.
Definition twice_cast : sub_ballot := Eval vm_compute in submit_ballot medium twice_ballot CAST.
Definition rogue_cast : sub_ballot := Eval vm_compute in submit_ballot medium rogue_ballot CAST.
Definition demo_t0 : tally := Eval vm_compute in new_tally medium "t" (demo_im medium) demo_cx.
Definition demo_imv : internal_manifest := Eval vm_compute in demo_im medium.
Lemma demo_imv_eq : demo_imv = demo_im medium. Proof. vm_cast_no_check (eq_refl demo_imv). Qed.

Lemma ann_valid : ballot_valid_for_election medium ann_ballot (demo_im medium) demo_cx true = Ok true.
Proof. vm_cast_no_check (eq_refl (Ok true)). Qed.
Lemma twice_valid : ballot_valid_for_election medium twice_ballot (demo_im medium) demo_cx true = Ok true.
Proof. vm_cast_no_check (eq_refl (Ok true)). Qed.
Lemma unsorted_valid : ballot_valid_for_election medium unsorted_ballot (demo_im medium) demo_cx true = Ok true.
Proof. vm_cast_no_check (eq_refl (Ok true)). Qed.

Definition completeb (im : internal_manifest) (b : ct_ballot) : bool :=
  forallb (fun c => existsb (fun d => String.eqb (cd_id (ph_desc d)) (bc_id c) && negb (Nat.eqb (length (bc_selections c)) 0) &&
     forallb (fun o => existsb (fun s => String.eqb (cs_id s) (sd_id o) && negb (cs_placeholder s)) (bc_selections c)) (cd_selections (ph_desc d)))
     (im_contests im)) (cb_contests b).
Lemma completeb_ok im b : completeb im b = true -> complete im b.
Proof.
  unfold completeb, complete. rewrite forallb_forall. intros H c Hc. specialize (H c Hc). apply existsb_exists in H as [d [Hd H]].
  apply andb_true_iff in H as [H Ho]. apply andb_true_iff in H as [Hi Hl]. apply String.eqb_eq in Hi. exists d. split; [exact Hd|].
  split; [exact Hi|]. split.
  - intros He. rewrite He in Hl. discriminate.
  - intros o Hin. rewrite forallb_forall in Ho. specialize (Ho o Hin). apply existsb_exists in Ho as [s [Hs Ho]].
    apply andb_true_iff in Ho as [H1 H2]. apply String.eqb_eq in H1. apply negb_true_iff in H2. exists s. auto.
Qed.
Definition demo_history : list (sub_ballot * bool) := [(ann_cast, false); (bob_spoiled, false); (bob_cast, false); (ann_cast, true)].
Lemma demo_complete : Forall (fun '(b, _) => complete (demo_im medium) (sb_ballot b)) demo_history.
Proof. repeat constructor; apply completeb_ok; vm_compute; reflexivity. Qed.
Lemma twice_complete : complete (demo_im medium) (sb_ballot twice_cast).
Proof. apply completeb_ok; vm_compute; reflexivity. Qed.
Lemma demo_nodup : NoDup (contest_ids (demo_im medium)).
Proof. apply (BallotFacts.internal_ids medium demo_manifest); apply demo_setup. Qed.
(** the secret key opens a total *)
Definition opened (o : option ciphertext) : res Z := match o with Some c => elgamal_decrypt medium c 77 | None => Err KeyError end.
