(** * CompactSamples: literal ballots for the examples of the compact ballot properties. *)
From Verif Require Import Base Group Codec Hash DLog ElGamal ZK Spec Tiny Manifest Ballot Encrypt SpecElection Samples BallotFacts EncryptThms Box Tally TallySamples Compact SpecCompact.
From Coq Require Import List.

Definition pick (id : string) (v : Z) : pt_selection := mkPsel id v false None.
(** every contest and option in sequence order: Bob for mayor and Di for council *)
Definition listed_ballot : pt_ballot := mkPbal "ballot-1" "full"
  [mkPcon "mayor" [pick "mayor-ann" 0; pick "mayor-bob" 1]; mkPcon "council" [pick "council-di" 1; pick "council-ed" 0; pick "council-cy" 0]].
(** the same with a name written in for the first option *)
Definition written_ballot : pt_ballot := mkPbal "ballot-1" "full"
  [mkPcon "mayor" [mkPsel "mayor-ann" 1 false (Some "Anna"%string); pick "mayor-bob" 0]; mkPcon "council" [pick "council-di" 1; pick "council-ed" 0; mkPsel "council-cy" 1 false (Some "Cyril"%string)]].
(** the options of the council in the order of the manifest: one vote, for Cy *)
Definition manifest_order_ballot : pt_ballot := mkPbal "ballot-1" "full"
  [mkPcon "mayor" [pick "mayor-ann" 1; pick "mayor-bob" 0]; mkPcon "council" [pick "council-cy" 1; pick "council-di" 0; pick "council-ed" 0]].
(** a voter of the county without the town *)
Definition county_voter : pt_ballot := mkPbal "ballot-2" "county-only" [mkPcon "mayor" [pick "mayor-ann" 1; pick "mayor-bob" 0]].
Lemma listed_ok : lists_everything (demo_im medium) listed_ballot.
Proof. rewrite <- demo_imv_eq. unfold lists_everything. vm_compute. repeat constructor; (left; reflexivity) || (right; reflexivity). Qed.
Lemma listed_plain : plain_entries listed_ballot.
Proof. intros s Hs. cbn in Hs. repeat destruct Hs as [<-|Hs]; try contradiction; split; reflexivity. Qed.
Lemma listed_in_style : forall ds c, get_contests_for (demo_im medium) (pb_style listed_ballot) = Ok ds -> In c (pb_contests listed_ballot) -> In (pc_id c) (map (fun d => cd_id (ph_desc d)) ds).
Proof.
  intros ds c Hd Hc. assert (Hds : get_contests_for (demo_im medium) (pb_style listed_ballot) = Ok demo_ds) by apply demo_setup. rewrite Hds in Hd. injection Hd as <-.
  cbn in Hc. destruct Hc as [<-|[<-|[]]]; cbn; auto.
Qed.
Definition listed_eb : ct_ballot := get_ballot (encrypt_ballot medium listed_ballot (demo_im medium) demo_cx 5 (Some 11) true 0 100).
Lemma listed_eb_ok : encrypt_ballot medium listed_ballot (demo_im medium) demo_cx 5 (Some 11) true 0 100 = Ok (Some listed_eb) /\ cb_nonce listed_eb = Some 11.
Proof.
  assert (H : exists eb, encrypt_ballot medium listed_ballot (demo_im medium) demo_cx 5 (Some 11) true 0 100 = Ok (Some eb)).
  { destruct demo_setup as (H1 & H2 & H3 & H4 & H5 & _).
    refine (encrypt_ballot_succeeds medium (demo_im medium) demo_cx listed_ballot 5 (Some 11) true 0 100 demo_ds demo_manifest
      medium_valid medium_hmac H1 H2 demo_key H3 (fun _ => conj H4 H5) (proj1 demo_succeeds_hyps) _).
    intros d Hd. cbn in Hd. destruct Hd as [<-|[<-|[]]]; cbv zeta; (split; [vm_compute; discriminate|]); (split; [right|]);
      try (intros s Hs; vm_compute in Hs; repeat destruct Hs as [<-|Hs]; try contradiction; cbn; auto; fail);
      (split; [discriminate|]); intros err data x H; vm_compute in H; injection H as <- <- <-; vm_compute; discriminate. }
  destruct H as [eb H]. unfold listed_eb. rewrite H. split; [reflexivity|]. cbn [get_ballot]. unfold encrypt_ballot in H.
  destruct (get_ballot_style _ _); cbn [rbind] in H; [|discriminate]. destruct (negb (pt_ballot_is_valid _ _)); [discriminate|]. destruct (get_contests_for _ _); cbn [rbind] in H; [|discriminate].
  destruct (encrypt_contests _ _ _ _ _ _ _) as [[cs|]|]; cbn [rbind] in H; [|discriminate|discriminate]. cbn [negb] in H.
  destruct (ballot_is_valid_encryption _ _ _ _ _) as [[|]|]; cbn [rbind] in H; [|discriminate|discriminate]. injection H as <-. reflexivity.
Qed.
