(** * EndToEndSamples: three voters of the demo election. *)
From Verif Require Import Base Group Codec Hash DLog ElGamal ZK Poly Spec Tiny ListFacts Manifest Ballot Encrypt SpecElection Samples BallotFacts EncryptThms Box Tally SpecTally TallyThms TallySamples
  Ceremony SpecCeremony Shares SpecShares SharesThms SharesSamples SpecEndToEnd EndToEnd.
From Coq Require Import List.
Open Scope string_scope.
Definition pick' (i : string) (v : Z) : pt_selection := mkPsel i v false None.
(** Ann and Di, cast *)
Definition voter1 : voter := mkVoter (mkPbal "ballot-1" "full" [mkPcon "mayor" [pick' "mayor-ann" 1; pick' "mayor-bob" 0]; mkPcon "council" [pick' "council-di" 1]]) CAST 5 (Some 11) true 0 100.
(** Ann, by a voter of the county only, cast *)
Definition voter2 : voter := mkVoter (mkPbal "ballot-2" "county-only" [mkPcon "mayor" [pick' "mayor-ann" 1]]) CAST 6 None false 12 101.
(** Bob and too many for the council, spoiled *)
Definition voter3 : voter := mkVoter (mkPbal "ballot-3" "full" [mkPcon "mayor" [pick' "mayor-bob" 1]; mkPcon "council" [pick' "council-di" 1; pick' "council-ed" 1; pick' "council-cy" 1]]) SPOILED 7 (Some 13) true 0 102.
Definition voters : list voter := [voter1; voter2; voter3].
Definition voter_ds (v : voter) : list contest_ph := if eqb (pb_style (vr_ballot v)) "full" then demo_ds else [ph_of mayor].
Lemma voter_styles v : In v voters -> get_contests_for (demo_im medium) (pb_style (vr_ballot v)) = Ok (voter_ds v) /\ voter_ds v <> [] /\ in_order (voter_ds v) /\
  forall d, In d (voter_ds v) -> limit_fits medium (cd_number_elected (ph_desc d)).
Proof.
  destruct demo_setup as (_ & _ & D3 & D4 & D5 & D6). intros [<-|[<-|[<-|[]]]].
  - exact (conj D3 (conj D4 (conj D5 D6))).
  - split; [rewrite <- demo_imv_eq; vm_compute; reflexivity|]. split; [discriminate|]. split; [repeat constructor|]. intros d [<-|[]]. apply D6. left. reflexivity.
  - exact (conj D3 (conj D4 (conj D5 D6))).
Qed.
Lemma voters_usable v : In v voters -> usable_style medium (demo_im medium) (vr_ballot v).
Proof. intros Hv ds Hds. destruct (voter_styles v Hv) as [H1 H2]. rewrite H1 in Hds. injection Hds as <-. exact H2. Qed.
Ltac nonces := intros d Hd; cbn in Hd; rewrite <- demo_imv_eq; (repeat destruct Hd as [<-|Hd]; try contradiction);
  intros o Ho; cbn in Ho; repeat destruct Ho as [<-|Ho]; try contradiction; cbv zeta; split; vm_compute; discriminate.
Lemma voter_nonces v : In v voters -> forall d, In d (voter_ds v) ->
  usable_nonces medium d (hash_elems medium [HElem (im_hash (demo_im medium)); HStr (pb_id (vr_ballot v)); HElem (match vr_nonce v with Some n => n | None => vr_rand v end)]).
Proof. intros [<-|[<-|[<-|[]]]]; nonces. Qed.
Lemma voters_vote v : In v voters -> forall d, In d (voter_ds v) -> let c := voter_contest (vr_ballot v) d in
     pt_contest_valid c d <> CheckInvalid /\
     ((1 <=? marked c) && overvoted c d = true \/ forall s, In s (pc_selections c) -> ps_vote s = 0 \/ ps_vote s = 1)%Z /\
     cd_selections (ph_desc d) <> [] /\
     (forall err data x, contest_error (pt_contest_valid c d) = Some (err, data, x) ->
       Z.of_nat (String.length (contest_data_json medium err data (write_ins c))) <= 510)%Z.
Proof.
  intros [<-|[<-|[<-|[]]]] d Hd; cbn in Hd; (repeat destruct Hd as [<-|Hd]; try contradiction); cbv zeta; (split; [vm_compute; discriminate|]); (split; [right|]);
      try (intros s Hs; vm_compute in Hs; repeat destruct Hs as [<-|Hs]; try contradiction; cbn; auto; fail);
      (split; [discriminate|]); intros err data x H; vm_compute in H; injection H as <- <- <-; vm_compute; discriminate.
Qed.
Lemma voters_encrypted cx : in_subgroup medium (cx_key cx) -> exists ebs, Forall2 (encrypted_as medium (demo_im medium) cx) voters ebs.
Proof.
  intros HK. destruct demo_setup as (D1 & D2 & _).
  assert (H : forall v, In v voters -> exists eb, encrypted_as medium (demo_im medium) cx v eb).
  { intros v Hv. destruct (voter_styles v Hv) as (S1 & S2 & S3 & S4). unfold encrypted_as.
    apply (encrypt_ballot_succeeds medium (demo_im medium) cx (vr_ballot v) _ _ _ _ _ (voter_ds v) demo_manifest medium_valid medium_hmac D1 D2 HK S1); [auto| |apply voters_vote, Hv].
    intros d Hd. split; [apply S4, Hd|]. split; [|apply voter_nonces; assumption].
    assert (Hd' : In d demo_ds) by (unfold voter_ds in Hd; destruct (eqb _ _); [exact Hd|destruct Hd as [<-|[]]; left; reflexivity]). apply (proj1 demo_succeeds_hyps d Hd'). }
  destruct (H voter1) as [e1 H1]; [cbn; auto|]. destruct (H voter2) as [e2 H2]; [cbn; auto|]. destruct (H voter3) as [e3 H3]; [cbn; auto|].
  exists [e1; e2; e3]. repeat constructor; assumption.
Qed.
Lemma demo_distinct : distinct_option_ids (demo_im medium).
Proof. rewrite <- demo_imv_eq. unfold distinct_option_ids. vm_compute. repeat constructor; cbn; intuition discriminate. Qed.
