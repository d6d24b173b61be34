(** * PropsEndToEnd: a whole election, from the key ceremony to the published result. *)
From Verif Require Import Base Group Codec Hash DLog ElGamal ZK Poly Spec Tiny Manifest Ballot Encrypt SpecElection Samples EncryptThms Box Tally SpecTally TallySamples
  Ceremony SpecCeremony Shares SpecShares SharesThms SharesMore SharesSamples Verify SpecVerify SpecEndToEnd EndToEnd EndToEndSamples.
From Coq Require Import List.

(** ** C47: the result is what the voters marked *)
(** Any number of guardians complete the key ceremony.  Any number of voters, each with an own ballot id, encrypt a
    ballot under the joint key and cast or spoil it in any order.  Then the ballots in the box are tallied, and for every
    quorum of available guardians the decryption succeeds and shows, for exactly the options of the manifest, the number
    of cast ballots that selected it.  Each spoiled ballot, and no other, is opened to the votes of its voter. *)
Theorem C47_election : forall E rnd k ss mid m im, valid_env E -> hmac_32 E -> qq E <= 2 ^ 1024 -> good_seats E k ss -> NoDup (map st_seq ss) -> (forall a b, 0 <= rnd a b) ->
  manifest_is_valid m = true -> make_internal E m = Ok im -> distinct_option_ids im ->
  exists gs gs' med jk,
    rmapM (fun s => guardian_from_nonce E (st_id s) (st_seq s) (len ss) (Z.of_nat k) (st_draws s)) ss = Ok gs /\
    full_ceremony E rnd gs (new_mediator mid (mkDetails (len ss) (Z.of_nat k))) = Ok (gs', med) /\
    md_publish_joint_key E med = Some jk /\
    let cx := make_context E (len ss) (Z.of_nat k) (jk_key jk) (jk_hash jk) (im_hash im) in
    forall vs ebs, Forall2 (encrypted_as E im cx) vs ebs -> (forall v, In v vs -> usable_style E im (vr_ballot v)) ->
      NoDup (map vr_id vs) -> (forall v, In v vs -> vr_state v <> UNKNOWN) ->
      len (filter is_cast vs) < qq E -> len (filter is_cast vs) <= dmax E -> 1 <= dmax E ->
    let store := bx_store (fst (run_box E (mkBox im cx ds_new) (combine ebs (map vr_state vs)))) in
    let spoiled := dvals (get_ballots store (Some SPOILED)) in
    forall up rnd' dmid av, (forall path, up path = true) -> (forall a, In a av -> In a (combine ss gs')) -> NoDup (map fst av) -> (k <= List.length av)%nat ->
    exists t dm p ps,
      tally_ballots E true store im cx = Ok (Some t) /\
      compensated_setup E up rnd' (map snd av) (map share_key gs') (new_dmediator dmid cx) cx t spoiled = Ok dm /\
      dm_plaintext_tally E dm t m = Ok (Some p) /\
      (forall cid oid n, count_of p cid oid = Some n <-> in_manifest m cid oid /\ n = cast_count im vs cid oid) /\
      dm_plaintext_ballots E dm spoiled m = Ok (Some ps) /\
      dkeys ps = map vr_id (filter is_spoiled vs) /\
      (forall v, In v vs -> vr_state v = SPOILED -> exists pb, dget (vr_id v) ps = Some pb /\
         forall cid oid n, count_of pb cid oid = Some n <-> on_ballot im (vr_ballot v) cid oid /\ n = vote_for im (vr_ballot v) cid oid).
Proof. exact election. Qed.
Print Assumptions C47_election.
(** Three seats, of which carol and alice decrypt; two ballots are cast with a vote for Ann each, one of them in a style
    without the council; a third, for Bob and with too many votes for the council, is spoiled. *)
Example C47_election_ex : exists gs' cx ebs t dm p ps pb a b c,
  let store := bx_store (fst (run_box medium (mkBox (demo_im medium) cx ds_new) (combine ebs (map vr_state voters)))) in
  gs' = [a; b; c] /\ Forall2 (encrypted_as medium (demo_im medium) cx) voters ebs /\
  tally_ballots medium true store (demo_im medium) cx = Ok (Some t) /\
  compensated_setup medium (fun _ => true) (fun _ => 5) [c; a] (map share_key gs') (new_dmediator "m" cx) cx t (dvals (get_ballots store (Some SPOILED))) = Ok dm /\
  dm_plaintext_tally medium dm t demo_manifest = Ok (Some p) /\
  count_of p "mayor" "mayor-ann" = Some 2 /\ count_of p "mayor" "mayor-bob" = Some 0 /\ count_of p "council" "council-di" = Some 1 /\
  dm_plaintext_ballots medium dm (dvals (get_ballots store (Some SPOILED))) demo_manifest = Ok (Some ps) /\ ps = [("ballot-3"%string, pb)] /\
  count_of pb "mayor" "mayor-bob" = Some 1 /\ count_of pb "council" "council-di" = Some 0.
Proof.
  destruct demo_setup as (D1 & D2 & _).
  assert (Hq : qq medium <= 2 ^ 1024) by (vm_compute; discriminate).
  destruct (C47_election medium (fun _ _ => 9) 2 dec_seats "m" demo_manifest (demo_im medium) medium_valid medium_hmac Hq dec_seats_good) as (gs & gs' & med & jk & R1 & R2 & R3 & H);
    [cbn; repeat constructor; cbn; lia|lia|exact D1|exact D2|exact demo_distinct|].
  destruct (ceremony_ready medium (fun _ _ => 9) 2 dec_seats "m" medium_valid medium_hmac Hq dec_seats_good) as (gs2 & gs2' & med2 & T1 & T2 & T3 & T4 & _); [lia|].
  rewrite R1 in T1. injection T1 as <-. rewrite R2 in T2. injection T2 as <- <-. rewrite R3 in T3. injection T3 as ->.
  assert (Hg : exists a b c, gs' = [a; b; c]).
  { inversion T4 as [|? a ? ? _ G2]; subst. inversion G2 as [|? b ? ? _ G3]; subst. inversion G3 as [|? c ? ? _ G4]; subst. inversion G4; subst. eauto. }
  destruct Hg as (a & b & c & ->). clear T4 R1 R2 R3. cbv zeta in H. set (cx := make_context _ _ _ _ _ _) in H.
  destruct (voters_encrypted cx) as [ebs He]; [apply (joint_subgroup medium medium_valid 2 dec_seats dec_seats_good)|].
  destruct (H voters ebs He voters_usable) with (up := fun _ : list nat => true) (rnd' := fun _ : list nat => 5) (dmid := "m"%string)
     (av := [(nth 2 dec_seats (mkSeat "" 0 []), c); (nth 0 dec_seats (mkSeat "" 0 []), a)]) as (t & dm & p & ps & P1 & P2 & P3 & P4 & P5 & P6 & P7); clear H.
  - repeat constructor; cbn; intuition discriminate.
  - intros v [<-|[<-|[<-|[]]]]; discriminate.
  - reflexivity.
  - vm_compute. discriminate.
  - vm_compute. discriminate.
  - reflexivity.
  - intros x [<-|[<-|[]]]; cbn; auto.
  - repeat constructor; cbn; intuition discriminate.
  - apply le_n.
  - destruct (P7 voter3) as (pb & B1 & B2); [cbn; auto|reflexivity|]. rewrite <- demo_imv_eq in P4, B2.
    change (map vr_id (filter is_spoiled voters)) with ["ballot-3"%string] in P6. destruct ps as [|[i pb'] [|? ?]]; [discriminate P6| |discriminate P6]. injection P6 as ->.
    change (Some pb' = Some pb) in B1. injection B1 as ->.
    exists [a; b; c], cx, ebs, t, dm, p, [("ballot-3"%string, pb)], pb, a, b, c. cbv zeta. split; [reflexivity|]. split; [exact He|]. split; [exact P1|]. split; [exact P2|]. split; [exact P3|].
    split; [apply P4; split; [exists mayor; eexists; split; [left; reflexivity|]; split; [reflexivity|]; split; [left; reflexivity|reflexivity]|reflexivity]|].
    split; [apply P4; split; [exists mayor; eexists; split; [left; reflexivity|]; split; [reflexivity|]; split; [right; left; reflexivity|reflexivity]|reflexivity]|].
    split; [apply P4; split; [exists council; eexists; split; [right; left; reflexivity|]; split; [reflexivity|]; split; [right; left; reflexivity|reflexivity]|reflexivity]|].
    split; [exact P5|]. split; [reflexivity|]. split; apply B2; (split; [unfold on_ballot; vm_compute; discriminate|reflexivity]).
Qed.

(** ** The record of an election with all guardians present passes verify_aggregation and verify_decryption. *)
Theorem C47_record_verifies : forall E rnd k ss mid m im, valid_env E -> hmac_32 E -> qq E <= 2 ^ 1024 -> good_seats E k ss -> ss <> [] -> (k <= List.length ss)%nat -> (forall a b, 0 <= rnd a b) ->
  manifest_is_valid m = true -> make_internal E m = Ok im -> distinct_option_ids im ->
  exists gs gs' med jk,
    rmapM (fun s => guardian_from_nonce E (st_id s) (st_seq s) (len ss) (Z.of_nat k) (st_draws s)) ss = Ok gs /\
    full_ceremony E rnd gs (new_mediator mid (mkDetails (len ss) (Z.of_nat k))) = Ok (gs', med) /\
    md_publish_joint_key E med = Some jk /\
    let cx := make_context E (len ss) (Z.of_nat k) (jk_key jk) (jk_hash jk) (im_hash im) in
    forall vs ebs, Forall2 (encrypted_as E im cx) vs ebs -> (forall v, In v vs -> usable_style E im (vr_ballot v)) ->
      NoDup (map vr_id vs) -> (forall v, In v vs -> vr_state v <> UNKNOWN) ->
      len (filter is_cast vs) < qq E -> len (filter is_cast vs) <= dmax E -> 1 <= dmax E ->
    let store := bx_store (fst (run_box E (mkBox im cx ds_new) (combine ebs (map vr_state vs)))) in
    let spoiled := dvals (get_ballots store (Some SPOILED)) in
    forall up rnd' dmid keys, (forall path, up path = true) -> has_keys keys gs' ->
    exists t dm p,
      tally_ballots E true store im cx = Ok (Some t) /\
      verify_aggregation E (fun _ => all_up) (ds_values store) t m cx = Ok verified /\
      decryption_setup E up rnd' gs' (new_dmediator dmid cx) cx t spoiled = Ok dm /\
      dm_plaintext_tally E dm t m = Ok (Some p) /\
      verify_decryption E p keys cx = Ok verified /\
      (forall cid oid n, count_of p cid oid = Some n <-> in_manifest m cid oid /\ n = cast_count im vs cid oid).
Proof. exact election_verifies. Qed.
Print Assumptions C47_record_verifies.
(** the same election: the keys the three guardians publish *)
Example C47_record_verifies_ex : exists gs gs' med keys,
  rmapM (fun s => guardian_from_nonce medium (st_id s) (st_seq s) (len dec_seats) (Z.of_nat 2) (st_draws s)) dec_seats = Ok gs /\
  full_ceremony medium (fun _ _ => 9) gs (new_mediator "m" (mkDetails (len dec_seats) (Z.of_nat 2))) = Ok (gs', med) /\
  List.length gs' = 3%nat /\ has_keys keys gs' /\ dkeys keys = ["alice"; "bob"; "carol"]%string.
Proof.
  destruct (ceremony_ready medium (fun _ _ => 9) 2 dec_seats "m" medium_valid medium_hmac) as (gs & gs' & med & T1 & T2 & _ & T4 & _); [vm_compute; discriminate|exact dec_seats_good|lia|].
  inversion T4 as [|? a ? ? A1 G2]; subst. inversion G2 as [|? b ? ? B1 G3]; subst. inversion G3 as [|? c ? ? C1 G4]; subst. inversion G4; subst.
  destruct (rg_key _ _ _ _ A1) as [A _], (rg_key _ _ _ _ B1) as [B _], (rg_key _ _ _ _ C1) as [C _].
  exists gs, [a; b; c], med, [("alice"%string, share_key a); ("bob"%string, share_key b); ("carol"%string, share_key c)].
  split; [exact T1|]. split; [exact T2|]. split; [reflexivity|]. split; [|reflexivity].
  intros g [<-|[<-|[<-|[]]]]; [rewrite A|rewrite B|rewrite C]; eexists; (split; [reflexivity|]); reflexivity.
Qed.
