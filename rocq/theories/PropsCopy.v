(** * PropsCopy: copies of encrypted ballots (C70). *)
From Verif Require Import Base Group Codec Hash DLog ElGamal ZK Poly Spec Tiny Manifest Ballot Encrypt SpecElection Samples EncryptThms Box Tally SpecTally TallySamples
  Ceremony SpecCeremony Shares SpecShares SharesThms SharesMore SharesSamples Verify SpecVerify SpecEndToEnd EndToEnd EndToEndSamples SpecCopy CopyThms CopySamples.
From Coq Require Import List.

(** ** C70: a ballot that somebody else has encrypted is accepted again under another id *)
(** whatever has been submitted to a box: a ballot in it, with its contests in order, can be submitted once more by anybody under any id
    that is not taken, to be cast or to be spoiled; the box stores all of it, even the same confirmation code *)
Theorem C70_copy_taken : forall E im cx h i sb j st, let x := fst (run_box E (mkBox im cx ds_new) h) in
  ds_get (bx_store x) i = Some sb -> sort_by bc_seq (cb_contests (sb_ballot sb)) = cb_contests (sb_ballot sb) -> cb_contests (sb_ballot sb) <> [] -> ds_get (bx_store x) j = None ->
  exists sb', snd (box_submit E x (copy_of E (sb_ballot sb) j) st) = Ok (Some sb') /\ sb_id sb' = j /\ sb_state sb' = st /\ cb_contests (sb_ballot sb') = cb_contests (sb_ballot sb) /\
    cb_style (sb_ballot sb') = cb_style (sb_ballot sb) /\ cb_code (sb_ballot sb') = cb_code (sb_ballot sb) /\
    ds_get (bx_store (fst (box_submit E x (copy_of E (sb_ballot sb) j) st))) j = Some sb' /\ ds_get (bx_store (fst (box_submit E x (copy_of E (sb_ballot sb) j) st))) i = Some sb.
Proof. exact copy_taken. Qed.
Print Assumptions C70_copy_taken.
Example C70_copy_taken_ex : exists sb sb', let x := fst (run_box medium (mkBox (demo_im medium) demo_cx ds_new) [(ann_ballot, CAST)]) in
  ds_get (bx_store x) (cb_id ann_ballot) = Some sb /\ sb_state sb = CAST /\ snd (box_submit medium x (copy_of medium (sb_ballot sb) "copy") SPOILED) = Ok (Some sb') /\ sb_state sb' = SPOILED /\
  cb_contests (sb_ballot sb') = cb_contests (sb_ballot sb) /\ cb_contests (sb_ballot sb) <> [].
Proof.
  assert (Hx : fst (run_box medium (mkBox (demo_im medium) demo_cx ds_new) [(ann_ballot, CAST)]) = mkBox (demo_im medium) demo_cx [(cb_id ann_ballot, submit_ballot medium ann_ballot CAST)]).
  { unfold run_box. cbn [fold_left]. unfold box_submit, submit_to_box. cbn [bx_manifest bx_context bx_store]. rewrite ann_valid. reflexivity. }
  cbv zeta. exists (submit_ballot medium ann_ballot CAST).
  pose proof (C70_copy_taken medium (demo_im medium) demo_cx [(ann_ballot, CAST)] (cb_id ann_ballot) (submit_ballot medium ann_ballot CAST) "copy" SPOILED) as H. cbv zeta in H.
  rewrite Hx in *. cbn [bx_store] in H. assert (H0 : ds_get [(cb_id ann_ballot, submit_ballot medium ann_ballot CAST)] (cb_id ann_ballot) = Some (submit_ballot medium ann_ballot CAST)) by reflexivity.
  destruct H as (sb' & A1 & _ & A3 & A4 & _); [exact H0|vm_compute; reflexivity|discriminate|reflexivity|].
  exists sb'. split; [exact H0|]. split; [reflexivity|]. split; [exact A1|]. split; [exact A3|]. split; [exact A4|discriminate].
Qed.

(** contests of two stored ballots of the same style can be mixed as well *)
Theorem C70_mixed_taken : forall E im cx h i1 sb1 i2 sb2 cs j st, let x := fst (run_box E (mkBox im cx ds_new) h) in
  ds_get (bx_store x) i1 = Some sb1 -> ds_get (bx_store x) i2 = Some sb2 -> cb_style (sb_ballot sb1) = cb_style (sb_ballot sb2) ->
  sort_by bc_seq (cb_contests (sb_ballot sb1)) = cb_contests (sb_ballot sb1) -> sort_by bc_seq (cb_contests (sb_ballot sb2)) = cb_contests (sb_ballot sb2) -> cb_contests (sb_ballot sb1) <> [] ->
  mixture (cb_contests (sb_ballot sb1)) (cb_contests (sb_ballot sb2)) cs -> ds_get (bx_store x) j = None ->
  exists sb', snd (box_submit E x (mix_of E (sb_ballot sb1) cs j) st) = Ok (Some sb') /\ sb_id sb' = j /\ sb_state sb' = st /\ cb_contests (sb_ballot sb') = cs.
Proof. exact mix_taken. Qed.
Print Assumptions C70_mixed_taken.
(** the mayor of one ballot and the council of another *)
Example C70_mixed_taken_ex : exists e1 e3 c1 c2 d1 d2 sb', encrypted_as medium (demo_im medium) demo_cx voter1 e1 /\ encrypted_as medium (demo_im medium) demo_cx voter3 e3 /\
  let x := fst (run_box medium (mkBox (demo_im medium) demo_cx ds_new) [(e1, CAST); (e3, CAST)]) in let sb1 := submit_ballot medium e1 CAST in let sb3 := submit_ballot medium e3 CAST in
  cb_contests (sb_ballot sb1) = [c1; c2] /\ cb_contests (sb_ballot sb3) = [d1; d2] /\
  snd (box_submit medium x (mix_of medium (sb_ballot sb1) [c1; d2] "mixed") CAST) = Ok (Some sb') /\ cb_contests (sb_ballot sb') = [c1; d2].
Proof.
  destruct mixed_sample as (e1 & e3 & c1 & c2 & d1 & d2 & H1 & H3 & G1 & G3 & Gm & Hs & O1 & O3 & C1 & C3 & Hmix). cbv zeta in *.
  destruct (C70_mixed_taken medium (demo_im medium) demo_cx [(e1, CAST); (e3, CAST)] "ballot-1" _ "ballot-3" _ [c1; d2] "mixed" CAST G1 G3 Hs O1 O3) as (sb' & A & _ & _ & B); [rewrite C1; discriminate|rewrite C1, C3; exact Hmix|exact Gm|].
  exists e1, e3, c1, c2, d1, d2, sb'. split; [exact H1|]. split; [exact H3|]. split; [exact C1|]. split; [exact C3|]. split; [exact A|exact B].
Qed.
(** a whole election with any number of such copies: none of them is refused, the recomputed tally of the record is verified, each copy
    that is cast counts as one more vote for what the voter chose, and each copy that is spoiled is decrypted, so that the
    record shows how the voter voted although the own ballot of the voter was cast *)
Theorem C70_copies_counted_and_opened : forall E rnd k ss mid m im, valid_env E -> hmac_32 E -> qq E <= 2 ^ 1024 -> good_seats E k ss -> NoDup (map st_seq ss) -> (forall a b, 0 <= rnd a b) ->
  manifest_is_valid m = true -> make_internal E m = Ok im -> distinct_option_ids im ->
  exists gs gs' med jk,
    rmapM (fun s => guardian_from_nonce E (st_id s) (st_seq s) (len ss) (Z.of_nat k) (st_draws s)) ss = Ok gs /\
    full_ceremony E rnd gs (new_mediator mid (mkDetails (len ss) (Z.of_nat k))) = Ok (gs', med) /\
    md_publish_joint_key E med = Some jk /\
    let cx := make_context E (len ss) (Z.of_nat k) (jk_key jk) (jk_hash jk) (im_hash im) in
    forall vs ebs ts, Forall2 (encrypted_as E im cx) vs ebs -> (forall v, In v vs -> usable_style E im (vr_ballot v)) ->
      (forall t, In t ts -> In (th_voter t, th_ballot t) (combine vs ebs)) ->
      NoDup (map vr_id vs ++ map th_id ts) -> (forall v, In v vs -> vr_state v <> UNKNOWN) -> (forall t, In t ts -> th_state t <> UNKNOWN) ->
      len (filter is_cast vs) + len (cast_thefts ts) < qq E -> len (filter is_cast vs) + len (cast_thefts ts) <= dmax E -> 1 <= dmax E ->
    let store := bx_store (fst (run_box E (mkBox im cx ds_new) (with_thefts E vs ebs ts))) in
    let spoiled := dvals (get_ballots store (Some SPOILED)) in
    snd (run_box E (mkBox im cx ds_new) (with_thefts E vs ebs ts)) = map (fun p => Ok (Some (submit_ballot E (fst p) (snd p)))) (with_thefts E vs ebs ts) /\
    forall up rnd' dmid av, (forall path, up path = true) -> (forall a, In a av -> In a (combine ss gs')) -> NoDup (map fst av) -> (k <= List.length av)%nat ->
    exists t dm p ps,
      tally_ballots E true store im cx = Ok (Some t) /\
      verify_aggregation E (fun _ => all_up) (ds_values store) t m cx = Ok verified /\
      compensated_setup E up rnd' (map snd av) (map share_key gs') (new_dmediator dmid cx) cx t spoiled = Ok dm /\
      dm_plaintext_tally E dm t m = Ok (Some p) /\
      (forall cid oid n, count_of p cid oid = Some n <-> in_manifest m cid oid /\ n = cast_count im vs cid oid + stolen_count im ts cid oid) /\
      dm_plaintext_ballots E dm spoiled m = Ok (Some ps) /\
      dkeys ps = map vr_id (filter is_spoiled vs) ++ map th_id (filter (fun t => box_state_eqb (th_state t) SPOILED) ts) /\
      (forall t, In t ts -> th_state t = SPOILED -> exists pb, dget (th_id t) ps = Some pb /\
         forall cid oid n, count_of pb cid oid = Some n <-> on_ballot im (vr_ballot (th_voter t)) cid oid /\ n = vote_for im (vr_ballot (th_voter t)) cid oid).
Proof. exact election_with_copies. Qed.
Print Assumptions C70_copies_counted_and_opened.
(** the first of three voters has cast a ballot for Ann; one copy of it is cast and one is spoiled *)
Example C70_copies_ex : exists gs' cx ebs eb1 t dm p ps pb a b c, gs' = [a; b; c] /\
  Forall2 (encrypted_as medium (demo_im medium) cx) voters ebs /\ vr_state voter1 = CAST /\
  let ts := [mkTheft voter1 eb1 "more" CAST; mkTheft voter1 eb1 "peek" SPOILED] in
  let store := bx_store (fst (run_box medium (mkBox (demo_im medium) cx ds_new) (with_thefts medium voters ebs ts))) in
  tally_ballots medium true store (demo_im medium) cx = Ok (Some t) /\
  verify_aggregation medium (fun _ => all_up) (ds_values store) t demo_manifest cx = Ok verified /\
  compensated_setup medium (fun _ => true) (fun _ => 5) [c; a] (map share_key gs') (new_dmediator "m" cx) cx t (dvals (get_ballots store (Some SPOILED))) = Ok dm /\
  dm_plaintext_tally medium dm t demo_manifest = Ok (Some p) /\
  count_of p "mayor" "mayor-ann" = Some 3 /\ count_of p "mayor" "mayor-bob" = Some 0 /\
  dm_plaintext_ballots medium dm (dvals (get_ballots store (Some SPOILED))) demo_manifest = Ok (Some ps) /\ dkeys ps = ["ballot-3"; "peek"]%string /\
  dget "peek"%string ps = Some pb /\ count_of pb "mayor" "mayor-ann" = Some 1 /\ count_of pb "mayor" "mayor-bob" = Some 0.
Proof.
  destruct demo_setup as (D1 & D2 & _).
  assert (Hq : qq medium <= 2 ^ 1024) by (vm_compute; discriminate).
  destruct (C70_copies_counted_and_opened medium (fun _ _ => 9) 2 dec_seats "m" demo_manifest (demo_im medium) medium_valid medium_hmac Hq dec_seats_good) as (gs & gs' & med & jk & R1 & R2 & R3 & H);
    [cbn; repeat constructor; cbn; lia|lia|exact D1|exact D2|exact demo_distinct|].
  destruct (ceremony_ready medium (fun _ _ => 9) 2 dec_seats "m" medium_valid medium_hmac Hq dec_seats_good) as (gs2 & gs2' & med2 & T1 & T2 & T3 & T4 & _); [lia|].
  rewrite R1 in T1. injection T1 as <-. rewrite R2 in T2. injection T2 as <- <-. rewrite R3 in T3. injection T3 as ->.
  assert (Hg : exists a b c, gs' = [a; b; c]).
  { inversion T4 as [|? a ? ? _ G2]; subst. inversion G2 as [|? b ? ? _ G3]; subst. inversion G3 as [|? c ? ? _ G4]; subst. inversion G4; subst. eauto. }
  destruct Hg as (a & b & c & ->). clear T4 R1 R2 R3. cbv zeta in H. set (cx := make_context _ _ _ _ _ _) in H.
  destruct (voters_encrypted cx) as [ebs He]; [apply (joint_subgroup medium medium_valid 2 dec_seats dec_seats_good)|]. clearbody cx.
  assert (Hl : exists e1 l, ebs = e1 :: l) by (inversion He; subst; eauto). destruct Hl as (eb1 & l & ->).
  set (ts := [mkTheft voter1 eb1 "more" CAST; mkTheft voter1 eb1 "peek" SPOILED]).
  destruct (H voters (eb1 :: l) ts He voters_usable) as [_ H'].
  - intros t [<-|[<-|[]]]; left; reflexivity.
  - repeat constructor; cbn; intuition discriminate.
  - intros v [<-|[<-|[<-|[]]]]; discriminate.
  - intros t [<-|[<-|[]]]; discriminate.
  - vm_compute. reflexivity.
  - vm_compute. discriminate.
  - vm_compute. discriminate.
  - destruct (H' (fun _ : list nat => true) (fun _ : list nat => 5) "m"%string [(nth 2 dec_seats (mkSeat "" 0 []), c); (nth 0 dec_seats (mkSeat "" 0 []), a)]) as (t & dm & p & ps & P1 & P0 & P2 & P3 & P4 & P5 & P6 & P7); clear H H'.
    + reflexivity.
    + intros x [<-|[<-|[]]]; cbn; auto.
    + repeat constructor; cbn; intuition discriminate.
    + apply le_n.
    + destruct (P7 (mkTheft voter1 eb1 "peek" SPOILED)) as (pb & B1 & B2); [right; left; reflexivity|reflexivity|]. cbn [th_voter th_id] in B1, B2. rewrite <- demo_imv_eq in P4, B2.
      exists [a; b; c], cx, (eb1 :: l), eb1, t, dm, p, ps, pb, a, b, c. cbv zeta. split; [reflexivity|]. split; [exact He|]. split; [reflexivity|]. split; [exact P1|]. split; [exact P0|]. split; [exact P2|]. split; [exact P3|].
      split; [apply P4; split; [exists mayor; eexists; split; [left; reflexivity|]; split; [reflexivity|]; split; [left; reflexivity|reflexivity]|vm_compute; reflexivity]|].
      split; [apply P4; split; [exists mayor; eexists; split; [left; reflexivity|]; split; [reflexivity|]; split; [right; left; reflexivity|reflexivity]|vm_compute; reflexivity]|].
      split; [exact P5|]. split; [exact P6|]. split; [exact B1|]. split; apply B2; (split; [unfold on_ballot; vm_compute; discriminate|vm_compute; reflexivity]).
Qed.
