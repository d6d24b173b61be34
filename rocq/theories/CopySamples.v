(** * CopySamples: two ballots of the demo election with two contests each. *)
From Verif Require Import Base Group Codec Hash DLog ElGamal ZK Poly Spec Tiny ListFacts GroupFacts Manifest Ballot Encrypt SpecElection Samples BallotFacts EncryptThms Box Tally SpecTally BoxFacts HonestFacts
  Ceremony SpecCeremony Shares SpecShares SharesSamples SpecEndToEnd EndToEnd EndToEndSamples SpecCopy CopyFacts CopyThms.
From Verif Require Import CryptoThms EncryptFacts.
From Coq Require Import List Lia.
Lemma mixed_sample : exists e1 e3 c1 c2 d1 d2, encrypted_as medium (demo_im medium) demo_cx voter1 e1 /\ encrypted_as medium (demo_im medium) demo_cx voter3 e3 /\
  let x := fst (run_box medium (mkBox (demo_im medium) demo_cx ds_new) [(e1, CAST); (e3, CAST)]) in let sb1 := submit_ballot medium e1 CAST in let sb3 := submit_ballot medium e3 CAST in
  ds_get (bx_store x) "ballot-1"%string = Some sb1 /\ ds_get (bx_store x) "ballot-3"%string = Some sb3 /\ ds_get (bx_store x) "mixed"%string = None /\ cb_style (sb_ballot sb1) = cb_style (sb_ballot sb3) /\
  sort_by bc_seq (cb_contests (sb_ballot sb1)) = cb_contests (sb_ballot sb1) /\ sort_by bc_seq (cb_contests (sb_ballot sb3)) = cb_contests (sb_ballot sb3) /\
  cb_contests (sb_ballot sb1) = [c1; c2] /\ cb_contests (sb_ballot sb3) = [d1; d2] /\ mixture [c1; c2] [d1; d2] [c1; d2].
Proof.
  assert (HK : in_subgroup medium (cx_key demo_cx)) by (change (cx_key demo_cx) with (gexp medium 77); apply gexp_subgroup; [exact medium_valid|lia]).
  destruct (voters_encrypted demo_cx HK) as [ebs He]. inversion He as [|? e1 ? l1 H1 He1]; subst. inversion He1 as [|? e2 ? l2 H2 He2]; subst. inversion He2 as [|? e3 ? l3 H3 He3]; subst. clear He He1 He2 He3 H2.
  destruct demo_setup as (D1 & D2 & D3 & D4 & D5 & D6).
  assert (F : forall v e, In v voters -> pb_style (vr_ballot v) = "full"%string -> encrypted_as medium (demo_im medium) demo_cx v e ->
    ballot_valid_for_election medium e (demo_im medium) demo_cx true = Ok true /\ cb_id e = vr_id v /\ cb_style e = "full"%string /\
    exists c c', cb_contests (sb_ballot (submit_ballot medium e CAST)) = [c; c'] /\ bc_id c = cd_id mayor /\ bc_id c' = cd_id council /\ bc_seq c = cd_seq mayor /\ bc_seq c' = cd_seq council).
  { intros v e Hv Hs Hen. destruct (voter_contests medium (demo_im medium) demo_cx medium_valid HK v e Hen (voters_usable v Hv)) as (ds & G1 & G2 & G3 & G4 & G5 & G6).
    destruct (encrypted_ballot_valid medium demo_manifest (demo_im medium) demo_cx (vr_ballot v) _ _ _ _ _ e ds medium_valid D1 D2 HK G1 G4 G5 G6 Hen) as (_ & Hval & _).
    split; [exact Hval|]. split; [exact G2|]. destruct (encrypt_ballot_form _ _ _ _ _ _ _ _ _ _ Hen) as (ds' & ecs & _ & _ & Heq). assert (Hst : cb_style e = "full"%string) by (rewrite Heq; exact Hs). clear Heq. split; [exact Hst|].
    assert (Hd : ds = demo_ds) by (rewrite Hs in G1; change "full"%string with (pb_style demo_ballot) in G1; congruence). subst ds. change (cb_contests (sb_ballot (submit_ballot medium e (vr_state v)))) with (cb_contests (sb_ballot (submit_ballot medium e CAST))) in G3.
    destruct (cb_contests (sb_ballot (submit_ballot medium e CAST))) as [|c [|c' [|c'' r]]]; [inversion G3|inversion G3 as [|? ? ? ? ? Z]; inversion Z| |inversion G3 as [|? ? ? ? ? Z]; inversion Z as [|? ? ? ? ? Z']; inversion Z'].
    exists c, c'. split; [reflexivity|]. inversion G3 as [|? ? ? ? A1 A2]; subst. inversion A2 as [|? ? ? ? B1 B2]; subst.
    destruct A1 as (ec & re & ex & vs & Hce & Hc). destruct B1 as (ec' & re' & ex' & vs' & Hce' & Hc').
    split; [pose proof (ce_id _ _ _ _ _ _ _ _ _ _ Hce) as Z; destruct Hc as [-> | ->]; exact Z|]. split; [pose proof (ce_id _ _ _ _ _ _ _ _ _ _ Hce') as Z; destruct Hc' as [-> | ->]; exact Z|].
    split; [pose proof (ce_seq _ _ _ _ _ _ _ _ _ _ Hce) as Z; destruct Hc as [-> | ->]; exact Z|pose proof (ce_seq _ _ _ _ _ _ _ _ _ _ Hce') as Z; destruct Hc' as [-> | ->]; exact Z]. }
  destruct (F voter1 e1 (or_introl eq_refl) eq_refl H1) as (V1 & I1 & S1 & c1 & c2 & C1 & P1 & P2 & P3 & P4).
  destruct (F voter3 e3 (or_intror (or_intror (or_introl eq_refl))) eq_refl H3) as (V3 & I3 & S3 & d1 & d2 & C3 & Q1 & Q2 & Q3 & Q4). clear F.
  exists e1, e3, c1, c2, d1, d2. split; [exact H1|]. split; [exact H3|]. cbv zeta.
  assert (Hx : fst (run_box medium (mkBox (demo_im medium) demo_cx ds_new) [(e1, CAST); (e3, CAST)]) = mkBox (demo_im medium) demo_cx [("ballot-1"%string, submit_ballot medium e1 CAST); ("ballot-3"%string, submit_ballot medium e3 CAST)]).
  { unfold run_box. cbn [fold_left]. unfold box_submit at 1, submit_to_box. cbn [bx_manifest bx_context bx_store]. rewrite V1. change (ds_get ds_new (cb_id e1)) with (@None sub_ballot). cbv beta iota zeta.
    change (sb_id (submit_ballot medium e1 CAST)) with (cb_id e1). rewrite I1. unfold box_submit, submit_to_box. cbn [bx_manifest bx_context bx_store]. rewrite V3, I3.
    change (sb_id (submit_ballot medium e3 CAST)) with (cb_id e3). rewrite I3. reflexivity. }
  rewrite Hx. cbn [bx_store]. split; [reflexivity|]. split; [reflexivity|]. split; [reflexivity|].
  split; [change (cb_style e1 = cb_style e3); congruence|].
  assert (O : forall a b : ct_contest, bc_seq a = cd_seq mayor -> bc_seq b = cd_seq council -> sort_by bc_seq [a; b] = [a; b]).
  { intros a b Ha Hb. apply sort_by_id. constructor; [repeat constructor|]. repeat constructor. rewrite Ha, Hb. vm_compute. discriminate. }
  split; [rewrite C1; apply O; assumption|]. split; [rewrite C3; apply O; assumption|]. split; [exact C1|]. split; [exact C3|].
  constructor; [congruence|congruence|left; reflexivity|]. constructor; [congruence|congruence|right; reflexivity|]. constructor.
Qed.
