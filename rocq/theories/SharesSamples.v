(** * SharesSamples: a small election to decrypt, and executions of the decryption that go wrong. *)
From Verif Require Import Base Group Codec Hash DLog ElGamal ZK Poly Spec Tiny ListFacts Manifest Ballot Encrypt SpecElection Samples EncryptThms Box Tally SpecTally TallyThms TallySamples
  Ceremony SpecCeremony CeremonyThms Shares SpecShares SharesFacts SharesThms SharesMore.
From Coq Require Import Permutation List.

(** ** a tally of two ballots and a spoiled ballot under the key of three guardians *)
Definition dec_seats : list seat := [mkSeat "alice" 1 [(40, 2); (5, 3)]; mkSeat "bob" 2 [(30, 4); (3, 1)]; mkSeat "carol" 3 [(7, 6); (12, 12)]].
Definition dec_tally : tally := Eval vm_compute in fst (append medium all_up (fst (append medium all_up demo_t0 ann_cast false)) bob_cast false).
Definition dec_count (cid oid : string) : Z := if eqb oid "mayor-ann"%string then 1 else if eqb oid "mayor-bob"%string then 1 else 0.
Definition dec_ballot_count (bid cid oid : string) : Z := if eqb oid "mayor-bob"%string then 1 else 0.
Lemma dec_seats_good : good_seats medium 2 dec_seats.
Proof.
  constructor.
  - cbn. repeat constructor; cbn; intuition discriminate.
  - repeat constructor; discriminate.
  - lia.
  - repeat constructor; cbn; lia.
  - unfold dec_seats. assert (H : forall x, 1 <= x <= 3 -> 0 <= x < qq medium /\ forall j, 0 <= j < Z.of_nat 2 -> x ^ j < pp medium).
    { intros x Hx. cbn [qq pp medium]. split; [lia|]. intros j Hj. assert (j = 0 \/ j = 1) as [->| ->] by lia; [rewrite Z.pow_0_r|rewrite Z.pow_1_r]; lia. }
    constructor; [apply H; cbn; lia|]. constructor; [apply H; cbn; lia|]. constructor; [apply H; cbn; lia|]. constructor.
Qed.
Lemma dec_tally_is : dec_tally = fst (append medium all_up (fst (append medium all_up demo_t0 ann_cast false)) bob_cast false).
Proof. vm_cast_no_check (eq_refl dec_tally). Qed.
Ltac is_enc r := exists r; split; [lia|]; unfold is_encryption; split; [vm_compute; reflexivity|vm_compute; reflexivity].
Lemma dec_tally_encrypts : encrypts_all medium (gexp medium (sumZ (map st_secret dec_seats))) (tally_options dec_tally) dec_count.
Proof.
  intros cid oid ct Hin. cbn in Hin.
  repeat match type of Hin with _ \/ _ => destruct Hin as [Hin|Hin] end; try contradiction; inversion Hin; subst; clear Hin;
  (split; [first [is_enc 0 | is_enc 20 | is_enc 22]|split; [vm_compute; split; congruence|vm_compute; discriminate]]).
Qed.
Lemma dec_tally_distinct : tally_distinct dec_tally.
Proof. split; vm_compute; repeat constructor; cbn; intuition discriminate. Qed.
Lemma dec_ballot_encrypts : encrypts_all medium (gexp medium (sumZ (map st_secret dec_seats))) (ballot_options (sb_ballot bob_spoiled)) (dec_ballot_count (sb_id bob_spoiled)).
Proof.
  intros cid oid ct Hin. cbn in Hin.
  repeat match type of Hin with _ \/ _ => destruct Hin as [Hin|Hin] end; try contradiction; inversion Hin; subst; clear Hin;
  (split; [first [is_enc 15 | is_enc 16 | is_enc 17]|split; [vm_compute; split; congruence|vm_compute; discriminate]]).
Qed.
Lemma dec_ballot_distinct : ballot_distinct (sb_ballot bob_spoiled).
Proof. split; vm_compute; repeat constructor; cbn; intuition discriminate. Qed.
Lemma dec_ready : exists gs, Forall2 (ready_guardian medium dec_seats) dec_seats gs.
Proof.
  destruct (ceremony_ready medium (fun _ _ => 9) 2 dec_seats "m" medium_valid medium_hmac) as (_ & gs & _ & _ & _ & _ & H & _); [vm_compute; discriminate|exact dec_seats_good|lia|].
  exists gs. exact H.
Qed.
Lemma demo_ext : 0 <= cx_ext_hash demo_cx < qq medium.
Proof. unfold demo_cx, make_context. cbn [cx_ext_hash]. apply (ZKFacts.hash_range medium medium_valid). Qed.
Definition dec_available : list seat := [mkSeat "carol" 3 [(7, 6); (12, 12)]; mkSeat "alice" 1 [(40, 2); (5, 3)]].
Lemma dec_quorum : exists gs all_keys, Forall2 (ready_guardian medium dec_seats) dec_available gs /\ Forall2 (key_of medium) dec_seats all_keys.
Proof.
  destruct dec_ready as [gs H]. inversion H as [|? a ? ? Ha H2]; subst. inversion H2 as [|? b ? ? Hb H3]; subst. inversion H3 as [|? c ? ? Hc H4]; subst. inversion H4; subst.
  exists [c; a], [share_key a; share_key b; share_key c]. split; [constructor; [exact Hc|constructor; [exact Ha|constructor]]|].
  constructor; [apply Ha|]. constructor; [apply Hb|]. constructor; [apply Hc|constructor].
Qed.
Lemma dec_holders : exists gs, Forall2 (holder medium) (rev dec_seats) gs.
Proof.
  destruct dec_ready as [gs H]. inversion H as [|? a ? ? Ha H2]; subst. inversion H2 as [|? b ? ? Hb H3]; subst. inversion H3 as [|? c ? ? Hc H4]; subst.
  exists [c; b; a]. cbn [rev app dec_seats]. constructor; [split; apply Hc|]. constructor; [split; apply Hb|]. constructor; [split; apply Ha|constructor].
Qed.

(** ** executions that go wrong, in a small group *)
Definition sm_seats : list seat := [mkSeat "alice" 1 [(3, 1); (2, 5)]; mkSeat "bob" 2 [(4, 2); (1, 7)]; mkSeat "carol" 3 [(5, 3); (6, 2)]].
Definition sm_keys (i : nat) : key_pair :=
  match nth_error sm_seats i with
  | Some s => match generate_election_key_pair tiny (st_id s) (st_seq s) (st_draws s) with Ok k => k | Err _ => mkKeys "" 0 (Build_keypair 0 0) [] end
  | None => mkKeys "" 0 (Build_keypair 0 0) []
  end.
Definition sm_k1 := Eval vm_compute in sm_keys 0. Definition sm_k2 := Eval vm_compute in sm_keys 1. Definition sm_k3 := Eval vm_compute in sm_keys 2.
(** somebody else's secret, under bob's name *)
Definition sm_other := Eval vm_compute in match generate_election_key_pair tiny "bob" 2 [(9, 2); (1, 7)] with Ok k => k | Err _ => sm_k2 end.
Definition sm_manifest : manifest := demo_manifest.
Definition sm_ct (m r secret : Z) : ciphertext := mkCt (gexp tiny r) ((gexp tiny m * gexp tiny secret ^ r) mod 157).
Definition sm_tally (secret : Z) : tally :=
  mkTally "t" demo_imv demo_cx ["b1"; "b2"]%string [] [("mayor"%string, mkTcon "mayor" 1 5 [("mayor-ann"%string, mkTsel "mayor-ann" 1 6 (sm_ct 2 1 secret))])].
Definition sm_count (cid oid : string) : Z := 2.
Definition sm_cx (n q : Z) : context := mkContext n q 1 1 1 1 7.
Definition sm_share (k : key_pair) (t : tally) : dec_share :=
  match compute_decryption_share tiny (fun _ => true) (fun _ _ => 3) k t (sm_cx 2 2) with Some s => s | None => mkShare "" "" 0 [] end.
Definition sm_t2 := Eval vm_compute in sm_tally 7. Definition sm_t3 := Eval vm_compute in sm_tally 12.
Definition sm_honest1 := Eval vm_compute in sm_share sm_k1 sm_t2. Definition sm_foreign := Eval vm_compute in sm_share sm_other sm_t2.
Definition sm_share1 := Eval vm_compute in sm_share sm_k1 sm_t3. Definition sm_share2 := Eval vm_compute in sm_share sm_k2 sm_t3.
Definition sm_failed := Eval vm_compute in match compute_decryption_share tiny (fun _ => false) (fun _ _ => 3) sm_k2 sm_t2 (sm_cx 2 2) with Some s => s | None => mkShare "" "" 0 [] end.
Lemma sm_encrypts2 : encrypts_all tiny (gexp tiny 7) (tally_options sm_t2) sm_count /\ tally_distinct sm_t2.
Proof.
  split; [|split; vm_compute; repeat constructor; cbn; intuition discriminate].
  intros cid oid ct Hin. cbn in Hin. destruct Hin as [Hin|[]]. inversion Hin; subst. split; [is_enc 1|split; [vm_compute; split; congruence|vm_compute; discriminate]].
Qed.
Lemma sm_encrypts3 : encrypts_all tiny (gexp tiny 12) (tally_options sm_t3) sm_count /\ tally_distinct sm_t3.
Proof.
  split; [|split; vm_compute; repeat constructor; cbn; intuition discriminate].
  intros cid oid ct Hin. cbn in Hin. destruct Hin as [Hin|[]]. inversion Hin; subst. split; [is_enc 1|split; [vm_compute; split; congruence|vm_compute; discriminate]].
Qed.
Ltac by_vm := vm_compute; reflexivity.
(** a guardian that announces itself with its own key and a share made with another key is believed *)
Lemma foreign_key : exists E cx t mf M s1 s2 k1 k2 sh1 sh2 p, valid_env E /\ key_of E s1 k1 /\ key_of E s2 k2 /\ tally_distinct t /\
  encrypts_all E (gexp E (st_secret s1 + st_secret s2)) (tally_options t) M /\ right_share E s1 (tally_options t) sh1 /\ sh_guardian sh2 = st_id s2 /\
  dm_plaintext_tally E (dm_run E (new_dmediator "m" cx) [Present k1 sh1 None; Present k2 sh2 None]) t mf = Ok (Some p) /\
  exists cid oid v, count_of p cid oid = Some v /\ v <> M cid oid.
Proof.
  exists tiny, (sm_cx 2 2), sm_t2, sm_manifest, sm_count, (mkSeat "alice" 1 [(3, 1); (2, 5)]), (mkSeat "bob" 2 [(4, 2); (1, 7)]), (share_keys sm_k1), (share_keys sm_k2), sm_honest1, sm_foreign.
  eexists. split; [exact tiny_valid|]. split; [repeat split; by_vm|]. split; [repeat split; by_vm|]. destruct sm_encrypts2 as [H1 H2]. split; [exact H2|]. split; [exact H1|].
  split; [split; [reflexivity|split; [by_vm|]]; intros cid oid ct Hin; cbn in Hin; destruct Hin as [Hin|[]]; inversion Hin; subst; by_vm|].
  split; [reflexivity|]. split; [by_vm|]. exists "mayor"%string, "mayor-ann"%string. eexists. split; [by_vm|]. vm_compute. discriminate.
Qed.
(** without any compensated share the missing guardian's share is reconstructed as 1 and passes its check *)
Lemma no_compensation : exists E cx t mf M s1 s2 s3 k1 k2 k3 sh1 sh2 p, valid_env E /\ key_of E s1 k1 /\ key_of E s2 k2 /\ key_of E s3 k3 /\ tally_distinct t /\
  encrypts_all E (gexp E (st_secret s1 + st_secret s2 + st_secret s3)) (tally_options t) M /\
  right_share E s1 (tally_options t) sh1 /\ right_share E s2 (tally_options t) sh2 /\
  dm_plaintext_tally E (dm_run E (new_dmediator "m" cx) [Present k1 sh1 None; Present k2 sh2 None; Absent k3; Rebuild t]) t mf = Ok (Some p) /\
  exists cid oid v, count_of p cid oid = Some v /\ v <> M cid oid.
Proof.
  exists tiny, (sm_cx 3 2), sm_t3, sm_manifest, sm_count, (mkSeat "alice" 1 [(3, 1); (2, 5)]), (mkSeat "bob" 2 [(4, 2); (1, 7)]), (mkSeat "carol" 3 [(5, 3); (6, 2)]),
    (share_keys sm_k1), (share_keys sm_k2), (share_keys sm_k3), sm_share1, sm_share2.
  eexists. split; [exact tiny_valid|]. do 3 (split; [repeat split; by_vm|]). destruct sm_encrypts3 as [H1 H2]. split; [exact H2|]. split; [exact H1|].
  do 2 (split; [split; [reflexivity|split; [by_vm|]]; intros cid oid ct Hin; cbn in Hin; destruct Hin as [Hin|[]]; inversion Hin; subst; by_vm|]).
  split; [by_vm|]. exists "mayor"%string, "mayor-ann"%string. eexists. split; [by_vm|]. vm_compute. discriminate.
Qed.
(** a compensated share made with a wrong coordinate passes its check, because the recovery key it is checked
    against is the one it carries *)
Definition sm_comp (y : Z) (k : key_pair) : comp_share :=
  let cs := match sm_t3 with t => map tally_cc (dvals (ty_contests t)) end in
  let recovery := gexp tiny y in
  mkCompShare "t" (ek_owner k) "carol" (kp_public (ek_pair k))
    (map (fun c => (cc_id c, mkCompCon (cc_id c) (ek_owner k) "carol" (cc_hash c)
       (map (fun s => let '(share, pf) := decrypt_with_threshold tiny y (snd s) 7 3 in (fst s, mkCompSel (fst s) (ek_owner k) "carol" share recovery pf)) (cc_selections c)))) cs).
Definition sm_comp1 := Eval vm_compute in sm_comp ((5 + 6) mod 13 + 1) sm_k1.   (* the right coordinate is 11 *)
Definition sm_comp2 := Eval vm_compute in sm_comp ((5 + 12) mod 13) sm_k2.
Lemma wrong_coordinate : exists E cx t mf M s1 s2 s3 k1 k2 k3 sh1 sh2 c1 c2 p, valid_env E /\ key_of E s1 k1 /\ key_of E s2 k2 /\ key_of E s3 k3 /\ tally_distinct t /\
  encrypts_all E (gexp E (st_secret s1 + st_secret s2 + st_secret s3)) (tally_options t) M /\
  right_share E s1 (tally_options t) sh1 /\ right_share E s2 (tally_options t) sh2 /\
  csh_guardian c1 = st_id s1 /\ csh_missing c1 = st_id s3 /\ csh_guardian c2 = st_id s2 /\ csh_missing c2 = st_id s3 /\
  dm_plaintext_tally E (dm_run E (new_dmediator "m" cx) [Present k1 sh1 None; Present k2 sh2 None; Absent k3; Compensate c1; Compensate c2; Rebuild t]) t mf = Ok (Some p) /\
  exists cid oid v, count_of p cid oid = Some v /\ v <> M cid oid.
Proof.
  exists tiny, (sm_cx 3 2), sm_t3, sm_manifest, sm_count, (mkSeat "alice" 1 [(3, 1); (2, 5)]), (mkSeat "bob" 2 [(4, 2); (1, 7)]), (mkSeat "carol" 3 [(5, 3); (6, 2)]),
    (share_keys sm_k1), (share_keys sm_k2), (share_keys sm_k3), sm_share1, sm_share2, sm_comp1, sm_comp2.
  eexists. split; [exact tiny_valid|]. do 3 (split; [repeat split; by_vm|]). destruct sm_encrypts3 as [H1 H2]. split; [exact H2|]. split; [exact H1|].
  do 2 (split; [split; [reflexivity|split; [by_vm|]]; intros cid oid ct Hin; cbn in Hin; destruct Hin as [Hin|[]]; inversion Hin; subst; by_vm|]).
  do 4 (split; [reflexivity|]). split; [by_vm|]. exists "mayor"%string, "mayor-ann"%string. eexists. split; [by_vm|]. vm_compute. discriminate.
Qed.
(** when the pool fails the share of the contest is empty, is not reported as a failure, and the tally shown is wrong *)
Lemma failed_pool_share : exists E up rnd cx t mf M s1 s2 k2 k1 sh1 sh2 p, valid_env E /\ key_of E s1 k1 /\ holder E s2 (new_guardian k2 (mkDetails 2 2) [] [] [] []) /\
  tally_distinct t /\ encrypts_all E (gexp E (st_secret s1 + st_secret s2)) (tally_options t) M /\ right_share E s1 (tally_options t) sh1 /\
  compute_decryption_share E up rnd k2 t cx = Some sh2 /\ (forall c, up c = false) /\
  dm_plaintext_tally E (dm_run E (new_dmediator "m" cx) [Present k1 sh1 None; Present (share_keys k2) sh2 None]) t mf = Ok (Some p) /\
  exists cid oid v, count_of p cid oid = Some v /\ v <> M cid oid.
Proof.
  exists tiny, (fun _ => false), (fun _ _ => 3), (sm_cx 2 2), sm_t2, sm_manifest, sm_count, (mkSeat "alice" 1 [(3, 1); (2, 5)]), (mkSeat "bob" 2 [(4, 2); (1, 7)]), sm_k2, (share_keys sm_k1),
    sm_honest1, sm_failed.
  eexists. split; [exact tiny_valid|]. split; [repeat split; by_vm|]. split; [repeat split; by_vm|]. destruct sm_encrypts2 as [H1 H2]. split; [exact H2|]. split; [exact H1|].
  split; [split; [reflexivity|split; [by_vm|]]; intros cid oid ct Hin; cbn in Hin; destruct Hin as [Hin|[]]; inversion Hin; subst; by_vm|].
  split; [by_vm|]. split; [reflexivity|]. split; [by_vm|]. exists "mayor"%string, "mayor-ann"%string. eexists. split; [by_vm|]. vm_compute. discriminate.
Qed.
(** two yes/no questions whose options have the same ids: the manifest is valid, the guardian honest, and there is no result *)
Definition sm_question (id : string) (seq : Z) : contest_desc :=
  mkContest id seq "county" "one_of_m" 1 (Some 1) "Question" [mkSel "yes" 1 "ann"; mkSel "no" 2 "bob"] None None None.
Definition sm_questions : manifest := mkManifest "demo" "v0.95" "primary" "2020-03-01T08:00:00Z" "2020-03-01T20:00:00Z"
  (mf_gp_units demo_manifest) (mf_parties demo_manifest) (mf_candidates demo_manifest) [sm_question "q1" 1; sm_question "q2" 2] (mf_styles demo_manifest) None None.
Definition sm_qtally : tally := Eval vm_compute in
  let con id a b := (id, mkTcon id 1 5 [("yes"%string, mkTsel "yes" 1 6 a); ("no"%string, mkTsel "no" 2 6 b)]) in
  mkTally "t" demo_imv demo_cx ["b1"; "b2"]%string [] [con "q1"%string (sm_ct 2 1 3) (sm_ct 0 2 3); con "q2"%string (sm_ct 1 3 3) (sm_ct 1 4 3)].
Definition sm_qcount (cid oid : string) : Z := if eqb cid "q1"%string then if eqb oid "yes"%string then 2 else 0 else 1.
Definition sm_solo : guardian := Eval vm_compute in new_guardian (match generate_election_key_pair tiny "alice" 1 [(3, 1)] with Ok k => k | Err _ => sm_k1 end) (mkDetails 1 1) [] [] [] [].
Lemma same_option_ids : exists E up rnd cx t mf M s g m, valid_env E /\ manifest_is_valid mf = true /\ good_seats E 1 [s] /\ holder E s g /\
  cx_guardians cx = 1 /\ cx_quorum cx = 1 /\ (forall path, up path = true) /\
  NoDup (map tc_id (dvals (ty_contests t))) /\ encrypts_all E (gexp E (st_secret s)) (tally_options t) M /\
  decryption_setup E up rnd [g] (new_dmediator "m" cx) cx t [] = Ok m /\ dm_plaintext_tally E m t mf = Ok None.
Proof.
  exists tiny, (fun _ => true), (fun _ => 3), (sm_cx 1 1), sm_qtally, sm_questions, sm_qcount, (mkSeat "alice" 1 [(3, 1)]).
  exists sm_solo. eexists.
  split; [exact tiny_valid|]. split; [by_vm|]. split.
  { constructor; [repeat constructor; cbn; tauto|repeat constructor; discriminate|lia|repeat constructor; cbn; lia|].
    constructor; [|constructor]. cbn. split; [lia|]. intros j Hj. replace j with 0 by lia. cbn. lia. }
  split; [repeat split; by_vm|]. do 3 (split; [reflexivity|]). split; [vm_compute; repeat constructor; cbn; intuition discriminate|]. split.
  { intros cid oid ct Hin. cbn in Hin.
    repeat match type of Hin with _ \/ _ => destruct Hin as [Hin|Hin] end; try contradiction; inversion Hin; subst; clear Hin;
    (split; [first [is_enc 1 | is_enc 2 | is_enc 3 | is_enc 4]|split; [vm_compute; split; congruence|vm_compute; discriminate]]). }
  split; [by_vm|]. by_vm.
Qed.

(** alice's entry for the option, with the commitments g^6 and A^6 and the challenge of the given oracle *)
Definition sm_fork (E : env) : dec_sel :=
  let ct := sm_ct 2 1 12 in let share := ct_pad ct ^ 3 mod 157 in let a := gexp tiny 6 in let b := ct_pad ct ^ 6 mod 157 in
  let c := hash_elems E [HElem 7; HElem (ct_pad ct); HElem (ct_data ct); HElem a; HElem b; HElem share] in
  create_with_proof "mayor-ann" "alice" share (mkCp a b c ((6 + c * 3) mod 13)).
