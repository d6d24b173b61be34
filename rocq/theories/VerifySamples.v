(** * VerifySamples: literal plaintexts and tallies for the examples of the verification properties. *)
From Verif Require Import Base Group Codec Hash DLog ElGamal ZK Spec Tiny Manifest Ballot Encrypt SpecElection Samples EncryptThms Box Tally SpecTally TallySamples BoxTallyRefuted
  Ceremony SpecCeremony Shares SpecShares SharesThms SharesSamples Verify SpecVerify.
From Coq Require Import List.

Definition no_plain : plain_tally := mkPlainTally "" [].
Definition get_plain (r : res (option plain_tally)) : plain_tally := match r with Ok (Some p) => p | _ => no_plain end.
(** the two guardians' decryption of sm_t2, which holds two votes *)
Definition vf_run : list dm_call := [Present (share_keys sm_k1) sm_honest1 None; Present (share_keys sm_k2) (sm_share sm_k2 sm_t2) None].
Definition vf_plain : plain_tally := Eval vm_compute in get_plain (dm_plaintext_tally tiny (dm_run tiny (new_dmediator "m" (sm_cx 2 2)) vf_run) sm_t2 sm_manifest).
Definition vf_keys : dict string public_key := Eval vm_compute in [("alice"%string, share_keys sm_k1); ("bob"%string, share_keys sm_k2)].
(** the plaintext with every count replaced, and every list of shares *)
Definition recount (f : Z -> Z) (g : list dec_sel -> list dec_sel) (p : plain_tally) : plain_tally :=
  mkPlainTally (pt_id p) (map (fun kc => (fst kc, mkPlainCon (pn_id (snd kc)) (map (fun ks => (fst ks, mkPlainSel (pl_id (snd ks)) (f (pl_tally (snd ks))) (pl_value (snd ks)) (pl_message (snd ks)) (g (pl_shares (snd ks)))))
    (pn_selections (snd kc))))) (pt_contests p)).
Definition bad_share (d : dec_sel) : dec_sel := mkDecSel (dc_id d) (dc_guardian d) (dc_share d + 1) (dc_proof d) (dc_parts d).
(** carol is missing; alice and bob stand in with the right coordinates *)
Definition vf_comp1 := Eval vm_compute in sm_comp 11 sm_k1. Definition vf_comp2 := Eval vm_compute in sm_comp 4 sm_k2.
Definition vf_run3 : list dm_call := [Present (share_keys sm_k1) sm_share1 None; Present (share_keys sm_k2) sm_share2 None; Absent (share_keys sm_k3); Compensate vf_comp1; Compensate vf_comp2; Rebuild sm_t3].
Definition vf_plain3 : plain_tally := Eval vm_compute in get_plain (dm_plaintext_tally tiny (dm_run tiny (new_dmediator "m" (sm_cx 3 2)) vf_run3) sm_t3 sm_manifest).
Definition vf_keys3 : dict string public_key := Eval vm_compute in vf_keys ++ [("carol"%string, share_keys sm_k3)].
Lemma recount_shares f p o ct d : shown_share p o ct d <-> shown_share (recount f (fun l => l) p) o ct d.
Proof.
  unfold shown_share, recount. cbn [pt_contests]. split; intros (cid & pc & ps & H1 & H2 & H3 & H4).
  - exists cid. do 2 eexists. split; [apply in_map_iff; exists (cid, pc); split; [reflexivity|exact H1]|]. cbn [pn_selections snd]. split; [apply in_map_iff; exists (o, ps); split; [reflexivity|exact H2]|]. auto.
  - apply in_map_iff in H1. destruct H1 as ([cid' pc'] & H1 & H1'). injection H1 as E1 E2; subst cid pc. cbn [pn_selections snd] in H2. apply in_map_iff in H2. destruct H2 as ([o' ps'] & H2 & H2'). injection H2 as E3 E4; subst o ps.
    cbn [fst snd pl_message pl_shares] in *. exists cid', pc', ps'. auto.
Qed.
Lemma wrong_count_accepted : exists E cx t mf M keys m p p' cid oid v, valid_env E /\ encrypts_all E (gexp E 7) (tally_options t) M /\
  dm_plaintext_tally E m t mf = Ok (Some p) /\ count_of p cid oid = Some (M cid oid) /\ verify_decryption E p keys cx = Ok verified /\
  (forall o ct d, shown_share p o ct d <-> shown_share p' o ct d) /\ count_of p' cid oid = Some v /\ v <> M cid oid /\ verify_decryption E p' keys cx = Ok verified.
Proof.
  exists tiny, (sm_cx 2 2), sm_t2, sm_manifest, sm_count, vf_keys, (dm_run tiny (new_dmediator "m" (sm_cx 2 2)) vf_run), vf_plain, (recount (fun v => v + 5) (fun l => l) vf_plain), "mayor"%string, "mayor-ann"%string, 7.
  split; [exact tiny_valid|]. split; [apply sm_encrypts2|]. split; [by_vm|]. split; [reflexivity|]. split; [by_vm|]. split; [intros; apply recount_shares|]. split; [by_vm|]. split; [discriminate|]. by_vm.
Qed.
Lemma no_shares_accepted : exists E cx t mf M keys m p p' cid oid v, valid_env E /\ encrypts_all E (gexp E 7) (tally_options t) M /\
  dm_plaintext_tally E m t mf = Ok (Some p) /\ keys <> [] /\ (forall o ct d, ~ shown_share p' o ct d) /\
  map fst (pt_contests p') = map fst (pt_contests p) /\ count_of p' cid oid = Some v /\ v <> M cid oid /\ verify_decryption E p' keys cx = Ok verified.
Proof.
  exists tiny, (sm_cx 2 2), sm_t2, sm_manifest, sm_count, vf_keys, (dm_run tiny (new_dmediator "m" (sm_cx 2 2)) vf_run), vf_plain, (recount (fun v => v + 5) (fun l => []) vf_plain), "mayor"%string, "mayor-ann"%string, 7.
  split; [exact tiny_valid|]. split; [apply sm_encrypts2|]. split; [by_vm|]. split; [discriminate|]. split; [|split; [reflexivity|split; [by_vm|split; [discriminate|by_vm]]]].
  intros o ct d (cid & pc & ps & H1 & H2 & H3 & H4). cbn in H1. destruct H1 as [H1|[]]. inversion H1; subst. cbn in H2. destruct H2 as [H2|[]]. inversion H2; subst. destruct H4.
Qed.
Lemma missing_guardian_raises : exists E cx t mf M s1 s2 s3 k1 k2 k3 sh1 sh2 c1 c2 p keys, valid_env E /\ key_of E s1 k1 /\ key_of E s2 k2 /\ key_of E s3 k3 /\ tally_distinct t /\
  encrypts_all E (gexp E (st_secret s1 + st_secret s2 + st_secret s3)) (tally_options t) M /\
  dm_plaintext_tally E (dm_run E (new_dmediator "m" cx) [Present k1 sh1 None; Present k2 sh2 None; Absent k3; Compensate c1; Compensate c2; Rebuild t]) t mf = Ok (Some p) /\
  (forall cid oid ct, In (cid, oid, ct) (tally_options t) -> count_of p cid oid = Some (M cid oid)) /\
  keys = [(pk_owner k1, k1); (pk_owner k2, k2); (pk_owner k3, k3)] /\ verify_decryption E p keys cx = Err AttributeError.
Proof.
  exists tiny, (sm_cx 3 2), sm_t3, sm_manifest, sm_count, (mkSeat "alice" 1 [(3, 1); (2, 5)]), (mkSeat "bob" 2 [(4, 2); (1, 7)]), (mkSeat "carol" 3 [(5, 3); (6, 2)]),
    (share_keys sm_k1), (share_keys sm_k2), (share_keys sm_k3), sm_share1, sm_share2, vf_comp1, vf_comp2, vf_plain3, vf_keys3.
  split; [exact tiny_valid|]. do 3 (split; [repeat split; by_vm|]). destruct sm_encrypts3 as [H1 H2]. split; [exact H2|]. split; [exact H1|]. split; [by_vm|].
  split; [intros cid oid ct Hin; cbn in Hin; destruct Hin as [Hin|[]]; inversion Hin; subst; by_vm|]. split; [by_vm|]. by_vm.
Qed.
Definition blank_ballot : ct_ballot := Eval vm_compute in
  let b := mkCbal "nobody" "county-only" (im_hash (demo_im medium)) 3 [] 7 100 0 None in
  mkCbal "nobody" "county-only" (im_hash (demo_im medium)) 3 [] 7 100 (ballot_crypto_hash_with medium b (im_hash (demo_im medium))) None.
Lemma empty_ballot_verifies : exists E b m im cx, valid_env E /\ manifest_is_valid m = true /\ make_internal E m = Ok im /\ cb_contests b = [] /\
  ballot_valid_for_election E b im cx true = Ok false /\ verify_ballot E b m cx = Ok verified.
Proof.
  destruct demo_setup as (D1 & D2 & _). exists medium, blank_ballot, demo_manifest, (demo_im medium), demo_cx. split; [exact medium_valid|]. split; [exact D1|]. split; [exact D2|]. split; [reflexivity|].
  split; [rewrite <- demo_imv_eq; by_vm|]. by_vm.
Qed.
