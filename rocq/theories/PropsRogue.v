(** * PropsRogue: one guardian can choose the joint key (C65).
    Only theorems and non-vacuity examples; the vocabulary is in SpecRogue.v, SpecCeremony.v and Spec.v. *)
From Verif Require Import Base Group Spec Tiny SpecElection Codec Hash DLog ElGamal ZK Poly EncryptThms CeremonyThms Ceremony SpecCeremony SpecRogue RogueThms.
Import List.

(** ** C65: no proof is checked *)
(** Nothing in the ceremony looks at the proofs that come with a key, or compares the key with the first commitment.  Any number of honest guardians, and one more that follows the ceremony
    except for the key it announces, which it computes from the announced keys of the others and any number [a]; and it approves the backups it gets without reading them.  Every guardian's
    backup is accepted by every honest guardian, the mediator publishes the joint key, and the joint key is g to the [a]: the one guardian decrypts alone whatever is encrypted with it. *)
Theorem C65_joint_secret_refuted : forall E rnd k ss evil mid a, valid_env E -> hmac_32 E -> qq E <= 2 ^ 1024 -> good_seats E k (ss ++ [evil]) ->
  (forall a b, 0 <= rnd a b) -> 0 <= a < qq E -> let n := len (ss ++ [evil]) in
  exists gs g K gs' m,
    rmapM (fun s => guardian_from_nonce E (st_id s) (st_seq s) n (Z.of_nat k) (st_draws s)) ss = Ok gs
    /\ guardian_from_nonce E (st_id evil) (st_seq evil) n (Z.of_nat k) (st_draws evil) = Ok g
    /\ cancelling E a (map (fun g => pk_key (share_key g)) gs) = Ok K
    /\ (do r1 <- round_1 (gs ++ [publishing K g]) (new_mediator mid (mkDetails n (Z.of_nat k))); round_2 E rnd (fst r1) (snd r1)) = Ok (gs', m)
    /\ map gd_id gs' = map st_id (ss ++ [evil])
    /\ (forall i o, In i gs' -> In o gs' -> gd_id i <> st_id evil -> gd_id o <> gd_id i -> gd_verify_backup E i (gd_id o) = Ok (mkVerif (gd_id o) (gd_id i) (gd_id i) true))
    /\ exists j, md_publish_joint_key E (receive_verifications m (all_approve (map gd_id gs'))) = Some j /\ jk_key j = gexp E a
       /\ forall v r, 0 <= v < qq E -> v <= dmax E -> 0 < r -> exists c, elgamal_encrypt E v r (jk_key j) = Ok (Some c) /\ elgamal_decrypt E c a = Ok v.
Proof. exact rogue_joint_key. Qed.
Print Assumptions C65_joint_secret_refuted.
(** three guardians, any two of which should be needed *)
Example C65_example : valid_env medium /\ hmac_32 medium /\ qq medium <= 2 ^ 1024 /\ good_seats medium 2 (removelast demo_seats ++ [last demo_seats (mkSeat "" 0 [])]) /\
  List.length (removelast demo_seats) = 2%nat.
Proof. split; [exact medium_valid|]. split; [exact medium_hmac|]. split; [vm_compute; discriminate|]. split; [exact demo_seats_good|reflexivity]. Qed.

(** The proofs would have told: the proof that comes with an honest guardian's key is one for that key, and a guardian that announces another key still sends the proofs of its own secret, so
    comparing the first proof with the key, as the design of the proofs intends, would refuse the announcement. *)
Theorem C65_proofs_tell : forall E id seq n q draws g K, guardian_from_nonce E id seq n q draws = Ok g ->
  exists p, hd_error (pk_proofs (share_key g)) = Some p /\ s_key p = pk_key (share_key g)
    /\ hd_error (pk_proofs (share_key (publishing K g))) = Some p /\ pk_key (share_key (publishing K g)) = K
    /\ (K <> pk_key (share_key g) -> s_key p <> pk_key (share_key (publishing K g))).
Proof. exact proofs_tell. Qed.
Print Assumptions C65_proofs_tell.
Example C65_proofs_example : exists g, guardian_from_nonce medium "a" 1 2 2 [(3, 4); (5, 6)] = Ok g /\ 1 <> pk_key (share_key g).
Proof. eexists. split; [reflexivity|]. vm_compute. discriminate. Qed.
