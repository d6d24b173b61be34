(** * PropsDecrypt: the properties of decryption with the election secret or with the nonces (C25).
    Only theorems and non-vacuity examples; the vocabulary is in Spec.v and SpecElection.v. *)
From Verif Require Import Base Group Codec Hash DLog ElGamal ZK Manifest Ballot Encrypt DecryptSecrets Box Spec SpecElection
  Tiny Samples GroupFacts EncryptThms SecretsFacts.
From Coq Require Import List.

(** ** C25: decryption with the secret key or the nonce *)
(** The secret key opens every ballot made by encrypt_ballot, and every submitted copy of it, to the votes
    recorded for the voter, with the placeholders left out or filled up to the number of seats.  This holds
    with the validity check switched off; with it on, the contests must be in ballot order and their limits small
    enough for the proofs. *)
Theorem C25_secret_opens : forall E m im cx b secret eseed nonce verify rand now eb ds suppress remove x,
  valid_env E -> 1 <= dmax E -> manifest_is_valid m = true -> make_internal E m = Ok im ->
  0 <= secret -> cx_key cx = gexp E secret ->
  get_contests_for im (pb_style b) = Ok ds -> (forall d, In d ds -> distinct_ids d) ->
  (suppress = false -> ds <> [] /\ in_order ds /\ forall d, In d ds -> limit_fits E (cd_number_elected (ph_desc d))) ->
  encrypt_ballot E b im cx eseed nonce verify rand now = Ok (Some eb) ->
  (x = eb \/ exists st, x = sb_ballot (submit_ballot E eb st)) ->
  ballot_with_secret E x im (cx_ext_hash cx) (cx_key cx) secret suppress remove = Ok (Some (opened_ballot b ds remove)).
Proof. intros. refine (secret_opens E m im cx b secret eseed nonce verify rand now eb ds _ _ _ _ _ _ _ _ suppress _ _ x remove _); assumption. Qed.
Print Assumptions C25_secret_opens.
(** So does the ballot's nonce, which may be left out for a ballot that still carries it. *)
Theorem C25_nonce_opens : forall E m im cx b secret eseed nonce verify rand now eb ds suppress remove x n,
  valid_env E -> 1 <= dmax E -> manifest_is_valid m = true -> make_internal E m = Ok im ->
  0 <= secret -> cx_key cx = gexp E secret ->
  get_contests_for im (pb_style b) = Ok ds -> (forall d, In d ds -> distinct_ids d) ->
  (suppress = false -> ds <> [] /\ in_order ds /\ forall d, In d ds -> limit_fits E (cd_number_elected (ph_desc d))) ->
  encrypt_ballot E b im cx eseed nonce verify rand now = Ok (Some eb) ->
  (x = eb \/ exists st, x = sb_ballot (submit_ballot E eb st)) ->
  (n = Some (match nonce with Some n => n | None => rand end) \/ n = None /\ x = eb) ->
  ballot_with_nonce E x im (cx_ext_hash cx) (cx_key cx) n suppress remove = Ok (Some (opened_ballot b ds remove)).
Proof. intros. refine (nonce_opens E m im cx b secret eseed nonce verify rand now eb ds _ _ _ _ _ _ _ _ suppress _ _ x n remove _ _); assumption. Qed.
Print Assumptions C25_nonce_opens.
(** A ballot that still carries its nonces is never opened to anything else, whatever nonce is supplied. *)
Theorem C25_wrong_nonce_noticed : forall E m im cx b secret eseed nonce verify rand now eb ds suppress remove n,
  valid_env E -> 1 <= dmax E -> manifest_is_valid m = true -> make_internal E m = Ok im ->
  0 <= secret -> cx_key cx = gexp E secret ->
  get_contests_for im (pb_style b) = Ok ds -> (forall d, In d ds -> distinct_ids d) ->
  (suppress = false -> ds <> [] /\ in_order ds /\ forall d, In d ds -> limit_fits E (cd_number_elected (ph_desc d))) ->
  encrypt_ballot E b im cx eseed nonce verify rand now = Ok (Some eb) ->
  let answer := ballot_with_nonce E eb im (cx_ext_hash cx) (cx_key cx) (Some n) suppress remove in
  answer = Ok (Some (opened_ballot b ds remove)) \/ answer = Ok None.
Proof. intros. refine (wrong_nonce_noticed E m im cx b secret eseed nonce verify rand now eb ds _ _ _ _ _ _ _ _ suppress _ _ n remove); assumption. Qed.
Print Assumptions C25_wrong_nonce_noticed.
(** a voter who picks Bob for mayor and only Di for council: one council placeholder is filled *)
Example C25_ex : opened_ballot demo_ballot demo_ds false = mkPbal "ballot-1" "full"
   [mkPcon "mayor" [mkPsel "mayor-ann" 0 false None; mkPsel "mayor-bob" 1 false None; mkPsel "mayor-3-placeholder" 0 true None];
    mkPcon "council" [mkPsel "council-cy" 0 false None; mkPsel "council-di" 1 false None; mkPsel "council-ed" 0 false None;
      mkPsel "council-4-placeholder" 1 true None; mkPsel "council-5-placeholder" 0 true None]] /\
  (valid_env medium /\ 1 <= dmax medium /\ manifest_is_valid demo_manifest = true /\ make_internal medium demo_manifest = Ok (demo_im medium) /\
   cx_key demo_cx = gexp medium 77 /\ get_contests_for (demo_im medium) (pb_style demo_ballot) = Ok demo_ds /\
   (forall d, In d demo_ds -> distinct_ids d) /\ demo_ds <> [] /\ in_order demo_ds /\
   (forall d, In d demo_ds -> limit_fits medium (cd_number_elected (ph_desc d))) /\
   encrypt_ballot medium demo_ballot (demo_im medium) demo_cx 5 (Some 11) true 0 100 = Ok (Some demo_eb)).
Proof.
  destruct demo_setup as (H1 & H2 & H3 & H4 & H5 & H6).
  split; [vm_compute; reflexivity|]. split; [exact medium_valid|]. split; [vm_compute; discriminate|]. split; [exact H1|]. split; [exact H2|].
  split; [reflexivity|]. split; [exact H3|]. split.
  - intros d [<-|[<-|[]]]; unfold distinct_ids; vm_compute; repeat constructor; cbn; intuition discriminate.
  - split; [exact H4|]. split; [exact H5|]. split; [exact H6|exact demo_eb_ok].
Qed.
