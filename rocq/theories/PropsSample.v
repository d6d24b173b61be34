(** * PropsSample: sample elections and the count of plaintext ballots (C71). *)
From Coq Require Import List.
From Verif Require Import Base Group Codec Hash ElGamal Spec Tiny Manifest Ballot Encrypt Box SpecElection SpecTally SpecShares Samples TallySamples SpecEndToEnd EndToEndSamples EncryptThms
  Cli SpecCli CliSamples Mark SpecMark MarkSamples SampleGen SpecSample AccFacts SampleThms SampleSamples.
Local Open Scope Z_scope.
Local Open Scope list_scope.

(** ** C71: the count of plaintext ballots *)
(** for ballots within the rules the count of the entries is the number of votes for every option of the manifest *)
Theorem C71_accumulate : forall E m im bs, manifest_is_valid m = true -> make_internal E m = Ok im -> distinct_option_ids im -> (forall b, In b bs -> allowed_ballot im b) ->
  exists d, accumulate bs = Ok d /\ forall cid oid, in_manifest m cid oid -> counted d oid = SpecCli.marked im bs cid oid.
Proof. intros E m im bs Hv Hm Hd. exact (accumulated E m im Hv Hm Hd bs). Qed.
Print Assumptions C71_accumulate.
Example C71_accumulate_ex : (forall b, In b sample_ballots -> allowed_ballot (demo_im medium) b) /\ exists d, accumulate sample_ballots = Ok d /\ map (counted d) ["mayor-ann"; "mayor-bob"; "council-cy"; "council-di"; "council-ed"]%string = [0; 3; 0; 1; 2].
Proof. split; [exact sample_allowed|]. eexists. split; [vm_compute; reflexivity|]. reflexivity. Qed.
(** an entry for a placeholder is refused, and nothing else is *)
Theorem C71_placeholders : forall bs, (accumulate bs = Err AssertionError <-> exists b c s, In b bs /\ In c (pb_contests b) /\ In s (pc_selections c) /\ ps_placeholder s = true) /\
  (forall e, accumulate bs = Err e -> e = AssertionError).
Proof. intros bs. split; [exact (refused_iff bs)|exact (only_refused bs)]. Qed.
Print Assumptions C71_placeholders.
(** it is not when two contests have an option of the same id *)
Theorem C71_shared_ids_refuted : ~ (forall E m im bs, manifest_is_valid m = true -> make_internal E m = Ok im -> (forall b, In b bs -> allowed_ballot im b) ->
  exists d, accumulate bs = Ok d /\ forall cid oid, in_manifest m cid oid -> counted d oid = SpecCli.marked im bs cid oid).
Proof.
  intros H. destruct (H medium twin_manifest twin_im [twin_ballot] twin_valid twin_internal) as (d & H1 & H2); [intros b [<-|[]]; exact twin_allowed|]. vm_compute in H1. injection H1 as <-.
  assert (Hi : in_manifest twin_manifest "mayor" "mayor-ann") by (exists mayor, (mkSel "mayor-ann" 1 "ann"); cbn; intuition). specialize (H2 _ _ Hi). vm_compute in H2. discriminate.
Qed.
Print Assumptions C71_shared_ids_refuted.
(** nor when a ballot has too many marks: they count here, but not in the tally *)
Theorem C71_overvote_refuted : ~ (forall E m im bs, manifest_is_valid m = true -> make_internal E m = Ok im -> distinct_option_ids im ->
  exists d, accumulate bs = Ok d /\ forall cid oid, in_manifest m cid oid -> counted d oid = SpecCli.marked im bs cid oid).
Proof.
  intros H. destruct demo_setup as (D1 & D2 & _). destruct (H medium demo_manifest (demo_im medium) [over_ballot] D1 D2 demo_distinct) as (d & H1 & H2). vm_compute in H1. injection H1 as <-.
  assert (Hi : in_manifest demo_manifest "mayor" "mayor-ann") by (exists mayor, (mkSel "mayor-ann" 1 "ann"); cbn; intuition). specialize (H2 _ _ Hi). rewrite <- demo_imv_eq in H2. vm_compute in H2. discriminate.
Qed.
Print Assumptions C71_overvote_refuted.

(** ** C71: sample elections *)
(** a sample election comes to its end, and everything it writes down is right: the ballots are within the rules, those whose draw is below
    the rate are spoiled and the others are cast, the tally has the votes of the cast ones (which the count of the plaintext ballots agrees
    with), the spoiled ones are decrypted to their own votes, and the record verifies; with all five guardians or with three of them *)
Theorem C71_sample : forall E ch lk draw m im n rate all, valid_env E -> hmac_32 E -> qq E <= 2 ^ 1024 -> fair E ch -> seats_fit E 5 3 ->
  manifest_is_valid m = true -> make_internal E m = Ok im -> distinct_option_ids im -> honest_luck lk -> NoDup (map (lk_uuid lk) (seq 0 (Z.to_nat n))) ->
  mf_styles m <> [] -> (forall c, In c (mf_contests m) -> 1 <= cd_number_elected c) -> votes_fit E n ->
  (forall bs, fake_ballots im n None false true lk = Ok bs -> forall b, In b bs -> usable_style E im b /\ forall i, can_encrypt E im b (ch_ballot ch i)) ->
  exists s, generate E ch lk draw m n rate all = Ok (Some s) /\ good_sample E m im lk draw n rate all s.
Proof. exact generated. Qed.
Print Assumptions C71_sample.
(** three ballots, of which the second is spoiled; the first has fewer marks than seats *)
Example C71_sample_ex : forall all, (exists s, generate medium cli_chance sample_luck sample_draw demo_manifest 3 50 all = Ok (Some s) /\ good_sample medium demo_manifest (demo_im medium) sample_luck sample_draw 3 50 all s) /\
  map (drawn 50 sample_draw) [0; 1; 2]%nat = [false; true; false] /\ map (fun b => map SpecElection.marked (pb_contests b)) sample_ballots = [[1; 1]; [1]; [1; 2]].
Proof.
  intros all. destruct demo_setup as (D1 & D2 & _). split; [|split; reflexivity].
  apply (C71_sample medium cli_chance sample_luck sample_draw demo_manifest (demo_im medium) 3 50 all medium_valid medium_hmac cli_big cli_fair sample_fit D1 D2 demo_distinct sample_honest sample_ids); [discriminate|exact sample_seats|exact sample_votes|].
  intros bs Hbs. rewrite sample_makes in Hbs. injection Hbs as <-. intros b Hb. split; [exact (sample_usable b Hb)|]. intros i. exact (sample_encrypts b i Hb).
Qed.
(** the ballots it makes can be encrypted, also those with fewer marks than seats *)
Theorem C71_encryptable : forall E m im b ds r, valid_env E -> hmac_32 E -> short_texts E -> Z.of_nat (String.length (contest_data_json E (Some "undervote"%string) None None)) <= 510 ->
  manifest_is_valid m = true -> make_internal E m = Ok im -> allowed_ballot im b -> get_contests_for im (pb_style b) = Ok ds ->
  (forall d, In d ds -> limit_fits E (cd_number_elected (ph_desc d)) /\ seqs_nonneg d /\ usable_nonces E d (hash_elems E [HElem (im_hash im); HStr (pb_id b); HElem (fst r)]) /\ cd_selections (ph_desc d) <> [] /\
     (cd_votes_allowed (ph_desc d) = None \/ cd_votes_allowed (ph_desc d) = Some (cd_number_elected (ph_desc d)))) -> can_encrypt E im b r.
Proof. exact allowed_can_encrypt. Qed.
Print Assumptions C71_encryptable.
Example C71_encryptable_ex : forall b i, In b sample_ballots -> can_encrypt medium (demo_im medium) b (ch_ballot cli_chance i).
Proof. intros b i. exact (sample_encrypts b i). Qed.
(** a ballot is spoiled exactly if the number between 0 and 100 drawn for it is below the rate: none with a rate of at most 0, all with one of
    more than 100 *)
Theorem C71_rate : forall E ch lk draw m n rate all s, generate E ch lk draw m n rate all = Ok (Some s) ->
  (rate <= 0 -> forall sb, In sb (sm_submitted s) -> sb_state sb = CAST) /\ (100 < rate -> forall sb, In sb (sm_submitted s) -> sb_state sb = SPOILED) /\
  (forall i sb, nth_error (sm_submitted s) i = Some sb -> sb_state sb = SPOILED <-> draw i mod 101 < rate).
Proof. exact rates. Qed.
Print Assumptions C71_rate.
(** so with a rate of 100 it may be that nothing is spoiled *)
Example C71_rate_ex : exists s, generate medium cli_chance sample_luck (fun _ => 100) demo_manifest 3 100 true = Ok (Some s) /\ length (sm_submitted s) = 3%nat /\ forall sb, In sb (sm_submitted s) -> sb_state sb = CAST.
Proof.
  destruct demo_setup as (D1 & D2 & _).
  destruct (C71_sample medium cli_chance sample_luck (fun _ => 100) demo_manifest (demo_im medium) 3 100 true medium_valid medium_hmac cli_big cli_fair sample_fit D1 D2 demo_distinct sample_honest sample_ids) as (s & H & G); [discriminate|exact sample_seats|exact sample_votes| |].
  - intros bs Hbs. rewrite sample_makes in Hbs. injection Hbs as <-. intros b Hb. split; [exact (sample_usable b Hb)|]. intros i. exact (sample_encrypts b i Hb).
  - exists s. split; [exact H|]. pose proof (gs_states _ _ _ _ _ _ _ _ _ G) as HS. split; [rewrite <- (map_length sb_state), HS; reflexivity|]. intros sb Hi. apply (in_map sb_state) in Hi. rewrite HS in Hi. vm_compute in Hi. intuition.
Qed.
(** there is no sample election if every ballot style has a contest without seats: the number of marks cannot be drawn *)
Theorem C71_no_seats : forall E ch lk draw m im n rate all, honest_luck lk -> 0 < n -> make_internal E m = Ok im ->
  (forall s, In s (mf_styles m) -> exists ds d, get_contests_for im (bs_id s) = Ok ds /\ In d ds /\ cd_number_elected (ph_desc d) < 1) -> exists e, generate E ch lk draw m n rate all = Err e.
Proof. exact no_seats_no_sample. Qed.
Print Assumptions C71_no_seats.
Example C71_no_seats_ex : exists e, generate medium cli_chance sample_luck sample_draw empty_manifest 3 50 true = Err e.
Proof. exact (C71_no_seats medium cli_chance sample_luck sample_draw empty_manifest empty_im 3 50 true sample_honest eq_refl empty_internal empty_seats). Qed.
