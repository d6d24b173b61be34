(** * PropsCli: the command line programs (C61). *)
From Coq Require Import Permutation List.
From Verif Require Import Base Group Codec Hash ElGamal Spec Tiny Manifest Ballot Encrypt SpecElection Samples Box Tally SpecTally TallySamples Ceremony SpecCeremony Shares SpecShares Verify
  SpecVerify SpecEndToEnd EndToEndSamples GuiDecrypt GuiElection Report SpecReport Cli SpecCli CliE2e CliThms CliSamples EncryptThms CliNames.
Local Open Scope Z_scope.
Local Open Scope list_scope.

(** ** C61: the election of the e2e command *)
(** whatever is printed is the number of marks on the ballots that were not named as spoiled, and the spoiled ballot with its own votes *)
Theorem C61_printed : forall E ch n k m im mp bp sp orec okeys dk bs out,
  valid_env E -> hmac_32 E -> qq E <= 2 ^ 1024 -> fair E ch -> seats_fit E n k ->
  make_internal E m = Ok im -> distinct_option_ids im -> proper_disk dk -> dget mp (dk_files dk) = Some (JManifest m) -> plain_ballots dk bp bs ->
  (forall b, In b bs -> usable_style E im b) -> votes_fit E (len bs) ->
  oc_printed (e2e E ch n k mp bp sp orec okeys dk) = Some out ->
  manifest_is_valid m = true /\ NoDup (map pb_id bs) /\ shows_election m im (cast_of sp bs) (spoiled_of sp bs) out.
Proof. intros. eapply e2e_printed; eassumption. Qed.
Print Assumptions C61_printed.
(** and something is printed, for every number of guardians and every quorum, in whatever order the ballots are listed *)
Theorem C61_prints : forall E ch n k m im mp bp sp orec okeys dk bs,
  valid_env E -> hmac_32 E -> qq E <= 2 ^ 1024 -> fair E ch -> seats_fit E n k ->
  make_internal E m = Ok im -> distinct_option_ids im -> proper_disk dk -> dget mp (dk_files dk) = Some (JManifest m) -> plain_ballots dk bp bs ->
  (forall b, In b bs -> usable_style E im b) -> votes_fit E (len bs) ->
  manifest_is_valid m = true -> (exists nm, get_name m = Ok nm) -> NoDup (map pb_id bs) -> (forall i b, In b bs -> can_encrypt E im b (ch_ballot ch i)) ->
  exists out, oc_printed (e2e E ch n k mp bp sp orec okeys dk) = Some out /\ shows_election m im (cast_of sp bs) (spoiled_of sp bs) out.
Proof. intros. eapply e2e_prints; eassumption. Qed.
Print Assumptions C61_prints.
(** when the command ends without an error it has printed the results and written an archive with the record of this election *)
Theorem C61_record : forall E ch n k m im mp bp sp orec okeys dk bs,
  valid_env E -> hmac_32 E -> qq E <= 2 ^ 1024 -> fair E ch -> seats_fit E n k ->
  make_internal E m = Ok im -> distinct_option_ids im -> proper_disk dk -> dget mp (dk_files dk) = Some (JManifest m) -> plain_ballots dk bp bs ->
  (forall b, In b bs -> usable_style E im b) -> votes_fit E (len bs) ->
  let o := e2e E ch n k mp bp sp orec okeys dk in oc_end o = Ok tt ->
  exists p out records files, orec = Some p /\ oc_printed o = Some out /\ shows_election m im (cast_of sp bs) (spoiled_of sp bs) out /\
    dget (splitext p ++ ".zip")%string (dk_files (oc_disk o)) = Some (JArchive files) /\ good_record E m n k [ch_device ch] (cast_of sp bs) (spoiled_of sp bs) out records files.
Proof. intros. eapply e2e_record; eassumption. Qed.
Print Assumptions C61_record.
(** it does end without an error when no ballot has a "/" in its id and the paths can be written; the private keys are written too, and nothing else changes *)
Theorem C61_completes : forall E ch n k m im mp bp sp p okeys dk bs,
  valid_env E -> hmac_32 E -> qq E <= 2 ^ 1024 -> fair E ch -> seats_fit E n k ->
  make_internal E m = Ok im -> distinct_option_ids im -> proper_disk dk -> dget mp (dk_files dk) = Some (JManifest m) -> plain_ballots dk bp bs ->
  (forall b, In b bs -> usable_style E im b) -> votes_fit E (len bs) ->
  manifest_is_valid m = true -> (exists nm, get_name m = Ok nm) -> NoDup (map pb_id bs) -> (forall b, In b bs -> has_slash (pb_id b) = false) ->
  (forall i b, In b bs -> can_encrypt E im b (ch_ballot ch i)) ->
  parent_exists dk (splitext p ++ ".zip") = true -> ~ In (splitext p ++ ".zip")%string (dk_dirs dk) ->
  match okeys with None => True | Some d => d <> ""%string /\ ends_slash d = false /\ forall i, In i (guardian_ids n) -> ~ In (d ++ "/guardian_" ++ i ++ ".json")%string (dk_dirs dk) end ->
  exists out records files, let o := e2e E ch n k mp bp sp (Some p) okeys dk in
    oc_end o = Ok tt /\ oc_printed o = Some out /\ shows_election m im (cast_of sp bs) (spoiled_of sp bs) out /\
    dget (splitext p ++ ".zip")%string (dk_files (oc_disk o)) = Some (JArchive files) /\ good_record E m n k [ch_device ch] (cast_of sp bs) (spoiled_of sp bs) out records files /\
    (forall d, okeys = Some d -> good_keys E (oc_disk o) d records) /\
    (forall q, q <> (splitext p ++ ".zip")%string -> (forall d i, okeys = Some d -> In i (guardian_ids n) -> q <> (d ++ "/guardian_" ++ i ++ ".json")%string) ->
      dget q (dk_files (oc_disk o)) = dget q (dk_files dk)).
Proof. intros. eapply e2e_completes; eassumption. Qed.
Print Assumptions C61_completes.
(** three guardians, two of which could decrypt, three ballots in a directory, the third of them spoiled *)
Example C61_ex :
  (valid_env medium /\ hmac_32 medium /\ qq medium <= 2 ^ 1024 /\ fair medium cli_chance /\ seats_fit medium 3 2 /\ make_internal medium demo_manifest = Ok (demo_im medium) /\
   distinct_option_ids (demo_im medium) /\ proper_disk cli_disk /\ dget "election/manifest.json"%string (dk_files cli_disk) = Some (JManifest demo_manifest) /\
   plain_ballots cli_disk "ballots" cli_ballots /\ (forall b, In b cli_ballots -> usable_style medium (demo_im medium) b) /\ votes_fit medium (len cli_ballots)) /\
  let o := e2e medium cli_chance 3 2 "election/manifest.json" "ballots" (Some "ballot-3"%string) (Some "out/record.zip"%string) (Some "keys"%string) cli_disk in
  oc_end o = Ok tt /\ exists out files, oc_printed o = Some out /\ dget "out/record.zip"%string (dk_files (oc_disk o)) = Some (JArchive files) /\
    shows_print demo_manifest (in_manifest demo_manifest) (marked (demo_im medium) (cast_of (Some "ballot-3"%string) cli_ballots)) (po_tally out) /\
    map (fun o => marked (demo_im medium) (cast_of (Some "ballot-3"%string) cli_ballots) "mayor" o) ["mayor-ann"; "mayor-bob"]%string = [2; 0] /\
    map fst (po_spoiled out) = ["ballot-3"%string].
Proof.
  destruct demo_setup as (D1 & D2 & _). split.
  - split; [exact medium_valid|]. split; [exact medium_hmac|]. split; [exact cli_big|]. split; [exact cli_fair|]. split; [exact cli_fit|]. split; [exact D2|]. split; [exact demo_distinct|].
    split; [exact cli_proper|]. split; [reflexivity|]. split; [exact cli_plain|]. split; [exact cli_usable|exact cli_votes].
  - destruct (C61_completes medium cli_chance 3 2 demo_manifest (demo_im medium) "election/manifest.json" "ballots" (Some "ballot-3"%string) "out/record.zip" (Some "keys"%string) cli_disk cli_ballots
      medium_valid medium_hmac cli_big cli_fair cli_fit D2 demo_distinct cli_proper eq_refl cli_plain cli_usable cli_votes D1 cli_name cli_ids cli_no_slash cli_encrypts eq_refl) as (out & records & files & H1 & H2 & (H3 & H4) & H5 & _).
    + intros [H|[H|[H|[]]]]; discriminate H.
    + split; [discriminate|]. split; [reflexivity|]. intros i _ [H|[H|[H|[]]]]; discriminate H.
    + cbv zeta. revert H1 H2 H5. generalize (e2e medium cli_chance 3 2 "election/manifest.json" "ballots" (Some "ballot-3"%string) (Some "out/record.zip"%string) (Some "keys"%string) cli_disk). intros o H1 H2 H5.
      split; [exact H1|]. exists out, files. split; [exact H2|]. split; [exact H5|]. split; [exact H3|]. split; [rewrite <- demo_imv_eq; vm_compute; reflexivity|].
      change (spoiled_of (Some "ballot-3"%string) cli_ballots) with [vr_ballot voter3] in H4. inversion H4 as [|? e ? l (F & _) Hl]; subst. inversion Hl; subst. cbn [map]. rewrite F. reflexivity.
Qed.

(** without --output-record, which the program calls optional, it always ends with an error and writes nothing, not even the private keys that were asked for *)
Theorem C61_record_path_needed : forall E ch n k mp bp sp okeys dk,
  oc_end (e2e E ch n k mp bp sp None okeys dk) <> Ok tt /\ oc_disk (e2e E ch n k mp bp sp None okeys dk) = dk.
Proof. exact e2e_without_record. Qed.
Print Assumptions C61_record_path_needed.
(** the same happens when the id of a ballot has a "/" in it, after the results have been printed *)
Theorem C61_slash : forall E ch n k m im mp bp sp orec okeys dk bs b,
  valid_env E -> hmac_32 E -> qq E <= 2 ^ 1024 -> fair E ch -> seats_fit E n k ->
  make_internal E m = Ok im -> distinct_option_ids im -> proper_disk dk -> dget mp (dk_files dk) = Some (JManifest m) -> plain_ballots dk bp bs ->
  (forall b, In b bs -> usable_style E im b) -> votes_fit E (len bs) ->
  In b bs -> has_slash (pb_id b) = true ->
  oc_end (e2e E ch n k mp bp sp orec okeys dk) <> Ok tt /\ oc_disk (e2e E ch n k mp bp sp orec okeys dk) = dk.
Proof. intros. eapply e2e_slash; eassumption. Qed.
Print Assumptions C61_slash.
Example C61_slash_ex : fair medium cli_chance /\ seats_fit medium 3 2 /\ proper_disk slash_disk /\ dget "manifest.json"%string (dk_files slash_disk) = Some (JManifest demo_manifest) /\
  plain_ballots slash_disk "ballots.json" [slash_ballot] /\ (forall b, In b [slash_ballot] -> usable_style medium (demo_im medium) b) /\ votes_fit medium (len [slash_ballot]) /\
  has_slash (pb_id slash_ballot) = true /\
  oc_disk (e2e medium cli_chance 3 2 "manifest.json" "ballots.json" None (Some "record.zip"%string) (Some "keys"%string) slash_disk) = slash_disk.
Proof.
  assert (Hpl : plain_ballots slash_disk "ballots.json" [slash_ballot]) by (left; reflexivity). assert (Hvf : votes_fit medium (len [slash_ballot])) by (unfold votes_fit; vm_compute; intuition discriminate).
  split; [exact cli_fair|]. split; [exact cli_fit|]. split; [exact slash_proper|]. split; [reflexivity|]. split; [exact Hpl|]. split; [exact slash_usable|]. split; [exact Hvf|]. split; [reflexivity|].
  destruct demo_setup as (D1 & D2 & _).
  exact (proj2 (C61_slash medium cli_chance 3 2 demo_manifest (demo_im medium) "manifest.json" "ballots.json" None _ _ slash_disk [slash_ballot] slash_ballot medium_valid medium_hmac cli_big cli_fair cli_fit D2 demo_distinct
    slash_proper eq_refl Hpl slash_usable Hvf (or_introl eq_refl) eq_refl)).
Qed.
(** a quorum above the number of guardians is taken, but nothing is ever printed or written *)
Theorem C61_quorum_too_large : forall E ch n k mp bp sp orec okeys dk, n < k ->
  exists e, e2e E ch n k mp bp sp orec okeys dk = mkOut dk None (Err e).
Proof. exact e2e_quorum. Qed.
Print Assumptions C61_quorum_too_large.

(** the archive of the record is named after --output-record without its extension: the text from the last dot of the last part on.  A
    last part without a dot, or with no dot but its first letter, is kept as it is *)
Theorem C61_archive_name : forall a d e,
  lacks "."%char e -> lacks "/"%char e ->
  ((exists x c y, a = (x ++ String c y)%string /\ c <> "."%char /\ c <> "/"%char /\ lacks "/"%char y) -> splitext (a ++ "." ++ e) = a) /\
  splitext e = e /\ splitext (d ++ "/" ++ e) = (d ++ "/" ++ e)%string /\ splitext ("." ++ e) = ("." ++ e)%string /\ splitext (d ++ "/" ++ "." ++ e) = (d ++ "/" ++ "." ++ e)%string.
Proof.
  intros a d e H1 H2. split; [exact (splitext_cuts a e H1 H2)|]. split; [exact (proj1 (splitext_plain d e H1))|]. split; [exact (proj2 (splitext_plain d e H1))|exact (splitext_hidden d e H1 H2)].
Qed.
Print Assumptions C61_archive_name.
Example C61_archive_name_ex : lacks "."%char "zip" /\ lacks "/"%char "zip" /\ splitext "v1.2/record.final.zip" = "v1.2/record.final"%string /\ splitext "v1.2/zip" = "v1.2/zip"%string /\ splitext "v1.2/.zip" = "v1.2/.zip"%string.
Proof.
  assert (H : lacks "."%char "zip" /\ lacks "/"%char "zip") by (split; intros [|? [|? [|? [|? ?]]]] ? Hx; discriminate Hx). destruct H as [H1 H2].
  split; [exact H1|]. split; [exact H2|]. destruct (C61_archive_name "v1.2/record.final" "v1.2" "zip" H1 H2) as (A & _ & B & _ & C). split; [apply A|split; [exact B|exact C]].
  exists "v1.2/record.fina"%string, "l"%char, ""%string. split; [reflexivity|]. split; [discriminate|]. split; [discriminate|]. intros [|? ?] ? Hx; discriminate Hx.
Qed.
