(** * PropsPipe: elections with the four commands setup, encrypt-ballots, submit-ballots and import-ballots (C62). *)
From Coq Require Import Permutation List.
From Verif Require Import Base Group Codec Hash ElGamal Spec Tiny Manifest Ballot Encrypt SpecElection Samples Box Tally SpecTally TallySamples Ceremony SpecCeremony Shares SpecShares Verify
  SpecVerify SpecEndToEnd EndToEndSamples GuiDecrypt GuiElection Report SpecReport EncryptThms Cli SpecCli CliE2e CliThms CliPipe CliPipeThms CliSamples CliPipeSamples CliNames.
Local Open Scope Z_scope.
Local Open Scope list_scope.

(** ** C62: an election in four commands *)
(** when the first three commands end without an error and every command is given what the ones before it wrote, import-ballots prints the
    number of marks on the ballots of the cast directory and the votes of each ballot of the spoil directory; it fails only if its
    archive cannot be written, and then nothing is written; the archive holds the record of the election and nothing else changes *)
Theorem C62_printed : forall E c m im bs cast spoiled,
  valid_env E -> hmac_32 E -> qq E <= 2 ^ 1024 -> (forall i, fair E (cm_chance c i)) -> seats_fit E (cm_guardians c) (cm_quorum c) ->
  make_internal E m = Ok im -> distinct_option_ids im -> (forall b, In b bs -> usable_style E im b) -> votes_fit E (len cast) -> file_ids bs ->
  handed_over E c m bs cast spoiled ->
  oc_end (setup_outcome E c) = Ok tt -> oc_end (encrypt_outcome E c) = Ok tt -> oc_end (submit_outcome E c) = Ok tt ->
  let o := import_outcome E c in let dk := cm_disk c 3 in
  exists out spoiled', Permutation spoiled' spoiled /\ shows_election m im cast spoiled' out /\ oc_printed o = Some out /\
    match cm_record c with
    | None => oc_end o = Ok tt /\ oc_disk o = dk
    | Some p =>
      (oc_end o = Ok tt <-> parent_exists dk (splitext p ++ ".zip") = true /\ ~ In (splitext p ++ ".zip")%string (dk_dirs dk)) /\
      (oc_end o = Ok tt -> exists records files,
        good_record E m (cm_guardians c) (cm_quorum c) match cm_device c with Some _ => [ch_device (cm_chance c 1)] | None => [] end cast spoiled' out records files /\
        oc_disk o = mkDisk (dk_dirs dk) (dset (splitext p ++ ".zip")%string (JArchive files) (dk_files dk)))
    end.
Proof. intros. eapply pipeline_printed; eassumption. Qed.
Print Assumptions C62_printed.
(** the first three commands do end without an error, for a valid manifest with a name, ballots that can be encrypted and paths that can be written *)
Theorem C62_completes : forall E c m im bs cast spoiled,
  valid_env E -> hmac_32 E -> qq E <= 2 ^ 1024 -> (forall i, fair E (cm_chance c i)) -> seats_fit E (cm_guardians c) (cm_quorum c) ->
  make_internal E m = Ok im -> (forall b, In b bs -> usable_style E im b) -> file_ids bs ->
  handed_over E c m bs cast spoiled ->
  manifest_is_valid m = true -> (exists nm, get_name m = Ok nm) -> (forall i b, In b bs -> can_encrypt E im b (ch_ballot (cm_chance c 1) i)) ->
  no_clash (cm_disk c 0) [cm_package c; (cm_package c ++ "/guardians")%string; cm_keys c] (setup_paths (cm_package c) (cm_keys c) (cm_guardians c)) ->
  writable (cm_disk c 1) (cm_encrypted c) ("device"%string :: map pb_id bs) -> writable (cm_disk c 2) (cm_submitted c) (map pb_id (cast ++ spoiled)) ->
  oc_end (setup_outcome E c) = Ok tt /\ oc_end (encrypt_outcome E c) = Ok tt /\ oc_end (submit_outcome E c) = Ok tt.
Proof. intros. eapply pipeline_runs; eassumption. Qed.
Print Assumptions C62_completes.
(** three guardians with a quorum of two, three ballots, one of them spoiled, each command with directories of its own *)
Example C62_ex :
  (valid_env medium /\ hmac_32 medium /\ qq medium <= 2 ^ 1024 /\ (forall i, fair medium (cm_chance demo_commands i)) /\ seats_fit medium (cm_guardians demo_commands) (cm_quorum demo_commands) /\
   make_internal medium demo_manifest = Ok (demo_im medium) /\ distinct_option_ids (demo_im medium) /\ (forall b, In b [ballot1; ballot2; ballot3] -> usable_style medium (demo_im medium) b) /\
   votes_fit medium (len [ballot1; ballot2]) /\ file_ids [ballot1; ballot2; ballot3] /\ handed_over medium demo_commands demo_manifest [ballot1; ballot2; ballot3] [ballot1; ballot2] [ballot3] /\
   oc_end (setup_outcome medium demo_commands) = Ok tt /\ oc_end (encrypt_outcome medium demo_commands) = Ok tt /\ oc_end (submit_outcome medium demo_commands) = Ok tt) /\
  exists out files, oc_printed (import_outcome medium demo_commands) = Some out /\ oc_end (import_outcome medium demo_commands) = Ok tt /\
    dget "out/record.zip"%string (dk_files (oc_disk (import_outcome medium demo_commands))) = Some (JArchive files) /\
    shows_print demo_manifest (in_manifest demo_manifest) (marked (demo_im medium) [ballot1; ballot2]) (po_tally out) /\
    map (fun o => marked (demo_im medium) [ballot1; ballot2] "mayor" o) ["mayor-ann"; "mayor-bob"]%string = [2; 0] /\ map fst (po_spoiled out) = ["ballot-3"%string].
Proof.
  destruct demo_setup as (D1 & D2 & _). destruct demo_ends as (E1 & E2 & E3). assert (Hv : votes_fit medium (len [ballot1; ballot2])) by (unfold votes_fit; vm_compute; intuition discriminate).
  split; [split; [exact medium_valid|]; split; [exact medium_hmac|]; split; [exact cli_big|]; split; [exact pipe_fair|]; split; [exact cli_fit|]; split; [exact D2|]; split; [exact demo_distinct|]; split; [exact cli_usable|];
    split; [exact Hv|]; split; [exact pipe_ids|]; split; [exact demo_handed|]; split; [exact E1|]; split; [exact E2|exact E3]|].
  destruct (C62_printed medium demo_commands demo_manifest (demo_im medium) _ _ _ medium_valid medium_hmac cli_big pipe_fair cli_fit D2 demo_distinct cli_usable Hv pipe_ids demo_handed E1 E2 E3) as (out & sp' & P1 & (P2 & P3) & P4 & P5 & P6).
  assert (Ho : oc_end (import_outcome medium demo_commands) = Ok tt) by (apply P5; split; [reflexivity|intros [H|[H|[H|[H|[]]]]]; discriminate H]).
  destruct (P6 Ho) as (records & files & _ & Hd). exists out, files. split; [exact P4|]. split; [exact Ho|]. split; [rewrite Hd; cbn [dk_files]; apply ListFacts.dget_dset_same|]. split; [exact P2|]. split; [rewrite <- demo_imv_eq; vm_compute; reflexivity|].
  apply Permutation_sym, Permutation_length_1_inv in P1. subst sp'. inversion P3 as [|? e ? l (F & _) Hl]; subst. inversion Hl; subst. cbn [map]. rewrite F. reflexivity.
Qed.

(** submit-ballots never tells what it did not take: of the ballots with one id it takes a valid one, cast before spoiled, and says nothing about the others *)
Theorem C62_submit_taken : forall E m im n k key h ch mp cp cd sd td dk ec es,
  make_internal E m = Ok im -> (forall l, Permutation (ch_order ch l) l) -> proper_disk dk -> dget mp (dk_files dk) = Some (JManifest m) ->
  let cx := make_context E n k key h (im_hash im) in dget cp (dk_files dk) = Some (JContext cx) -> plain_dir td ->
  cipher_ballots dk cd ec -> cipher_ballots dk sd es -> (forall b, In b (ec ++ es) -> has_slash (cb_id b) = false) ->
  let o := submit_command E ch mp cp cd (Some sd) (Some td) dk in let file i := dget (file_named td i) (dk_files (oc_disk o)) in
  oc_end o = Ok tt ->
  (forall b, In b ec -> accepted E im cx b = true -> (forall b', In b' ec -> cb_id b' = cb_id b -> b' = b) -> file (cb_id b) = Some (JSubmitted (submit_ballot E b CAST))) /\
  (forall b, In b es -> accepted E im cx b = true -> (forall b', In b' es -> cb_id b' = cb_id b -> b' = b) -> (forall b', In b' ec -> cb_id b' = cb_id b -> accepted E im cx b' = false) ->
    file (cb_id b) = Some (JSubmitted (submit_ballot E b SPOILED))) /\
  (forall b, In b (ec ++ es) -> (forall b', In b' (ec ++ es) -> cb_id b' = cb_id b -> accepted E im cx b' = false) -> file (cb_id b) = dget (file_named td (cb_id b)) (dk_files dk)).
Proof. intros. eapply submit_taken; eassumption. Qed.
Print Assumptions C62_submit_taken.
(** it ends without an error whatever is refused, as long as the checks themselves raise nothing *)
Theorem C62_submit_quiet : forall E m im n k key h ch mp cp cd sd td dk ec es,
  make_internal E m = Ok im -> (forall l, Permutation (ch_order ch l) l) -> proper_disk dk -> dget mp (dk_files dk) = Some (JManifest m) ->
  let cx := make_context E n k key h (im_hash im) in dget cp (dk_files dk) = Some (JContext cx) -> plain_dir td ->
  cipher_ballots dk cd ec -> cipher_ballots dk sd es -> (forall b, In b (ec ++ es) -> has_slash (cb_id b) = false) ->
  manifest_is_valid m = true -> (exists nm, get_name m = Ok nm) -> (forall b, In b (ec ++ es) -> exists v, ballot_valid_for_election E b im cx true = Ok v) ->
  writable dk td (map cb_id (ec ++ es)) ->
  oc_end (submit_command E ch mp cp cd (Some sd) (Some td) dk) = Ok tt.
Proof. intros. eapply submit_quiet; eassumption. Qed.
Print Assumptions C62_submit_quiet.
(** a ballot that is in the spoil directory too is counted, and nothing is said about it *)
Example C62_submit_ex : exists sb, oc_end (submit_command medium cli_chance "in/manifest.json" "in/context.json" "cast" (Some "spoil"%string) (Some "submitted"%string) (shelf shelf_both)) = Ok tt /\
  dget "submitted/ballot-1.json"%string (dk_files (oc_disk (submit_command medium cli_chance "in/manifest.json" "in/context.json" "cast" (Some "spoil"%string) (Some "submitted"%string) (shelf shelf_both)))) = Some (JSubmitted sb) /\
  sb_state sb = CAST /\ exists eb, cipher_ballots (shelf shelf_both) "spoil" [eb] /\ cb_id eb = sb_id sb.
Proof.
  destruct both_cast as (h & eb & M & C & B1 & B2 & Hid & Ha & Ho). destruct demo_setup as (D1 & D2 & _). exists (submit_ballot medium eb CAST). split; [exact Ho|]. split.
  - destruct (C62_submit_taken medium demo_manifest (demo_im medium) 3 2 demo_key h cli_chance "in/manifest.json" "in/context.json" "cast" "spoil" "submitted" (shelf shelf_both) [eb] [eb]
      D2 (fa_order _ _ cli_fair) (shelf_proper _ good_both) M C (proj2 (proj2 (proj2 plain_names))) B1 B2) as (H & _); [intros b [<-|[<-|[]]]; rewrite Hid; reflexivity|exact Ho|].
    specialize (H eb (or_introl eq_refl) Ha). rewrite Hid in H. apply H. intros b' [<-|[]] _. reflexivity.
  - split; [reflexivity|]. exists eb. split; [exact B2|]. reflexivity.
Qed.

(** import-ballots needs the private keys of all guardians, whatever the quorum *)
Theorem C62_all_keys_needed : forall E ch mp cp vd kd dev orec dk cx l,
  (forall l, Permutation (ch_order ch l) l) -> proper_disk dk -> dget cp (dk_files dk) = Some (JContext cx) -> directory dk kd l -> len l < cx_guardians cx ->
  exists e, import_command E ch mp cp vd kd dev orec dk = mkOut dk None (Err e).
Proof. exact import_all_keys. Qed.
Print Assumptions C62_all_keys_needed.
(** two keys of three, with a quorum of two *)
Example C62_all_keys_ex : exists cx, dget "in/context.json"%string (dk_files (shelf shelf_two)) = Some (JContext cx) /\ cx_quorum cx = 2 /\
  exists e, import_command medium cli_chance "in/manifest.json" "in/context.json" "votes" "keys" None None (shelf shelf_two) = mkOut (shelf shelf_two) None (Err e).
Proof.
  destruct two_keys as (cx & C & D & Q & N). exists cx. split; [exact C|]. split; [exact Q|].
  apply (C62_all_keys_needed medium cli_chance _ "in/context.json" _ "keys" _ _ _ cx _ (fa_order _ _ cli_fair) (shelf_proper _ good_two) C D). rewrite N. reflexivity.
Qed.

(** setup puts the private keys over the published records when it is told to write them there *)
Theorem C62_keys_over_records : forall E ch n k m im mp pd dk,
  valid_env E -> hmac_32 E -> qq E <= 2 ^ 1024 -> fair E ch -> seats_fit E n k -> make_internal E m = Ok im -> dget mp (dk_files dk) = Some (JManifest m) -> plain_dir pd ->
  let o := setup_election E ch n k mp true pd (Some (pd ++ "/guardians")%string) dk in oc_end o = Ok tt ->
  forall i, In i (guardian_ids n) -> exists x, dget (file_named (pd ++ "/guardians") ("guardian_" ++ i)) (dk_files (oc_disk o)) = Some (JPrivate x) /\ pr_id x = i.
Proof. exact keys_over_records. Qed.
Print Assumptions C62_keys_over_records.
Example C62_keys_ex : exists x, dget "package/guardians/guardian_2.json"%string
  (dk_files (oc_disk (setup_election medium cli_chance 3 2 "in/manifest.json" true "package" (Some "package/guardians"%string) (shelf shelf0)))) = Some (JPrivate x).
Proof.
  destruct demo_setup as (D1 & D2 & _). destruct (C62_keys_over_records medium cli_chance 3 2 demo_manifest (demo_im medium) "in/manifest.json" "package" (shelf shelf0) medium_valid medium_hmac cli_big cli_fair cli_fit D2 manifest0 (proj1 plain_names) mixed_ends "2"%string) as (x & H & _).
  - right. left. reflexivity.
  - exists x. exact H.
Qed.

(** a ballot with the id "device" takes the place of the device file *)
Theorem C62_device_name : forall E m im nm n k key h ch mp cp bp ed dk bs b,
  valid_env E -> make_internal E m = Ok im -> manifest_is_valid m = true -> get_name m = Ok nm -> in_subgroup E key ->
  fair E ch -> proper_disk dk -> dget mp (dk_files dk) = Some (JManifest m) -> dget cp (dk_files dk) = Some (JContext (make_context E n k key h (im_hash im))) -> plain_ballots dk bp bs ->
  (forall b, In b bs -> usable_style E im b) -> plain_dir ed -> NoDup (map pb_id bs) -> (forall b, In b bs -> has_slash (pb_id b) = false) -> In b bs -> pb_id b = "device"%string ->
  let o := encrypt_command E ch mp cp bp (Some ed) dk in oc_end o = Ok tt ->
  exists eb, cb_id eb = "device"%string /\ dget (file_named ed "device") (dk_files (oc_disk o)) = Some (JCipher eb).
Proof. intros. eapply device_lost with (m := m) (b := b); eassumption. Qed.
Print Assumptions C62_device_name.
Example C62_device_name_ex : exists eb, dget "cipher/device.json"%string
  (dk_files (oc_disk (encrypt_command medium cli_chance "in/manifest.json" "in/context.json" "plain" (Some "cipher"%string) (shelf shelf_dev)))) = Some (JCipher eb).
Proof.
  destruct dev_ends as (h & M & C & B & Ho). destruct demo_setup as (D1 & D2 & _). destruct cli_name as [nm Hn].
  destruct (C62_device_name medium demo_manifest (demo_im medium) nm 3 2 demo_key h cli_chance _ _ _ "cipher" (shelf shelf_dev) [device_ballot] device_ballot medium_valid D2 D1 Hn demo_key_in cli_fair (shelf_proper _ good_dev) M C B dev_usable (proj1 (proj2 (proj2 plain_names)))) as (eb & _ & H).
  - repeat constructor. intros [].
  - intros b [<-|[]]. reflexivity.
  - left. reflexivity.
  - reflexivity.
  - exact Ho.
  - exists eb. exact H.
Qed.
(** the directory that encrypt-ballots wrote cannot be submitted as it is: the device file is no ballot *)
Theorem C62_device_in_directory : forall E ch mp cp cd sd td dk l f d,
  (forall l, Permutation (ch_order ch l) l) -> proper_disk dk -> dget cd (dk_files dk) = None -> directory dk cd l -> In (f, JDevice d) l ->
  exists e, submit_command E ch mp cp cd sd td dk = mkOut dk None (Err e).
Proof. exact submit_device. Qed.
Print Assumptions C62_device_in_directory.
Example C62_device_in_directory_ex : exists e, submit_command medium cli_chance "in/manifest.json" "in/context.json" "cipher" None (Some "submitted"%string) (shelf shelf_raw) = mkOut (shelf shelf_raw) None (Err e).
Proof.
  apply (C62_device_in_directory medium cli_chance _ _ "cipher" _ _ (shelf shelf_raw) [("device.json"%string, JDevice (ch_device cli_chance)); ("ballot-1.json"%string, at1 ballot1)] "device.json" (ch_device cli_chance) (fa_order _ _ cli_fair) (shelf_proper _ good_raw)).
  - apply shelf_none. reflexivity.
  - apply (shelf_dir shelf_raw "cipher" _ good_raw). right. left. reflexivity.
  - left. reflexivity.
Qed.

(** when the place for the private keys exists already and the question whether to go on is answered with no, setup does what it does
    without that option, and no private key comes onto the disk *)
Theorem C62_existing_keys_kept : forall E ch n k mp pd d dk, In d (dk_dirs dk) \/ dget d (dk_files dk) <> None ->
  let o := setup_election E ch n k mp false pd (Some d) dk in o = setup_election E ch n k mp false pd None dk /\
  forall p x, dget p (dk_files (oc_disk o)) = Some (JPrivate x) -> dget p (dk_files dk) = Some (JPrivate x).
Proof. exact setup_unconfirmed. Qed.
Print Assumptions C62_existing_keys_kept.
Example C62_existing_keys_kept_ex : In "in"%string (dk_dirs (shelf shelf0)) /\
  setup_election medium cli_chance 3 2 "in/manifest.json" false "package" (Some "in"%string) (shelf shelf0) = setup_election medium cli_chance 3 2 "in/manifest.json" false "package" None (shelf shelf0).
Proof.
  assert (H : In "in"%string (dk_dirs (shelf shelf0))) by (vm_compute; auto). split; [exact H|]. exact (proj1 (C62_existing_keys_kept medium cli_chance 3 2 "in/manifest.json" "package" "in" (shelf shelf0) (or_introl H))).
Qed.
