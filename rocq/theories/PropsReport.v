(** * PropsReport: the pages and printouts of the results (C58).
    Only theorems and non-vacuity examples; the vocabulary is in SpecReport.v. *)
From Coq Require Import List QArith.
From Verif Require Import Base Group Hash ElGamal Spec Tiny Manifest Ballot Encrypt Samples Box Tally Ceremony SpecCeremony Shares SpecShares SharesSamples SpecEndToEnd EndToEndSamples
  GuiUpload SpecUpload GuiDecrypt SpecGuiDecrypt GuiDecSamples Report SpecReport ReportFacts ReportPages ReportSamples.
Local Open Scope Z_scope.

(** ** C58: the pages show the votes *)
(** The pages of a completed decryption.  Under the conditions of C57_completes, and when every option's candidate is listed, the tally
    page opens and has one row for each contest of the manifest, with the name, the party and the number of cast ballots for each
    option; the page of each spoiled ballot opens and shows the voter's votes; and there is a page for no other ballot. *)
Theorem C58_pages E parse device disk w0 e m im cx k ss vs h1 id h2 h3 : valid_env E -> gui_election E disk w0 e m im cx k ss -> good_voters E im vs -> candidates_listed m ->
  let before := after_all E parse device disk w0 h1 in
  let joined := after_all E parse device disk w0 (h1 ++ NewDecryption id e :: h2) in
  let final := after_all E parse device disk w0 (h1 ++ NewDecryption id e :: h2 ++ h3) in
  pools_work (h1 ++ h2 ++ h3) -> no_more_uploads (h2 ++ h3) -> reads_work (h2 ++ h3) ->
  only_voters E parse im cx vs (dw_db before) e -> find_decryption (dw_docs before) id = None ->
  (forall s, In s ss -> carried_out E parse device disk (dec_event_step E parse device disk before (NewDecryption id e)) h2 (StartJoin (st_id s) id)) ->
  carried_out E parse device disk joined h3 (StartView true id) ->
  exists counted, NoDup counted /\
    (forall v, In v counted <-> In v vs /\ exists b, In b (stored (dw_db before) e) /\ closed (so_contents b) = true /\ file_of E parse im cx v b) /\
    (exists rows, view_tally (dw_db final) (dw_docs final) id = Ok rows /\ shows_page m (in_manifest m) (cast_count im counted) rows) /\
    (forall v, In v counted -> vr_state v = SPOILED ->
      exists rows, view_spoiled_ballot (dw_db final) (dw_docs final) id (vr_id v) = Ok rows /\ shows_page m (on_ballot im (vr_ballot v)) (vote_for im (vr_ballot v)) rows) /\
    (forall i rows, view_spoiled_ballot (dw_db final) (dw_docs final) id i = Ok rows -> exists v, In v counted /\ vr_id v = i /\ vr_state v = SPOILED).
Proof. exact (pages_show E parse device disk w0 e m im cx k ss vs h1 id h2 h3). Qed.
Print Assumptions C58_pages.
(** C57_ready_example and C57_quiet_example meet the other hypotheses; this is what the pages show there *)
Example C58_pages_ready : candidates_listed demo_manifest.
Proof. exact demo_listed. Qed.
Example C58_pages_example : exists parse disk rows r l rows', let final := after_all medium parse (fun _ => true) disk show_db (show_h1 ++ NewDecryption "dec" "primary" :: show_h2 ++ show_h3) in
  view_tally (dw_db final) (dw_docs final) "dec" = Ok rows /\ In r rows /\ rr_name r = "Mayor"%string /\ In l (rr_lines r) /\ rl_name l = "Ann"%string /\ rl_party l = "Blue"%string /\ rl_tally l = 2 /\
  view_spoiled_ballot (dw_db final) (dw_docs final) "dec" "ballot-3" = Ok rows' /\ view_spoiled_ballot (dw_db final) (dw_docs final) "dec" "ballot-9" <> Ok rows'.
Proof. exact show_page. Qed.

(** The report of any tally over a valid manifest: one row for each contest, with its name, its options, their candidates, parties
    and shares of the total, and the write-ins summed up. *)
Theorem C58_report m p : manifest_is_valid m = true -> own_option_ids m -> candidates_listed m -> of_manifest m p ->
  exists rows, get_plaintext_ballot_report m p = Ok rows /\ Forall2 (right_row m) (dvals (pt_contests p)) rows.
Proof. intros Hv Ho Hc. exact (report_right m Hv Ho Hc p). Qed.
Print Assumptions C58_report.
Example C58_report_example : (manifest_is_valid demo_manifest = true /\ own_option_ids demo_manifest /\ of_manifest demo_manifest demo_tally) /\
  get_plaintext_ballot_report demo_manifest demo_tally =
  Ok [mkRow "Mayor" [mkLine "Ann" 3 "Blue" (3 # 4); mkLine "Bob" 1 "" (1 # 4)] 4 None; mkRow "Council" [mkLine "Cy" 0 "" 0; mkLine "Di" 2 "" (2 # 2)] 2 (Some 5)].
Proof. split; [split; [vm_compute; reflexivity|exact demo_tally_form]|exact demo_report]. Qed.

(** No votes are lost or invented by a report, whatever the manifest: the lines and the write-ins of a row add up to the tally. *)
Theorem C58_adds_up m p rows : get_plaintext_ballot_report m p = Ok rows ->
  Forall2 (fun c r => rr_total r + match rr_write_ins r with Some w => w | None => 0 end = sumZ (map pl_tally (dvals (pn_selections c))) /\
                      rr_total r = sumZ (map rl_tally (rr_lines r))) (dvals (pt_contests p)) rows.
Proof. exact (report_adds_up m p rows). Qed.
Print Assumptions C58_adds_up.
(** The shares of a row with votes add up to one. *)
Theorem C58_percentages m p rows r : manifest_is_valid m = true -> own_option_ids m -> candidates_listed m -> of_manifest m p ->
  get_plaintext_ballot_report m p = Ok rows -> In r rows -> rr_total r <> 0 -> (fold_right Qplus 0 (map rl_percent (rr_lines r)) == 1)%Q.
Proof. exact (report_whole m p rows r). Qed.
Print Assumptions C58_percentages.

(** The command line prints each contest with the names and counts of its options. *)
Theorem C58_printed m p : manifest_is_valid m = true -> own_option_ids m -> of_manifest m p -> exists out, print_tally m p = Ok out /\
  Forall2 (fun c r => (exists d, In d (mf_contests m) /\ cd_id d = pn_id c /\ fst r = Some (cd_name d)) /\
    Forall2 (fun s l => snd l = pl_tally s /\ exists o, In o (flat_map cd_selections (mf_contests m)) /\ sd_id o = pl_id s /\
       ((exists c, In c (mf_candidates m) /\ ca_id c = sd_candidate_id o /\ if writes_in c then fst l = "Write-In"%string else called c (fst l)) \/
        (fst l = sd_candidate_id o /\ forall c, In c (mf_candidates m) -> ca_id c <> sd_candidate_id o))) (dvals (pn_selections c)) (snd r)) (dvals (pt_contests p)) out.
Proof. exact (printed_right m p). Qed.
Print Assumptions C58_printed.
Example C58_printed_example : print_tally demo_manifest demo_tally =
  Ok [(Some "Mayor", [("Ann", 3); ("Bob", 1)]); (Some "Council", [("Cy", 0); ("Di", 2); ("Write-In", 5)])]%string.
Proof. exact demo_printed. Qed.

(** ** what goes wrong when the conditions are not met *)
(** A valid manifest in which two contests use the same id for one of their options: Ann's 7 votes for mayor are shown as Bob's, on
    the page and on the command line. *)
Theorem C58_shared_ids_refuted : manifest_is_valid twice_manifest = true /\ candidates_listed twice_manifest /\ stands_for twice_manifest "mayor" "yes" (mkCandidate "ann" (txt "Ann") None None None) /\
  (exists r rows, get_plaintext_ballot_report twice_manifest twice_tally = Ok (r :: rows) /\ rr_name r = "mayor"%string /\ map (fun l => (rl_name l, rl_tally l)) (rr_lines r) = [("Bob", 7); ("Cy", 1)]%string) /\
  exists out, print_tally twice_manifest twice_tally = Ok ((Some "mayor", [("Bob", 7); ("Cy", 1)])%string :: out).
Proof. exact twice_wrong. Qed.
Print Assumptions C58_shared_ids_refuted.
(** A valid manifest with an option whose candidate is not listed: the page never opens; the command line prints the id. *)
Theorem C58_unlisted_refuted : manifest_is_valid unlisted_manifest = true /\ own_option_ids unlisted_manifest /\ of_manifest unlisted_manifest unlisted_tally /\
  (forall p, get_plaintext_ballot_report unlisted_manifest p = Err KeyError) /\ print_tally unlisted_manifest unlisted_tally = Ok [(Some "mayor", [("Ann", 7); ("zoe", 1)])]%string.
Proof. exact unlisted_fails. Qed.
Print Assumptions C58_unlisted_refuted.
