(** * PropsGuiElection: creating elections in the graphical application (C59), and the application from the key ceremony to the result pages (C60).
    Only theorems and non-vacuity examples; the vocabulary is in SpecGuiElection.v, SpecGui.v, SpecGuiDecrypt.v and SpecReport.v. *)
From Coq Require Import List Permutation.
From Verif Require Import Base Group Hash ElGamal Spec Tiny Manifest Ballot Encrypt SpecElection Samples EncryptThms Box Tally SpecTally TallySamples Ceremony SpecCeremony Shares SpecShares SpecEndToEnd EndToEndSamples
  GuiCeremony SpecGui GuiUpload SpecUpload GuiDecrypt SpecGuiDecrypt GuiDecSamples Report SpecReport GuiElection SpecGuiElection GuiElFacts GuiElReady GuiElSamples.

(** ** C59: creating an election *)
(** In every history of calls, with any interleaving of their steps and any changes of the key ceremonies in between: every stored
    election was asked for under its name and with its manifest, the manifest is valid, and the context, the numbers and the guardians
    are those of the key ceremony, as a step of the history read it, with its published joint key. *)
Theorem C59_elections E parse h x : In x (su_elections (fst (create_run E parse h))) ->
  exists i kcs id raw d m, In (NewElection (ne_name x) (el_ceremony (ne_election x)) raw) h /\ In (CreateStep i kcs id) h /\ kcs (el_ceremony (ne_election x)) = Some d /\
    parse raw = Some m /\ right_election E (el_ceremony (ne_election x)) d m (ne_election x).
Proof. exact (elections_right E parse h x). Qed.
Print Assumptions C59_elections.
(** The calls that report success are in one-to-one correspondence with the stored elections: a call that fails or stops half-way
    leaves no election, and no two elections have the same id. *)
Theorem C59_answers E parse h : let w := create_run E parse h in
  NoDup (map (fun x => el_id (ne_election x)) (su_elections (fst w))) /\ Permutation (answers (snd w)) (map (fun x => el_id (ne_election x)) (su_elections (fst w))).
Proof. exact (conj (tr_ids _ _ _ _ (traced_run E parse h)) (tr_answers _ _ _ _ (traced_run E parse h))). Qed.
Print Assumptions C59_answers.
(** A call for a new name, with a valid manifest and a key ceremony whose joint key is published, succeeds. *)
Theorem C59_accepted E parse s name cer raw kcs id d m im j nm : ~ In name (map ne_name (su_elections s)) -> ~ In id (map (fun x => el_id (ne_election x)) (su_elections s)) ->
  kcs cer = Some d -> kc_joint d = Some j -> parse raw = Some m -> manifest_is_valid m = true -> make_internal E m = Ok im -> get_name m = Ok nm ->
  fst (create_one E parse s (mkRequest name cer raw kcs id 3)) = Created (Some id).
Proof. exact (accepted E parse s name cer raw kcs id d m im j nm). Qed.
Print Assumptions C59_accepted.
(** When the calls come one after the other (each may stop anywhere), no two elections have the same name. *)
Theorem C59_names E parse h : NoDup (map ne_name (su_elections (one_by_one E parse h))).
Proof. exact (proj1 (names_once E parse h)). Qed.
Print Assumptions C59_names.
(** ... and the exported package of an election holds its context, its manifest and its guardian records, as long as no later call
    was for the same key ceremony. *)
Theorem C59_package E parse h1 r h2 : fst (create_one E parse (one_by_one E parse h1) r) = Created (Some (rq_id r)) -> rq_ceremony r <> ""%string ->
  (forall r', In r' h2 -> rq_ceremony r' <> rq_ceremony r) ->
  exists x p, In x (su_elections (one_by_one E parse (h1 ++ r :: h2))) /\ el_id (ne_election x) = rq_id r /\ ne_name x = rq_name r /\ el_ceremony (ne_election x) = rq_ceremony r /\
    export_encryption_package (one_by_one E parse (h1 ++ r :: h2)) (rq_id r) = Ok p /\ package_of x p.
Proof. exact (package_kept E parse h1 r h2). Qed.
Print Assumptions C59_package.
(** a finished ceremony, and a call that meets the hypotheses of C59_accepted and C59_package *)
Example C59_example : exists h d j r, w_doc (gui_run medium (gui_start 2 2) h) = d /\ kc_joint d = Some j /\ rq_kcs r (rq_ceremony r) = Some d /\ made_parse (rq_raw r) = Some demo_manifest /\
  rq_ceremony r <> ""%string /\ fst (create_one medium made_parse (one_by_one medium made_parse []) r) = Created (Some (rq_id r)).
Proof. exact one_created. Qed.

(** An election created from a key ceremony in which exactly the guardians needed joined, each once, is ready: its context holds the
    product of the keys of these guardians, the number and the quorum fit, and every guardian has the file with its secret.
    [gui_election] is what C57 and C58 start from. *)
Theorem C59_ready E parse n k h cer hs disk x cx m im : valid_env E -> fit_ceremony E n k h -> reads_ceremony E cer n k h hs -> same_files E disk cer n k h ->
  cer <> ""%string -> In x (su_elections (fst (create_run E parse hs))) -> el_ceremony (ne_election x) = cer -> el_context (ne_election x) = Some cx ->
  el_manifest (ne_election x) = m -> make_internal E m = Ok im -> distinct_option_ids im ->
  exists ss, gui_election E disk (setup_db (fst (create_run E parse hs))) (el_id (ne_election x)) m im cx k ss /\ len ss = n /\
    (forall u, In u (map st_id ss) <-> In u (kc_joined (w_doc (gui_run E (gui_start n (Z.of_nat k)) h)))).
Proof. exact (created_ready E parse n k h cer hs disk x cx m im). Qed.
Print Assumptions C59_ready.

(** ** what goes wrong *)
(** Two elections made from one key ceremony, one after the other: the package exported for the first one is that of the second. *)
Theorem C59_package_refuted : exists h parse r1 r2 x p, let d := w_doc (gui_run medium (gui_start 2 2) h) in let s := one_by_one medium parse [r1; r2] in
  Forall (fun r => rq_kcs r (rq_ceremony r) = Some d) [r1; r2] /\ In x (su_elections s) /\ len (su_elections s) = 2 /\ el_id (ne_election x) = "primary"%string /\
  export_encryption_package s "primary" = Ok p /\ pg_manifest p <> el_manifest (ne_election x) /\ ~ package_of x p.
Proof. exact overwritten. Qed.
Print Assumptions C59_package_refuted.
(** Two administrators at the same time: two elections with the same name. *)
Theorem C59_names_refuted : exists h parse hs x y, let d := w_doc (gui_run medium (gui_start 2 2) h) in
  (forall i kcs id, In (CreateStep i kcs id) hs -> kcs "keys"%string = Some d) /\ su_elections (fst (create_run medium parse hs)) = [x; y] /\ ne_name x = ne_name y /\
  el_manifest (ne_election x) <> el_manifest (ne_election y).
Proof. exact twins. Qed.
Print Assumptions C59_names_refuted.
(** The guardian records of every election are published without the commitments and proofs of the guardians ... *)
Theorem C59_records_bare E parse h x : In x (su_elections (fst (create_run E parse h))) -> Forall (fun r => gr_commitments r = [] /\ gr_proofs r = []) (ne_records x).
Proof. exact (records_bare E parse h x). Qed.
Print Assumptions C59_records_bare.
(** ... although the key ceremony has them. *)
Theorem C59_records_refuted : exists h parse hs x, let d := w_doc (gui_run medium (gui_start 2 2) h) in
  (forall i kcs id, In (CreateStep i kcs id) hs -> kcs "keys"%string = Some d) /\ In x (su_elections (fst (create_run medium parse hs))) /\ el_ceremony (ne_election x) = "keys"%string /\ ne_records x <> [] /\
  Forall (fun k => len (pk_commitments k) = 2 /\ len (pk_proofs k) = 2) (kc_keys d) /\ Forall (fun r => gr_commitments r = [] /\ gr_proofs r = []) (ne_records x).
Proof. exact bare. Qed.
Print Assumptions C59_records_refuted.

(** ** C60: from the key ceremony to the result pages *)
(** All parts of the application together.  A key ceremony in which exactly the guardians needed join, each once ([h], any schedule);
    elections are created, among them [x] from this ceremony ([hs]); voters' ballots are uploaded ([h1]); a decryption is created, every
    guardian of the ceremony joins it with the file from the ceremony ([h2]), and the administrator opens it ([h3]).  Then the tally page
    shows, for each contest and option of the manifest, the number of cast ballots for it among the stored ones, and the page of each
    spoiled ballot shows that ballot's votes. *)
Theorem C60_election E mparse n k h cer hs x cx m im : valid_env E -> fit_ceremony E n k h -> reads_ceremony E cer n k h hs -> cer <> ""%string ->
  In x (su_elections (fst (create_run E mparse hs))) -> el_ceremony (ne_election x) = cer -> el_context (ne_election x) = Some cx ->
  el_manifest (ne_election x) = m -> make_internal E m = Ok im -> distinct_option_ids im -> candidates_listed m ->
  forall parse device disk vs h1 id h2 h3, same_files E disk cer n k h -> good_voters E im vs ->
  let w0 := setup_db (fst (create_run E mparse hs)) in let e := el_id (ne_election x) in
  let before := after_all E parse device disk w0 h1 in
  let joined := after_all E parse device disk w0 (h1 ++ NewDecryption id e :: h2) in
  let final := after_all E parse device disk w0 (h1 ++ NewDecryption id e :: h2 ++ h3) in
  pools_work (h1 ++ h2 ++ h3) -> no_more_uploads (h2 ++ h3) -> reads_work (h2 ++ h3) ->
  only_voters E parse im cx vs (dw_db before) e -> find_decryption (dw_docs before) id = None ->
  (forall u, In u (kc_joined (w_doc (gui_run E (gui_start n (Z.of_nat k)) h))) ->
     carried_out E parse device disk (dec_event_step E parse device disk before (NewDecryption id e)) h2 (StartJoin u id)) ->
  carried_out E parse device disk joined h3 (StartView true id) ->
  exists counted, NoDup counted /\
    (forall v, In v counted <-> In v vs /\ exists b, In b (stored (dw_db before) e) /\ closed (so_contents b) = true /\ file_of E parse im cx v b) /\
    (exists rows, view_tally (dw_db final) (dw_docs final) id = Ok rows /\ shows_page m (in_manifest m) (cast_count im counted) rows) /\
    (forall v, In v counted -> vr_state v = SPOILED ->
      exists rows, view_spoiled_ballot (dw_db final) (dw_docs final) id (vr_id v) = Ok rows /\ shows_page m (on_ballot im (vr_ballot v)) (vote_for im (vr_ballot v)) rows) /\
    (forall i rows, view_spoiled_ballot (dw_db final) (dw_docs final) id i = Ok rows -> exists v, In v counted /\ vr_id v = i /\ vr_state v = SPOILED).
Proof. exact (whole_run E mparse n k h cer hs x cx m im). Qed.
Print Assumptions C60_election.
(** a ceremony of bob and alice, the demo election, two cast ballots and a spoiled one: all hypotheses of C59_ready and C60_election
    hold, and all three ballots are stored *)
Example C60_example : exists h hs x cx disk parse, fit_ceremony medium 2 2 h /\ reads_ceremony medium "keys" 2 2 h hs /\ same_files medium disk "keys" 2 2 h /\
  (let s := fst (create_run medium made_parse hs) in In x (su_elections s) /\ el_id (ne_election x) = "primary"%string /\ el_ceremony (ne_election x) = "keys"%string /\ el_context (ne_election x) = Some cx /\ el_manifest (ne_election x) = demo_manifest /\
   make_internal medium demo_manifest = Ok (demo_im medium) /\ distinct_option_ids (demo_im medium) /\ candidates_listed demo_manifest /\ good_voters medium (demo_im medium) voters /\
   let device := fun _ : string => true in let before := after_all medium parse device disk (setup_db s) show_h1 in
   pools_work (show_h1 ++ made_h2 ++ made_h3) /\ no_more_uploads (made_h2 ++ made_h3) /\ reads_work (made_h2 ++ made_h3) /\
   only_voters medium parse (demo_im medium) cx voters (dw_db before) "primary" /\ find_decryption (dw_docs before) "dec" = None /\
   (forall v, In v voters -> exists b, In b (stored (dw_db before) "primary") /\ closed (so_contents b) = true /\ file_of medium parse (demo_im medium) cx v b) /\
   (forall u, In u (kc_joined (w_doc (gui_run medium (gui_start 2 (Z.of_nat 2)) h))) ->
      carried_out medium parse device disk (dec_event_step medium parse device disk before (NewDecryption "dec" "primary")) made_h2 (StartJoin u "dec")) /\
   carried_out medium parse device disk (after_all medium parse device disk (setup_db s) (show_h1 ++ NewDecryption "dec" "primary" :: made_h2)) made_h3 (StartView true "dec")).
Proof. exact whole_ready. Qed.
Example C60_example_counts : cast_count demo_imv voters "mayor" "mayor-ann" = 2 /\ cast_count demo_imv voters "council" "council-di" = 1.
Proof. vm_compute. split; reflexivity. Qed.
