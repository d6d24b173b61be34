(** * PropsGuiRecord: the election record that the graphical application exports (C64).
    Only theorems and non-vacuity examples; the vocabulary is in SpecGuiRecord.v, SpecCli.v, SpecGuiElection.v, SpecGuiDecrypt.v, SpecShares.v and SpecVerify.v. *)
From Coq Require Import List Permutation.
From Verif Require Import Base Group Hash ElGamal Spec Tiny Manifest Ballot Encrypt SpecElection Samples EncryptThms Box Tally SpecTally TallySamples Ceremony SpecCeremony Shares SpecShares SpecEndToEnd EndToEndSamples
  GuiCeremony SpecGui GuiUpload SpecUpload GuiDecrypt SpecGuiDecrypt GuiDecSamples Report SpecReport GuiElection SpecGuiElection GuiElSamples Cli SpecCli GuiRecord SpecGuiRecord GuiRecFacts GuiRecSamples.
Local Open Scope list_scope.

(** ** C64: the record *)
(** A key ceremony, an election made from it, voting ([h1]), a decryption that all guardians join ([h2]) and the administrator opens ([h3]), more uploads ([u4], and [u5] while the
    export is under way): the export succeeds and changes one file, the archive, which holds the election, the guardians with their keys, the devices, one file for every voter whose
    ballot is stored, the decryptions of the ballots spoiled before the decryption, and the tally of the ballots cast before it; and everything in it verifies. *)
Theorem C64_record E mparse n k h cer hs x cx m im : valid_env E -> fit_ceremony E n k h -> reads_ceremony E cer n k h hs -> cer <> ""%string ->
  In x (su_elections (fst (create_run E mparse hs))) -> el_ceremony (ne_election x) = cer -> el_context (ne_election x) = Some cx ->
  el_manifest (ne_election x) = m -> make_internal E m = Ok im -> distinct_option_ids im ->
  forall parse device disk vs h1 id h2 h3 u4 u5, same_files E disk cer n k h -> good_voters E im vs ->
  let s := fst (create_run E mparse hs) in let e := el_id (ne_election x) in let guardians := kc_joined (w_doc (gui_run E (gui_start n (Z.of_nat k)) h)) in
  let all := after_all E parse device disk (setup_db s) in let before := all h1 in let joined := all (h1 ++ NewDecryption id e :: h2) in
  let read := all ((h1 ++ NewDecryption id e :: h2 ++ h3) ++ map Uploads u4) in let later := all (((h1 ++ NewDecryption id e :: h2 ++ h3) ++ map Uploads u4) ++ map Uploads u5) in
  pools_work (h1 ++ h2 ++ h3) -> no_more_uploads (h2 ++ h3) -> reads_work (h2 ++ h3) ->
  only_voters E parse im cx vs (dw_db later) e -> find_decryption (dw_docs before) id = None ->
  (forall u, In u guardians -> carried_out E parse device disk (dec_event_step E parse device disk before (NewDecryption id e)) h2 (StartJoin u id)) ->
  carried_out E parse device disk joined h3 (StartView true id) ->
  (forall v, In v vs -> has_slash (vr_id v) = false) -> (forall u, In u guardians -> has_slash u = false) ->
  forall dev net location dk, (forall i a, net i a = Some (dw_db later)) ->
  (forall a b, In a (upload_ids (dw_db read) e) -> In b (upload_ids (dw_db read) e) -> dv_id (dev a) = dv_id (dev b) -> dev a = dev b) ->
  let zip := (splitext location ++ ".zip")%string in parent_exists dk zip = true -> ~ In zip (dk_dirs dk) ->
  exists kept counted files, NoDup kept /\ NoDup counted /\
    (forall v, In v kept <-> In v vs /\ exists b, In b (stored (dw_db later) e) /\ closed (so_contents b) = true /\ file_of E parse im cx v b) /\
    (forall v, In v counted <-> In v vs /\ exists b, In b (stored (dw_db before) e) /\ closed (so_contents b) = true /\ file_of E parse im cx v b) /\
    export_election_record E parse dev s (dw_docs read) (dw_db read) net (dw_db later) id location dk = (mkDisk (dk_dirs dk) (dset zip (JArchive files) (dk_files dk)), Ok tt) /\
    gui_record E m im cx n (Z.of_nat k) guardians (map dev (upload_ids (dw_db read) e)) kept counted files.
Proof.
  intros HE F R Hcer Hx Hc Hcx Hm Him Ho parse device disk vs h1 id h2 h3 u4 u5 D V s e guardians all before joined read later P1 P2 P3 P4 P5 P6 P7 N1 N2 dev net location dk.
  exact (export_record E mparse n k h cer hs x cx m im HE F R Hcer Hx Hc Hcx Hm Him Ho parse device disk vs h1 id h2 h3 u4 u5 D V P1 P2 P3 P4 P5 P6 P7 N1 N2 dev net location dk).
Qed.
Print Assumptions C64_record.
(** a ceremony of bob and alice, an upload with ballots 1 and 3, the decryption, and then ballot 2: all hypotheses of C64_record hold, ballot 2 is stored when the record is
    exported and was not when the decryption was made *)
Example C64_example : exists h hs x cx disk parse, fit_ceremony medium 2 2 h /\ reads_ceremony medium "keys" 2 2 h hs /\ same_files medium disk "keys" 2 2 h /\
  kc_joined (w_doc (gui_run medium (gui_start 2 (Z.of_nat 2)) h)) = ["bob"; "alice"]%string /\
  (let s := fst (create_run medium made_parse hs) in In x (su_elections s) /\ el_id (ne_election x) = "primary"%string /\ el_ceremony (ne_election x) = "keys"%string /\ el_context (ne_election x) = Some cx /\ el_manifest (ne_election x) = demo_manifest /\
   make_internal medium demo_manifest = Ok (demo_im medium) /\ distinct_option_ids (demo_im medium) /\ good_voters medium (demo_im medium) voters /\
   let device := fun _ : string => true in let all := after_all medium parse device disk (setup_db s) in let before := all rec_h1 in
   let later := all ((rec_h1 ++ NewDecryption "dec" "primary" :: made_h2 ++ made_h3) ++ map Uploads rec_late) in
   pools_work (rec_h1 ++ made_h2 ++ made_h3) /\ no_more_uploads (made_h2 ++ made_h3) /\ reads_work (made_h2 ++ made_h3) /\
   only_voters medium parse (demo_im medium) cx voters (dw_db later) "primary" /\ find_decryption (dw_docs before) "dec" = None /\
   (forall v, In v voters -> exists b, In b (stored (dw_db later) "primary") /\ closed (so_contents b) = true /\ file_of medium parse (demo_im medium) cx v b) /\
   (forall v, In v voters -> (exists b, In b (stored (dw_db before) "primary") /\ closed (so_contents b) = true /\ file_of medium parse (demo_im medium) cx v b) <-> v <> voter2) /\
   upload_ids (dw_db later) "primary" = ["u"]%string /\
   (forall u, In u ["bob"; "alice"]%string -> carried_out medium parse device disk (dec_event_step medium parse device disk before (NewDecryption "dec" "primary")) made_h2 (StartJoin u "dec")) /\
   carried_out medium parse device disk (all (rec_h1 ++ NewDecryption "dec" "primary" :: made_h2)) made_h3 (StartView true "dec")).
Proof. exact record_ready. Qed.
Example C64_example_names : (forall v, In v voters -> has_slash (vr_id v) = false) /\ (forall u, In u ["bob"; "alice"]%string -> has_slash u = false) /\
  let dk := mkDisk ["results"%string] [] in parent_exists dk (splitext "results/primary.zip" ++ ".zip") = true /\ ~ In (splitext "results/primary.zip" ++ ".zip")%string (dk_dirs dk).
Proof. split; [|split; [|split; [vm_compute; reflexivity|cbn; intuition discriminate]]]; intros v Hv; cbn in Hv; repeat (destruct Hv as [<-|Hv]; [vm_compute; reflexivity|]); destruct Hv. Qed.

(** A ballot that was cast but came after the decryption is in the record as a cast ballot, and its votes are not in the record's tally. *)
Theorem C64_late E m im cx n k guardians devices kept counted files v cid oid : gui_record E m im cx n k guardians devices kept counted files -> NoDup counted -> incl counted kept ->
  In v kept -> ~ In v counted -> vr_state v = CAST -> in_manifest m cid oid -> vote_for im (vr_ballot v) cid oid = 1 ->
  exists p c, In ("record/tally.json"%string, JTally p) files /\ count_of p cid oid = Some c /\ c < cast_count im kept cid oid.
Proof. exact (late_record E m im cx n k guardians devices kept counted files v cid oid). Qed.
Print Assumptions C64_late.
(** voter 2 of the example voted for Ann *)
Example C64_late_example : vr_state voter2 = CAST /\ in_manifest demo_manifest "mayor" "mayor-ann" /\ vote_for demo_imv (vr_ballot voter2) "mayor" "mayor-ann" = 1 /\
  cast_count demo_imv [voter1; voter3] "mayor" "mayor-ann" = 1 /\ cast_count demo_imv voters "mayor" "mayor-ann" = 2.
Proof. split; [reflexivity|]. split; [do 2 eexists; split; [left; reflexivity|]; split; [reflexivity|]; split; [left; reflexivity|reflexivity]|]. vm_compute. repeat split; reflexivity. Qed.

(** An export that fails leaves the disk as it is. *)
Theorem C64_failed E parse dev s ds w net w' id location dk : snd (export_election_record E parse dev s ds w net w' id location dk) <> Ok tt ->
  fst (export_election_record E parse dev s ds w net w' id location dk) = dk.
Proof. exact (export_atomic E parse dev s ds w net w' id location dk). Qed.
Print Assumptions C64_failed.
(** One that succeeds had a decryption with a result and the records of guardians, changed the archive alone, and read no ballot whose id has a "/": one such ballot stops every export. *)
Theorem C64_succeeds E parse dev s ds w net w' id location dk dk' : export_election_record E parse dev s ds w net w' id location dk = (dk', Ok tt) ->
  exists d r, find_decryption ds id = Some d /\ dy_result d = Some r /\ dk_dirs dk' = dk_dirs dk /\
    (forall path, path <> (splitext location ++ ".zip")%string -> dget path (dk_files dk') = dget path (dk_files dk)) /\
    (forall sb, In sb (gui_ballots parse net w' (dy_election d)) -> has_slash (sb_id sb) = false) /\
    exists x, In x (su_elections s) /\ el_id (ne_election x) = dy_election d /\ ne_records x <> [].
Proof. exact (export_once E parse dev s ds w net w' id location dk dk'). Qed.
Print Assumptions C64_succeeds.
(** there are failing exports; successful ones are in C64_record *)
Example C64_failed_example E parse dev s w net w' dk : snd (export_election_record E parse dev s [] w net w' "dec" "record.zip" dk) <> Ok tt.
Proof. discriminate. Qed.
