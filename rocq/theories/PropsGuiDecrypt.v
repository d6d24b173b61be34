(** * PropsGuiDecrypt: the decryption of the graphical application (C57).
    Only theorems and non-vacuity examples; the vocabulary is in SpecGuiDecrypt.v. *)
From Verif Require Import Base Group Hash ElGamal Spec Tiny Manifest Ballot Encrypt Samples Box Tally Ceremony SpecCeremony Shares SpecShares SharesSamples SpecEndToEnd EndToEndSamples
  GuiUpload SpecUpload GuiDecrypt SpecGuiDecrypt GuiDecThms GuiDecSamples.
From Coq Require Import List.

(** ** C57: the published result *)
(** Whatever the guardians, administrators and uploading programs do, in whatever interleaving, with whatever crashes, failed
    reads and repeated joins: a published result consists of the counts of a set of voters whose ballots are stored, and
    of the votes of ballots they spoiled; nothing else is ever published.  When the reads of ballots succeed, none that was
    stored before the decryption was created is missing.  (The alternative is a proof with the response 0, one chance in q.) *)
Theorem C57_never_wrong E parse device disk w0 e m im cx k ss vs h1 h2 d r : valid_env E -> gui_election E disk w0 e m im cx k ss -> good_voters E im vs ->
  let after := after_all E parse device disk w0 in
  pools_work (h1 ++ h2) -> only_voters E parse im cx vs (dw_db (after (h1 ++ h2))) e ->
  In d (dw_docs (after (h1 ++ h2))) -> dy_election d = e -> dy_result d = Some r -> find_decryption (dw_docs (after h1)) (dy_id d) = None ->
  exists counted, NoDup counted /\
    (forall v, In v counted -> In v vs /\ exists b, In b (stored (dw_db (after (h1 ++ h2))) e) /\ file_of E parse im cx v b) /\
    (reads_work h2 -> forall v b, In v vs -> In b (stored (dw_db (after h1)) e) -> closed (so_contents b) = true -> file_of E parse im cx v b -> In v counted) /\
    (zero_proof d \/ right_counts m im counted r) /\ right_spoiled im counted r.
Proof. exact (gui_never_wrong E parse device disk w0 e m im cx k ss vs h1 h2 d r). Qed.
Print Assumptions C57_never_wrong.

(** Once the ballots are uploaded, a decryption is created, every guardian joins, and then an administrator looks at it: when
    these calls come to their end, and no pool or read fails, the result is published.  It has exactly the counts of the voters whose
    closed files are stored, and exactly the votes of each ballot they spoiled, whatever else happens meanwhile. *)
Theorem C57_completes E parse device disk w0 e m im cx k ss vs h1 id h2 h3 : valid_env E -> gui_election E disk w0 e m im cx k ss -> good_voters E im vs ->
  let before := after_all E parse device disk w0 h1 in
  let joined := after_all E parse device disk w0 (h1 ++ NewDecryption id e :: h2) in
  pools_work (h1 ++ h2 ++ h3) -> no_more_uploads (h2 ++ h3) -> reads_work (h2 ++ h3) ->
  only_voters E parse im cx vs (dw_db before) e -> find_decryption (dw_docs before) id = None ->
  (forall s, In s ss -> carried_out E parse device disk (dec_event_step E parse device disk before (NewDecryption id e)) h2 (StartJoin (st_id s) id)) ->
  carried_out E parse device disk joined h3 (StartView true id) ->
  exists d r counted, find_decryption (dw_docs (after_all E parse device disk w0 (h1 ++ NewDecryption id e :: h2 ++ h3))) id = Some d /\ dy_result d = Some r /\ NoDup counted /\
    (forall v, In v counted <-> In v vs /\ exists b, In b (stored (dw_db before) e) /\ closed (so_contents b) = true /\ file_of E parse im cx v b) /\
    right_counts m im counted r /\ right_spoiled im counted r /\ forall v, In v counted -> vr_state v = SPOILED -> In (vr_id v) (dkeys (rs_spoiled r)).
Proof. exact (gui_completes E parse device disk w0 e m im cx k ss vs h1 id h2 h3). Qed.
Print Assumptions C57_completes.
(** three guardians and three voters meet what the two theorems ask for; two of the votes are for Ann *)
Example C57_ready_example : exists parse disk, let device := fun _ : string => true in let im := demo_im medium in
  gui_election medium disk show_db "primary" demo_manifest im show_cx 2 dec_seats /\ good_voters medium im voters /\
  let before := after_all medium parse device disk show_db show_h1 in
  only_voters medium parse im show_cx voters (dw_db before) "primary" /\ find_decryption (dw_docs before) "dec" = None /\
  (forall v, In v voters -> exists b, In b (stored (dw_db before) "primary") /\ closed (so_contents b) = true /\ file_of medium parse im show_cx v b) /\
  (forall s, In s dec_seats -> carried_out medium parse device disk (dec_event_step medium parse device disk before (NewDecryption "dec" "primary")) show_h2 (StartJoin (st_id s) "dec")) /\
  carried_out medium parse device disk (after_all medium parse device disk show_db (show_h1 ++ NewDecryption "dec" "primary" :: show_h2)) show_h3 (StartView true "dec").
Proof. exact show_ready. Qed.
Example C57_quiet_example : pools_work (show_h1 ++ show_h2 ++ show_h3) /\ no_more_uploads (show_h2 ++ show_h3) /\ reads_work (show_h2 ++ show_h3).
Proof. exact show_quiet. Qed.
Example C57_result_example : exists parse disk d r,
  find_decryption (dw_docs (after_all medium parse (fun _ => true) disk show_db (show_h1 ++ NewDecryption "dec" "primary" :: show_h2 ++ show_h3))) "dec" = Some d /\ dy_result d = Some r /\
  count_of (rs_tally r) "mayor" "mayor-ann" = Some 2 /\ count_of (rs_tally r) "council" "council-di" = Some 1 /\ In "ballot-3"%string (dkeys (rs_spoiled r)).
Proof. exact show_result. Qed.

(** A call comes to its end after at most three steps for each document of the collection of ballots, and six more,
    however the calls are interleaved and whatever fails. *)
Theorem C57_terminates E parse device disk w0 h1 ev h2 : no_uploads w0 -> (exists u id, ev = StartJoin u id) \/ (exists a id, ev = StartView a id) ->
  let before := after_all E parse device disk w0 h1 in let w := after_all E parse device disk w0 (h1 ++ ev :: h2) in
  let i := List.length (dw_calls before) in (3 * List.length (db_uploads (dw_db w)) + 6 <= steps_of i h2)%nat -> exists ok, nth_error (dw_calls w) i = Some (Finished ok).
Proof. exact (gui_terminates E parse device disk w0 h1 ev h2). Qed.
Print Assumptions C57_terminates.
Example C57_terminates_example : no_uploads yn_db /\ shown (yn_run yn_fine) = [Some (Some 1, Some 1, ["s"%string])] /\ dw_calls (yn_run yn_fine) = [Finished true; Finished true].
Proof. split; [exact (ge_start _ _ _ _ _ _ _ _ _ yn_election)|]. split; vm_compute; reflexivity. Qed.

(** ** what goes wrong when the conditions are not met *)
(** A ballot uploaded after a guardian joined: the administrator's program fails each time it looks, and the guardian
    cannot repair it by joining again; nothing is ever published. *)
Theorem C57_late_upload_refuted : gui_election tiny yn_disk yn_db "primary" yn_manifest yn_im yn_cx 1 [yn_seat] /\
  shown (yn_run (yn_late "{b}")) = [None] /\ dw_calls (yn_run (yn_late "{b}")) = [Finished true; Finished false; Finished true; Finished false].
Proof. split; [exact yn_election|]. split; vm_compute; reflexivity. Qed.
Print Assumptions C57_late_upload_refuted.
(** Neither the upload nor the decryption looks at the proofs: a single ballot without any that encrypts 5 votes is published as
    5 votes. *)
Theorem C57_only_voters_refuted : gui_election tiny yn_disk yn_db "primary" yn_manifest yn_im yn_cx 1 [yn_seat] /\
  len (stored (dw_db (yn_run yn_fraud)) "primary") = 1 /\ shown (yn_run yn_fraud) = [Some (Some 5, Some 0, [])].
Proof. split; [exact yn_election|]. split; vm_compute; reflexivity. Qed.
Print Assumptions C57_only_voters_refuted.
(** When a ballot cannot be read three times in a row, the programs go on without it: a cast ballot is missing in the published
    counts, a spoiled one in the published ballots, and every call reports success. *)
Theorem C57_lost_read_refuted : gui_election tiny yn_disk yn_db "primary" yn_manifest yn_im yn_cx 1 [yn_seat] /\
  (len (stored (dw_db (yn_run (yn_lost "{b}"))) "primary") = 2 /\ shown (yn_run (yn_lost "{b}")) = [Some (Some 1, Some 0, [])] /\ dw_calls (yn_run (yn_lost "{b}")) = [Finished true; Finished true]) /\
  (len (stored (dw_db (yn_run (yn_lost "{s}"))) "primary") = 2 /\ shown (yn_run (yn_lost "{s}")) = [Some (Some 1, Some 0, [])] /\ dw_calls (yn_run (yn_lost "{s}")) = [Finished true; Finished true]).
Proof. split; [exact yn_election|]. repeat split; vm_compute; reflexivity. Qed.
Print Assumptions C57_lost_read_refuted.
(** When the pool that adds up the ballots fails, the result of the append is ignored: 0 votes are published. *)
Theorem C57_pool_refuted : gui_election tiny yn_disk yn_db "primary" yn_manifest yn_im yn_cx 1 [yn_seat] /\
  len (stored (dw_db (yn_run yn_pool)) "primary") = 1 /\ shown (yn_run yn_pool) = [Some (Some 0, Some 0, [])] /\ dw_calls (yn_run yn_pool) = [Finished true; Finished true].
Proof. split; [exact yn_election|]. repeat split; vm_compute; reflexivity. Qed.
Print Assumptions C57_pool_refuted.
