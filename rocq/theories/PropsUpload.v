(** * PropsUpload: the ballot uploads of the graphical application (C55, C56).
    Only theorems and non-vacuity examples; the vocabulary is in SpecUpload.v. *)
From Verif Require Import Base Group Hash ElGamal Manifest Ballot GuiUpload SpecUpload UploadFacts UploadCounts UploadRead UploadSamples.
From Coq Require Import List.

(** ** C55: what is stored *)
(** Whatever calls are made, in whatever interleaving and with whatever crashes: a stored ballot was read from its
    file, carries its object id, and is for the manifest of the election it is stored for. *)
Theorem C55_only_matching parse device w0 h e b : no_uploads w0 -> In b (stored (after parse device w0 h) e) ->
  exists sb, parse (so_contents b) = Some sb /\ sb_id sb = so_object b /\ election_manifest w0 e (cb_manifest_hash (sb_ballot sb)).
Proof. intros H. exact (only_matching parse device w0 H h e b). Qed.
Print Assumptions C55_only_matching.
Example C55_example : stored (after toy_parse toy_device toy_db plain_history) "primary" = [mkStored (Oid "d1") "u1" "a" "{a}"].
Proof. vm_compute. reflexivity. Qed.

(** When calls do not overlap, and however many of them stop half-way, no object id is stored twice for one election. *)
Theorem C55_no_duplicates parse device w0 h e : no_uploads w0 -> NoDup (map so_object (stored (one_by_one parse device w0 h) e)).
Proof. intros H. exact (one_by_one_once parse device w0 H h e). Qed.
Print Assumptions C55_no_duplicates.
Example C55_no_duplicates_example : map so_object (stored (one_by_one toy_parse toy_device toy_db
    [(RCreate "primary" "{}", "u1", 5%nat); (RUpload "u1" "primary" "{a}", "d1", 3%nat); (RUpload "u1" "primary" "{b}", "d2", 2%nat);
     (RUpload "u1" "primary" "{b}", "d3", 5%nat); (RUpload "u1" "primary" "{a}", "d4", 5%nat)]%string) "primary") = ["a"; "b"]%string.
Proof. vm_compute. reflexivity. Qed.
(** When two uploads of one ballot overlap, both are stored, and both are counted. *)
Theorem C55_no_duplicates_refuted : no_uploads toy_db /\
  map so_object (stored (after toy_parse toy_device toy_db race_history) "primary") = ["a"; "a"]%string /\
  map sum_ballots (db_elections (after toy_parse toy_device toy_db race_history)) = [2; 0].
Proof. split; [exact toy_start|]. split; vm_compute; reflexivity. Qed.
Print Assumptions C55_no_duplicates_refuted.

(** The number of ballots an election shows is never larger than the number stored for it. *)
Theorem C55_count_bounded parse device w0 h x : no_uploads w0 ->
  In x (db_elections (after parse device w0 h)) -> sum_ballots x <= len (stored (after parse device w0 h) (el_id x)).
Proof. intros H. exact (count_bounded parse device w0 H h x). Qed.
Print Assumptions C55_count_bounded.
(** Once all calls have come to their end, and every ballot was uploaded under an upload its election listed, the two
    numbers are equal, for each upload as well, however the calls were interleaved. *)
Theorem C55_count_exact parse device w0 h : no_uploads w0 -> orderly parse device (mkUpWorld w0 []) h -> all_answered (up_run parse device (mkUpWorld w0 []) h) ->
  let w := after parse device w0 h in
  (forall x, In x (db_elections w) -> sum_ballots x = len (stored w (el_id x))) /\
  (forall e u n, shown_count w e u n -> n = len (filter (of_upload u) (stored w e))).
Proof. intros H. exact (count_exact parse device w0 H h). Qed.
Print Assumptions C55_count_exact.
Example C55_count_example : orderly toy_parse toy_device (mkUpWorld toy_db []) race_history /\ all_answered (up_run toy_parse toy_device (mkUpWorld toy_db []) race_history)
  /\ shown_count (after toy_parse toy_device toy_db race_history) "primary" "u1" 2.
Proof.
  split; [|split].
  - cbn [race_history orderly steps map app]. repeat (split; [first [exact I|exists 0; eexists; split; [vm_compute; left; reflexivity|split; [reflexivity|left; reflexivity]]]|]). exact I.
  - intros c Hc. vm_compute in Hc. repeat (destruct Hc as [<-|Hc]; [eexists; reflexivity|]). destruct Hc.
  - eexists. split; [vm_compute; left; reflexivity|]. split; [reflexivity|left; reflexivity].
Qed.
(** A program that stops between storing and counting leaves the count too small for ever: uploading the file again
    is answered "duplicate" and does not repair it. *)
Theorem C55_count_exact_refuted : no_uploads toy_db /\ let w := one_by_one toy_parse toy_device toy_db lost_count in
  len (stored w "primary") = 1 /\ map sum_ballots (db_elections w) = [0; 0] /\
  fst (call_whole toy_parse toy_device "d9" (UploadBallot "u1" "primary" "{a}") w) = Stored true.
Proof. split; [exact toy_start|]. repeat split; vm_compute; reflexivity. Qed.
Print Assumptions C55_count_exact_refuted.
(** The count in the document of an upload itself never moves from 0, whatever is stored under it: the update that
    should increment it names the document by a string instead of its id. *)
Theorem C55_own_count_refuted : (forall parse device w0 h d n, no_uploads w0 -> In d (db_uploads (after parse device w0 h)) -> ud_body d = UploadDoc n -> n = 0)
  /\ no_uploads toy_db /\ In (mkUpDoc (Oid "u1") "primary" (UploadDoc 0)) (db_uploads (after toy_parse toy_device toy_db plain_history))
  /\ len (filter (of_upload "u1") (stored (after toy_parse toy_device toy_db plain_history) "primary")) = 1.
Proof.
  split; [intros parse device w0 h d n H; exact (own_count parse device w0 H h d n)|]. split; [exact toy_start|]. split; [vm_compute; left; reflexivity|vm_compute; reflexivity].
Qed.
Print Assumptions C55_own_count_refuted.

(** Uploading a drive in one go, after any history: the ballots stored before stay as they are, what is added is under the new
    upload, and the count shown for that upload is the number added.  On success, "ballot_count" is the number of files,
    what is added are exactly the ballots whose id was not stored yet nor earlier on the drive, "duplicate_count" is the number of the
    others, and each file of the drive has its ballot id stored. *)
Theorem C55_drive parse device w0 h e new dev files a w' : no_uploads w0 -> let w := after parse device w0 h in
  upload_ballots parse device e new dev files w = (a, w') ->
  exists l, stored w' e = stored w e ++ l /\ (forall e', e' <> e -> stored w' e' = stored w e') /\ Forall (fun b => so_upload b = new) l /\
    (l <> [] -> shown_count w' e new (len l)) /\
    match a with
    | BatchFailed => True
    | BatchDone count duplicates => l = new_ballots parse new (map so_object (stored w e)) files /\ count = len files /\ duplicates = count - len l /\ shown_count w' e new (len l) /\
        (forall id s, In (id, s) files -> exists b, parse s = Some b /\ In (sb_id b) (map so_object (stored w' e)))
    end.
Proof. intros H w. exact (drive_uploaded parse device w0 H h e new dev files a w'). Qed.
Print Assumptions C55_drive.
Example C55_drive_example : let '(a, w) := upload_ballots toy_parse toy_device "primary" "u2" "{}" [("d5", "{b}"); ("d6", "{a}"); ("d7", "{c}"); ("d8", "{b }")]%string (after toy_parse toy_device toy_db plain_history) in
  a = BatchDone 4 2 /\ map (fun b => (so_object b, so_upload b)) (stored w "primary") = [("a", "u1"); ("b", "u2"); ("c", "u2")]%string /\ shown_count w "primary" "u2" 2.
Proof. vm_compute. split; [reflexivity|]. split; [reflexivity|]. eexists. split; [left; reflexivity|]. split; [reflexivity|right; left; reflexivity]. Qed.
(** A drive with one unreadable file fails as a whole, but what came before that file stays stored and counted. *)
Theorem C55_drive_atomic_refuted : no_uploads toy_db /\ exists w', upload_ballots toy_parse toy_device "primary" "u1" "{}" [("d1", "{a}"); ("d2", "broken"); ("d3", "{c}")]%string toy_db = (BatchFailed, w')
  /\ map so_object (stored w' "primary") = ["a"%string] /\ shown_count w' "primary" "u1" 1.
Proof.
  split; [exact toy_start|]. eexists. split; [vm_compute; reflexivity|]. split; [reflexivity|]. eexists. split; [left; reflexivity|]. split; [reflexivity|left; reflexivity].
Qed.
Print Assumptions C55_drive_atomic_refuted.

(** ** C56: what is read back before a tally *)
(** The ballots that the tally gets, while uploads go on: of those stored when the reading began, in the same order, the ones whose
    text ends with a closing brace and that one of three attempts could reach, each as it was read when it was uploaded.
    The others are left out without an error. *)
Theorem C56_read_back parse device w0 h net e : no_uploads w0 -> from_then_on parse device w0 h net ->
  Forall2 (fun b sb => parse (so_contents b) = Some sb /\ sb_id sb = so_object b)
    (filter (fun b => closed (so_contents b) && reached net b) (stored (after parse device w0 h) e)) (gui_ballots parse net (after parse device w0 h) e).
Proof. intros H. exact (read_back parse device w0 H h net e). Qed.
Print Assumptions C56_read_back.
Example C56_example : let w := after toy_parse toy_device toy_db newline_history in
  from_then_on toy_parse toy_device toy_db newline_history (fun _ k => if Nat.eqb k 2 then Some w else None)
  /\ map sb_id (gui_ballots toy_parse (fun _ k => if Nat.eqb k 2 then Some w else None) w "primary") = ["a"%string].
Proof.
  intros w. split; [|vm_compute; reflexivity]. intros id k w' Hk. exists []. rewrite app_nil_r. destruct (Nat.eqb k 2); [|discriminate]. injection Hk as <-. reflexivity.
Qed.
(** A file that ends with a line end after the brace is accepted, stored and counted, and then never tallied. *)
Theorem C56_all_tallied_refuted : no_uploads toy_db /\ let w := after toy_parse toy_device toy_db newline_history in
  all_answered (up_run toy_parse toy_device (mkUpWorld toy_db []) newline_history) /\ map sum_ballots (db_elections w) = [2; 0]
  /\ map so_object (stored w "primary") = ["a"; "b"]%string /\ map sb_id (gui_ballots toy_parse (fun _ _ => Some w) w "primary") = ["a"%string].
Proof.
  split; [exact toy_start|]. cbv zeta. split; [|repeat split; vm_compute; reflexivity].
  intros c Hc. vm_compute in Hc. repeat (destruct Hc as [<-|Hc]; [eexists; reflexivity|]). destruct Hc.
Qed.
Print Assumptions C56_all_tallied_refuted.
