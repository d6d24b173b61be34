(** * PropsWizard: the upload wizard of the graphical application (C73).
    Only theorems and non-vacuity examples; the vocabulary is in SpecWizard.v and SpecUpload.v. *)
From Verif Require Import Base Group Hash ElGamal Manifest Ballot GuiUpload SpecUpload Wizard SpecWizard WizardThms UploadSamples WizardSamples.
From Coq Require Import List.

(** What the scan shows is the first drive from D to Z with both places of a package: its letter, its first device file with the location
    that is named there, and the number of names in its ballot folder; provided that the package of every other drive can be read too. *)
Theorem C73_scan location_of m i : scan_drives location_of m = Ok (Some i) <->
  (exists v text ballots texts, first_package m (di_drive i) v /\ package location_of v (di_device_file i) text (di_location i) ballots texts /\ di_ballots i = len ballots) /\
  forall l v, plugged m l v -> has_package v -> legible location_of v.
Proof. exact (scan_some location_of m i). Qed.
Print Assumptions C73_scan.
(** It shows nothing exactly if no drive has such places. *)
Theorem C73_nothing location_of m : scan_drives location_of m = Ok None <-> forall l v, plugged m l v -> ~ has_package v.
Proof. exact (scan_none location_of m). Qed.
Print Assumptions C73_nothing.
Example C73_scan_example : scan_drives toy_location two_sticks = Ok (Some (mkInfo "E" 3 "hall" "dev.json")) /\ scan_drives toy_location (fun _ => None) = Ok None.
Proof. split; vm_compute; reflexivity. Qed.
(** One would expect the scan to show the first drive with a readable package.  It does not: any other drive with a package that
    cannot be read makes it fail. *)
Theorem C73_other_drive_refuted : (forall location_of m l v, plugged m l v -> has_package v -> ~ legible location_of v -> exists x, scan_drives location_of m = Err x)
  /\ exists v v', first_package spoiled "E" v /\ legible toy_location v /\ plugged spoiled "G" v' /\ has_package v' /\ ~ legible toy_location v'.
Proof.
  split; [exact scan_fails|]. exists good_stick, empty_stick. split; [|split; [|split; [|split]]].
  - split; [reflexivity|]. split; [split; discriminate|]. exists ["D"%string], (tl (tl letters)). split; [reflexivity|]. intros l' v' [<-|[]] H. discriminate.
  - eexists _, _, _, _, _, _, _. repeat split; reflexivity.
  - split; [right; right; right; left; reflexivity|reflexivity].
  - split; discriminate.
  - intros (f & t & l & b & ts & o & r & H & _). discriminate.
Qed.
Print Assumptions C73_other_drive_refuted.

(** When the scan fails or shows nothing, the wizard fails and the database stays as it is. *)
Theorem C73_without location_of parse device m ids e w : (forall i, scan_drives location_of m <> Ok (Some i)) -> run_wizard location_of parse device m ids e w = (BatchFailed, w).
Proof. intros H. unfold run_wizard. destruct (scan_drives location_of m) as [[i|]|x]; [destruct (H i eq_refl)|reflexivity|reflexivity]. Qed.
Print Assumptions C73_without.
Example C73_without_example : forall i, scan_drives toy_location spoiled <> Ok (Some i).
Proof. intros i. vm_compute. discriminate. Qed.

(** After any history, the wizard takes the drive that the scan shows.  Whether it succeeds or not: what was stored stays, what is added is
    under the new upload, comes from the ballot files of that drive, was not stored before and is added once, and is counted.
    On success, "ballot_count" is the number that the scan shows, "duplicate_count" the number of files that added nothing, and
    the ballot of each file of the drive is stored. *)
Theorem C73_upload location_of parse device w0 h m ids e i v text ballots texts a w' : no_uploads w0 -> let w := after parse device w0 h in
  scan_drives location_of m = Ok (Some i) -> m (di_drive i) = Some v -> package location_of v (di_device_file i) text (di_location i) ballots texts ->
  run_wizard location_of parse device m ids e w = (a, w') ->
  exists l, stored w' e = stored w e ++ l /\ (forall e', e' <> e -> stored w' e' = stored w e') /\
    Forall (fun b => so_upload b = ids 0%nat /\ from_file_of parse ballots texts b /\ ~ In (so_object b) (map so_object (stored w e))) l /\ NoDup (map so_object l) /\
    (l <> [] -> shown_count w' e (ids 0%nat) (len l)) /\
    match a with
    | BatchFailed => True
    | BatchDone count duplicates => count = di_ballots i /\ duplicates = count - len l /\ shown_count w' e (ids 0%nat) (len l) /\
        forall name, In name ballots -> exists s b, texts name = Some s /\ parse s = Some b /\ In (sb_id b) (map so_object (stored w' e))
    end.
Proof. intros H w. exact (wizard_effect location_of parse device w0 h m ids e i v text ballots texts a w' H). Qed.
Print Assumptions C73_upload.
Example C73_upload_example : let '(a, w) := run_wizard toy_location toy_parse toy_device two_sticks toy_ids "primary" (after toy_parse toy_device toy_db plain_history) in
  a = BatchDone 3 1 /\ map (fun b => (so_object b, so_upload b)) (stored w "primary") = [("a", "u1"); ("b", "n0"); ("c", "n0")]%string.
Proof. vm_compute. split; reflexivity. Qed.

(** It does succeed if the election has a context, the device file is accepted, all ballot files are ballots for the election's manifest, and
    the database hands out new ids. *)
Theorem C73_succeeds location_of parse device w0 h m ids e i v text ballots texts q : no_uploads w0 -> let w := after parse device w0 h in
  scan_drives location_of m = Ok (Some i) -> m (di_drive i) = Some v -> package location_of v (di_device_file i) text (di_location i) ballots texts ->
  device text = true -> election_manifest w e q -> all_ballots_of parse q ballots texts -> fresh w ids (S (length ballots)) ->
  exists duplicates, fst (run_wizard location_of parse device m ids e w) = BatchDone (di_ballots i) duplicates.
Proof. intros H w. exact (wizard_succeeds location_of parse device w0 h m ids e i v text ballots texts q H). Qed.
Print Assumptions C73_succeeds.
Example C73_succeeds_example : let w := after toy_parse toy_device toy_db plain_history in
  package toy_location good_stick "dev.json" "{hall" "hall" ["1"; "2"; "3"]%string good_texts /\ toy_device "{hall" = true /\ election_manifest w "primary" 7 /\
  all_ballots_of toy_parse 7 ["1"; "2"; "3"]%string good_texts /\ fresh w toy_ids 4.
Proof.
  split; [eexists _, _; repeat split; reflexivity|]. split; [reflexivity|]. split; [|split].
  - eexists _, _. split; [left; reflexivity|]. repeat split; reflexivity.
  - intros name [<-|[<-|[<-|[]]]]; eexists _, _; repeat split; reflexivity.
  - split.
    + intros i j Hi Hj H. do 4 (destruct i as [|i]; [do 4 (destruct j as [|j]; [first [reflexivity|discriminate H]|]); exfalso; lia|]). exfalso; lia.
    + intros i d Hi Hd. vm_compute in Hd. do 4 (destruct i as [|i]; [destruct Hd as [<-|[<-|[]]]; discriminate|]). exfalso; lia.
Qed.

(** Doing it again: a second run with the same drives counts every file as a duplicate and stores nothing. *)
Theorem C73_again location_of parse device w0 h m ids e count duplicates w1 ids' count' duplicates' w2 : no_uploads w0 ->
  run_wizard location_of parse device m ids e (after parse device w0 h) = (BatchDone count duplicates, w1) -> run_wizard location_of parse device m ids' e w1 = (BatchDone count' duplicates', w2) ->
  count' = count /\ duplicates' = count /\ forall e', stored w2 e' = stored w1 e'.
Proof. exact (wizard_again location_of parse device w0 h m ids e count duplicates w1 ids' count' duplicates' w2). Qed.
Print Assumptions C73_again.
(** A run is a history of calls like any other, so what was said above about any history holds after any number of runs, failed or not. *)
Theorem C73_history location_of parse device m ids e w0 h : exists h', snd (run_wizard location_of parse device m ids e (after parse device w0 h)) = after parse device w0 (h ++ h').
Proof. exact (wizard_history location_of parse device m ids e w0 h). Qed.
Print Assumptions C73_history.
(** an unreadable file stops the first run half-way; with the file replaced, the second run stores the rest, and a third one nothing *)
Example C73_again_example : let w0 := toy_db in
  let '(a1, w1) := run_wizard toy_location toy_parse toy_device (one_stick half_texts) toy_ids "primary" w0 in
  let '(a2, w2) := run_wizard toy_location toy_parse toy_device (one_stick good_texts) (fun n => toy_ids (10 + n)) "primary" w1 in
  let '(a3, w3) := run_wizard toy_location toy_parse toy_device (one_stick good_texts) (fun n => toy_ids (20 + n)) "primary" w2 in
  (a1, a2, a3) = (BatchFailed, BatchDone 3 1, BatchDone 3 3) /\ map so_object (stored w1 "primary") = ["a"]%string /\ map so_object (stored w2 "primary") = ["a"; "b"; "c"]%string /\ stored w3 "primary" = stored w2 "primary".
Proof. vm_compute. repeat split; reflexivity. Qed.
