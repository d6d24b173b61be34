(** * C69: the decryption of the graphical application when the administrator's page looks at the document only at
    the moments the code does: when it is opened and at every message. *)
From Verif Require Import Base Group Hash ElGamal ZK Spec Manifest Ballot Encrypt SpecElection Box Tally SpecTally Ceremony SpecCeremony Shares SpecShares SpecEndToEnd
  Samples SharesSamples EndToEndSamples GuiUpload SpecUpload GuiDecrypt SpecGuiDecrypt GuiDecSamples GuiDecWatch SpecGuiDecWatch Tiny GuiDecWatchFacts GuiDecWatchThms GuiDecWatchEnds GuiDecWatchSamples.
Import List.
Local Open Scope string_scope.
Local Open Scope list_scope.
Local Open Scope Z_scope.

(** The guardians of an election join its decryption, in every order of the steps of any number of programs and
    pages.  If from that moment on no program stops between its last change and its message, and no message
    arrives between the moment the page reads the document and the moment it starts to watch, then the page
    publishes: when it has nothing left to do, the result is there, and it is the count of the voters' ballots. *)
Theorem C69_published E parse device disk w0 e m im cx k ss vs h1 id h2 h3 p : valid_env E -> gui_election E disk w0 e m im cx k ss -> good_voters E im vs ->
  let before := watched E parse device disk w0 h1 in
  let joined := watched E parse device disk w0 (h1 ++ Do (NewDecryption id e) :: h2) in
  let last := watched E parse device disk w0 (h1 ++ Do (NewDecryption id e) :: h2 ++ h3) in
  all_pools_work (h1 ++ h2 ++ h3) -> nothing_uploaded (h2 ++ h3) -> all_reads_work (h2 ++ h3) ->
  only_voters E parse im cx vs (dw_db (dx_dec before)) e -> find_decryption (dw_docs (dx_dec before)) id = None ->
  (forall s, In s ss -> joins E parse device disk w0 (h1 ++ [Do (NewDecryption id e)]) h2 (st_id s) id) ->
  will_hear joined p id -> orderly E parse device disk p id joined h3 -> at_rest last p id ->
  exists d r counted, find_decryption (dw_docs (dx_dec last)) id = Some d /\ dy_result d = Some r /\ NoDup counted /\
    (forall v, In v counted <-> In v vs /\ exists b, In b (stored (dw_db (dx_dec before)) e) /\ closed (so_contents b) = true /\ file_of E parse im cx v b) /\
    right_counts m im counted r /\ right_spoiled im counted r /\ forall v, In v counted -> vr_state v = SPOILED -> In (vr_id v) (dkeys (rs_spoiled r)).
Proof. exact (page_publishes E parse device disk w0 e m im cx k ss vs h1 id h2 h3 p). Qed.
Print Assumptions C69_published.
(** three guardians, three voters; the page is opened when they have joined *)
Example C69_published_example : exists parse disk, let device := fun _ : string => true in let im := demo_im medium in
  gui_election medium disk show_db "primary" demo_manifest im show_cx 2 dec_seats /\ good_voters medium im voters /\
  let before := watched medium parse device disk show_db show_w1 in
  let joined := watched medium parse device disk show_db (show_w1 ++ Do (NewDecryption "dec" "primary") :: show_w2) in
  let last := watched medium parse device disk show_db (show_w1 ++ Do (NewDecryption "dec" "primary") :: show_w2 ++ show_w3) in
  only_voters medium parse im show_cx voters (dw_db (dx_dec before)) "primary" /\ find_decryption (dw_docs (dx_dec before)) "dec" = None /\
  (forall v, In v voters -> exists b, In b (stored (dw_db (dx_dec before)) "primary") /\ closed (so_contents b) = true /\ file_of medium parse im show_cx v b) /\
  (forall s, In s dec_seats -> joins medium parse device disk show_db (show_w1 ++ [Do (NewDecryption "dec" "primary")]) show_w2 (st_id s) "dec") /\
  will_hear joined 0 "dec" /\ orderly medium parse device disk 0 "dec" joined show_w3 /\ at_rest last 0 "dec".
Proof. exact show_watched. Qed.
Example C69_published_example_events : all_pools_work (show_w1 ++ show_w2 ++ show_w3) /\ nothing_uploaded (show_w2 ++ show_w3) /\ all_reads_work (show_w2 ++ show_w3).
Proof. exact show_works. Qed.
(** one guardian: the page watches, the guardian joins, the message arrives, the result is published *)
Example C69_published_example_heard : gui_election tiny yn_disk yn_db "primary" yn_manifest yn_im yn_cx 1 [yn_seat] /\
  let joined := yn_watched yn_heard in let last := yn_watched (yn_heard ++ yn_heard_rest) in
  dx_pages joined = [mkPage "dec" (PgWatching 0)] /\ will_hear joined 0 "dec" /\ orderly tiny yn_parse (fun _ => true) yn_disk 0 "dec" joined yn_heard_rest /\ at_rest last 0 "dec" /\
  published joined = [false] /\ published last = [true].
Proof. exact yn_hears. Qed.

(** A page that is open and not left either has come to rest, or there is a step that the programs take by
    themselves and that changes something. *)
Theorem C69_never_stuck E parse device disk w0 h p id s : let w := watched E parse device disk w0 h in
  nth_error (dx_pages w) p = Some (mkPage id s) -> s <> PgClosed -> at_rest w p id \/ exists e, by_itself e /\ dx_step E parse device disk w e <> w.
Proof. exact (watched_not_stuck E parse device disk w0 h p id s). Qed.
Print Assumptions C69_never_stuck.
Example C69_never_stuck_example : nth_error (dx_pages (yn_watched yn_heard)) 0 = Some (mkPage "dec" (PgWatching 0)).
Proof. vm_compute. reflexivity. Qed.

(** The programs cannot go on for ever by themselves: an endless list of such steps comes to one that changes
    nothing. *)
Theorem C69_comes_to_an_end E parse device disk w (f : nat -> dx_event) : (forall n, by_itself (f n)) ->
  exists n, let w' := dx_run E parse device disk w (map f (seq 0 n)) in dx_step E parse device disk w' (f n) = w'.
Proof. exact (ends E parse device disk w f). Qed.
Print Assumptions C69_comes_to_an_end.
Example C69_comes_to_an_end_example : Forall by_itself yn_heard_rest /\ published (yn_watched yn_heard) <> published (yn_watched (yn_heard ++ yn_heard_rest)).
Proof. exact yn_moves. Qed.

(** No result is published before as many guardians have joined as the election has, although the quorum would be
    enough to decrypt; and the page shows "decryption complete" exactly when there is a result. *)
Theorem C69_all_guardians_needed E parse device disk w0 h d : In d (dw_docs (dx_dec (watched E parse device disk w0 h))) ->
  (dy_result d <> None -> dy_guardians d <= len (dy_joined d)) /\ (get_status d = "decryption complete"%string <-> dy_result d <> None).
Proof. exact (all_needed E parse device disk w0 h d). Qed.
Print Assumptions C69_all_guardians_needed.
Example C69_all_guardians_needed_example : exists d, In d (dw_docs (dx_dec (yn_watched (yn_heard ++ yn_heard_rest)))) /\ dy_result d <> None.
Proof. exact yn_result. Qed.

(** The page looks first and starts to watch afterwards: the message of a guardian who joins in between is among
    those it skips, and the open page waits for ever, showing "performing decryption". *)
Theorem C69_look_then_watch_refuted : gui_election tiny yn_disk yn_db "primary" yn_manifest yn_im yn_cx 1 [yn_seat] /\ all_pools_work yn_between /\ all_reads_work yn_between /\
  dx_pages (yn_watched yn_between) = [mkPage "dec" (PgWatching 1)] /\
  exists d, find_decryption (dw_docs (dx_dec (yn_watched yn_between))) "dec" = Some d /\ dy_guardians d = len (dy_joined d) /\ get_status d = "performing decryption"%string /\
    forall l, Forall by_itself l -> find_decryption (dw_docs (dx_dec (dx_run tiny yn_parse (fun _ => true) yn_disk (yn_watched yn_between) l))) "dec" = Some d /\ dy_result d = None.
Proof. exact yn_between_waits. Qed.
Print Assumptions C69_look_then_watch_refuted.
(** The same when the guardian's program stops after its last change, before the message. *)
Theorem C69_stopped_before_message_refuted : gui_election tiny yn_disk yn_db "primary" yn_manifest yn_im yn_cx 1 [yn_seat] /\ all_pools_work yn_stopped /\ all_reads_work yn_stopped /\
  dx_pages (yn_watched yn_stopped) = [mkPage "dec" (PgWatching 0)] /\
  exists d, find_decryption (dw_docs (dx_dec (yn_watched yn_stopped))) "dec" = Some d /\ dy_guardians d = len (dy_joined d) /\ get_status d = "performing decryption"%string /\
    forall l, Forall by_itself l -> find_decryption (dw_docs (dx_dec (dx_run tiny yn_parse (fun _ => true) yn_disk (yn_watched yn_stopped) l))) "dec" = Some d /\ dy_result d = None.
Proof. exact yn_stopped_waits. Qed.
Print Assumptions C69_stopped_before_message_refuted.
(** The same when the reading of a ballot fails while the page handles the last message: nothing tries again. *)
Theorem C69_failed_read_refuted : gui_election tiny yn_disk yn_db "primary" yn_manifest yn_im yn_cx 1 [yn_seat] /\ all_pools_work yn_misread /\
  dx_pages (yn_watched yn_misread) = [mkPage "dec" (PgWatching 1)] /\
  exists d, find_decryption (dw_docs (dx_dec (yn_watched yn_misread))) "dec" = Some d /\ dy_guardians d = len (dy_joined d) /\ get_status d = "performing decryption"%string /\
    forall l, Forall by_itself l -> find_decryption (dw_docs (dx_dec (dx_run tiny yn_parse (fun _ => true) yn_disk (yn_watched yn_misread) l))) "dec" = Some d /\ dy_result d = None.
Proof. exact yn_misread_waits. Qed.
Print Assumptions C69_failed_read_refuted.
(** And when it fails while the page is opened, the page does not even watch. *)
Theorem C69_failed_open_refuted : gui_election tiny yn_disk yn_db "primary" yn_manifest yn_im yn_cx 1 [yn_seat] /\ all_pools_work yn_unwatched /\
  dx_pages (yn_watched yn_unwatched) = [mkPage "dec" PgFailed] /\
  exists d, find_decryption (dw_docs (dx_dec (yn_watched yn_unwatched))) "dec" = Some d /\ dy_guardians d = len (dy_joined d) /\ get_status d = "performing decryption"%string /\
    forall l, Forall by_itself l -> find_decryption (dw_docs (dx_dec (dx_run tiny yn_parse (fun _ => true) yn_disk (yn_watched yn_unwatched) l))) "dec" = Some d /\ dy_result d = None.
Proof. exact yn_unwatched_waits. Qed.
Print Assumptions C69_failed_open_refuted.
