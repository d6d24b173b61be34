(** * C67: the key ceremony of the graphical application when a program looks at the document only at the moments
    the code does: when its page is opened and at every message. *)
From Verif Require Import Base Group Spec SpecElection GuiCeremony SpecGui GuiWatch SpecGuiWatch Tiny GuiStuck GuiDemo GuiWatchFacts GuiWatchThms GuiWatchEnds.
Import List.

(** From the moment all guardians needed have joined and everybody is going to hear of it, in every order of the
    steps of any number of programs: when nothing is left to do, the ceremony is complete.  No message that
    somebody needed was missed, provided that no program is closed between a change and its message and that no
    message arrives between the first look of a program and the moment it starts to watch. *)
Theorem C67_nobody_waits_for_ever E n t ps h l : valid_env E -> hmac_32 E -> qq E <= 2 ^ 1024 ->
  0 < t -> 0 < n -> n < qq E -> (forall j, 0 <= j < t -> n ^ j < pp E) -> one_each ps ->
  let w := watch_run E (watch_start n t) h in let w' := watch_run E w l in
  Forall (good_watch E) (h ++ l) -> Forall (watch_of ps) (h ++ l) -> ready ps (ww_world w) -> news w -> orderly E w l ->
  kc_joined (w_doc (ww_world w')) = kc_joined (w_doc (ww_world w)) -> quiet w' ->
  get_key_ceremony_state (w_doc (ww_world w')) = CeremonyComplete.
Proof. exact (watch_completes E n t ps h l). Qed.
Print Assumptions C67_nobody_waits_for_ever.
(** and it is marked complete, so that an election can use it *)
Theorem C67_marked E n t ps h l : valid_env E -> hmac_32 E -> qq E <= 2 ^ 1024 ->
  0 < t -> 0 < n -> n < qq E -> (forall j, 0 <= j < t -> n ^ j < pp E) -> one_each ps ->
  let w := watch_run E (watch_start n t) h in let w' := watch_run E w l in
  Forall (good_watch E) (h ++ l) -> Forall (watch_of ps) (h ++ l) -> ready ps (ww_world w) -> news w -> orderly E w l ->
  kc_joined (w_doc (ww_world w')) = kc_joined (w_doc (ww_world w)) -> quiet w' -> kc_joint (w_doc (ww_world w)) = None ->
  kc_completed (w_doc (ww_world w')) = true.
Proof. exact (watch_marks E n t ps h l). Qed.
Print Assumptions C67_marked.
Example C67_example : valid_env medium /\ hmac_32 medium /\ qq medium <= 2 ^ 1024 /\ 1 < qq medium /\ one_each solo_ps
  /\ let w := watch_run medium (watch_start 1 1) solo_before in let w' := watch_run medium w solo_after in
  Forall (good_watch medium) (solo_before ++ solo_after) /\ Forall (watch_of solo_ps) (solo_before ++ solo_after) /\ ready solo_ps (ww_world w) /\ news w /\ orderly medium w solo_after
  /\ kc_joined (w_doc (ww_world w')) = kc_joined (w_doc (ww_world w)) /\ quiet w' /\ kc_joint (w_doc (ww_world w)) = None.
Proof. exact solo_example. Qed.

(** From the moment all guardians needed have joined, and with nobody opening a page or joining again, there is a
    bound on the steps that change anything, whatever their order; a program that can take a step exists as long
    as not everybody waits for a message; and where nobody can take a step any more, after a run in which no
    message was missed, the ceremony is complete. *)
Theorem C67_comes_to_an_end E n t ps h : valid_env E -> hmac_32 E -> qq E <= 2 ^ 1024 ->
  0 < t -> 0 < n -> n < qq E -> (forall j, 0 <= j < t -> n ^ j < pp E) -> one_each ps ->
  let w := watch_run E (watch_start n t) h in
  Forall (good_watch E) h -> Forall (watch_of ps) h -> ready ps (ww_world w) ->
  exists N, forall l, Forall (good_watch E) l -> Forall by_itself l -> let w' := watch_run E w l in
    (moving E w l -> len l <= N) /\ (can_move E w' \/ quiet w') /\
    (news w -> orderly E w l -> can_move E w' \/ get_key_ceremony_state (w_doc (ww_world w')) = CeremonyComplete).
Proof. exact (watch_ends E n t ps h). Qed.
Print Assumptions C67_comes_to_an_end.
(** C67_example gives the first hypotheses *)
Example C67_comes_to_an_end_example : Forall by_itself solo_after /\ moving medium (watch_run medium (watch_start 1 1) solo_before) solo_one.
Proof. exact solo_moves. Qed.

(** Once nothing is left to do, the document does not change unless somebody opens a page or joins. *)
Theorem C67_quiet_stays E n t h l : quiet (watch_run E (watch_start n t) h) -> Forall by_itself l ->
  w_doc (ww_world (watch_run E (watch_start n t) (h ++ l))) = w_doc (ww_world (watch_run E (watch_start n t) h)).
Proof. exact (quiet_stays E n t h l). Qed.
Print Assumptions C67_quiet_stays.

(** Both conditions are needed.  The page looks first and starts to watch afterwards: a guardian who joins in
    between is seen by nobody, and the ceremony waits for an administrator whose page is open. *)
Theorem C67_look_then_watch_refuted : exists h, Forall (good_watch tiny) h /\ Forall (watch_of demo_ps) h /\ one_each demo_ps
  /\ let w := watch_run tiny (watch_start 2 2) h in
     ready demo_ps (ww_world w) /\ quiet w /\
     forall l, Forall by_itself l -> get_key_ceremony_state (w_doc (ww_world (watch_run tiny (watch_start 2 2) (h ++ l)))) = PendingAdminAnnounce.
Proof. exists late_burn. exact late_burn_refuted. Qed.
Print Assumptions C67_look_then_watch_refuted.
(** A program that stops after its change and before its message, even if it is started again at once: the
    others are never told. *)
Theorem C67_stopped_before_message_refuted : exists h, Forall (good_watch tiny) h /\ Forall (watch_of demo_ps) h /\ one_each demo_ps
  /\ let w := watch_run tiny (watch_start 2 2) h in
     ready demo_ps (ww_world w) /\ quiet w /\
     forall l, Forall by_itself l -> get_key_ceremony_state (w_doc (ww_world (watch_run tiny (watch_start 2 2) (h ++ l)))) = PendingGuardianBackups.
Proof. exists no_message. exact no_message_refuted. Qed.
Print Assumptions C67_stopped_before_message_refuted.
