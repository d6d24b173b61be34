(** * PropsGui: the properties of the key ceremony of the graphical application (C51-C54).
    Only theorems and non-vacuity examples; the vocabulary is in SpecGui.v. *)
From Verif Require Import Base Group Spec GroupFacts Codec Hash DLog ElGamal ZK Poly ListFacts Manifest Ballot Encrypt
  SpecElection Ceremony SpecCeremony GuiCeremony SpecGui GuiFacts GuiThms Tiny EncryptThms GuiStuck GuiDemo.
From Coq Require Import List.

(** ** C51: guardian numbers *)
(** Whatever the programs do, in whatever order and with whatever crashes: the number in a published key is the
    position at which its owner first joined. *)
Theorem C51_number_is_position E n q h k : let d := w_doc (gui_run E (gui_start n q) h) in
  In k (kc_keys d) -> exists l1 l2, kc_joined d = l1 ++ pk_owner k :: l2 /\ ~ In (pk_owner k) l1 /\ pk_seq k = 1 + len l1.
Proof. intros d Hk. apply number_from_spec. exact (do_keys _ _ (wo_doc _ _ (run_ok E h _ (start_ok E n q))) k Hk). Qed.
Print Assumptions C51_number_is_position.
(** So two guardians never get the same number. *)
Theorem C51_numbers_differ E n q h k k' : let d := w_doc (gui_run E (gui_start n q) h) in
  In k (kc_keys d) -> In k' (kc_keys d) -> pk_seq k = pk_seq k' -> pk_owner k = pk_owner k'.
Proof.
  intros d Hk Hk' Hs. pose proof (wo_doc _ _ (run_ok E h _ (start_ok E n q))) as Hd.
  apply (number_inj d _ _ (pk_seq k)); [exact (do_keys _ _ Hd k Hk)|rewrite Hs; exact (do_keys _ _ Hd k' Hk')].
Qed.
Print Assumptions C51_numbers_differ.
(** Two guardians whose programs interleave: the second to ask is the first to publish. *)
Definition C51_history : list event :=
  opens demo_ps ++ [Join "laptop a"; Join "laptop b"; ReadNumber "laptop b"; MakeGuardian "laptop b" demo_draw; PushKey "laptop b";
                    ReadNumber "laptop a"; MakeGuardian "laptop a" demo_draw'; PushKey "laptop a"]%string.
Example C51_example : map (fun k => (pk_owner k, pk_seq k)) (kc_keys (w_doc (gui_run tiny (gui_start 2 2) C51_history))) = [("bob"%string, 2); ("alice"%string, 1)].
Proof. vm_compute. reflexivity. Qed.
(** A guardian that joins from two programs at once publishes two keys; the private file keeps the one that the
    others do not use. *)
Theorem C51_one_key_refuted : exists h u key r, let w := gui_run tiny (gui_start 2 2) h in
  Forall (good_event tiny) h /\ key_in (w_doc w) u key /\ dget u (w_files w) = Some r /\ share_keys (pr_keys r) <> key
  /\ exists key', In key' (kc_keys (w_doc w)) /\ pk_owner key' = pk_owner key /\ pk_seq key' = pk_seq key /\ pk_key key' <> pk_key key.
Proof. exact two_keys. Qed.
Print Assumptions C51_one_key_refuted.

(** ** C52: the document only grows *)
(** Nothing published in the ceremony is ever changed or taken back, from any state of the programs. *)
Theorem C52_append_only E w h : let d := w_doc w in let d' := w_doc (gui_run E w h) in
  kc_count d' = kc_count d /\ kc_quorum d' = kc_quorum d /\ prefix (kc_joined d) (kc_joined d') /\ prefix (kc_keys d) (kc_keys d')
  /\ prefix (kc_other d) (kc_other d') /\ prefix (kc_backups d) (kc_backups d') /\ prefix (kc_shared d) (kc_shared d')
  /\ prefix (kc_verifs d) (kc_verifs d') /\ (kc_joint d <> None -> kc_joint d' <> None) /\ (kc_completed d = true -> kc_completed d' = true).
Proof. destruct (run_le E h w). repeat split; auto. Qed.
Print Assumptions C52_append_only.
(** The state shown to the users never steps back. *)
Theorem C52_state_forward E w h : progress (get_key_ceremony_state (w_doc w)) <= progress (get_key_ceremony_state (w_doc (gui_run E w h))).
Proof. exact (progress_mono _ _ (run_le E h w)). Qed.
Print Assumptions C52_state_forward.
Example C52_example : map (fun m => progress (get_key_ceremony_state (w_doc (gui_run medium (gui_start 2 2) (firstn m announced_history))))) [0; 4; 8; 11; 13]%nat = [0; 0; 1; 1; 2].
Proof. vm_compute. reflexivity. Qed.

(** ** C53: the joint key *)
(** In every history: when a joint key is in the document, it is the product of the keys of the first [count]
    guardians that joined (with the hash over their commitments), and for each ordered pair of them the document holds a backup
    of the one for the other together with the successful check of it that the other computed, with its own
    secret key, against the published commitments. *)
Theorem C53_joint_key_checked E n q h j : valid_env E -> let d := w_doc (gui_run E (gui_start n q) h) in
  ~ In EmptyString (kc_joined d) -> kc_joint d = Some j ->
  exists us ks, prefix us (firsts (kc_joined d)) /\ len us = n /\ Forall2 (key_in d) us ks
    /\ jk_key j = prodZ (map pk_key ks) mod pp E /\ jk_hash j = hash_elems E [HList (map HElem (flat_map pk_commitments ks))]
    /\ forall o r, In o us -> In r us -> o <> r -> exists b v ko kp, In b (kc_backups d) /\ In v (kc_verifs d)
         /\ bk_owner b = o /\ bk_designated b = r /\ key_in d o ko /\ ek_owner kp = r /\ verify_backup E r b ko kp = Ok v /\ vf_verified v = true.
Proof. exact (joint_key_checked E n q h j). Qed.
Print Assumptions C53_joint_key_checked.
(** Once published the joint key never changes. *)
Theorem C53_joint_key_stays E n q h h' j : kc_joint (w_doc (gui_run E (gui_start n q) h)) = Some j ->
  kc_joint (w_doc (gui_run E (gui_start n q) (h ++ h'))) = Some j.
Proof. intros H. rewrite run_app. exact (joint_stable E _ h' j (run_ok E h _ (start_ok E n q)) H). Qed.
Print Assumptions C53_joint_key_stays.
Example C53_example : exists j, kc_joint (w_doc (gui_run medium (gui_start 2 2) (demo_joined ++ concat demo_rounds))) = Some j
  /\ kc_joined (w_doc (gui_run medium (gui_start 2 2) (demo_joined ++ concat demo_rounds))) = ["bob"%string; "alice"%string].
Proof. exact demo_joint. Qed.

(** ** C54: the ceremony comes to an end *)
(** Exactly the guardians needed have joined, each once.  Then five rounds, in each of which every program is
    woken at least once among any other events, crashes and restarts, complete the ceremony. *)
Theorem C54_completes E n t ps h rs : valid_env E -> hmac_32 E -> qq E <= 2 ^ 1024 ->
  0 < t -> 0 < n < qq E -> (forall j, 0 <= j < t -> n ^ j < pp E) -> one_each ps ->
  Forall (good_event E) (h ++ concat rs) -> Forall (of_programs ps) (h ++ concat rs) ->
  let w := gui_run E (gui_start n t) h in let w' := gui_run E (gui_start n t) (h ++ concat rs) in
  ready ps w -> kc_joined (w_doc w') = kc_joined (w_doc w) -> Forall (round ps) rs -> 5 <= len rs ->
  get_key_ceremony_state (w_doc w') = CeremonyComplete.
Proof. exact (ceremony_completes E n t ps h rs). Qed.
Print Assumptions C54_completes.
(** If no program is stopped from then on, a sixth round also marks it as complete, so that an election can use
    it. *)
Theorem C54_marked E n t ps h rs r : valid_env E -> hmac_32 E -> qq E <= 2 ^ 1024 ->
  0 < t -> 0 < n < qq E -> (forall j, 0 <= j < t -> n ^ j < pp E) -> one_each ps ->
  Forall (good_event E) (h ++ concat rs ++ r) -> Forall (of_programs ps) (h ++ concat rs ++ r) ->
  (forall c u a, ~ In (Open c u a) (concat rs ++ r)) ->
  let w := gui_run E (gui_start n t) h in let w' := gui_run E (gui_start n t) (h ++ concat rs ++ r) in
  ready ps w -> kc_joint (w_doc w) = None -> kc_joined (w_doc w') = kc_joined (w_doc w) -> Forall (round ps) rs -> 5 <= len rs -> round ps r ->
  kc_completed (w_doc w') = true.
Proof. exact (ceremony_marked E n t ps h rs r). Qed.
Print Assumptions C54_marked.
Example C54_example : valid_env medium /\ hmac_32 medium /\ qq medium <= 2 ^ 1024 /\ 2 < qq medium /\ (forall j, 0 <= j < 2 -> 2 ^ j < pp medium) /\ one_each demo_ps
  /\ Forall (good_event medium) (demo_joined ++ concat demo_rounds) /\ Forall (of_programs demo_ps) (demo_joined ++ concat demo_rounds)
  /\ ready demo_ps (gui_run medium (gui_start 2 2) demo_joined)
  /\ kc_joined (w_doc (gui_run medium (gui_start 2 2) (demo_joined ++ concat demo_rounds))) = kc_joined (w_doc (gui_run medium (gui_start 2 2) demo_joined))
  /\ Forall (round demo_ps) demo_rounds /\ len demo_rounds = 5.
Proof. exact demo_hypotheses. Qed.

(** Each of these conditions is needed.  A program that stops after announcing that its guardian joins and
    before publishing the key: the button "join" is gone, and nothing that the programs offer moves the ceremony
    any more. *)
Theorem C54_crash_while_joining_refuted : exists h, Forall (good_event tiny) h /\ Forall (of_programs demo_ps) h /\ one_each demo_ps
  /\ let w := gui_run tiny (gui_start 2 2) h in
     kc_joined (w_doc w) = ["bob"%string; "alice"%string] /\
     forall h', Forall (of_programs demo_ps) h' -> offered tiny w h' ->
       w_doc (gui_run tiny w h') = w_doc w /\ get_key_ceremony_state (w_doc (gui_run tiny w h')) = PendingAdminAnnounce.
Proof. exact crash_refuted. Qed.
Print Assumptions C54_crash_while_joining_refuted.
(** A third guardian who joins a ceremony of two. *)
Theorem C54_too_many_refuted : exists ps h, one_each ps /\ Forall (good_event tiny) h /\ Forall (of_programs ps) h
  /\ offered tiny (gui_start 2 2) h
  /\ let w := gui_run tiny (gui_start 2 2) h in
     NoDup (kc_joined (w_doc w)) /\ map pk_owner (kc_keys (w_doc w)) = kc_joined (w_doc w) /\
     forall h', Forall (of_programs ps) h' -> offered tiny w h' ->
       w_doc (gui_run tiny w h') = w_doc w /\ get_key_ceremony_state (w_doc (gui_run tiny w h')) = PendingAdminAnnounce.
Proof. exact late_refuted. Qed.
Print Assumptions C54_too_many_refuted.
(** A guardian who has the ceremony open in two programs: both send the backups, those of the other guardian are
    never asked for. *)
Theorem C54_two_programs_refuted : exists ps h, Forall (good_event medium) h /\ Forall (of_programs ps) h
  /\ let w := gui_run medium (gui_start 2 2) h in
     ready ps w /\
     forall h', Forall (of_programs ps) h' -> offered medium w h' ->
       w_doc (gui_run medium w h') = w_doc w /\ get_key_ceremony_state (w_doc (gui_run medium w h')) = PendingAdminToShareBackups.
Proof. exact twin_refuted. Qed.
Print Assumptions C54_two_programs_refuted.
(** A program that stops between the two updates of the last stage: the state is complete, the mark is never
    set. *)
Theorem C54_unmarked_refuted : exists h, Forall (good_event medium) h /\ Forall (of_programs solo_ps) h /\ one_each solo_ps
  /\ forall h', Forall (of_programs solo_ps) h' -> offered medium (gui_run medium (gui_start 1 1) h) h' ->
     let d := w_doc (gui_run medium (gui_start 1 1) (h ++ h')) in get_key_ceremony_state d = CeremonyComplete /\ kc_completed d = false.
Proof. exact unmarked_refuted. Qed.
Print Assumptions C54_unmarked_refuted.
