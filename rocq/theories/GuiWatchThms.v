(** * GuiWatchThms: quiet worlds, messages that are lost, and a ceremony that finishes. *)
From Verif Require Import Base Group Spec GroupFacts Codec Hash DLog ElGamal ZK Poly ListFacts Manifest Ballot Encrypt
  SpecElection Ceremony SpecCeremony MediatorFacts CeremonyFacts GuiCeremony SpecGui GuiFacts GuiJoin GuiLive GuiRounds GuiThms Tiny EncryptThms GuiStuck GuiDemo
  GuiWatch SpecGuiWatch GuiWatchFacts.
Import List.

(** ** the mark *)
Lemma marked_orderly E l : forall w, marked_or_about (ww_world w) -> orderly E w l -> marked_or_about (ww_world (watch_run E w l)).
Proof.
  induction l as [|we l IH]; intros w M Hord; [exact M|]. destruct Hord as [H1 H2]. cbn [watch_run fold_left]. apply IH; [|exact H2].
  destruct (watch_open we) eqn:Ho.
  - destruct we as [[c u a| | | | | | |]| | | |]; try discriminate. destruct H1 as [_ H1]. destruct w as [b sent ws]. cbn [watch_step ww_world] in *.
    intros Hj. destruct (M Hj) as [Hm|(c' & cl' & A1 & A2)]; [left; exact Hm|right]. exists c', cl'. split; [|assumption]. cbn [gui_step w_clients]. rewrite dget_dset.
    eqb_cases c' c; [|exact A1]. subst c'. exfalso. eapply H1; eassumption.
  - destruct (watch_base E [] w we) as (l0 & -> & _ & _ & Hl). apply marked_run; auto.
Qed.
Lemma watch_marks E n t ps h l : valid_env E -> hmac_32 E -> qq E <= 2 ^ 1024 -> 0 < t -> 0 < n -> n < qq E -> (forall j, 0 <= j < t -> n ^ j < pp E) -> one_each ps ->
  let w := watch_run E (watch_start n t) h in let w' := watch_run E w l in
  Forall (good_watch E) (h ++ l) -> Forall (watch_of ps) (h ++ l) -> ready ps (ww_world w) -> news w -> orderly E w l ->
  kc_joined (w_doc (ww_world w')) = kc_joined (w_doc (ww_world w)) -> quiet w' -> kc_joint (w_doc (ww_world w)) = None -> kc_completed (w_doc (ww_world w')) = true.
Proof.
  intros HE Hmac Hq Ht Hn Hnq Hpow Hps w w' Hg Ho R Hnews Hord Hj Q Hnone.
  assert (Hc : get_key_ceremony_state (w_doc (ww_world w')) = CeremonyComplete) by (eapply watch_completes; eassumption).
  assert (M : marked_or_about (ww_world w')) by (apply marked_orderly; [intros H; congruence|exact Hord]).
  pose proof (state_facts (w_doc (ww_world w'))) as Hsf. rewrite Hc in Hsf. destruct (M Hsf) as [Hm|(c & cl & H1 & H2)]; [exact Hm|].
  exfalso. destruct (Q _ _ H1) as [Hid _]. congruence.
Qed.

(** ** a quiet world stays as it is *)
Lemma quiet_step E w we : cursors w -> quiet w -> by_itself we -> w_doc (ww_world (watch_step E w we)) = w_doc (ww_world w) /\ quiet (watch_step E w we).
Proof.
  intros C Q Hb. destruct w as [b sent ws]. pose proof C as [_ _ CB _]. unfold quiet in Q. cbn [ww_world ww_watches ww_sent] in *.
  assert (Hw : forall c s o, dget c ws = Some (mkWatch s o) -> s = Watching sent /\ o = false /\ exists cl, dget c (w_clients b) = Some cl /\ cl_phase cl = Idle).
  { intros c s o H. destruct (CB _ _ H) as [cl Hcl]. destruct (Q _ _ Hcl) as [Hid Hwa]. rewrite Hwa in H. injection H as <- <-. eauto. }
  assert (Hsame : w_doc (ww_world (mkWatchWorld b sent ws)) = w_doc b /\ quiet (mkWatchWorld b sent ws)) by (split; [reflexivity|exact Q]).
  destruct we as [e|c|c|c|c].
  - assert (Hcase : (exists c, e = Changed c) \/ forall c, e <> Changed c) by (destruct e; try (right; intros; discriminate); left; eauto).
    destruct Hcase as [[c ->]|Hnc]; [exact Hsame|].
    assert (Hs : watch_step E (mkWatchWorld b sent ws) (Step e) = match dget (event_client e) ws with
      | Some (mkWatch s false) => mkWatchWorld (gui_step E b e) sent (dset (event_client e) (mkWatch s (changes E b e)) ws) | _ => mkWatchWorld b sent ws end)
      by (destruct e; try (destruct Hb); try reflexivity; exfalso; eapply Hnc; reflexivity).
    rewrite Hs. clear Hs. destruct (dget (event_client e) ws) as [[s [|]]|] eqn:Hd; try exact Hsame.
    destruct (Hw _ _ _ Hd) as (-> & _ & cl & Hcl & Hid).
    assert (Hk : gui_step E b e = b /\ changes E b e = false).
    { unfold changes. rewrite Hcl, Hid. destruct e; cbn [gui_step event_client by_itself] in *; try (destruct Hb); rewrite ?Hcl; cbn [client_step]; rewrite ?Hid; auto.
      exfalso. eapply Hnc. reflexivity. }
    destruct Hk as [-> ->]. split; [reflexivity|]. intros c' cl' H'. cbn [ww_world ww_watches ww_sent] in *. rewrite dget_dset.
    eqb_cases c' (event_client e); [subst c'; split; [congruence|reflexivity]|apply Q; exact H'].
  - cbn [watch_step]. destruct (dget c ws) as [[s o]|] eqn:Hd; [|exact Hsame]. destruct (Hw _ _ _ Hd) as (-> & -> & _). exact Hsame.
  - cbn [watch_step]. destruct (dget c ws) as [[s o]|] eqn:Hd; [|exact Hsame]. destruct (Hw _ _ _ Hd) as (-> & -> & _). exact Hsame.
  - cbn [watch_step]. destruct (dget c ws) as [[s o]|] eqn:Hd; [|exact Hsame]. destruct (Hw _ _ _ Hd) as (-> & -> & _). rewrite Z.ltb_irrefl, andb_false_r. exact Hsame.
  - cbn [watch_step]. destruct (dget c ws) as [[s o]|] eqn:Hd; [|exact Hsame]. destruct (Hw _ _ _ Hd) as (-> & -> & _). exact Hsame.
Qed.
Lemma quiet_run E l : forall w, cursors w -> quiet w -> Forall by_itself l -> w_doc (ww_world (watch_run E w l)) = w_doc (ww_world w) /\ quiet (watch_run E w l).
Proof.
  induction l as [|we l IH]; intros w C Q Hb; [auto|]. inversion Hb; subst. cbn [watch_run fold_left]. destruct (quiet_step E w we C Q ltac:(assumption)) as [D1 Q1].
  destruct (IH _ (cursors_step E w we C) Q1 ltac:(assumption)) as [D2 Q2]. unfold watch_run in *. rewrite D2. auto.
Qed.
Lemma quiet_stays E n t h l : quiet (watch_run E (watch_start n t) h) -> Forall by_itself l ->
  w_doc (ww_world (watch_run E (watch_start n t) (h ++ l))) = w_doc (ww_world (watch_run E (watch_start n t) h)).
Proof.
  intros Q Hb. unfold watch_run. rewrite fold_left_app. apply quiet_run; auto. apply cursors_run, cursors_start.
Qed.
Lemma quiet_by b sent ws : (forall e, In e (w_clients b) -> cl_phase (snd e) = Idle /\ dget (fst e) ws = Some (mkWatch (Watching sent) false)) -> quiet (mkWatchWorld b sent ws).
Proof. intros H c cl Hc. apply dget_in in Hc. exact (H _ Hc). Qed.

(** ** two ways to lose a message *)
Definition first_looks (ps : list program) : list watch_event := map (fun p => FirstLook (fst p)) ps.
Definition burns (ps : list program) : list watch_event := map (fun p => Burn (fst p)) ps.
Definition reads (c : string) (n : nat) : list watch_event := repeat (Deliver c) n.
(** the administrator opens the page, the last guardian joins, and only then the program starts to watch *)
Definition late_burn : list watch_event :=
  map Step (opens demo_ps) ++ first_looks demo_ps ++ [Burn "laptop a"%string; Burn "laptop b"%string]
  ++ map Step (joins "laptop b" demo_draw) ++ [Notify "laptop b"%string] ++ map Step (joins "laptop a" demo_draw') ++ [Notify "laptop a"%string]
  ++ [Burn "office"%string] ++ reads "laptop a" 2 ++ reads "laptop b" 2.
Definition late_burn_world : watch_world := Eval vm_compute in watch_run tiny (watch_start 2 2) late_burn.
Lemma late_burn_eq : watch_run tiny (watch_start 2 2) late_burn = late_burn_world.
Proof. vm_compute. reflexivity. Qed.
(** the program of the administrator is closed after the change and before the message *)
Definition no_message : list watch_event :=
  map Step (opens demo_ps) ++ first_looks demo_ps ++ burns demo_ps
  ++ map Step (joins "laptop b" demo_draw) ++ [Notify "laptop b"%string] ++ map Step (joins "laptop a" demo_draw') ++ [Notify "laptop a"%string]
  ++ reads "laptop a" 2 ++ reads "laptop b" 2 ++ [Deliver "office"%string; Step (RunStage "office"%string no_draws)]
  ++ [Step (Open "office"%string (Some "carol"%string) true); FirstLook "office"%string; Burn "office"%string].
Definition no_message_world : watch_world := Eval vm_compute in watch_run tiny (watch_start 2 2) no_message.
Lemma no_message_eq : watch_run tiny (watch_start 2 2) no_message = no_message_world.
Proof. vm_compute. reflexivity. Qed.
Lemma demo_ready_by w : kc_joined (w_doc w) = ["bob"%string; "alice"%string] -> kc_count (w_doc w) = 2 -> map pk_owner (kc_keys (w_doc w)) = ["bob"%string; "alice"%string] ->
  map fst (w_clients w) = map fst demo_ps -> ready demo_ps w.
Proof.
  intros H1 H2 H3 H4. apply (ready_by _ _ ["bob"%string; "alice"%string]); auto.
  - repeat constructor; cbn; intuition discriminate.
  - cbn. intuition discriminate.
  - intros u [<-|[<-|[]]]; [exists "laptop b"%string|exists "laptop a"%string]; cbn; auto.
  - exists "office"%string, "carol"%string. cbn. auto.
Qed.
Ltac three_clients := apply quiet_by; cbn [w_clients]; intros e He; repeat (destruct He as [<-|He]; [split; vm_compute; reflexivity|]); destruct He.
Lemma late_burn_refuted : Forall (good_watch tiny) late_burn /\ Forall (watch_of demo_ps) late_burn /\ one_each demo_ps
  /\ let w := watch_run tiny (watch_start 2 2) late_burn in
     ready demo_ps (ww_world w) /\ quiet w /\
     forall l, Forall by_itself l -> get_key_ceremony_state (w_doc (ww_world (watch_run tiny (watch_start 2 2) (late_burn ++ l)))) = PendingAdminAnnounce.
Proof.
  split; [repeat constructor; try (cbn; unfold no_draws; lia); destruct i; cbn; lia|]. split; [repeat (apply Forall_cons; [cbn; tauto|]); apply Forall_nil|]. split; [exact demo_one_each|].
  assert (Q : quiet (watch_run tiny (watch_start 2 2) late_burn)) by (rewrite late_burn_eq; three_clients).
  split; [|split; [exact Q|]].
  - rewrite late_burn_eq. apply demo_ready_by; vm_compute; reflexivity.
  - intros l Hl. rewrite (quiet_stays tiny 2 2 late_burn l Q Hl), late_burn_eq. vm_compute. reflexivity.
Qed.
Lemma no_message_refuted : Forall (good_watch tiny) no_message /\ Forall (watch_of demo_ps) no_message /\ one_each demo_ps
  /\ let w := watch_run tiny (watch_start 2 2) no_message in
     ready demo_ps (ww_world w) /\ quiet w /\
     forall l, Forall by_itself l -> get_key_ceremony_state (w_doc (ww_world (watch_run tiny (watch_start 2 2) (no_message ++ l)))) = PendingGuardianBackups.
Proof.
  split; [repeat constructor; try (cbn; unfold no_draws; lia); destruct i; cbn; lia|]. split; [repeat (apply Forall_cons; [cbn; tauto|]); apply Forall_nil|]. split; [exact demo_one_each|].
  assert (Q : quiet (watch_run tiny (watch_start 2 2) no_message)) by (rewrite no_message_eq; three_clients).
  split; [|split; [exact Q|]].
  - rewrite no_message_eq. apply demo_ready_by; vm_compute; reflexivity.
  - intros l Hl. rewrite (quiet_stays tiny 2 2 no_message l Q Hl), no_message_eq. vm_compute. reflexivity.
Qed.

(** ** a ceremony of one guardian, from the first page to the end *)
Definition solo_before : list watch_event :=
  map Step (opens solo_ps) ++ first_looks solo_ps ++ burns solo_ps ++ map Step (joins "laptop a" demo_draw).
Definition solo_one : list watch_event :=
  [Notify "laptop a"%string; Deliver "office"%string; Step (RunStage "office"%string no_draws); Notify "office"%string; Deliver "laptop a"%string].
Definition solo_two : list watch_event :=
  [Notify "laptop a"%string; Deliver "office"%string; Step (RunStage "office"%string no_draws); Notify "office"%string;
   Deliver "office"%string; Step (RunStage "office"%string no_draws); Step (MarkComplete "office"%string); Notify "office"%string]
  ++ reads "office" 2 ++ reads "laptop a" 4.
Definition solo_after : list watch_event := solo_one ++ Step (RunStage "laptop a"%string no_draws) :: solo_two.
Definition solo_mid : watch_world := Eval vm_compute in watch_run medium (watch_start 1 1) (solo_before ++ solo_one).
Lemma watch_s3 E b sent ws c u snap rnd l s : dget c (w_clients b) = Some (mkClient (Some u) false (Running S3MakeBackup snap)) ->
  dget c ws = Some (mkWatch s false) -> s3_backups E (w_files b) rnd u snap = Ok l ->
  watch_step E (mkWatchWorld b sent ws) (Step (RunStage c rnd)) =
  mkWatchWorld (mkWorld (append_backups l (w_doc b)) (w_files b) (set_phase b c (mkClient (Some u) false (Running S3MakeBackup snap)) Idle)) sent (dset c (mkWatch s true) ws).
Proof.
  intros Hc Hw Hs. cbn [watch_step event_client]. rewrite Hw. unfold changes. cbn [event_client]. rewrite Hc. cbn [cl_phase cl_user run_stage]. rewrite Hs. cbn [rbind].
  cbn [gui_step event_client]. rewrite Hc. cbn [client_step cl_phase cl_user run_stage]. rewrite Hs. reflexivity.
Qed.
Lemma solo_quiet : quiet (watch_run medium (watch_run medium (watch_start 1 1) solo_before) solo_after)
  /\ kc_joined (w_doc (ww_world (watch_run medium (watch_run medium (watch_start 1 1) solo_before) solo_after))) = ["alice"%string].
Proof.
  destruct solo_backups as (b & Hs & B1 & B2).
  assert (Hmid : watch_run medium (watch_run medium (watch_start 1 1) solo_before) solo_one = solo_mid) by (vm_compute; reflexivity).
  assert (Hrun : watch_run medium (watch_run medium (watch_start 1 1) solo_before) solo_after = watch_run medium (watch_step medium solo_mid (Step (RunStage "laptop a"%string no_draws))) solo_two).
  { unfold solo_after, watch_run. rewrite fold_left_app. cbn [fold_left]. unfold watch_run in Hmid. rewrite Hmid. reflexivity. }
  rewrite Hrun. clear Hrun Hmid.
  assert (Hstep : watch_step medium solo_mid (Step (RunStage "laptop a"%string no_draws)) = mkWatchWorld (mkWorld (append_backups [b] (w_doc (ww_world solo_mid))) (w_files (ww_world solo_mid))
    (set_phase (ww_world solo_mid) "laptop a" (mkClient (Some "alice"%string) false (Running S3MakeBackup (w_doc solo_world))) Idle)) (ww_sent solo_mid) (dset "laptop a"%string (mkWatch (Watching 1) true) (ww_watches solo_mid))).
  { apply (watch_s3 medium (ww_world solo_mid) (ww_sent solo_mid) (ww_watches solo_mid) "laptop a" "alice" (w_doc solo_world) no_draws [b] (Watching 1)); [vm_compute; reflexivity|vm_compute; reflexivity|exact Hs]. }
  rewrite Hstep. clear Hstep Hs. destruct b as [o ds sq co]. cbn in B1, B2. subst o ds.
  match goal with |- quiet ?w /\ _ => let w' := eval vm_compute in w in change w with w' end.
  split; [three_clients|vm_compute; reflexivity].
Qed.
Lemma orderly_plain E l : forall w, Forall (fun we => match we with Step (Open _ _ _) | Burn _ => False | _ => True end) l -> orderly E w l.
Proof.
  induction l as [|we l IH]; intros w H; [exact Logic.I|]. inversion H; subst. split; [|apply IH; assumption]. destruct we as [[| | | | | | |]| | | |]; try exact Logic.I; contradiction.
Qed.
Lemma solo_example : valid_env medium /\ hmac_32 medium /\ qq medium <= 2 ^ 1024 /\ 1 < qq medium /\ one_each solo_ps
  /\ let w := watch_run medium (watch_start 1 1) solo_before in let w' := watch_run medium w solo_after in
  Forall (good_watch medium) (solo_before ++ solo_after) /\ Forall (watch_of solo_ps) (solo_before ++ solo_after) /\ ready solo_ps (ww_world w) /\ news w /\ orderly medium w solo_after
  /\ kc_joined (w_doc (ww_world w')) = kc_joined (w_doc (ww_world w)) /\ quiet w' /\ kc_joint (w_doc (ww_world w)) = None.
Proof.
  destruct solo_quiet as [Q J]. split; [exact medium_valid|]. split; [exact medium_hmac|]. split; [vm_compute; discriminate|]. split; [vm_compute; reflexivity|]. split; [|].
  { split; [repeat constructor; cbn; intuition discriminate|]. intros c c' u H H'. cbn in H, H'. repeat match goal with H : _ \/ _ |- _ => destruct H end; try contradiction; congruence. }
  split; [repeat constructor; try (cbn; unfold no_draws; lia); destruct i; cbn; lia|]. split; [repeat (apply Forall_cons; [cbn; tauto|]); apply Forall_nil|].
  split; [|split; [|split; [|split; [|split; [exact Q|vm_compute; reflexivity]]]]].
  - apply (ready_by _ _ ["alice"%string]); try (vm_compute; reflexivity).
    + repeat constructor; cbn; intuition discriminate.
    + cbn. intuition discriminate.
    + intros u [<-|[]]. exists "laptop a"%string; cbn; auto.
    + exists "office"%string, "carol"%string. cbn. auto.
  - left. exists "laptop a"%string. eexists. vm_compute. reflexivity.
  - apply orderly_plain. repeat constructor.
  - rewrite J. vm_compute. reflexivity.
Qed.
Lemma solo_moves : Forall by_itself solo_after /\ moving medium (watch_run medium (watch_start 1 1) solo_before) solo_one.
Proof.
  split; [repeat constructor|]. unfold solo_one. cbn [moving].
  repeat match goal with |- _ /\ _ => split end; try exact Logic.I;
    intros H; apply (f_equal (fun w => (ww_sent w, ww_watches w))) in H; vm_compute in H; discriminate H.
Qed.
