(** * GuiDemo: the marking of a finished ceremony, and histories that get stuck. *)
From Verif Require Import Base Group Spec GroupFacts Codec Hash DLog ElGamal ZK Poly ListFacts Manifest Ballot Encrypt
  SpecElection Ceremony SpecCeremony MediatorFacts CeremonyFacts GuiCeremony SpecGui GuiFacts GuiJoin GuiLive GuiRounds GuiThms Tiny EncryptThms GuiStuck.
Import List.

Lemma completes_marked E n k ps h rs r : valid_env E -> hmac_32 E -> qq E <= 2 ^ 1024 -> (0 < k)%nat -> 0 < n -> n < qq E -> (forall j, 0 <= j < Z.of_nat k -> n ^ j < pp E) ->
  one_each ps -> let w := gui_run E (gui_start n (Z.of_nat k)) h in
  Forall (good_event E) (h ++ concat rs ++ r) -> Forall (of_programs ps) (h ++ concat rs ++ r) -> Forall (fun e => is_open e = false) (concat rs ++ r) ->
  ready ps w -> kc_joint (w_doc w) = None -> kc_joined (w_doc (gui_run E w (concat rs ++ r))) = kc_joined (w_doc w) ->
  Forall (round ps) rs -> 5 <= len rs -> round ps r -> kc_completed (w_doc (gui_run E w (concat rs ++ r))) = true.
Proof.
  intros HE Hmac Hq Hk Hn Hnq Hpow Hps w Hg Ho Hop R Hnone Hj Hr Hlen Hround.
  assert (Hj5 : kc_joined (w_doc (gui_run E w (concat rs))) = kc_joined (w_doc w)).
  { rewrite run_app in Hj. pose proof (run_le E (concat rs) w) as L1. pose proof (run_le E r (gui_run E w (concat rs))) as L2. symmetry. apply prefix_len_eq; [apply (le_joined _ _ L1)|].
    pose proof (prefix_len _ _ (le_joined _ _ L1)). pose proof (prefix_len _ _ (le_joined _ _ L2)) as H'. rewrite Hj in H'. lia. }
  assert (Hc : get_key_ceremony_state (w_doc (gui_run E w (concat rs))) = CeremonyComplete).
  { unfold w. rewrite <- run_app. rewrite app_assoc in Hg, Ho. apply Forall_app in Hg as [Hg _]. apply Forall_app in Ho as [Ho _].
    eapply completes; eauto. rewrite run_app. exact Hj5. }
  apply Forall_app in Hop as [Hop1 Hop2].
  assert (I5 : marked_or_about (gui_run E w (concat rs))) by (apply marked_run; [intros H; congruence|assumption]).
  rewrite run_app. destruct I5 as [Hm|(c & cl & Hcl & Hp)].
  - pose proof (state_facts (w_doc (gui_run E w (concat rs)))) as Hsf. rewrite Hc in Hsf. exact Hsf.
  - apply completed_le. assumption.
  - assert (Hin : In c (map fst ps)).
    { assert (Hg' : Forall (good_event E) h) by (apply Forall_app in Hg; tauto). assert (Ho' : Forall (of_programs ps) h) by (apply Forall_app in Ho; tauto).
      destruct (settled_start E HE Hmac Hq k n Hk Hn Hnq Hpow ps Hps h Hg' Ho' R) as (ss & Hnd & Hok & Hl & Hids & S). fold w in S.
      assert (Hg2 : Forall (good_event E) (concat rs)) by (rewrite !Forall_app in Hg; tauto). assert (Ho2 : Forall (of_programs ps) (concat rs)) by (rewrite !Forall_app in Ho; tauto).
      assert (Hpos : 0 < len ss) by lia.
      destruct (run_settled E HE Hmac Hq k ss Hok Hnd ps Hps Hpos (concat rs) w S Hg2 Ho2 Hj5) as [S5 _].
      destruct (lw_clients _ _ _ _ (se_live _ _ _ _ _ S5) _ _ Hcl) as [Hin _]. apply (in_map fst) in Hin. exact Hin. }
    destruct (Hround c Hin) as (l1 & l2 & r1 & r2 & ->). eapply published_marks; try eassumption. apply in_app_iff. right. right. left. reflexivity.
Qed.

(** ** a program that stops while joining *)
Definition crash_history : list event := opens demo_ps ++ joins "laptop b" demo_draw ++ [Join "laptop a"%string; ReadNumber "laptop a"%string; Open "laptop a"%string (Some "alice"%string) false].
Lemma stuck_clients (ps : list program) d files clients : (forall e, In e clients -> In (fst e, (cl_user (snd e), cl_admin (snd e))) ps /\ cl_phase (snd e) = Idle) ->
  calm ps d files (mkWorld d files clients).
Proof.
  intros H. constructor; [reflexivity|reflexivity|]. cbn [w_clients]. intros c cl Hc. apply dget_in in Hc. destruct (H _ Hc) as [H1 H2]. cbn in H1, H2. auto.
Qed.
Definition crash_world : world := Eval vm_compute in gui_run tiny (gui_start 2 2) crash_history.
Lemma crash_world_eq : gui_run tiny (gui_start 2 2) crash_history = crash_world.
Proof. vm_compute. reflexivity. Qed.
Lemma crash_stuck h : Forall (of_programs demo_ps) h -> offered tiny crash_world h -> w_doc (gui_run tiny crash_world h) = w_doc crash_world.
Proof.
  intros Ho Hf. apply (cm_doc demo_ps (w_doc crash_world) (w_files crash_world)). apply calm_run; auto.
  - intros c user admin st Hin Hst rnd. cbn in Hin. repeat (destruct Hin as [Hin|Hin]; [injection Hin as <- <- <-; vm_compute in Hst; try discriminate; injection Hst as <-; eexists; vm_compute; reflexivity|]). destruct Hin.
  - intros c user Hin. cbn in Hin. repeat (destruct Hin as [Hin|Hin]; [try (exfalso; congruence); injection Hin as <- <-; eexists; (split; [reflexivity|cbn; auto])|]). destruct Hin.
  - apply stuck_clients. intros e He. cbn in He. repeat (destruct He as [He|He]; [subst e; cbn; tauto|]). destruct He.
Qed.

(** ** a guardian too many *)
Definition late_ps : list program := demo_ps ++ [("laptop d"%string, (Some "dave"%string, false))].
Definition late_history : list event := opens late_ps ++ joins "laptop b" demo_draw ++ joins "laptop a" demo_draw' ++ joins "laptop d" demo_draw.
Definition late_world : world := Eval vm_compute in gui_run tiny (gui_start 2 2) late_history.
Lemma late_world_eq : gui_run tiny (gui_start 2 2) late_history = late_world.
Proof. vm_compute. reflexivity. Qed.
Lemma late_stuck h : Forall (of_programs late_ps) h -> offered tiny late_world h -> w_doc (gui_run tiny late_world h) = w_doc late_world.
Proof.
  intros Ho Hf. apply (cm_doc late_ps (w_doc late_world) (w_files late_world)). apply calm_run; auto.
  - intros c user admin st Hin Hst rnd. cbn in Hin. repeat (destruct Hin as [Hin|Hin]; [injection Hin as <- <- <-; vm_compute in Hst; try discriminate; injection Hst as <-; eexists; vm_compute; reflexivity|]). destruct Hin.
  - intros c user Hin. cbn in Hin. repeat (destruct Hin as [Hin|Hin]; [try (exfalso; congruence); injection Hin as <- <-; eexists; (split; [reflexivity|cbn; auto])|]). destruct Hin.
  - apply stuck_clients. intros e He. cbn in He. repeat (destruct He as [He|He]; [subst e; cbn; tauto|]). destruct He.
Qed.

(** ** one step of stage 3, with its result left open *)
Lemma run_s3 E w c u snap rnd l : dget c (w_clients w) = Some (mkClient (Some u) false (Running S3MakeBackup snap)) -> s3_backups E (w_files w) rnd u snap = Ok l ->
  gui_step E w (RunStage c rnd) = mkWorld (append_backups l (w_doc w)) (w_files w) (set_phase w c (mkClient (Some u) false (Running S3MakeBackup snap)) Idle).
Proof. intros Hc Hs. cbn [gui_step event_client]. rewrite Hc. cbn [client_step cl_phase cl_user run_stage]. rewrite Hs. reflexivity. Qed.

(** stage 3 succeeds for a guardian of an announced ceremony *)
Lemma s3_succeeds E n k ps h u rnd : valid_env E -> hmac_32 E -> qq E <= 2 ^ 1024 -> (0 < k)%nat -> 0 < n -> n < qq E -> (forall j, 0 <= j < Z.of_nat k -> n ^ j < pp E) ->
  one_each ps -> let w := gui_run E (gui_start n (Z.of_nat k)) h in
  Forall (good_event E) h -> Forall (of_programs ps) h -> ready ps w -> kc_other (w_doc w) <> [] -> In u (kc_joined (w_doc w)) -> (forall x, 0 <= rnd x) ->
  exists l, s3_backups E (w_files w) rnd u (w_doc w) = Ok l /\ map bk_owner l = map (fun _ => u) (kc_joined (w_doc w))
    /\ map bk_designated l = u :: filter (fun v => negb (eqb v u)) (kc_joined (w_doc w)).
Proof.
  intros HE Hmac Hq Hk Hn Hnq Hpow Hps w Hg Ho R Hne Hu Hr.
  destruct (settled_start E HE Hmac Hq k n Hk Hn Hnq Hpow ps Hps h Hg Ho R) as (ss & Hnd & Hok & Hl & Hids & S). fold w in S, Hids.
  rewrite <- Hids in *. apply in_map_iff in Hu as [s [<- Hs]].
  assert (Hfile : dget (st_id s) (w_files w) = Some (file_of E s)) by (apply (lw_files _ _ _ _ (se_live _ _ _ _ _ S)); [assumption|apply (se_full _ _ _ _ _ S); assumption]).
  exists (block E ss (s, fun _ => rnd)). split; [apply (s3_full E HE Hmac Hq k ss Hok Hnd); auto; apply (lw_doc _ _ _ _ (se_live _ _ _ _ _ S))|].
  unfold block. cbn [fst snd]. rewrite !map_map. cbn [bk bk_owner bk_designated]. split.
  - assert (Hlen : length (s :: others ss s) = length ss) by (pose proof (others_len ss Hnd s Hs) as H; unfold len in *; cbn [length]; lia).
    clear -Hlen. revert Hlen. generalize (s :: others ss s) as l1. generalize ss as l2. induction l2 as [|a l2 IH]; intros [|b l1] H; cbn in *; try discriminate; [reflexivity|]. f_equal. apply IH. lia.
  - cbn [map]. f_equal. unfold others. clear. induction ss as [|a l IH]; [reflexivity|]. cbn [filter map].
    destruct (eqb (st_id a) (st_id s)) eqn:He; cbn [negb map]; rewrite ?IH; reflexivity.
Qed.

(** ** a guardian using two programs *)
Definition twin_ps : list program := demo_ps ++ [("phone a"%string, (Some "alice"%string, false))].
Definition announced_history : list event := demo_joined ++ [Changed "office"%string; RunStage "office"%string no_draws].
Definition twin_start : list event := [Open "phone a"%string (Some "alice"%string) false; Changed "laptop a"%string; Changed "phone a"%string].
Definition twin_history : list event := announced_history ++ twin_start ++ [RunStage "laptop a"%string no_draws; RunStage "phone a"%string no_draws].
Definition twin_world : world := Eval vm_compute in gui_run medium (gui_start 2 2) (announced_history ++ twin_start).
Lemma announced_ready : ready demo_ps (gui_run medium (gui_start 2 2) announced_history).
Proof.
  apply (ready_by _ _ ["bob"%string; "alice"%string]); try (vm_compute; reflexivity).
  - repeat constructor; cbn; intuition discriminate.
  - cbn. intuition discriminate.
  - intros u [<-|[<-|[]]]; [exists "laptop b"%string|exists "laptop a"%string]; cbn; auto.
  - exists "office"%string, "carol"%string. cbn. auto.
Qed.
Lemma twin_backups : exists b1 b2, s3_backups medium (w_files twin_world) no_draws "alice"%string (w_doc twin_world) = Ok [b1; b2]
  /\ bk_owner b1 = "alice"%string /\ bk_designated b1 = "alice"%string /\ bk_owner b2 = "alice"%string /\ bk_designated b2 = "bob"%string.
Proof.
  destruct (s3_succeeds medium 2 2 demo_ps announced_history "alice"%string no_draws medium_valid medium_hmac) as (l & H1 & H2 & H3).
  - vm_compute. discriminate.
  - lia.
  - lia.
  - vm_compute. reflexivity.
  - intros j Hj. assert (Hc : j = 0 \/ j = 1) by lia. destruct Hc as [->| ->]; vm_compute; reflexivity.
  - exact demo_one_each.
  - repeat constructor; try (cbn; unfold no_draws; lia); destruct i; cbn; lia.
  - repeat (apply Forall_cons; [cbn; tauto|]). apply Forall_nil.
  - exact announced_ready.
  - vm_compute. discriminate.
  - vm_compute. auto.
  - intros x. unfold no_draws. lia.
  - assert (Hj : kc_joined (w_doc (gui_run medium (gui_start 2 (Z.of_nat 2)) announced_history)) = ["bob"%string; "alice"%string]) by (vm_compute; reflexivity).
    assert (Hfl : w_files (gui_run medium (gui_start 2 (Z.of_nat 2)) announced_history) = w_files twin_world) by (vm_compute; reflexivity).
    assert (Hdc : w_doc (gui_run medium (gui_start 2 (Z.of_nat 2)) announced_history) = w_doc twin_world) by (vm_compute; reflexivity).
    rewrite Hfl, Hdc in H1. rewrite Hj in H2, H3. clear Hfl Hdc Hj.
    destruct l as [|b1 [|b2 [|b3 l]]]; try discriminate H2. cbn [map] in H2, H3. injection H2 as A1 A2. injection H3 as B1 B2.
    exists b1, b2. split; [exact H1|auto].
Qed.
Definition with_backups (l : list backup) : world := mkWorld (append_backups l (w_doc twin_world)) (w_files twin_world)
  (map (fun e => (fst e, mkClient (cl_user (snd e)) (cl_admin (snd e)) Idle)) (w_clients twin_world)).
Lemma twin_run : exists b1 b2, gui_run medium (gui_start 2 2) twin_history = with_backups [b1; b2; b1; b2]
  /\ bk_owner b1 = "alice"%string /\ bk_designated b1 = "alice"%string /\ bk_owner b2 = "alice"%string /\ bk_designated b2 = "bob"%string.
Proof.
  destruct twin_backups as (b1 & b2 & Hs & Hb). exists b1, b2. split; [|exact Hb].
  unfold twin_history. rewrite app_assoc, run_app. assert (Hw : gui_run medium (gui_start 2 2) (announced_history ++ twin_start) = twin_world) by (vm_compute; reflexivity). rewrite Hw.
  cbn [gui_run fold_left].
  rewrite (run_s3 medium twin_world "laptop a" "alice" (w_doc twin_world) no_draws [b1; b2] ltac:(vm_compute; reflexivity) Hs).
  erewrite (run_s3 medium _ "phone a" "alice" (w_doc twin_world) no_draws [b1; b2]); [|vm_compute; reflexivity|exact Hs].
  vm_compute. reflexivity.
Qed.
Lemma twin_stuck b1 b2 h : bk_owner b1 = "alice"%string -> bk_designated b1 = "alice"%string -> bk_owner b2 = "alice"%string -> bk_designated b2 = "bob"%string ->
  let w := with_backups [b1; b2; b1; b2] in
  Forall (of_programs twin_ps) h -> offered medium w h -> w_doc (gui_run medium w h) = w_doc w.
Proof.
  intros A1 A2 A3 A4 w Ho Hf. apply (cm_doc twin_ps (w_doc w) (w_files w)). apply calm_run; auto.
  - intros c user admin st Hin Hst rnd. destruct b1 as [o1 d1 s1 c1], b2 as [o2 d2 s2 c2]. cbn in A1, A2, A3, A4. subst. cbn in Hin.
    repeat (destruct Hin as [Hin|Hin]; [injection Hin as <- <- <-; vm_compute in Hst; try discriminate; injection Hst as <-; eexists; vm_compute; reflexivity|]). destruct Hin.
  - intros c user Hin. cbn in Hin. repeat (destruct Hin as [Hin|Hin]; [try (exfalso; congruence); injection Hin as <- <-; eexists; (split; [reflexivity|cbn; auto])|]). destruct Hin.
  - apply stuck_clients. intros e He. cbn in He. repeat (destruct He as [He|He]; [subst e; cbn; tauto|]). destruct He.
Qed.

(** ** stopping between the two updates of the last stage *)
Definition solo_ps : list program := [("laptop a"%string, (Some "alice"%string, false)); ("office"%string, (Some "carol"%string, true))].
Definition solo_history : list event := opens solo_ps ++ joins "laptop a" demo_draw ++ [Changed "office"%string; RunStage "office"%string no_draws].
Definition office_turn : list event := [Changed "office"%string; RunStage "office"%string no_draws].
Definition solo_end : list event := office_turn ++ office_turn ++ [Open "office"%string (Some "carol"%string) true].
Definition solo_all : list event := solo_history ++ [Changed "laptop a"%string; RunStage "laptop a"%string no_draws] ++ solo_end.
Definition solo_world : world := Eval vm_compute in gui_run medium (gui_start 1 1) (solo_history ++ [Changed "laptop a"%string]).
Lemma solo_ready : ready solo_ps (gui_run medium (gui_start 1 1) solo_history).
Proof.
  apply (ready_by _ _ ["alice"%string]); try (vm_compute; reflexivity).
  - repeat constructor; cbn; intuition discriminate.
  - cbn. intuition discriminate.
  - intros u [<-|[]]. exists "laptop a"%string; cbn; auto.
  - exists "office"%string, "carol"%string. cbn. auto.
Qed.
Lemma solo_backups : exists b, s3_backups medium (w_files solo_world) no_draws "alice"%string (w_doc solo_world) = Ok [b]
  /\ bk_owner b = "alice"%string /\ bk_designated b = "alice"%string.
Proof.
  destruct (s3_succeeds medium 1 1 solo_ps solo_history "alice"%string no_draws medium_valid medium_hmac) as (l & H1 & H2 & H3).
  - vm_compute. discriminate.
  - lia.
  - lia.
  - vm_compute. reflexivity.
  - intros j Hj. assert (Hc : j = 0) by lia. subst j. vm_compute; reflexivity.
  - split; [repeat constructor; cbn; intuition discriminate|]. intros c c' u H H'. cbn in H, H'.
    repeat match goal with H : _ \/ _ |- _ => destruct H end; try contradiction; congruence.
  - repeat constructor; try (cbn; unfold no_draws; lia); destruct i; cbn; lia.
  - repeat (apply Forall_cons; [cbn; tauto|]). apply Forall_nil.
  - exact solo_ready.
  - vm_compute. discriminate.
  - vm_compute. auto.
  - intros x. unfold no_draws. lia.
  - assert (Hj : kc_joined (w_doc (gui_run medium (gui_start 1 (Z.of_nat 1)) solo_history)) = ["alice"%string]) by (vm_compute; reflexivity).
    assert (Hfl : w_files (gui_run medium (gui_start 1 (Z.of_nat 1)) solo_history) = w_files solo_world) by (vm_compute; reflexivity).
    assert (Hdc : w_doc (gui_run medium (gui_start 1 (Z.of_nat 1)) solo_history) = w_doc solo_world) by (vm_compute; reflexivity).
    rewrite Hfl, Hdc in H1. rewrite Hj in H2, H3. clear Hfl Hdc Hj.
    destruct l as [|b1 [|b2 l]]; try discriminate H2. cbn [map] in H2, H3. injection H2 as A1. injection H3 as B1.
    exists b1. split; [exact H1|auto].
Qed.
Lemma solo_run : exists d files, w_doc (gui_run medium (gui_start 1 1) solo_all) = d /\ get_key_ceremony_state d = CeremonyComplete /\ kc_completed d = false
  /\ kc_joined d = ["alice"%string] /\ calm solo_ps d files (gui_run medium (gui_start 1 1) solo_all).
Proof.
  destruct solo_backups as (b & Hs & B1 & B2). exists (w_doc (gui_run medium (gui_start 1 1) solo_all)), (w_files (gui_run medium (gui_start 1 1) solo_all)).
  set (w0 := mkWorld (append_backups [b] (w_doc solo_world)) (w_files solo_world) (set_phase solo_world "laptop a" (mkClient (Some "alice"%string) false (Running S3MakeBackup (w_doc solo_world))) Idle)).
  assert (Hw : gui_run medium (gui_start 1 1) solo_all = gui_run medium w0 solo_end).
  { unfold solo_all. change ([Changed "laptop a"%string; RunStage "laptop a"%string no_draws] ++ solo_end) with ([Changed "laptop a"%string] ++ [RunStage "laptop a"%string no_draws] ++ solo_end).
    rewrite app_assoc, run_app. assert (Hw : gui_run medium (gui_start 1 1) (solo_history ++ [Changed "laptop a"%string]) = solo_world) by (vm_compute; reflexivity). rewrite Hw, run_app. f_equal.
    cbn [gui_run fold_left]. apply run_s3; [vm_compute; reflexivity|exact Hs]. }
  destruct b as [o ds sq co]. cbn in B1, B2. subst o ds. split; [reflexivity|]. rewrite Hw.
  assert (Hfin : exists d files cls, gui_run medium w0 solo_end = mkWorld d files cls /\ get_key_ceremony_state d = CeremonyComplete /\ kc_completed d = false /\ kc_joined d = ["alice"%string]
    /\ forall e, In e cls -> In (fst e, (cl_user (snd e), cl_admin (snd e))) solo_ps /\ cl_phase (snd e) = Idle).
  { do 3 eexists. split; [vm_compute; reflexivity|]. split; [vm_compute; reflexivity|]. split; [vm_compute; reflexivity|]. split; [vm_compute; reflexivity|].
    intros e He. cbn in He. repeat (destruct He as [He|He]; [subst e; cbn; tauto|]). destruct He. }
  destruct Hfin as (d & files & cls & -> & F1 & F2 & F3 & F4). cbn [w_doc w_files]. split; [assumption|]. split; [assumption|]. split; [assumption|]. apply stuck_clients. exact F4.
Qed.
Lemma solo_unmarked h : Forall (of_programs solo_ps) h -> offered medium (gui_run medium (gui_start 1 1) solo_all) h ->
  get_key_ceremony_state (w_doc (gui_run medium (gui_start 1 1) (solo_all ++ h))) = CeremonyComplete /\ kc_completed (w_doc (gui_run medium (gui_start 1 1) (solo_all ++ h))) = false.
Proof.
  intros Ho Hf. destruct solo_run as (d & files & Hd & Hst & Hc & Hj & Hcalm). rewrite run_app.
  rewrite (cm_doc solo_ps d files); [auto|]. apply calm_run; auto.
  - intros c user admin st _ H. exfalso. unfold choose_stage in H. rewrite Hst in H. destruct user, admin; cbn in H; discriminate.
  - intros c user Hin. rewrite Hj. cbn in Hin. repeat (destruct Hin as [Hin|Hin]; [try (exfalso; congruence); injection Hin as <- <-; eexists; (split; [reflexivity|cbn; auto])|]). destruct Hin.
Qed.

(** ** the statements *)
Lemma not_open h : (forall c u a, ~ In (Open c u a) h) -> Forall (fun e => is_open e = false) h.
Proof. intros H. rewrite Forall_forall. intros e He. destruct e; try reflexivity. exfalso. eapply H. eassumption. Qed.
Lemma ceremony_completes E n t ps h rs : valid_env E -> hmac_32 E -> qq E <= 2 ^ 1024 ->
  0 < t -> 0 < n < qq E -> (forall j, 0 <= j < t -> n ^ j < pp E) -> one_each ps ->
  Forall (good_event E) (h ++ concat rs) -> Forall (of_programs ps) (h ++ concat rs) ->
  let w := gui_run E (gui_start n t) h in let w' := gui_run E (gui_start n t) (h ++ concat rs) in
  ready ps w -> kc_joined (w_doc w') = kc_joined (w_doc w) -> Forall (round ps) rs -> 5 <= len rs ->
  get_key_ceremony_state (w_doc w') = CeremonyComplete.
Proof.
  intros HE Hm Hq Ht [Hn0 Hnq] Hpow Hps Hg Ho. cbn zeta. rewrite <- (Z2Nat.id t) in * by lia. intros R Hj Hr Hl. eapply completes; eauto. lia.
Qed.
Lemma ceremony_marked E n t ps h rs r : valid_env E -> hmac_32 E -> qq E <= 2 ^ 1024 ->
  0 < t -> 0 < n < qq E -> (forall j, 0 <= j < t -> n ^ j < pp E) -> one_each ps ->
  Forall (good_event E) (h ++ concat rs ++ r) -> Forall (of_programs ps) (h ++ concat rs ++ r) ->
  (forall c u a, ~ In (Open c u a) (concat rs ++ r)) ->
  let w := gui_run E (gui_start n t) h in let w' := gui_run E (gui_start n t) (h ++ concat rs ++ r) in
  ready ps w -> kc_joint (w_doc w) = None -> kc_joined (w_doc w') = kc_joined (w_doc w) -> Forall (round ps) rs -> 5 <= len rs -> round ps r ->
  kc_completed (w_doc w') = true.
Proof.
  intros HE Hm Hq Ht [Hn0 Hnq] Hpow Hps Hg Ho Hop. cbn zeta. rewrite <- (Z2Nat.id t) in * by lia. intros R Hnone Hj Hr Hl Hrr. rewrite run_app in *.
  eapply completes_marked; eauto; [lia|]. apply not_open. assumption.
Qed.
Lemma demo_hypotheses : valid_env medium /\ hmac_32 medium /\ qq medium <= 2 ^ 1024 /\ 2 < qq medium /\ (forall j, 0 <= j < 2 -> 2 ^ j < pp medium) /\ one_each demo_ps
  /\ Forall (good_event medium) (demo_joined ++ concat demo_rounds) /\ Forall (of_programs demo_ps) (demo_joined ++ concat demo_rounds)
  /\ ready demo_ps (gui_run medium (gui_start 2 2) demo_joined)
  /\ kc_joined (w_doc (gui_run medium (gui_start 2 2) (demo_joined ++ concat demo_rounds))) = kc_joined (w_doc (gui_run medium (gui_start 2 2) demo_joined))
  /\ Forall (round demo_ps) demo_rounds /\ len demo_rounds = 5.
Proof.
  split; [exact medium_valid|]. split; [exact medium_hmac|]. split; [vm_compute; discriminate|]. split; [vm_compute; reflexivity|].
  split; [intros j Hj; assert (Hc : j = 0 \/ j = 1) by lia; destruct Hc as [->| ->]; vm_compute; reflexivity|]. split; [exact demo_one_each|].
  split; [exact demo_good|]. split; [exact demo_of_programs|]. split; [exact demo_ready|]. split; [exact demo_still|]. split; [exact demo_round_ok|reflexivity].
Qed.
Lemma demo_joint : exists j, kc_joint (w_doc (gui_run medium (gui_start 2 2) (demo_joined ++ concat demo_rounds))) = Some j
  /\ kc_joined (w_doc (gui_run medium (gui_start 2 2) (demo_joined ++ concat demo_rounds))) = ["bob"%string; "alice"%string].
Proof.
  destruct demo_hypotheses as (A1 & A2 & A3 & A4 & A5 & A6 & A7 & A8 & A9 & A10 & A11 & A12).
  assert (Hc : get_key_ceremony_state (w_doc (gui_run medium (gui_start 2 2) (demo_joined ++ concat demo_rounds))) = CeremonyComplete).
  { eapply (ceremony_completes medium 2 2 demo_ps demo_joined demo_rounds); auto; lia. }
  pose proof (state_facts (w_doc (gui_run medium (gui_start 2 2) (demo_joined ++ concat demo_rounds)))) as Hsf. rewrite Hc in Hsf. rewrite A10.
  destruct (kc_joint _) as [j|]; [|congruence]. exists j. split; [reflexivity|]. vm_compute. reflexivity.
Qed.
Lemma joint_key_checked E n q h j : valid_env E -> let d := w_doc (gui_run E (gui_start n q) h) in
  ~ In EmptyString (kc_joined d) -> kc_joint d = Some j ->
  exists us ks, prefix us (firsts (kc_joined d)) /\ len us = n /\ Forall2 (key_in d) us ks
    /\ jk_key j = prodZ (map pk_key ks) mod pp E /\ jk_hash j = hash_elems E [HList (map HElem (flat_map pk_commitments ks))]
    /\ forall o r, In o us -> In r us -> o <> r -> exists b v ko kp, In b (kc_backups d) /\ In v (kc_verifs d)
         /\ bk_owner b = o /\ bk_designated b = r /\ key_in d o ko /\ ek_owner kp = r /\ verify_backup E r b ko kp = Ok v /\ vf_verified v = true.
Proof.
  intros HE d Hne Hj.
  pose proof (published_pairs E d j HE (wo_doc _ _ (run_ok E h _ (start_ok E n q))) Hne Hj) as H.
  pose proof (le_count _ _ (run_le E h (gui_start n q))) as Hc. fold d in Hc. cbn in Hc. rewrite <- Hc in H. exact H.
Qed.
Lemma two_keys : exists h u key r, let w := gui_run tiny (gui_start 2 2) h in
  Forall (good_event tiny) h /\ key_in (w_doc w) u key /\ dget u (w_files w) = Some r /\ share_keys (pr_keys r) <> key
  /\ exists key', In key' (kc_keys (w_doc w)) /\ pk_owner key' = pk_owner key /\ pk_seq key' = pk_seq key /\ pk_key key' <> pk_key key.
Proof.
  exists (opens [("laptop a"%string, (Some "alice"%string, false)); ("phone a"%string, (Some "alice"%string, false))] ++ joins "laptop a" demo_draw ++ joins "phone a" demo_draw'), "alice"%string.
  set (h := _ ++ joins _ _ ++ _). cbn zeta.
  assert (Hk : exists k1 k2, kc_keys (w_doc (gui_run tiny (gui_start 2 2) h)) = [k1; k2] /\ pk_owner k1 = "alice"%string /\ pk_owner k2 = "alice"%string /\ pk_seq k1 = pk_seq k2 /\ pk_key k1 <> pk_key k2
     /\ exists r, dget "alice"%string (w_files (gui_run tiny (gui_start 2 2) h)) = Some r /\ share_keys (pr_keys r) = k2).
  { do 2 eexists. split; [vm_compute; reflexivity|]. repeat split; try reflexivity; [vm_compute; discriminate|]. eexists. split; vm_compute; reflexivity. }
  destruct Hk as (k1 & k2 & K1 & K2 & K3 & K4 & K5 & r & R1 & R2). exists k1, r. split.
  { unfold h. repeat constructor; try (cbn; unfold no_draws; lia); destruct i; cbn; lia. }
  split; [exists [], [k2]; split; [exact K1|split; [exact K2|intros x []]]|]. split; [exact R1|]. split; [congruence|].
  exists k2. rewrite K1. split; [right; left; reflexivity|]. split; [congruence|]. split; congruence.
Qed.
Lemma crash_refuted : exists h, Forall (good_event tiny) h /\ Forall (of_programs demo_ps) h /\ one_each demo_ps
  /\ let w := gui_run tiny (gui_start 2 2) h in
     kc_joined (w_doc w) = ["bob"%string; "alice"%string] /\
     forall h', Forall (of_programs demo_ps) h' -> offered tiny w h' ->
       w_doc (gui_run tiny w h') = w_doc w /\ get_key_ceremony_state (w_doc (gui_run tiny w h')) = PendingAdminAnnounce.
Proof.
  exists crash_history. split; [repeat constructor; try (cbn; unfold no_draws; lia); destruct i; cbn; lia|].
  split; [repeat (apply Forall_cons; [cbn; tauto|]); apply Forall_nil|]. split; [exact demo_one_each|]. cbn zeta. rewrite crash_world_eq. split; [reflexivity|].
  intros h' Ho Hf. rewrite (crash_stuck h' Ho Hf). split; [reflexivity|vm_compute; reflexivity].
Qed.
Lemma late_refuted : exists ps h, one_each ps /\ Forall (good_event tiny) h /\ Forall (of_programs ps) h
  /\ offered tiny (gui_start 2 2) h
  /\ let w := gui_run tiny (gui_start 2 2) h in
     NoDup (kc_joined (w_doc w)) /\ map pk_owner (kc_keys (w_doc w)) = kc_joined (w_doc w) /\
     forall h', Forall (of_programs ps) h' -> offered tiny w h' ->
       w_doc (gui_run tiny w h') = w_doc w /\ get_key_ceremony_state (w_doc (gui_run tiny w h')) = PendingAdminAnnounce.
Proof.
  exists late_ps, late_history. split.
  { split; [repeat constructor; cbn; intuition discriminate|]. intros c c' u H H'. cbn in H, H'.
    repeat match goal with H : _ \/ _ |- _ => destruct H end; try contradiction; congruence. }
  split; [repeat constructor; try (cbn; unfold no_draws; lia); destruct i; cbn; lia|].
  split; [repeat (apply Forall_cons; [cbn; tauto|]); apply Forall_nil|]. split; [vm_compute; tauto|]. cbn zeta. rewrite late_world_eq. split; [repeat constructor; cbn; intuition discriminate|]. split; [reflexivity|].
  intros h' Ho Hf. rewrite (late_stuck h' Ho Hf). split; [reflexivity|vm_compute; reflexivity].
Qed.
Lemma twin_refuted : exists ps h, Forall (good_event medium) h /\ Forall (of_programs ps) h
  /\ let w := gui_run medium (gui_start 2 2) h in
     ready ps w /\
     forall h', Forall (of_programs ps) h' -> offered medium w h' ->
       w_doc (gui_run medium w h') = w_doc w /\ get_key_ceremony_state (w_doc (gui_run medium w h')) = PendingAdminToShareBackups.
Proof.
  exists twin_ps, twin_history. split; [repeat constructor; try (cbn; unfold no_draws; lia); destruct i; cbn; lia|].
  split; [repeat (apply Forall_cons; [cbn; tauto|]); apply Forall_nil|]. cbn zeta. destruct twin_run as (b1 & b2 & Hw & B1 & B2 & B3 & B4). rewrite Hw. split.
  - apply (ready_by _ _ ["bob"%string; "alice"%string]); try (vm_compute; reflexivity).
    + repeat constructor; cbn; intuition discriminate.
    + cbn. intuition discriminate.
    + intros u [<-|[<-|[]]]; [exists "laptop b"%string|exists "laptop a"%string]; cbn; auto.
    + exists "office"%string, "carol"%string. cbn. auto.
  - intros h' Ho Hf. rewrite (twin_stuck b1 b2 h' B1 B2 B3 B4 Ho Hf). split; [reflexivity|vm_compute; reflexivity].
Qed.
Lemma unmarked_refuted : exists h, Forall (good_event medium) h /\ Forall (of_programs solo_ps) h /\ one_each solo_ps
  /\ forall h', Forall (of_programs solo_ps) h' -> offered medium (gui_run medium (gui_start 1 1) h) h' ->
     let d := w_doc (gui_run medium (gui_start 1 1) (h ++ h')) in get_key_ceremony_state d = CeremonyComplete /\ kc_completed d = false.
Proof.
  exists solo_all. split; [repeat constructor; try (cbn; unfold no_draws; lia); destruct i; cbn; lia|].
  split; [repeat (apply Forall_cons; [cbn; tauto|]); apply Forall_nil|]. split.
  { split; [repeat constructor; cbn; intuition discriminate|]. intros c c' u H H'. cbn in H, H'.
    repeat match goal with H : _ \/ _ |- _ => destruct H end; try contradiction; congruence. }
  intros h' Ho Hf. exact (solo_unmarked h' Ho Hf).
Qed.
