(** * GuiStuck: worlds of the key ceremony that nothing moves any more, and concrete histories. *)
From Verif Require Import Base Group Spec GroupFacts Codec Hash DLog ElGamal ZK Poly ListFacts Manifest Ballot Encrypt
  SpecElection Ceremony SpecCeremony MediatorFacts CeremonyFacts GuiCeremony SpecGui GuiFacts GuiJoin GuiLive GuiRounds GuiThms Tiny EncryptThms.
Import List.

(** ** without a join the joined guardians stay *)
Definition is_join (e : event) : bool := match e with Join _ => true | _ => false end.
Lemma no_join_step E w e : is_join e = false -> kc_joined (w_doc (gui_step E w e)) = kc_joined (w_doc w).
Proof.
  intros He. destruct (step_cases E w e) as [->|[(c & u & a & -> & ->)|(cl & Hd & ->)]]; [reflexivity|reflexivity|].
  destruct cl as [user admin ph]. destruct e, ph; try discriminate; cbn [client_step cl_phase cl_user cl_admin]; try reflexivity.
  - destruct user; [|reflexivity]. destruct (get_guardian_number _ _); reflexivity.
  - destruct user; [|reflexivity]. destruct (make_guardian _ _ _ _ _); reflexivity.
  - destruct (choose_stage _ _ _) as [[s|]|]; reflexivity.
  - destruct (run_stage _ _ _ _ _ _ _) as [[d p]|] eqn:Hr; [|reflexivity]. apply run_stage_joins in Hr as (_ & Hj & _). exact Hj.
Qed.
Lemma no_join_run E h : forall w, Forall (fun e => is_join e = false) h -> kc_joined (w_doc (gui_run E w h)) = kc_joined (w_doc w).
Proof.
  induction h as [|e h IH]; intros w Hh; [reflexivity|]. inversion Hh; subst. cbn [gui_run fold_left]. unfold gui_run in IH. rewrite IH by assumption.
  apply no_join_step. assumption.
Qed.

(** ** a document on which every program fails *)
Section Stuck.
  Context (E : env) (ps : list program) (d : kc) (files : dict string private_record).
  Record calm (w : world) : Prop := {
    cm_doc : w_doc w = d;
    cm_files : w_files w = files;
    cm_clients : forall c cl, dget c (w_clients w) = Some cl -> In (c, (cl_user cl, cl_admin cl)) ps /\
      (cl_phase cl = Idle \/ exists st, cl_phase cl = Running st d /\ choose_stage (cl_user cl) (cl_admin cl) d = Ok (Some st)) }.
  Hypothesis Hdead : forall c user admin st, In (c, (user, admin)) ps -> choose_stage user admin d = Ok (Some st) ->
    forall rnd, exists x, run_stage E files rnd (match user with Some u => u | None => EmptyString end) st d d = Err x.
  Hypothesis Hfull : forall c user, In (c, (user, false)) ps -> exists u, user = Some u /\ In u (kc_joined d).

  Lemma calm_set w c cl p : calm w -> dget c (w_clients w) = Some cl ->
    (p = Idle \/ exists st, p = Running st d /\ choose_stage (cl_user cl) (cl_admin cl) d = Ok (Some st)) -> calm (mkWorld d files (set_phase w c cl p)).
  Proof.
    intros [D F C] Hc Hp. constructor; auto. cbn [w_clients]. intros c' cl' H'. apply set_phase_get in H' as [[-> ->]|[_ H']]; [|auto].
    cbn. split; [apply (C _ _ Hc)|exact Hp].
  Qed.
  Lemma calm_step w e : calm w -> of_programs ps e ->
    match e with Join c => match dget c (w_clients w) with Some cl => can_join (w_doc w) (cl_user cl) (cl_admin cl) = true | None => True end | _ => True end ->
    calm (gui_step E w e).
  Proof.
    intros C Ho Hj. pose proof C as [D F Cl]. destruct (step_cases E w e) as [->|[(c & u & a & -> & ->)|(cl & Hd & ->)]]; [assumption| |].
    - constructor; auto. cbn [w_clients]. intros c' cl' H'. rewrite dget_dset in H'. revert H'. eqb_cases c' c; [|apply Cl].
      intros [= <-]. subst. split; [exact Ho|auto].
    - destruct (Cl _ _ Hd) as [C1 C2]. destruct cl as [user admin ph]. cbn [cl_user cl_admin cl_phase] in *.
      assert (Hsame : mkWorld (w_doc w) (w_files w) (w_clients w) = w) by (destruct w; reflexivity).
      assert (Hset : forall p, p = Idle \/ (exists st, p = Running st d /\ choose_stage user admin d = Ok (Some st)) ->
                     calm (mkWorld (w_doc w) (w_files w) (set_phase w (event_client e) (mkClient user admin ph) p))).
      { intros p Hp. rewrite D, F. apply calm_set; [exact C|exact Hd|exact Hp]. }
      destruct C2 as [->|(st & -> & Hst)].
      + destruct e; cbn [client_step cl_phase cl_user cl_admin event_client] in *; try exact C.
        * rewrite Hd in Hj. cbn in Hj. unfold can_join in Hj. destruct admin; [rewrite andb_false_r in Hj; discriminate|].
          destruct (Hfull _ _ C1) as (u & -> & Hu). rewrite D in Hj. apply inb_spec in Hu. rewrite Hu in Hj. discriminate.
        * rewrite D in *. destruct (choose_stage user admin d) as [[s|]|] eqn:Hs; try exact C. apply Hset. right. exists s. auto.
      + destruct e; cbn [client_step cl_phase cl_user cl_admin event_client] in *; try exact C.
        rewrite D, F in *. destruct (Hdead _ _ _ _ C1 Hst rnd) as [x ->]. apply Hset. auto.
  Qed.
  Lemma calm_run h : forall w, calm w -> Forall (of_programs ps) h -> offered E w h -> calm (gui_run E w h).
  Proof.
    induction h as [|e h IH]; intros w C Ho Hf; [exact C|]. inversion Ho; subst. destruct Hf as [Hf1 Hf2]. apply IH; auto. apply calm_step; assumption.
  Qed.
End Stuck.

(** ** concrete histories *)
Definition opens (ps : list program) : list event := map (fun p => Open (fst p) (fst (snd p)) (snd (snd p))) ps.
Definition joins (c : string) (draw : nat -> Z * Z) : list event := [Join c; ReadNumber c; MakeGuardian c draw; PushKey c].
Definition no_draws (u : string) : Z := 7.
Definition demo_draw (i : nat) : Z * Z := (match i with O => 3 | _ => 8 end, 5).
Definition demo_draw' (i : nat) : Z * Z := (match i with O => 4 | _ => 9 end, 6).

(** two guardians and an administrator *)
Definition demo_ps : list program :=
  [("laptop a"%string, (Some "alice"%string, false)); ("laptop b"%string, (Some "bob"%string, false)); ("office"%string, (Some "carol"%string, true))].
Definition demo_joined : list event := opens demo_ps ++ joins "laptop b" demo_draw ++ joins "laptop a" demo_draw'.
Definition demo_round : list event := flat_map (fun p => wake (fst p) no_draws no_draws) demo_ps.
Definition demo_rounds : list (list event) := repeat demo_round 5.

Lemma ready_by ps w l : kc_joined (w_doc w) = l -> len l = kc_count (w_doc w) -> NoDup l -> ~ In EmptyString l ->
  map pk_owner (kc_keys (w_doc w)) = l -> map fst (w_clients w) = map fst ps ->
  (forall u, In u l -> exists c, In (c, (Some u, false)) ps) -> (exists c u, In (c, (Some u, true)) ps) -> ready ps w.
Proof.
  intros Hd Hn Hl He Hk Hcl Hg Ha. constructor; rewrite ?Hd; auto.
  - intros u Hu. rewrite <- Hk in Hu. apply in_map_iff in Hu as [key [<- Hin]]. exists key. auto.
  - intros c Hc. destruct (dget c (w_clients w)) as [cl|] eqn:Hget; [exists cl; reflexivity|]. exfalso. apply dget_none in Hget. apply Hget. unfold dkeys. rewrite Hcl. exact Hc.
Qed.
Lemma demo_ready : ready demo_ps (gui_run medium (gui_start 2 2) demo_joined).
Proof.
  apply (ready_by _ _ ["bob"%string; "alice"%string]); try (vm_compute; reflexivity).
  - repeat constructor; cbn; intuition discriminate.
  - cbn. intuition discriminate.
  - intros u [<-|[<-|[]]]; [exists "laptop b"%string|exists "laptop a"%string]; cbn; auto.
  - exists "office"%string, "carol"%string. cbn. auto.
Qed.
Lemma demo_one_each : one_each demo_ps.
Proof.
  split; [repeat constructor; cbn; intuition discriminate|]. intros c c' u H H'. cbn in H, H'.
  repeat match goal with H : _ \/ _ |- _ => destruct H end; try contradiction; congruence.
Qed.
Lemma demo_good : Forall (good_event medium) (demo_joined ++ concat demo_rounds).
Proof. repeat constructor; try (cbn; unfold no_draws; lia); destruct i; cbn; lia. Qed.
Lemma demo_of_programs : Forall (of_programs demo_ps) (demo_joined ++ concat demo_rounds).
Proof. repeat (apply Forall_cons; [cbn; tauto|]). apply Forall_nil. Qed.
Lemma demo_round_ok : Forall (round demo_ps) demo_rounds.
Proof.
  assert (H : round demo_ps demo_round).
  { intros c [<-|[<-|[<-|[]]]].
    - exists [], (wake "laptop b" no_draws no_draws ++ wake "office" no_draws no_draws), no_draws, no_draws. reflexivity.
    - exists (wake "laptop a" no_draws no_draws), (wake "office" no_draws no_draws), no_draws, no_draws. reflexivity.
    - exists (wake "laptop a" no_draws no_draws ++ wake "laptop b" no_draws no_draws), [], no_draws, no_draws. reflexivity. }
  repeat constructor; exact H.
Qed.
Lemma demo_still : kc_joined (w_doc (gui_run medium (gui_start 2 2) (demo_joined ++ concat demo_rounds))) = kc_joined (w_doc (gui_run medium (gui_start 2 2) demo_joined)).
Proof. rewrite run_app. apply no_join_run. repeat constructor. Qed.

(** ** the second update of the last stage *)
Definition is_open (e : event) : bool := match e with Open _ _ _ => true | _ => false end.
Definition marked_or_about (w : world) : Prop :=
  kc_joint (w_doc w) <> None -> kc_completed (w_doc w) = true \/ exists c cl, dget c (w_clients w) = Some cl /\ cl_phase cl = Published.
Lemma completed_le E h w : kc_completed (w_doc w) = true -> kc_completed (w_doc (gui_run E w h)) = true.
Proof. intros H. apply (le_completed _ _ (run_le E h w)). assumption. Qed.
Lemma published_stays E w e c cl : dget c (w_clients w) = Some cl -> cl_phase cl = Published -> is_open e = false ->
  kc_completed (w_doc (gui_step E w e)) = true \/ exists cl', dget c (w_clients (gui_step E w e)) = Some cl' /\ cl_phase cl' = Published /\ e <> MarkComplete c.
Proof.
  intros Hc Hp Ho. destruct e as [c' u a|c'|c'|c' dr|c'|c'|c' rnd|c']; [discriminate|..]; cbn [gui_step event_client];
    (destruct (dget c' (w_clients w)) as [cl1|] eqn:H1; [|right; exists cl; repeat split; try assumption; congruence]);
    (destruct (eqb c' c) eqn:He;
      [ apply eqb_spec in He; subst c'; rewrite Hc in H1; injection H1 as <-; destruct cl as [user admin ph]; cbn in Hp; subst ph; cbn [client_step cl_phase]; try (right; exists (mkClient user admin Published); repeat split; try assumption; congruence); left; reflexivity
      | apply eqb_neq in He; right; exists cl; split; [|split; [assumption|congruence]];
        destruct cl1 as [user admin ph]; destruct ph; cbn [client_step cl_phase cl_user cl_admin]; try assumption;
        repeat match goal with |- context [match ?x with _ => _ end] => destruct x end; cbn [w_clients]; try assumption; unfold set_phase; rewrite dget_dset_other by congruence; assumption ]).
Qed.
Lemma marked_step E w e : marked_or_about w -> is_open e = false -> marked_or_about (gui_step E w e).
Proof.
  intros I Ho Hj. destruct (kc_joint (w_doc w)) as [j|] eqn:Hjw.
  - destruct (I ltac:(congruence)) as [Hm|(c & cl & Hc & Hp)].
    + left. exact (completed_le E [e] w Hm).
    + destruct (published_stays E w e c cl Hc Hp Ho) as [H|(cl' & H1 & H2 & _)]; [left; assumption|right; exists c, cl'; auto].
  - destruct (step_cases E w e) as [He|[(c & u & a & -> & He)|(cl & Hd & He)]]; rewrite He in *; [congruence|discriminate|]. clear He.
    destruct cl as [user admin ph]. destruct e, ph; cbn [client_step cl_phase cl_user cl_admin event_client] in *; try congruence.
    + destruct user; cbn in Hj; congruence.
    + destruct user; [|congruence]. destruct (get_guardian_number _ _); cbn in Hj; congruence.
    + destruct user; [|congruence]. destruct (make_guardian _ _ _ _ _); cbn in Hj; congruence.
    + cbn in Hj. congruence.
    + destruct (choose_stage _ _ _) as [[s|]|]; cbn in Hj; congruence.
    + destruct s; cbn [run_stage] in *; match goal with H : context [rbind ?x _] |- _ => destruct x end; cbn [rbind w_doc append_other_key append_backups append_shared_backups append_verifications append_joint_key kc_joint] in *; try congruence.
      right. exists c, (mkClient user admin Published). cbn [w_clients]. unfold set_phase. rewrite dget_dset_same. auto.
    + cbn in Hj. congruence.
Qed.
Lemma marked_run E h : forall w, marked_or_about w -> Forall (fun e => is_open e = false) h -> marked_or_about (gui_run E w h).
Proof. induction h as [|e h IH]; intros w I Hh; [exact I|]. inversion Hh; subst. apply IH; [apply marked_step; assumption|assumption]. Qed.
Lemma published_marks E h : forall w c cl, dget c (w_clients w) = Some cl -> cl_phase cl = Published -> Forall (fun e => is_open e = false) h -> In (MarkComplete c) h ->
  kc_completed (w_doc (gui_run E w h)) = true.
Proof.
  induction h as [|e h IH]; intros w c cl Hc Hp Hh Hin; [destruct Hin|]. inversion Hh; subst. cbn [gui_run fold_left].
  destruct (published_stays E w e c cl Hc Hp ltac:(assumption)) as [H|(cl' & C1 & C2 & C3)]; [apply completed_le; assumption|].
  destruct Hin as [->|Hin]; [congruence|]. eapply IH; eassumption.
Qed.
