(** * GuiWatchFacts: no message is lost while the programs watch. *)
From Verif Require Import Base Group Spec GroupFacts Codec Hash DLog ElGamal ZK Poly ListFacts Manifest Ballot Encrypt
  SpecElection Ceremony SpecCeremony MediatorFacts CeremonyFacts GuiCeremony SpecGui GuiFacts GuiJoin GuiLive GuiRounds GuiThms Tiny EncryptThms GuiStuck GuiWatch SpecGuiWatch.
Import List.

(** ** the steps are steps of the key ceremony *)
Definition watch_open (we : watch_event) : bool := match we with Step e => is_open e | _ => false end.
Lemma watch_base E ps w we : exists l, ww_world (watch_step E w we) = gui_run E (ww_world w) l
  /\ (good_watch E we -> Forall (good_event E) l) /\ (watch_of ps we -> Forall (of_programs ps) l)
  /\ (watch_open we = false -> Forall (fun e => is_open e = false) l).
Proof.
  destruct w as [b sent ws]. assert (Hnil : exists l, b = gui_run E b l /\ (good_watch E we -> Forall (good_event E) l) /\ (watch_of ps we -> Forall (of_programs ps) l)
    /\ (watch_open we = false -> Forall (fun e => is_open e = false) l)) by (exists []; repeat split; constructor).
  assert (Hone : forall e, (good_watch E we -> good_event E e) -> (watch_of ps we -> of_programs ps e) -> (watch_open we = false -> is_open e = false) ->
    exists l, gui_step E b e = gui_run E b l /\ (good_watch E we -> Forall (good_event E) l) /\ (watch_of ps we -> Forall (of_programs ps) l)
    /\ (watch_open we = false -> Forall (fun e => is_open e = false) l)).
  { intros e H1 H2 H3. exists [e]. repeat split; intros; repeat constructor; auto. }
  destruct we as [e|c|c|c|c]; cbn [watch_step ww_world].
  - destruct e; cbn [event_client]; try exact Hnil; try (apply Hone; auto);
      (destruct (dget _ ws) as [[s [|]]|]; [exact Hnil| |exact Hnil]; cbn [ww_world]; apply Hone; auto).
  - destruct (dget c ws) as [[[| |] [|]]|]; try exact Hnil. destruct (idle b c); [|exact Hnil]. cbn [ww_world]. apply Hone; cbn; auto.
  - destruct (dget c ws) as [[[| |] [|]]|]; try exact Hnil. destruct (idle b c); exact Hnil.
  - destruct (dget c ws) as [[[| |] [|]]|]; try exact Hnil. destruct (idle b c && _); [|exact Hnil]. cbn [ww_world]. apply Hone; cbn; auto.
  - destruct (dget c ws) as [[s [|]]|]; exact Hnil.
Qed.
Lemma watch_run_base E ps h : forall w, exists l, ww_world (watch_run E w h) = gui_run E (ww_world w) l
  /\ (Forall (good_watch E) h -> Forall (good_event E) l) /\ (Forall (watch_of ps) h -> Forall (of_programs ps) l)
  /\ (Forall (fun we => watch_open we = false) h -> Forall (fun e => is_open e = false) l).
Proof.
  induction h as [|we h IH]; intros w; [exists []; repeat split; constructor|]. cbn [watch_run fold_left].
  destruct (watch_base E ps w we) as (l1 & E1 & A1 & B1 & D1). destruct (IH (watch_step E w we)) as (l2 & E2 & A2 & B2 & D2).
  exists (l1 ++ l2). rewrite run_app, <- E1. split; [exact E2|].
  repeat split; intros H; inversion H; subst; apply Forall_app; auto.
Qed.
Lemma watch_le E h w : kc_le (w_doc (ww_world w)) (w_doc (ww_world (watch_run E w h))).
Proof. destruct (watch_run_base E [] h w) as (l & -> & _). apply run_le. Qed.
Lemma joined_between E l w we : kc_joined (w_doc (ww_world (watch_run E w (we :: l)))) = kc_joined (w_doc (ww_world w)) ->
  kc_joined (w_doc (ww_world (watch_step E w we))) = kc_joined (w_doc (ww_world w)).
Proof.
  intros H. change (watch_run E w (we :: l)) with (watch_run E (watch_step E w we) l) in H. pose proof (watch_le E [we] w) as L1. cbn [watch_run fold_left] in L1.
  pose proof (watch_le E l (watch_step E w we)) as L2. symmetry. apply prefix_len_eq; [apply (le_joined _ _ L1)|].
  pose proof (prefix_len _ _ (le_joined _ _ L2)) as H'. rewrite H in H'. pose proof (prefix_len _ _ (le_joined _ _ L1)). lia.
Qed.

(** ** every program has its cursor *)
Definition mark (s : watching) : Z := match s with NotLooked => 0 | Looked m | Watching m => m end.
Record cursors (w : watch_world) : Prop := {
  cu_all : forall c cl, dget c (w_clients (ww_world w)) = Some cl -> exists wa, dget c (ww_watches w) = Some wa;
  cu_sent : 0 <= ww_sent w;
  cu_back : forall c wa, dget c (ww_watches w) = Some wa -> exists cl, dget c (w_clients (ww_world w)) = Some cl;
  cu_mark : forall c wa, dget c (ww_watches w) = Some wa -> mark (wa_state wa) <= ww_sent w }.
Lemma step_clients E b e c' cl' : is_open e = false -> dget c' (w_clients (gui_step E b e)) = Some cl' ->
  exists cl, dget c' (w_clients b) = Some cl /\ cl_user cl' = cl_user cl /\ cl_admin cl' = cl_admin cl /\ (c' <> event_client e -> cl' = cl).
Proof.
  intros Ho H. destruct (step_cases E b e) as [Hs|[(c & u & a & -> & _)|(cl & Hd & Hs)]]; rewrite ?Hs in H; [exists cl'; auto|discriminate|].
  assert (Hset : forall p, dget c' (set_phase b (event_client e) cl p) = Some cl' ->
    exists cl0, dget c' (w_clients b) = Some cl0 /\ cl_user cl' = cl_user cl0 /\ cl_admin cl' = cl_admin cl0 /\ (c' <> event_client e -> cl' = cl0)).
  { intros p Hp. apply set_phase_get in Hp as [[-> ->]|[Hne Hp]]; [exists cl; repeat split; auto; congruence|exists cl'; auto]. }
  assert (Hsame : dget c' (w_clients b) = Some cl' ->
    exists cl0, dget c' (w_clients b) = Some cl0 /\ cl_user cl' = cl_user cl0 /\ cl_admin cl' = cl_admin cl0 /\ (c' <> event_client e -> cl' = cl0)) by (exists cl'; auto).
  clear Hs. destruct cl as [user admin ph]. destruct e, ph; cbn [client_step cl_phase cl_user cl_admin event_client] in *; try (apply Hsame; exact H);
    repeat match type of H with context [match ?x with _ => _ end] => destruct x end; cbn [w_clients] in H; try (apply Hsame; exact H); eapply Hset; exact H.
Qed.
Lemma cursors_set b b' sent sent' ws c s o o' : cursors (mkWatchWorld b sent ws) -> dget c ws <> None -> sent <= sent' ->
  (forall c' cl', dget c' (w_clients b') = Some cl' -> exists cl, dget c' (w_clients b) = Some cl) ->
  (forall c' cl', dget c' (w_clients b) = Some cl' -> exists cl, dget c' (w_clients b') = Some cl) -> mark s <= sent' -> o' = o ->
  cursors (mkWatchWorld b' sent' (dset c (mkWatch s o) ws)).
Proof.
  intros [C1 C2 CB C3] Hc Hs Hb Hb' Hm _. cbn [ww_world ww_sent ww_watches] in *. constructor; cbn [ww_world ww_sent ww_watches].
  - intros c' cl' H. rewrite dget_dset. eqb_cases c' c; [eauto|]. destruct (Hb _ _ H) as [cl Hcl]. eauto.
  - lia.
  - intros c' wa. rewrite dget_dset. eqb_cases c' c; intros H.
    + subst c'. destruct (dget c ws) as [wa0|] eqn:Hw; [|congruence]. destruct (CB _ _ Hw) as [cl Hcl]. eauto.
    + destruct (CB _ _ H) as [cl Hcl]. eauto.
  - intros c' wa. rewrite dget_dset. eqb_cases c' c; [intros [= <-]; exact Hm|]. intros H. specialize (C3 _ _ H). lia.
Qed.
Lemma cursors_step E w we : cursors w -> cursors (watch_step E w we).
Proof.
  intros C. destruct w as [b sent ws]. pose proof C as [C1 C2 CB C3]. cbn [ww_world ww_sent ww_watches] in *.
  assert (Hb : forall e, is_open e = false -> forall c' cl', dget c' (w_clients (gui_step E b e)) = Some cl' -> exists cl, dget c' (w_clients b) = Some cl).
  { intros e He c' cl' H. destruct (step_clients E b e c' cl' He H) as (cl & Hcl & _). eauto. }
  assert (Hb' : forall e c' cl', dget c' (w_clients b) = Some cl' -> exists cl, dget c' (w_clients (gui_step E b e)) = Some cl) by (intros e c' cl'; apply open_step).
  destruct we as [e|c|c|c|c]; cbn [watch_step].
  - assert (Hgen : is_open e = false -> cursors (match dget (event_client e) ws with
      | Some (mkWatch s false) => mkWatchWorld (gui_step E b e) sent (dset (event_client e) (mkWatch s (changes E b e)) ws) | _ => mkWatchWorld b sent ws end)).
    { intros He. destruct (dget (event_client e) ws) as [[s [|]]|] eqn:Hw; try exact C.
      eapply cursors_set; [exact C|congruence|lia|apply Hb; exact He|apply Hb'|exact (C3 _ _ Hw)|reflexivity]. }
    destruct e; try (apply Hgen; reflexivity); [|exact C]. clear Hgen. constructor; cbn [ww_world ww_sent ww_watches]; [|lia| |].
    + intros c' cl'. cbn [gui_step w_clients]. rewrite !dget_dset. eqb_cases c' c; [eauto|]. apply C1.
    + intros c' wa. cbn [gui_step w_clients]. rewrite !dget_dset. eqb_cases c' c; [eauto|]. apply CB.
    + intros c' wa. rewrite dget_dset. eqb_cases c' c; [intros [= <-]; exact C2|apply C3].
  - destruct (dget c ws) as [[[| |] [|]]|] eqn:Hw; try exact C. destruct (idle b c); [|exact C].
    eapply cursors_set; [exact C|congruence|lia|apply Hb; reflexivity|apply Hb'|cbn; lia|reflexivity].
  - destruct (dget c ws) as [[[| |] [|]]|] eqn:Hw; try exact C. destruct (idle b c); [|exact C].
    eapply cursors_set; [exact C|congruence|lia|eauto|eauto|cbn; lia|reflexivity].
  - destruct (dget c ws) as [[[| |] [|]]|] eqn:Hw; try exact C. destruct (idle b c); [|exact C]. cbn [andb]. destruct (Z.ltb_spec i sent); [|exact C].
    eapply cursors_set; [exact C|congruence|lia|apply Hb; reflexivity|apply Hb'|cbn; lia|reflexivity].
  - destruct (dget c ws) as [[s [|]]|] eqn:Hw; try exact C. specialize (C3 _ _ Hw). cbn in C3.
    eapply cursors_set; [exact C|congruence|lia|eauto|eauto|lia|reflexivity].
Qed.
Lemma cursors_run E h : forall w, cursors w -> cursors (watch_run E w h).
Proof. induction h as [|we h IH]; intros w C; [exact C|]. apply IH, cursors_step, C. Qed.
Lemma cursors_start n q : cursors (watch_start n q).
Proof. constructor; cbn; [discriminate|lia|discriminate|discriminate]. Qed.

(** ** nothing is lost *)
Section Watch.
  Context (E : env) (HE : valid_env E) (Hmac : hmac_32 E) (Hq : qq E <= 2 ^ 1024).
  Context (k : nat) (ss : list seat) (Hok : forall s, In s ss -> seat_ok E k s) (Hnd : NoDup (map st_id ss)).
  Context (ps : list program) (Hps : one_each ps) (Hn : 0 < len ss).
  Notation settled := (settled E k ss ps).

  Definition seated (cl : client) : Prop := cl_admin cl = true \/ exists s, In s ss /\ cl_user cl = Some (st_id s).
  Definition gap (w : watch_world) : Prop :=
    (exists c, about_to_tell w c) \/ exists c cl, dget c (w_clients (ww_world w)) = Some cl /\ cl_phase cl = Published.
  Definition upto (w : watch_world) (cl : client) : Prop :=
    gap w \/ (exists s, cl_phase cl = Running s (w_doc (ww_world w)))
    \/ cl_phase cl = Idle /\ forall s, choose_stage (cl_user cl) (cl_admin cl) (w_doc (ww_world w)) <> Ok (Some s).
  Definition hears (w : watch_world) (c : string) (cl : client) : Prop :=
    exists s o, dget c (ww_watches w) = Some (mkWatch s o) /\ match s with NotLooked => True | Looked m | Watching m => m < ww_sent w \/ m = ww_sent w /\ upto w cl end.
  Definition inv (w : watch_world) : Prop := forall c cl, dget c (w_clients (ww_world w)) = Some cl -> seated cl -> hears w c cl.

  (** a stage chosen on the document as it is does not fail *)
  Lemma stage_works b c cl s rnd : settled b -> dget c (w_clients b) = Some cl -> cl_phase cl = Running s (w_doc b) -> seated cl -> (forall u, 0 <= rnd u) ->
    exists x, run_stage E (w_files b) rnd (match cl_user cl with Some u => u | None => EmptyString end) s (w_doc b) (w_doc b) = Ok x.
  Proof.
    intros S Hc Hp Hse Hr. pose proof (se_live _ _ _ _ _ S) as L. pose proof (lw_doc _ _ _ _ L) as Ld. pose proof (ld_stat _ _ _ Ld) as St. pose proof (se_full _ _ _ _ _ S) as F.
    destruct (settled_count E k ss ps b S) as (Hcnt & _ & _). destruct (lw_clients _ _ _ _ L _ _ Hc) as [_ CL]. rewrite Hp in CL. destruct CL as (_ & _ & Hch & _ & _).
    pose proof (choose_facts _ _ _ _ Hch) as Hf. pose proof (state_facts (w_doc b)) as Hsf.
    assert (Hfile : forall s0, In s0 ss -> dget (st_id s0) (w_files b) = Some (file_of E s0)) by (intros s0 Hs0; apply (lw_files _ _ _ _ L); [assumption|]; apply F; assumption).
    destruct s; cbn [run_stage].
    - rewrite (s2_full E ss Hnd _ St F). cbn [rbind]. eauto.
    - destruct Hf as (Ha & Hst & u & Hu & _). rewrite Hst in Hsf. destruct Hsf as (_ & Hne & _). destruct Hse as [Hse|(s & Hs & Hus)]; [congruence|].
      rewrite Hus. rewrite (s3_full E HE Hmac Hq k ss Hok Hnd _ _ rnd s Ld Hne Hs (Hfile s Hs) Hr). cbn [rbind]. eauto.
    - destruct Hf as (_ & Hst). rewrite Hst, Hcnt in Hsf. destruct Hsf as (_ & Hne & Hlb & _).
      destruct (s4_full E k ss Hok Hnd (w_doc b) Ld F Hn Hlb) as (l & -> & _). cbn [rbind]. eauto.
    - destruct Hf as (Ha & Hst & u & Hu & _). rewrite Hst in Hsf. destruct Hsf as (_ & Hne & _ & Hsh & _). destruct Hse as [Hse|(s & Hs & Hus)]; [congruence|].
      rewrite Hus. rewrite (s5_full E HE Hmac Hq k ss Hok Hnd _ _ s Ld Hne Hsh Hs (Hfile s Hs)). cbn [rbind]. eauto.
    - destruct Hf as (_ & Hst). rewrite Hst, Hcnt in Hsf. destruct Hsf as (_ & Hne & Hlb & _ & Hlv & _).
      destruct (s6_full E ss Hnd (w_doc b) Ld F Hn Hlb Hlv) as (j & ->). cbn [rbind]. eauto.
  Qed.

  (** what a step other than opening, looking and joining does *)
  Lemma step_kinds b e : settled b -> is_open e = false -> (forall c, e <> Changed c) -> kc_joined (w_doc (gui_step E b e)) = kc_joined (w_doc b) ->
    (gui_step E b e = b /\ changes E b e = false) \/ changes E b e = true
    \/ (exists cl, dget (event_client e) (w_clients (gui_step E b e)) = Some cl /\ cl_phase cl = Published)
    \/ (exists cl rnd s snap x, e = RunStage (event_client e) rnd /\ dget (event_client e) (w_clients b) = Some cl /\ cl_phase cl = Running s snap
        /\ run_stage E (w_files b) rnd (match cl_user cl with Some u => u | None => EmptyString end) s snap (w_doc b) = Err x
        /\ changes E b e = false /\ gui_step E b e = mkWorld (w_doc b) (w_files b) (set_phase b (event_client e) cl Idle)).
  Proof.
    intros S Ho Hnc Hj. unfold changes. destruct (dget (event_client e) (w_clients b)) as [cl|] eqn:Hd.
    2: { left. destruct e; try discriminate; cbn [gui_step]; rewrite Hd; auto. }
    pose proof (settled_idle E k ss ps b _ cl S Hd) as Hjn.
    assert (Hs : gui_step E b e = client_step E b (event_client e) cl e) by (destruct e; try discriminate; cbn [gui_step]; rewrite Hd; reflexivity).
    rewrite Hs in *. destruct cl as [user admin ph]. destruct e as [| | | | | |c rnd|c]; try discriminate; cbn [event_client cl_user cl_phase client_step] in *;
      destruct ph as [| | | |s snap|]; try discriminate; auto.
    - destruct user as [u|]; [|auto]. exfalso. apply (f_equal (@length _)) in Hj. cbn in Hj. rewrite app_length in Hj. cbn in Hj. lia.
    - exfalso. eapply Hnc. reflexivity.
    - destruct (run_stage _ _ _ _ _ _ _) as [[d p]|x] eqn:Hr.
      + right. destruct s; cbn [run_stage] in Hr; match type of Hr with rbind ?y _ = _ => destruct y end; cbn [rbind] in Hr; try discriminate; injection Hr as <- <-; try (left; reflexivity).
        right. left. cbn [w_clients]. unfold set_phase. rewrite dget_dset_same. eexists. split; reflexivity.
      + right. right. right. exists (mkClient user admin (Running s snap)), rnd, s, snap, x. cbn [cl_user cl_phase]. auto 10.
  Qed.

  Lemma look_inv b sent ws c s0 s1 : cursors (mkWatchWorld b sent ws) -> inv (mkWatchWorld b sent ws) -> dget c ws = Some (mkWatch s0 false) -> idle b c = true -> mark s1 <= sent ->
    inv (mkWatchWorld (gui_step E b (Changed c)) sent (dset c (mkWatch s1 false) ws)).
  Proof.
    intros C I Hw Hid Hm. unfold idle in Hid. destruct (dget c (w_clients b)) as [[user admin ph]|] eqn:Hc; [|discriminate]. cbn [cl_phase] in Hid. destruct ph; try discriminate.
    set (b' := gui_step E b (Changed c)).
    assert (Hdoc : w_doc b' = w_doc b /\ exists ph, dget c (w_clients b') = Some (mkClient user admin ph) /\ ph <> Published
      /\ ((exists s, ph = Running s (w_doc b)) \/ ph = Idle /\ forall s, choose_stage user admin (w_doc b) <> Ok (Some s))).
    { unfold b'. cbn [gui_step event_client]. rewrite Hc. cbn [client_step cl_phase cl_user cl_admin]. destruct (choose_stage user admin (w_doc b)) as [[s|]|] eqn:Hs.
      - cbn [w_doc w_clients]. unfold set_phase. rewrite dget_dset_same. split; [reflexivity|]. eexists. split; [reflexivity|]. split; [discriminate|]. left. eauto.
      - split; [reflexivity|]. exists Idle. split; [assumption|]. split; [discriminate|]. right. split; [reflexivity|]. congruence.
      - split; [reflexivity|]. exists Idle. split; [assumption|]. split; [discriminate|]. right. split; [reflexivity|]. congruence. }
    destruct Hdoc as (Hdoc & ph & Hc' & Hnp & Hph).
    assert (Hoth : forall c' cl', c' <> c -> dget c' (w_clients b) = Some cl' -> dget c' (w_clients b') = Some cl').
    { intros c' cl' Hne H. unfold b'. cbn [gui_step event_client]. rewrite Hc. cbn [client_step cl_phase cl_user cl_admin].
      destruct (choose_stage user admin (w_doc b)) as [[s|]|]; [|exact H|exact H]. cbn [w_clients]. unfold set_phase. rewrite dget_dset_other by congruence. exact H. }
    assert (Hgap : gap (mkWatchWorld b sent ws) -> gap (mkWatchWorld b' sent (dset c (mkWatch s1 false) ws))).
    { intros [[c' [s' Hs]]|(c' & cl' & H1 & H2)]; cbn [ww_watches ww_world] in *.
      - left. exists c', s'. cbn [ww_watches] in *. rewrite dget_dset. eqb_cases c' c; [|exact Hs]. congruence.
      - right. exists c', cl'. split; [|assumption]. cbn [ww_world]. apply Hoth; [|exact H1]. intros ->. rewrite Hc in H1. injection H1 as <-. discriminate. }
    intros c' cl' H' Hse. cbn [ww_world] in H'. destruct (eqb c' c) eqn:He; [apply eqb_spec in He; subst c'|apply eqb_neq in He].
    - rewrite Hc' in H'. injection H' as <-. exists s1, false. cbn [ww_watches ww_sent]. rewrite dget_dset_same. split; [reflexivity|].
      assert (Hup : upto (mkWatchWorld b' sent (dset c (mkWatch s1 false) ws)) (mkClient user admin ph)).
      { right. cbn [cl_phase cl_user cl_admin ww_world]. rewrite Hdoc. exact Hph. }
      destruct s1 as [|m|m]; [exact Logic.I| |]; cbn in Hm; (destruct (Z.eq_dec m sent) as [Hm'|Hm']; [right; split; [exact Hm'|exact Hup]|left; lia]).
    - destruct (step_clients E b (Changed c) c' cl' eq_refl H') as (cl & H1 & _ & _ & H2). specialize (H2 He). subst cl.
      destruct (I c' cl' H1 Hse) as (s & o & W1 & W2). cbn [ww_watches ww_sent] in *. exists s, o. cbn [ww_watches ww_sent]. rewrite dget_dset_other by congruence. split; [exact W1|].
      assert (Hup : upto (mkWatchWorld b sent ws) cl' -> upto (mkWatchWorld b' sent (dset c (mkWatch s1 false) ws)) cl').
      { intros [U|U]; [left; auto|right]. cbn [ww_world] in *. rewrite Hdoc. exact U. }
      destruct s; [exact Logic.I|destruct W2 as [W2|[W2 W3]]; auto|destruct W2 as [W2|[W2 W3]]; auto].
  Qed.

  Lemma inv_step w we : settled (ww_world w) -> cursors w -> inv w -> good_watch E we -> orderly E w [we] ->
    kc_joined (w_doc (ww_world (watch_step E w we))) = kc_joined (w_doc (ww_world w)) -> inv (watch_step E w we).
  Proof.
    intros S C I Hg [Hord _] Hj. destruct w as [b sent ws]. cbn [ww_world] in S.
    destruct we as [e|c|c|c|c].
    - destruct (is_open e) eqn:Ho.
      + (* a program is opened *)
        destruct e as [c u a| | | | | | |]; try discriminate. destruct Hord as [Ho1 Ho2]. cbn [watch_step].
        assert (Hgap : gap (mkWatchWorld b sent ws) -> gap (mkWatchWorld (gui_step E b (Open c u a)) sent (dset c (mkWatch NotLooked false) ws))).
        { intros [[c' [s Hs]]|(c' & cl' & H1 & H2)]; cbn [ww_watches ww_world] in *.
          - left. exists c', s. cbn [ww_watches]. rewrite dget_dset. eqb_cases c' c; [|exact Hs]. subst. exfalso. apply Ho1. exists s. exact Hs.
          - right. exists c', cl'. split; [|assumption]. cbn [ww_world gui_step w_clients]. rewrite dget_dset. eqb_cases c' c; [|exact H1]. subst. exfalso. eapply Ho2; eassumption. }
        intros c' cl' H' Hse. cbn [ww_world gui_step w_clients] in H'. unfold hears. cbn [ww_watches ww_sent]. revert H'. rewrite !dget_dset. eqb_cases c' c; intros H'.
        * exists NotLooked, false. auto.
        * destruct (I c' cl' H' Hse) as (s & o & H1 & H2). exists s, o. split; [exact H1|]. cbn [ww_sent] in H2.
          assert (Hup : upto (mkWatchWorld b sent ws) cl' -> upto (mkWatchWorld (gui_step E b (Open c u a)) sent (dset c (mkWatch NotLooked false) ws)) cl')
            by (intros [U|U]; [left; auto|right; exact U]).
          destruct s; [exact Logic.I|destruct H2 as [H2|[H2 H3]]; auto|destruct H2 as [H2|[H2 H3]]; auto].
      + (* another step *)
        assert (Hcase : (exists c, e = Changed c) \/ forall c, e <> Changed c) by (destruct e; try (right; intros; discriminate); left; eauto).
        destruct Hcase as [[c ->]|Hnc]; [exact I|].
        assert (Hs : watch_step E (mkWatchWorld b sent ws) (Step e) = match dget (event_client e) ws with
          | Some (mkWatch s false) => mkWatchWorld (gui_step E b e) sent (dset (event_client e) (mkWatch s (changes E b e)) ws) | _ => mkWatchWorld b sent ws end)
          by (destruct e; try discriminate; try reflexivity; exfalso; eapply Hnc; reflexivity).
        rewrite Hs in *. clear Hs. destruct (dget (event_client e) ws) as [[s0 [|]]|] eqn:Hw; try exact I. cbn [ww_world] in Hj.
        set (w' := mkWatchWorld (gui_step E b e) sent (dset (event_client e) (mkWatch s0 (changes E b e)) ws)).
        assert (Hstate : forall c' s o, dget c' ws = Some (mkWatch s o) -> exists o', dget c' (ww_watches w') = Some (mkWatch s o')).
        { intros c' s o H. cbn [w' ww_watches]. rewrite dget_dset. eqb_cases c' (event_client e); [|eauto]. subst c'. rewrite Hw in H. injection H as <- <-. eauto. }
        assert (Hgoal : gap w' -> inv w').
        { intros G c' cl' H' Hse. destruct (step_clients E b e c' cl' Ho H') as (cl & H1 & _). destruct (cu_all _ C c' cl H1) as [[s o] Hwa]. cbn [ww_watches] in Hwa.
          destruct (Hstate _ _ _ Hwa) as [o' Ho']. exists s, o'. split; [exact Ho'|]. pose proof (cu_mark _ C _ _ Hwa) as Hm. cbn in Hm. cbn [w' ww_sent].
          destruct s as [|m|m]; [exact Logic.I| |]; cbn in Hm; (destruct (Z.eq_dec m sent) as [He|He]; [right; split; [exact He|left; exact G]|left; lia]). }
        destruct (step_kinds b e S Ho Hnc Hj) as [[K1 K2]|[K|[(cl & K1 & K2)|(cl & rnd & s & snap & x & K0 & K1 & K2 & K3 & K4 & K5)]]].
        * unfold w'. rewrite K1, K2. assert (Hgap : gap (mkWatchWorld b sent ws) -> gap (mkWatchWorld b sent (dset (event_client e) (mkWatch s0 false) ws))).
          { intros [[c' [s Hs]]|G]; [left|right; exact G]. exists c', s. cbn [ww_watches] in *. rewrite dget_dset. eqb_cases c' (event_client e); [|exact Hs]. congruence. }
          intros c' cl' H' Hse. destruct (I c' cl' H' Hse) as (s & o & H1 & H2). cbn [ww_watches ww_sent] in *. exists s, o. split.
          { cbn [ww_watches]. rewrite dget_dset. eqb_cases c' (event_client e); [|exact H1]. congruence. }
          assert (Hup : upto (mkWatchWorld b sent ws) cl' -> upto (mkWatchWorld b sent (dset (event_client e) (mkWatch s0 false) ws)) cl') by (intros [U|U]; [left; auto|right; exact U]).
          cbn [ww_sent]. destruct s; [exact Logic.I|destruct H2 as [H2|[H2 H3]]; auto|destruct H2 as [H2|[H2 H3]]; auto].
        * apply Hgoal. left. exists (event_client e), s0. cbn [w' ww_watches]. rewrite dget_dset_same, K. reflexivity.
        * apply Hgoal. right. exists (event_client e), cl. auto.
        * assert (Hr : forall u, 0 <= rnd u) by (rewrite K0 in Hg; exact Hg). clear K0 Hgoal Hstate. unfold w'. rewrite K4, K5. clear w' K4 K5. set (c := event_client e) in *.
          assert (Hgap : gap (mkWatchWorld b sent ws) -> gap (mkWatchWorld (mkWorld (w_doc b) (w_files b) (set_phase b c cl Idle)) sent (dset c (mkWatch s0 false) ws))).
          { intros [[c' [s' Hs]]|(c' & cl' & H1 & H2)]; cbn [ww_watches ww_world] in *.
            - left. exists c', s'. cbn [ww_watches] in *. rewrite dget_dset. eqb_cases c' c; [|exact Hs]. congruence.
            - right. exists c', cl'. split; [|assumption]. cbn [ww_world w_clients]. unfold set_phase. rewrite dget_dset. eqb_cases c' c; [|exact H1]. subst c'. congruence. }
          intros c' cl' H' Hse. cbn [ww_world w_clients] in H'. apply set_phase_get in H' as [[-> ->]|[Hne H']].
          -- destruct (I c cl K1 Hse) as (s1 & o & H1 & H2). cbn [ww_watches ww_sent] in *. rewrite Hw in H1. injection H1 as <- <-.
             exists s0, false. cbn [ww_watches ww_sent]. rewrite dget_dset_same. split; [reflexivity|].
             assert (Hup : upto (mkWatchWorld b sent ws) cl -> gap (mkWatchWorld b sent ws)).
             { intros [U|[(s' & U)|[U _]]]; [exact U| |congruence]. exfalso. cbn [ww_world] in U. rewrite K2 in U. injection U as -> ->.
               destruct (stage_works b c cl s' rnd S K1 K2 Hse Hr) as [y Hy]. congruence. }
             destruct s0; [exact Logic.I| |]; (destruct H2 as [H2|[H2 H3]]; [left; exact H2|right; split; [exact H2|left; auto]]).
          -- destruct (I c' cl' H' Hse) as (s1 & o & H1 & H2). cbn [ww_watches ww_sent] in *. exists s1, o. cbn [ww_watches ww_sent]. rewrite dget_dset_other by congruence. split; [exact H1|].
             assert (Hup : upto (mkWatchWorld b sent ws) cl' -> upto (mkWatchWorld (mkWorld (w_doc b) (w_files b) (set_phase b c cl Idle)) sent (dset c (mkWatch s0 false) ws)) cl')
               by (intros [U|U]; [left; auto|right; exact U]).
             destruct s1; [exact Logic.I|destruct H2 as [H2|[H2 H3]]; auto|destruct H2 as [H2|[H2 H3]]; auto].
    - cbn [watch_step]. destruct (dget c ws) as [[[| |] [|]]|] eqn:Hw; try exact I. destruct (idle b c) eqn:Hid; [|exact I].
      eapply look_inv; try eassumption. cbn. lia.
    - cbn [watch_step]. destruct (dget c ws) as [[[|m|] [|]]|] eqn:Hw; try exact I. destruct (idle b c) eqn:Hid; [|exact I]. pose proof (Hord m false Hw) as Hm. cbn [ww_sent] in Hm. subst m.
      intros c' cl' H' Hse. destruct (I c' cl' H' Hse) as (s & o & W1 & W2). cbn [ww_watches ww_sent] in *.
      assert (Hup : upto (mkWatchWorld b sent ws) cl' -> upto (mkWatchWorld b sent (dset c (mkWatch (Watching sent) false) ws)) cl').
      { intros [[[c1 [s' Hs]]|U]|U]; [|left; right; exact U|right; exact U]. left. left. exists c1, s'. cbn [ww_watches] in *. rewrite dget_dset. eqb_cases c1 c; [|exact Hs]. congruence. }
      unfold hears. cbn [ww_watches ww_sent]. rewrite dget_dset. eqb_cases c' c.
      + exists (Watching sent), false. split; [reflexivity|]. subst c'. rewrite Hw in W1. injection W1 as <- <-. destruct W2 as [W2|[W2 W3]]; [lia|auto].
      + exists s, o. split; [exact W1|]. destruct s; [exact Logic.I|destruct W2 as [W2|[W2 W3]]; auto|destruct W2 as [W2|[W2 W3]]; auto].
    - cbn [watch_step]. destruct (dget c ws) as [[[| |] [|]]|] eqn:Hw; try exact I. destruct (idle b c) eqn:Hid; [|exact I]. cbn [andb]. destruct (Z.ltb_spec i sent); [|exact I].
      eapply look_inv; try eassumption. cbn. lia.
    - cbn [watch_step]. destruct (dget c ws) as [[s0 [|]]|] eqn:Hw; try exact I.
      intros c' cl' H' Hse. destruct (cu_all _ C c' cl' H') as [[s o] Hwa]. pose proof (cu_mark _ C _ _ Hwa) as Hm. cbn in Hm, Hwa.
      assert (Hx : exists o', dget c' (dset c (mkWatch s0 false) ws) = Some (mkWatch s o')).
      { rewrite dget_dset. eqb_cases c' c; [|eauto]. subst c'. rewrite Hw in Hwa. injection Hwa as <- <-. eauto. }
      destruct Hx as [o' Hx]. exists s, o'. split; [exact Hx|]. cbn [ww_sent]. destruct s; cbn in Hm; [exact Logic.I| |]; left; lia.
  Qed.
  Lemma inv_run l : forall w, settled (ww_world w) -> cursors w -> inv w -> Forall (good_watch E) l -> Forall (watch_of ps) l -> orderly E w l ->
    kc_joined (w_doc (ww_world (watch_run E w l))) = kc_joined (w_doc (ww_world w)) -> settled (ww_world (watch_run E w l)) /\ inv (watch_run E w l).
  Proof.
    induction l as [|we l IH]; intros w S C I Hg Ho Hord Hj; [auto|]. inversion Hg; subst. inversion Ho; subst. destruct Hord as [Hord1 Hord2].
    pose proof (joined_between E l w we Hj) as Hj1. cbn [watch_run fold_left]. apply IH; auto.
    - destruct (watch_base E ps w we) as (l0 & He & Hg0 & Ho0 & _). rewrite He in *. apply (run_settled E HE Hmac Hq k ss Hok Hnd ps Hps Hn); auto.
    - apply cursors_step. assumption.
    - apply inv_step; auto. split; [exact Hord1|exact Logic.I].
    - change (kc_joined (w_doc (ww_world (watch_run E (watch_step E w we) l))) = kc_joined (w_doc (ww_world (watch_step E w we)))). rewrite Hj1. exact Hj.
  Qed.
  Lemma inv_news w : cursors w -> news w -> inv w.
  Proof.
    intros C [[c Hc]|Hl] c' cl' H' _.
    - destruct (cu_all _ C c' cl' H') as [[s o] Hwa]. pose proof (cu_mark _ C _ _ Hwa) as Hm. exists s, o. split; [exact Hwa|]. cbn in Hm.
      assert (Hup : upto w cl') by (left; left; exists c; exact Hc).
      destruct s as [|m|m]; [exact Logic.I| |]; cbn in Hm; (destruct (Z.eq_dec m (ww_sent w)) as [Hm'|Hm']; [right; split; [exact Hm'|exact Hup]|left; lia]).
    - destruct (Hl c' cl' H') as (s & o & H1 & H2). exists s, o. split; [exact H1|]. destruct s; [exact Logic.I|destruct H2|left; exact H2].
  Qed.

  (** ** when nobody has anything left to do, the ceremony is over *)
  Lemma quiet_nothing w c cl : cursors w -> inv w -> quiet w -> dget c (w_clients (ww_world w)) = Some cl -> seated cl ->
    forall s, choose_stage (cl_user cl) (cl_admin cl) (w_doc (ww_world w)) <> Ok (Some s).
  Proof.
    intros C I Q Hc Hse. destruct (I c cl Hc Hse) as (s & o & H1 & H2). destruct (Q c cl Hc) as [Hid Hwa]. rewrite Hwa in H1. injection H1 as <- <-.
    destruct H2 as [H2|[_ [[[c' [s' Hs]]|(c' & cl' & H3 & H4)]|[(s' & H3)|[_ H3]]]]]; [lia| | |congruence|exact H3]; exfalso.
    - destruct (cu_back _ C _ _ Hs) as [cl' Hcl']. destruct (Q _ _ Hcl') as [_ Hq']. congruence.
    - destruct (Q _ _ H3) as [Hq' _]. congruence.
  Qed.
  Lemma quiet_complete w : cursors w -> settled (ww_world w) -> inv w -> quiet w ->
    (forall s, In s ss -> exists c, In (c, (Some (st_id s), false)) ps) -> (exists c u, In (c, (Some u, true)) ps) ->
    get_key_ceremony_state (w_doc (ww_world w)) = CeremonyComplete.
  Proof.
    intros C S I Q Hguard (ca & ua & Hadmin). set (b := ww_world w) in *. destruct (settled_count E k ss ps b S) as (Hcnt & _ & Hp1). set (d := w_doc b) in *.
    pose proof (lw_doc _ _ _ _ (se_live _ _ _ _ _ S)) as Ld. fold d in Ld. pose proof (state_facts d) as Hsf.
    assert (Ha : forall s, choose_stage (Some ua) true d <> Ok (Some s)).
    { destruct (se_open _ _ _ _ _ S ca) as [cl Hcl]; [apply (in_map fst) in Hadmin; exact Hadmin|]. destruct (identity E k ss ps Hps b ca cl _ _ S Hcl Hadmin) as [Hu Hadm].
      rewrite <- Hu, <- Hadm. apply (quiet_nothing w ca cl); auto. left. exact Hadm. }
    assert (Hg : forall s, In s ss -> forall st, choose_stage (Some (st_id s)) false d <> Ok (Some st)).
    { intros s Hs. destruct (Hguard s Hs) as [c Hin]. destruct (se_open _ _ _ _ _ S c) as [cl Hcl]; [apply (in_map fst) in Hin; exact Hin|].
      destruct (identity E k ss ps Hps b c cl _ _ S Hcl Hin) as [Hu Hadm]. rewrite <- Hu, <- Hadm. apply (quiet_nothing w c cl); auto. right. exists s. auto. }
    unfold choose_stage in Ha, Hg. destruct (get_key_ceremony_state d) eqn:Hst; cbn [progress] in Hp1; cbn in Ha, Hg; try lia; try (exfalso; eapply Ha; reflexivity); [| |reflexivity]; exfalso.
    - rewrite Hcnt in Hsf. destruct Hsf as (_ & _ & Hlb). destruct (ld_backups _ _ _ Ld) as (posted & P1 & P2 & P3). rewrite P3, blocks_len in Hlb; [|assumption|intros p Hpp; apply (P2 p Hpp)].
      assert (Hge' : len ss <= len posted).
      { assert (Hincl : incl (map st_id ss) (map (fun p : seat * draws => st_id (fst p)) posted)).
        { intros x Hx. apply in_map_iff in Hx as [s [<- Hs]]. specialize (Hg s Hs). destruct (Z.ltb_spec 0 (backup_count_for d (st_id s))) as [Hb|Hb]; [|exfalso; eapply Hg; reflexivity].
          unfold backup_count_for in Hb. destruct (filter _ _) as [|x l] eqn:Hf; [cbn in Hb; lia|]. assert (B1 : In x (filter (fun b => eqb (bk_owner b) (st_id s)) (kc_backups d))) by (rewrite Hf; left; reflexivity).
          apply filter_In in B1 as [B1 B2]. apply eqb_spec in B2. rewrite P3 in B1. apply in_flat_map in B1 as [p [Hpp B1]].
          unfold block in B1. apply in_map_iff in B1 as [r [<- _]]. cbn in B2. apply in_map_iff. exists p. auto. }
        pose proof (NoDup_incl_length Hnd Hincl) as Hl. rewrite !map_length in Hl. unfold len. lia. }
      nia.
    - rewrite Hcnt in Hsf. destruct Hsf as (_ & _ & _ & _ & Hlv). destruct (ld_verifs _ _ _ Ld) as (posted & P1 & P2 & P3). rewrite P3, vblocks_len in Hlv by assumption.
      assert (Hge' : len ss <= len posted).
      { assert (Hincl : incl (map st_id ss) (map st_id posted)).
        { intros x Hx. apply in_map_iff in Hx as [s [<- Hs]]. specialize (Hg s Hs). destruct (Z.ltb_spec 0 (verification_count_for d (st_id s))) as [Hb|Hb]; [|exfalso; eapply Hg; reflexivity].
          unfold verification_count_for in Hb. destruct (filter _ _) as [|x l] eqn:Hf; [cbn in Hb; lia|]. assert (B1 : In x (filter (fun v => eqb (vf_designated v) (st_id s)) (kc_verifs d))) by (rewrite Hf; left; reflexivity).
          apply filter_In in B1 as [B1 B2]. apply eqb_spec in B2. rewrite P3 in B1. apply in_flat_map in B1 as [p [Hpp B1]].
          unfold vblock in B1. apply in_map_iff in B1 as [r [<- _]]. cbn in B2. apply in_map_iff. exists p. auto. }
        pose proof (NoDup_incl_length Hnd Hincl) as Hl. rewrite !map_length in Hl. unfold len. lia. }
      nia.
  Qed.
End Watch.

Lemma watch_completes E n t ps h l : valid_env E -> hmac_32 E -> qq E <= 2 ^ 1024 -> 0 < t -> 0 < n -> n < qq E -> (forall j, 0 <= j < t -> n ^ j < pp E) -> one_each ps ->
  let w := watch_run E (watch_start n t) h in let w' := watch_run E w l in
  Forall (good_watch E) (h ++ l) -> Forall (watch_of ps) (h ++ l) -> ready ps (ww_world w) -> news w -> orderly E w l ->
  kc_joined (w_doc (ww_world w')) = kc_joined (w_doc (ww_world w)) -> quiet w' -> get_key_ceremony_state (w_doc (ww_world w')) = CeremonyComplete.
Proof.
  intros HE Hmac Hq Ht Hn Hnq Hpow Hps w w' Hg Ho R Hnews Hord Hj Q. apply Forall_app in Hg as [Hg1 Hg2]. apply Forall_app in Ho as [Ho1 Ho2].
  destruct (watch_run_base E ps h (watch_start n t)) as (h0 & He & Hg0 & Ho0 & _). specialize (Hg0 Hg1). specialize (Ho0 Ho1). fold w in He. cbn [watch_start ww_world] in He.
  rewrite <- (Z2Nat.id t) in He by lia. assert (Hk : (0 < Z.to_nat t)%nat) by lia.
  assert (Hpow' : forall j, 0 <= j < Z.of_nat (Z.to_nat t) -> n ^ j < pp E) by (intros j Hjj; apply Hpow; lia).
  pose proof R as R'. rewrite He in R'. destruct (settled_start E HE Hmac Hq _ n Hk Hn Hnq Hpow' ps Hps h0 Hg0 Ho0 R') as (ss & Hnd & Hok & Hl & Hids & S). rewrite <- He in S, Hids.
  assert (Hpos : 0 < len ss) by lia. assert (C : cursors w) by (apply cursors_run, cursors_start).
  destruct (inv_run E HE Hmac Hq _ ss Hok Hnd ps Hps Hpos l w S C (inv_news ss w C Hnews) Hg2 Ho2 Hord Hj) as [S' I'].
  apply (quiet_complete E (Z.to_nat t) ss Hnd ps Hps Hpos w'); auto.
  - apply cursors_run. exact C.
  - intros s Hs. apply (rd_guardians _ _ R). rewrite <- Hids. apply in_map. exact Hs.
  - apply (rd_admin _ _ R).
Qed.
