(** * GuiThms: the key ceremony of the graphical application, from its start. *)
From Verif Require Import Base Group Spec GroupFacts Codec Hash DLog ElGamal ZK Poly ListFacts Manifest Ballot Encrypt
  SpecElection Ceremony SpecCeremony MediatorFacts CeremonyFacts GuiCeremony SpecGui GuiFacts GuiJoin GuiLive GuiRounds.
Import List.

Lemma choice {A B} (P : A -> B -> Prop) l : (forall x, In x l -> exists y, P x y) -> exists ys, Forall2 P l ys.
Proof.
  induction l as [|a l IH]; intros H; [exists []; constructor|]. destruct (H a (or_introl eq_refl)) as [y Hy].
  destruct IH as [ys Hys]; [intros x Hx; apply H; right; assumption|]. exists (y :: ys). constructor; assumption.
Qed.

Section Seats.
  Context (E : env) (k : nat).
  Definition seat_in (w : world) (u : string) (s : seat) : Prop :=
    st_id s = u /\ In (pk_of E s) (kc_keys (w_doc w)) /\ dget u (w_files w) = Some (file_of E s) /\ length (st_draws s) = k
    /\ Forall (fun a => 0 <= a < qq E) (st_secrets s) /\ 1 <= st_seq s <= len (kc_joined (w_doc w)).
  Lemma seats_exist w : world_ok E w -> joins_ok E k w -> (forall u, In u (kc_joined (w_doc w)) -> exists key, In key (kc_keys (w_doc w)) /\ pk_owner key = u) ->
    exists ss, map st_id ss = kc_joined (w_doc w) /\ forall s, In s ss -> seat_in w (st_id s) s.
  Proof.
    intros W J Hk. destruct (choice (seat_in w) (kc_joined (w_doc w))) as [ss Hss].
    - intros u Hu. destruct (Hk u Hu) as (key & Hin & <-). destruct (j_keys _ _ _ J key Hin) as (r & R1 & R2).
      destruct (j_files _ _ _ J _ _ R1) as (s & S1 & -> & S3 & S4). cbn in R2. exists s. split; [assumption|].
      assert (Hkey : pk_of E s = key) by exact R2. rewrite Hkey. split; [assumption|]. split; [rewrite R1; unfold file_of; rewrite <- S1; reflexivity|]. do 2 (split; [assumption|]).
      pose proof (do_keys _ _ (wo_doc _ _ W) _ Hin) as Hnum. unfold get_guardian_number in Hnum. apply number_from_spec in Hnum as (l1 & l2 & Hl & _ & Hseq).
      assert (Hse : st_seq s = pk_seq key) by (rewrite <- Hkey; reflexivity). rewrite Hse, Hseq, Hl, len_app, len_cons.
      pose proof (len_nonneg l1). pose proof (len_nonneg l2). lia.
    - exists ss. split.
      + clear -Hss. induction Hss as [|u s l ss H _ IH]; [reflexivity|]. cbn. destruct H as [-> _]. congruence.
      + intros s Hs. destruct (Forall2_in_r _ _ _ _ Hss Hs) as (u & _ & H). destruct H as [<- H]. split; [reflexivity|exact H].
  Qed.
End Seats.

Section Start.
  Context (E : env) (HE : valid_env E) (Hmac : hmac_32 E) (Hq : qq E <= 2 ^ 1024).
  Context (k : nat) (n : Z) (Hk : (0 < k)%nat) (Hn0 : 0 < n) (Hnq : n < qq E) (Hpow : forall j, 0 <= j < Z.of_nat k -> n ^ j < pp E).
  Context (ps : list program) (Hps : one_each ps).
  Notation start := (gui_start n (Z.of_nat k)).

  Lemma settled_start h : Forall (good_event E) h -> Forall (of_programs ps) h -> ready ps (gui_run E start h) ->
    exists ss, NoDup (map st_id ss) /\ (forall s, In s ss -> seat_ok E k s) /\ len ss = n
      /\ map st_id ss = kc_joined (w_doc (gui_run E start h)) /\ settled E k ss ps (gui_run E start h).
  Proof.
    intros Hg Ho [R1 R2 R3 R4 R5 _ _]. set (w := gui_run E start h) in *.
    pose proof (run_le E h start) as Hle. fold w in Hle. assert (Hcnt : kc_count (w_doc w) = n) by (rewrite <- (le_count _ _ Hle); reflexivity).
    assert (W : world_ok E w) by (apply run_ok, start_ok).
    destruct (joins_run E k h start (start_ok E _ _) (start_joins E k n) Hg R2) as [J _]. fold w in J.
    destruct (seats_exist E k w W J R4) as (ss & Hids & Hss). exists ss.
    assert (Hnd : NoDup (map st_id ss)) by (rewrite Hids; assumption).
    assert (Hlen : len ss = n) by (rewrite <- (len_map st_id), Hids; congruence).
    assert (Hok : forall s, In s ss -> seat_ok E k s).
    { intros s Hs. destruct (Hss s Hs) as (_ & _ & _ & S4 & S5 & S6). rewrite R1, Hcnt in S6. split; [assumption|]. split.
      - intros Hemp. apply R3. rewrite <- Hids, <- Hemp. apply in_map. assumption.
      - split; [assumption|]. split; [assumption|]. split; [lia|]. intros j Hj. pose proof (Hpow j Hj). assert (st_seq s ^ j <= n ^ j) by (apply Z.pow_le_mono_l; lia). lia. }
    do 2 (split; [assumption|]). split; [assumption|]. split; [assumption|].
    assert (Hpre : forall h1 h2, h = h1 ++ h2 -> stat E ss (w_doc (gui_run E start h1)) /\ files_live E ss (gui_run E start h1)).
    { intros h1 h2 Hh. assert (Hw : gui_run E (gui_run E start h1) h2 = w) by (unfold w; rewrite Hh, run_app; reflexivity).
      pose proof (run_le E h2 (gui_run E start h1)) as Hle2. rewrite Hw in Hle2.
      pose proof (run_le E h1 start) as Hle1. set (w1 := gui_run E start h1) in *.
      assert (Hkeys : forall key, In key (kc_keys (w_doc w1)) -> exists s, In s ss /\ key = pk_of E s).
      { intros key Hin. pose proof (prefix_in _ _ _ (le_keys _ _ Hle2) Hin) as Hin2. pose proof (key_joined E _ _ (wo_doc _ _ W) Hin2) as Hj. rewrite <- Hids in Hj.
        apply in_map_iff in Hj as [s [Hs1 Hs2]]. exists s. split; [assumption|]. destruct (Hss s Hs2) as (_ & S2 & _).
        destruct (j_keys _ _ _ J _ Hin2) as (r & A1 & A2). destruct (j_keys _ _ _ J _ S2) as (r' & B1 & B2). rewrite <- A2, <- B2.
        assert (He : pk_owner (pk_of E s) = pk_owner key) by exact Hs1. rewrite He, A1 in B1. injection B1 as ->. reflexivity. }
      split; [constructor|].
      - rewrite <- (le_count _ _ Hle1). cbn. symmetry. exact Hlen.
      - rewrite Hids. apply (le_joined _ _ Hle2).
      - exact Hkeys.
      - intros s Hs Hin. rewrite Hh in Hg. apply Forall_app in Hg as [Hg1 Hg2].
        assert (Hnd1 : NoDup (kc_joined (w_doc w1))) by (eapply nodup_prefix; [apply (le_joined _ _ Hle2)|exact R2]).
        destruct (joins_run E k h1 start (start_ok E _ _) (start_joins E k n) Hg1 Hnd1) as [J1 _]. fold w1 in J1.
        destruct (joins_run E k h2 w1 (run_ok E h1 _ (start_ok E _ _)) J1 Hg2) as [_ Hf]; [rewrite Hw; exact R2|]. rewrite Hw in Hf.
        destruct (Hss s Hs) as (_ & _ & S3 & _). rewrite <- S3. symmetry. apply Hf. apply in_map_iff. exists (pk_of E s). split; [reflexivity|assumption]. }
    assert (L : live E ss ps w).
    { assert (G : forall h1 h2, h = h1 ++ h2 -> live E ss ps (gui_run E start h1)).
      { intros h1. induction h1 as [|e h1 IH] using rev_ind; intros h2 Heq.
        - destruct (Hpre [] h Logic.eq_refl) as [St F]. constructor; [|exact F|intros; discriminate].
          constructor; [exact St|..]; cbn; try (intros; contradiction); [exists []|exists []]; (split; [constructor|split; [intros ? []|reflexivity]]).
        - rewrite <- app_assoc in Heq. cbn in Heq. specialize (IH (e :: h2) Heq). destruct (Hpre (h1 ++ [e]) h2) as [St F]; [rewrite <- app_assoc; exact Heq|].
          rewrite run_app in St, F |- *. cbn [gui_run fold_left] in St, F |- *. rewrite Heq in Hg, Ho. apply Forall_app in Hg as [_ Hg]. apply Forall_app in Ho as [_ Ho].
          inversion Hg as [|? ? G1 _]. inversion Ho as [|? ? O1 _]. eapply live_step; eauto. lia. }
      apply (G h []). rewrite app_nil_r. reflexivity. }
    constructor; auto. split; [symmetry; exact Hids|]. intros s Hs. apply (Hss s Hs).
  Qed.

  Lemma completes h rs : Forall (good_event E) (h ++ concat rs) -> Forall (of_programs ps) (h ++ concat rs) ->
    ready ps (gui_run E start h) -> kc_joined (w_doc (gui_run E start (h ++ concat rs))) = kc_joined (w_doc (gui_run E start h)) ->
    Forall (round ps) rs -> 5 <= len rs -> get_key_ceremony_state (w_doc (gui_run E start (h ++ concat rs))) = CeremonyComplete.
  Proof.
    intros Hg Ho R Hj Hr Hlen. apply Forall_app in Hg as [Hg1 Hg2]. apply Forall_app in Ho as [Ho1 Ho2]. rewrite run_app in *.
    destruct (settled_start h Hg1 Ho1 R) as (ss & Hnd & Hok & Hl & Hids & S).
    assert (Hpos : 0 < len ss) by lia. destruct (settled_count E k ss ps _ S) as (_ & _ & Hp).
    eapply (rounds_complete E HE Hmac Hq k ss Hok Hnd ps Hps Hpos rs); eauto.
    - rewrite Forall_concat in Hg2. exact Hg2.
    - rewrite Forall_concat in Ho2. exact Ho2.
    - intros s Hs. apply (rd_guardians _ _ R). rewrite <- Hids. apply in_map. assumption.
    - apply (rd_admin _ _ R).
    - lia.
  Qed.
End Start.
