(** * GuiRounds: every round of the programs moves the ceremony on. *)
From Verif Require Import Base Group Spec GroupFacts Codec Hash DLog ElGamal ZK Poly ListFacts Manifest Ballot Encrypt SpecElection
  Ceremony SpecCeremony MediatorFacts CeremonyFacts GuiCeremony SpecGui GuiFacts GuiJoin GuiLive.
Import List.

Lemma state_facts d : match get_key_ceremony_state d with
  | PendingGuardiansJoin => len (kc_joined d) < kc_count d
  | PendingAdminAnnounce => kc_count d <= len (kc_joined d) /\ kc_other d = []
  | PendingGuardianBackups => kc_count d <= len (kc_joined d) /\ kc_other d <> [] /\ len (kc_backups d) < kc_count d ^ 2
  | PendingAdminToShareBackups => kc_count d <= len (kc_joined d) /\ kc_other d <> [] /\ kc_count d ^ 2 <= len (kc_backups d) /\ kc_shared d = []
  | PendingGuardiansVerifyBackups => kc_count d <= len (kc_joined d) /\ kc_other d <> [] /\ kc_count d ^ 2 <= len (kc_backups d) /\ kc_shared d <> []
      /\ len (kc_verifs d) < kc_count d ^ 2 - kc_count d
  | PendingAdminToPublishJointKey => kc_count d <= len (kc_joined d) /\ kc_other d <> [] /\ kc_count d ^ 2 <= len (kc_backups d) /\ kc_shared d <> []
      /\ kc_count d ^ 2 - kc_count d <= len (kc_verifs d) /\ kc_joint d = None
  | CeremonyComplete => kc_joint d <> None
  end.
Proof.
  assert (Z0 : forall A (l : list A), len l = 0 <-> l = []) by (intros A [|x l]; split; [reflexivity|reflexivity|rewrite len_cons; pose proof (len_nonneg l); lia|discriminate]).
  unfold get_key_ceremony_state. destruct (Z.ltb_spec (len (kc_joined d)) (kc_count d)); [assumption|].
  destruct (Z.eqb_spec (len (kc_other d)) 0) as [Ho|Ho]; rewrite Z0 in Ho; [auto|].
  destruct (Z.ltb_spec (len (kc_backups d)) (kc_count d ^ 2)); [auto|].
  destruct (Z.eqb_spec (len (kc_shared d)) 0) as [Hs|Hs]; rewrite Z0 in Hs; [auto|].
  destruct (Z.ltb_spec (len (kc_verifs d)) (kc_count d ^ 2 - kc_count d)); [auto|].
  destruct (kc_joint d); [discriminate|auto 10].
Qed.
Lemma state_eqb a b : kc_state_eqb a b = true <-> a = b.
Proof. destruct a, b; cbn; split; congruence. Qed.
Lemma choose_facts user admin d st : choose_stage user admin d = Ok (Some st) ->
  match st with
  | S2Announce => admin = true /\ get_key_ceremony_state d = PendingAdminAnnounce
  | S3MakeBackup => admin = false /\ get_key_ceremony_state d = PendingGuardianBackups /\ exists u, user = Some u /\ backup_count_for d u <= 0
  | S4ShareBackup => admin = true /\ get_key_ceremony_state d = PendingAdminToShareBackups
  | S5VerifyBackup => admin = false /\ get_key_ceremony_state d = PendingGuardiansVerifyBackups /\ exists u, user = Some u /\ verification_count_for d u <= 0
  | S6PublishKey => admin = true /\ get_key_ceremony_state d = PendingAdminToPublishJointKey
  end.
Proof.
  unfold choose_stage. destruct (get_key_ceremony_state d); destruct admin; cbn; destruct user as [u|]; cbn; try discriminate; try (intros [= <-]; auto);
    match goal with |- context [0 <? ?x] => destruct (Z.ltb_spec 0 x) end; cbn; try discriminate; intros [= <-]; eauto 10.
Qed.
Lemma backups_count_zero d u : backup_count_for d u <= 0 <-> forall b, In b (kc_backups d) -> bk_owner b <> u.
Proof.
  unfold backup_count_for. split.
  - intros H b Hb He. assert (Hin : In b (filter (fun b => eqb (bk_owner b) u) (kc_backups d))) by (apply filter_In; split; [assumption|apply eqb_spec; assumption]).
    destruct (filter _ _) as [|x l]; [destruct Hin|]. rewrite len_cons in H. pose proof (len_nonneg l). lia.
  - intros H. destruct (filter _ _) as [|x l] eqn:Hf; [cbn; lia|]. assert (Hin : In x (filter (fun b => eqb (bk_owner b) u) (kc_backups d))) by (rewrite Hf; left; reflexivity).
    apply filter_In in Hin as [Hin He]. apply eqb_spec in He. exfalso. apply (H x); assumption.
Qed.
Lemma verifs_count_zero d u : verification_count_for d u <= 0 <-> forall v, In v (kc_verifs d) -> vf_designated v <> u.
Proof.
  unfold verification_count_for. split.
  - intros H b Hb He. assert (Hin : In b (filter (fun v => eqb (vf_designated v) u) (kc_verifs d))) by (apply filter_In; split; [assumption|apply eqb_spec; assumption]).
    destruct (filter _ _) as [|x l]; [destruct Hin|]. rewrite len_cons in H. pose proof (len_nonneg l). lia.
  - intros H. destruct (filter _ _) as [|x l] eqn:Hf; [cbn; lia|]. assert (Hin : In x (filter (fun v => eqb (vf_designated v) u) (kc_verifs d))) by (rewrite Hf; left; reflexivity).
    apply filter_In in Hin as [Hin He]. apply eqb_spec in He. exfalso. apply (H x); assumption.
Qed.

Section Rounds.
  Context (E : env) (HE : valid_env E) (Hmac : hmac_32 E) (Hq : qq E <= 2 ^ 1024).
  Context (k : nat) (ss : list seat) (Hok : forall s, In s ss -> seat_ok E k s) (Hnd : NoDup (map st_id ss)).
  Context (ps : list program) (Hps : one_each ps) (Hn : 0 < len ss).
  Let n := len ss.

  Definition user_of (cl : client) : string := match cl_user cl with Some u => u | None => EmptyString end.
  Definition client_live (d : kc) (c : string) (cl : client) : Prop :=
    In (c, (cl_user cl, cl_admin cl)) ps /\
    match cl_phase cl with
    | Running st snap => kc_le snap d /\ live_doc E ss snap /\ choose_stage (cl_user cl) (cl_admin cl) snap = Ok (Some st)
        /\ (st = S3MakeBackup -> backup_count_for d (user_of cl) <= 0) /\ (st = S5VerifyBackup -> verification_count_for d (user_of cl) <= 0)
    | _ => True
    end.
  Definition files_live (w : world) : Prop := forall s, In s ss -> In (pk_of E s) (kc_keys (w_doc w)) -> dget (st_id s) (w_files w) = Some (file_of E s).
  Record live (w : world) : Prop := {
    lw_doc : live_doc E ss (w_doc w);
    lw_files : files_live w;
    lw_clients : forall c cl, dget c (w_clients w) = Some cl -> client_live (w_doc w) c cl }.

  Lemma full_mono d d' : kc_le d d' -> stat E ss d' -> full E ss d -> full E ss d'.
  Proof.
    intros Hle Hst [Hj Hk]. split.
    - apply (prefix_full E ss); [assumption|]. pose proof (prefix_len _ _ (le_joined _ _ Hle)) as Hl. rewrite Hj, len_map in Hl. exact Hl.
    - intros s Hs. eapply prefix_in; [apply (le_keys _ _ Hle)|auto].
  Qed.
  (** the document when some of its lists grow *)
  Lemma live_grow d d' : live_doc E ss d -> kc_le d d' -> stat E ss d' ->
    (kc_other d' = kc_other d \/ exists l, kc_other d' = kc_other d ++ l /\ full E ss d' /\ l = table E ss) ->
    (kc_backups d' = kc_backups d \/ exists s rnd, kc_backups d' = kc_backups d ++ block E ss (s, rnd) /\ In s ss /\ (forall x y, 0 <= rnd x y)
       /\ backup_count_for d (st_id s) <= 0) ->
    (kc_shared d' = kc_shared d \/ exists l, kc_shared d' = kc_shared d ++ l /\
       Forall2 (fun s e => fst e = st_id s /\ Forall2 (fun j b => good_backup E j s b) (others ss s) (snd e)) ss l) ->
    (kc_verifs d' = kc_verifs d \/ exists s, kc_verifs d' = kc_verifs d ++ vblock ss s /\ In s ss /\ 1 < n /\ verification_count_for d (st_id s) <= 0) ->
    live_doc E ss d'.
  Proof.
    intros [St O OA B S SA V] Hle Hst HO HB HS HV. constructor.
    - assumption.
    - destruct HO as [->|(l & -> & _ & ->)]; [assumption|]. intros u ks Hin. apply in_app_iff in Hin as [Hin|Hin]; [auto|].
      unfold table in Hin. apply in_map_iff in Hin as [s [[= <- <-] Hs]]. exists s. auto.
    - destruct HO as [->|(l & -> & Hf & ->)].
      + intros Hne. destruct (OA Hne) as [Hf Ha]. split; [eapply full_mono; eassumption|assumption].
      + intros _. split; [assumption|]. intros s Hs. eexists. apply in_app_iff. right. unfold table. apply in_map_iff. exists s. split; [reflexivity|assumption].
    - destruct B as (posted & P1 & P2 & P3). destruct HB as [->|(s & rnd & -> & Hs & Hr & Hc)]; [exists posted; auto|].
      exists (posted ++ [(s, rnd)]). split; [|split].
      + rewrite map_app. apply nodup_snoc; [assumption|]. cbn. intros Hin. apply in_map_iff in Hin as [[s' rnd'] [He Hp]]. cbn in He.
        apply (proj1 (backups_count_zero _ _) Hc (bk E rnd' s' s')); [|exact He]. rewrite P3. apply in_flat_map. exists (s', rnd'). split; [assumption|left; reflexivity].
      + intros p Hp. apply in_app_iff in Hp as [Hp|[<-|[]]]; auto.
      + rewrite P3, flat_map_app. cbn [flat_map]. rewrite app_nil_r. reflexivity.
    - destruct HS as [->|(l & -> & HF)]; [assumption|]. intros u bs Hin. apply in_app_iff in Hin as [Hin|Hin]; [auto|].
      assert (Hex : exists s, In s ss /\ fst (u, bs) = st_id s /\ Forall2 (fun j b => good_backup E j s b) (others ss s) (snd (u, bs))).
      { apply (Forall2_in_r _ _ _ _ HF) in Hin as [s [Hs [H1 H2]]]. exists s. auto. }
      destruct Hex as (s & Hs & H1 & H2). exists s. split; [assumption|]. split; [cbn in H1; auto|exact H2].
    - destruct HS as [->|(l & -> & HF)]; [assumption|]. intros _ s Hs. apply (Forall2_in_l _ _ _ _ HF) in Hs as [[u bs] [Hin [He _]]].
      cbn in He. subst u. exists bs. apply in_app_iff. auto.
    - destruct V as (posted & P1 & P2 & P3). destruct HV as [->|(s & -> & Hs & H1 & Hc)]; [exists posted; auto|].
      exists (posted ++ [s]). split; [|split].
      + rewrite map_app. apply nodup_snoc; [assumption|]. cbn. intros Hin. apply in_map_iff in Hin as [s' [He Hp]].
        assert (Hl : len (others ss s') = n - 1) by (apply others_len; auto). destruct (others ss s') as [|j l] eqn:Ho; [cbn in Hl; lia|].
        apply (proj1 (verifs_count_zero _ _) Hc (good_verif j s')); [|exact He]. rewrite P3. apply in_flat_map. exists s'. split; [assumption|].
        unfold vblock. rewrite Ho. left. reflexivity.
      + intros p Hp. apply in_app_iff in Hp as [Hp|[<-|[]]]; auto.
      + rewrite P3, flat_map_app. cbn [flat_map]. rewrite app_nil_r. reflexivity.
  Qed.

  Lemma in_blocks_owner d b : live_doc E ss d -> In b (kc_backups d) -> exists s, In s ss /\ bk_owner b = st_id s.
  Proof.
    intros Hd Hb. destruct (ld_backups _ _ _ Hd) as (posted & _ & P2 & P3). rewrite P3 in Hb. apply in_flat_map in Hb as [p [Hp Hb]].
    unfold block in Hb. apply in_map_iff in Hb as [r [<- _]]. exists (fst p). split; [apply (P2 _ Hp)|reflexivity].
  Qed.

  (** the clients after a step of client [c] that ends in phase [p] *)
  Lemma live_set w c cl p d f : live w -> dget c (w_clients w) = Some cl -> live_doc E ss d -> kc_le (w_doc w) d -> files_live (mkWorld d f []) ->
    client_live d c (mkClient (cl_user cl) (cl_admin cl) p) ->
    (forall c' cl' snap, c' <> c -> dget c' (w_clients w) = Some cl' -> cl_phase cl' = Running S3MakeBackup snap -> cl_admin cl' = false -> cl_user cl' <> None ->
       backup_count_for (w_doc w) (user_of cl') <= 0 -> backup_count_for d (user_of cl') <= 0) ->
    (forall c' cl' snap, c' <> c -> dget c' (w_clients w) = Some cl' -> cl_phase cl' = Running S5VerifyBackup snap -> cl_admin cl' = false -> cl_user cl' <> None ->
       verification_count_for (w_doc w) (user_of cl') <= 0 -> verification_count_for d (user_of cl') <= 0) ->
    live (mkWorld d f (set_phase w c cl p)).
  Proof.
    intros [Ld Lf Lc] Hc Hd Hle Hf Hcl HB HV. constructor; cbn [w_doc w_files w_clients]; [assumption|exact Hf|].
    intros c' cl' H'. apply set_phase_get in H' as [[-> ->]|[Hne H']]; [assumption|].
    pose proof (Lc _ _ H') as [C1 C2]. split; [assumption|]. destruct (cl_phase cl') as [| | | |st snap|] eqn:Hp; auto.
    destruct C2 as (D1 & D2 & D3 & D4 & D5). split; [eapply kc_le_trans; eassumption|]. split; [assumption|]. split; [assumption|].
    pose proof (choose_facts _ _ _ _ D3) as Hch. split; intros ->.
    - destruct Hch as (Ha & _ & u & Hu & _). eapply HB; eauto. congruence.
    - destruct Hch as (Ha & _ & u & Hu & _). eapply HV; eauto. congruence.
  Qed.
  Lemma user_seat files rnd u snap l : live_doc E ss snap -> kc_other snap <> [] -> s3_backups E files rnd u snap = Ok l -> exists s, In s ss /\ st_id s = u.
  Proof.
    intros Hd Hne. unfold s3_backups. destruct (load_guardian files u snap); cbn [rbind]; [|discriminate]. unfold load_other_keys.
    destruct (find_entry (kc_other snap) u) as [ks|] eqn:Hfe; cbn [rbind]; [|discriminate]. intros _. apply find_entry_in in Hfe.
    destruct (ld_other _ _ _ Hd _ _ Hfe) as (s & Hs & Hu & _). exists s. auto.
  Qed.
  Lemma live_client w c cl e : live w -> dget c (w_clients w) = Some cl -> good_event E e -> stat E ss (w_doc (client_step E w c cl e)) ->
    files_live (client_step E w c cl e) -> live (client_step E w c cl e).
  Proof.
    intros L Hc He. pose proof L as [Ld Lf Lc]. pose proof (Lc _ _ Hc) as [C1 C2]. pose proof (client_step_le E w c cl e) as Hle.
    pose proof (ld_stat _ _ _ Ld) as St0.
    destruct cl as [user admin ph]. destruct e, ph; cbn [client_step cl_phase cl_user cl_admin] in *; intros Hst Hf; try exact L.
    - destruct user as [u|]; [|exact L]. apply live_set; auto; [|split; [exact C1|exact I]]. apply (live_grow _ _ Ld Hle Hst); auto.
    - destruct user as [u|]; [|exact L]. destruct (get_guardian_number _ _); (apply live_set; [exact L|exact Hc|exact Ld|exact Hle|exact Hf|split; [exact C1|exact I]|auto|auto]).
    - destruct user as [u|]; [|exact L]. destruct (make_guardian _ _ _ _ _); (apply live_set; [exact L|exact Hc|exact Ld|exact Hle|exact Hf|split; [exact C1|exact I]|auto|auto]).
    - apply live_set; auto; [|split; [exact C1|exact I]]. apply (live_grow _ _ Ld Hle Hst); auto.
    - destruct (choose_stage _ _ _) as [[s|]|] eqn:Hs; try exact L. apply live_set; [exact L|exact Hc|exact Ld|exact Hle|exact Hf| |auto|auto].
      split; [exact C1|]. cbn. split; [apply kc_le_refl|]. split; [assumption|]. split; [assumption|]. pose proof (choose_facts _ _ _ _ Hs) as Hch.
      split; intros ->; destruct Hch as (_ & _ & u & -> & Hu); exact Hu.
    - destruct C2 as (D1 & D2 & D3 & D4 & D5). pose proof (choose_facts _ _ _ _ D3) as Hch. unfold user_of in *. cbn [cl_user] in *.
      pose proof (ld_stat _ _ _ D2) as St2. pose proof (state_facts snap) as Hsf. destruct s; cbn [run_stage] in *.
      + destruct Hch as [-> Hst2]. rewrite Hst2, (st_count _ _ _ St2) in Hsf. destruct Hsf as [Hl _].
        destruct (s2_announce snap) as [l|] eqn:Hs2; cbn [rbind] in *; (apply live_set; [exact L|exact Hc| |exact Hle|exact Hf|split; [exact C1|exact I]|auto|auto]); [|exact Ld].
        apply (live_grow _ _ Ld Hle Hst); auto. right. exists l. split; [reflexivity|].
        assert (Hfull : full E ss snap).
        { unfold s2_announce in Hs2. destruct (announce_guardians snap) as [m|] eqn:Ha; [|discriminate]. eapply announce_needs; eassumption. }
        rewrite (s2_full E ss Hnd snap St2 Hfull) in Hs2. injection Hs2 as <-. split; [|reflexivity].
        eapply full_mono; [|exact Hst|exact Hfull]. eapply kc_le_trans; eassumption.
      + destruct Hch as (-> & Hst2 & u & -> & _). rewrite Hst2 in Hsf. destruct Hsf as (_ & Hne & _). specialize (D4 eq_refl).
        destruct (s3_backups _ _ _ _ _) as [l|] eqn:Hs3; cbn [rbind] in *; (apply live_set; [exact L|exact Hc| |exact Hle|exact Hf|split; [exact C1|exact I]| |auto]);
          [|  |exact Ld|auto].
        * destruct (user_seat _ _ _ _ _ D2 Hne Hs3) as (s & Hs & <-). destruct (ld_other_all _ _ _ D2 Hne) as [Hfull _].
          assert (Hfile : dget (st_id s) (w_files w) = Some (file_of E s)) by (apply Lf; [assumption|]; eapply prefix_in; [apply (le_keys _ _ D1)|apply Hfull; assumption]).
          rewrite (s3_full E HE Hmac Hq k ss Hok Hnd snap (w_files w) rnd s D2 Hne Hs Hfile He) in Hs3. injection Hs3 as <-.
          apply (live_grow _ _ Ld Hle Hst); auto. right. exists s, (fun _ => rnd). split; [reflexivity|]. auto.
        * intros c' cl' snap' Hcne Hc' _ Ha' Hu' Hcnt. destruct (cl_user cl') as [u'|] eqn:Hue; [|congruence].
          assert (Huu : u' <> u).
          { intros ->. apply Hcne. destruct (Lc _ _ Hc') as [Hin' _]. rewrite Hue, Ha' in Hin'. eapply (proj2 Hps); eassumption. }
          unfold user_of in *. rewrite Hue in *. rewrite backups_count_zero in *. cbn [append_backups kc_backups]. intros b Hb. apply in_app_iff in Hb as [Hb|Hb]; [auto|].
          destruct (user_seat _ _ _ _ _ D2 Hne Hs3) as (s & Hs & Hsu). subst u. destruct (ld_other_all _ _ _ D2 Hne) as [Hfull _].
          assert (Hfile : dget (st_id s) (w_files w) = Some (file_of E s)) by (apply Lf; [assumption|]; eapply prefix_in; [apply (le_keys _ _ D1)|apply Hfull; assumption]).
          rewrite (s3_full E HE Hmac Hq k ss Hok Hnd snap (w_files w) rnd s D2 Hne Hs Hfile He) in Hs3. injection Hs3 as <-.
          unfold block in Hb. apply in_map_iff in Hb as [r [<- _]]. cbn. auto.
      + destruct Hch as [-> Hst2]. rewrite Hst2, (st_count _ _ _ St2) in Hsf. destruct Hsf as (_ & Hne & Hlb & _). destruct (ld_other_all _ _ _ D2 Hne) as [Hfull _].
        destruct (s4_full E k ss Hok Hnd snap D2 Hfull Hn Hlb) as (l & Hs4 & HF). rewrite Hs4 in *. cbn [rbind] in *.
        apply live_set; [exact L|exact Hc| |exact Hle|exact Hf|split; [exact C1|exact I]|auto|auto].
        apply (live_grow _ _ Ld Hle Hst); auto. right. exists l. auto.
      + destruct Hch as (-> & Hst2 & u & -> & _). rewrite Hst2, (st_count _ _ _ St2) in Hsf. destruct Hsf as (_ & Hne & _ & Hsh & Hlv). specialize (D5 eq_refl).
        destruct (s5_verify _ _ _ _) as [l|] eqn:Hs5; cbn [rbind] in *; (apply live_set; [exact L|exact Hc| |exact Hle|exact Hf|split; [exact C1|exact I]|auto|]);
          [|  |exact Ld|auto].
        * assert (Hus : exists s, In s ss /\ st_id s = u).
          { unfold s5_verify in Hs5. destruct (find_entry (kc_shared snap) u) as [bs|] eqn:Hfe; [|discriminate]. apply find_entry_in in Hfe.
            destruct (ld_shared _ _ _ D2 _ _ Hfe) as (s & Hs & Hu & _). exists s. auto. }
          destruct Hus as (s & Hs & <-). destruct (ld_other_all _ _ _ D2 Hne) as [Hfull _].
          assert (Hfile : dget (st_id s) (w_files w) = Some (file_of E s)) by (apply Lf; [assumption|]; eapply prefix_in; [apply (le_keys _ _ D1)|apply Hfull; assumption]).
          rewrite (s5_full E HE Hmac Hq k ss Hok Hnd snap (w_files w) s D2 Hne Hsh Hs Hfile) in Hs5. injection Hs5 as <-.
          apply (live_grow _ _ Ld Hle Hst); auto. right. exists s. split; [reflexivity|]. split; [assumption|]. split; [|assumption].
          pose proof (len_nonneg (kc_verifs snap)). unfold n in *. nia.
        * intros c' cl' snap' Hcne Hc' _ Ha' Hu' Hcnt. destruct (cl_user cl') as [u'|] eqn:Hue; [|congruence].
          assert (Huu : u' <> u).
          { intros ->. apply Hcne. destruct (Lc _ _ Hc') as [Hin' _]. rewrite Hue, Ha' in Hin'. eapply (proj2 Hps); eassumption. }
          unfold user_of in *. rewrite Hue in *. rewrite verifs_count_zero in *. cbn [append_verifications kc_verifs]. intros v Hv. apply in_app_iff in Hv as [Hv|Hv]; [auto|].
          assert (Hus : exists s, In s ss /\ st_id s = u).
          { unfold s5_verify in Hs5. destruct (find_entry (kc_shared snap) u) as [bs|] eqn:Hfe; [|discriminate]. apply find_entry_in in Hfe.
            destruct (ld_shared _ _ _ D2 _ _ Hfe) as (s & Hs & Hu & _). exists s. auto. }
          destruct Hus as (s & Hs & Hsu). subst u. destruct (ld_other_all _ _ _ D2 Hne) as [Hfull _].
          assert (Hfile : dget (st_id s) (w_files w) = Some (file_of E s)) by (apply Lf; [assumption|]; eapply prefix_in; [apply (le_keys _ _ D1)|apply Hfull; assumption]).
          rewrite (s5_full E HE Hmac Hq k ss Hok Hnd snap (w_files w) s D2 Hne Hsh Hs Hfile) in Hs5. injection Hs5 as <-.
          unfold vblock in Hv. apply in_map_iff in Hv as [j [<- _]]. cbn. auto.
      + destruct (s6_publish E snap) as [j|] eqn:Hs6; cbn [rbind] in *; (apply live_set; [exact L|exact Hc| |exact Hle|exact Hf|split; [exact C1|exact I]|auto|auto]); [|exact Ld].
        apply (live_grow _ _ Ld Hle Hst); auto.
    - apply live_set; auto; [|split; [exact C1|exact I]]. apply (live_grow _ _ Ld Hle Hst); auto.
  Qed.
  Lemma live_step w e : live w -> good_event E e -> of_programs ps e -> stat E ss (w_doc (gui_step E w e)) -> files_live (gui_step E w e) -> live (gui_step E w e).
  Proof.
    intros L He Hp. destruct (step_cases E w e) as [->|[(c & u & a & -> & ->)|(cl & Hd & ->)]]; intros Hst Hf; [exact L| |apply live_client; assumption].
    destruct L as [Ld Lf Lc]. constructor; cbn [w_doc w_files w_clients]; [assumption|exact Hf|]. intros c' cl' H'. rewrite dget_dset in H'. revert H'.
    eqb_cases c' c; [intros [= <-]; subst; split; [exact Hp|exact I]|apply Lc].
  Qed.

  (** ** what stays true of a world once all guardians have joined *)
  Record settled (w : world) : Prop := {
    se_live : live w; se_full : full E ss (w_doc w); se_joins : joins_ok E k w; se_ok : world_ok E w;
    se_open : forall c, In c (map fst ps) -> exists cl, dget c (w_clients w) = Some cl }.
  Lemma settled_idle w c cl : settled w -> dget c (w_clients w) = Some cl -> joining (cl_phase cl) = false.
  Proof.
    intros S Hc. destruct (joining (cl_phase cl)) eqn:Hj; [|reflexivity]. exfalso.
    destruct (j_busy _ _ _ (se_joins _ S) _ _ Hc Hj) as (u & _ & U1 & U2 & _). destruct (se_full _ S) as [Fj Fk]. rewrite Fj in U1.
    apply in_map_iff in U1 as [s [<- Hs]]. apply U2. apply in_map_iff. exists (pk_of E s). split; [reflexivity|auto].
  Qed.
  Lemma open_step w e c cl : dget c (w_clients w) = Some cl -> exists cl', dget c (w_clients (gui_step E w e)) = Some cl'.
  Proof.
    intros Hc. assert (G : forall c0 x (d : dict string client), exists cl', dget c (dset c0 x d) = Some cl' \/ (dget c (dset c0 x d) = dget c d)).
    { intros c0 x d. rewrite dget_dset. eqb_cases c c0; [exists x; auto|exists x; auto]. }
    assert (G' : forall c0 x, exists cl', dget c (dset c0 x (w_clients w)) = Some cl').
    { intros c0 x. destruct (G c0 x (w_clients w)) as [cl' [H|H]]; [eauto|]. rewrite H. eauto. }
    destruct (step_cases E w e) as [->|[(c' & u' & a & -> & ->)|(cl' & Hd & ->)]]; [eauto|apply G'|].
    destruct cl' as [user admin ph]. destruct e, ph; cbn [client_step cl_phase cl_user cl_admin]; eauto;
      repeat match goal with |- context [match ?x with _ => _ end] => destruct x end; cbn [w_clients]; unfold set_phase; eauto.
  Qed.
  Lemma step_settled w e : settled w -> good_event E e -> of_programs ps e -> kc_joined (w_doc (gui_step E w e)) = kc_joined (w_doc w) -> settled (gui_step E w e).
  Proof.
    intros S He Hp Hj. pose proof S as [L F J W O].
    assert (J' : joins_ok E k (gui_step E w e)).
    { apply joins_step; auto. rewrite Hj. destruct F as [-> _]. exact Hnd. }
    assert (Hkeys : kc_keys (w_doc (gui_step E w e)) = kc_keys (w_doc w)).
    { pose proof (step_le E w e) as Hle. pose proof (j_owners _ _ _ J') as Hnd'. symmetry. apply prefix_len_eq; [apply (le_keys _ _ Hle)|].
      pose proof (prefix_len _ _ (le_keys _ _ Hle)) as H1.
      assert (Hge : n <= len (kc_keys (w_doc w))).
      { destruct F as [_ Fk]. assert (Hincl : incl (map (pk_of E) ss) (kc_keys (w_doc w))) by (intros x Hx; apply in_map_iff in Hx as [s [<- Hs]]; auto).
        assert (Hn' : NoDup (map (pk_of E) ss)).
        { clear - Hnd. induction ss as [|a l IH]; [constructor|]. cbn in *. inversion Hnd as [|? ? Ha Hl]; subst. constructor; [|auto].
          intros Hin. apply Ha. apply in_map_iff in Hin as [x [Heq Hx]]. apply in_map_iff. exists x. split; [|assumption]. apply (f_equal pk_owner) in Heq. exact Heq. }
        pose proof (NoDup_incl_length Hn' Hincl) as Hl. rewrite map_length in Hl. unfold n, len. lia. }
      assert (Hle' : len (kc_keys (w_doc (gui_step E w e))) <= n).
      { rewrite <- (len_map pk_owner). apply (nodup_le ss); [assumption|]. intros x Hx. apply in_map_iff in Hx as [key [<- Hin]].
        destruct F as [Fj _]. rewrite <- Fj, <- Hj. apply (key_joined E); [|assumption]. apply (wo_doc _ _ (step_ok E w e W)). }
      lia. }
    pose proof (step_le E w e) as Hle.
    assert (Hst' : stat E ss (w_doc (gui_step E w e))).
    { destruct (ld_stat _ _ _ (lw_doc _ L)) as [S1 S2 S3]. constructor.
      - rewrite <- (le_count _ _ Hle). assumption.
      - rewrite Hj. assumption.
      - rewrite Hkeys. assumption. }
    constructor; auto.
    - apply live_step; auto. intros s Hs Hin. rewrite Hkeys in Hin. rewrite (file_kept E k w e (st_id s) W J); [apply (lw_files _ L); assumption|].
      apply in_map_iff. exists (pk_of E s). split; [reflexivity|assumption].
    - eapply full_mono; eassumption.
    - apply step_ok. assumption.
    - intros c Hc. destruct (O c Hc) as [cl Hcl]. eapply open_step; eassumption.
  Qed.
  Lemma run_settled h : forall w, settled w -> Forall (good_event E) h -> Forall (of_programs ps) h -> kc_joined (w_doc (gui_run E w h)) = kc_joined (w_doc w) ->
    settled (gui_run E w h) /\ forall h1 h2, h = h1 ++ h2 -> kc_joined (w_doc (gui_run E w h1)) = kc_joined (w_doc w).
  Proof.
    intros w S Hg Hp Hj.
    assert (Hpre : forall h1 h2, h = h1 ++ h2 -> kc_joined (w_doc (gui_run E w h1)) = kc_joined (w_doc w)).
    { intros h1 h2 ->. rewrite run_app in Hj. pose proof (prefix_len _ _ (le_joined _ _ (run_le E h1 w))) as H1.
      pose proof (prefix_len _ _ (le_joined _ _ (run_le E h2 (gui_run E w h1)))) as H2. rewrite Hj in H2. symmetry.
      apply prefix_len_eq; [apply (le_joined _ _ (run_le E h1 w))|lia]. }
    split; [|exact Hpre]. clear Hj. revert w S Hpre. induction h as [|e h IH]; intros w S Hpre; [exact S|]. inversion Hg; subst. inversion Hp; subst. cbn [gui_run fold_left].
    assert (Hj1 : kc_joined (w_doc (gui_step E w e)) = kc_joined (w_doc w)) by exact (Hpre [e] h eq_refl).
    apply IH; [assumption|assumption|apply step_settled; assumption|]. intros h1 h2 ->. rewrite Hj1. exact (Hpre (e :: h1) h2 eq_refl).
  Qed.

  (** ** one program awake *)
  Lemma progress_inj a b : progress a = progress b -> a = b.
  Proof. destruct a, b; cbn; intros; congruence || lia. Qed.
  Notation prog w := (progress (get_key_ceremony_state (w_doc w))).
  Lemma prog_mono w h : prog w <= prog (gui_run E w h).
  Proof. apply progress_mono, run_le. Qed.

  Lemma after_finish w c cl r1 : dget c (w_clients w) = Some cl -> joining (cl_phase cl) = false ->
    dget c (w_clients (gui_run E w [RunStage c r1; MarkComplete c])) = Some (mkClient (cl_user cl) (cl_admin cl) Idle).
  Proof.
    intros Hc Hj. destruct cl as [user admin ph]. cbn [cl_user cl_admin cl_phase] in *. cbn [gui_run fold_left]. cbn [gui_step event_client]. rewrite Hc.
    destruct ph; try discriminate; cbn [client_step cl_phase cl_user cl_admin].
    - cbn [gui_step event_client]. rewrite Hc. cbn [client_step cl_phase]. assumption.
    - destruct (run_stage _ _ _ _ _ _ _) as [[d p]|] eqn:Hr.
      + destruct s; cbn [run_stage] in Hr; match type of Hr with context [rbind ?x _] => destruct x end; cbn [rbind] in Hr; try discriminate; injection Hr as <- <-;
          cbn [gui_step event_client w_clients]; unfold set_phase; rewrite dget_dset_same; cbn [client_step cl_phase w_clients cl_user cl_admin]; unfold set_phase; cbn [w_clients cl_user cl_admin]; rewrite ?dget_dset_same; reflexivity.
      + cbn [gui_step event_client w_clients]; unfold set_phase; rewrite dget_dset_same; cbn [client_step cl_phase w_clients cl_user cl_admin]. rewrite dget_dset_same. reflexivity.
    - cbn [gui_step event_client]. rewrite Hc. cbn [client_step cl_phase w_clients cl_user cl_admin]. unfold set_phase. rewrite dget_dset_same. reflexivity.
  Qed.
  Lemma after_act w c user admin st r2 d' p : dget c (w_clients w) = Some (mkClient user admin Idle) -> choose_stage user admin (w_doc w) = Ok (Some st) ->
    run_stage E (w_files w) r2 (match user with Some u => u | None => EmptyString end) st (w_doc w) (w_doc w) = Ok (d', p) ->
    w_doc (gui_run E w [Changed c; RunStage c r2]) = d'.
  Proof.
    intros Hc Hs Hr. cbn [gui_run fold_left]. cbn [gui_step event_client]. rewrite Hc. cbn [client_step cl_phase cl_user cl_admin]. rewrite Hs.
    cbn [gui_step event_client w_clients]. unfold set_phase. rewrite dget_dset_same. cbn [client_step cl_phase cl_user cl_admin w_files w_doc]. rewrite Hr. reflexivity.
  Qed.
  (** the state is at least what the lists say *)
  Lemma state_at_least d : len (kc_joined d) >= kc_count d ->
    (kc_other d <> [] -> 2 <= progress (get_key_ceremony_state d)) /\
    (kc_other d <> [] -> kc_count d ^ 2 <= len (kc_backups d) -> 3 <= progress (get_key_ceremony_state d)) /\
    (kc_other d <> [] -> kc_count d ^ 2 <= len (kc_backups d) -> kc_shared d <> [] -> 4 <= progress (get_key_ceremony_state d)) /\
    (kc_other d <> [] -> kc_count d ^ 2 <= len (kc_backups d) -> kc_shared d <> [] -> kc_count d ^ 2 - kc_count d <= len (kc_verifs d) -> 5 <= progress (get_key_ceremony_state d)) /\
    (kc_other d <> [] -> kc_count d ^ 2 <= len (kc_backups d) -> kc_shared d <> [] -> kc_count d ^ 2 - kc_count d <= len (kc_verifs d) -> kc_joint d <> None -> 6 <= progress (get_key_ceremony_state d)).
  Proof.
    intros Hj. pose proof (state_facts d) as H. destruct (get_key_ceremony_state d); cbn in *;
      repeat match goal with |- _ /\ _ => split end; intros; try lia; try (exfalso; intuition (congruence || lia)).
  Qed.

  Lemma settled_count w : settled w -> kc_count (w_doc w) = n /\ len (kc_joined (w_doc w)) = n /\ 1 <= prog w.
  Proof.
    intros S. destruct (se_full _ S) as [Fj _]. pose proof (st_count _ _ _ (ld_stat _ _ _ (lw_doc _ (se_live _ S)))) as Hc. fold n in Hc.
    assert (Hl : len (kc_joined (w_doc w)) = n) by (rewrite Fj, len_map; reflexivity). split; [assumption|]. split; [assumption|].
    pose proof (state_facts (w_doc w)) as H. destruct (get_key_ceremony_state (w_doc w)); cbn; lia.
  Qed.
  Lemma act_admin w c u r2 : settled w -> dget c (w_clients w) = Some (mkClient (Some u) true Idle) ->
    (prog w = 1 \/ prog w = 3 \/ prog w = 5) -> prog w < prog (gui_run E w [Changed c; RunStage c r2]).
  Proof.
    intros S Hc Hp. destruct (settled_count w S) as (Hcnt & Hjl & _). pose proof (se_live _ S) as L. pose proof (lw_doc _ L) as Ld. pose proof (ld_stat _ _ _ Ld) as St.
    pose proof (se_full _ S) as F. pose proof (state_facts (w_doc w)) as Hsf.
    assert (Hj : forall d', kc_count d' = kc_count (w_doc w) -> kc_joined d' = kc_joined (w_doc w) -> len (kc_joined d') >= kc_count d') by (intros d' -> ->; lia).
    destruct (get_key_ceremony_state (w_doc w)) eqn:Hst; cbn in Hp; try lia; cbn [progress]; rewrite ?Hcnt in Hsf.
    - assert (Hch : choose_stage (Some u) true (w_doc w) = Ok (Some S2Announce)) by (unfold choose_stage; rewrite Hst; reflexivity).
      rewrite (after_act w c (Some u) true S2Announce r2 _ _ Hc Hch (ltac:(cbn [run_stage]; rewrite (s2_full E ss Hnd _ St F); cbn [rbind]; reflexivity))).
      destruct (state_at_least (append_other_key (table E ss) (w_doc w))) as (H & _); [apply Hj; reflexivity|].
      assert (2 <= progress (get_key_ceremony_state (append_other_key (table E ss) (w_doc w)))); [|lia]. apply H. cbn. unfold table.
      intros Habs. apply app_eq_nil in Habs as [_ Habs]. unfold n in *. destruct ss; [cbn in Hn; lia|discriminate].
    - destruct Hsf as (_ & Hne & Hlb & Hsh).
      assert (Hch : choose_stage (Some u) true (w_doc w) = Ok (Some S4ShareBackup)) by (unfold choose_stage; rewrite Hst; reflexivity).
      destruct (s4_full E k ss Hok Hnd (w_doc w) Ld F Hn Hlb) as (l & Hs4 & HF).
      rewrite (after_act w c (Some u) true S4ShareBackup r2 _ _ Hc Hch (ltac:(cbn [run_stage]; rewrite Hs4; cbn [rbind]; reflexivity))).
      destruct (state_at_least (append_shared_backups l (w_doc w))) as (_ & _ & H & _); [apply Hj; reflexivity|]. cbn [append_shared_backups kc_other kc_backups kc_shared kc_count] in H.
      rewrite Hcnt in H. assert (Hl : kc_shared (w_doc w) ++ l <> []).
      { intros Habs. apply app_eq_nil in Habs as [_ ->]. inversion HF as [Hs0|]. rewrite <- Hs0 in Hn. cbn in Hn. lia. }
      specialize (H Hne Hlb Hl). lia.
    - destruct Hsf as (_ & Hne & Hlb & Hsh & Hlv & Hjn).
      assert (Hch : choose_stage (Some u) true (w_doc w) = Ok (Some S6PublishKey)) by (unfold choose_stage; rewrite Hst; reflexivity).
      destruct (s6_full E ss Hnd (w_doc w) Ld F Hn Hlb Hlv) as (j & Hs6).
      rewrite (after_act w c (Some u) true S6PublishKey r2 _ _ Hc Hch (ltac:(cbn [run_stage]; rewrite Hs6; cbn [rbind]; reflexivity))).
      destruct (state_at_least (append_joint_key j (w_doc w))) as (_ & _ & _ & _ & H); [apply Hj; reflexivity|]. cbn [append_joint_key kc_other kc_backups kc_shared kc_count kc_verifs kc_joint] in H.
      rewrite Hcnt in H. specialize (H Hne Hlb Hsh Hlv ltac:(discriminate)). lia.
  Qed.
  Lemma act_guardian w c s r2 : settled w -> In s ss -> dget c (w_clients w) = Some (mkClient (Some (st_id s)) false Idle) -> (forall x, 0 <= r2 x) ->
    (prog w = 2 -> exists b, In b (kc_backups (w_doc (gui_run E w [Changed c; RunStage c r2]))) /\ bk_owner b = st_id s) /\
    (prog w = 4 -> exists v, In v (kc_verifs (w_doc (gui_run E w [Changed c; RunStage c r2]))) /\ vf_designated v = st_id s).
  Proof.
    intros S Hs Hc Hr. destruct (settled_count w S) as (Hcnt & Hjl & _). pose proof (se_live _ S) as L. pose proof (lw_doc _ L) as Ld. pose proof (ld_stat _ _ _ Ld) as St.
    pose proof (se_full _ S) as F. pose proof (state_facts (w_doc w)) as Hsf. pose proof (run_le E [Changed c; RunStage c r2] w) as Hle.
    assert (Hfile : dget (st_id s) (w_files w) = Some (file_of E s)) by (apply (lw_files _ L); [assumption|]; apply F; assumption).
    split; intros Hp; destruct (get_key_ceremony_state (w_doc w)) eqn:Hst; cbn in Hp; try lia.
    - destruct (Z.ltb_spec 0 (backup_count_for (w_doc w) (st_id s))) as [Hpos|Hpos].
      + unfold backup_count_for in Hpos. destruct (filter _ _) as [|b l] eqn:Hf; [cbn in Hpos; lia|]. assert (Hin : In b (filter (fun b => eqb (bk_owner b) (st_id s)) (kc_backups (w_doc w)))) by (rewrite Hf; left; reflexivity).
        apply filter_In in Hin as [Hin He]. apply eqb_spec in He. exists b. split; [|assumption]. eapply prefix_in; [apply (le_backups _ _ Hle)|assumption].
      + destruct Hsf as (_ & Hne & Hlb).
        assert (Hch : choose_stage (Some (st_id s)) false (w_doc w) = Ok (Some S3MakeBackup)).
        { unfold choose_stage. rewrite Hst. cbn. destruct (Z.ltb_spec 0 (backup_count_for (w_doc w) (st_id s))); [lia|reflexivity]. }
        rewrite (after_act w c (Some (st_id s)) false S3MakeBackup r2 _ _ Hc Hch (ltac:(cbn [run_stage]; rewrite (s3_full E HE Hmac Hq k ss Hok Hnd _ _ r2 s Ld Hne Hs Hfile Hr); cbn [rbind]; reflexivity))).
        cbn [append_backups kc_backups]. exists (bk E (fun _ => r2) s s). split; [|reflexivity]. apply in_app_iff. right. left. reflexivity.
    - destruct (Z.ltb_spec 0 (verification_count_for (w_doc w) (st_id s))) as [Hpos|Hpos].
      + unfold verification_count_for in Hpos. destruct (filter _ _) as [|b l] eqn:Hf; [cbn in Hpos; lia|]. assert (Hin : In b (filter (fun v => eqb (vf_designated v) (st_id s)) (kc_verifs (w_doc w)))) by (rewrite Hf; left; reflexivity).
        apply filter_In in Hin as [Hin He]. apply eqb_spec in He. exists b. split; [|assumption]. eapply prefix_in; [apply (le_verifs _ _ Hle)|assumption].
      + destruct Hsf as (_ & Hne & Hlb & Hsh & Hlv).
        assert (Hch : choose_stage (Some (st_id s)) false (w_doc w) = Ok (Some S5VerifyBackup)).
        { unfold choose_stage. rewrite Hst. cbn. destruct (Z.ltb_spec 0 (verification_count_for (w_doc w) (st_id s))); [lia|reflexivity]. }
        rewrite (after_act w c (Some (st_id s)) false S5VerifyBackup r2 _ _ Hc Hch (ltac:(cbn [run_stage]; rewrite (s5_full E HE Hmac Hq k ss Hok Hnd _ _ s Ld Hne Hsh Hs Hfile); cbn [rbind]; reflexivity))).
        cbn [append_verifications kc_verifs]. rewrite Hcnt in Hlv. pose proof (len_nonneg (kc_verifs (w_doc w))).
        assert (Hl : len (others ss s) = n - 1) by (apply others_len; auto). destruct (others ss s) as [|j l] eqn:Ho; [cbn in Hl; nia|].
        exists (good_verif j s). split; [|reflexivity]. apply in_app_iff. right. unfold vblock. rewrite Ho. left. reflexivity.
  Qed.

  Lemma identity w c cl user admin : settled w -> dget c (w_clients w) = Some cl -> In (c, (user, admin)) ps -> cl_user cl = user /\ cl_admin cl = admin.
  Proof.
    intros S Hc Hin. destruct (lw_clients _ (se_live _ S) _ _ Hc) as [Hin' _]. destruct Hps as [Hu _].
    assert (G : forall (l : list program) x y, NoDup (map fst l) -> In (c, x) l -> In (c, y) l -> x = y).
    { induction l as [|[c0 z] l IH]; intros x y Hl Hx Hy; [destruct Hx|]. cbn in Hl. inversion Hl as [|? ? Hl1 Hl2]; subst.
      destruct Hx as [Hx|Hx], Hy as [Hy|Hy]; [congruence| | |auto]; exfalso; apply Hl1.
      - injection Hx as -> ->. apply (in_map fst) in Hy. exact Hy.
      - injection Hy as -> ->. apply (in_map fst) in Hx. exact Hx. }
    pose proof (G _ _ _ Hu Hin' Hin) as He. injection He as <- <-. auto.
  Qed.
  (** a program woken during the stretch [l]; what it does when it is woken *)
  Lemma woken w c user admin l : settled w -> In (c, (user, admin)) ps -> Forall (good_event E) l -> Forall (of_programs ps) l ->
    kc_joined (w_doc (gui_run E w l)) = kc_joined (w_doc w) -> (exists l1 l2 r1 r2, l = l1 ++ wake c r1 r2 ++ l2) ->
    exists l1 l2 r2, l = l1 ++ [Changed c; RunStage c r2] ++ l2 /\ settled (gui_run E w l1) /\ (forall x, 0 <= r2 x)
      /\ dget c (w_clients (gui_run E w l1)) = Some (mkClient user admin Idle).
  Proof.
    intros S Hin Hg Ho Hj (l1 & l2 & r1 & r2 & ->). exists (l1 ++ [RunStage c r1; MarkComplete c]), (MarkComplete c :: l2), r2.
    split; [rewrite <- app_assoc; reflexivity|]. destruct (run_settled _ w S Hg Ho Hj) as [_ Hpre].
    assert (Hs1 : settled (gui_run E w l1)).
    { apply Forall_app in Hg as [Hg _]. apply Forall_app in Ho as [Ho _]. apply run_settled; auto. eapply Hpre; reflexivity. }
    assert (Hs2 : settled (gui_run E w (l1 ++ [RunStage c r1; MarkComplete c]))).
    { unfold wake in Hg, Ho. rewrite Forall_app in Hg, Ho. destruct Hg as [Hg Hg']. destruct Ho as [Ho Ho'].
      inversion Hg' as [|? ? G1 Hg2]; subst. inversion Hg2 as [|? ? G2 _]; subst.
      apply run_settled; auto.
      - apply Forall_app. split; [assumption|]. repeat constructor; assumption.
      - apply Forall_app. split; [assumption|]. repeat constructor.
      - eapply (Hpre _ ([Changed c; RunStage c r2; MarkComplete c] ++ l2)). rewrite <- app_assoc. reflexivity. }
    split; [assumption|]. split.
    - apply Forall_app in Hg as [_ Hg]. unfold wake in Hg. cbn [app] in Hg. do 3 (inversion Hg as [|? ? _ Hg']; subst; clear Hg; rename Hg' into Hg). inversion Hg; subst. assumption.
    - rewrite run_app. destruct (se_open _ Hs1 c) as [cl Hcl]; [apply (in_map fst) in Hin; exact Hin|].
      rewrite (after_finish _ c cl r1 Hcl (settled_idle _ _ _ Hs1 Hcl)). destruct (identity _ _ _ _ _ Hs1 Hcl Hin) as [-> ->]. reflexivity.
  Qed.
  Lemma round_progress w l : settled w -> Forall (good_event E) l -> Forall (of_programs ps) l ->
    kc_joined (w_doc (gui_run E w l)) = kc_joined (w_doc w) -> round ps l ->
    (forall s, In s ss -> exists c, In (c, (Some (st_id s), false)) ps) -> (exists c u, In (c, (Some u, true)) ps) ->
    prog w < 6 -> prog w < prog (gui_run E w l).
  Proof.
    intros S Hg Ho Hj Hround Hguard Hadmin Hp. destruct (settled_count w S) as (_ & _ & Hp1).
    destruct (Z.lt_ge_cases (prog w) (prog (gui_run E w l))) as [|Hge]; [assumption|exfalso].
    assert (Hsame : forall l1 l2, l = l1 ++ l2 -> prog (gui_run E w l1) = prog w).
    { intros l1 l2 ->. pose proof (prog_mono w l1). pose proof (prog_mono (gui_run E w l1) l2) as H2. rewrite <- run_app in H2. lia. }
    destruct (run_settled _ w S Hg Ho Hj) as [Send _].
    assert (Hcase : (prog w = 1 \/ prog w = 3 \/ prog w = 5) \/ prog w = 2 \/ prog w = 4) by lia. destruct Hcase as [Hodd|Heven].
    - destruct Hadmin as (c & u & Hin). destruct (woken w c (Some u) true l S Hin Hg Ho Hj) as (l1 & l2 & r2 & -> & S1 & Hr & Hc);
        [apply Hround; apply (in_map fst) in Hin; exact Hin|].
      pose proof (Hsame l1 _ eq_refl) as H1. pose proof (Hsame (l1 ++ [Changed c; RunStage c r2]) l2 ltac:(rewrite <- app_assoc; reflexivity)) as H2.
      pose proof (act_admin _ c u r2 S1 Hc) as Ha. rewrite H1, <- run_app, H2 in Ha. specialize (Ha Hodd). lia.
    - assert (Hend : prog (gui_run E w l) = prog w) by (apply (Hsame l []); rewrite app_nil_r; reflexivity).
      assert (Hall : forall s, In s ss -> (prog w = 2 -> exists b, In b (kc_backups (w_doc (gui_run E w l))) /\ bk_owner b = st_id s)
                                      /\ (prog w = 4 -> exists v, In v (kc_verifs (w_doc (gui_run E w l))) /\ vf_designated v = st_id s)).
      { intros s Hs. destruct (Hguard s Hs) as (c & Hin). destruct (woken w c (Some (st_id s)) false l S Hin Hg Ho Hj) as (l1 & l2 & r2 & -> & S1 & Hr & Hc);
          [apply Hround; apply (in_map fst) in Hin; exact Hin|].
        pose proof (Hsame l1 _ eq_refl) as H1. destruct (act_guardian _ c s r2 S1 Hs Hc Hr) as [A B]. rewrite H1, <- run_app in A, B.
        rewrite app_assoc, run_app. pose proof (run_le E l2 (gui_run E w (l1 ++ [Changed c; RunStage c r2]))) as Hle. split; intros Hpp.
        - destruct (A Hpp) as (b & B1 & B2). exists b. split; [|assumption]. eapply prefix_in; [apply (le_backups _ _ Hle)|assumption].
        - destruct (B Hpp) as (v & B1 & B2). exists v. split; [|assumption]. eapply prefix_in; [apply (le_verifs _ _ Hle)|assumption]. }
      set (d := w_doc (gui_run E w l)) in *. destruct (settled_count _ Send) as (Hcnt & _ & _). fold d in Hcnt. pose proof (lw_doc _ (se_live _ Send)) as Ld. fold d in Ld.
      pose proof (state_facts d) as Hsf. destruct Heven as [H2|H4].
      + assert (Hst : get_key_ceremony_state d = PendingGuardianBackups) by (apply progress_inj; cbn; lia). rewrite Hst, Hcnt in Hsf. destruct Hsf as (_ & _ & Hlb).
        destruct (ld_backups _ _ _ Ld) as (posted & P1 & P2 & P3). rewrite P3, blocks_len in Hlb; [|assumption|intros p Hpp; apply (P2 p Hpp)].
        assert (Hge' : n <= len posted).
        { assert (Hincl : incl (map st_id ss) (map (fun p : seat * draws => st_id (fst p)) posted)).
          { intros x Hx. apply in_map_iff in Hx as [s [<- Hs]]. destruct (proj1 (Hall s Hs) H2) as (b & B1 & B2). rewrite P3 in B1. apply in_flat_map in B1 as [p [Hpp B1]].
            unfold block in B1. apply in_map_iff in B1 as [r [<- _]]. cbn in B2. apply in_map_iff. exists p. auto. }
          pose proof (NoDup_incl_length Hnd Hincl) as Hl. rewrite !map_length in Hl. unfold n, len. lia. }
        fold n in Hlb. nia.
      + assert (Hst : get_key_ceremony_state d = PendingGuardiansVerifyBackups) by (apply progress_inj; cbn; lia). rewrite Hst, Hcnt in Hsf. destruct Hsf as (_ & _ & _ & _ & Hlv).
        destruct (ld_verifs _ _ _ Ld) as (posted & P1 & P2 & P3). rewrite P3, vblocks_len in Hlv by assumption.
        assert (Hge' : n <= len posted).
        { assert (Hincl : incl (map st_id ss) (map st_id posted)).
          { intros x Hx. apply in_map_iff in Hx as [s [<- Hs]]. destruct (proj2 (Hall s Hs) H4) as (b & B1 & B2). rewrite P3 in B1. apply in_flat_map in B1 as [p [Hpp B1]].
            unfold vblock in B1. apply in_map_iff in B1 as [r [<- _]]. cbn in B2. apply in_map_iff. exists p. auto. }
          pose proof (NoDup_incl_length Hnd Hincl) as Hl. rewrite !map_length in Hl. unfold n, len. lia. }
        fold n in Hlv. nia.
  Qed.
  Lemma rounds_complete rs : forall w, settled w -> Forall (Forall (good_event E)) rs -> Forall (Forall (of_programs ps)) rs ->
    kc_joined (w_doc (gui_run E w (concat rs))) = kc_joined (w_doc w) -> Forall (round ps) rs ->
    (forall s, In s ss -> exists c, In (c, (Some (st_id s), false)) ps) -> (exists c u, In (c, (Some u, true)) ps) ->
    6 <= prog w + len rs -> get_key_ceremony_state (w_doc (gui_run E w (concat rs))) = CeremonyComplete.
  Proof.
    induction rs as [|l rs IH]; intros w S Hg Ho Hj Hr Hguard Hadmin Hlen.
    - cbn in *. apply progress_inj. cbn. destruct (get_key_ceremony_state (w_doc w)); cbn in *; lia.
    - cbn [concat] in *. rewrite run_app in *. inversion Hg; subst. inversion Ho; subst. inversion Hr; subst.
      assert (Hj1 : kc_joined (w_doc (gui_run E w l)) = kc_joined (w_doc w)).
      { symmetry. pose proof (run_le E l w) as L1. pose proof (run_le E (concat rs) (gui_run E w l)) as L2. apply prefix_len_eq; [apply (le_joined _ _ L1)|].
        pose proof (prefix_len _ _ (le_joined _ _ L1)). pose proof (prefix_len _ _ (le_joined _ _ L2)) as H'. rewrite Hj in H'. lia. }
      destruct (run_settled l w S) as [S1 _]; auto. apply IH; auto; [congruence|]. rewrite len_cons in Hlen.
      destruct (Z.lt_ge_cases (prog w) 6) as [Hlt|Hge].
      + pose proof (round_progress w l S ltac:(assumption) ltac:(assumption) Hj1 ltac:(assumption) Hguard Hadmin Hlt). lia.
      + pose proof (prog_mono w l). pose proof (len_nonneg rs). lia.
  Qed.
End Rounds.
