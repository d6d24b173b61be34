(** * GuiWatchEnds: left to themselves, the programs of a key ceremony come to an end. *)
From Verif Require Import Base Group Spec GroupFacts Codec Hash DLog ElGamal ZK Poly ListFacts Manifest Ballot Encrypt SpecElection
  Ceremony SpecCeremony MediatorFacts CeremonyFacts GuiCeremony SpecGui GuiFacts GuiJoin GuiLive GuiRounds GuiThms GuiWatch SpecGuiWatch GuiWatchFacts.
Import List.

Lemma dset_id {V} (c : string) (v : V) (d : dict string V) : dget c d = Some v -> dset c v d = d.
Proof.
  induction d as [|[c' v'] d IH]; cbn; [discriminate|]. destruct (String.eqb_spec c c') as [->|]; [intros [= <-]; reflexivity|].
  intros H. rewrite IH by exact H. reflexivity.
Qed.
Fixpoint total {A} (f : A -> Z) (l : list A) : Z := match l with [] => 0 | x :: l' => f x + total f l' end.
Lemma total_le {A} (f g : A -> Z) e l : (forall x, g x <= f x + e) -> total g l <= total f l + e * len l.
Proof. intros H. induction l as [|x l IH]; [cbn; lia|]. rewrite len_cons. cbn [total]. specialize (H x). lia. Qed.
Lemma total_lt {A} (f g : A -> Z) e l c : 0 <= e -> In c l -> (forall x, g x <= f x + e) -> g c + (e * len l + 1) <= f c + e -> total g l < total f l.
Proof.
  intros He Hc H Hl. apply in_split in Hc as (l1 & l2 & ->).
  assert (T : forall (h : A -> Z) a b, total h (a ++ c :: b) = total h a + h c + total h b).
  { intros h a b. induction a as [|x a IH]; cbn [total app]; [lia|]. rewrite IH. lia. }
  rewrite !T. pose proof (total_le f g e l1 H). pose proof (total_le f g e l2 H). rewrite len_app, len_cons in Hl. lia.
Qed.
Lemma total_nonneg {A} (f : A -> Z) l : (forall x, 0 <= f x) -> 0 <= total f l.
Proof. intros H. induction l as [|x l IH]; [cbn; lia|]. cbn [total]. specialize (H x). lia. Qed.
Lemma prefix_some {A} (l l' : list A) : prefix l l' -> l <> [] -> l' <> [].
Proof. intros [t ->] H. destruct l; [congruence|discriminate]. Qed.

(** ** what a program can still do *)
Definition opens (user : option string) (d : kc) (s : stage) : Z :=
  let u := match user with Some u => u | None => EmptyString end in
  let p := progress (get_key_ceremony_state d) in
  match s with
  | S2Announce => if p <=? 1 then 1 else 0
  | S3MakeBackup => if backup_count_for d u <=? 0 then 1 else 0
  | S4ShareBackup => if p <=? 3 then 1 else 0
  | S5VerifyBackup => if verification_count_for d u <=? 0 then 1 else 0
  | S6PublishKey => if p <=? 5 then 1 else 0
  end.
Definition all_open (user : option string) (d : kc) : Z :=
  opens user d S2Announce + opens user d S3MakeBackup + opens user d S4ShareBackup + opens user d S5VerifyBackup + opens user d S6PublishKey.
Definition left_of (cl : client) (d : kc) : Z :=
  match cl_phase cl with
  | Running s _ => 1 + all_open (cl_user cl) d - opens (cl_user cl) d s
  | Published => 1 + all_open (cl_user cl) d
  | _ => all_open (cl_user cl) d
  end.
Definition phase_weight (p : phase) : Z := match p with Running _ _ => 2 | Published => 1 | _ => 0 end.
Definition watch_weight (k sent : Z) (wa : watch) : Z :=
  match wa_state wa with NotLooked => 4 | Looked _ => 1 | Watching i => 3 * (sent - i) end + (if wa_owes wa then 3 * k + 1 else 0).
Definition share (K : list string) (w : watch_world) (c : string) : Z :=
  match dget c (w_clients (ww_world w)), dget c (ww_watches w) with
  | Some cl, Some wa => (3 * len K + 1) * left_of cl (w_doc (ww_world w)) + phase_weight (cl_phase cl) + watch_weight (len K) (ww_sent w) wa
  | _, _ => 0
  end.
Definition measure (K : list string) (w : watch_world) : Z := total (share K w) K.

Lemma opens_range user d s : 0 <= opens user d s <= 1.
Proof. unfold opens. destruct s; match goal with |- context [if ?b then _ else _] => destruct b end; lia. Qed.
Lemma count_mono {A} (f : A -> bool) l l' : prefix l l' -> len (filter f l) <= len (filter f l').
Proof. intros [t ->]. rewrite filter_app, len_app. pose proof (len_nonneg (filter f t)). lia. Qed.
Lemma opens_mono user d d' s : kc_le d d' -> opens user d' s <= opens user d s.
Proof.
  intros L. pose proof (progress_mono d d' L) as P. unfold opens. set (u := match user with Some u => u | None => EmptyString end).
  pose proof (count_mono (fun b => eqb (bk_owner b) u) _ _ (le_backups _ _ L)) as B. pose proof (count_mono (fun v => eqb (vf_designated v) u) _ _ (le_verifs _ _ L)) as V.
  fold (backup_count_for d u) (backup_count_for d' u) in B. fold (verification_count_for d u) (verification_count_for d' u) in V.
  destruct s; repeat match goal with |- context [?a <=? ?b] => destruct (Z.leb_spec a b) end; lia.
Qed.
Lemma chosen_open user admin d s : choose_stage user admin d = Ok (Some s) -> opens user d s = 1.
Proof.
  intros H. apply choose_facts in H. unfold opens. destruct s.
  - destruct H as [_ ->]. reflexivity.
  - destruct H as (_ & _ & u & -> & H). destruct (Z.leb_spec (backup_count_for d u) 0); [reflexivity|lia].
  - destruct H as [_ ->]. reflexivity.
  - destruct H as (_ & _ & u & -> & H). destruct (Z.leb_spec (verification_count_for d u) 0); [reflexivity|lia].
  - destruct H as [_ ->]. reflexivity.
Qed.
Lemma all_open_one user d s : 0 <= all_open user d - opens user d s.
Proof. unfold all_open. pose proof (opens_range user d S2Announce). pose proof (opens_range user d S3MakeBackup). pose proof (opens_range user d S4ShareBackup).
  pose proof (opens_range user d S5VerifyBackup). pose proof (opens_range user d S6PublishKey). destruct s; lia. Qed.
Lemma rest_mono user d d' s : kc_le d d' -> all_open user d' - opens user d' s <= all_open user d - opens user d s.
Proof. intros L. unfold all_open. pose proof (opens_mono user d d' S2Announce L). pose proof (opens_mono user d d' S3MakeBackup L). pose proof (opens_mono user d d' S4ShareBackup L).
  pose proof (opens_mono user d d' S5VerifyBackup L). pose proof (opens_mono user d d' S6PublishKey L). destruct s; lia. Qed.
Lemma all_open_mono user d d' : kc_le d d' -> all_open user d' <= all_open user d.
Proof. intros L. unfold all_open. pose proof (opens_mono user d d' S2Announce L). pose proof (opens_mono user d d' S3MakeBackup L). pose proof (opens_mono user d d' S4ShareBackup L).
  pose proof (opens_mono user d d' S5VerifyBackup L). pose proof (opens_mono user d d' S6PublishKey L). lia. Qed.
Lemma left_mono cl d d' : kc_le d d' -> left_of cl d' <= left_of cl d.
Proof.
  intros L. unfold left_of. pose proof (all_open_mono (cl_user cl) d d' L). destruct (cl_phase cl) as [| | | |s snap|]; try lia.
  pose proof (rest_mono (cl_user cl) d d' s L). lia.
Qed.
Lemma left_nonneg cl d : 0 <= left_of cl d.
Proof.
  unfold left_of. pose proof (all_open_one (cl_user cl) d S2Announce). pose proof (opens_range (cl_user cl) d S2Announce).
  destruct (cl_phase cl) as [| | | |s snap|]; try lia. pose proof (all_open_one (cl_user cl) d s). lia.
Qed.
Lemma share_nonneg K w c : cursors w -> 0 <= share K w c.
Proof.
  intros C. unfold share. destruct (dget c (w_clients (ww_world w))) as [cl|]; [|lia]. destruct (dget c (ww_watches w)) as [[s o]|] eqn:Hw; [|lia].
  pose proof (cu_mark _ C _ _ Hw) as M. cbn [wa_state] in M. pose proof (left_nonneg cl (w_doc (ww_world w))). pose proof (len_nonneg K).
  assert (0 <= phase_weight (cl_phase cl)) by (destruct (cl_phase cl); cbn; lia).
  assert (0 <= watch_weight (len K) (ww_sent w) (mkWatch s o)) by (unfold watch_weight; cbn [wa_state wa_owes]; destruct s; cbn in M; destruct o; lia).
  nia.
Qed.

Section Ends.
  Context (E : env) (HE : valid_env E) (Hmac : hmac_32 E) (Hq : qq E <= 2 ^ 1024).
  Context (k : nat) (ss : list seat) (Hok : forall s, In s ss -> seat_ok E k s) (Hnd : NoDup (map st_id ss)).
  Context (ps : list program) (Hps : one_each ps) (Hn : 0 < len ss).
  Notation settled := (settled E k ss ps).

  (** a stage that was carried out is not chosen again by the same program *)
  Lemma stage_closes b c cl s snap rnd d' p : settled b -> dget c (w_clients b) = Some cl -> cl_phase cl = Running s snap -> (forall u, 0 <= rnd u) ->
    run_stage E (w_files b) rnd (match cl_user cl with Some u => u | None => EmptyString end) s snap (w_doc b) = Ok (d', p) ->
    opens (cl_user cl) d' s = 0 /\ kc_le (w_doc b) d' /\ p = match s with S6PublishKey => Published | _ => Idle end.
  Proof.
    intros S Hc Hp Hr Hrun. pose proof (se_live _ _ _ _ _ S) as L. destruct (lw_clients _ _ _ _ L _ _ Hc) as [_ CL]. rewrite Hp in CL.
    destruct CL as (D1 & D2 & D3 & _ & _). pose proof (choose_facts _ _ _ _ D3) as Hf. pose proof (state_facts snap) as Hsf.
    pose proof (ld_stat _ _ _ D2) as St2. destruct (settled_count E k ss ps b S) as (Hcnt & Hlj & _).
    assert (Hle : kc_le (w_doc b) d').
    { pose proof (client_step_le E b c cl (RunStage c rnd)) as H. cbn [client_step] in H. rewrite Hp, Hrun in H. exact H. }
    pose proof (kc_le_trans _ _ _ D1 Hle) as Hle'.
    assert (Hge : len (kc_joined d') >= kc_count d') by (rewrite <- (le_count _ _ Hle), Hcnt; pose proof (prefix_len _ _ (le_joined _ _ Hle)); lia).
    destruct (state_at_least ss d' Hge) as (A2 & _ & A4 & _ & A6).
    pose proof (prefix_len _ _ (le_backups _ _ Hle')) as LB. pose proof (prefix_len _ _ (le_verifs _ _ Hle')) as LV. pose proof (le_count _ _ Hle') as LC.
    assert (Hfile : forall s0, In s0 ss -> full E ss snap -> dget (st_id s0) (w_files b) = Some (file_of E s0)).
    { intros s0 Hs0 [_ F]. apply (lw_files _ _ _ _ L); [assumption|]. eapply prefix_in; [apply (le_keys _ _ D1)|apply F; assumption]. }
    destruct s; cbn [run_stage] in Hrun; match type of Hrun with rbind ?y _ = _ => destruct y as [l|] eqn:Hy; cbn [rbind] in Hrun; [|discriminate] end; injection Hrun as <- <-;
      (split; [|split; [exact Hle|reflexivity]]); unfold opens.
    - destruct Hf as [_ Hst]. rewrite Hst in Hsf. destruct Hsf as [Hl _].
      assert (Hfull : full E ss snap).
      { unfold s2_announce in Hy. destruct (announce_guardians snap) as [m|] eqn:Ha; [|discriminate]. rewrite (st_count _ _ _ St2) in Hl. eapply announce_needs; eassumption. }
      rewrite (s2_full E ss Hnd snap St2 Hfull) in Hy. injection Hy as <-.
      assert (Hne : kc_other (append_other_key (table E ss) (w_doc b)) <> []).
      { cbn [append_other_key kc_other]. unfold table. destruct ss as [|s0 ss']; [cbn in Hn; lia|]. cbn. destruct (kc_other (w_doc b)); discriminate. }
      specialize (A2 Hne). destruct (Z.leb_spec (progress (get_key_ceremony_state (append_other_key (table E ss) (w_doc b)))) 1); [lia|reflexivity].
    - destruct Hf as (_ & Hst & u & Hu & _). rewrite Hst in Hsf. destruct Hsf as (_ & Hne & _). rewrite Hu in *.
      destruct (user_seat E ss _ _ _ _ _ D2 Hne Hy) as (s & Hs & <-). destruct (ld_other_all _ _ _ D2 Hne) as [Hfull _].
      rewrite (s3_full E HE Hmac Hq k ss Hok Hnd snap (w_files b) rnd s D2 Hne Hs (Hfile s Hs Hfull) Hr) in Hy. injection Hy as <-.
      destruct (Z.leb_spec (backup_count_for (append_backups (block E ss (s, fun _ => rnd)) (w_doc b)) (st_id s)) 0) as [H|H]; [exfalso|reflexivity].
      rewrite backups_count_zero in H. cbn [append_backups kc_backups] in H. apply (H (bk E (fun _ => rnd) s s)); [|reflexivity].
      apply in_or_app. right. left. reflexivity.
    - destruct Hf as [_ Hst]. rewrite Hst in Hsf. destruct Hsf as (_ & Hne & Hlb & _). pose proof Hlb as Hlb'. rewrite (st_count _ _ _ St2) in Hlb'. destruct (ld_other_all _ _ _ D2 Hne) as [Hfull _].
      destruct (s4_full E k ss Hok Hnd snap D2 Hfull Hn Hlb') as (l' & Hs4 & HF). rewrite Hs4 in Hy. injection Hy as ->.
      set (d' := append_shared_backups l (w_doc b)) in *.
      assert (H4 : 4 <= progress (get_key_ceremony_state d')).
      { apply A4; [exact (prefix_some _ _ (le_other _ _ Hle') Hne)|rewrite <- LC; lia|]. unfold d'. cbn [append_shared_backups kc_shared].
        destruct l as [|x l]; [destruct ss; [cbn in Hn; lia|inversion HF]|]. destruct (kc_shared (w_doc b)); discriminate. }
      destruct (Z.leb_spec (progress (get_key_ceremony_state d')) 3); [lia|reflexivity].
    - destruct Hf as (_ & Hst & u & Hu & _). rewrite Hst, (st_count _ _ _ St2) in Hsf. destruct Hsf as (_ & Hne & _ & Hsh & Hlv). rewrite Hu in *.
      assert (Hus : exists s, In s ss /\ st_id s = u).
      { unfold s5_verify in Hy. destruct (find_entry (kc_shared snap) u) as [bs|] eqn:Hfe; [|discriminate]. apply find_entry_in in Hfe.
        destruct (ld_shared _ _ _ D2 _ _ Hfe) as (s & Hs & Hu' & _). exists s. auto. }
      destruct Hus as (s & Hs & <-). destruct (ld_other_all _ _ _ D2 Hne) as [Hfull _].
      rewrite (s5_full E HE Hmac Hq k ss Hok Hnd snap (w_files b) s D2 Hne Hsh Hs (Hfile s Hs Hfull)) in Hy. injection Hy as <-.
      match goal with |- context [if ?x <=? 0 then _ else _] => destruct (Z.leb_spec x 0) as [H|H]; [exfalso|reflexivity] end.
      rewrite verifs_count_zero in H. cbn [append_verifications kc_verifs] in H.
      assert (Hvl : len (vblock ss s) = len ss - 1).
      { pose proof (vblocks_len ss Hnd [s]) as H0. cbn [flat_map] in H0. rewrite app_nil_r in H0. rewrite H0 by (intros x [<-|[]]; exact Hs). change (len [s]) with 1. lia. }
      pose proof (len_nonneg (kc_verifs snap)) as Hpos. destruct (vblock ss s) as [|v vs] eqn:Hvb.
      { change (0 = len ss - 1) in Hvl. assert (H1 : len ss = 1) by lia. rewrite H1 in Hlv. lia. }
      apply (H v); [apply in_or_app; right; left; reflexivity|].
      assert (Hin : In v (vblock ss s)) by (rewrite Hvb; left; reflexivity). unfold vblock in Hin. apply in_map_iff in Hin as [j [<- _]]. reflexivity.
    - destruct Hf as [_ Hst]. rewrite Hst in Hsf. destruct Hsf as (_ & Hne & Hlb & Hsh & Hlv & _).
      set (d' := append_joint_key l (w_doc b)) in *.
      assert (H6 : 6 <= progress (get_key_ceremony_state d')).
      { apply A6; [exact (prefix_some _ _ (le_other _ _ Hle') Hne)|rewrite <- LC; lia|exact (prefix_some _ _ (le_shared _ _ Hle') Hsh)|rewrite <- LC; lia|discriminate]. }
      destruct (Z.leb_spec (progress (get_key_ceremony_state d')) 5); [lia|reflexivity].
  Qed.

  (** ** every step that changes anything brings the end nearer *)
  Lemma share_same K w w' c : dget c (w_clients (ww_world w')) = dget c (w_clients (ww_world w)) -> dget c (ww_watches w') = dget c (ww_watches w) ->
    kc_le (w_doc (ww_world w)) (w_doc (ww_world w')) -> ww_sent w' = ww_sent w -> share K w' c <= share K w c.
  Proof.
    intros H1 H2 L Hs. unfold share. rewrite H1, H2, Hs. destruct (dget c (w_clients (ww_world w))) as [cl|]; [|lia]. destruct (dget c (ww_watches w)) as [wa|]; [|lia].
    pose proof (left_mono cl _ _ L). pose proof (len_nonneg K). nia.
  Qed.
  Lemma one_down K b b' sent ws c cl s0 s1 o1 p d' : In c K -> dget c (w_clients b) = Some cl -> dget c ws = Some (mkWatch s0 false) ->
    kc_le (w_doc b) d' -> w_doc b' = d' -> dget c (w_clients b') = Some (mkClient (cl_user cl) (cl_admin cl) p) -> (forall x, x <> c -> dget x (w_clients b') = dget x (w_clients b)) ->
    (3 * len K + 1) * left_of (mkClient (cl_user cl) (cl_admin cl) p) d' + phase_weight p + watch_weight (len K) sent (mkWatch s1 o1)
      < (3 * len K + 1) * left_of cl (w_doc b) + phase_weight (cl_phase cl) + watch_weight (len K) sent (mkWatch s0 false) ->
    measure K (mkWatchWorld b' sent (dset c (mkWatch s1 o1) ws)) < measure K (mkWatchWorld b sent ws).
  Proof.
    intros Hin Hc Hw L <- Hc' Hx Hlt. unfold measure. apply (total_lt _ _ 0 K c); [lia|exact Hin| |].
    - intros x. rewrite Z.add_0_r. destruct (String.eqb_spec x c) as [->|Hne].
      + unfold share. cbn [ww_world ww_watches ww_sent]. rewrite Hc', dget_dset_same, Hc, Hw. cbn [cl_phase]. lia.
      + apply share_same; cbn [ww_world ww_watches ww_sent]; [auto|rewrite dget_dset_other by congruence; reflexivity|exact L|reflexivity].
    - unfold share. cbn [ww_world ww_watches ww_sent]. rewrite Hc', dget_dset_same, Hc, Hw. cbn [cl_phase]. lia.
  Qed.
  Lemma look_down K b sent ws c s0 s1 : In c K -> idle b c = true -> dget c ws = Some (mkWatch s0 false) ->
    watch_weight (len K) sent (mkWatch s1 false) + 2 < watch_weight (len K) sent (mkWatch s0 false) ->
    measure K (mkWatchWorld (gui_step E b (Changed c)) sent (dset c (mkWatch s1 false) ws)) < measure K (mkWatchWorld b sent ws).
  Proof.
    intros Hin Hid Hw Hlt. unfold idle in Hid. destruct (dget c (w_clients b)) as [[user admin ph]|] eqn:Hc; [|discriminate]. cbn [cl_phase] in Hid. destruct ph; try discriminate.
    destruct (choose_stage user admin (w_doc b)) as [[s|]|x] eqn:Hs.
    - eapply (one_down K b _ sent ws c _ s0 s1 false (Running s (w_doc b)) (w_doc b) Hin Hc Hw (kc_le_refl _)).
      + cbn [gui_step event_client]. rewrite Hc. cbn [client_step cl_phase cl_user cl_admin]. rewrite Hs. reflexivity.
      + cbn [gui_step event_client]. rewrite Hc. cbn [client_step cl_phase cl_user cl_admin]. rewrite Hs. cbn [w_clients]. unfold set_phase. rewrite dget_dset_same. reflexivity.
      + intros x Hx. cbn [gui_step event_client]. rewrite Hc. cbn [client_step cl_phase cl_user cl_admin]. rewrite Hs. cbn [w_clients]. unfold set_phase. apply dget_dset_other. exact Hx.
      + unfold left_of. cbn [cl_phase cl_user]. rewrite (chosen_open _ _ _ _ Hs). cbn [phase_weight]. replace (1 + all_open user (w_doc b) - 1) with (all_open user (w_doc b)) by lia. lia.
    - assert (Hsame : gui_step E b (Changed c) = b) by (cbn [gui_step event_client]; rewrite Hc; cbn [client_step cl_phase cl_user cl_admin]; rewrite Hs; reflexivity). rewrite Hsame.
      eapply (one_down K b b sent ws c _ s0 s1 false Idle (w_doc b) Hin Hc Hw (kc_le_refl _)); [reflexivity|exact Hc|reflexivity|]. cbn [phase_weight cl_phase cl_user cl_admin]. lia.
    - assert (Hsame : gui_step E b (Changed c) = b) by (cbn [gui_step event_client]; rewrite Hc; cbn [client_step cl_phase cl_user cl_admin]; rewrite Hs; reflexivity). rewrite Hsame.
      eapply (one_down K b b sent ws c _ s0 s1 false Idle (w_doc b) Hin Hc Hw (kc_le_refl _)); [reflexivity|exact Hc|reflexivity|]. cbn [phase_weight cl_phase cl_user cl_admin]. lia.
  Qed.
  Lemma step_down K w we : settled (ww_world w) -> cursors w -> (forall c wa, dget c (ww_watches w) = Some wa -> In c K) -> good_watch E we -> by_itself we ->
    watch_step E w we = w \/ measure K (watch_step E w we) < measure K w.
  Proof.
    intros S C HK Hg Hb. destruct w as [b sent ws]. cbn [ww_world ww_watches] in *. pose proof (len_nonneg K) as HKn. destruct we as [e|c|c|c|c].
    - destruct e as [c u a|c|c|c draw|c|c|c rnd|c]; try (destruct Hb); [| | |left; reflexivity| |]; cbn [watch_step event_client].
      4,5: destruct (dget c ws) as [[s0 [|]]|] eqn:Hw; [left; reflexivity| |left; reflexivity]; destruct (cu_back _ C _ _ Hw) as [cl Hc]; cbn [ww_world] in Hc;
        pose proof (settled_idle E k ss ps b c cl S Hc) as Hj; cbn [gui_step]; unfold changes; cbn [event_client]; rewrite Hc; cbn [client_step];
        destruct (cl_phase cl) as [| | | |s snap|] eqn:Hp; try discriminate Hj; try (left; rewrite dset_id by exact Hw; reflexivity).
      1-3: destruct (dget c ws) as [[s0 [|]]|] eqn:Hw; [left; reflexivity| |left; reflexivity]; destruct (cu_back _ C _ _ Hw) as [cl Hc]; cbn [ww_world] in Hc;
        pose proof (settled_idle E k ss ps b c cl S Hc) as Hj; cbn [gui_step]; unfold changes; cbn [event_client]; rewrite Hc; cbn [client_step];
        destruct (cl_phase cl) as [| | | |s snap|] eqn:Hp; try discriminate Hj; left; rewrite dset_id by exact Hw; reflexivity.
      + right. destruct (run_stage _ _ _ _ _ _ _) as [[d' p]|x] eqn:Hr.
        * destruct (stage_closes b c cl s snap rnd d' p S Hc Hp Hg Hr) as (Hcl & Hle & ->).
          pose proof (rest_mono (cl_user cl) _ _ s Hle) as Hrest. set (A := all_open (cl_user cl) (w_doc b) - opens (cl_user cl) (w_doc b) s) in *.
          assert (HA' : all_open (cl_user cl) d' <= A) by lia.
          eapply (one_down K b _ sent ws c cl s0 s0 _ _ d' (HK _ _ Hw) Hc Hw Hle).
          -- reflexivity.
          -- cbn [w_clients]. unfold set_phase. rewrite dget_dset_same. reflexivity.
          -- intros y Hy. cbn [w_clients]. unfold set_phase. apply dget_dset_other. exact Hy.
          -- unfold left_of at 2. rewrite Hp. cbn [phase_weight]. replace (1 + all_open (cl_user cl) (w_doc b) - opens (cl_user cl) (w_doc b) s) with (1 + A) by (unfold A; lia).
             unfold watch_weight. cbn [wa_state wa_owes]. unfold left_of. cbn [cl_user cl_phase]. destruct s; cbn [phase_weight]; nia.
        * pose proof (opens_range (cl_user cl) (w_doc b) s) as Hop.
          eapply (one_down K b _ sent ws c cl s0 s0 false Idle (w_doc b) (HK _ _ Hw) Hc Hw (kc_le_refl _)).
          -- reflexivity.
          -- cbn [w_clients]. unfold set_phase. rewrite dget_dset_same. reflexivity.
          -- intros y Hy. cbn [w_clients]. unfold set_phase. apply dget_dset_other. exact Hy.
          -- unfold left_of. rewrite Hp. cbn [cl_user cl_phase phase_weight]. nia.
      + right. assert (Hle : kc_le (w_doc b) (set_complete (w_doc b))) by (pose proof (client_step_le E b c cl (MarkComplete c)) as H; cbn [client_step] in H; rewrite Hp in H; exact H).
        pose proof (all_open_mono (cl_user cl) _ _ Hle) as Hao.
        eapply (one_down K b _ sent ws c cl s0 s0 true Idle _ (HK _ _ Hw) Hc Hw Hle).
        * reflexivity.
        * cbn [w_clients]. unfold set_phase. rewrite dget_dset_same. reflexivity.
        * intros y Hy. cbn [w_clients]. unfold set_phase. apply dget_dset_other. exact Hy.
        * unfold left_of. rewrite Hp. cbn [cl_user cl_phase phase_weight]. unfold watch_weight. cbn [wa_state wa_owes]. nia.
    - cbn [watch_step]. destruct (dget c ws) as [[[| |] [|]]|] eqn:Hw; auto. destruct (idle b c) eqn:Hid; [|auto]. right.
      apply (look_down K b sent ws c NotLooked (Looked sent) (HK _ _ Hw) Hid Hw). unfold watch_weight. cbn. lia.
    - cbn [watch_step]. destruct (dget c ws) as [[[|m|] [|]]|] eqn:Hw; auto. destruct (idle b c) eqn:Hid; [|auto]. right.
      destruct (cu_back _ C _ _ Hw) as [cl Hc]. cbn [ww_world] in Hc.
      eapply (one_down K b b sent ws c cl (Looked m) (Watching sent) false (cl_phase cl) (w_doc b) (HK _ _ Hw) Hc Hw (kc_le_refl _)); auto.
      + rewrite Hc. destruct cl; reflexivity.
      + unfold watch_weight. cbn [wa_state wa_owes]. destruct cl as [u a ph]; cbn [cl_user cl_admin cl_phase]. lia.
    - cbn [watch_step]. destruct (dget c ws) as [[[| |i] [|]]|] eqn:Hw; auto. destruct (idle b c) eqn:Hid; [|auto]. cbn [andb]. destruct (Z.ltb_spec i sent); [|auto]. right.
      apply (look_down K b sent ws c (Watching i) (Watching (i + 1)) (HK _ _ Hw) Hid Hw). unfold watch_weight. cbn [wa_state wa_owes]. lia.
    - cbn [watch_step]. destruct (dget c ws) as [[s0 [|]]|] eqn:Hw; auto. right. unfold measure.
      destruct (cu_back _ C _ _ Hw) as [cl Hc]. cbn [ww_world] in Hc.
      assert (H3 : forall s, match s with NotLooked => 4 | Looked _ => 1 | Watching i => 3 * (sent + 1 - i) end <= match s with NotLooked => 4 | Looked _ => 1 | Watching i => 3 * (sent - i) end + 3) by (intros [| |]; lia).
      apply (total_lt _ _ 3 K c); [lia|exact (HK _ _ Hw)| |].
      + intros x. unfold share. cbn [ww_world ww_watches ww_sent]. destruct (dget x (w_clients b)) as [clx|] eqn:Hcx; [|lia]. rewrite dget_dset. eqb_cases x c.
        * subst x. rewrite Hw. unfold watch_weight. cbn [wa_state wa_owes]. specialize (H3 s0). lia.
        * destruct (dget x ws) as [[sx ox]|]; [|lia]. unfold watch_weight. cbn [wa_state wa_owes]. specialize (H3 sx). lia.
      + unfold share. cbn [ww_world ww_watches ww_sent]. rewrite Hc, dget_dset_same, Hw. unfold watch_weight. cbn [wa_state wa_owes]. specialize (H3 s0). lia.
  Qed.

  Lemma plain_joined b e : match e with Join _ => False | _ => True end -> kc_joined (w_doc (gui_step E b e)) = kc_joined (w_doc b).
  Proof.
    intros He. destruct e as [c u a|c|c|c draw|c|c|c rnd|c]; try destruct He; cbn [gui_step event_client]; [reflexivity|..];
      (destruct (dget c (w_clients b)) as [[user admin ph]|]; [|reflexivity]); destruct ph as [| | | |s snap|]; cbn [client_step cl_phase cl_user cl_admin]; try reflexivity.
    - destruct user; [|reflexivity]. destruct (get_guardian_number _ _); reflexivity.
    - destruct user; [|reflexivity]. destruct (make_guardian _ _ _ _ _); reflexivity.
    - destruct (choose_stage _ _ _) as [[|]|]; reflexivity.
    - destruct s; cbn [run_stage]; match goal with |- context [rbind ?y _] => destruct y end; reflexivity.
  Qed.
  Lemma settled_itself w we : settled (ww_world w) -> good_watch E we -> by_itself we -> settled (ww_world (watch_step E w we)).
  Proof.
    intros S Hg Hb. destruct w as [b sent ws]. cbn [ww_world] in S.
    assert (Hstep : forall e, good_event E e -> match e with Open _ _ _ | Join _ => False | _ => True end -> settled (gui_step E b e)).
    { intros e He Hp. apply (step_settled E HE Hmac Hq k ss Hok Hnd ps Hps Hn); auto; [destruct e; try exact Logic.I; destruct Hp|apply plain_joined; destruct e; auto]. }
    destruct we as [e|c|c|c|c].
    - destruct e; try destruct Hb; cbn [watch_step event_client]; try exact S; (destruct (dget c ws) as [[s0 [|]]|]; try exact S); cbn [ww_world]; apply Hstep; auto.
    - cbn [watch_step]. destruct (dget c ws) as [[[| |] [|]]|]; try exact S. destruct (idle b c); [|exact S]. apply Hstep; exact Logic.I.
    - cbn [watch_step]. destruct (dget c ws) as [[[| |] [|]]|]; try exact S. destruct (idle b c); exact S.
    - cbn [watch_step]. destruct (dget c ws) as [[[| |i] [|]]|]; try exact S. destruct (idle b c && (i <? sent)); [|exact S]. apply Hstep; exact Logic.I.
    - cbn [watch_step]. destruct (dget c ws) as [[s0 [|]]|]; exact S.
  Qed.
  Lemma keys_itself w we c wa : by_itself we -> dget c (ww_watches (watch_step E w we)) = Some wa -> exists wa', dget c (ww_watches w) = Some wa'.
  Proof.
    intros Hb. destruct w as [b sent ws].
    assert (Hset : forall c0 v x, dget c0 ws = Some v -> dget c (dset c0 x ws) = Some wa -> exists wa', dget c ws = Some wa').
    { intros c0 v x Hv. rewrite dget_dset. eqb_cases c c0; [subst; eauto|eauto]. }
    destruct we as [e|c0|c0|c0|c0].
    - destruct e; try destruct Hb; cbn [watch_step event_client ww_watches]; eauto; (destruct (dget c0 ws) as [[s0 [|]]|] eqn:Hw; cbn [ww_watches]; eauto).
    - cbn [watch_step]. destruct (dget c0 ws) as [[[| |] [|]]|] eqn:Hw; cbn [ww_watches]; eauto. destruct (idle b c0); cbn [ww_watches]; eauto.
    - cbn [watch_step]. destruct (dget c0 ws) as [[[| |] [|]]|] eqn:Hw; cbn [ww_watches]; eauto. destruct (idle b c0); cbn [ww_watches]; eauto.
    - cbn [watch_step]. destruct (dget c0 ws) as [[[| |i] [|]]|] eqn:Hw; cbn [ww_watches]; eauto. destruct (idle b c0 && (i <? sent)); cbn [ww_watches]; eauto.
    - cbn [watch_step]. destruct (dget c0 ws) as [[s0 [|]]|] eqn:Hw; cbn [ww_watches]; eauto.
  Qed.
  Lemma moving_bound K l : forall w, settled (ww_world w) -> cursors w -> (forall c wa, dget c (ww_watches w) = Some wa -> In c K) ->
    Forall (good_watch E) l -> Forall by_itself l -> moving E w l -> len l <= measure K w.
  Proof.
    induction l as [|we l IH]; intros w S C HK Hg Hb Hm.
    - change (len (@nil watch_event)) with 0. apply total_nonneg. intros c. apply share_nonneg. exact C.
    - inversion Hg; subst. inversion Hb; subst. destruct Hm as [Hm1 Hm2]. rewrite len_cons.
      destruct (step_down K w we S C HK) as [He|Hlt]; auto; [congruence|].
      assert (H' : len l <= measure K (watch_step E w we)); [|lia].
      apply IH; auto; [apply settled_itself; auto|apply cursors_step; exact C|]. intros c wa Hc. destruct (keys_itself w we c wa ltac:(assumption) Hc) as [wa' Hw']. eauto.
  Qed.
  Lemma settled_run l : forall w, settled (ww_world w) -> Forall (good_watch E) l -> Forall by_itself l ->
    settled (ww_world (watch_run E w l)) /\ kc_joined (w_doc (ww_world (watch_run E w l))) = kc_joined (w_doc (ww_world w)).
  Proof.
    induction l as [|we l IH]; intros w S Hg Hb; [auto|]. inversion Hg; subst. inversion Hb; subst. cbn [watch_run fold_left].
    assert (S' : settled (ww_world (watch_step E w we))) by (apply settled_itself; auto).
    destruct (IH _ S') as [I1 I2]; auto. split; [exact I1|]. etransitivity; [exact I2|].
    destruct (se_full _ _ _ _ _ S) as [F _]. destruct (se_full _ _ _ _ _ S') as [F' _]. congruence.
  Qed.

  (** ** either somebody can take a step or everybody waits for a message *)
  Lemma client_moves w c cl : settled (ww_world w) -> cursors w -> dget c (w_clients (ww_world w)) = Some cl ->
    can_move E w \/ cl_phase cl = Idle /\ dget c (ww_watches w) = Some (mkWatch (Watching (ww_sent w)) false).
  Proof.
    intros S C Hc. destruct w as [b sent ws]. cbn [ww_world ww_watches ww_sent] in *. destruct (cu_all _ C c cl Hc) as [[s o] Hw]. cbn [ww_watches] in Hw.
    assert (Hmove : forall we w', good_watch E we -> by_itself we -> watch_step E (mkWatchWorld b sent ws) we = w' -> w' <> mkWatchWorld b sent ws -> can_move E (mkWatchWorld b sent ws))
      by (intros we w' H1 H2 H3 H4; exists we; rewrite H3; auto).
    assert (Hws : forall b' sent' x, dget c ws <> Some x -> mkWatchWorld b' sent' (dset c x ws) <> mkWatchWorld b sent ws).
    { intros b' sent' x Hx H. injection H as _ _ H. apply Hx. rewrite <- H at 1. apply dget_dset_same. }
    destruct o.
    { left. apply (Hmove (Notify c) _ Logic.I Logic.I eq_refl). cbn [watch_step]. rewrite Hw. apply Hws. congruence. }
    pose proof (settled_idle E k ss ps b c cl S Hc) as Hj. destruct (cl_phase cl) as [| | | |st snap|] eqn:Hp; try discriminate Hj.
    - assert (Hid : idle b c = true) by (unfold idle; rewrite Hc, Hp; reflexivity). destruct s as [|m|i].
      + left. apply (Hmove (FirstLook c) _ Logic.I Logic.I eq_refl). cbn [watch_step]. rewrite Hw, Hid. apply Hws. congruence.
      + left. apply (Hmove (Burn c) _ Logic.I Logic.I eq_refl). cbn [watch_step]. rewrite Hw, Hid. apply Hws. congruence.
      + pose proof (cu_mark _ C _ _ Hw) as M. cbn in M. destruct (Z.ltb_spec i sent) as [Hi|Hi]; [|right; split; [reflexivity|]; replace i with sent in Hw by lia; exact Hw].
        left. apply (Hmove (Deliver c) _ Logic.I Logic.I eq_refl). cbn [watch_step]. rewrite Hw, Hid. destruct (Z.ltb_spec i sent); [|lia]. apply Hws. rewrite Hw. intros H0. injection H0. lia.
    - left. apply (Hmove (Step (RunStage c (fun _ => 0))) _ ltac:(cbn; intros; lia) Logic.I eq_refl). cbn [watch_step event_client]. rewrite Hw. intros H. injection H as H _.
      cbn [gui_step event_client] in H. rewrite Hc in H. cbn [client_step] in H. rewrite Hp in H.
      assert (Hph : forall d f p, mkWorld d f (set_phase b c cl p) = b -> cl_phase cl = p).
      { intros d f p H0. apply (f_equal (fun x => dget c (w_clients x))) in H0. cbn [w_clients] in H0. unfold set_phase in H0. rewrite dget_dset_same, Hc in H0.
        injection H0 as H0. rewrite <- H0. reflexivity. }
      destruct (run_stage _ _ _ _ _ _ _) as [[d' p]|x] eqn:Hr.
      + destruct (stage_closes b c cl st snap (fun _ => 0) d' p S Hc Hp ltac:(intros; lia) Hr) as (_ & _ & ->). apply Hph in H. destruct st; congruence.
      + apply Hph in H. congruence.
    - left. apply (Hmove (Step (MarkComplete c)) _ Logic.I Logic.I eq_refl). cbn [watch_step event_client]. rewrite Hw. apply Hws. unfold changes. cbn [event_client]. rewrite Hc, Hp. congruence.
  Qed.
  Lemma moves_or_quiet w : settled (ww_world w) -> cursors w -> can_move E w \/ quiet w.
  Proof.
    intros S C.
    assert (H : forall l, (forall e, In e l -> In e (dkeys (w_clients (ww_world w)))) -> can_move E w \/ forall c cl, In c l -> dget c (w_clients (ww_world w)) = Some cl ->
      cl_phase cl = Idle /\ dget c (ww_watches w) = Some (mkWatch (Watching (ww_sent w)) false)).
    { induction l as [|c l IH]; intros Hl; [right; intros c cl []|]. destruct IH as [IH|IH]; [intros e He; apply Hl; right; exact He|left; exact IH|].
      destruct (proj2 (dget_some_key c (w_clients (ww_world w))) (Hl c (or_introl eq_refl))) as [cl Hc].
      destruct (client_moves w c cl S C Hc) as [M|M]; [left; exact M|right]. intros c' cl' [<-|Hin] Hc'; [replace cl' with cl by congruence; exact M|eauto]. }
    destruct (H (dkeys (w_clients (ww_world w))) ltac:(auto)) as [M|M]; [left; exact M|right]. intros c cl Hc. apply M; [|exact Hc]. apply dget_some_key. eauto.
  Qed.
End Ends.

Lemma watch_ends E n t ps h : valid_env E -> hmac_32 E -> qq E <= 2 ^ 1024 -> 0 < t -> 0 < n -> n < qq E -> (forall j, 0 <= j < t -> n ^ j < pp E) -> one_each ps ->
  let w := watch_run E (watch_start n t) h in
  Forall (good_watch E) h -> Forall (watch_of ps) h -> ready ps (ww_world w) ->
  exists N, forall l, Forall (good_watch E) l -> Forall by_itself l -> let w' := watch_run E w l in
    (moving E w l -> len l <= N) /\ (can_move E w' \/ quiet w') /\
    (news w -> orderly E w l -> can_move E w' \/ get_key_ceremony_state (w_doc (ww_world w')) = CeremonyComplete).
Proof.
  intros HE Hmac Hq Ht Hn Hnq Hpow Hps w Hg Ho R.
  destruct (watch_run_base E ps h (watch_start n t)) as (h0 & He & Hg0 & Ho0 & _). specialize (Hg0 Hg). specialize (Ho0 Ho). fold w in He. cbn [watch_start ww_world] in He.
  rewrite <- (Z2Nat.id t) in He by lia. assert (Hk : (0 < Z.to_nat t)%nat) by lia.
  assert (Hpow' : forall j, 0 <= j < Z.of_nat (Z.to_nat t) -> n ^ j < pp E) by (intros j Hjj; apply Hpow; lia).
  pose proof R as R'. rewrite He in R'. destruct (settled_start E HE Hmac Hq _ n Hk Hn Hnq Hpow' ps Hps h0 Hg0 Ho0 R') as (ss & Hnd & Hok & Hl & Hids & S). rewrite <- He in S, Hids.
  assert (Hpos : 0 < len ss) by lia. assert (C : cursors w) by (apply cursors_run, cursors_start).
  exists (measure (dkeys (ww_watches w)) w). intros l Hgl Hbl w'.
  destruct (settled_run E HE Hmac Hq _ ss Hok Hnd ps Hps Hpos l w S Hgl Hbl) as [S' Hj]. fold w' in S', Hj.
  assert (C' : cursors w') by (apply cursors_run; exact C).
  pose proof (moves_or_quiet E HE Hmac Hq _ ss Hok Hnd ps Hpos w' S' C') as MQ.
  split; [|split; [exact MQ|]].
  - intros Hm. apply (moving_bound E HE Hmac Hq _ ss Hok Hnd ps Hps Hpos _ l w S C); auto. intros c wa Hc. apply dget_some_key. eauto.
  - intros Hnews Hord. destruct MQ as [M|Q]; [left; exact M|right].
    apply (watch_completes E n t ps h l); auto; try (apply Forall_app; auto).
    split; [exact Ho|]. clear - Hbl. induction Hbl as [|we l Hb _ IH]; constructor; auto. destruct we as [[| | | | | | |]| | | |]; try exact Logic.I; destruct Hb.
Qed.
