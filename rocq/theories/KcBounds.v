(** * KcBounds: a key ceremony with a quorum of zero or less never gets a joint key. *)
From Verif Require Import Base Group Codec Hash DLog ElGamal ZK Poly Manifest Ballot Encrypt Ceremony DLogFacts GuiCeremony.
From Coq Require Import List Lia.
Local Open Scope Z_scope.
Local Open Scope list_scope.

Definition phase_ok (p : phase) : Prop :=
  match p with JoinSaved _ | Published => False | Running s snap => s = S2Announce /\ kc_keys snap = [] | _ => True end.
Record no_keys (w : world) : Prop := {
  nk_quorum : kc_quorum (w_doc w) <= 0;
  nk_keys : kc_keys (w_doc w) = [];
  nk_other : kc_other (w_doc w) = [];
  nk_joint : kc_joint (w_doc w) = None;
  nk_open : kc_completed (w_doc w) = false;
  nk_clients : forall c cl, dget c (w_clients w) = Some cl -> phase_ok (cl_phase cl) }.
Lemma choose_announce user admin d s : kc_other d = [] -> choose_stage user admin d = Ok (Some s) -> s = S2Announce.
Proof.
  intros Ho. unfold choose_stage. assert (Hs : get_key_ceremony_state d = PendingGuardiansJoin \/ get_key_ceremony_state d = PendingAdminAnnounce).
  { unfold get_key_ceremony_state. rewrite Ho. destruct (len (kc_joined d) <? kc_count d); auto. }
  destruct Hs as [Hs|Hs]; rewrite Hs; destruct admin, user; cbn; intros [= <-]; reflexivity.
Qed.
Lemma announce_nothing d l : kc_keys d = [] -> s2_announce d = Ok l -> l = [].
Proof.
  intros Hk. unfold s2_announce, announce_guardians. destruct (kc_joined d) as [|u us]; [cbn; congruence|]. cbn [rfold]. unfold find_key. rewrite Hk. cbn. discriminate.
Qed.
Lemma no_guardian E draw u n d g : kc_quorum d <= 0 -> make_guardian E draw u n d <> Ok g.
Proof. intros H. unfold make_guardian. replace (Z.to_nat (kc_quorum d)) with 0%nat by lia. cbn. discriminate. Qed.
Lemma set_ok w c cl p : (forall x cl, dget x (w_clients w) = Some cl -> phase_ok (cl_phase cl)) -> phase_ok p -> forall x cl', dget x (set_phase w c cl p) = Some cl' -> phase_ok (cl_phase cl').
Proof.
  intros H Hp x cl'. unfold set_phase. destruct (string_dec x c) as [->|Hx].
  - rewrite dget_dset_same. intros [= <-]. exact Hp.
  - rewrite dget_dset_other by congruence. apply H.
Qed.
Lemma step_no_keys E w e : no_keys w -> no_keys (gui_step E w e).
Proof.
  intros Hw. pose proof Hw as [H1 H2 H3 H4 H5 H6]. unfold gui_step.
  assert (Hgo : no_keys match dget (event_client e) (w_clients w) with None => w | Some cl => client_step E w (event_client e) cl e end).
  { destruct (dget (event_client e) (w_clients w)) as [cl|] eqn:Hc; [|exact Hw]. pose proof (H6 _ _ Hc) as Hp. unfold client_step.
    destruct e as [c us ad|c|c|c draw|c|c|c rnd|c], (cl_phase cl) as [| |n|k|s snap|] eqn:Hph; try exact Hw; try (destruct Hp; fail).
    - destruct (cl_user cl); [|exact Hw]. split; cbn; auto. apply set_ok; [exact H6|exact I].
    - destruct (cl_user cl); [|exact Hw]. destruct (get_guardian_number _ _); split; cbn; auto; apply set_ok; auto; exact I.
    - destruct (cl_user cl); [|exact Hw]. destruct (make_guardian _ _ _ _ _) as [g|] eqn:Hg; [exfalso; exact (no_guardian _ _ _ _ _ _ H1 Hg)|]. split; cbn; auto. apply set_ok; [exact H6|exact I].
    - destruct (choose_stage _ _ _) as [[s|]|] eqn:Hs; try exact Hw. apply choose_announce in Hs; [|exact H3]. split; cbn; auto. apply set_ok; [exact H6|split; assumption].
    - destruct Hp as [-> Hk]. cbn [run_stage]. destruct (s2_announce snap) as [l|] eqn:Hl; cbn [rbind].
      + apply announce_nothing in Hl; [|exact Hk]. subst l. split; cbn; auto; [rewrite H3; reflexivity|]. apply set_ok; [exact H6|exact I].
      + split; cbn; auto. apply set_ok; [exact H6|exact I]. }
  destruct e as [c us ad|c|c|c draw|c|c|c rnd|c]; try exact Hgo. split; cbn; auto. intros x cl. destruct (string_dec x c) as [->|Hx].
  - rewrite dget_dset_same. intros [= <-]. exact I.
  - rewrite dget_dset_other by congruence. apply H6.
Qed.
Lemma run_no_keys E h : forall w, no_keys w -> no_keys (gui_run E w h).
Proof. unfold gui_run. induction h as [|e h IH]; intros w H; [exact H|]. cbn [fold_left]. apply IH, step_no_keys, H. Qed.
Lemma bounds_thm E count quorum d h : create_key_ceremony count quorum = Some d ->
  kc_joint (w_doc (gui_run E (gui_start count quorum) h)) <> None \/ kc_completed (w_doc (gui_run E (gui_start count quorum) h)) = true -> 1 <= quorum <= count.
Proof.
  unfold create_key_ceremony. destruct (Z.ltb_spec count quorum); [discriminate|]. intros _ Hc. split; [|lia]. destruct (Z_le_gt_dec 1 quorum); [assumption|]. exfalso.
  destruct (run_no_keys E h (gui_start count quorum)) as [_ _ _ H4 H5 _]; [split; cbn; auto; [lia|intros c cl; discriminate]|]. destruct Hc as [Hc|Hc]; congruence.
Qed.
