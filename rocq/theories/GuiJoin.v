(** * GuiJoin: joining the key ceremony, when every guardian joins once. *)
From Verif Require Import Base Group Spec GroupFacts Codec Hash DLog ElGamal ZK Poly ListFacts Manifest Ballot Encrypt
  Ceremony SpecCeremony MediatorFacts CeremonyFacts GuiCeremony SpecGui GuiFacts.
Import List.

Lemma nodup_snoc {A} (l : list A) x : NoDup l -> ~ In x l -> NoDup (l ++ [x]).
Proof.
  intros Hl Hx. induction Hl as [|a l Ha Hl IH]; cbn; [repeat constructor; tauto|]. constructor.
  - rewrite in_app_iff. cbn. intros [?|[->|[]]]; [contradiction|]. apply Hx. left. reflexivity.
  - apply IH. intros Hin. apply Hx. right. assumption.
Qed.
Lemma nodup_prefix {A} (l l' : list A) : prefix l l' -> NoDup l' -> NoDup l.
Proof.
  intros [t ->]. induction l as [|a l IH]; cbn; intros H; [constructor|]. inversion H as [|? ? Ha Hl]; subst. constructor; [|auto].
  intros Hin. apply Ha, in_app_iff. auto.
Qed.

Section Join.
  Context (E : env) (k : nat).

  Definition joining (p : phase) : bool := match p with JoinPushed | JoinNumbered _ | JoinSaved _ => true | _ => false end.
  Definition made_file (u : string) (r : private_record) : Prop :=
    exists s, st_id s = u /\ r = mkPrivate u (keys_of E s) [] [(u, pk_of E s)] [] [] /\ length (st_draws s) = k /\ Forall (fun a => 0 <= a < qq E) (st_secrets s).
  Record joins_ok (w : world) : Prop := {
    j_quorum : kc_quorum (w_doc w) = Z.of_nat k;
    j_files : forall u r, dget u (w_files w) = Some r -> made_file u r;
    j_busy : forall c cl, dget c (w_clients w) = Some cl -> joining (cl_phase cl) = true ->
      exists u, cl_user cl = Some u /\ In u (kc_joined (w_doc w)) /\ ~ In u (map pk_owner (kc_keys (w_doc w)))
        /\ forall c' cl', dget c' (w_clients w) = Some cl' -> joining (cl_phase cl') = true -> cl_user cl' = Some u -> c' = c;
    j_saved : forall c cl key, dget c (w_clients w) = Some cl -> cl_phase cl = JoinSaved key ->
      exists r, dget (pk_owner key) (w_files w) = Some r /\ share_keys (pr_keys r) = key;
    j_owners : NoDup (map pk_owner (kc_keys (w_doc w)));
    j_keys : forall key, In key (kc_keys (w_doc w)) -> exists r, dget (pk_owner key) (w_files w) = Some r /\ share_keys (pr_keys r) = key }.

  Lemma start_joins n : joins_ok (gui_start n (Z.of_nat k)).
  Proof. constructor; cbn; try discriminate; try (intros; contradiction); [reflexivity|constructor]. Qed.

  Lemma key_joined d key : doc_ok E d -> In key (kc_keys d) -> In (pk_owner key) (kc_joined d).
  Proof. intros Hd Hk. eapply number_joined, do_keys; eassumption. Qed.

  (** a step that touches neither the lists of joined guardians and keys, nor the files, and ends outside the
      joining phases *)
  Lemma joins_other w c cl d p : joins_ok w -> kc_quorum d = kc_quorum (w_doc w) -> kc_joined d = kc_joined (w_doc w) -> kc_keys d = kc_keys (w_doc w) ->
    joining p = false -> joins_ok (mkWorld d (w_files w) (set_phase w c cl p)).
  Proof.
    intros [Q F B S O K] Hq Hj Hk Hp. constructor; cbn [w_doc w_files w_clients]; rewrite ?Hq, ?Hj, ?Hk; auto.
    - intros c1 cl1 H1 P1. apply set_phase_get in H1 as [[-> ->]|[NH1 H1]]; [cbn in P1; congruence|].
      destruct (B _ _ H1 P1) as (u & B1 & B2 & B3 & B4). exists u. do 3 (split; [assumption|]).
      intros c' cl' H' P' U'. apply set_phase_get in H' as [[-> ->]|[NH' H']]; [cbn in P'; congruence|]. eapply B4; eassumption.
    - intros c1 cl1 key H1 P1. apply set_phase_get in H1 as [[-> ->]|[NH1 H1]]; [cbn in P1; subst p; discriminate|]. eapply S; eassumption.
  Qed.
  Lemma run_stage_joins files rnd u s snap d d' p : run_stage E files rnd u s snap d = Ok (d', p) ->
    kc_quorum d' = kc_quorum d /\ kc_joined d' = kc_joined d /\ kc_keys d' = kc_keys d /\ joining p = false.
  Proof.
    destruct s; cbn [run_stage]; match goal with |- context [rbind ?x _] => destruct x end; cbn [rbind]; try discriminate; intros [= <- <-]; auto.
  Qed.

  Lemma joins_client w c cl e : world_ok E w -> joins_ok w -> good_event E e -> dget c (w_clients w) = Some cl ->
    NoDup (kc_joined (w_doc (client_step E w c cl e))) -> joins_ok (client_step E w c cl e).
  Proof.
    intros W JW He Hc. pose proof JW as [Q F B S O K]. pose proof (wo_clients _ _ W _ _ Hc) as Hcl. pose proof (wo_doc _ _ W) as Hd.
    destruct cl as [user admin ph]. destruct e, ph; cbn [client_step cl_phase cl_user cl_admin] in *; intros Hnd; try exact JW.
    - (* Join *) destruct user as [u|]; [|exact JW]. cbn in Hnd.
      assert (Hu : ~ In u (kc_joined (w_doc w))) by (rewrite <- app_nil_r with (l := _ ++ [u]), <- app_assoc in Hnd; cbn in Hnd; apply NoDup_remove_2 in Hnd; rewrite app_nil_r in Hnd; exact Hnd).
      constructor; cbn [w_doc w_files w_clients append_guardian_joined kc_quorum kc_joined kc_keys]; auto.
      + intros c1 cl1 H1 P1. apply set_phase_get in H1 as [[-> ->]|[NH1 H1]].
        * exists u. split; [reflexivity|]. split; [apply in_app_iff; right; left; reflexivity|]. split.
          -- intros Hin. apply in_map_iff in Hin as [key [<- Hin]]. apply Hu. eapply key_joined; eassumption.
          -- intros c' cl' H' P' U'. apply set_phase_get in H' as [[-> _]|[NH' H']]; [reflexivity|].
             destruct (B _ _ H' P') as (u' & B1 & B2 & _). exfalso. apply Hu. congruence.
        * destruct (B _ _ H1 P1) as (u1 & B1 & B2 & B3 & B4). exists u1. split; [assumption|]. split; [apply in_app_iff; auto|]. split; [assumption|].
          intros c' cl' H' P' U'. apply set_phase_get in H' as [[-> ->]|[NH' H']]; [|eapply B4; eassumption].
          cbn in U'. injection U' as ->. contradiction.
      + intros c1 cl1 key H1 P1. apply set_phase_get in H1 as [[-> ->]|[NH1 H1]]; [discriminate|]. eapply S; eassumption.
    - (* ReadNumber *) destruct user as [u|]; [|exact JW].
      destruct (B _ _ Hc eq_refl) as (u' & B1 & B2 & B3 & B4). cbn in B1. injection B1 as <-.
      destruct (get_guardian_number _ _) as [n|]; [|apply joins_other; auto].
      constructor; cbn [w_doc w_files w_clients]; auto.
      + intros c1 cl1 H1 P1. assert (G : forall cl', dget c (set_phase w c (mkClient (Some u) admin JoinPushed) (JoinNumbered n)) = Some cl' -> cl_user cl' = Some u).
        { intros cl' H'. apply set_phase_get in H' as [[_ ->]|[NH' H']]; [reflexivity|]. rewrite Hc in H'. injection H' as <-. reflexivity. }
        apply set_phase_get in H1 as [[-> ->]|[NH1 H1]].
        * exists u. do 3 (split; [auto|]). intros c' cl' H' P' U'. apply set_phase_get in H' as [[-> _]|[NH' H']]; [reflexivity|]. eapply B4; eassumption.
        * destruct (B _ _ H1 P1) as (u1 & C1 & C2 & C3 & C4). exists u1. do 3 (split; [assumption|]).
          intros c' cl' H' P' U'. apply set_phase_get in H' as [[-> ->]|[NH' H']]; [|eapply C4; eassumption]. cbn in U'. injection U' as <-.
          symmetry. eapply B4; eassumption.
      + intros c1 cl1 key H1 P1. apply set_phase_get in H1 as [[-> ->]|[NH1 H1]]; [discriminate|]. eapply S; eassumption.
    - (* MakeGuardian *) destruct user as [u|]; [|exact JW].
      destruct (B _ _ Hc eq_refl) as (u' & B1 & B2 & B3 & B4). cbn in B1. injection B1 as <-.
      destruct (make_guardian _ _ _ _ _) as [g|] eqn:Hg; [|apply joins_other; auto].
      assert (Hf : made_file u (export_private_data g)).
      { unfold make_guardian, guardian_from_nonce in Hg. destruct (generate_election_key_pair _ _ _ _) as [kp|] eqn:Hk; cbn [rbind] in Hg; [|discriminate].
        injection Hg as <-. exists (mkSeat u n (map draw (seq 0 (Z.to_nat (kc_quorum (w_doc w)))))). split; [reflexivity|].
        cbn [st_draws]. split.
        - unfold generate_election_key_pair in Hk. unfold keys_of, st_secret, st_secrets. cbn [st_draws st_id st_seq].
          destruct (map draw _) as [|d0 l]; cbn in Hk; [discriminate|]. injection Hk as <-. reflexivity.
        - split; [rewrite map_length, seq_length, Q; apply Nat2Z.id|]. unfold st_secrets. cbn [st_draws]. rewrite map_map. rewrite Forall_forall.
          intros a Ha. apply in_map_iff in Ha as [i [<- _]]. apply He. }
      pose proof (made_guardian E _ _ _ _ _ Hg) as (_ & G1 & _).
      constructor; cbn [w_doc w_files w_clients]; auto.
      + intros u1 r. rewrite dget_dset. eqb_cases u1 u; [intros [= <-]; subst; exact Hf|apply F].
      + intros c1 cl1 H1 P1. apply set_phase_get in H1 as [[-> ->]|[NH1 H1]].
        * exists u. do 3 (split; [auto|]). intros c' cl' H' P' U'. apply set_phase_get in H' as [[-> _]|[NH' H']]; [reflexivity|]. eapply B4; eassumption.
        * destruct (B _ _ H1 P1) as (u1 & C1 & C2 & C3 & C4). exists u1. do 3 (split; [assumption|]).
          intros c' cl' H' P' U'. apply set_phase_get in H' as [[-> ->]|[NH' H']]; [|eapply C4; eassumption]. cbn in U'. injection U' as <-.
          symmetry. eapply B4; eassumption.
      + intros c1 cl1 key H1 P1. apply set_phase_get in H1 as [[-> ->]|[NH1 H1]].
        * cbn in P1. injection P1 as <-. rewrite G1. exists (export_private_data g). rewrite dget_dset_same. split; reflexivity.
        * destruct (S _ _ _ H1 P1) as (r & R1 & R2). exists r. split; [|assumption]. rewrite dget_dset_other; [assumption|]. intros Heq.
          pose proof (wo_clients _ _ W _ _ H1) as Hc1. unfold client_ok in Hc1. rewrite P1 in Hc1. destruct Hc1 as [U1 _].
          assert (c1 = c) by (eapply B4; [eassumption|rewrite P1; reflexivity|congruence]). subst c1. rewrite Hc in H1. injection H1 as <-. discriminate.
      + intros key Hin. destruct (K _ Hin) as (r & R1 & R2). exists r. split; [|assumption]. rewrite dget_dset_other; [assumption|]. intros Heq.
        apply B3. rewrite <- Heq. apply in_map. assumption.
    - (* PushKey *) rename k0 into key0. destruct (B _ _ Hc eq_refl) as (u & B1 & B2 & B3 & B4). cbn in Hcl. destruct Hcl as [U0 N0]. cbn in B1. rewrite U0 in B1. injection B1 as <-.
      destruct (S _ _ _ Hc eq_refl) as (r0 & R1 & R2).
      constructor; cbn [w_doc w_files w_clients append_key kc_quorum kc_joined kc_keys]; auto.
      + intros c1 cl1 H1 P1. apply set_phase_get in H1 as [[-> ->]|[NH1 H1]]; [discriminate|].
        destruct (B _ _ H1 P1) as (u1 & C1 & C2 & C3 & C4). exists u1. split; [assumption|]. split; [assumption|]. split.
        * rewrite map_app, in_app_iff. intros [Hin|[Heq|[]]]; [contradiction|]. cbn in Heq. assert (c1 = c) by (eapply B4; [eassumption|assumption|congruence]). subst c1.
          congruence.
        * intros c' cl' H' P' U'. apply set_phase_get in H' as [[-> ->]|[NH' H']]; [discriminate|]. eapply C4; eassumption.
      + intros c1 cl1 key H1 P1. apply set_phase_get in H1 as [[-> ->]|[NH1 H1]]; [discriminate|]. eapply S; eassumption.
      + rewrite map_app. cbn [map]. apply nodup_snoc; assumption.
      + intros key Hin. apply in_app_iff in Hin as [Hin|[<-|[]]]; [apply K; assumption|]. exists r0. auto.
    - (* Changed *) destruct (choose_stage _ _ _) as [[s|]|]; try exact JW. apply joins_other; auto.
    - (* RunStage *) destruct (run_stage _ _ _ _ _ _ _) as [[d' p]|] eqn:Hr; [|apply joins_other; auto].
      destruct (run_stage_joins _ _ _ _ _ _ _ _ Hr) as (A & B' & C & D). apply joins_other; auto.
    - (* MarkComplete *) apply joins_other; auto.
  Qed.

  (** the file of a guardian whose key is in the document does not change any more *)
  Lemma file_kept_client w c cl e u : world_ok E w -> joins_ok w -> dget c (w_clients w) = Some cl ->
    In u (map pk_owner (kc_keys (w_doc w))) -> dget u (w_files (client_step E w c cl e)) = dget u (w_files w).
  Proof.
    intros W JW Hc Hu. destruct cl as [user admin ph]. destruct e, ph; cbn [client_step cl_phase cl_user cl_admin]; try reflexivity.
    - destruct user; reflexivity.
    - destruct user; [|reflexivity]. destruct (get_guardian_number _ _); reflexivity.
    - destruct user as [u'|]; [|reflexivity]. destruct (make_guardian _ _ _ _ _) as [g|]; [|reflexivity]. cbn [w_files].
      destruct (j_busy _ JW _ _ Hc eq_refl) as (u1 & B1 & _ & B3 & _). cbn in B1. injection B1 as <-. apply dget_dset_other. congruence.
    - destruct (choose_stage _ _ _) as [[s|]|]; reflexivity.
    - destruct (run_stage _ _ _ _ _ _ _) as [[d' p]|]; reflexivity.
  Qed.
  Lemma joins_step w e : world_ok E w -> joins_ok w -> good_event E e -> NoDup (kc_joined (w_doc (gui_step E w e))) -> joins_ok (gui_step E w e).
  Proof.
    intros W JW He. destruct (step_cases E w e) as [->|[(c & u & a & -> & ->)|(cl & Hd & ->)]]; intros Hnd; [exact JW| |apply joins_client; assumption].
    destruct JW as [Q F B S O K]. constructor; cbn [w_doc w_files w_clients]; auto.
    - intros c1 cl1 H1 P1. rewrite dget_dset in H1. revert H1. eqb_cases c1 c; [intros [= <-]; discriminate|]. intros H1.
      destruct (B _ _ H1 P1) as (u1 & C1 & C2 & C3 & C4). exists u1. do 3 (split; [assumption|]).
      intros c' cl' H' P' U'. rewrite dget_dset in H'. revert H'. eqb_cases c' c; [intros [= <-]; discriminate|]. intros H'. eapply C4; eassumption.
    - intros c1 cl1 key H1 P1. rewrite dget_dset in H1. revert H1. eqb_cases c1 c; [intros [= <-]; discriminate|]. intros H1. eapply S; eassumption.
  Qed.
  Lemma file_kept w e u : world_ok E w -> joins_ok w -> In u (map pk_owner (kc_keys (w_doc w))) ->
    dget u (w_files (gui_step E w e)) = dget u (w_files w).
  Proof.
    intros W JW Hu. destruct (step_cases E w e) as [->|[(c & u' & a & -> & ->)|(cl & Hd & ->)]]; [reflexivity|reflexivity|apply file_kept_client; assumption].
  Qed.
  Lemma joins_run h : forall w, world_ok E w -> joins_ok w -> Forall (good_event E) h -> NoDup (kc_joined (w_doc (gui_run E w h))) ->
    joins_ok (gui_run E w h) /\ forall u, In u (map pk_owner (kc_keys (w_doc w))) -> dget u (w_files (gui_run E w h)) = dget u (w_files w).
  Proof.
    induction h as [|e h IH]; intros w W JW Hh Hnd; [auto|]. cbn [gui_run fold_left] in *. inversion Hh; subst.
    assert (Hnd1 : NoDup (kc_joined (w_doc (gui_step E w e)))) by (eapply nodup_prefix; [apply (le_joined _ _ (run_le E h _))|exact Hnd]).
    assert (JW1 : joins_ok (gui_step E w e)) by (apply joins_step; assumption).
    destruct (IH (gui_step E w e)) as [J2 F2]; [apply step_ok; assumption|assumption|assumption|assumption|]. split; [exact J2|].
    intros u Hu. unfold gui_run in F2. rewrite F2; [apply file_kept; assumption|].
    apply in_map_iff in Hu as [key [<- Hin]]. apply in_map. eapply prefix_in; [apply (le_keys _ _ (step_le E w e))|exact Hin].
  Qed.
End Join.
