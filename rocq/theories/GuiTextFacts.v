(** * GuiTextFacts: the programs on the text of the document do what the programs on its values do. *)
From Coq Require Import List Lia.
From Verif Require Import Base Group GroupFacts Codec CodecFacts Hash DLog ElGamal ElGamalFacts ZK ZKFacts Poly Spec ListFacts Manifest Ballot Encrypt Ceremony SpecGui GuiCeremony GuiFacts GuiText SpecGuiText.
Import List.

Lemma element_back bound n : 0 <= n < bound -> element_of bound (str_element n) = Ok n.
Proof.
  intros H. unfold element_of, str_element. rewrite hex_roundtrip by lia. cbn [rbind].
  rewrite (proj2 (Z.leb_le 0 n)) by lia. rewrite (proj2 (Z.ltb_lt n bound)) by lia. reflexivity.
Qed.
Lemma rmapM_back {A B} (f : A -> B) (g : B -> res A) (l : list A) : (forall x, In x l -> g (f x) = Ok x) -> rmapM g (map f l) = Ok l.
Proof.
  induction l as [|x l IH]; intros H; [reflexivity|]. cbn [map rmapM]. rewrite (H x) by (left; reflexivity). cbn [rbind].
  rewrite IH by (intros y Hy; apply H; right; assumption). reflexivity.
Qed.

Section Text.
  Context (E : env) (HE : valid_env E).

  Definition proof_pos (p : schnorr) : Prop := 0 <= s_key p /\ 0 <= s_com p /\ 0 <= s_chal p /\ 0 <= s_resp p.
  Definition key_good (k : public_key) : Prop := key_in_range E k /\ Forall proof_pos (pk_proofs k).
  Record doc_good (d : kc) : Prop := {
    dg_keys : forall k, In k (kc_keys d) -> key_good k;
    dg_other : forall u ks k, In (u, ks) (kc_other d) -> In k ks -> key_good k;
    dg_backups : forall b, In b (kc_backups d) -> backup_in_range E b;
    dg_shared : forall u bs b, In (u, bs) (kc_shared d) -> In b bs -> backup_in_range E b;
    dg_joint : forall j, kc_joint d = Some j -> joint_in_range E j }.

  Lemma proof_back p : proof_pos p -> dict_to_proof (proof_to_dict p) = Ok p.
  Proof.
    intros (A & B & C & D). unfold dict_to_proof, proof_to_dict, str_element. cbn [pt_key pt_com pt_chal pt_resp].
    rewrite !hex_roundtrip by assumption. cbn [rbind]. destruct p; reflexivity.
  Qed.
  Lemma key_back k : key_good k -> dict_to_public_key E (public_key_to_dict k) = Ok k.
  Proof.
    intros [[H1 H2] H3]. rewrite Forall_forall in H2, H3. unfold dict_to_public_key, public_key_to_dict. cbn [kt_commitments kt_proofs kt_key kt_owner kt_seq].
    rewrite (rmapM_back str_element) by (intros x Hx; apply element_back; auto). cbn [rbind].
    rewrite (rmapM_back proof_to_dict) by (intros x Hx; apply proof_back; auto). cbn [rbind]. rewrite element_back by assumption. destruct k; reflexivity.
  Qed.
  Lemma backup_back b : backup_in_range E b -> dict_to_backup E (backup_to_dict b) = Ok b.
  Proof.
    intros H. unfold dict_to_backup, backup_to_dict. cbn [bt_owner bt_designated bt_seq bt_pad bt_data bt_mac]. rewrite element_back by exact H.
    destruct b as [? ? ? []]; reflexivity.
  Qed.
  Lemma joint_back j : joint_in_range E j -> dict_to_joint_key E (joint_key_to_dict j) = Ok j.
  Proof. intros [H1 H2]. unfold dict_to_joint_key, joint_key_to_dict. cbn [jt_key jt_hash]. rewrite !element_back by assumption. destruct j; reflexivity. Qed.
  Lemma entry_back {A B} (f : A -> B) (g : B -> res A) (e : string * list A) : (forall x, In x (snd e) -> g (f x) = Ok x) ->
    dict_to_entry g (fst e, map f (snd e)) = Ok e.
  Proof. intros H. unfold dict_to_entry. cbn [fst snd]. rewrite (rmapM_back f g) by assumption. destruct e; reflexivity. Qed.

  Lemma read_back d : doc_good d -> read_doc E (text_of d) = Ok d.
  Proof.
    intros [K O B S J]. unfold read_doc, text_of. cbn [kx_keys kx_other kx_backups kx_shared kx_joint kx_count kx_quorum kx_joined kx_verifs kx_completed].
    rewrite (rmapM_back public_key_to_dict) by (intros k Hk; apply key_back; auto). cbn [rbind].
    rewrite (rmapM_back (fun e => (fst e, map public_key_to_dict (snd e)))).
    2: { intros [u ks] Hin. apply (entry_back public_key_to_dict). intros k Hk. apply key_back. apply (O u ks); assumption. }
    cbn [rbind]. rewrite (rmapM_back backup_to_dict) by (intros b Hb; apply backup_back; auto). cbn [rbind].
    rewrite (rmapM_back (fun e => (fst e, map backup_to_dict (snd e)))).
    2: { intros [u bs] Hin. apply (entry_back backup_to_dict). intros b Hb. apply backup_back. apply (S u bs); assumption. }
    cbn [rbind]. destruct d as [? ? ? ? ? ? ? ? [j|] ?]; cbn in *; [|reflexivity]. rewrite joint_back by auto. reflexivity.
  Qed.

  (** what the programs make is in range *)
  Lemma made_key_good draw u n d g : make_guardian E draw u n d = Ok g -> key_good (share_key g).
  Proof.
    unfold make_guardian, guardian_from_nonce, generate_election_key_pair. destruct (generate_polynomial E _) as [|c pl] eqn:Hp; [discriminate|]. cbn [rbind].
    intros [= <-]. unfold share_key, share_keys, new_guardian. cbn [gd_keys ek_poly ek_owner ek_seq ek_pair kp_public].
    assert (Hall : forall x, In x (c :: pl) -> exists a r, x = make_coefficient E a r).
    { rewrite <- Hp. intros x Hx. unfold generate_polynomial in Hx. apply in_map_iff in Hx as [[a r] [<- _]]. exists a, r. reflexivity. }
    assert (Hr : forall a, 0 <= g_pow_p E a < pp E) by (intros a; apply (pow_p_range E HE)).
    split; [split|].
    - destruct (Hall c (or_introl eq_refl)) as (a & r & ->). cbn [pk_key co_commitment make_coefficient]. apply Hr.
    - cbn [pk_commitments]. unfold get_commitments. apply Forall_forall. intros x Hx. apply in_map_iff in Hx as [y [<- Hy]]. destruct (Hall _ Hy) as (a & r & ->). apply Hr.
    - cbn [pk_proofs]. unfold get_proofs. apply Forall_forall. intros x Hx. apply in_map_iff in Hx as [y [<- Hy]]. destruct (Hall _ Hy) as (a & r & ->).
      cbn [co_proof make_coefficient]. unfold make_schnorr_proof, proof_pos. cbn [kp_public kp_secret s_key s_com s_chal s_resp].
      pose proof (Hr a). pose proof (Hr r). pose proof (hash_range E HE [HElem (g_pow_p E a); HElem (g_pow_p E r)]).
      repeat split; try lia. unfold a_plus_bc_q. apply Z.mod_pos_bound. apply q_gt_1 in HE. lia.
  Qed.
  Lemma backup_pad sender pl k nonce b : generate_backup E sender pl k nonce = Ok b -> backup_in_range E b.
  Proof.
    unfold generate_backup. destruct (compute_polynomial_coordinate _ _ _); cbn [rbind]; [|discriminate].
    destruct (coordinate_to_bytes _); cbn [rbind]; [|discriminate]. destruct (hashed_elgamal_encrypt _ _ _ _ _) as [c|] eqn:Hc; cbn [rbind]; [|discriminate].
    intros [= <-]. unfold backup_in_range. cbn [bk_coordinate]. unfold hashed_elgamal_encrypt in Hc. destruct (get_chunks _).
    destruct (xor_blocks _ _ _ _ _ _); cbn [rbind] in Hc; [|discriminate]. destruct (get_hmac _ _ _ _ _); cbn [rbind] in Hc; [|discriminate].
    destruct (get_hmac _ _ _ _ _); cbn [rbind] in Hc; [|discriminate]. injection Hc as <-. cbn [h_pad]. apply (pow_p_range E HE).
  Qed.
  Lemma loop_pads rnd ks : forall g g' r, generate_backups_loop E rnd ks g = (g', r) ->
    forall o b, In (o, b) (gd_to_share g') -> In (o, b) (gd_to_share g) \/ backup_in_range E b.
  Proof.
    induction ks as [|k ks IH]; intros g g' r; cbn [generate_backups_loop]; [intros [= <- _]; auto|].
    destruct (generate_backup _ _ _ _ _) as [b0|] eqn:Hb; [|intros [= <- _]; auto]. intros H o b Hin.
    destruct (IH _ _ _ H _ _ Hin) as [Hx|Hx]; [|auto].
    cbn [gd_with_to_share gd_to_share] in Hx. apply MediatorFacts.dset_in in Hx as [[-> ->]|Hx]; [|auto]. right. eapply backup_pad; eassumption.
  Qed.
  Lemma s3_pads files rnd u snap l : (forall u r, dget u files = Some r -> file_ok u r) -> doc_ok E snap ->
    s3_backups E files rnd u snap = Ok l -> forall b, In b l -> backup_in_range E b.
  Proof.
    intros Hf Hd. unfold s3_backups. destruct (load_guardian files u snap) as [g|] eqn:Hg; cbn [rbind]; [|discriminate].
    destruct (load_other_keys snap u g) as [g1|] eqn:Hg1; cbn [rbind]; [|discriminate].
    destruct (loaded E _ _ _ _ _ Hf Hd Hg Hg1) as (I1 & I2 & I3 & _).
    destruct (gd_generate_backups E rnd g1) as [g2 r] eqn:Hgen. destruct r; cbn [rbind]; [|discriminate]. intros [= <-] b Hin.
    unfold gd_share_backups, dvals in Hin. apply in_map_iff in Hin as [[o b'] [<- Hin]]. cbn [snd].
    destruct (loop_pads _ _ _ _ _ Hgen _ _ Hin) as [Hx|Hx]; [rewrite I3 in Hx; destruct Hx|assumption].
  Qed.
  Lemma announced_good d mk u k : doc_good d -> announced d mk -> In (u, k) mk -> key_good k.
  Proof.
    intros Hd (snap & m & Hle & Ha & <- & _) Hin. destruct (announce_keys E _ _ Ha) as (_&_&_&_&_&K). destruct (K _ _ Hin) as [Hf _].
    apply find_key_owner in Hf as [_ Hf]. apply (dg_keys _ Hd). eapply prefix_in; [apply (le_keys _ _ Hle)|assumption].
  Qed.
  Lemma s2_good snap l : doc_good snap -> s2_announce snap = Ok l -> forall u ks k, In (u, ks) l -> In k ks -> key_good k.
  Proof.
    intros Hd H u ks k Hin Hk. destruct (s2_spec E _ _ H _ _ Hin) as (mk & Ha & _ & ->). apply in_map_iff in Hk as [[o k'] [<- Hk]]. apply filter_In in Hk as [Hk _].
    eapply announced_good; eassumption.
  Qed.
  Lemma s6_good snap j : s6_publish E snap = Ok j -> joint_in_range E j.
  Proof.
    intros H. destruct (s6_spec E _ _ H) as (mk & _ & ->). unfold combine_keys, joint_in_range. cbn [jk_key jk_hash]. split; [|apply hash_range; assumption].
    unfold elgamal_combine_public_keys. apply mult_p_range. assumption.
  Qed.

  (** the invariant *)
  Definition client_good (cl : client) : Prop :=
    match cl_phase cl with JoinSaved k => key_good k | Running _ snap => doc_good snap | _ => True end.
  Definition world_good (w : world) : Prop := doc_good (w_doc w) /\ forall c cl, dget c (w_clients w) = Some cl -> client_good cl.
  Lemma start_good n q : world_good (gui_start n q).
  Proof. split; [constructor; cbn; try tauto; discriminate|]. discriminate. Qed.
  Lemma set_good w c cl p d f : world_good w -> doc_good d -> client_good (mkClient (cl_user cl) (cl_admin cl) p) -> world_good (mkWorld d f (set_phase w c cl p)).
  Proof.
    intros [_ Hc] Hd Hp. split; [assumption|]. cbn [w_clients]. intros c' cl' H. apply set_phase_get in H as [H|H]; [destruct H as [_ H]; subst; assumption|]. eapply Hc. apply H.
  Qed.

  Lemma text_step_eq w e : world_ok E w -> world_good w -> text_step E (text_world_of w) e = text_world_of (gui_step E w e) /\ world_good (gui_step E w e).
  Proof.
    intros Hok [Hd Hc].
    assert (Hread : read_doc E (text_of (w_doc w)) = Ok (w_doc w)) by (apply read_back; assumption).
    destruct e as [c user admin|c|c|c draw|c|c|c rnd|c].
    { cbn [text_step gui_step]. split; [reflexivity|]. split; [assumption|]. cbn [w_clients]. intros c' cl'. destruct (string_dec c' c) as [->|Hne].
      - rewrite dget_dset_same. intros [= <-]. exact I.
      - rewrite dget_dset_other by assumption. apply Hc. }
    all: cbn [text_step gui_step event_client]; cbn [text_world_of x_clients]; destruct (dget c (w_clients w)) as [cl|] eqn:Hcl; [|split; [reflexivity|split; assumption]];
      pose proof (Hc _ _ Hcl) as Hg; pose proof (wo_clients _ _ Hok _ _ Hcl) as Hcok;
      unfold text_client_step, client_step; unfold client_good in Hg; unfold client_ok in Hcok;
      destruct (cl_phase cl) as [| |n|k|s snap|] eqn:Hph; try (split; [reflexivity|split; assumption]).
    - destruct (cl_user cl) as [u|]; [|split; [reflexivity|split; assumption]]. split; [reflexivity|].
      apply set_good; [split; assumption| |exact I]. destruct Hd as [K O B S J]. constructor; assumption.
    - destruct (cl_user cl) as [u|]; [|split; [reflexivity|split; assumption]]. cbn [text_world_of x_doc]. rewrite Hread. cbn [rbind].
      destruct (get_guardian_number (w_doc w) u); (split; [reflexivity|]; apply set_good; [split; assumption|assumption|exact I]).
    - destruct (cl_user cl) as [u|]; [|split; [reflexivity|split; assumption]]. cbn [text_world_of x_doc]. rewrite Hread. cbn [rbind].
      destruct (make_guardian E draw u n (w_doc w)) as [g|] eqn:Hm; (split; [reflexivity|]; apply set_good; [split; assumption|assumption|]); [|exact I].
      exact (made_key_good _ _ _ _ _ Hm).
    - split.
      + unfold text_world_of, text_key, text_of, append_key. cbn. rewrite map_app. reflexivity.
      + apply set_good; [split; assumption| |exact I]. destruct Hd as [K O B S J]. constructor; try assumption.
        cbn [append_key kc_keys]. intros x Hx. apply in_app_or in Hx as [Hx|[<-|[]]]; auto.
    - cbn [text_world_of x_doc]. rewrite Hread. destruct (choose_stage _ _ _) as [[s|]|]; try (split; [reflexivity|split; assumption]).
      split; [reflexivity|]. apply set_good; [split; assumption|assumption|exact Hd].
    - destruct Hcok as (Hle & Hsok & _). cbn [text_world_of x_doc x_files]. set (u := match cl_user cl with Some u => u | None => EmptyString end).
      pose proof (wo_files _ _ Hok) as Hf. unfold text_stage, run_stage. destruct Hd as [K O B S J]. destruct s.
      + destruct (s2_announce snap) as [l|] eqn:Hs; cbn [rbind]; [|split; [reflexivity|]; apply set_good; [split; [constructor; assumption|assumption]|constructor; assumption|exact I]].
        split; [unfold text_world_of, text_other, text_of, append_other_key; cbn; rewrite map_app; reflexivity|].
        apply set_good; [split; [constructor; assumption|assumption]| |exact I]. constructor; try assumption. cbn [append_other_key kc_other].
        intros u' ks k Hin Hk. apply in_app_or in Hin as [Hin|Hin]; [eapply O; eassumption|]. eapply s2_good; eassumption.
      + destruct (s3_backups E (w_files w) rnd u snap) as [l|] eqn:Hs; cbn [rbind]; [|split; [reflexivity|]; apply set_good; [split; [constructor; assumption|assumption]|constructor; assumption|exact I]].
        split; [unfold text_world_of, text_backups, text_of, append_backups; cbn; rewrite map_app; reflexivity|].
        apply set_good; [split; [constructor; assumption|assumption]| |exact I]. constructor; try assumption. cbn [append_backups kc_backups].
        intros b Hin. apply in_app_or in Hin as [Hin|Hin]; [auto|]. eapply s3_pads; eassumption.
      + destruct (s4_share snap) as [l|] eqn:Hs; cbn [rbind]; [|split; [reflexivity|]; apply set_good; [split; [constructor; assumption|assumption]|constructor; assumption|exact I]].
        split; [unfold text_world_of, text_shared, text_of, append_shared_backups; cbn; rewrite map_app; reflexivity|].
        apply set_good; [split; [constructor; assumption|assumption]| |exact I]. constructor; try assumption. cbn [append_shared_backups kc_shared].
        intros u' bs b Hin Hb. apply in_app_or in Hin as [Hin|Hin]; [eapply S; eassumption|]. apply (dg_backups _ Hg). eapply (s4_spec E); eassumption.
      + destruct (s5_verify E (w_files w) u snap) as [l|] eqn:Hs; cbn [rbind]; (split; [reflexivity|]; apply set_good; [split; [constructor; assumption|assumption]|constructor; assumption|exact I]).
      + destruct (s6_publish E snap) as [j|] eqn:Hs; cbn [rbind]; [|split; [reflexivity|]; apply set_good; [split; [constructor; assumption|assumption]|constructor; assumption|exact I]].
        split; [reflexivity|]. apply set_good; [split; [constructor; assumption|assumption]| |exact I]. constructor; try assumption. cbn [append_joint_key kc_joint].
        intros j' [= <-]. eapply s6_good. eassumption.
    - split; [reflexivity|]. apply set_good; [split; assumption| |exact I]. destruct Hd as [K O B S J]. constructor; assumption.
  Qed.
  Lemma text_run_eq h : forall w, world_ok E w -> world_good w -> text_run E (text_world_of w) h = text_world_of (gui_run E w h) /\ world_good (gui_run E w h).
  Proof.
    induction h as [|e h IH]; intros w Hok Hg; [split; [reflexivity|assumption]|]. unfold text_run, gui_run in *. cbn [fold_left].
    destruct (text_step_eq w e Hok Hg) as [-> Hg']. apply IH; [apply step_ok; assumption|assumption].
  Qed.

  (** ** the theorems *)
  Theorem text_ceremony n q h :
    let w := gui_run E (gui_start n q) h in let x := text_run E (text_start n q) h in
    x_doc x = text_of (w_doc w) /\ read_doc E (x_doc x) = Ok (w_doc w) /\ x_files x = w_files w /\ x_clients x = w_clients w /\ doc_in_range E (w_doc w).
  Proof.
    cbn zeta. destruct (text_run_eq h (gui_start n q) (start_ok E n q) (start_good n q)) as [H [Hd Hc]].
    change (text_start n q) with (text_world_of (gui_start n q)). rewrite H. split; [reflexivity|]. split; [apply read_back; assumption|]. do 2 (split; [reflexivity|]).
    destruct Hd as [K O B S J]. constructor; try assumption; [intros k Hk; apply K; assumption|intros u ks k H1 H2; eapply O; eassumption].
  Qed.

  Lemma element_range bound s n : element_of bound s = Ok n -> 0 <= n < bound.
  Proof.
    unfold element_of. destruct (hex_to_int s) as [m|]; cbn [rbind]; [|discriminate]. destruct (0 <=? m) eqn:H1; cbn [andb]; [|discriminate].
    destruct (m <? bound) eqn:H2; [|discriminate]. intros [= <-]. apply Z.leb_le in H1. apply Z.ltb_lt in H2. lia.
  Qed.
  Lemma key_read t k : dict_to_public_key E t = Ok k -> key_in_range E k.
  Proof.
    unfold dict_to_public_key. destruct (rmapM (element_of (pp E)) _) as [cs|] eqn:Hcs; cbn [rbind]; [|discriminate].
    destruct (rmapM dict_to_proof _); cbn [rbind]; [|discriminate]. destruct (element_of (pp E) (kt_key t)) as [x|] eqn:Hk; cbn [rbind]; [|discriminate].
    intros [= <-]. split; cbn [pk_key pk_commitments]; [eapply element_range; eassumption|]. apply rmapM_iff in Hcs. apply Forall_forall. intros c Hin.
    apply (Forall2_in_r _ _ _ _ Hcs) in Hin as [s [_ Hs]]. eapply element_range; eassumption.
  Qed.
  Lemma backup_read t b : dict_to_backup E t = Ok b -> backup_in_range E b.
  Proof.
    unfold dict_to_backup. destruct (element_of _ _) as [x|] eqn:Hk; cbn [rbind]; [|discriminate]. intros [= <-]. unfold backup_in_range. cbn. eapply element_range; eassumption.
  Qed.
  Lemma entry_read {T V} (f : T -> res V) l l' (e : string * list V) x : rmapM (dict_to_entry f) l = Ok l' -> In e l' -> In x (snd e) -> exists t, f t = Ok x.
  Proof.
    intros H Hin Hx. apply rmapM_iff in H. apply (Forall2_in_r _ _ _ _ H) in Hin as [y [_ Hy]]. unfold dict_to_entry in Hy.
    destruct (rmapM f (snd y)) as [vs|] eqn:Hv; cbn [rbind] in Hy; [|discriminate]. injection Hy as <-. cbn [snd] in Hx. apply rmapM_iff in Hv.
    apply (Forall2_in_r _ _ _ _ Hv) in Hx as [t [_ Ht]]. eauto.
  Qed.
  Theorem read_in_range t d : read_doc E t = Ok d -> doc_in_range E d.
  Proof.
    unfold read_doc. destruct (rmapM (dict_to_public_key E) _) as [ks|] eqn:H1; cbn [rbind]; [|discriminate].
    destruct (rmapM (dict_to_entry (dict_to_public_key E)) _) as [os|] eqn:H2; cbn [rbind]; [|discriminate].
    destruct (rmapM (dict_to_backup E) _) as [bs|] eqn:H3; cbn [rbind]; [|discriminate].
    destruct (rmapM (dict_to_entry (dict_to_backup E)) _) as [ss|] eqn:H4; cbn [rbind]; [|discriminate].
    destruct (match kx_joint t with None => _ | Some _ => _ end) as [j|] eqn:H5; cbn [rbind]; [|discriminate]. intros [= <-]. constructor; cbn.
    - intros k Hk. apply rmapM_iff in H1. apply (Forall2_in_r _ _ _ _ H1) in Hk as [x [_ Hx]]. eapply key_read; eassumption.
    - intros u l k Hin Hk. destruct (entry_read _ _ _ _ _ H2 Hin Hk) as [x Hx]. eapply key_read; eassumption.
    - intros b Hk. apply rmapM_iff in H3. apply (Forall2_in_r _ _ _ _ H3) in Hk as [x [_ Hx]]. eapply backup_read; eassumption.
    - intros u l k Hin Hk. destruct (entry_read _ _ _ _ _ H4 Hin Hk) as [x Hx]. eapply backup_read; eassumption.
    - intros j' ->. destruct (kx_joint t) as [x|]; [|discriminate]. unfold dict_to_joint_key in H5.
      destruct (element_of (pp E) _) as [a|] eqn:Ha; cbn [rbind] in H5; [|discriminate]. destruct (element_of (qq E) _) as [b|] eqn:Hb; cbn [rbind] in H5; [|discriminate].
      injection H5 as <-. split; cbn; eapply element_range; eassumption.
  Qed.
End Text.
