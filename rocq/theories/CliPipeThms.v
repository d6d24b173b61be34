(** * CliPipeThms: elections with the four commands. *)
From Coq Require Import Permutation List Znumtheory Ascii.
From Verif Require Import Base Group Codec Hash DLog ElGamal ZK Poly Manifest Ballot Encrypt Box Tally Spec SpecElection SpecTally
  ListFacts GroupFacts ZKFacts CryptoThms ManifestThms EncryptFacts BallotFacts EncryptThms TallyFacts TallyThms TallyMore BoxFacts
  Ceremony SpecCeremony Shares SpecShares SharesFacts ShareRun SharesThms SharesMore Verify SpecVerify VerifyFacts SpecEndToEnd EndToEnd
  GuiDecrypt GuiDecPure GuiElection Report SpecReport ReportFacts ReportLink ReportPages Cli SpecCli CliDec CliRun CliPaths CliE2e CliFiles CliThms CliPipe CliVotes.
Local Open Scope Z_scope.
Local Open Scope list_scope.

Section Pipeline.
  Context (E : env) (HE : valid_env E) (Hh : hmac_32 E) (Hq : qq E <= 2 ^ 1024) (c : commands) (HF : forall i, fair E (cm_chance c i)) (Hfit : seats_fit E (cm_guardians c) (cm_quorum c)).
  Context (m : manifest) (im : internal_manifest) (Hm : make_internal E m = Ok im) (Hdist : distinct_option_ids im).
  Context (bs cast spoiled : list pt_ballot) (Hst : forall b, In b bs -> usable_style E im b) (Hfits : votes_fit E (len cast)) (Hids : file_ids bs) (HH : handed_over E c m bs cast spoiled).
  Notation n := (cm_guardians c).
  Notation k := (cm_quorum c).
  Notation ss := (seats_at (cm_chance c 0) n k).
  Notation key := (gexp E (sumZ (map st_secret ss))).
  Lemma key_in : in_subgroup E key.
  Proof using HE HF Hfit. apply (joint_subgroup E HE _ ss (seats_good E _ (HF 0) n k Hfit)). Qed.
  (** what setup leaves *)
  Definition start (nm : string) (h : Z) (gs : list guardian) : Prop :=
    manifest_is_valid m = true /\ get_name m = Ok nm /\ Forall2 (holder E) ss gs /\ Forall (fun g => good_published E k (guardian_publish g)) gs /\
    (forall i, i <> O -> dget (cm_context c i) (dk_files (cm_disk c i)) = Some (JContext (make_context E n k key h (im_hash im)))) /\
    (forall g, In g gs -> dget (file_named (cm_keys c) ("guardian_" ++ gd_id g)) (dk_files (oc_disk (setup_outcome E c))) = Some (JPrivate (export_private_data g))).
  Lemma started : oc_end (setup_outcome E c) = Ok tt -> exists nm h gs, start nm h gs.
  Proof using HE Hh Hq HF Hfit Hm HH.
    intros Ho. destruct (ho_dirs _ _ _ _ _ _ HH) as (D1 & D2 & _). destruct (setup_done E HE Hh Hq _ (HF 0) n k Hfit m im Hm (cm_manifest c 0) _ _ (cm_disk c 0) (ho_manifest _ _ _ _ _ _ HH 0) D1 D2 Ho)
      as (Hv & (nm & Hn) & cx & gs & ((h & ->) & S2 & S3) & R1 & R2 & _). exists nm, h, gs. split; [exact Hv|]. split; [exact Hn|]. split; [exact S2|]. split; [exact S3|]. split; [|exact R2].
    intros i Hi. rewrite (ho_context _ _ _ _ _ _ HH i Hi). exact R1.
  Qed.
  Section Started.
    Context (nm : string) (h : Z) (gs : list guardian) (HS : start nm h gs).
    Notation cx := (make_context E n k key h (im_hash im)).
    Lemma split_usable b : In b (cast ++ spoiled) -> usable_style E im b.
    Proof using Hst HH. intros Hb. apply Hst, (ho_split _ _ _ _ _ _ HH), Hb. Qed.
    Lemma split_slash b : In b (cast ++ spoiled) -> has_slash (pb_id b) = false.
    Proof using Hids HH. intros Hb. destruct Hids as [_ H]. apply H, (ho_split _ _ _ _ _ _ HH), Hb. Qed.
    Lemma encrypted : oc_end (encrypt_outcome E c) = Ok tt ->
      (forall b, In b bs -> exists eb, cipher_of E im n k key h b eb /\ dget (file_named (cm_encrypted c) (pb_id b)) (dk_files (oc_disk (encrypt_outcome E c))) = Some (JCipher eb)) /\
      dget (file_named (cm_encrypted c) "device") (dk_files (oc_disk (encrypt_outcome E c))) = Some (JDevice (ch_device (cm_chance c 1))).
    Proof using HE HF Hfit Hm Hst Hids HH HS.
      destruct HS as (Hv & Hn & _ & _ & Hc & _). destruct (ho_dirs _ _ _ _ _ _ HH) as (_ & _ & D3 & _).
      exact (encrypt_done E HE m im Hm Hv nm Hn n k key h key_in _ (HF 1) _ _ _ _ _ (ho_disks _ _ _ _ _ _ HH 1) (ho_manifest _ _ _ _ _ _ HH 1) (Hc 1%nat ltac:(discriminate)) bs (ho_ballots _ _ _ _ _ _ HH) Hst D3 Hids).
    Qed.
    Lemma encrypts : (forall i b, In b bs -> can_encrypt E im b (ch_ballot (cm_chance c 1) i)) -> writable (cm_disk c 1) (cm_encrypted c) ("device"%string :: map pb_id bs) -> oc_end (encrypt_outcome E c) = Ok tt.
    Proof using HE HF Hfit Hm Hst Hids HH HS.
      destruct HS as (Hv & Hn & _ & _ & Hc & _). destruct (ho_dirs _ _ _ _ _ _ HH) as (_ & _ & D3 & _).
      exact (encrypt_ends E HE m im Hm Hv nm Hn n k key h key_in _ (HF 1) _ _ _ _ _ (ho_disks _ _ _ _ _ _ HH 1) (ho_manifest _ _ _ _ _ _ HH 1) (Hc 1%nat ltac:(discriminate)) bs (ho_ballots _ _ _ _ _ _ HH) Hst D3 Hids).
    Qed.
    Section Encrypted.
      Context (He : oc_end (encrypt_outcome E c) = Ok tt).
      Notation file := (fun b => file_named (cm_encrypted c) (pb_id b)).
      Lemma split_files b : In b (cast ++ spoiled) -> exists eb, cipher_of E im n k key h b eb /\ dget (file_named (cm_encrypted c) (pb_id b)) (dk_files (oc_disk (encrypt_outcome E c))) = Some (JCipher eb).
      Proof using HE HF Hfit Hm Hst Hids HH HS He. intros Hb. apply (proj1 (encrypted He)), (ho_split _ _ _ _ _ _ HH), Hb. Qed.
      Lemma submitted : oc_end (submit_outcome E c) = Ok tt ->
        Forall (fun it => exists sb, sub_of E im n k key h it sb /\ dget (file_named (cm_submitted c) (pb_id (fst it))) (dk_files (oc_disk (submit_outcome E c))) = Some (JSubmitted sb)) (items cast spoiled).
      Proof using HE HF Hfit Hm Hst Hids HH HS He.
        pose proof HS as (Hv & Hn & _ & _ & Hc & _). destruct (ho_dirs _ _ _ _ _ _ HH) as (_ & _ & _ & D4).
        exact (submit_done E HE m im Hm Hv nm Hn n k key h key_in _ (HF 2) _ _ _ _ _ _ (oc_disk (encrypt_outcome E c)) (ho_disks _ _ _ _ _ _ HH 2) (ho_manifest _ _ _ _ _ _ HH 2) (Hc 2%nat ltac:(discriminate)) cast spoiled file split_usable D4
          (proj2 (ho_split _ _ _ _ _ _ HH)) split_files (ho_cast _ _ _ _ _ _ HH) (ho_spoiled _ _ _ _ _ _ HH) split_slash).
      Qed.
      Lemma submits : writable (cm_disk c 2) (cm_submitted c) (map pb_id (cast ++ spoiled)) -> oc_end (submit_outcome E c) = Ok tt.
      Proof using HE HF Hfit Hm Hst Hids HH HS He.
        pose proof HS as (Hv & Hn & _ & _ & Hc & _). destruct (ho_dirs _ _ _ _ _ _ HH) as (_ & _ & _ & D4).
        exact (submit_ends E HE m im Hm Hv nm Hn n k key h key_in _ (HF 2) _ _ _ _ _ _ (oc_disk (encrypt_outcome E c)) (ho_disks _ _ _ _ _ _ HH 2) (ho_manifest _ _ _ _ _ _ HH 2) (Hc 2%nat ltac:(discriminate)) cast spoiled file split_usable D4
          (proj2 (ho_split _ _ _ _ _ _ HH)) split_files (ho_cast _ _ _ _ _ _ HH) (ho_spoiled _ _ _ _ _ _ HH) split_slash).
      Qed.
      Definition pipe_devices : list device := match cm_device c with Some _ => [ch_device (cm_chance c 1)] | None => [] end.
      Lemma imported : oc_end (submit_outcome E c) = Ok tt -> exists out spoiled', Permutation spoiled' spoiled /\ shows_election m im cast spoiled' out /\ oc_printed (import_outcome E c) = Some out /\
        match cm_record c with
        | None => oc_end (import_outcome E c) = Ok tt /\ oc_disk (import_outcome E c) = cm_disk c 3
        | Some p =>
          (oc_end (import_outcome E c) = Ok tt <-> parent_exists (cm_disk c 3) (zip_of p) = true /\ ~ In (zip_of p) (dk_dirs (cm_disk c 3))) /\
          (oc_end (import_outcome E c) = Ok tt -> exists records files, good_record E m n k pipe_devices cast spoiled' out records files /\
            oc_disk (import_outcome E c) = mkDisk (dk_dirs (cm_disk c 3)) (dset (zip_of p) (JArchive files) (dk_files (cm_disk c 3))))
        end.
      Proof using HE HF Hfit Hm Hdist Hst Hfits Hids HH HS He.
        intros Hs. pose proof (submitted Hs) as Hsub. pose proof (proj2 (encrypted He)) as Hdv. pose proof HS as (Hv & Hn & HG & HP & Hc & Hk).
        assert (Hkd : copies (cm_disk c 3) (cm_private c) (oc_disk (setup_outcome E c)) (map (fun g => file_named (cm_keys c) ("guardian_" ++ gd_id g)) gs)).
        { pose proof (ho_private _ _ _ _ _ _ HH) as H. destruct (seat_names E _ (HF 0) n k Hfit gs HG) as (N1 & _). rewrite <- N1, map_map in H. exact H. }
        assert (Hvd : copies (cm_disk c 3) (cm_votes c) (oc_disk (submit_outcome E c)) (map (fun it => file_named (cm_submitted c) (pb_id (fst it))) (items cast spoiled))).
        { pose proof (ho_votes _ _ _ _ _ _ HH) as H. unfold items. rewrite map_app, !map_map. rewrite map_app in H. exact H. }
        assert (Hdev : match cm_device c with None => pipe_devices = [] | Some p => exists d, dget p (dk_files (cm_disk c 3)) = Some (JDevice d) /\ pipe_devices = [d] end).
        { unfold pipe_devices. pose proof (ho_device _ _ _ _ _ _ HH) as H. destruct (cm_device c) as [p|]; [|reflexivity]. exists (ch_device (cm_chance c 1)). split; [|reflexivity]. rewrite (H p eq_refl). exact Hdv. }
        destruct (import_good E HE _ (HF 0) n k Hfit m im Hm Hv nm Hn Hdist h gs HG HP _ (HF 3) _ _ _ _ (cm_device c) _ _ _ (ho_disks _ _ _ _ _ _ HH 3) (ho_manifest _ _ _ _ _ _ HH 3) (Hc 3%nat ltac:(discriminate)) _ Hkd Hk cast spoiled _ Hvd Hsub split_usable (proj2 (ho_split _ _ _ _ _ _ HH)) Hfits _ Hdev)
          as (d & out & sp' & I1 & I2 & I3 & I4 & I5). destruct (I5 split_slash) as (tmp & T1 & T2). exists out, sp'. split; [exact I3|]. split; [exact I4|]. unfold import_outcome, import_command. rewrite I1, I2.
        destruct (cm_record c) as [p|]; [|split; [reflexivity|split; reflexivity]]. unfold export_archive. rewrite T1. fold (zip_of p). unfold write_path. destruct (parent_exists (cm_disk c 3) (zip_of p)) eqn:Hpe; cbn [andb].
        - destruct (inb (zip_of p) (dk_dirs (cm_disk c 3))) eqn:Hin; cbn [negb oc_printed oc_end oc_disk].
          + split; [reflexivity|]. split; [|discriminate]. split; [discriminate|]. intros [_ H]. destruct H. apply inb_spec, Hin.
          + split; [reflexivity|]. split; [split; [intros _; split; [reflexivity|]; intros H; apply inb_spec in H; congruence|reflexivity]|]. intros _. eexists _, _. split; [exact T2|reflexivity].
        - cbn [oc_printed oc_end oc_disk]. split; [reflexivity|]. split; [|discriminate]. split; [discriminate|]. intros [H _]. discriminate.
      Qed.
    End Encrypted.
  End Started.
  Lemma pipeline_printed : oc_end (setup_outcome E c) = Ok tt -> oc_end (encrypt_outcome E c) = Ok tt -> oc_end (submit_outcome E c) = Ok tt ->
    exists out spoiled', Permutation spoiled' spoiled /\ shows_election m im cast spoiled' out /\ oc_printed (import_outcome E c) = Some out /\
      match cm_record c with
      | None => oc_end (import_outcome E c) = Ok tt /\ oc_disk (import_outcome E c) = cm_disk c 3
      | Some p =>
        (oc_end (import_outcome E c) = Ok tt <-> parent_exists (cm_disk c 3) (zip_of p) = true /\ ~ In (zip_of p) (dk_dirs (cm_disk c 3))) /\
        (oc_end (import_outcome E c) = Ok tt -> exists records files, good_record E m n k pipe_devices cast spoiled' out records files /\
          oc_disk (import_outcome E c) = mkDisk (dk_dirs (cm_disk c 3)) (dset (zip_of p) (JArchive files) (dk_files (cm_disk c 3))))
      end.
  Proof using HE Hh Hq HF Hfit Hm Hdist Hst Hfits Hids HH. intros H1 H2 H3. destruct (started H1) as (nm & h & gs & HS). exact (imported nm h gs HS H2 H3). Qed.
  Lemma pipeline_runs : manifest_is_valid m = true -> (exists nm, get_name m = Ok nm) -> (forall i b, In b bs -> can_encrypt E im b (ch_ballot (cm_chance c 1) i)) ->
    no_clash (cm_disk c 0) [cm_package c; (cm_package c ++ "/guardians")%string; cm_keys c] (setup_paths (cm_package c) (cm_keys c) n) ->
    writable (cm_disk c 1) (cm_encrypted c) ("device"%string :: map pb_id bs) -> writable (cm_disk c 2) (cm_submitted c) (map pb_id (cast ++ spoiled)) ->
    oc_end (setup_outcome E c) = Ok tt /\ oc_end (encrypt_outcome E c) = Ok tt /\ oc_end (submit_outcome E c) = Ok tt.
  Proof using HE Hh Hq HF Hfit Hm Hst Hids HH.
    intros Hv (nm & Hn) Hc W0 W1 W2. destruct (ho_dirs _ _ _ _ _ _ HH) as (D1 & D2 & _).
    assert (H1 : oc_end (setup_outcome E c) = Ok tt) by exact (setup_ends E HE Hh Hq _ (HF 0) n k Hfit m im Hm (cm_manifest c 0) _ _ (cm_disk c 0) (ho_manifest _ _ _ _ _ _ HH 0) D1 D2 nm Hv Hn W0).
    destruct (started H1) as (nm' & h & gs & HS). pose proof (encrypts nm' h gs HS Hc W1) as H2. split; [exact H1|]. split; [exact H2|exact (submits nm' h gs HS H2 W2)].
  Qed.
End Pipeline.

(** ** what goes wrong *)
(** setup puts private keys where it is told, over the published records if need be *)
Lemma keys_over_records E ch n k m im mp pd dk : valid_env E -> hmac_32 E -> qq E <= 2 ^ 1024 -> fair E ch -> seats_fit E n k -> make_internal E m = Ok im -> dget mp (dk_files dk) = Some (JManifest m) -> plain_dir pd ->
  let o := setup_election E ch n k mp true pd (Some (pd ++ "/guardians")%string) dk in oc_end o = Ok tt ->
  forall i, In i (guardian_ids n) -> exists x, dget (file_named (pd ++ "/guardians") ("guardian_" ++ i)) (dk_files (oc_disk o)) = Some (JPrivate x) /\ pr_id x = i.
Proof.
  intros HE Hh Hq HF Hfit Hm Hmf Hpd. cbv zeta. intros Ho i Hi. destruct (setup_done E HE Hh Hq ch HF n k Hfit m im Hm mp pd _ dk Hmf Hpd (sub_plain pd Hpd) Ho) as (_ & _ & cx & gs & (_ & HG & _) & _ & Hk & _).
  destruct (seat_names E ch HF n k Hfit gs HG) as (N1 & _). rewrite <- N1 in Hi. apply in_map_iff in Hi as (g & <- & Hg). exists (export_private_data g). split; [exact (Hk g Hg)|reflexivity].
Qed.
(** fewer keys than guardians *)
Lemma rmapM_len {A B} (f : A -> res B) l r : rmapM f l = Ok r -> List.length r = List.length l.
Proof. intros H. apply rmapM_F2 in H. induction H; cbn; congruence. Qed.
Lemma import_all_keys E ch mp cp vd kd dev orec dk cx l : (forall l, Permutation (ch_order ch l) l) -> proper_disk dk -> dget cp (dk_files dk) = Some (JContext cx) -> directory dk kd l -> len l < cx_guardians cx ->
  exists e, import_command E ch mp cp vd kd dev orec dk = failed dk e.
Proof.
  intros Ho Hp Hc HD Hl. unfold import_command. destruct (import_election E ch mp cp vd kd dev dk) as [d|e] eqn:He; [|eauto]. exfalso. revert He. unfold import_election. destruct (get_manifest dk mp) as [m|]; cbn [rbind]; [|discriminate].
  rewrite (context_read dk cp cx Hc). cbn [rbind]. destruct (read_dir_is (ch_order ch) as_private dk kd l Ho Hp HD) as (l' & L1 & L2). rewrite L2. destruct (rmapM as_private (map snd l')) as [rs|] eqn:Hr; cbn [rbind]; [|discriminate]. apply rmapM_len in Hr.
  match goal with |- context [do devices <- ?x; _] => destruct x end; cbn [rbind]; [|discriminate]. destruct (get_ballots_at _ as_submitted _ dk vd); cbn [rbind]; [|discriminate].
  destruct (build_with_context E m cx) as [[im cx']|] eqn:Hb; cbn [rbind fst snd]; [|discriminate]. destruct (cli_tally E _ im cx' _); cbn [rbind]; [|discriminate]. destruct (cli_decrypt E ch _ _ _ cx' m) as [r|] eqn:Hd; cbn [rbind]; [|discriminate]. intros _.
  apply all_needed in Hd as [_ Hg]. unfold len in *. rewrite map_length, Hr, map_length, (Permutation_length L1) in Hg.
  assert (Hcx : cx_guardians cx' = cx_guardians cx); [|lia]. unfold build_with_context in Hb. apply built_quorum in Hb as [_ Hb]. exact Hb.
Qed.
(** something else than a ballot in the directory, such as the device file *)
Lemma rmapM_bad {A B} (f : A -> res B) l x e : In x l -> f x = Err e -> exists e', rmapM f l = Err e'.
Proof. intros Hi Hx. destruct (rmapM f l) as [r|] eqn:H; [|eauto]. apply rmapM_F2 in H. destruct (Forall2_in_l _ _ _ _ H Hi) as (y & _ & Hy). congruence. Qed.
Lemma submit_device E ch mp cp cd sd td dk l f d : (forall l, Permutation (ch_order ch l) l) -> proper_disk dk -> dget cd (dk_files dk) = None -> directory dk cd l -> In (f, JDevice d) l ->
  exists e, submit_command E ch mp cp cd sd td dk = failed dk e.
Proof.
  intros Ho Hp Hn HD Hi. unfold submit_command. destruct (get_manifest dk mp) as [m|]; cbn [rbind]; [|eauto]. destruct (get_context dk cp); cbn [rbind]; [|eauto].
  assert (Hr : exists e, get_ballots_at (ch_order ch) as_cipher no_list dk cd = Err e).
  { unfold get_ballots_at, dmem. rewrite Hn. destruct (is_dir dk cd); [|eauto]. destruct (read_dir_is (ch_order ch) as_cipher dk cd l Ho Hp HD) as (l' & L1 & ->). eapply (rmapM_bad as_cipher _ (JDevice d)); [|reflexivity].
    apply in_map_iff. exists (f, JDevice d). split; [reflexivity|]. apply (Permutation_in _ (Permutation_sym L1)), Hi. }
  destruct Hr as [e ->]. cbn [rbind]. eauto.
Qed.
(** a ballot with the name of the device file *)
Section DeviceName.
  Context (E : env) (HE : valid_env E) (m : manifest) (im : internal_manifest) (Hm : make_internal E m = Ok im) (Hv : manifest_is_valid m = true) (nm : string) (Hnm : get_name m = Ok nm).
  Context (n k key h : Z) (HK : in_subgroup E key).
  Notation cx := (make_context E n k key h (im_hash im)).
  Lemma device_lost ch mp cp bp ed dk bs b : fair E ch -> proper_disk dk -> dget mp (dk_files dk) = Some (JManifest m) -> dget cp (dk_files dk) = Some (JContext cx) -> plain_ballots dk bp bs ->
    (forall b, In b bs -> usable_style E im b) -> plain_dir ed -> NoDup (map pb_id bs) -> (forall b, In b bs -> has_slash (pb_id b) = false) -> In b bs -> pb_id b = "device"%string ->
    let o := encrypt_command E ch mp cp bp (Some ed) dk in oc_end o = Ok tt -> exists eb, cb_id eb = "device"%string /\ dget (file_named ed "device") (dk_files (oc_disk o)) = Some (JCipher eb).
  Proof using HE Hm Hv Hnm HK.
    intros HF Hp Hmf Hcf Hbs Hst Hed I1 I2 Hb Hd. cbv zeta. destruct (encrypt_run E m im Hm Hv nm Hnm n k key h ch HF mp cp bp ed dk Hp Hmf Hcf bs Hbs) as (bs' & HP & ->).
    destruct (encrypt_votes E ch bs' im cx) as [ebs|] eqn:He; [|discriminate]. destruct (encrypted_pairs E HE im n k key h HK ch bs Hst bs' ebs HP He) as [HC Hi]. unfold enc_entries. cbn [map].
    change (?x :: ?l) with ([x] ++ l). rewrite to_files_app. destruct (to_files dk [_]) as [dk0 [[]|]]; [|discriminate]. set (l := map (fun b => (JCipher b, cb_id b)) ebs).
    assert (Hl : map snd l = map pb_id bs') by (unfold l; rewrite map_map, <- Hi; reflexivity).
    destruct (to_files dk0 _) as [dk1 a] eqn:Ht. cbn [oc_end oc_disk]. intros ->. destruct (dir_read ed Hed l) with (3 := Ht) as [R1 _].
    - rewrite Hl. apply (Permutation_NoDup (Permutation_map pb_id (Permutation_sym HP))), I1.
    - intros e Hin. apply (in_map snd) in Hin. rewrite Hl in Hin. apply in_map_iff in Hin as (b' & <- & Hb'). apply I2, (Permutation_in _ HP), Hb'.
    - destruct (Forall2_in_l _ _ _ _ HC (Permutation_in _ (Permutation_sym HP) Hb)) as (eb & Heb & Hc). pose proof (cipher_id E HE im n k key h HK b eb (Hst b Hb) Hc) as Hid. rewrite Hd in Hid. exists eb. split; [exact Hid|].
      specialize (R1 (JCipher eb, cb_id eb)). cbn [fst snd] in R1. rewrite Hid in R1. apply R1. unfold l. apply in_map_iff. exists eb. rewrite Hid. auto.
  Qed.
  Lemma device_ends ch mp cp bp ed dk bs : fair E ch -> proper_disk dk -> dget mp (dk_files dk) = Some (JManifest m) -> dget cp (dk_files dk) = Some (JContext cx) -> plain_ballots dk bp bs ->
    (forall b, In b bs -> usable_style E im b) -> plain_dir ed -> (forall b, In b bs -> has_slash (pb_id b) = false) -> (forall i b, In b bs -> can_encrypt E im b (ch_ballot ch i)) -> writable dk ed ("device"%string :: map pb_id bs) ->
    oc_end (encrypt_command E ch mp cp bp (Some ed) dk) = Ok tt.
  Proof using HE Hm Hv Hnm HK.
    intros HF Hp Hmf Hcf Hbs Hst Hed I2 Hce Hw. destruct (encrypt_run E m im Hm Hv nm Hnm n k key h ch HF mp cp bp ed dk Hp Hmf Hcf bs Hbs) as (bs' & HP & ->).
    destruct (encrypt_loop_runs E (ch_ballot ch) im cx HK bs' 0 (device_hash E (ch_device ch))) as [ebs He]; [intros i b Hb; apply Hce, (Permutation_in _ HP), Hb|].
    assert (He' : encrypt_votes E ch bs' im cx = Ok ebs) by exact He. rewrite He'. destruct (encrypted_pairs E HE im n k key h HK ch bs Hst bs' ebs HP He') as [HC Hi].
    assert (Hm' : map snd (enc_entries ch ebs) = "device"%string :: map pb_id bs') by (unfold enc_entries; cbn [map snd]; rewrite map_map, <- Hi; reflexivity).
    destruct (dir_writes ed Hed (enc_entries ch ebs)) with (dk := dk) as (dk' & -> & _); [| |reflexivity].
    - intros e Hin. apply (in_map snd) in Hin. rewrite Hm' in Hin. destruct Hin as [<-|Hin]; [reflexivity|]. apply in_map_iff in Hin as (b' & <- & Hb'). apply I2, (Permutation_in _ HP), Hb'.
    - intros f Hf. apply Hw. rewrite Hm' in Hf. destruct Hf as [<-|Hf]; [left; reflexivity|right]. apply (Permutation_in _ (Permutation_map pb_id HP)), Hf.
  Qed.
End DeviceName.
(** what the box takes: the first ballot with an id that is valid *)
Definition first_of (E : env) (im : internal_manifest) (cx : context) (i : string) (l : list ct_ballot) : option ct_ballot := find (fun b => String.eqb (cb_id b) i && accepted E im cx b) l.
Definition keyed (s : dict string sub_ballot) : Prop := NoDup (dkeys s) /\ Forall (fun kv => sb_id (snd kv) = fst kv) s.
Lemma submit_first E st im cx : forall ebs s x, keyed s -> submit_loop E st (mkBox im cx s) ebs = Ok x ->
  exists s', x = mkBox im cx s' /\ keyed s' /\ forall i, dget i s' = match dget i s with Some v => Some v | None => option_map (fun b => submit_ballot E b st) (first_of E im cx i ebs) end.
Proof.
  induction ebs as [|b ebs IH]; intros s x Hk; cbn [submit_loop].
  - intros [= <-]. exists s. split; [reflexivity|]. split; [exact Hk|]. intros i. destruct (dget i s); reflexivity.
  - unfold box_submit, submit_to_box. cbn [bx_manifest bx_context bx_store]. unfold first_of. cbn [find]. unfold accepted at 1. destruct (ballot_valid_for_election E b im cx true) as [[|]|] eqn:Hv; cbn [rbind]; [|cbn [andb]|discriminate].
    + unfold ds_get, ds_set. destruct (dget (cb_id b) s) as [y|] eqn:Hg; cbn [rbind].
      * intros H. destruct (IH s x Hk H) as (s' & -> & K & G). exists s'. split; [reflexivity|]. split; [exact K|]. intros i. rewrite G. destruct (dget i s) eqn:Hi; [reflexivity|]. destruct (String.eqb_spec (cb_id b) i) as [Heq|Hne]; [congruence|]. reflexivity.
      * change (sb_id (submit_ballot E b st)) with (cb_id b). assert (Hni : ~ In (cb_id b) (dkeys s)) by (intros H; apply dget_some_key in H as [z Hz]; congruence).
        assert (Hk' : keyed (dset (cb_id b) (submit_ballot E b st) s)). { destruct Hk as [K1 K2]. split; [apply dset_nodup, K1|]. rewrite (dset_new _ _ _ Hni). apply Forall_app. split; [exact K2|]. repeat constructor. }
        intros H. destruct (IH _ x Hk' H) as (s' & -> & K & G). exists s'. split; [reflexivity|]. split; [exact K|]. intros i. rewrite G. destruct (String.eqb_spec (cb_id b) i) as [<-|Hne]; cbn [andb].
        -- rewrite dget_dset_same, Hg. reflexivity.
        -- rewrite dget_dset_other by congruence. reflexivity.
    + intros H. destruct (IH s x Hk H) as (s' & -> & K & G). exists s'. split; [reflexivity|]. split; [exact K|]. intros i. rewrite G, Bool.andb_false_r. reflexivity.
Qed.
Lemma ballots_taken E im cx cast spoil sbs : submit_ballots E im cx cast spoil = Ok sbs -> NoDup (map sb_id sbs) /\
  forall i sb, (In sb sbs /\ sb_id sb = i) <-> Some sb = match first_of E im cx i cast with Some b => Some (submit_ballot E b CAST) | None => option_map (fun b => submit_ballot E b SPOILED) (first_of E im cx i spoil) end.
Proof.
  unfold submit_ballots. destruct (submit_loop E CAST _ cast) as [x|] eqn:H1; cbn [rbind]; [|discriminate]. destruct (submit_first E CAST im cx cast [] x) as (s1 & -> & K1 & G1); [split; constructor|exact H1|].
  destruct (submit_loop E SPOILED _ spoil) as [x|] eqn:H2; cbn [rbind]; [|discriminate]. destruct (submit_first E SPOILED im cx spoil s1 x K1 H2) as (s2 & -> & [K2 K3] & G2). cbn [bx_store]. intros [= <-]. unfold ds_all, dvals.
  assert (Hid : map sb_id (map snd s2) = dkeys s2). { unfold dkeys. rewrite map_map. apply map_ext_in. intros kv Hi. rewrite Forall_forall in K3. apply K3, Hi. }
  split; [rewrite Hid; exact K2|]. intros i sb. transitivity (dget i s2 = Some sb).
  - split.
    + intros [Hi <-]. apply in_map_iff in Hi as ([j y] & Hy & Hi). cbn [snd] in Hy. subst y. rewrite Forall_forall in K3. pose proof (K3 _ Hi) as Hj. cbn [fst snd] in Hj. rewrite Hj. apply in_dget; assumption.
    + intros H. apply dget_in in H. rewrite Forall_forall in K3. pose proof (K3 _ H) as Hj. cbn [fst snd] in Hj. split; [apply (in_map snd) in H; exact H|exact Hj].
  - rewrite G2, G1. cbn [dget]. destruct (first_of E im cx i cast); cbn [option_map]; split; congruence.
Qed.

Lemma submit_loop_quiet E st im cx : forall ebs s, (forall b, In b ebs -> exists v, ballot_valid_for_election E b im cx true = Ok v) -> exists s', submit_loop E st (mkBox im cx s) ebs = Ok (mkBox im cx s').
Proof.
  induction ebs as [|b ebs IH]; intros s Hv; cbn [submit_loop]; [eauto|]. unfold box_submit, submit_to_box. cbn [bx_manifest bx_context bx_store]. destruct (Hv b (or_introl eq_refl)) as [v ->].
  assert (Hv' : forall b, In b ebs -> exists v, ballot_valid_for_election E b im cx true = Ok v) by (intros b' Hb'; apply Hv; right; exact Hb').
  destruct v; [destruct (ds_get s (cb_id b))|]; cbn [rbind]; apply IH, Hv'.
Qed.
Section Taken.
  Context (E : env) (m : manifest) (im : internal_manifest) (Hm : make_internal E m = Ok im) (n k key h : Z).
  Notation cx := (make_context E n k key h (im_hash im)).
  (** the ciphertext ballots in a directory *)
  Lemma find_alone i (l : list ct_ballot) b : In b l -> cb_id b = i -> accepted E im cx b = true -> (forall b', In b' l -> cb_id b' = i -> b' = b) -> first_of E im cx i l = Some b.
  Proof.
    intros Hi Hid Ha Hu. unfold first_of. destruct (find _ l) as [b'|] eqn:Hf.
    - apply find_some in Hf as [H1 H2]. apply andb_prop in H2 as [H2 _]. apply String.eqb_eq in H2. f_equal. apply Hu; assumption.
    - apply (find_none _ _ Hf) in Hi. rewrite Hid, String.eqb_refl, Ha in Hi. discriminate.
  Qed.
  Lemma find_nothing i (l : list ct_ballot) : (forall b, In b l -> cb_id b = i -> accepted E im cx b = false) -> first_of E im cx i l = None.
  Proof.
    intros Hu. unfold first_of. destruct (find _ l) as [b'|] eqn:Hf; [|reflexivity]. apply find_some in Hf as [H1 H2]. apply andb_prop in H2 as [H2 H3]. apply String.eqb_eq in H2. rewrite (Hu b' H1 H2) in H3. discriminate.
  Qed.
  Context (ch : chance) (Ho : forall l, Permutation (ch_order ch l) l) (mp cp cd sd td : string) (dk : disk) (Hp : proper_disk dk) (Hmf : dget mp (dk_files dk) = Some (JManifest m)) (Hcf : dget cp (dk_files dk) = Some (JContext cx)) (Htd : plain_dir td).
  Context (ec es : list ct_ballot) (Hec : cipher_ballots dk cd ec) (Hes : cipher_ballots dk sd es) (Hsl : forall b, In b (ec ++ es) -> has_slash (cb_id b) = false).
  Notation run := (submit_command E ch mp cp cd (Some sd) (Some td) dk).
  Lemma ciphers_read d l : cipher_ballots dk d l -> exists l', Permutation l' l /\ get_ballots_at (ch_order ch) as_cipher no_list dk d = Ok l'.
  Proof using Ho Hp.
    intros (Hn & fs & HD & HP). destruct (read_dir_is (ch_order ch) as_cipher dk d fs Ho Hp HD) as (fs' & L1 & L2). assert (HQ : Permutation (map (fun f => ballot_in (snd f)) fs') (map Some l)) by (rewrite (Permutation_map _ L1); exact HP).
    apply Permutation_map_inv in HQ as (l' & Hl & HQ). exists l'. split; [symmetry; exact HQ|]. unfold get_ballots_at, dmem. rewrite Hn. assert (Hd : is_dir dk d = true).
    { destruct HD as (H1 & _ & H3 & _). unfold is_dir. apply inb_spec in H3. apply String.eqb_neq in H1. rewrite H1, H3. reflexivity. }
    rewrite Hd, L2. clear -Hl. revert l' Hl. induction fs' as [|[nm x] fs' IH]; intros [|b l'] Hl; cbn [map snd] in *; try discriminate; [reflexivity|].
    injection Hl as H1 H2. cbn [rmapM]. assert (Hx : as_cipher x = Ok b) by (destruct x; cbn [ballot_in as_cipher] in *; congruence). rewrite Hx. cbn [rbind]. rewrite (IH l' H2). reflexivity.
  Qed.
  Lemma submit_taken : oc_end run = Ok tt ->
    (forall b, In b ec -> accepted E im cx b = true -> (forall b', In b' ec -> cb_id b' = cb_id b -> b' = b) -> dget (file_named td (cb_id b)) (dk_files (oc_disk run)) = Some (JSubmitted (submit_ballot E b CAST))) /\
    (forall b, In b es -> accepted E im cx b = true -> (forall b', In b' es -> cb_id b' = cb_id b -> b' = b) -> (forall b', In b' ec -> cb_id b' = cb_id b -> accepted E im cx b' = false) ->
      dget (file_named td (cb_id b)) (dk_files (oc_disk run)) = Some (JSubmitted (submit_ballot E b SPOILED))) /\
    (forall b, In b (ec ++ es) -> (forall b', In b' (ec ++ es) -> cb_id b' = cb_id b -> accepted E im cx b' = false) -> dget (file_named td (cb_id b)) (dk_files (oc_disk run)) = dget (file_named td (cb_id b)) (dk_files dk)).
  Proof using Hm Ho Hp Hmf Hcf Htd Hec Hes Hsl.
    intros Hr. revert Hr. unfold submit_command. destruct (get_manifest dk mp) as [m'|] eqn:Hg; cbn [rbind]; [|discriminate]. destruct (manifest_got dk mp m m' Hmf Hg) as (-> & Hv & nm & Hn). rewrite (context_read dk cp _ Hcf). cbn [rbind].
    destruct (ciphers_read cd ec Hec) as (ec' & C1 & ->). destruct (ciphers_read sd es Hes) as (es' & S1 & ->). cbn [rbind]. rewrite (rebuilt E n k key h m im Hm Hv). cbn [rbind fst snd].
    destruct (submit_ballots E im cx ec' es') as [sbs|] eqn:Hs; [|discriminate]. destruct (ballots_taken E im cx ec' es' sbs Hs) as [T1 T2]. set (l := map (fun b => (JSubmitted b, sb_id b)) sbs).
    replace (map (fun b : sub_ballot => (JSubmitted b, sb_id b, td)) sbs) with (map (fun e : content * string => (fst e, snd e, td)) l) by (unfold l; rewrite map_map; reflexivity).
    assert (Hl : map snd l = map sb_id sbs) by (unfold l; rewrite map_map; reflexivity). destruct (to_files dk _) as [dk1 a] eqn:Ht. cbn [oc_end oc_disk]. intros ->.
    assert (Hin : forall sb, In sb sbs -> exists b, In b (ec ++ es) /\ cb_id b = sb_id sb).
    { intros sb Hi. pose proof (proj1 (T2 (sb_id sb) sb) (conj Hi eq_refl)) as H. destruct (first_of E im cx (sb_id sb) ec') as [b|] eqn:F1; [|destruct (first_of E im cx (sb_id sb) es') as [b|] eqn:F2; [|discriminate]].
      - unfold first_of in F1. apply find_some in F1 as [F1 F3]. apply andb_prop in F3 as [F3 _]. apply String.eqb_eq in F3. exists b. split; [apply in_or_app; left; apply (Permutation_in _ C1), F1|exact F3].
      - unfold first_of in F2. apply find_some in F2 as [F2 F3]. apply andb_prop in F3 as [F3 _]. apply String.eqb_eq in F3. exists b. split; [apply in_or_app; right; apply (Permutation_in _ S1), F2|exact F3]. }
    destruct (dir_read td Htd l) with (3 := Ht) as [R1 R2].
    - rewrite Hl. exact T1.
    - intros e He. unfold l in He. apply in_map_iff in He as (sb & <- & Hi). cbn [snd]. destruct (Hin sb Hi) as (b & Hb & <-). apply Hsl, Hb.
    - assert (Hfile : forall i sb, Some sb = match first_of E im cx i ec' with Some b => Some (submit_ballot E b CAST) | None => option_map (fun b => submit_ballot E b SPOILED) (first_of E im cx i es') end -> dget (file_named td i) (dk_files dk1) = Some (JSubmitted sb)).
      { intros i sb H. apply T2 in H as [H <-]. apply (R1 (JSubmitted sb, sb_id sb)). unfold l. apply (in_map (fun b => (JSubmitted b, sb_id b))), H. }
      split; [|split].
      + intros b Hb Ha Hu. apply Hfile. rewrite (find_alone (cb_id b) ec' b); [reflexivity|apply (Permutation_in _ (Permutation_sym C1)), Hb|reflexivity|exact Ha|]. intros b' Hb'. apply Hu, (Permutation_in _ C1), Hb'.
      + intros b Hb Ha Hu Hc. apply Hfile. rewrite (find_nothing (cb_id b) ec'); [|intros b' Hb'; apply Hc, (Permutation_in _ C1), Hb'].
        rewrite (find_alone (cb_id b) es' b); [reflexivity|apply (Permutation_in _ (Permutation_sym S1)), Hb|reflexivity|exact Ha|]. intros b' Hb'. apply Hu, (Permutation_in _ S1), Hb'.
      + intros b Hb Hn'. apply R2. intros e He Heq. unfold l in He. apply in_map_iff in He as (sb & <- & Hi). cbn [snd] in Heq. apply named_inj in Heq as [_ Heq]; [|apply Hsl, Hb|destruct (Hin sb Hi) as (b1 & Hb1 & <-); apply Hsl, Hb1].
        pose proof (proj1 (T2 (sb_id sb) sb) (conj Hi eq_refl)) as H. rewrite <- Heq in H. rewrite (find_nothing (cb_id b) ec') in H; [|intros b' Hb'; apply Hn', in_or_app; left; apply (Permutation_in _ C1), Hb'].
        rewrite (find_nothing (cb_id b) es') in H; [discriminate|intros b' Hb'; apply Hn', in_or_app; right; apply (Permutation_in _ S1), Hb'].
  Qed.
  Lemma submit_quiet : manifest_is_valid m = true -> (exists nm, get_name m = Ok nm) -> (forall b, In b (ec ++ es) -> exists v, ballot_valid_for_election E b im cx true = Ok v) -> writable dk td (map cb_id (ec ++ es)) -> oc_end run = Ok tt.
  Proof using Hm Ho Hp Hmf Hcf Htd Hec Hes Hsl.
    intros Hv (nm & Hn) Hq Hw. unfold submit_command. rewrite (manifest_gets dk mp m nm Hmf Hv Hn). cbn [rbind]. rewrite (context_read dk cp _ Hcf). cbn [rbind].
    destruct (ciphers_read cd ec Hec) as (ec' & C1 & ->). destruct (ciphers_read sd es Hes) as (es' & S1 & ->). cbn [rbind]. rewrite (rebuilt E n k key h m im Hm Hv). cbn [rbind fst snd].
    assert (Hs : exists sbs, submit_ballots E im cx ec' es' = Ok sbs).
    { unfold submit_ballots. destruct (submit_loop_quiet E CAST im cx ec' ds_new) as [s1 ->]; [intros b Hb; apply Hq, in_or_app; left; apply (Permutation_in _ C1), Hb|]. cbn [rbind].
      destruct (submit_loop_quiet E SPOILED im cx es' s1) as [s2 ->]; [intros b Hb; apply Hq, in_or_app; right; apply (Permutation_in _ S1), Hb|]. cbn [rbind]. eauto. }
    destruct Hs as [sbs Hs]. rewrite Hs. destruct (ballots_taken E im cx ec' es' sbs Hs) as [T1 T2]. set (l := map (fun b => (JSubmitted b, sb_id b)) sbs).
    replace (map (fun b : sub_ballot => (JSubmitted b, sb_id b, td)) sbs) with (map (fun e : content * string => (fst e, snd e, td)) l) by (unfold l; rewrite map_map; reflexivity).
    assert (Hin : forall sb, In sb sbs -> exists b, In b (ec ++ es) /\ cb_id b = sb_id sb).
    { intros sb Hi. pose proof (proj1 (T2 (sb_id sb) sb) (conj Hi eq_refl)) as H. destruct (first_of E im cx (sb_id sb) ec') as [b|] eqn:F1; [|destruct (first_of E im cx (sb_id sb) es') as [b|] eqn:F2; [|discriminate]].
      - unfold first_of in F1. apply find_some in F1 as [F1 F3]. apply andb_prop in F3 as [F3 _]. apply String.eqb_eq in F3. exists b. split; [apply in_or_app; left; apply (Permutation_in _ C1), F1|exact F3].
      - unfold first_of in F2. apply find_some in F2 as [F2 F3]. apply andb_prop in F3 as [F3 _]. apply String.eqb_eq in F3. exists b. split; [apply in_or_app; right; apply (Permutation_in _ S1), F2|exact F3]. }
    destruct (dir_writes td Htd l) with (dk := dk) as (dk' & -> & _); [| |reflexivity].
    - intros e He. unfold l in He. apply in_map_iff in He as (sb & <- & Hi). cbn [snd]. destruct (Hin sb Hi) as (b & Hb & <-). apply Hsl, Hb.
    - intros f Hf. apply Hw. unfold l in Hf. rewrite map_map in Hf. apply in_map_iff in Hf as (sb & <- & Hi). cbn [snd]. destruct (Hin sb Hi) as (b & Hb & <-). apply in_map, Hb.
  Qed.
End Taken.
