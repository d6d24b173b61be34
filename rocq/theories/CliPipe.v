(** * CliPipe: the four commands: what each writes from what it reads. *)
From Coq Require Import Permutation List Znumtheory Ascii.
From Verif Require Import Base Group Codec Hash DLog ElGamal ZK Poly Manifest Ballot Encrypt Box Tally Spec SpecElection SpecTally
  ListFacts GroupFacts ZKFacts CryptoThms ManifestThms EncryptFacts BallotFacts EncryptThms TallyFacts TallyThms TallyMore BoxFacts
  Ceremony SpecCeremony Shares SpecShares SharesFacts ShareRun SharesThms SharesMore Verify SpecVerify VerifyFacts SpecEndToEnd EndToEnd
  GuiDecrypt GuiDecPure GuiElection Report SpecReport ReportFacts ReportLink ReportPages Cli SpecCli CliDec CliRun CliPaths CliE2e CliFiles CliThms.
Local Open Scope Z_scope.
Local Open Scope list_scope.

(** ** writing *)
Lemma write_files dk p x dk' : write_path dk p x = Ok dk' -> dk_files dk' = dset p x (dk_files dk).
Proof. unfold write_path. match goal with |- context [if ?b then _ else _] => destruct b end; [|discriminate]. intros [= <-]. reflexivity. Qed.
Lemma file_files dk x nm d dk' : to_file dk x nm d = Ok dk' -> dk_files dk' = dset (construct_path nm d) x (dk_files dk).
Proof.
  unfold to_file. destruct (_ && _); cbn [rbind]; [apply write_files|]. unfold makedirs. destruct (String.eqb d ""); cbn [rbind]; [discriminate|]. intros H. apply write_files in H. exact H.
Qed.
Lemma files_written l : forall dk dk', to_files dk l = (dk', Ok tt) -> dk_files dk' = fold_left (fun fs e => dset (entry_path e) (fst (fst e)) fs) l (dk_files dk).
Proof.
  induction l as [|[[x nm] d] l IH]; intros dk dk' H; cbn [to_files] in H; [injection H as <-; reflexivity|]. destruct (to_file dk x nm d) as [dk1|] eqn:H1; [|discriminate].
  rewrite (IH _ _ H), (file_files _ _ _ _ _ H1). reflexivity.
Qed.
Lemma written_keep l : forall (fs : dict string content) p, ~ In p (map entry_path l) -> dget p (fold_left (fun fs e => dset (entry_path e) (fst (fst e)) fs) l fs) = dget p fs.
Proof.
  induction l as [|e l IH]; intros fs p Hp; [reflexivity|]. cbn [fold_left map In] in *. rewrite IH by tauto. apply dget_dset_other. intros ->. apply Hp. left. reflexivity.
Qed.
Lemma path_named d f : plain_dir d -> has_slash f = false -> construct_path f d = file_named d f.
Proof. intros [D1 D2] Hf. apply path_of; assumption. Qed.
Lemma named_inj d f d' f' : has_slash f = false -> has_slash f' = false -> file_named d f = file_named d' f' -> d = d' /\ f = f'.
Proof. intros H1 H2 H. apply joined_inj in H as [-> H]; [|apply name_slash; assumption..]. apply append_inj_r in H. auto. Qed.
(** several files in one directory *)
Section OneDir.
  Context (d : string) (Hd : plain_dir d) (l : list (content * string)) (Hn : NoDup (map snd l)) (Hs : forall e, In e l -> has_slash (snd e) = false).
  Let w := map (fun e : content * string => (fst e, snd e, d)) l.
  Lemma dir_paths : map entry_path w = map (fun e => file_named d (snd e)) l.
  Proof using Hd Hs. unfold w. rewrite map_map. apply map_ext_in. intros e He. unfold entry_path. cbn [fst snd]. apply path_named; [exact Hd|apply Hs, He]. Qed.
  Lemma dir_paths_nodup : NoDup (map entry_path w).
  Proof using Hd Hn Hs.
    rewrite dir_paths. clear w. induction l as [|e r IH]; [constructor|]. cbn [map] in *. inversion Hn as [|? ? Hx Hn']; subst. constructor; [|apply IH; [exact Hn'|intros y Hy; apply Hs; right; exact Hy]].
    intros Hi. apply in_map_iff in Hi as (e' & He & Hi). apply named_inj in He as [_ He]; [|apply Hs; right; exact Hi|apply Hs; left; reflexivity]. apply Hx. rewrite <- He. apply in_map, Hi.
  Qed.
  Lemma dir_read dk dk' : to_files dk w = (dk', Ok tt) ->
    (forall e, In e l -> dget (file_named d (snd e)) (dk_files dk') = Some (fst e)) /\ (forall p, (forall e, In e l -> p <> file_named d (snd e)) -> dget p (dk_files dk') = dget p (dk_files dk)).
  Proof using Hd Hn Hs.
    intros H. apply files_written in H. destruct (written_get w (dk_files dk) dir_paths_nodup) as [W1 W2]. rewrite H. split.
    - intros e He. specialize (W1 (fst e, snd e, d)). unfold entry_path in W1 at 1. cbn [fst snd] in W1. rewrite (path_named d (snd e) Hd (Hs e He)) in W1. apply W1. unfold w. apply in_map_iff. exists e. auto.
    - intros p Hp. apply W2. rewrite dir_paths. intros Hi. apply in_map_iff in Hi as (e & <- & Hi). exact (Hp e Hi eq_refl).
  Qed.
  Lemma dir_writes dk : writable dk d (map snd l) -> exists dk', to_files dk w = (dk', Ok tt) /\ (forall y, In y (dk_dirs dk) -> In y (dk_dirs dk')) /\ (forall y, In y (dk_dirs dk') -> In y (dk_dirs dk) \/ In y (above d ++ [d])).
  Proof using Hd Hs.
    intros HW. assert (HF : Forall (entry_fine (all_dirs dk w)) w).
    { apply Forall_forall. intros e He. unfold w in He. apply in_map_iff in He as (x & <- & Hx). unfold entry_fine. cbn [fst snd]. destruct Hd as [D1 D2]. split; [exact D1|]. split; [exact D2|]. split; [apply Hs, Hx|].
      unfold entry_path. cbn [fst snd]. rewrite (path_named d (snd x) Hd (Hs x Hx)). unfold all_dirs. rewrite in_app_iff, in_flat_map. intros [H|(e & He & H)]; [exact (HW (snd x) (in_map snd _ _ Hx) H)|].
      unfold w in He. apply in_map_iff in He as (y & <- & _). cbn [snd] in H. assert (HL : (String.length (file_named d (snd x)) <= String.length d)%nat). { apply in_app_iff in H as [H|[<-|[]]]; [apply above_len in H; lia|lia]. }
      revert HL. unfold file_named. assert (Ha : forall x y : string, String.length (x ++ y) = (String.length x + String.length y)%nat) by (intros a b; induction a as [|c a IH]; [reflexivity|cbn; rewrite IH; reflexivity]). rewrite Ha. cbn. lia. }
    destruct (to_files_fine _ _ HF) as (ds & Ht & D1 & D2 & _). eexists. split; [exact Ht|]. cbn [dk_dirs]. split; [exact D1|]. intros y Hy. specialize (D2 y Hy). unfold all_dirs in D2. apply in_app_iff in D2 as [D2|D2]; [left; exact D2|right].
    apply in_flat_map in D2 as (e & He & H). unfold w in He. apply in_map_iff in He as (z & <- & _). exact H.
  Qed.
End OneDir.

(** ** reading *)
Lemma context_read dk p cx : dget p (dk_files dk) = Some (JContext cx) -> get_context dk p = Ok cx.
Proof. intros H. unfold get_context, from_file. rewrite H. reflexivity. Qed.
Lemma manifest_got dk p m x : dget p (dk_files dk) = Some (JManifest m) -> get_manifest dk p = Ok x -> x = m /\ manifest_is_valid m = true /\ exists nm, get_name m = Ok nm.
Proof.
  intros H. unfold get_manifest, from_file. rewrite H. cbn [rbind as_manifest]. destruct (manifest_is_valid m); [|discriminate]. destruct (get_name m) as [nm|] eqn:Hn; cbn [rbind]; [|discriminate]. intros [= <-]. eauto.
Qed.
Lemma manifest_gets dk p m nm : dget p (dk_files dk) = Some (JManifest m) -> manifest_is_valid m = true -> get_name m = Ok nm -> get_manifest dk p = Ok m.
Proof. intros H Hv Hn. unfold get_manifest, from_file. rewrite H. cbn [rbind as_manifest]. rewrite Hv, Hn. reflexivity. Qed.
Lemma rebuilt E n k key h m im : make_internal E m = Ok im -> manifest_is_valid m = true -> build_with_context E m (make_context E n k key h (im_hash im)) = Ok (im, make_context E n k key h (im_hash im)).
Proof. intros Hm Hv. unfold build_with_context. cbn [cx_guardians cx_quorum cx_key cx_commitment_hash make_context]. exact (built E n k m im (mkJoint key h) Hm Hv). Qed.
(** copies of files, all of which hold something *)
Lemma copies_values {A} (f : A -> content) dk d from paths (vals : list A) : copies dk d from paths -> Forall2 (fun p v => dget p (dk_files from) = Some (f v)) paths vals ->
  exists l, directory dk d l /\ Permutation (map snd l) (map f vals).
Proof.
  intros (_ & l & HD & HP) HF. exists l. split; [exact HD|]. assert (He : map (fun p => dget p (dk_files from)) paths = map Some (map f vals)).
  { clear -HF. induction HF as [|p v ps vs H _ IH]; [reflexivity|]. cbn [map]. rewrite H, IH. reflexivity. }
  rewrite He in HP. rewrite <- (map_map snd Some) in HP. apply Permutation_map_inv in HP as (r & H1 & H2).
  assert (Hinj : forall (a b : list content), map Some a = map Some b -> a = b). { clear. induction a as [|x a IH]; intros [|y b] H; try discriminate; [reflexivity|]. cbn [map] in H. injection H as -> H. f_equal. apply IH, H. }
  apply Hinj in H1. subst r. symmetry. exact H2.
Qed.
Lemma copies_read {A} (f : A -> content) order conv dk d from paths (vals : list A) : (forall l, Permutation (order l) l) -> proper_disk dk -> (forall v, conv (f v) = Ok v) ->
  copies dk d from paths -> Forall2 (fun p v => dget p (dk_files from) = Some (f v)) paths vals -> exists vals', Permutation vals' vals /\ read_dir order conv dk d = Ok vals' /\ forall convs, get_ballots_at order conv convs dk d = Ok vals'.
Proof.
  intros Ho Hp Hc HC HF. destruct (copies_values f dk d from paths vals HC HF) as (l & HD & HP). destruct HC as (Hnone & _).
  destruct (read_dir_is order conv dk d l Ho Hp HD) as (l' & L1 & L2). assert (HQ : Permutation (map snd l') (map f vals)) by (rewrite (Permutation_map snd L1); exact HP).
  apply Permutation_map_inv in HQ as (vals' & Hv & HB). exists vals'. split; [symmetry; exact HB|]. assert (HR : read_dir order conv dk d = Ok vals') by (rewrite L2, Hv; apply rmapM_all, Hc). split; [exact HR|].
  intros convs. unfold get_ballots_at, dmem. rewrite Hnone. destruct HD as (H1 & _ & H3 & _). unfold is_dir. apply inb_spec in H3. apply String.eqb_neq in H1. rewrite H1, H3. cbn [negb andb]. exact HR.
Qed.
Lemma permuted_F2 {A B} (R : A -> B -> Prop) l1 l2 : Permutation l1 l2 -> forall l3, Forall2 R l2 l3 -> exists l3', Forall2 R l1 l3' /\ Permutation l3' l3.
Proof.
  intros HP. induction HP as [|x l l' HP IH|x y l|l l' l'' HP1 IH1 HP2 IH2]; intros l3 HF.
  - inversion HF; subst. exists []. split; constructor.
  - inversion HF as [|? b ? bs Hb HF']; subst. destruct (IH _ HF') as (r & R1 & R2). exists (b :: r). split; constructor; assumption.
  - inversion HF as [|? b ? bs Hb HF']; subst. inversion HF' as [|? c ? cs Hc HF'']; subst. exists (c :: b :: cs). split; [repeat constructor; assumption|constructor].
  - destruct (IH2 _ HF) as (r & R1 & R2). destruct (IH1 _ R1) as (r' & S1 & S2). exists r'. split; [exact S1|]. rewrite S2. exact R2.
Qed.

(** ** submitting *)
Lemma nodup_apart {A} (a b : list A) x : NoDup (a ++ b) -> In x a -> In x b -> False.
Proof.
  induction a as [|y a IH]; [intros _ []|]. cbn [app]. intros Hn Hi Hb. inversion Hn as [|? ? Hy Hn']; subst. destruct Hi as [->|Hi]; [apply Hy, in_or_app; right; exact Hb|exact (IH Hn' Hi Hb)].
Qed.
Lemma submit_all E st im cx : forall ebs s, Forall (fun b => ballot_valid_for_election E b im cx true = Ok true) ebs -> NoDup (map cb_id ebs) -> (forall b, In b ebs -> ~ In (cb_id b) (dkeys s)) ->
  submit_loop E st (mkBox im cx s) ebs = Ok (mkBox im cx (s ++ map (fun b => (cb_id b, submit_ballot E b st)) ebs)).
Proof.
  induction ebs as [|b ebs IH]; intros s HF Hn Hs; cbn [submit_loop]; [cbn [map]; rewrite app_nil_r; reflexivity|]. apply Forall_cons_iff in HF as [Hb HF]. cbn [map] in Hn. inversion Hn as [|? ? Hi Hn']; subst.
  unfold box_submit, submit_to_box. cbn [bx_manifest bx_context bx_store]. rewrite Hb. pose proof (Hs b (or_introl eq_refl)) as Hk.
  destruct (ds_get s (cb_id b)) as [y|] eqn:Hg; [exfalso; apply Hk, dget_some_key; eauto|]. unfold ds_get, ds_set in *. change (sb_id (submit_ballot E b st)) with (cb_id b). rewrite dget_dset_same. cbn [rbind].
  rewrite (dset_new (cb_id b) _ s Hk), IH; [rewrite <- app_assoc; reflexivity|exact HF|exact Hn'|]. intros b' Hb' Hin. unfold dkeys in Hin. rewrite map_app in Hin. apply in_app_iff in Hin as [Hin|[Hin|[]]]; [apply (Hs b' (or_intror Hb') Hin)|].
  cbn [fst] in Hin. apply Hi. rewrite Hin. apply in_map, Hb'.
Qed.
Lemma submitted_all E im cx cast spoil : Forall (fun b => ballot_valid_for_election E b im cx true = Ok true) (cast ++ spoil) -> NoDup (map cb_id (cast ++ spoil)) ->
  submit_ballots E im cx cast spoil = Ok (map (fun b => submit_ballot E b CAST) cast ++ map (fun b => submit_ballot E b SPOILED) spoil).
Proof.
  intros HF Hn. apply Forall_app in HF as [F1 F2]. rewrite map_app in Hn. unfold submit_ballots, ds_new. rewrite (submit_all E CAST im cx cast []); [|exact F1|apply (NoDup_app_l _ _ Hn)|intros b _ []]. cbn [rbind app].
  assert (Hk : dkeys (map (fun b => (cb_id b, submit_ballot E b CAST)) cast) = map cb_id cast) by (unfold dkeys; rewrite map_map; reflexivity).
  rewrite (submit_all E SPOILED im cx spoil); [|exact F2|apply (NoDup_app_r _ _ Hn)|].
  - cbn [rbind bx_store]. unfold ds_all, dvals. rewrite map_app, !map_map. reflexivity.
  - intros b Hb Hi. rewrite Hk in Hi. exact (nodup_apart _ _ (cb_id b) Hn Hi (in_map cb_id _ _ Hb)).
Qed.

(** ** setup *)
Section Setup.
  Context (E : env) (HE : valid_env E) (Hh : hmac_32 E) (Hq : qq E <= 2 ^ 1024) (ch : chance) (HF : fair E ch) (n k : Z) (Hfit : seats_fit E n k).
  Context (m : manifest) (im : internal_manifest) (Hm : make_internal E m = Ok im).
  Context (mp pd kd : string) (dk : disk) (Hmf : dget mp (dk_files dk) = Some (JManifest m)) (Hpd : plain_dir pd) (Hkd : plain_dir kd).
  Notation ss := (seats_at ch n k).
  Notation run := (setup_election E ch n k mp true pd (Some kd) dk).
  Definition package_files (cx : context) (gs : list guardian) : list (content * string * string) :=
    [(JContext cx, "context", pd); (JConstants (pp E) (qq E) (gg E), "constants", pd); (JManifest m, "manifest", pd)]%string
    ++ map (fun g => let r := guardian_publish g in (JGuardian r, ("guardian_" ++ gr_id r)%string, os_join pd "guardians")) gs.
  Definition set_up (cx : context) (gs : list guardian) : Prop :=
    (exists h, cx = make_context E n k (gexp E (sumZ (map st_secret ss))) h (im_hash im)) /\ Forall2 (holder E) ss gs /\ Forall (fun g => good_published E k (guardian_publish g)) gs.
  Lemma setup_run nm : manifest_is_valid m = true -> get_name m = Ok nm -> exists cx gs, set_up cx gs /\
    run = let '(dk1, a) := to_files dk (package_files cx gs) in match a with Err e => mkOut dk1 None (Err e) | Ok _ => let '(dk2, a) := to_files dk1 (key_files kd gs) in mkOut dk2 None a end.
  Proof using HE Hh Hq HF Hfit Hm Hmf.
    intros Hv Hn. destruct (guardians_made E HE Hh Hq ch HF n k Hfit) as (gs & gs' & j & G1 & G2 & G3 & G4 & G5).
    exists (make_context E n k (jk_key j) (jk_hash j) (im_hash im)), gs'. split; [split; [exists (jk_hash j); rewrite G3; reflexivity|split; assumption]|].
    unfold setup_election. rewrite G1. cbn [rbind]. rewrite (manifest_gets dk mp m nm Hmf Hv Hn). cbn [rbind]. rewrite G2. cbn [rbind fst snd]. rewrite (built E n k m im j Hm Hv). cbn [rbind fst snd].
    unfold package_files. destruct (to_files dk _) as [dk1 [u|e]]; [|reflexivity]. rewrite Bool.andb_false_r. unfold export_keys. reflexivity.
  Qed.
  Lemma seat_names gs : Forall2 (holder E) ss gs -> map gd_id gs = guardian_ids n /\ NoDup (map gd_id gs) /\ forall g, In g gs -> has_slash (gd_id g) = false.
  Proof using HF Hfit.
    intros HG. rewrite (holder_gd E ss gs HG). split; [apply (seat_ids ch n k)|]. split; [apply (seats_distinct E ch HF n k Hfit)|]. intros g Hg. assert (Hi : In (gd_id g) (map st_id ss)) by (rewrite <- (holder_gd E ss gs HG); apply in_map, Hg).
    apply in_map_iff in Hi as (s & <- & Hs). apply (seat_slash ch n k s Hs).
  Qed.
  Definition key_entries (gs : list guardian) : list (content * string) := map (fun g => (JPrivate (export_private_data g), ("guardian_" ++ gd_id g)%string)) gs.
  Lemma key_entries_eq gs : key_files kd gs = map (fun e : content * string => (fst e, snd e, kd)) (key_entries gs).
  Proof. unfold key_files, key_entries. rewrite map_map. reflexivity. Qed.
  Lemma key_entries_names gs : NoDup (map gd_id gs) -> (forall g, In g gs -> has_slash (gd_id g) = false) -> NoDup (map snd (key_entries gs)) /\ forall e, In e (key_entries gs) -> has_slash (snd e) = false.
  Proof.
    intros Hn Hs. unfold key_entries. rewrite map_map. cbn [snd]. split.
    - rewrite <- (map_map gd_id (fun i => ("guardian_" ++ i)%string)). apply FinFun.Injective_map_NoDup; [|exact Hn]. intros a b H. apply append_inj_l in H. exact H.
    - intros e He. apply in_map_iff in He as (g & <- & Hg). cbn [snd]. rewrite slash_app. apply Hs, Hg.
  Qed.
  Lemma sub_dir : os_join pd "guardians" = (pd ++ "/guardians")%string.
  Proof using Hpd. destruct Hpd. apply os_join_plain; [assumption..|reflexivity]. Qed.
  Lemma sub_plain : plain_dir (pd ++ "/guardians").
  Proof.
    split; [intros H; destruct pd; discriminate H|]. clear. induction pd as [|c s IH]; [reflexivity|]. change (String c s ++ "/guardians")%string with (String c (s ++ "/guardians")). cbn [ends_slash]. destruct (s ++ "/guardians")%string as [|c' s'] eqn:He; [destruct s; discriminate He|exact IH].
  Qed.
  Definition package_entries (gs : list guardian) : list (content * string) := map (fun g => (JGuardian (guardian_publish g), ("guardian_" ++ gd_id g)%string)) gs.
  Lemma package_eq cx gs : package_files cx gs = map (fun e : content * string => (fst e, snd e, pd)) [(JContext cx, "context"); (JConstants (pp E) (qq E) (gg E), "constants"); (JManifest m, "manifest")]%string
    ++ map (fun e : content * string => (fst e, snd e, (pd ++ "/guardians")%string)) (package_entries gs).
  Proof using Hpd. unfold package_files, package_entries. rewrite sub_dir, map_map. reflexivity. Qed.
  Lemma to_files_app l1 l2 d : to_files d (l1 ++ l2) = let '(d1, a) := to_files d l1 in match a with Err e => (d1, Err e) | Ok _ => to_files d1 l2 end.
  Proof. revert d. induction l1 as [|[[x nm] p] l1 IH]; intros d; cbn [app to_files]; [reflexivity|]. destruct (to_file d x nm p); [apply IH|reflexivity]. Qed.
  Lemma top_fine cx : let l := [(JContext cx, "context"); (JConstants (pp E) (qq E) (gg E), "constants"); (JManifest m, "manifest")]%string in NoDup (map snd l) /\ forall e : content * string, In e l -> has_slash (snd e) = false.
  Proof. cbv zeta. split; [repeat constructor; cbn; intuition discriminate|]. intros e H. repeat destruct H as [<-|H]; try reflexivity. destruct H. Qed.
  Lemma deeper : (pd ++ "/guardians")%string <> pd.
  Proof.
    intros H. apply (f_equal String.length) in H. assert (Ha : forall x y : string, String.length (x ++ y) = (String.length x + String.length y)%nat) by (intros a b; induction a as [|c a IH]; [reflexivity|cbn; rewrite IH; reflexivity]).
    rewrite Ha in H. cbn in H. lia.
  Qed.
  (** what is on the disk when setup ends *)
  Lemma setup_done : oc_end run = Ok tt -> manifest_is_valid m = true /\ (exists nm, get_name m = Ok nm) /\ exists cx gs, set_up cx gs /\
    dget (file_named pd "context") (dk_files (oc_disk run)) = Some (JContext cx) /\
    (forall g, In g gs -> dget (file_named kd ("guardian_" ++ gd_id g)) (dk_files (oc_disk run)) = Some (JPrivate (export_private_data g))) /\
    dget (file_named pd "manifest") (dk_files (oc_disk run)) = Some (JManifest m) /\ dget (file_named pd "constants") (dk_files (oc_disk run)) = Some (JConstants (pp E) (qq E) (gg E)) /\
    (kd <> (pd ++ "/guardians")%string -> forall g, In g gs -> dget (file_named (pd ++ "/guardians") ("guardian_" ++ gd_id g)) (dk_files (oc_disk run)) = Some (JGuardian (guardian_publish g))).
  Proof using HE Hh Hq HF Hfit Hm Hmf Hpd Hkd.
    intros Ho. assert (Hv : manifest_is_valid m = true /\ exists nm, get_name m = Ok nm).
    { destruct (get_manifest dk mp) as [x|e] eqn:Hg; [destruct (manifest_got dk mp m x Hmf Hg) as (_ & H1 & H2); auto|]. exfalso. unfold setup_election in Ho. destruct (create_guardians E ch n k); cbn [rbind] in Ho; [|discriminate]. rewrite Hg in Ho. discriminate. }
    destruct Hv as [Hv [nm Hn]]. split; [exact Hv|]. split; [eauto|]. destruct (setup_run nm Hv Hn) as (cx & gs & HS & Hrun). exists cx, gs. split; [exact HS|]. rewrite Hrun in Ho |- *. clear Hrun. destruct HS as (_ & HG & _).
    destruct (seat_names gs HG) as (N1 & N2 & N3). destruct (key_entries_names gs N2 N3) as [K1 K2].
    rewrite package_eq, to_files_app in *. destruct (top_fine cx) as [T1 T2]. set (top := [(JContext cx, _); _; _]) in *.
    destruct (to_files dk (map _ top)) as [dk1 [[]|e]] eqn:H1; [|discriminate]. destruct (to_files dk1 (map _ (package_entries gs))) as [dk2 [[]|e]] eqn:H2; [|discriminate]. rewrite key_entries_eq in *.
    destruct (to_files dk2 _) as [dk3 a] eqn:H3. cbn [oc_end oc_disk] in *. subst a.
    assert (P1 : NoDup (map snd (package_entries gs)) /\ forall e, In e (package_entries gs) -> has_slash (snd e) = false).
    { assert (He : map snd (package_entries gs) = map snd (key_entries gs)) by (unfold package_entries, key_entries; rewrite !map_map; reflexivity). rewrite He. split; [exact K1|]. intros e Hi. apply (in_map snd) in Hi. rewrite He in Hi. apply in_map_iff in Hi as (e' & <- & Hi). apply K2, Hi. }
    destruct P1 as [P1 P2]. destruct (dir_read pd Hpd top T1 T2 _ _ H1) as [R1 _]. destruct (dir_read _ sub_plain _ P1 P2 _ _ H2) as [R2 R3]. destruct (dir_read kd Hkd _ K1 K2 _ _ H3) as [R4 R5].
    assert (Hkeep : forall x nmx, In (x, nmx) top -> has_slash nmx = false -> (forall i : string, nmx <> ("guardian_" ++ i)%string) -> dget (file_named pd nmx) (dk_files dk3) = Some x).
    { intros x nmx Hi Hsl Hd. rewrite R5, R3; [exact (R1 _ Hi)|..].
      - intros e He Heq. apply named_inj in Heq as [Heq _]; [|exact Hsl|apply P2, He]. exact (deeper (eq_sym Heq)).
      - intros e He Heq. apply named_inj in Heq as [_ Heq]; [|exact Hsl|apply K2, He]. unfold key_entries in He. apply in_map_iff in He as (g & <- & _). exact (Hd _ Heq). }
    split; [apply Hkeep; [left; reflexivity|reflexivity|discriminate]|]. split; [|split; [apply Hkeep; [right; right; left; reflexivity|reflexivity|discriminate]|split; [apply Hkeep; [right; left; reflexivity|reflexivity|discriminate]|]]].
    - intros g Hg. apply (R4 (JPrivate (export_private_data g), ("guardian_" ++ gd_id g)%string)). unfold key_entries. apply in_map_iff. exists g. auto.
    - intros Hne g Hg. rewrite R5.
      + apply (R2 (JGuardian (guardian_publish g), ("guardian_" ++ gd_id g)%string)). unfold package_entries. apply in_map_iff. exists g. auto.
      + intros e He Heq. apply named_inj in Heq as [Heq _]; [exact (Hne (eq_sym Heq))| |apply K2, He]. rewrite slash_app. apply N3, Hg.
  Qed.
  (** it ends well when the files can be written *)
  Lemma above_split : forall q d, In d (above q) -> exists r, q = (d ++ "/" ++ r)%string.
  Proof.
    clear. induction q as [|c q IH]; intros d; cbn [above]; [intros []|]. intros H. apply in_app_iff in H as [H|H].
    - destruct (Ascii.eqb_spec c slash) as [->|]; [destruct H as [<-|[]]; exists q; reflexivity|destruct H].
    - apply in_map_iff in H as (d' & <- & H). destruct (IH d' H) as [r ->]. exists r. reflexivity.
  Qed.
  Lemma setup_ends nm : manifest_is_valid m = true -> get_name m = Ok nm -> no_clash dk [pd; (pd ++ "/guardians")%string; kd] (setup_paths pd kd n) -> oc_end run = Ok tt.
  Proof using HE Hh Hq HF Hfit Hm Hmf Hpd Hkd.
    intros Hv Hn HC. destruct (setup_run nm Hv Hn) as (cx & gs & HS & ->). destruct HS as (_ & HG & _). destruct (seat_names gs HG) as (N1 & N2 & N3).
    pose proof (to_files_app (package_files cx gs) (key_files kd gs) dk) as Happ. assert (Hall : exists dk', to_files dk (package_files cx gs ++ key_files kd gs) = (dk', Ok tt)).
    - assert (HP : forall e, In e (package_files cx gs ++ key_files kd gs) -> plain_dir (snd e) /\ has_slash (snd (fst e)) = false /\ In (snd e) [pd; (pd ++ "/guardians")%string; kd] /\ In (file_named (snd e) (snd (fst e))) (setup_paths pd kd n)).
      { intros e He. unfold package_files in He. rewrite <- app_assoc, !in_app_iff, sub_dir in He. unfold setup_paths. rewrite <- N1, !map_map. destruct He as [He|[He|He]].
        - repeat (destruct He as [<-|He]; [cbn [fst snd]; split; [exact Hpd|]; split; [reflexivity|]; split; [left; reflexivity|]; apply in_or_app; left; apply in_map; cbn; tauto|]). destruct He.
        - apply in_map_iff in He as (g & <- & Hg). cbn [fst snd]. split; [exact sub_plain|]. split; [rewrite slash_app; exact (N3 g Hg)|]. split; [right; left; reflexivity|]. apply in_or_app. right. apply in_or_app. left. apply in_map_iff. exists g. split; [reflexivity|exact Hg].
        - unfold key_files in He. apply in_map_iff in He as (g & <- & Hg). cbn [fst snd]. split; [exact Hkd|]. split; [rewrite slash_app; exact (N3 g Hg)|]. split; [right; right; left; reflexivity|]. apply in_or_app. right. apply in_or_app. right. apply in_map_iff. exists g. split; [reflexivity|exact Hg]. }
      destruct (to_files_fine (package_files cx gs ++ key_files kd gs) dk) as (ds & Ht & _); [|eauto]. apply Forall_forall. intros e He. destruct (HP e He) as ((D1 & D2) & Q2 & _ & Q4). split; [exact D1|]. split; [exact D2|]. split; [exact Q2|].
      unfold entry_path. rewrite (path_named _ _ (conj D1 D2) Q2). destruct (HC _ Q4) as [C1 C2]. unfold all_dirs. rewrite in_app_iff, in_flat_map. intros [H|(e' & He' & H)]; [exact (C1 H)|]. destruct (HP e' He') as (_ & _ & Q3 & _).
      destruct (C2 _ Q3) as [C3 C4]. apply in_app_iff in H as [H|[H|[]]]; [apply above_split in H as [r H]; exact (C4 r H)|exact (C3 H)].
    - destruct Hall as [dk' Hall]. rewrite Hall in Happ. destruct (to_files dk (package_files cx gs)) as [dk1 [u|e]]; [|discriminate]. rewrite <- Happ. reflexivity.
  Qed.
End Setup.
