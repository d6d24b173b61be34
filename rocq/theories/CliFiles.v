(** * CliFiles: the files that the commands write: the record, the keys. *)
From Coq Require Import Permutation List Znumtheory.
From Verif Require Import Base Group Codec Hash ElGamal Manifest Ballot Encrypt Box Tally Spec ListFacts Ceremony SpecCeremony Shares SpecShares Verify SpecVerify SpecEndToEnd
  GuiUpload GuiDecrypt GuiDecPure GuiElection Report SpecReport Cli SpecCli CliPaths.
Local Open Scope Z_scope.
Local Open Scope list_scope.

Lemma nodup_app {A} (a b : list A) : NoDup a -> NoDup b -> (forall x, In x a -> In x b -> False) -> NoDup (a ++ b).
Proof.
  induction a as [|x a IH]; intros Ha Hb Hd; [exact Hb|]. inversion Ha as [|? ? Hx Ha']; subst. cbn [app]. constructor.
  - rewrite in_app_iff. intros [H|H]; [exact (Hx H)|exact (Hd x (or_introl eq_refl) H)].
  - apply IH; [assumption..|]. intros y Hy. apply Hd. right. exact Hy.
Qed.
Lemma dset_fresh_perm {V} (k : string) (v : V) d : ~ In k (dkeys d) -> Permutation (dset k v d) ((k, v) :: d).
Proof. intros H. rewrite (dset_new k v d H). rewrite Permutation_app_comm. reflexivity. Qed.
(** files written to new paths are added *)
Lemma written_all l : forall fs : dict string content, NoDup (map entry_path l) -> (forall e, In e l -> ~ In (entry_path e) (dkeys fs)) ->
  Permutation (fold_left (fun fs e => dset (entry_path e) (fst (fst e)) fs) l fs) (map (fun e => (entry_path e, fst (fst e))) l ++ fs).
Proof.
  induction l as [|e l IH]; intros fs Hn Hf; [reflexivity|]. cbn [fold_left map app]. inversion Hn as [|? ? Hx Hn']; subst. rewrite IH; [|exact Hn'|].
  - rewrite (dset_fresh_perm _ _ fs (Hf e (or_introl eq_refl))). symmetry. apply Permutation_middle.
  - intros e' He' Hi. apply dkeys_dset_in in Hi as [Hi|Hi]; [|exact (Hf e' (or_intror He') Hi)]. apply Hx. rewrite <- Hi. apply in_map. exact He'.
Qed.

(** ** the record *)
Definition record_dirs : list string := ["record"; "record/encryption_devices"; "record/guardians"; "record/submitted_ballots"; "record/spoiled_ballots"]%string.
Definition top_names : list string := ["manifest"; "context"; "constants"; "coefficients"; "encrypted_tally"; "tally"]%string.
Section Record.
  Context (E : env) (m : manifest) (cx : context) (devs : list device) (subs : list sub_ballot) (sps : list plain_tally) (t : tally) (p : plain_tally)
    (recs : list guardian_record) (lag : dict string Z).
  Let l := record_files E temp_dir m cx devs subs sps t p recs lag.
  Lemma record_entry e : In e l -> In (snd e) record_dirs /\ (snd e = "record"%string -> In (snd (fst e)) top_names) /\
    (has_slash (snd (fst e)) = false \/ (exists d, In d devs /\ snd (fst e) = ("device_" ++ decimal (dv_id d))%string) \/ (exists r, In r recs /\ snd (fst e) = ("guardian_" ++ gr_id r)%string) \/
      (exists b, In b subs /\ snd (fst e) = ("submitted_ballot_" ++ sb_id b)%string) \/ (exists q, In q sps /\ snd (fst e) = ("spoiled_ballot_" ++ pt_id q)%string)).
  Proof.
    intros Hi. unfold l, record_files in Hi. rewrite !in_app_iff in Hi.
    destruct Hi as [Hi|[Hi|[Hi|[Hi|[Hi|Hi]]]]].
    - cbn in Hi. repeat (destruct Hi as [<-|Hi]; [cbn; split; [tauto|split; [tauto|left; reflexivity]]|]). destruct Hi.
    - apply in_map_iff in Hi as (d & <- & Hd). cbn. split; [tauto|]. split; [discriminate|]. right. left. eauto.
    - apply in_map_iff in Hi as (d & <- & Hd). cbn. split; [tauto|]. split; [discriminate|]. right. right. left. eauto.
    - apply in_map_iff in Hi as (d & <- & Hd). cbn. split; [tauto|]. split; [discriminate|]. right. right. right. left. eauto.
    - apply in_map_iff in Hi as (d & <- & Hd). cbn. split; [tauto|]. split; [discriminate|]. right. right. right. right. eauto.
    - cbn in Hi. repeat (destruct Hi as [<-|Hi]; [cbn; split; [tauto|split; [tauto|left; reflexivity]]|]). destruct Hi.
  Qed.
  Lemma dirs_of d : In d (all_dirs temp_disk l) -> In d record_dirs.
  Proof.
    unfold all_dirs. rewrite in_app_iff, in_flat_map. intros [[<-|[]]|(e & He & Hd)]; [left; reflexivity|].
    destruct (record_entry e He) as (Hs & _). apply in_app_iff in Hd as [Hd|[<-|[]]]; [|exact Hs].
    cbn in Hs. repeat (destruct Hs as [Hs|Hs]; [rewrite <- Hs in Hd; vm_compute in Hd; cbn; tauto|]). destruct Hs.
  Qed.
  Lemma dir_plain d : In d record_dirs -> d <> ""%string /\ ends_slash d = false.
  Proof. cbn. intros H. repeat (destruct H as [<-|H]; [split; [discriminate|reflexivity]|]). destruct H. Qed.
  Hypothesis (Hr : forall r, In r recs -> has_slash (gr_id r) = false) (Hb : forall b, In b subs -> has_slash (sb_id b) = false) (Hs : forall q, In q sps -> has_slash (pt_id q) = false).
  Lemma record_name e : In e l -> has_slash (snd (fst e)) = false.
  Proof using Hr Hb Hs.
    intros Hi. destruct (record_entry e Hi) as (_ & _ & [H|[(d & _ & ->)|[(r & Hi' & ->)|[(b & Hi' & ->)|(q & Hi' & ->)]]]]); [exact H|..]; rewrite slash_app; cbn [orb];
      [apply decimal_slash|apply Hr, Hi'|apply Hb, Hi'|apply Hs, Hi'].
  Qed.
  Lemma record_path e : In e l -> entry_path e = (snd e ++ "/" ++ (snd (fst e) ++ ".json"))%string.
  Proof using Hr Hb Hs.
    intros Hi. destruct (record_entry e Hi) as (Hd & _). destruct (dir_plain _ Hd) as [D1 D2]. unfold entry_path. apply path_of; [assumption..|]. apply record_name, Hi.
  Qed.
  Lemma record_fine : Forall (entry_fine (all_dirs temp_disk l)) l.
  Proof using Hr Hb Hs.
    apply Forall_forall. intros e Hi. destruct (record_entry e Hi) as (Hd & Ht & _). destruct (dir_plain _ Hd) as [D1 D2]. split; [exact D1|]. split; [exact D2|]. split; [apply record_name, Hi|].
    intros Hin. apply dirs_of in Hin. rewrite (record_path e Hi) in Hin. pose proof (name_slash _ (record_name e Hi)) as Hn. pose proof (split_join (snd e) _ Hn) as Hj.
    set (y := (snd e ++ "/" ++ (snd (fst e) ++ ".json"))%string) in *. cbn in Hin.
    destruct Hin as [H|Hin]; [rewrite <- H in Hj; discriminate Hj|].
    assert (Hx : snd e = "record"%string /\ In (snd (fst e) ++ ".json")%string ["encryption_devices"; "guardians"; "submitted_ballots"; "spoiled_ballots"]%string).
    { clearbody y. remember (snd (fst e) ++ ".json")%string as nm. clear Heqnm. generalize dependent (snd e). intros d _ _ _ _ Hj.
      repeat (destruct Hin as [<-|Hin]; [vm_compute in Hj; injection Hj as <- <-; split; [reflexivity|cbn; tauto]|]). destruct Hin. }
    destruct Hx as [Hx Hy]. specialize (Ht Hx). cbn in Ht. repeat (destruct Ht as [Ht|Ht]; [rewrite <- Ht in Hy; cbn in Hy; intuition discriminate|]). destruct Ht.
  Qed.
  Lemma perm_record : Permutation (map (fun e => (entry_path e, fst (fst e))) l) (record_of E m cx devs recs subs sps t p lag).
  Proof using Hr Hb Hs.
    assert (HM : map (fun e => (entry_path e, fst (fst e))) l = map (fun e => ((snd e ++ "/" ++ (snd (fst e) ++ ".json"))%string, fst (fst e))) l).
    { apply map_ext_in. intros e Hi. rewrite (record_path e Hi). reflexivity. }
    rewrite HM. clear HM. unfold l, record_files, record_of. rewrite !map_app, !map_map. cbn [map fst snd].
    change (os_join temp_dir "encryption_devices") with "record/encryption_devices"%string. change (os_join temp_dir "guardians") with "record/guardians"%string.
    change (os_join temp_dir "submitted_ballots") with "record/submitted_ballots"%string. change (os_join temp_dir "spoiled_ballots") with "record/spoiled_ballots"%string.
    match goal with |- Permutation (?a ++ ?b ++ ?c ++ ?d ++ ?e ++ ?z) (?r ++ ?x) => change r with (a ++ z); assert (Hx : x = b ++ c ++ d ++ e) by reflexivity end.
    rewrite Hx, <- app_assoc. apply Permutation_app_head.
    match goal with |- Permutation (?b ++ ?c ++ ?d ++ ?e ++ ?z) _ => replace (b ++ c ++ d ++ e ++ z) with ((b ++ c ++ d ++ e) ++ z) by (rewrite <- !app_assoc; reflexivity) end. apply Permutation_app_comm.
  Qed.
  Hypothesis (Nd : NoDup (map dv_id devs)) (Nr : NoDup (map gr_id recs)) (Nb : NoDup (map sb_id subs)) (Ns : NoDup (map pt_id sps)).
  Definition slot (e : content * string * string) : string * string := (snd e, snd (fst e)).
  Lemma group_nodup {A} (f : A -> content) (g : A -> string) (pre d : string) (xs : list A) : NoDup (map g xs) -> NoDup (map slot (map (fun x => (f x, (pre ++ g x)%string, d)) xs)).
  Proof.
    intros H. rewrite map_map. cbn. induction xs as [|x xs IH]; [constructor|]. cbn [map] in *. inversion H as [|? ? Hx H']; subst. constructor; [|apply IH, H'].
    intros Hi. apply in_map_iff in Hi as (y & Hy & Hi). unfold slot in Hy. cbn in Hy. injection Hy as Hy. apply append_inj_l in Hy. apply Hx. rewrite <- Hy. apply in_map. exact Hi.
  Qed.
  Lemma group_dir {A} (f : A -> content) (g : A -> string) (pre d : string) (xs : list A) y : In y (map slot (map (fun x => (f x, (pre ++ g x)%string, d)) xs)) -> fst y = d.
  Proof. rewrite map_map. intros H. apply in_map_iff in H as (x & <- & _). reflexivity. Qed.
  Lemma slots_nodup : NoDup (map slot l).
  Proof using Nd Nr Nb Ns.
    unfold l, record_files. rewrite !map_app.
    change (os_join temp_dir "encryption_devices") with "record/encryption_devices"%string. change (os_join temp_dir "guardians") with "record/guardians"%string.
    change (os_join temp_dir "submitted_ballots") with "record/submitted_ballots"%string. change (os_join temp_dir "spoiled_ballots") with "record/spoiled_ballots"%string.
    assert (Nd' : NoDup (map (fun d => decimal (dv_id d)) devs)).
    { rewrite <- (map_map dv_id decimal). apply FinFun.Injective_map_NoDup; [intros a b; apply decimal_inj|exact Nd]. }
    set (A := map slot [(JManifest m, "manifest"%string, temp_dir); _; _; _]). set (Z := map slot [(JCipherTally _ _, _, _); _]).
    assert (HA : forall y, In y A -> fst y = "record"%string) by (intros y Hy; cbn in Hy; repeat (destruct Hy as [<-|Hy]; [reflexivity|]); destruct Hy).
    assert (HZ : forall y, In y Z -> fst y = "record"%string) by (intros y Hy; cbn in Hy; repeat (destruct Hy as [<-|Hy]; [reflexivity|]); destruct Hy).
    assert (NA : NoDup A) by (cbn; repeat constructor; cbn; intuition discriminate). assert (NZ : NoDup Z) by (cbn; repeat constructor; cbn; intuition discriminate).
    assert (AZ : forall y, In y A -> In y Z -> False) by (intros y; cbn; intuition (subst; discriminate)).
    clearbody A Z.
    pose proof (group_nodup JDevice (fun d => decimal (dv_id d)) "device_" "record/encryption_devices" devs Nd') as G1. pose proof (group_nodup JGuardian gr_id "guardian_" "record/guardians" recs Nr) as G2.
    pose proof (group_nodup JSubmitted sb_id "submitted_ballot_" "record/submitted_ballots" subs Nb) as G3. pose proof (group_nodup JTally pt_id "spoiled_ballot_" "record/spoiled_ballots" sps Ns) as G4.
    pose proof (group_dir JDevice (fun d => decimal (dv_id d)) "device_" "record/encryption_devices" devs) as K1. pose proof (group_dir JGuardian gr_id "guardian_" "record/guardians" recs) as K2.
    pose proof (group_dir JSubmitted sb_id "submitted_ballot_" "record/submitted_ballots" subs) as K3. pose proof (group_dir JTally pt_id "spoiled_ballot_" "record/spoiled_ballots" sps) as K4.
    set (B1 := map slot (map _ devs)) in *. set (B2 := map slot (map _ recs)) in *. set (B3 := map slot (map _ subs)) in *. set (B4 := map slot (map _ sps)) in *. clearbody B1 B2 B3 B4.
    repeat (apply nodup_app; [assumption|..]); try assumption; intros y Hy; rewrite ?in_app_iff; intros Hi;
      repeat match goal with H : _ \/ _ |- _ => destruct H as [H|H] end;
      repeat match goal with K : forall y, In y ?B -> fst y = _, H : In y ?B |- _ => pose proof (K y H); clear K end; try congruence; eauto.
  Qed.
  Lemma paths_nodup : NoDup (map entry_path l).
  Proof using Hr Hb Hs Nd Nr Nb Ns.
    pose proof slots_nodup as H. pose proof record_path as HP. pose proof record_name as HN. clearbody l. clear -H HP HN. induction l as [|e l' IH]; [constructor|]. cbn [map] in *. inversion H as [|? ? Hx H']; subst. constructor.
    - intros Hi. apply in_map_iff in Hi as (e' & He & Hi). apply Hx. apply in_map_iff. exists e'. split; [|exact Hi].
      rewrite (HP e (or_introl eq_refl)), (HP e' (or_intror Hi)) in He.
      apply joined_inj in He as [H1 H2]; [|apply name_slash, HN; cbn; auto..]. apply append_inj_r in H2. unfold slot. congruence.
    - apply IH; [exact H'|..]; intros e' He'; [apply HP|apply HN]; right; exact He'.
  Qed.
  (** the files of a record *)
  Lemma record_written : exists tmp, to_files temp_disk l = (tmp, Ok tt) /\ files_are (dk_files tmp) (record_of E m cx devs recs subs sps t p lag).
  Proof using Hr Hb Hs Nd Nr Nb Ns.
    destruct (to_files_fine l temp_disk record_fine) as (ds & Ht & _). eexists. split; [exact Ht|]. cbn [dk_files temp_disk]. split.
    - assert (HP : Permutation (map entry_path l) (map fst (record_of E m cx devs recs subs sps t p lag))).
      2: { apply (Permutation_NoDup HP), paths_nodup. }
      rewrite <- (map_map (fun e => (entry_path e, fst (fst e))) fst). apply Permutation_map. apply perm_record.
    - rewrite (written_all l [] paths_nodup); [|intros e _ []]. rewrite app_nil_r. apply perm_record.
  Qed.
End Record.

(** ** ids with a "/" *)
Lemma split_deep a f d g : split_path f = (Some d, g) -> split_path (a ++ f)%string = (Some (a ++ d)%string, g).
Proof.
  intros H. induction a as [|c a IH]; [exact H|]. change (split_path (String c (a ++ f)%string) = (Some (String c (a ++ d)%string), g)).
  change (match split_path (a ++ f)%string with (Some d, f) => (Some (String c d), f) | (None, f) => if Ascii.eqb c slash then (Some ""%string, f) else (None, String c f) end = (Some (String c (a ++ d)%string), g)).
  rewrite IH. reflexivity.
Qed.
Lemma slash_split s : has_slash s = true -> exists d g, split_path s = (Some d, g).
Proof.
  induction s as [|c s IH]; [discriminate|]. cbn [has_slash split_path]. destruct (split_path s) as [[d|] g]; [eauto|]. destruct (Ascii.eqb c slash); [eauto|].
  cbn [orb]. intros H. destruct (IH H) as (d & g' & H'). discriminate H'.
Qed.
Lemma to_file_dirs dk x nm d dk' : to_file dk x nm d = Ok dk' -> parent_exists dk' (construct_path nm d) = true /\ (forall y, In y (dk_dirs dk') -> In y (dk_dirs dk) \/ In y (above d ++ [d])).
Proof.
  unfold to_file. destruct (_ && _).
  - cbn [rbind]. unfold write_path. destruct (parent_exists dk _) eqn:Hp; cbn [andb]; [|discriminate]. destruct (negb _); [|discriminate]. intros [= <-]. split; [exact Hp|]. cbn [dk_dirs]. auto.
  - unfold makedirs. destruct (String.eqb d ""); [discriminate|]. cbn [rbind]. unfold write_path. destruct (parent_exists _ _) eqn:Hp; cbn [andb]; [|discriminate]. destruct (negb _); [|discriminate]. intros [= <-].
    split; [exact Hp|]. cbn [dk_dirs]. intros y Hy. apply add_dirs_in in Hy. exact Hy.
Qed.
Lemma to_files_dirs l : forall dk dk', to_files dk l = (dk', Ok tt) -> forall e, In e l -> match fst (split_path (entry_path e)) with None => True | Some d => In d (all_dirs dk l) end.
Proof.
  induction l as [|[[x nm] d] l IH]; intros dk dk' H e Hi; [destruct Hi|]. cbn [to_files] in H. destruct (to_file dk x nm d) as [dk1|] eqn:H1; [|discriminate].
  destruct (to_file_dirs _ _ _ _ _ H1) as [P1 P2]. assert (HA : forall y, In y (all_dirs dk1 l) -> In y (all_dirs dk ((x, nm, d) :: l))).
  { intros y Hy. unfold all_dirs in *. cbn [flat_map snd]. rewrite !in_app_iff in *. destruct Hy as [Hy|Hy]; [|tauto]. apply P2 in Hy. rewrite in_app_iff in Hy. tauto. }
  destruct Hi as [<-|Hi].
  - unfold entry_path. cbn [fst snd]. unfold parent_exists in P1. destruct (fst (split_path (construct_path nm d))) as [d'|]; [|exact I]. apply inb_spec in P1. apply HA. unfold all_dirs. apply in_app_iff. left. exact P1.
  - specialize (IH dk1 dk' H e Hi). destruct (fst (split_path (entry_path e))); [apply HA, IH|exact I].
Qed.
Lemma record_slash E m cx devs subs sps t p recs lag b : In b subs -> has_slash (sb_id b) = true -> snd (to_files temp_disk (record_files E temp_dir m cx devs subs sps t p recs lag)) <> Ok tt.
Proof.
  intros Hb Hs Hok. destruct (to_files temp_disk _) as [dk' r] eqn:Ht. cbn [snd] in Hok. subst r.
  pose proof (to_files_dirs _ _ _ Ht (JSubmitted b, ("submitted_ballot_" ++ sb_id b)%string, "record/submitted_ballots"%string)) as H.
  assert (Hi : In (JSubmitted b, ("submitted_ballot_" ++ sb_id b)%string, "record/submitted_ballots"%string) (record_files E temp_dir m cx devs subs sps t p recs lag)).
  { unfold record_files. rewrite !in_app_iff. do 3 right. left. apply in_map_iff. exists b. split; [reflexivity|exact Hb]. }
  specialize (H Hi). assert (He : entry_path (JSubmitted b, ("submitted_ballot_" ++ sb_id b)%string, "record/submitted_ballots"%string) = ("record/submitted_ballots/submitted_ballot_" ++ (sb_id b ++ ".json"))%string) by reflexivity.
  rewrite He in H. destruct (slash_split (sb_id b ++ ".json")%string) as (d & g & Hd); [rewrite slash_app, Hs; reflexivity|]. rewrite (split_deep _ _ _ _ Hd) in H. cbn [fst] in H.
  apply dirs_of in H. cbn in H. intuition discriminate.
Qed.

(** ** the keys *)
Definition key_path (d : string) (g : guardian) : string := (d ++ "/guardian_" ++ gd_id g ++ ".json")%string.
Lemma keys_written dk d gs : d <> ""%string -> ends_slash d = false -> NoDup (map gd_id gs) -> (forall g, In g gs -> has_slash (gd_id g) = false) ->
  (forall g, In g gs -> ~ In (key_path d g) (dk_dirs dk)) ->
  exists dk2, to_files dk (key_files d gs) = (dk2, Ok tt) /\ (forall g, In g gs -> dget (key_path d g) (dk_files dk2) = Some (JPrivate (export_private_data g))) /\
    (forall p, (forall g, In g gs -> p <> key_path d g) -> dget p (dk_files dk2) = dget p (dk_files dk)) /\ (forall y, In y (dk_dirs dk) -> In y (dk_dirs dk2)).
Proof.
  intros D1 D2 Hn Hs Hd. assert (HP : map entry_path (key_files d gs) = map (key_path d) gs).
  { unfold key_files. rewrite map_map. apply map_ext_in. intros g Hg. unfold entry_path. cbn [fst snd export_private_data pr_id]. rewrite path_of; [|assumption..|rewrite slash_app; apply Hs, Hg].
    unfold key_path. rewrite append_assoc. reflexivity. }
  assert (HF : Forall (entry_fine (all_dirs dk (key_files d gs))) (key_files d gs)).
  { apply Forall_forall. intros e He. assert (Hp : In (entry_path e) (map (key_path d) gs)) by (rewrite <- HP; apply in_map, He). apply in_map_iff in Hp as (g & Hg & Hi).
    unfold key_files in He. apply in_map_iff in He as (g' & <- & Hi'). unfold entry_fine. cbn [fst snd export_private_data pr_id] in *. split; [exact D1|]. split; [exact D2|]. split; [rewrite slash_app; apply Hs, Hi'|].
    rewrite <- Hg. unfold all_dirs. rewrite in_app_iff, in_flat_map. intros [H|(e & He & H)]; [exact (Hd g Hi H)|]. unfold key_files in He. apply in_map_iff in He as (g2 & <- & _). cbn [snd] in H.
    assert (HL : (String.length (key_path d g) <= String.length d)%nat). { apply in_app_iff in H as [H|[<-|[]]]; [apply above_len in H; lia|lia]. }
    revert HL. unfold key_path. assert (Ha : forall x y : string, String.length (x ++ y) = (String.length x + String.length y)%nat) by (intros x y; induction x as [|c x IH]; [reflexivity|cbn; rewrite IH; reflexivity]).
    rewrite Ha. cbn. lia. }
  destruct (to_files_fine _ _ HF) as (ds & Ht & Hds & _). eexists. split; [exact Ht|]. cbn [dk_files dk_dirs].
  assert (HN : NoDup (map entry_path (key_files d gs))).
  { rewrite HP. clear -Hn. induction gs as [|g gs IH]; [constructor|]. cbn [map] in *. inversion Hn as [|? ? Hx Hn']; subst. constructor; [|apply IH, Hn']. intros Hi. apply in_map_iff in Hi as (g' & He & Hi). apply Hx.
    unfold key_path in He. apply append_inj_l in He. cbn in He. repeat (injection He as He). apply append_inj_r in He. rewrite <- He. apply in_map, Hi. }
  destruct (written_get (key_files d gs) (dk_files dk) HN) as [W1 W2]. split; [|split; [|exact Hds]].
  - intros g Hg. specialize (W1 (JPrivate (export_private_data g), ("guardian_" ++ gd_id g)%string, d)). cbn [fst snd] in W1. assert (Hin : In (JPrivate (export_private_data g), ("guardian_" ++ gd_id g)%string, d) (key_files d gs)) by (unfold key_files; apply in_map_iff; exists g; auto).
    specialize (W1 Hin). unfold entry_path in W1 at 1. cbn [fst snd] in W1. rewrite path_of in W1; [|assumption..|rewrite slash_app; apply Hs, Hg]. unfold key_path. rewrite append_assoc in W1. exact W1.
  - intros p Hp. apply W2. rewrite HP. intros Hi. apply in_map_iff in Hi as (g & <- & Hi). exact (Hp g Hi eq_refl).
Qed.
