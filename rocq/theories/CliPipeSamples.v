(** * CliPipeSamples: an election with the four commands. *)
From Coq Require Import Permutation List Znumtheory Ascii.
From Verif Require Import Base Group Codec Hash DLog ElGamal ZK Poly Manifest Ballot Encrypt Box Tally Spec SpecElection SpecTally
  ListFacts GroupFacts ZKFacts CryptoThms ManifestThms EncryptFacts BallotFacts EncryptThms TallyFacts TallyThms TallyMore BoxFacts
  Ceremony SpecCeremony Shares SpecShares SharesFacts ShareRun SharesThms SharesMore Verify SpecVerify VerifyFacts SpecEndToEnd EndToEnd
  GuiDecrypt GuiDecPure GuiElection Report SpecReport ReportFacts ReportLink ReportPages Cli SpecCli CliDec CliRun CliPaths CliE2e CliFiles CliThms CliPipe CliVotes CliPipeThms
  Tiny Samples TallySamples EndToEndSamples CliSamples UploadFacts.
Local Open Scope Z_scope.
Local Open Scope list_scope.

(** directories side by side *)
Definition shelf (l : list (string * list (string * content))) : disk :=
  mkDisk (map fst l) (flat_map (fun e => map (fun f => ((fst e ++ "/" ++ fst f)%string, snd f)) (snd e)) l).
Definition good_shelf (l : list (string * list (string * content))) : Prop :=
  NoDup (map fst l) /\ forall e, In e l -> fst e <> ""%string /\ has_slash (fst e) = false /\ NoDup (map fst (snd e)) /\ forall f, In f (snd e) -> has_slash (fst f) = false.
Lemma no_slash_end d : has_slash d = false -> ends_slash d = false.
Proof.
  induction d as [|c d IH]; [reflexivity|]. cbn [has_slash ends_slash]. intros H. apply Bool.orb_false_iff in H as [H1 H2]. destruct d; [exact H1|apply IH, H2].
Qed.
Lemma shelf_proper l : good_shelf l -> proper_disk (shelf l).
Proof.
  intros [Hn Hg]. unfold proper_disk, dkeys, shelf. cbn [dk_files]. induction l as [|e l IH]; [constructor|]. cbn [map flat_map] in *. rewrite map_app. inversion Hn as [|? ? Hi Hn']; subst. destruct (Hg e (or_introl eq_refl)) as (G1 & G2 & G3 & G4).
  assert (HI : NoDup (map fst (flat_map (fun e => map (fun f => ((fst e ++ "/" ++ fst f)%string, snd f)) (snd e)) l))) by (apply IH; [exact Hn'|intros x Hx; apply Hg; right; exact Hx]).
  rewrite map_map. cbn [fst]. assert (H1 : NoDup (map (fun f : string * content => (fst e ++ "/" ++ fst f)%string) (snd e))).
  { rewrite <- (map_map fst (fun f => (fst e ++ "/" ++ f)%string)). apply FinFun.Injective_map_NoDup; [|exact G3]. intros a b H. apply append_inj_l in H. injection H as H. exact H. }
  apply UploadFacts.NoDup_app_intro; [exact H1|exact HI|]. intros x Hx Hy. apply in_map_iff in Hx as (f & <- & Hf). apply in_map_iff in Hy as ((y & c) & Hy & Hin). cbn [fst] in Hy. subst y. apply in_flat_map in Hin as (e' & He' & Hin). apply in_map_iff in Hin as (f' & Heq & Hf').
  apply (f_equal fst) in Heq. cbn [fst] in Heq. destruct (Hg e' (or_intror He')) as (_ & _ & _ & G4'). apply joined_inj in Heq as [Heq _]; [|apply G4', Hf'|apply G4, Hf]. apply Hi. rewrite <- Heq. apply in_map, He'.
Qed.
Lemma shelf_get l d fs f x : good_shelf l -> In (d, fs) l -> In (f, x) fs -> dget (d ++ "/" ++ f)%string (dk_files (shelf l)) = Some x.
Proof.
  intros Hg Hl Hf. apply in_dget; [exact (shelf_proper l Hg)|]. unfold shelf. cbn [dk_files]. apply in_flat_map. exists (d, fs). split; [exact Hl|]. apply in_map_iff. exists (f, x). split; [reflexivity|exact Hf].
Qed.
Lemma slash_in d f : has_slash (d ++ "/" ++ f)%string = true.
Proof. induction d as [|c d IH]; [reflexivity|]. change (has_slash (String c (d ++ "/" ++ f)%string) = true). cbn [has_slash]. rewrite IH. apply Bool.orb_true_r. Qed.
Lemma shelf_none l d : has_slash d = false -> dget d (dk_files (shelf l)) = None.
Proof.
  intros Hd. destruct (dget d _) as [x|] eqn:H; [|reflexivity]. apply dget_in in H. unfold shelf in H. cbn [dk_files] in H. apply in_flat_map in H as (e & _ & H). apply in_map_iff in H as (f & H & _). apply (f_equal fst) in H. cbn [fst] in H. rewrite <- H, slash_in in Hd. discriminate.
Qed.
Lemma shelf_dir l d fs : good_shelf l -> In (d, fs) l -> directory (shelf l) d fs.
Proof.
  intros Hg Hl. pose proof Hg as [Hn Hg']. destruct (Hg' _ Hl) as (G1 & G2 & G3 & G4). cbn [fst snd] in *. split; [exact G1|]. split; [apply no_slash_end, G2|]. split; [apply (in_map fst) in Hl; exact Hl|]. split; [exact G3|]. split.
  - intros f x. split.
    + intros [Hf H]. apply dget_in in H. unfold shelf in H. cbn [dk_files] in H. apply in_flat_map in H as (e & He & H). apply in_map_iff in H as (g & H & Hin). assert (Hx := f_equal snd H). cbn [snd] in Hx. apply (f_equal fst) in H. cbn [fst] in H. subst x. destruct (Hg' e He) as (_ & _ & _ & G4').
      apply joined_inj in H as [H1 H2]; [|apply G4', Hin|exact Hf]. assert (e = (d, fs)).
      { destruct e as [d' fs']. cbn [fst snd] in *. subst d'. f_equal. clear -Hn He Hl. induction l as [|y l IH]; [destruct He|]. cbn [map] in Hn. inversion Hn as [|? ? Hi Hn']; subst. destruct He as [->|He], Hl as [Hl|Hl]; [congruence|apply (in_map fst) in Hl; contradiction|subst y; apply (in_map fst) in He; contradiction|exact (IH Hl Hn' He)]. }
      subst e. cbn [snd] in Hin. rewrite <- H2. destruct g; exact Hin.
    + intros Hf. split; [exact (G4 _ Hf)|exact (shelf_get l d fs f x Hg Hl Hf)].
  - intros f _ H. unfold shelf in H. cbn [dk_dirs] in H. apply in_map_iff in H as (e & He & Hin). destruct (Hg' e Hin) as (_ & G2' & _). rewrite He, slash_in in G2'. discriminate.
Qed.

(** three guardians, two of which could decrypt, three ballots, the third of them spoiled; every command runs in a directory of its own *)
Definition content_at (dk : disk) (p : string) : content := match dget p (dk_files dk) with Some x => x | None => JPlains [] end.
Definition ballot1 : pt_ballot := vr_ballot voter1.
Definition ballot2 : pt_ballot := vr_ballot voter2.
Definition ballot3 : pt_ballot := vr_ballot voter3.
Local Open Scope string_scope.
Local Open Scope list_scope.
Definition mfile : string * content := ("manifest.json"%string, JManifest demo_manifest).
Definition shelf0 := [("in"%string, [mfile])].
Notation pipe0 := (setup_election medium cli_chance 3 2 "in/manifest.json" true "package" (Some "private"%string) (shelf shelf0)).
Definition cfile : string * content := ("context.json"%string, content_at (oc_disk pipe0) "package/context.json").
Definition shelf1 := [("in"%string, [mfile; cfile]); ("plain"%string, [("a.json"%string, JPlain ballot1); ("b.json"%string, JPlain ballot2); ("c.json"%string, JPlain ballot3)])].
Notation pipe1 := (encrypt_command medium cli_chance "in/manifest.json" "in/context.json" "plain" (Some "cipher"%string) (shelf shelf1)).
Definition at1 (b : pt_ballot) : content := content_at (oc_disk pipe1) (file_named "cipher" (pb_id b)).
Definition shelf2 := [("in"%string, [mfile; cfile]); ("cast"%string, [("x.json"%string, at1 ballot2); ("y.json"%string, at1 ballot1)]); ("spoil"%string, [("z.json"%string, at1 ballot3)])].
Notation pipe2 := (submit_command medium cli_chance "in/manifest.json" "in/context.json" "cast" (Some "spoil"%string) (Some "submitted"%string) (shelf shelf2)).
Definition at2 (b : pt_ballot) : content := content_at (oc_disk pipe2) (file_named "submitted" (pb_id b)).
Definition key_at (i : string) : content := content_at (oc_disk pipe0) (file_named "private" ("guardian_" ++ i)).
Definition in3 := [mfile; cfile; ("device.json"%string, content_at (oc_disk pipe1) (file_named "cipher" "device"))].
Definition shelf3 := [("in"%string, in3);
  ("votes"%string, [("1.json"%string, at2 ballot3); ("2.json"%string, at2 ballot1); ("3.json"%string, at2 ballot2)]);
  ("keys"%string, [("c.json"%string, key_at "3"); ("b.json"%string, key_at "2"); ("a.json"%string, key_at "1")]); ("out"%string, [])].
Definition demo_commands : commands := mkCommands 3 2 (fun _ => cli_chance) (fun i => match i with O => shelf shelf0 | 1%nat => shelf shelf1 | 2%nat => shelf shelf2 | _ => shelf shelf3 end)
  (fun _ => "in/manifest.json"%string) (fun _ => "in/context.json"%string) "package" "private" "plain" "cipher" "cast" (Some "spoil"%string) "submitted" "votes" "keys" (Some "in/device.json"%string) (Some "out/record.zip"%string).
Ltac shelved := split; [repeat constructor; cbn; intuition discriminate|]; intros e He; repeat (destruct He as [<-|He]; [cbn [fst snd]; split; [discriminate|]; split; [reflexivity|]; split;
  [repeat constructor; cbn; intuition discriminate|intros f Hf; repeat (destruct Hf as [<-|Hf]; [reflexivity|]); destruct Hf]|]); destruct He.
Lemma good0 : good_shelf shelf0. Proof. unfold shelf0, mfile. shelved. Qed.
Lemma good1 : good_shelf shelf1. Proof. unfold shelf1, mfile, cfile. generalize (content_at (oc_disk pipe0) "package/context.json"). intros x. shelved. Qed.
Lemma good2 : good_shelf shelf2. Proof. unfold shelf2, mfile, cfile. generalize (content_at (oc_disk pipe0) "package/context.json") (at1 ballot1) (at1 ballot2) (at1 ballot3). intros x x1 x2 x3. shelved. Qed.
Lemma good3 : good_shelf shelf3.
Proof. unfold shelf3, in3, mfile, cfile. generalize (content_at (oc_disk pipe0) "package/context.json") (content_at (oc_disk pipe1) (file_named "cipher" "device")) (at2 ballot1) (at2 ballot2) (at2 ballot3) (key_at "1") (key_at "2") (key_at "3"). intros x x0 x1 x2 x3 k1 k2 k3. shelved. Qed.

Lemma setup_is E c : setup_outcome E c = setup_election E (cm_chance c 0) (cm_guardians c) (cm_quorum c) (cm_manifest c 0) true (cm_package c) (Some (cm_keys c)) (cm_disk c 0).
Proof. reflexivity. Qed.
Lemma encrypt_is E c : encrypt_outcome E c = encrypt_command E (cm_chance c 1) (cm_manifest c 1) (cm_context c 1) (cm_ballots c) (Some (cm_encrypted c)) (cm_disk c 1).
Proof. reflexivity. Qed.
Lemma submit_is E c : submit_outcome E c = submit_command E (cm_chance c 2) (cm_manifest c 2) (cm_context c 2) (cm_cast c) (cm_spoiled c) (Some (cm_submitted c)) (cm_disk c 2).
Proof. reflexivity. Qed.
Lemma setup0 : setup_outcome medium demo_commands = pipe0. Proof. rewrite setup_is. reflexivity. Qed.
Lemma encrypt1 : encrypt_outcome medium demo_commands = pipe1. Proof. rewrite encrypt_is. reflexivity. Qed.
Lemma submit2 : submit_outcome medium demo_commands = pipe2. Proof. rewrite submit_is. reflexivity. Qed.
Lemma pipe_fair i : fair medium (cm_chance demo_commands i). Proof. exact cli_fair. Qed.
Lemma plain_names : plain_dir "package" /\ plain_dir "private" /\ plain_dir "cipher" /\ plain_dir "submitted".
Proof. repeat split; discriminate. Qed.
Lemma pipe_ids : file_ids [ballot1; ballot2; ballot3].
Proof. split; [exact cli_ids|]. intros b [<-|[<-|[<-|[]]]]; split; [reflexivity|discriminate|reflexivity|discriminate|reflexivity|discriminate]. Qed.
Lemma manifest0 : dget "in/manifest.json"%string (dk_files (shelf shelf0)) = Some (JManifest demo_manifest).
Proof. apply (shelf_get shelf0 "in" [mfile] "manifest.json" _ good0); left; reflexivity. Qed.
Lemma pipe_setup : oc_end pipe0 = Ok tt.
Proof.
  destruct demo_setup as (D1 & D2 & _). destruct cli_name as [nm Hn]. destruct plain_names as (P1 & P2 & _).
  apply (setup_ends medium medium_valid medium_hmac cli_big cli_chance cli_fair 3 2 cli_fit demo_manifest (demo_im medium) D2 "in/manifest.json" "package" "private" (shelf shelf0) manifest0 P1 P2 nm D1 Hn).
  intros p Hp. split.
  - intros [H|[]]. subst p. revert Hp. vm_compute. intuition discriminate.
  - assert (Hs : has_slash p = true /\ (forall d r, In d ["package"; "package/guardians"; "private"]%string -> d <> p /\ d <> (p ++ "/" ++ r)%string)).
    { revert Hp. change (setup_paths "package" "private" 3) with ["package/context.json"; "package/constants.json"; "package/manifest.json"; "package/guardians/guardian_1.json"; "package/guardians/guardian_2.json"; "package/guardians/guardian_3.json"; "private/guardian_1.json"; "private/guardian_2.json"; "private/guardian_3.json"]%string.
      intros Hp. repeat (destruct Hp as [<-|Hp]; [split; [reflexivity|]; intros d r [<-|[<-|[<-|[]]]]; split; discriminate|]). destruct Hp. }
    intros d Hd. split; [apply (proj2 Hs d ""%string Hd)|]. intros r. apply (proj2 Hs d r Hd).
Qed.
Definition demo_key : Z := gexp medium (sumZ (map st_secret (seats_at cli_chance 3 2))).
Lemma demo_key_in : in_subgroup medium demo_key.
Proof. apply (joint_subgroup medium medium_valid _ _ (seats_good medium cli_chance cli_fair 3 2 cli_fit)). Qed.
Lemma pipe_start : exists h gs, content_at (oc_disk pipe0) "package/context.json" = JContext (make_context medium 3 2 demo_key h (im_hash (demo_im medium))) /\
  dget "package/context.json"%string (dk_files (oc_disk pipe0)) = Some (content_at (oc_disk pipe0) "package/context.json") /\ map gd_id gs = ["1"; "2"; "3"]%string /\
  (forall i, In i ["1"; "2"; "3"]%string -> dget (file_named "private" ("guardian_" ++ i)) (dk_files (oc_disk pipe0)) = Some (key_at i)).
Proof.
  destruct demo_setup as (D1 & D2 & _). destruct plain_names as (P1 & P2 & _).
  destruct (setup_done medium medium_valid medium_hmac cli_big cli_chance cli_fair 3 2 cli_fit demo_manifest (demo_im medium) D2 "in/manifest.json" "package" "private" (shelf shelf0) manifest0 P1 P2 pipe_setup) as (_ & _ & cx & gs & ((h & ->) & HG & _) & R1 & R2 & _).
  exists h, gs. change (file_named "package" "context") with "package/context.json"%string in R1. unfold content_at. rewrite R1. split; [reflexivity|]. split; [reflexivity|].
  destruct (seat_names medium cli_chance cli_fair 3 2 cli_fit gs HG) as (N1 & _). change (guardian_ids 3) with ["1"; "2"; "3"]%string in N1. split; [exact N1|]. intros i Hi. rewrite <- N1 in Hi. apply in_map_iff in Hi as (g & <- & Hg). unfold key_at, content_at. rewrite (R2 g Hg). reflexivity.
Qed.
Section Demo.
  Context (h : Z) (Hc : content_at (oc_disk pipe0) "package/context.json" = JContext (make_context medium 3 2 demo_key h (im_hash (demo_im medium)))).
  Context (nm : string) (Hn : get_name demo_manifest = Ok nm).
  Lemma context1 : dget "in/context.json"%string (dk_files (shelf shelf1)) = Some (JContext (make_context medium 3 2 demo_key h (im_hash (demo_im medium)))).
  Proof using Hc. rewrite <- Hc. apply (shelf_get shelf1 "in" [mfile; cfile] "context.json" _ good1); [left; reflexivity|right; left; reflexivity]. Qed.
  Lemma manifest1 : dget "in/manifest.json"%string (dk_files (shelf shelf1)) = Some (JManifest demo_manifest).
  Proof. apply (shelf_get shelf1 "in" [mfile; cfile] "manifest.json" _ good1); left; reflexivity. Qed.
  Lemma ballots1 : plain_ballots (shelf shelf1) "plain" [ballot1; ballot2; ballot3].
  Proof. right. split; [apply shelf_none; reflexivity|]. eexists. split; [apply (shelf_dir shelf1 "plain" _ good1); right; left; reflexivity|reflexivity]. Qed.
  Lemma pipe_encrypt : oc_end pipe1 = Ok tt.
  Proof using Hc Hn.
    destruct demo_setup as (D1 & D2 & _). destruct plain_names as (_ & _ & P3 & _).
    apply (encrypt_ends medium medium_valid demo_manifest (demo_im medium) D2 D1 nm Hn 3 2 demo_key h demo_key_in cli_chance cli_fair "in/manifest.json" "in/context.json" "plain" "cipher" (shelf shelf1) (shelf_proper _ good1) manifest1 context1
      [ballot1; ballot2; ballot3] ballots1 cli_usable P3 pipe_ids cli_encrypts). intros f _ H. destruct H as [H|[H|[]]]; discriminate H.
  Qed.
  Lemma pipe_ciphers : (forall b, In b [ballot1; ballot2; ballot3] -> exists eb, cipher_of medium (demo_im medium) 3 2 demo_key h b eb /\ dget (file_named "cipher" (pb_id b)) (dk_files (oc_disk pipe1)) = Some (JCipher eb)) /\
    dget (file_named "cipher" "device") (dk_files (oc_disk pipe1)) = Some (JDevice (ch_device cli_chance)).
  Proof using Hc Hn.
    destruct demo_setup as (D1 & D2 & _). destruct plain_names as (_ & _ & P3 & _).
    exact (encrypt_done medium medium_valid demo_manifest (demo_im medium) D2 D1 nm Hn 3 2 demo_key h demo_key_in cli_chance cli_fair "in/manifest.json" "in/context.json" "plain" "cipher" (shelf shelf1) (shelf_proper _ good1) manifest1 context1
      [ballot1; ballot2; ballot3] ballots1 cli_usable P3 pipe_ids pipe_encrypt).
  Qed.
  Lemma got1 b : In b [ballot1; ballot2; ballot3] -> dget (file_named "cipher" (pb_id b)) (dk_files (oc_disk pipe1)) = Some (at1 b).
  Proof using Hc Hn. intros Hb. destruct pipe_ciphers as [H _]. destruct (H b Hb) as (eb & _ & Hd). unfold at1, content_at. rewrite Hd. reflexivity. Qed.
  Lemma manifest2 : dget "in/manifest.json"%string (dk_files (shelf shelf2)) = Some (JManifest demo_manifest).
  Proof. apply (shelf_get shelf2 "in" [mfile; cfile] "manifest.json" _ good2); left; reflexivity. Qed.
  Lemma context2 : dget "in/context.json"%string (dk_files (shelf shelf2)) = Some (JContext (make_context medium 3 2 demo_key h (im_hash (demo_im medium)))).
  Proof using Hc. rewrite <- Hc. apply (shelf_get shelf2 "in" [mfile; cfile] "context.json" _ good2); [left; reflexivity|right; left; reflexivity]. Qed.
  Lemma cast2 : copies (shelf shelf2) "cast" (oc_disk pipe1) (map (fun b => file_named "cipher" (pb_id b)) [ballot1; ballot2]).
  Proof using Hc Hn.
    split; [apply shelf_none; reflexivity|]. eexists. split; [apply (shelf_dir shelf2 "cast" _ good2); right; left; reflexivity|]. cbn [map snd]. rewrite (got1 ballot1), (got1 ballot2) by (cbn; tauto). apply perm_swap.
  Qed.
  Lemma spoil2 : copies (shelf shelf2) "spoil" (oc_disk pipe1) (map (fun b => file_named "cipher" (pb_id b)) [ballot3]).
  Proof using Hc Hn.
    split; [apply shelf_none; reflexivity|]. eexists. split; [apply (shelf_dir shelf2 "spoil" _ good2); right; right; left; reflexivity|]. cbn [map snd]. rewrite (got1 ballot3) by (cbn; tauto). reflexivity.
  Qed.
  Lemma pipe_submit : oc_end pipe2 = Ok tt.
  Proof using Hc Hn.
    destruct demo_setup as (D1 & D2 & _). destruct plain_names as (_ & _ & _ & P4).
    apply (submit_ends medium medium_valid demo_manifest (demo_im medium) D2 D1 nm Hn 3 2 demo_key h demo_key_in cli_chance cli_fair "in/manifest.json" "in/context.json" "cast" (Some "spoil"%string) "submitted" (shelf shelf2) (oc_disk pipe1) (shelf_proper _ good2) manifest2 context2
      [ballot1; ballot2] [ballot3] (fun b => file_named "cipher" (pb_id b)) cli_usable P4 cli_ids (proj1 pipe_ciphers) cast2 spoil2 cli_no_slash). intros f _ H. destruct H as [H|[H|[H|[]]]]; discriminate H.
  Qed.
  Lemma got2 b : In b [ballot1; ballot2; ballot3] -> dget (file_named "submitted" (pb_id b)) (dk_files (oc_disk pipe2)) = Some (at2 b).
  Proof using Hc Hn.
    destruct demo_setup as (D1 & D2 & _). destruct plain_names as (_ & _ & _ & P4).
    pose proof (submit_done medium medium_valid demo_manifest (demo_im medium) D2 D1 nm Hn 3 2 demo_key h demo_key_in cli_chance cli_fair "in/manifest.json" "in/context.json" "cast" (Some "spoil"%string) "submitted" (shelf shelf2) (oc_disk pipe1) (shelf_proper _ good2) manifest2 context2
      [ballot1; ballot2] [ballot3] (fun b => file_named "cipher" (pb_id b)) cli_usable P4 cli_ids (proj1 pipe_ciphers) cast2 spoil2 cli_no_slash pipe_submit) as HS. rewrite Forall_forall in HS.
    intros Hb. assert (Hi : exists st, In (b, st) (items [ballot1; ballot2] [ballot3])) by (destruct Hb as [<-|[<-|[<-|[]]]]; [exists CAST|exists CAST|exists SPOILED]; cbn; tauto). destruct Hi as [st Hi]. destruct (HS _ Hi) as (sb & _ & Hd). cbn [fst] in Hd.
    unfold at2, content_at. rewrite Hd. reflexivity.
  Qed.
End Demo.
Lemma demo_handed : handed_over medium demo_commands demo_manifest [ballot1; ballot2; ballot3] [ballot1; ballot2] [ballot3].
Proof.
  destruct pipe_start as (h & gs & S1 & S2 & S3 & S4). destruct cli_name as [nm Hn]. constructor.
  - intros [|[|[|i]]]; [exact (shelf_proper _ good0)|exact (shelf_proper _ good1)|exact (shelf_proper _ good2)|exact (shelf_proper _ good3)].
  - exact plain_names.
  - intros [|[|[|i]]]; [exact manifest0|exact manifest1|exact manifest2|]. apply (shelf_get shelf3 "in" in3 "manifest.json" _ good3); left; reflexivity.
  - rewrite setup0. change (file_named (cm_package demo_commands) "context") with "package/context.json"%string. rewrite S2. intros [|[|[|i]]] Hi; [destruct Hi; reflexivity|..]; cbn [cm_context cm_disk demo_commands].
    + rewrite S1. apply (context1 h S1).
    + rewrite S1. apply (context2 h S1).
    + apply (shelf_get shelf3 "in" in3 "context.json" _ good3); [left; reflexivity|right; left; reflexivity].
  - exact ballots1.
  - split; [apply incl_refl|exact cli_ids].
  - rewrite encrypt1. exact (cast2 h S1 nm Hn).
  - rewrite encrypt1. exact (spoil2 h S1 nm Hn).
  - rewrite submit2. cbn [cm_disk cm_votes cm_submitted demo_commands]. split; [apply shelf_none; reflexivity|]. eexists. split; [apply (shelf_dir shelf3 "votes" _ good3); right; left; reflexivity|].
    cbn [map app snd]. rewrite (got2 h S1 nm Hn ballot1), (got2 h S1 nm Hn ballot2), (got2 h S1 nm Hn ballot3) by (cbn; tauto). generalize (Some (at2 ballot1)) (Some (at2 ballot2)) (Some (at2 ballot3)). intros a b c. apply Permutation_cons_append.
  - rewrite setup0. cbn [cm_disk cm_private cm_keys cm_guardians demo_commands]. split; [apply shelf_none; reflexivity|]. eexists. split; [apply (shelf_dir shelf3 "keys" _ good3); right; right; left; reflexivity|].
    change (guardian_ids 3) with ["1"; "2"; "3"]%string. cbn [map snd]. rewrite (S4 "1"%string), (S4 "2"%string), (S4 "3"%string) by (cbn; tauto). generalize (Some (key_at "1")) (Some (key_at "2")) (Some (key_at "3")). intros a b c. apply (Permutation_rev [c; b; a]).
  - rewrite encrypt1. cbn [cm_device cm_disk cm_encrypted demo_commands]. intros p [= <-]. rewrite (proj2 (pipe_ciphers h S1 nm Hn)). transitivity (Some (content_at (oc_disk pipe1) (file_named "cipher" "device"))).
    + apply (shelf_get shelf3 "in" in3 "device.json" _ good3); [left; reflexivity|right; right; left; reflexivity].
    + unfold content_at. rewrite (proj2 (pipe_ciphers h S1 nm Hn)). reflexivity.
Qed.
Lemma demo_ends : oc_end (setup_outcome medium demo_commands) = Ok tt /\ oc_end (encrypt_outcome medium demo_commands) = Ok tt /\ oc_end (submit_outcome medium demo_commands) = Ok tt.
Proof. destruct pipe_start as (h & gs & S1 & _). destruct cli_name as [nm Hn]. rewrite setup0, encrypt1, submit2. split; [exact pipe_setup|]. split; [exact (pipe_encrypt h S1 nm Hn)|exact (pipe_submit h S1 nm Hn)]. Qed.

(** the private keys go where the published records are *)
Lemma mixed_ends : oc_end (setup_election medium cli_chance 3 2 "in/manifest.json" true "package" (Some "package/guardians"%string) (shelf shelf0)) = Ok tt.
Proof.
  destruct demo_setup as (D1 & D2 & _). destruct cli_name as [nm Hn]. destruct plain_names as (P1 & _).
  apply (setup_ends medium medium_valid medium_hmac cli_big cli_chance cli_fair 3 2 cli_fit demo_manifest (demo_im medium) D2 "in/manifest.json" "package" "package/guardians" (shelf shelf0) manifest0 P1 (sub_plain "package" P1) nm D1 Hn).
  intros p Hp. split.
  - intros [H|[]]. subst p. revert Hp. vm_compute. intuition discriminate.
  - assert (Hs : forall d r, In d ["package"; "package/guardians"; "package/guardians"]%string -> d <> p /\ d <> (p ++ "/" ++ r)%string).
    { revert Hp. change (setup_paths "package" "package/guardians" 3) with ["package/context.json"; "package/constants.json"; "package/manifest.json"; "package/guardians/guardian_1.json"; "package/guardians/guardian_2.json"; "package/guardians/guardian_3.json"; "package/guardians/guardian_1.json"; "package/guardians/guardian_2.json"; "package/guardians/guardian_3.json"]%string.
      intros Hp. repeat (destruct Hp as [<-|Hp]; [intros d r [<-|[<-|[<-|[]]]]; split; discriminate|]). destruct Hp. }
    intros d Hd. split; [apply (Hs d ""%string Hd)|]. intros r. apply (Hs d r Hd).
Qed.
(** the first ballot is in both directories *)
Definition shelf_both := [("in"%string, [mfile; cfile]); ("cast"%string, [("x.json"%string, at1 ballot1)]); ("spoil"%string, [("z.json"%string, at1 ballot1)])].
Lemma good_both : good_shelf shelf_both. Proof. unfold shelf_both, mfile, cfile. generalize (content_at (oc_disk pipe0) "package/context.json") (at1 ballot1). intros x x1. shelved. Qed.
Lemma both_cast : exists h eb, dget "in/manifest.json"%string (dk_files (shelf shelf_both)) = Some (JManifest demo_manifest) /\
  dget "in/context.json"%string (dk_files (shelf shelf_both)) = Some (JContext (make_context medium 3 2 demo_key h (im_hash (demo_im medium)))) /\
  cipher_ballots (shelf shelf_both) "cast" [eb] /\ cipher_ballots (shelf shelf_both) "spoil" [eb] /\ cb_id eb = "ballot-1"%string /\ accepted medium (demo_im medium) (make_context medium 3 2 demo_key h (im_hash (demo_im medium))) eb = true /\
  oc_end (submit_command medium cli_chance "in/manifest.json" "in/context.json" "cast" (Some "spoil"%string) (Some "submitted"%string) (shelf shelf_both)) = Ok tt.
Proof.
  destruct pipe_start as (h & gs & S1 & _). destruct cli_name as [nm Hn]. destruct demo_setup as (D1 & D2 & _). destruct (proj1 (pipe_ciphers h S1 nm Hn) ballot1 (or_introl eq_refl)) as (eb & Hc & Hd).
  assert (Ha : at1 ballot1 = JCipher eb) by (unfold at1, content_at; rewrite Hd; reflexivity). exists h, eb.
  assert (M : dget "in/manifest.json"%string (dk_files (shelf shelf_both)) = Some (JManifest demo_manifest)) by (apply (shelf_get shelf_both "in" [mfile; cfile] "manifest.json" _ good_both); left; reflexivity).
  assert (C : dget "in/context.json"%string (dk_files (shelf shelf_both)) = Some (JContext (make_context medium 3 2 demo_key h (im_hash (demo_im medium))))).
  { rewrite <- S1. apply (shelf_get shelf_both "in" [mfile; cfile] "context.json" _ good_both); [left; reflexivity|right; left; reflexivity]. }
  assert (B1 : cipher_ballots (shelf shelf_both) "cast" [eb]).
  { split; [apply shelf_none; reflexivity|]. exists [("x.json"%string, at1 ballot1)]. split; [apply (shelf_dir shelf_both "cast" _ good_both); right; left; reflexivity|]. cbn [map snd]. rewrite Ha. cbn [ballot_in]. reflexivity. }
  assert (B2 : cipher_ballots (shelf shelf_both) "spoil" [eb]).
  { split; [apply shelf_none; reflexivity|]. exists [("z.json"%string, at1 ballot1)]. split; [apply (shelf_dir shelf_both "spoil" _ good_both); right; right; left; reflexivity|]. cbn [map snd]. rewrite Ha. cbn [ballot_in]. reflexivity. }
  assert (Hid : cb_id eb = "ballot-1"%string) by exact (cipher_id medium medium_valid (demo_im medium) 3 2 demo_key h demo_key_in ballot1 eb (cli_usable ballot1 (or_introl eq_refl)) Hc).
  pose proof (cipher_valid medium medium_valid demo_manifest (demo_im medium) D2 D1 3 2 demo_key h demo_key_in ballot1 eb (cli_usable ballot1 (or_introl eq_refl)) Hc) as Hval.
  split; [exact M|]. split; [exact C|]. split; [exact B1|]. split; [exact B2|]. split; [exact Hid|]. split; [unfold accepted; rewrite Hval; reflexivity|].
  apply (submit_quiet medium demo_manifest (demo_im medium) D2 3 2 demo_key h cli_chance (fa_order _ _ cli_fair) "in/manifest.json" "in/context.json" "cast" "spoil" "submitted" (shelf shelf_both) (shelf_proper _ good_both) M C (proj2 (proj2 (proj2 plain_names))) [eb] [eb] B1 B2).
  - intros b [<-|[<-|[]]]; rewrite Hid; reflexivity.
  - exact D1.
  - exact cli_name.
  - intros b [<-|[<-|[]]]; exists true; exact Hval.
  - intros f _ H. destruct H as [H|[H|[H|[]]]]; discriminate H.
Qed.
(** two of the three keys *)
Definition shelf_two := [("in"%string, [mfile; cfile]); ("keys"%string, [("b.json"%string, key_at "2"); ("a.json"%string, key_at "1")])].
Lemma good_two : good_shelf shelf_two. Proof. unfold shelf_two, mfile, cfile. generalize (content_at (oc_disk pipe0) "package/context.json") (key_at "1") (key_at "2"). intros x k1 k2. shelved. Qed.
Lemma two_keys : exists cx, dget "in/context.json"%string (dk_files (shelf shelf_two)) = Some (JContext cx) /\ directory (shelf shelf_two) "keys" [("b.json"%string, key_at "2"); ("a.json"%string, key_at "1")] /\ cx_quorum cx = 2 /\ cx_guardians cx = 3.
Proof.
  destruct pipe_start as (h & gs & S1 & _). eexists. split; [rewrite <- S1; apply (shelf_get shelf_two "in" [mfile; cfile] "context.json" _ good_two); [left; reflexivity|right; left; reflexivity]|].
  split; [apply (shelf_dir shelf_two "keys" _ good_two); right; left; reflexivity|]. split; reflexivity.
Qed.
(** the output of encrypt-ballots as it is *)
Definition shelf_raw := [("in"%string, [mfile; cfile]); ("cipher"%string, [("device.json"%string, JDevice (ch_device cli_chance)); ("ballot-1.json"%string, at1 ballot1)])].
Lemma good_raw : good_shelf shelf_raw. Proof. unfold shelf_raw, mfile, cfile. generalize (content_at (oc_disk pipe0) "package/context.json") (at1 ballot1). intros x k1. shelved. Qed.
(** a ballot named like the device file *)
Definition device_ballot : pt_ballot := mkPbal "device" (pb_style (vr_ballot voter2)) (pb_contests (vr_ballot voter2)).
Definition shelf_dev := [("in"%string, [mfile; cfile]); ("plain"%string, [("a.json"%string, JPlain device_ballot)])].
Lemma good_dev : good_shelf shelf_dev. Proof. unfold shelf_dev, mfile, cfile. generalize (content_at (oc_disk pipe0) "package/context.json"). intros x. shelved. Qed.
Lemma dev_usable b : In b [device_ballot] -> usable_style medium (demo_im medium) b.
Proof. intros [<-|[]]. exact (voters_usable voter2 (or_intror (or_introl eq_refl))). Qed.
Lemma dev_nonces : forall d, In d (voter_ds voter2) -> usable_nonces medium d (hash_elems medium [HElem (im_hash (demo_im medium)); HStr "device"; HElem 12]).
Proof. cli_nonces. Qed.
Lemma dev_encrypts i b : In b [device_ballot] -> can_encrypt medium (demo_im medium) b (ch_ballot cli_chance i).
Proof.
  intros [<-|[]]. assert (Hv : In voter2 voters) by (right; left; reflexivity). intros cx seed HK. destruct demo_setup as (D1 & D2 & _). destruct (voter_styles voter2 Hv) as (S1 & S2 & S3 & S4). cbn [fst snd ch_ballot cli_chance].
  apply (encrypt_ballot_succeeds medium (demo_im medium) cx device_ballot _ _ _ _ _ (voter_ds voter2) demo_manifest medium_valid medium_hmac D1 D2 HK S1); [auto| |exact (voters_vote voter2 Hv)].
  intros d Hd. split; [apply S4, Hd|]. split; [|apply dev_nonces; assumption].
  assert (Hd' : In d demo_ds) by (unfold voter_ds in Hd; destruct (eqb _ _); [exact Hd|destruct Hd as [<-|[]]; left; reflexivity]). apply (proj1 demo_succeeds_hyps d Hd').
Qed.
Lemma dev_ends : exists h, dget "in/manifest.json"%string (dk_files (shelf shelf_dev)) = Some (JManifest demo_manifest) /\
  dget "in/context.json"%string (dk_files (shelf shelf_dev)) = Some (JContext (make_context medium 3 2 demo_key h (im_hash (demo_im medium)))) /\ plain_ballots (shelf shelf_dev) "plain" [device_ballot] /\
  oc_end (encrypt_command medium cli_chance "in/manifest.json" "in/context.json" "plain" (Some "cipher"%string) (shelf shelf_dev)) = Ok tt.
Proof.
  destruct pipe_start as (h & gs & S1 & _). destruct cli_name as [nm Hn]. destruct demo_setup as (D1 & D2 & _). exists h.
  assert (M : dget "in/manifest.json"%string (dk_files (shelf shelf_dev)) = Some (JManifest demo_manifest)) by (apply (shelf_get shelf_dev "in" [mfile; cfile] "manifest.json" _ good_dev); left; reflexivity).
  assert (C : dget "in/context.json"%string (dk_files (shelf shelf_dev)) = Some (JContext (make_context medium 3 2 demo_key h (im_hash (demo_im medium))))).
  { rewrite <- S1. apply (shelf_get shelf_dev "in" [mfile; cfile] "context.json" _ good_dev); [left; reflexivity|right; left; reflexivity]. }
  assert (B : plain_ballots (shelf shelf_dev) "plain" [device_ballot]).
  { right. split; [apply shelf_none; reflexivity|]. exists [("a.json"%string, JPlain device_ballot)]. split; [apply (shelf_dir shelf_dev "plain" _ good_dev); right; left; reflexivity|reflexivity]. }
  split; [exact M|]. split; [exact C|]. split; [exact B|].
  apply (device_ends medium medium_valid demo_manifest (demo_im medium) D2 D1 nm Hn 3 2 demo_key h demo_key_in cli_chance _ _ _ _ _ [device_ballot] cli_fair (shelf_proper _ good_dev) M C B dev_usable (proj1 (proj2 (proj2 plain_names)))).
  - intros b [<-|[]]. reflexivity.
  - exact dev_encrypts.
  - intros f _ H. destruct H as [H|[H|[]]]; discriminate H.
Qed.
