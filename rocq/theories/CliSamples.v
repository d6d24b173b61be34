(** * CliSamples: a small election on the command line. *)
From Coq Require Import Permutation List Znumtheory Ascii.
From Verif Require Import Base Group Codec Hash DLog ElGamal ZK Poly Manifest Ballot Encrypt Box Tally Spec SpecElection SpecTally Tiny Samples TallySamples
  ListFacts GroupFacts ZKFacts CryptoThms ManifestThms EncryptFacts BallotFacts EncryptThms TallyFacts TallyThms TallyMore BoxFacts
  Ceremony SpecCeremony Shares SpecShares SharesFacts ShareRun SharesThms SharesMore SharesSamples Verify SpecVerify VerifyFacts SpecEndToEnd EndToEnd EndToEndSamples
  GuiDecrypt GuiDecPure GuiElection Report SpecReport ReportFacts ReportLink ReportPages Cli SpecCli CliDec CliRun CliPaths CliE2e CliFiles CliThms.
Local Open Scope Z_scope.
Local Open Scope list_scope.

(** three ballots, one in each file of a directory *)
Definition cli_ballots : list pt_ballot := map vr_ballot voters.
Definition cli_disk : disk := mkDisk ["election"; "ballots"; "out"]%string
  (("election/manifest.json"%string, JManifest demo_manifest) :: combine ["ballots/a.json"; "ballots/b.json"; "ballots/c.json"]%string (map JPlain cli_ballots)).
(** directory listings are backwards *)
Definition cli_chance : chance := mkChance (fun i j => ((7 * Z.of_nat i + 11 * Z.of_nat j + 40) mod qq medium, (5 * Z.of_nat i + Z.of_nat j + 2) mod qq medium)) (fun _ _ => 9)
  (mkDevice 17 3 4 "polling place") (fun i => (12, 100 + Z.of_nat i)) (fun _ => true) (fun path => Z.of_nat (length path) + 5) (@rev string).
Lemma cli_fair : fair medium cli_chance.
Proof.
  constructor; cbn [ch_draw ch_backup ch_up ch_order cli_chance].
  - intros i j. cbn [fst snd]. split; apply Z.mod_pos_bound; reflexivity.
  - intros. lia.
  - reflexivity.
  - intros l. apply Permutation_sym, Permutation_rev.
Qed.
Lemma cli_fit : seats_fit medium 3 2. Proof. unfold seats_fit. vm_compute. intuition discriminate. Qed.
Lemma cli_votes : votes_fit medium (len cli_ballots). Proof. unfold votes_fit. vm_compute. intuition discriminate. Qed.
Lemma cli_proper : proper_disk cli_disk.
Proof. unfold proper_disk. vm_compute. repeat constructor; cbn; intuition discriminate. Qed.
Lemma cli_usable b : In b cli_ballots -> usable_style medium (demo_im medium) b.
Proof. intros H. apply in_map_iff in H as (v & <- & Hv). apply voters_usable, Hv. Qed.
Lemma cli_plain : plain_ballots cli_disk "ballots" cli_ballots.
Proof.
  right. split; [reflexivity|]. exists (combine ["a.json"; "b.json"; "c.json"]%string (map JPlain cli_ballots)). split; [|reflexivity].
  assert (Hfs : forall v1 v2 v3, forall f x, dget ("ballots" ++ "/" ++ f)%string [("election/manifest.json"%string, JManifest demo_manifest); ("ballots/a.json"%string, v1); ("ballots/b.json"%string, v2); ("ballots/c.json"%string, v3)] = Some x ->
    In (f, x) [("a.json"%string, v1); ("b.json"%string, v2); ("c.json"%string, v3)]).
  { intros v1 v2 v3 f x H. apply dget_in in H. destruct H as [H|[H|[H|[H|[]]]]]; [discriminate H|..]; injection H as <- <-; cbn; auto. }
  split; [discriminate|]. split; [reflexivity|]. split; [right; left; reflexivity|]. split; [repeat constructor; cbn; intuition discriminate|]. split.
  - intros f x. split.
    + intros [_ H]. unfold cli_disk, cli_ballots, voters in H. cbn [dk_files map combine] in H. apply Hfs in H. exact H.
    + intros [H|[H|[H|[]]]]; injection H as <- <-; split; reflexivity.
  - intros f Hf H. destruct H as [H|[H|[H|[]]]]; discriminate H.
Qed.
Ltac cli_nonces := intros d Hd; cbn in Hd; rewrite <- demo_imv_eq; (repeat destruct Hd as [<-|Hd]; try contradiction);
  intros o Ho; cbn in Ho; repeat destruct Ho as [<-|Ho]; try contradiction; cbv zeta; split; vm_compute; discriminate.
Lemma cli_usable_nonces v : In v voters -> forall d, In d (voter_ds v) ->
  usable_nonces medium d (hash_elems medium [HElem (im_hash (demo_im medium)); HStr (pb_id (vr_ballot v)); HElem 12]).
Proof. intros [<-|[<-|[<-|[]]]]; cli_nonces. Qed.
Lemma cli_encrypts i b : In b cli_ballots -> can_encrypt medium (demo_im medium) b (ch_ballot cli_chance i).
Proof.
  intros H. apply in_map_iff in H as (v & <- & Hv). intros cx seed HK. destruct demo_setup as (D1 & D2 & _). destruct (voter_styles v Hv) as (S1 & S2 & S3 & S4). cbn [fst snd ch_ballot cli_chance].
  apply (encrypt_ballot_succeeds medium (demo_im medium) cx (vr_ballot v) _ _ _ _ _ (voter_ds v) demo_manifest medium_valid medium_hmac D1 D2 HK S1); [auto| |apply voters_vote, Hv].
  intros d Hd. split; [apply S4, Hd|]. split; [|apply cli_usable_nonces; assumption].
  assert (Hd' : In d demo_ds) by (unfold voter_ds in Hd; destruct (eqb _ _); [exact Hd|destruct Hd as [<-|[]]; left; reflexivity]). apply (proj1 demo_succeeds_hyps d Hd').
Qed.
Lemma cli_name : exists nm, get_name demo_manifest = Ok nm. Proof. eexists. reflexivity. Qed.
Lemma cli_ids : NoDup (map pb_id cli_ballots). Proof. vm_compute. repeat constructor; cbn; intuition discriminate. Qed.
Lemma cli_no_slash b : In b cli_ballots -> has_slash (pb_id b) = false.
Proof. intros [<-|[<-|[<-|[]]]]; reflexivity. Qed.
Lemma cli_big : qq medium <= 2 ^ 1024. Proof. vm_compute. discriminate. Qed.
(** a ballot with a "/" in its id, in a list *)
Definition slash_ballot : pt_ballot := mkPbal "precinct-1/7" "full" (pb_contests (vr_ballot voter1)).
Definition slash_disk : disk := mkDisk [] [("manifest.json"%string, JManifest demo_manifest); ("ballots.json"%string, JPlains [slash_ballot])].
Lemma slash_usable b : In b [slash_ballot] -> usable_style medium (demo_im medium) b.
Proof. intros [<-|[]]. exact (voters_usable voter1 (or_introl eq_refl)). Qed.
Lemma slash_proper : proper_disk slash_disk. Proof. repeat constructor; cbn; intuition discriminate. Qed.
