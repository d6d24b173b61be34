(** * SampleSamples: a sample election of three ballots. *)
From Coq Require Import Permutation List.
From Verif Require Import Base Group Codec Hash ElGamal Spec Tiny Manifest Ballot Encrypt Box SpecElection Samples ListFacts GroupFacts CryptoThms ManifestThms TallySamples SpecEndToEnd EndToEndSamples EncryptThms
  Cli SpecCli CliSamples Mark SpecMark MarkFacts MarkThms MarkSamples SampleGen SpecSample SampleFacts SampleThms.
Local Open Scope Z_scope.
Local Open Scope list_scope.

(** the first ballot has one mark where two are allowed, the third has both *)
Definition sample_luck : luck := mkLuck Z.of_nat (fun i => nth i ["u0"; "u1"; "u2"]%string "u3"%string)
  (fun i j => mkCluck (@rev selection_desc) (Z.of_nat (Nat.div i 2)) Nat.even (@rev pt_selection)).
Definition sample_draw (i : nat) : Z := nth i [70; 212; 90] 0.
Lemma sample_honest : honest_luck sample_luck.
Proof. intros i j. split; intros l; apply Permutation_sym, Permutation_rev. Qed.
Lemma sample_ids : NoDup (map (lk_uuid sample_luck) (seq 0 (Z.to_nat 3))). Proof. vm_compute. repeat constructor; cbn; intuition discriminate. Qed.
Definition sample_ballots : list pt_ballot := Eval vm_compute in match fake_ballots demo_imv 3 None false true sample_luck with Ok bs => bs | Err _ => [] end.
Lemma sample_makes : fake_ballots (demo_im medium) 3 None false true sample_luck = Ok sample_ballots.
Proof. rewrite <- demo_imv_eq. vm_compute. reflexivity. Qed.
Lemma sample_allowed b : In b sample_ballots -> allowed_ballot (demo_im medium) b.
Proof. intros H. apply (proj2 (drawn_ballots _ _ _ _ sample_honest sample_makes) b H). Qed.
Lemma sample_ds b : In b sample_ballots -> exists ds, get_contests_for (demo_im medium) (pb_style b) = Ok ds /\ incl ds demo_ds /\ ds <> [] /\ in_order ds.
Proof.
  rewrite <- demo_imv_eq. intros H. cbn in H. repeat destruct H as [<-|H]; try contradiction.
  all: eexists; (split; [vm_compute; reflexivity|]); (split; [intros d Hd; cbn in Hd; repeat destruct Hd as [<-|Hd]; try contradiction; cbn; auto|]); (split; [discriminate|]).
  all: repeat constructor; vm_compute; discriminate.
Qed.
Lemma sample_usable b : In b sample_ballots -> usable_style medium (demo_im medium) b.
Proof.
  intros H ds Hds. destruct demo_setup as (_ & _ & _ & _ & _ & D6). destruct (sample_ds b H) as (ds' & H1 & H2 & H3 & H4). assert (ds' = ds) by congruence. subst ds'. split; [exact H3|]. split; [exact H4|]. intros d Hd. apply D6, H2, Hd.
Qed.
Lemma sample_nonces b : In b sample_ballots -> forall d, In d demo_ds -> usable_nonces medium d (hash_elems medium [HElem (im_hash (demo_im medium)); HStr (pb_id b); HElem 12]).
Proof. intros H. cbn in H. repeat destruct H as [<-|H]; try contradiction; cli_nonces. Qed.
Lemma sample_encrypts b i : In b sample_ballots -> can_encrypt medium (demo_im medium) b (ch_ballot cli_chance i).
Proof.
  intros Hb. destruct demo_setup as (D1 & D2 & _ & _ & _ & D6). destruct (sample_ds b Hb) as (ds & Hds & Hi & _).
  apply (allowed_can_encrypt medium demo_manifest (demo_im medium) b ds _ medium_valid medium_hmac medium_short); [vm_compute; discriminate|exact D1|exact D2|exact (sample_allowed b Hb)|exact Hds|]. intros d Hd. specialize (Hi d Hd). split; [apply D6, Hi|].
  split; [apply (proj1 demo_succeeds_hyps d Hi)|]. split; [apply (sample_nonces b Hb d Hi)|]. destruct Hi as [<-|[<-|[]]]; (split; [discriminate|]); [right|left]; reflexivity.
Qed.
Lemma sample_fit : seats_fit medium 5 3. Proof. unfold seats_fit. vm_compute. intuition discriminate. Qed.
Lemma sample_votes : votes_fit medium 3. Proof. unfold votes_fit. vm_compute. intuition discriminate. Qed.
Lemma sample_seats c : In c (mf_contests demo_manifest) -> 1 <= cd_number_elected c. Proof. intros [<-|[<-|[]]]; vm_compute; discriminate. Qed.

(** two contests with an option of the same id *)
Definition twin_council : contest_desc := mkContest "council" 2 "county" "n_of_m" 1 None "Council"
  [mkSel "mayor-ann" 1 "ann"; mkSel "council-bob" 2 "bob"] (Some (txt "Council")) None (Some ["blue"%string]).
Definition twin_manifest : manifest := mkManifest "demo" "v0.95" "primary" "2020-03-01T08:00:00Z" "2020-03-01T20:00:00Z"
  (mf_gp_units demo_manifest) (mf_parties demo_manifest) (mf_candidates demo_manifest) [mayor; twin_council] (mf_styles demo_manifest) (mf_name demo_manifest) (mf_contact demo_manifest).
Definition twin_im : internal_manifest := Eval vm_compute in match make_internal medium twin_manifest with Ok im => im | Err _ => demo_imv end.
Lemma twin_internal : make_internal medium twin_manifest = Ok twin_im. Proof. vm_compute. reflexivity. Qed.
Lemma twin_valid : manifest_is_valid twin_manifest = true. Proof. vm_compute. reflexivity. Qed.
Definition twin_ballot : pt_ballot := mkPbal "b" "full" [mkPcon "mayor" [mkPsel "mayor-ann" 1 false None]; mkPcon "council" [mkPsel "mayor-ann" 1 false None]].
Lemma twin_allowed : allowed_ballot twin_im twin_ballot.
Proof.
  eexists. split; [vm_compute; reflexivity|]. repeat apply Forall2_cons; try apply Forall2_nil.
  all: (split; [|vm_compute; discriminate]); (split; [reflexivity|]); (split; [repeat constructor; intros []|]); intros s Hs; cbn in Hs; destruct Hs as [<-|[]]; cbn; auto.
Qed.
(** two marks for one seat *)
Definition over_ballot : pt_ballot := mkPbal "b" "county-only" [mkPcon "mayor" [mkPsel "mayor-ann" 1 false None; mkPsel "mayor-bob" 1 false None]].
(** a contest without seats *)
Definition empty_mayor : contest_desc := mkContest "mayor" 1 "county" "n_of_m" 0 None "Mayor" [mkSel "mayor-ann" 1 "ann"; mkSel "mayor-bob" 2 "bob"] (Some (txt "Mayor")) None (Some ["blue"%string]).
Definition empty_manifest : manifest := mkManifest "demo" "v0.95" "primary" "2020-03-01T08:00:00Z" "2020-03-01T20:00:00Z"
  (mf_gp_units demo_manifest) (mf_parties demo_manifest) (mf_candidates demo_manifest) [empty_mayor] (mf_styles demo_manifest) (mf_name demo_manifest) (mf_contact demo_manifest).
Definition empty_im : internal_manifest := Eval vm_compute in match make_internal medium empty_manifest with Ok im => im | Err _ => demo_imv end.
Lemma empty_internal : make_internal medium empty_manifest = Ok empty_im. Proof. vm_compute. reflexivity. Qed.
Lemma empty_seats s : In s (mf_styles empty_manifest) -> exists ds d, get_contests_for empty_im (bs_id s) = Ok ds /\ In d ds /\ cd_number_elected (ph_desc d) < 1.
Proof. intros H. cbn in H. repeat destruct H as [<-|H]; try contradiction; (eexists; eexists; split; [vm_compute; reflexivity|]; split; [left; reflexivity|reflexivity]). Qed.
