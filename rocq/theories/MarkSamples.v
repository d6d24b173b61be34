(** * MarkSamples: ballots made at random, and a manifest for which they cannot be encrypted. *)
From Coq Require Import Permutation List.
From Verif Require Import Base Group Codec Hash ElGamal Spec Tiny Manifest Ballot Encrypt SpecElection Samples ListFacts GroupFacts CryptoThms ManifestThms TallySamples SpecEndToEnd EndToEndSamples EncryptThms
  Cli SpecCli CliPipe CliSamples CliPipeSamples Mark SpecMark MarkFacts MarkThms.
Local Open Scope Z_scope.
Local Open Scope list_scope.

Definition demo_luck : luck := mkLuck (fun i => Z.of_nat i + 7) (fun i => nth i ["u0"; "u1"; "u2"]%string "u3"%string)
  (fun i j => mkCluck (@rev selection_desc) (Z.of_nat (i + j)) Nat.even (@rev pt_selection)).
Lemma demo_honest : honest_luck demo_luck.
Proof. intros i j. split; intros l; apply Permutation_sym, Permutation_rev. Qed.
Lemma demo_fresh : fresh_ids demo_luck 3.
Proof.
  split; [vm_compute; repeat constructor; cbn; intuition discriminate|]. change (Z.to_nat 3) with 3%nat. intros i Hi. destruct i as [|[|[|i]]]; [reflexivity..|lia].
Qed.
Definition mark_cx : context := make_context medium 3 2 (gexp medium 77) 5 (im_hash (demo_im medium)).
Definition shelf_mark := [("in"%string, [mfile; ("context.json"%string, JContext mark_cx)])].
Lemma good_mark : good_shelf shelf_mark.
Proof.
  split; [repeat constructor; intros []|]. intros e [<-|[]]. cbn [fst snd]. split; [discriminate|]. split; [reflexivity|]. split; [repeat constructor; cbn; intuition discriminate|]. intros f [<-|[<-|[]]]; reflexivity.
Qed.
Lemma mark_manifest : dget "in/manifest.json"%string (dk_files (shelf shelf_mark)) = Some (JManifest demo_manifest).
Proof. apply (shelf_get shelf_mark "in" [mfile; ("context.json"%string, JContext mark_cx)] "manifest.json" _ good_mark); [left; reflexivity|left; reflexivity]. Qed.
Lemma mark_context : dget "in/context.json"%string (dk_files (shelf shelf_mark)) = Some (JContext mark_cx).
Proof. apply (shelf_get shelf_mark "in" [mfile; ("context.json"%string, JContext mark_cx)] "context.json" _ good_mark); [left; reflexivity|right; left; reflexivity]. Qed.
(** the ballots that are made *)
Definition demo_marked : list pt_ballot := Eval vm_compute in match fake_ballots demo_imv 3 None false false demo_luck with Ok bs => bs | Err _ => [] end.
Lemma demo_makes : fake_ballots (demo_im medium) 3 None false false demo_luck = Ok demo_marked.
Proof. rewrite <- demo_imv_eq. vm_compute. reflexivity. Qed.
Lemma demo_marked_full b : In b demo_marked -> full_ballot (demo_im medium) b.
Proof. intros H. apply (fake_ballots_full _ _ _ _ _ demo_honest demo_makes), H. Qed.
Lemma demo_writable : writable (shelf shelf_mark) "plain" (map (fun i => "ballot-" ++ lk_uuid demo_luck i)%string (seq 0 (Z.to_nat 3))).
Proof. intros f _ [H|[]]. discriminate H. Qed.
Lemma medium_short : short_texts medium.
Proof. intros e [->| ->]; vm_compute; discriminate. Qed.
Lemma demo_marked_ds b : In b demo_marked -> exists ds, get_contests_for (demo_im medium) (pb_style b) = Ok ds /\ incl ds demo_ds.
Proof.
  rewrite <- demo_imv_eq. destruct demo_setup as (_ & _ & D3 & _). intros H. cbn in H. repeat destruct H as [<-|H]; try contradiction.
  all: eexists; (split; [vm_compute; reflexivity|]); intros d Hd; cbn in Hd; repeat destruct Hd as [<-|Hd]; try contradiction; cbn; auto.
Qed.
Lemma demo_marked_nonces b : In b demo_marked -> forall d, In d demo_ds -> usable_nonces medium d (hash_elems medium [HElem (im_hash (demo_im medium)); HStr (pb_id b); HElem 12]).
Proof. intros H. cbn in H. repeat destruct H as [<-|H]; try contradiction; cli_nonces. Qed.

(** one seat and two votes *)
Definition loose_mayor : contest_desc := mkContest "mayor" 1 "county" "n_of_m" 1 (Some 2) "Mayor"
  [mkSel "mayor-ann" 1 "ann"; mkSel "mayor-bob" 2 "bob"] (Some (txt "Mayor")) None (Some ["blue"%string]).
Definition loose_manifest : manifest := mkManifest "demo" "v0.95" "primary" "2020-03-01T08:00:00Z" "2020-03-01T20:00:00Z"
  (mf_gp_units demo_manifest) (mf_parties demo_manifest) (mf_candidates demo_manifest) [loose_mayor] (mf_styles demo_manifest) (mf_name demo_manifest) (mf_contact demo_manifest).
Definition loose_im : internal_manifest := Eval vm_compute in match make_internal medium loose_manifest with Ok im => im | Err _ => demo_imv end.
Lemma loose_internal : make_internal medium loose_manifest = Ok loose_im. Proof. vm_compute. reflexivity. Qed.
Lemma loose_valid : manifest_is_valid loose_manifest = true. Proof. vm_compute. reflexivity. Qed.
Definition loose_marked : list pt_ballot := Eval vm_compute in match fake_ballots loose_im 1 (Some "full"%string) false false demo_luck with Ok bs => bs | Err _ => [] end.
Lemma loose_makes : fake_ballots loose_im 1 (Some "full"%string) false false demo_luck = Ok loose_marked. Proof. vm_compute. reflexivity. Qed.
Definition loose_cx : context := make_context medium 3 2 (gexp medium 77) 5 (im_hash loose_im).
Definition shelf_loose := [("in"%string, [("manifest.json"%string, JManifest loose_manifest); ("context.json"%string, JContext loose_cx)]); ("plain"%string, map (fun b => ("a.json"%string, JPlain b)) loose_marked)].
Lemma good_loose : good_shelf shelf_loose.
Proof.
  split; [repeat constructor; cbn; intuition discriminate|]. intros e [<-|[<-|[]]]; cbn [fst snd]; (split; [discriminate|]; split; [reflexivity|]); (split; [repeat constructor; cbn; intuition discriminate|]); intros f Hf; cbn in Hf; repeat destruct Hf as [<-|Hf]; try contradiction; reflexivity.
Qed.
