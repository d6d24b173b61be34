(** * ReportSamples: what the pages and the command line show for small tallies. *)
From Coq Require Import List QArith Permutation.
From Verif Require Import Base Group Hash ElGamal Spec Tiny ListFacts Manifest Ballot Encrypt Samples Box Tally Ceremony SpecCeremony Shares SpecShares SharesSamples SpecEndToEnd EndToEndSamples TallySamples
  ShareRun GuiUpload SpecUpload GuiDecrypt SpecGuiDecrypt GuiDecThms GuiDecSamples Report SpecReport ReportFacts ReportLink ReportPages.
Local Open Scope Z_scope.
Local Open Scope string_scope.
Local Open Scope list_scope.

(** a decrypted tally: contests with the counts of their options *)
Definition tally_of (id : string) (cs : list (string * list (string * Z))) : plain_tally :=
  mkPlainTally id (map (fun c => (fst c, mkPlainCon (fst c) (map (fun s => (fst s, mkPlainSel (fst s) (snd s) 1 (mkCt 1 1) [])) (snd c)))) cs).
Definition demo_tally : plain_tally := tally_of "t" [("mayor", [("mayor-ann", 3); ("mayor-bob", 1)]); ("council", [("council-cy", 0); ("council-di", 2); ("council-ed", 5)])].
Lemma demo_listed : candidates_listed demo_manifest.
Proof.
  intros d o Hd Ho. cbn in Hd. destruct Hd as [<-|[<-|[]]]; cbn in Ho; [destruct Ho as [<-|[<-|[]]]|destruct Ho as [<-|[<-|[<-|[]]]]].
  - eexists. split; [left; reflexivity|reflexivity].
  - eexists. split; [right; left; reflexivity|reflexivity].
  - eexists. split; [do 2 right; left; reflexivity|reflexivity].
  - eexists. split; [do 3 right; left; reflexivity|reflexivity].
  - eexists. split; [do 4 right; left; reflexivity|reflexivity].
Qed.
Ltac option_here := first [split; [left; reflexivity|reflexivity]|split; [right; left; reflexivity|reflexivity]|split; [right; right; left; reflexivity|reflexivity]].
Lemma demo_tally_form : own_option_ids demo_manifest /\ of_manifest demo_manifest demo_tally.
Proof.
  split; [unfold own_option_ids; cbn; repeat constructor; cbn; intuition discriminate|]. split; [cbn; repeat constructor; cbn; intuition discriminate|]. intros c Hc. cbn in Hc. destruct Hc as [<-|[<-|[]]].
  - split; [cbn; repeat constructor; cbn; intuition discriminate|]. split; [exists mayor; cbn; auto|]. intros s Hs. cbn in Hs. destruct Hs as [<-|[<-|[]]]; (split; [|cbn; lia]); exists mayor; eexists; (split; [cbn; auto|]); (split; [reflexivity|]); option_here.
  - split; [cbn; repeat constructor; cbn; intuition discriminate|]. split; [exists council; cbn; auto|]. intros s Hs. cbn in Hs. destruct Hs as [<-|[<-|[<-|[]]]]; (split; [|cbn; lia]); exists council; eexists; (split; [cbn; auto|]); (split; [reflexivity|]); option_here.
Qed.
Lemma demo_report : get_plaintext_ballot_report demo_manifest demo_tally =
  Ok [mkRow "Mayor" [mkLine "Ann" 3 "Blue" (3 # 4); mkLine "Bob" 1 "" (1 # 4)] 4 None; mkRow "Council" [mkLine "Cy" 0 "" 0; mkLine "Di" 2 "" (2 # 2)] 2 (Some 5)].
Proof. vm_compute. reflexivity. Qed.
Lemma demo_printed : print_tally demo_manifest demo_tally =
  Ok [(Some "Mayor", [("Ann", 3); ("Bob", 1)]); (Some "Council", [("Cy", 0); ("Di", 2); ("Write-In", 5)])].
Proof. vm_compute. reflexivity. Qed.

(** two contests use the id "yes" for different candidates; the manifest is valid *)
Definition twice_contest (id unit candidate other : string) (n : Z) : contest_desc := mkContest id n unit "one_of_m" 1 (Some 1) id [mkSel "yes" 1 candidate; mkSel (id ++ "-other")%string 2 other] None None None.
Definition twice_manifest : manifest := mkManifest "m" "v0.95" "primary" "2020-03-01T08:00:00Z" "2020-03-01T20:00:00Z" [mkGpUnit "u" "U" "county" None] []
  [mkCandidate "ann" (txt "Ann") None None None; mkCandidate "bob" (txt "Bob") None None None; mkCandidate "cy" (txt "Cy") None None None; mkCandidate "di" (txt "Di") None None None]
  [twice_contest "mayor" "u" "ann" "cy" 1; twice_contest "clerk" "u" "bob" "di" 2] [mkStyle "s" (Some ["u"]) None None] (Some (txt "E")) None.
Definition twice_tally : plain_tally := tally_of "t" [("mayor", [("yes", 7); ("mayor-other", 1)]); ("clerk", [("yes", 2); ("clerk-other", 1)])].
(** an option whose candidate is missing in the list of candidates *)
Definition unlisted_manifest : manifest := mkManifest "m" "v0.95" "primary" "2020-03-01T08:00:00Z" "2020-03-01T20:00:00Z" [mkGpUnit "u" "U" "county" None] []
  [mkCandidate "ann" (txt "Ann") None None None] [twice_contest "mayor" "u" "ann" "zoe" 1] [mkStyle "s" (Some ["u"]) None None] (Some (txt "E")) None.
Definition unlisted_tally : plain_tally := tally_of "t" [("mayor", [("yes", 7); ("mayor-other", 1)])].

(** the pages of the election of GuiDecSamples.v *)
Lemma show_page : exists parse disk rows r l rows', let final := after_all medium parse (fun _ => true) disk show_db (show_h1 ++ NewDecryption "dec" "primary" :: show_h2 ++ show_h3) in
  view_tally (dw_db final) (dw_docs final) "dec" = Ok rows /\ In r rows /\ rr_name r = "Mayor" /\ In l (rr_lines r) /\ rl_name l = "Ann" /\ rl_party l = "Blue" /\ rl_tally l = 2 /\
  view_spoiled_ballot (dw_db final) (dw_docs final) "dec" "ballot-3" = Ok rows' /\ view_spoiled_ballot (dw_db final) (dw_docs final) "dec" "ballot-9" <> Ok rows'.
Proof.
  destruct show_ready as (parse & disk & H1 & H2 & H3 & H4 & H5 & H6 & H7). destruct show_quiet as (Q1 & Q2 & Q3).
  destruct (pages_show medium parse (fun _ => true) disk show_db "primary" demo_manifest (demo_im medium) show_cx 2 dec_seats voters show_h1 "dec" show_h2 show_h3 medium_valid H1 H2 demo_listed Q1 Q2 Q3 H3 H4 H6 H7)
    as (counted & R3 & R4 & (rows & R5 & (ds & D1 & D2 & D3 & D4)) & R6 & R7).
  assert (HP : Permutation counted voters).
  { apply NoDup_Permutation; [exact R3|apply (NoDup_map_inv vr_id), H2|]. intros v. rewrite R4. split; [intros [Hv _]; exact Hv|intros Hv; split; [exact Hv|apply H5, Hv]]. }
  assert (Hc : forall cid oid, cast_count (demo_im medium) counted cid oid = cast_count demo_imv voters cid oid).
  { intros cid oid. rewrite <- demo_imv_eq. unfold cast_count, len. f_equal. apply Permutation_length. clear -HP. induction HP; cbn [filter]; [constructor|destruct (_ && _); auto|repeat destruct (_ && _); try constructor; auto using Permutation_refl|eauto using Permutation_trans]. }
  assert (Hann : in_manifest demo_manifest "mayor" "mayor-ann") by (exists mayor; eexists; split; [cbn; auto|]; split; [reflexivity|]; option_here).
  assert (Hm : In mayor ds) by (apply (D3 mayor (mkSel "mayor-ann" 1 "ann")); [cbn; auto|cbn; auto|exact Hann]).
  destruct (Forall2_in_l _ _ _ _ D4 Hm) as (r & Hr & S1 & named & others & S2 & S3 & S4 & S5 & S6 & S7).
  assert (Hin : In (mkSel "mayor-ann" 1 "ann") (named ++ others)) by (apply S3; split; [cbn; auto|exact Hann]).
  assert (Hca : forall c, In c (mf_candidates demo_manifest) -> ca_id c = "ann" -> c = mkCandidate "ann" (txt "Ann") (Some "blue") None None).
  { intros c Hi Hid. cbn in Hi. repeat (destruct Hi as [<-|Hi]; [first [reflexivity|discriminate Hid]|]). destruct Hi. }
  apply in_app_or in Hin as [Hin|Hin]; [|exfalso; destruct (S4 _ Hin) as (c & C1 & C2 & C3); apply Hca in C1; [subst c; discriminate C3|exact C2]].
  destruct (Forall2_in_l _ _ _ _ S5 Hin) as (l & Hl & c & C1 & C2 & C3 & C4 & C5 & C6 & _). apply Hca in C1; [subst c|exact C2].
  destruct (R6 voter3) as (rows' & V1 & V2); [apply (Permutation_in _ (Permutation_sym HP)); cbn; auto|reflexivity|].
  exists parse, disk, rows, r, l, rows'. cbv zeta. split; [exact R5|]. split; [exact Hr|]. split; [exact S1|]. split; [exact Hl|].
  assert (HE : forall s n, english (txt s) n -> n = s) by (intros s n He; apply (english_once (txt s)); [exact He|exists [], []; split; [reflexivity|intros x []]]).
  split; [|split; [|split; [|split]]].
  - destruct C4 as [[C4 _]|[_ C4]]; [exact (HE _ _ C4)|]. exfalso. assert (T : "Ann" = ""); [|discriminate T]. apply C4. exists [], []. split; [reflexivity|intros x []].
  - destruct C5 as (q & P1 & P2 & P3). cbn in P1. destruct P1 as [<-|[]]. destruct P3 as [P3|[_ P3]]; [exact (HE _ _ P3)|]. exfalso. apply (P3 "Blue"). exists [], []. split; [reflexivity|intros x []].
  - rewrite C6, Hc. vm_compute. reflexivity.
  - exact V1.
  - intros T. destruct (R7 _ _ T) as (v & V3 & V4 & _). apply (Permutation_in _ HP) in V3. cbn in V3. repeat (destruct V3 as [<-|V3]; [vm_compute in V4; discriminate V4|]). destruct V3.
Qed.
Lemma twice_wrong : manifest_is_valid twice_manifest = true /\ candidates_listed twice_manifest /\ stands_for twice_manifest "mayor" "yes" (mkCandidate "ann" (txt "Ann") None None None) /\
  (exists r rows, get_plaintext_ballot_report twice_manifest twice_tally = Ok (r :: rows) /\ rr_name r = "mayor" /\ map (fun l => (rl_name l, rl_tally l)) (rr_lines r) = [("Bob", 7); ("Cy", 1)]) /\
  exists out, print_tally twice_manifest twice_tally = Ok ((Some "mayor", [("Bob", 7); ("Cy", 1)]) :: out).
Proof.
  split; [vm_compute; reflexivity|]. split; [|split; [|split]].
  - intros d o Hd Ho. cbn in Hd. destruct Hd as [<-|[<-|[]]]; cbn in Ho; destruct Ho as [<-|[<-|[]]]; eexists; (first [split; [left; reflexivity|reflexivity]|split; [right; left; reflexivity|reflexivity]|split; [do 2 right; left; reflexivity|reflexivity]|split; [do 3 right; left; reflexivity|reflexivity]]).
  - eexists. eexists. split; [left; reflexivity|]. split; [reflexivity|]. split; [left; reflexivity|]. split; [reflexivity|]. split; [left; reflexivity|reflexivity].
  - eexists. eexists. split; [vm_compute; reflexivity|]. split; vm_compute; reflexivity.
  - eexists. vm_compute. reflexivity.
Qed.
Lemma unlisted_fails : manifest_is_valid unlisted_manifest = true /\ own_option_ids unlisted_manifest /\ of_manifest unlisted_manifest unlisted_tally /\
  (forall p, get_plaintext_ballot_report unlisted_manifest p = Err KeyError) /\ print_tally unlisted_manifest unlisted_tally = Ok [(Some "mayor", [("Ann", 7); ("zoe", 1)])].
Proof.
  split; [vm_compute; reflexivity|]. split; [unfold own_option_ids; cbn; repeat constructor; cbn; intuition discriminate|]. split; [|split].
  - split; [cbn; repeat constructor; cbn; intuition discriminate|]. intros c Hc. cbn in Hc. destruct Hc as [<-|[]]. split; [cbn; repeat constructor; cbn; intuition discriminate|].
    split; [eexists; split; [left; reflexivity|reflexivity]|]. intros s Hs. cbn in Hs. destruct Hs as [<-|[<-|[]]]; (split; [|cbn; lia]); eexists; eexists; (split; [left; reflexivity|]); (split; [reflexivity|]); option_here.
  - intros p. reflexivity.
  - vm_compute. reflexivity.
Qed.
