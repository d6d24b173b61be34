(** * GuiRecSamples: two ballots, their decryption, a third ballot that comes late, and the export of the record. *)
From Coq Require Import List Permutation.
From Verif Require Import Base Group Codec Hash DLog ElGamal ZK Poly Spec GroupFacts Tiny ListFacts Manifest Ballot Encrypt SpecElection Samples EncryptThms Box Tally SpecTally TallySamples
  Ceremony SpecCeremony MediatorFacts CeremonyFacts Shares SpecShares SharesThms SharesSamples SpecEndToEnd EndToEndSamples
  GuiCeremony SpecGui GuiFacts GuiJoin GuiStuck GuiDemo GuiUpload SpecUpload GuiDecrypt SpecGuiDecrypt GuiDecRun GuiDecThms GuiDecSamples
  Report SpecReport ReportSamples GuiElection SpecGuiElection GuiElFacts GuiElReady GuiElSamples Cli SpecCli GuiRecord SpecGuiRecord GuiRecFacts.
Local Open Scope string_scope.
Local Open Scope list_scope.

(** a new upload "u", and the ballots 1 and 3 *)
Definition rec_uploads : list up_event := StartCreate "primary" "{device}" :: map (Next 0) ["-"; "u"; "-"] ++ upload_file 1 "{1}" "d1" ++ upload_file 2 "{3}" "d3".
Definition rec_h1 : list dec_event := map Uploads rec_uploads.
(** ballot 2, later *)
Definition rec_late : list up_event := upload_file 3 "{2}" "d2".
Definition rec_device (u : string) : device := mkDevice 77 1 2 "polling place".

Section Rec.
  Context (h : list event) (w : world) (Hw : gui_run medium (gui_start 2 (Z.of_nat 2)) h = w) (j : joint_key) (Hj : kc_joint (w_doc w) = Some j)
    (Hjoined : kc_joined (w_doc w) = ["bob"; "alice"]) (Hgood : Forall (SpecGui.good_event medium) h).
  Notation d := (w_doc w).
  Lemma rec_voting p disk : prepare medium made_parse "{demo}" d = Ok p -> pg_manifest p = demo_manifest -> cx_key (pg_context p) = jk_key j -> cx_manifest_hash (pg_context p) = im_hash demo_imv ->
    exists parse, let device := fun _ : string => true in let im := demo_im medium in let cx := pg_context p in
    let db := setup_db (fst (create_run medium made_parse (made_events d))) in good_voters medium im voters /\
    let before := after_all medium parse device disk db rec_h1 in
    let later := after_all medium parse device disk db ((rec_h1 ++ NewDecryption "dec" "primary" :: made_h2 ++ made_h3) ++ map Uploads rec_late) in
    only_voters medium parse im cx voters (dw_db later) "primary" /\ find_decryption (dw_docs before) "dec" = None /\
    (forall v, In v voters -> exists b, In b (stored (dw_db later) "primary") /\ closed (so_contents b) = true /\ file_of medium parse im cx v b) /\
    (forall v, In v voters -> (exists b, In b (stored (dw_db before) "primary") /\ closed (so_contents b) = true /\ file_of medium parse im cx v b) <-> v <> voter2) /\
    upload_ids (dw_db later) "primary" = ["u"] /\
    (forall u, In u ["bob"; "alice"] -> carried_out medium parse device disk (dec_event_step medium parse device disk before (NewDecryption "dec" "primary")) made_h2 (StartJoin u "dec")) /\
    carried_out medium parse device disk (after_all medium parse device disk db (rec_h1 ++ NewDecryption "dec" "primary" :: made_h2)) made_h3 (StartView true "dec").
  Proof.
    intros Hp Hm Hk Hmh. rewrite (made_run w p Hp). set (db := setup_db (fst (mkSetup [new_election "primary" "Primary" "keys" p] [("keys", p)], [Created (Some "primary")]))).
    assert (HK : in_subgroup medium (cx_key (pg_context p))) by (rewrite Hk; apply (key_subgroup h w Hw j Hj Hjoined Hgood)).
    destruct (voters_encrypted (pg_context p) HK) as [ebs Hebs]. inversion Hebs as [|? e1 ? ? E1 I2]; subst ebs. inversion I2 as [|? e2 ? ? E2 I3]; subst. inversion I3 as [|? e3 ? ? E3 I4]; subst. inversion I4; subst. clear Hebs I2 I3 I4.
    set (b1 := submit_ballot medium e1 CAST). set (b2 := submit_ballot medium e2 CAST). set (b3 := submit_ballot medium e3 SPOILED).
    exists (show_parse b1 b2 b3). cbv zeta. set (device := fun _ : string => true). set (parse := show_parse b1 b2 b3).
    destruct (ballot_contests _ _ _ _ _ _ _ _ _ _ E1) as (_ & _ & A1 & _ & B1 & _). destruct (ballot_contests _ _ _ _ _ _ _ _ _ _ E2) as (_ & _ & A2 & _ & B2 & _).
    destruct (ballot_contests _ _ _ _ _ _ _ _ _ _ E3) as (_ & _ & A3 & _ & B3 & _). rewrite <- demo_imv_eq in B1, B2, B3.
    assert (HS : db_uploads (uw_db (up_run parse device (mkUpWorld db []) rec_uploads)) = [mkUpDoc (Oid "u") "primary" (UploadDoc 0); mkUpDoc (Oid "d1") "primary" (BallotDoc "u" "ballot-1" "{1}"); mkUpDoc (Oid "d3") "primary" (BallotDoc "u" "ballot-3" "{3}")] /\
      db_uploads (uw_db (up_run parse device (mkUpWorld db []) (rec_uploads ++ rec_late))) = [mkUpDoc (Oid "u") "primary" (UploadDoc 0); mkUpDoc (Oid "d1") "primary" (BallotDoc "u" "ballot-1" "{1}"); mkUpDoc (Oid "d3") "primary" (BallotDoc "u" "ballot-3" "{3}"); mkUpDoc (Oid "d2") "primary" (BallotDoc "u" "ballot-2" "{2}")] /\
      upload_ids (uw_db (up_run parse device (mkUpWorld db []) (rec_uploads ++ rec_late))) "primary" = ["u"]).
    { unfold parse. assert (A1' : sb_id b1 = "ballot-1") by exact A1. assert (A2' : sb_id b2 = "ballot-2") by exact A2. assert (A3' : sb_id b3 = "ballot-3") by exact A3.
      assert (B1' : cb_manifest_hash (sb_ballot b1) = im_hash demo_imv) by exact B1. assert (B2' : cb_manifest_hash (sb_ballot b2) = im_hash demo_imv) by exact B2. assert (B3' : cb_manifest_hash (sb_ballot b3) = im_hash demo_imv) by exact B3.
      clearbody b1 b2 b3. unfold db, setup_db, new_election. cbn [fst su_elections map ne_election]. clear -Hmh A1' A2' A3' B1' B2' B3'.
      destruct (pg_context p) as [c1 c2 c3 c4 c5 c6 c7]. cbn in Hmh. subst c5. generalize (map (fun r => (gr_id r, gr_seq r)) (pg_records p)) as rs. generalize (pg_manifest p) as mm. intros mm rs.
      destruct b1 as [[] s1], b2 as [[] s2], b3 as [[] s3]. cbn in A1', A2', A3', B1', B2', B3'. subst. vm_compute. repeat split; reflexivity. }
    destruct HS as (HS & HS3 & HU).
    assert (Hdb : forall hh, ups hh = [] -> db_uploads (dw_db (after_all medium parse device disk db (rec_h1 ++ hh))) = [mkUpDoc (Oid "u") "primary" (UploadDoc 0); mkUpDoc (Oid "d1") "primary" (BallotDoc "u" "ballot-1" "{1}"); mkUpDoc (Oid "d3") "primary" (BallotDoc "u" "ballot-3" "{3}")]).
    { intros hh Hh. unfold dw_db, after_all. rewrite ups_run. unfold ups. rewrite flat_map_app. fold (ups hh). rewrite Hh, app_nil_r. exact HS. }
    assert (Hl : dw_db (after_all medium parse device disk db ((rec_h1 ++ NewDecryption "dec" "primary" :: made_h2 ++ made_h3) ++ map Uploads rec_late)) = uw_db (up_run parse device (mkUpWorld db []) (rec_uploads ++ rec_late))).
    { unfold dw_db, after_all. rewrite ups_run. cbn [dw_up]. change (ups ((rec_h1 ++ NewDecryption "dec" "primary" :: made_h2 ++ made_h3) ++ map Uploads rec_late)) with (rec_uploads ++ rec_late). reflexivity. }
    assert (Hst : stored (dw_db (after_all medium parse device disk db rec_h1)) "primary" = [mkStored (Oid "d1") "u" "ballot-1" "{1}"; mkStored (Oid "d3") "u" "ballot-3" "{3}"]).
    { unfold stored. rewrite <- (app_nil_r rec_h1), Hdb by reflexivity. reflexivity. }
    assert (Hsl : stored (uw_db (up_run parse device (mkUpWorld db []) (rec_uploads ++ rec_late))) "primary" = [mkStored (Oid "d1") "u" "ballot-1" "{1}"; mkStored (Oid "d3") "u" "ballot-3" "{3}"; mkStored (Oid "d2") "u" "ballot-2" "{2}"]).
    { unfold stored. rewrite HS3. reflexivity. }
    assert (F1 : file_of medium parse (demo_im medium) (pg_context p) voter1 (mkStored (Oid "d1") "u" "ballot-1" "{1}")) by (exists e1; split; [exact E1|reflexivity]).
    assert (F2 : file_of medium parse (demo_im medium) (pg_context p) voter2 (mkStored (Oid "d2") "u" "ballot-2" "{2}")) by (exists e2; split; [exact E2|reflexivity]).
    assert (F3 : file_of medium parse (demo_im medium) (pg_context p) voter3 (mkStored (Oid "d3") "u" "ballot-3" "{3}")) by (exists e3; split; [exact E3|reflexivity]).
    assert (Hnu : no_uploads db) by (constructor; [repeat constructor; cbn; intuition|reflexivity|intros x [<-|[]]; reflexivity]).
    assert (Hlen : forall hh, length (dw_calls (after_all medium parse device disk db (rec_h1 ++ hh))) = length (filter is_start hh)).
    { intros hh. unfold after_all. rewrite calls_length, filter_app, app_length. reflexivity. }
    assert (Hend : forall hh ev h', (exists u id, ev = StartJoin u id) \/ (exists a id, ev = StartView a id) -> ups (hh ++ ev :: h') = [] ->
      (15 <= steps_of (length (filter is_start hh)) h')%nat ->
      exists ok, nth_error (dw_calls (after_all medium parse device disk db (rec_h1 ++ hh ++ ev :: h'))) (length (filter is_start hh)) = Some (Finished ok)).
    { intros hh ev h' Hev Hu Hs. assert (T := gui_terminates medium parse device disk db (rec_h1 ++ hh) ev h' Hnu Hev). cbv zeta in T. rewrite <- !app_assoc in T. rewrite (Hdb _ Hu) in T.
      rewrite Hlen in T. exact (T Hs). }
    split; [|split; [|split; [|split; [|split; [|split; [|split]]]]]].
    - constructor.
      + exact voters_usable.
      + repeat constructor; cbn; intuition discriminate.
      + intros v [<-|[<-|[<-|[]]]]; discriminate.
      + vm_compute. reflexivity.
      + vm_compute. discriminate.
      + vm_compute. discriminate.
    - rewrite Hl. intros b Hb'. rewrite Hsl in Hb'. destruct Hb' as [<-|[<-|[<-|[]]]]; [exists voter1|exists voter3|exists voter2]; (split; [cbn; auto|assumption]).
    - unfold after_all, rec_h1. rewrite uploads_only. reflexivity.
    - rewrite Hl, Hsl. intros v [<-|[<-|[<-|[]]]].
      + eexists. split; [left; reflexivity|]. split; [reflexivity|exact F1].
      + eexists. split; [right; right; left; reflexivity|]. split; [reflexivity|exact F2].
      + eexists. split; [right; left; reflexivity|]. split; [reflexivity|exact F3].
    - rewrite Hst. intros v [<-|[<-|[<-|[]]]]; split; intros Hv.
      + intros H. apply (f_equal vr_id) in H. discriminate H.
      + eexists. split; [left; reflexivity|]. split; [reflexivity|exact F1].
      + intros _. destruct Hv as (b & Hb & _ & eb & K1 & K2). destruct (ballot_contests _ _ _ _ _ _ _ _ _ _ K1) as (_ & _ & K3 & _). apply (f_equal (option_map sb_id)) in K2. cbn [option_map] in K2.
        change (sb_id (submit_ballot medium eb (vr_state voter2))) with (cb_id eb) in K2. rewrite K3 in K2.
        destruct Hb as [<-|[<-|[]]]; [change (Some (cb_id e1) = Some "ballot-2") in K2; rewrite A1 in K2; discriminate K2|change (Some (cb_id e3) = Some "ballot-2") in K2; rewrite A3 in K2; discriminate K2].
      + destruct (Hv eq_refl).
      + intros H. apply (f_equal vr_id) in H. discriminate H.
      + eexists. split; [right; left; reflexivity|]. split; [reflexivity|exact F3].
    - rewrite Hl. exact HU.
    - assert (Hjn : forall ha u hb, made_h2 = ha ++ StartJoin u "dec" :: hb -> (15 <= steps_of (length (filter is_start ha)) hb)%nat ->
        carried_out medium parse device disk (dec_event_step medium parse device disk (after_all medium parse device disk db rec_h1) (NewDecryption "dec" "primary")) made_h2 (StartJoin u "dec")).
      { intros ha u hb Hh Hs. exists ha, hb. split; [exact Hh|].
        assert (Hr : forall hh, dec_run medium parse device disk (dec_event_step medium parse device disk (after_all medium parse device disk db rec_h1) (NewDecryption "dec" "primary")) hh
           = after_all medium parse device disk db (rec_h1 ++ NewDecryption "dec" "primary" :: hh)) by (intros hh; unfold after_all; rewrite GuiDecRun.run_app; reflexivity).
        rewrite !Hr. rewrite Hlen.
        destruct (Hend (NewDecryption "dec" "primary" :: ha) (StartJoin u "dec") hb (or_introl (ex_intro _ u (ex_intro _ "dec" eq_refl)))) as [ok Hok].
        - change (ups ((NewDecryption "dec" "primary" :: ha) ++ StartJoin u "dec" :: hb)) with (ups (ha ++ StartJoin u "dec" :: hb)). rewrite <- Hh. reflexivity.
        - exact Hs.
        - exists ok. rewrite Hh. exact Hok. }
      intros u [<-|[<-|[]]]; [eapply (Hjn [StartJoin "alice" "dec"])|eapply (Hjn [])]; try reflexivity; apply Nat.leb_le; reflexivity.
    - exists [], (repeat (good 2) 15). split; [reflexivity|].
      destruct (Hend (NewDecryption "dec" "primary" :: made_h2) (StartView true "dec") (repeat (good 2) 15) (or_intror (ex_intro _ true (ex_intro _ "dec" eq_refl)))) as [ok Hok]; [reflexivity|apply Nat.leb_le; reflexivity|].
      exists ok. set (w' := after_all medium parse device disk db (rec_h1 ++ NewDecryption "dec" "primary" :: made_h2)).
      assert (Hw' : dec_run medium parse device disk w' made_h3 = after_all medium parse device disk db (rec_h1 ++ (NewDecryption "dec" "primary" :: made_h2) ++ StartView true "dec" :: repeat (good 2) 15)).
      { unfold w', after_all. rewrite <- GuiDecRun.run_app, <- app_assoc. reflexivity. }
      rewrite Hw'. change (dec_run medium parse device disk w' []) with w'. unfold w'. rewrite Hlen. exact Hok.
  Qed.
End Rec.
Lemma rec_quiet : pools_work (rec_h1 ++ made_h2 ++ made_h3).
Proof. intros i net up rnd H path. cbn in H. repeat (destruct H as [H|H]; [first [discriminate H|injection H as <- <- <- <-; reflexivity]|]). destruct H. Qed.
(** everything the theorem about the record asks for *)
Lemma record_ready : exists h hs x cx disk parse, fit_ceremony medium 2 2 h /\ reads_ceremony medium "keys" 2 2 h hs /\ same_files medium disk "keys" 2 2 h /\ kc_joined (w_doc (gui_run medium (gui_start 2 (Z.of_nat 2)) h)) = ["bob"; "alice"] /\
  (let s := fst (create_run medium made_parse hs) in In x (su_elections s) /\ el_id (ne_election x) = "primary" /\ el_ceremony (ne_election x) = "keys" /\ el_context (ne_election x) = Some cx /\ el_manifest (ne_election x) = demo_manifest /\
   make_internal medium demo_manifest = Ok (demo_im medium) /\ distinct_option_ids (demo_im medium) /\ good_voters medium (demo_im medium) voters /\
   let device := fun _ : string => true in let all := after_all medium parse device disk (setup_db s) in let before := all rec_h1 in
   let later := all ((rec_h1 ++ NewDecryption "dec" "primary" :: made_h2 ++ made_h3) ++ map Uploads rec_late) in
   pools_work (rec_h1 ++ made_h2 ++ made_h3) /\ no_more_uploads (made_h2 ++ made_h3) /\ reads_work (made_h2 ++ made_h3) /\
   only_voters medium parse (demo_im medium) cx voters (dw_db later) "primary" /\ find_decryption (dw_docs before) "dec" = None /\
   (forall v, In v voters -> exists b, In b (stored (dw_db later) "primary") /\ closed (so_contents b) = true /\ file_of medium parse (demo_im medium) cx v b) /\
   (forall v, In v voters -> (exists b, In b (stored (dw_db before) "primary") /\ closed (so_contents b) = true /\ file_of medium parse (demo_im medium) cx v b) <-> v <> voter2) /\
   upload_ids (dw_db later) "primary" = ["u"] /\
   (forall u, In u ["bob"; "alice"] -> carried_out medium parse device disk (dec_event_step medium parse device disk before (NewDecryption "dec" "primary")) made_h2 (StartJoin u "dec")) /\
   carried_out medium parse device disk (all (rec_h1 ++ NewDecryption "dec" "primary" :: made_h2)) made_h3 (StartView true "dec")).
Proof.
  destruct ceremony_made as (h & w & j & Hw & Hj & Hjo & Hg). destruct (demo_prepared h w Hw j Hj Hjo Hg) as (p & P1 & P2 & P3 & P4 & _).
  destruct (rec_voting h w Hw j Hj Hjo Hg p (made_disk (w_files w)) P1 P2 P3 P4) as (parse & V1 & V2 & V3 & V4 & V5 & V6 & V7 & V8). destruct made_quiet as (_ & Q2 & Q3). destruct demo_setup as (D1 & D2 & _).
  exists h, (made_events (w_doc w)), (new_election "primary" "Primary" "keys" p), (pg_context p), (made_disk (w_files w)), parse.
  split; [exact (made_fit h w Hw Hjo Hg)|]. split; [exact (made_reads h w Hw)|]. split; [exact (made_files h w Hw)|]. split; [rewrite Hw; exact Hjo|]. cbv zeta. cbv zeta in V2, V3, V4, V5, V6, V7, V8.
  split; [rewrite (made_run w p P1); left; reflexivity|]. split; [reflexivity|]. split; [reflexivity|]. split; [reflexivity|]. split; [exact P2|]. split; [exact D2|]. split; [exact demo_distinct|].
  split; [exact V1|]. split; [exact rec_quiet|]. split; [exact Q2|]. split; [exact Q3|]. split; [exact V2|]. split; [exact V3|]. split; [exact V4|]. split; [exact V5|]. split; [exact V6|]. split; [exact V7|exact V8].
Qed.
