(** * GuiElSamples: a key ceremony, an election created from it, three ballots and their decryption; and creations that go wrong. *)
From Coq Require Import List Permutation.
From Verif Require Import Base Group Codec Hash DLog ElGamal ZK Poly Spec GroupFacts Tiny ListFacts Manifest Ballot Encrypt SpecElection Samples EncryptThms Box Tally SpecTally TallySamples
  Ceremony SpecCeremony MediatorFacts CeremonyFacts Shares SpecShares SharesThms SharesSamples SpecEndToEnd EndToEndSamples
  GuiCeremony SpecGui GuiFacts GuiJoin GuiStuck GuiDemo GuiUpload SpecUpload GuiDecrypt SpecGuiDecrypt GuiDecRun GuiDecThms GuiDecSamples
  Report SpecReport ReportSamples GuiElection SpecGuiElection GuiElFacts GuiElReady.
Local Open Scope string_scope.
Local Open Scope list_scope.


Definition made_parse (s : string) : option manifest := if String.eqb s "{demo}" then Some demo_manifest else if String.eqb s "{yn}" then Some yn_manifest else None.
(** the key ceremony "keys" has the document [d], and the guardians' files are [files] *)
Definition made_kcs (d : kc) (c : string) : option kc := if String.eqb c "keys" then Some d else None.
Definition made_disk (files : dict string private_record) (user ceremony : string) : option private_record := if String.eqb ceremony "keys" then dget user files else None.
(** one election *)
Definition made_events (d : kc) : list create_event := NewElection "Primary" "keys" "{demo}" :: map (CreateStep 0 (made_kcs d)) ["-"; "-"; "primary"].
(** two elections from one ceremony, one after the other *)
Definition made_requests (d : kc) : list request := [mkRequest "Primary" "keys" "{demo}" (made_kcs d) "primary" 3; mkRequest "Referendum" "keys" "{yn}" (made_kcs d) "referendum" 3].
(** two administrators create an election with the same name at the same time *)
Definition twin_events (d : kc) : list create_event :=
  [NewElection "Primary" "keys" "{demo}"; NewElection "Primary" "keys" "{yn}"; CreateStep 0 (made_kcs d) "-"; CreateStep 1 (made_kcs d) "-";
   CreateStep 0 (made_kcs d) "-"; CreateStep 0 (made_kcs d) "primary"; CreateStep 1 (made_kcs d) "-"; CreateStep 1 (made_kcs d) "primary-2"].
Definition made_h2 : list dec_event := [StartJoin "alice" "dec"; StartJoin "bob" "dec"] ++ concat (repeat [good 1; good 0] 15).
Definition made_h3 : list dec_event := StartView true "dec" :: repeat (good 2) 15.
Lemma demo_imv_hash : manifest_hash medium demo_manifest = im_hash demo_imv.
Proof. vm_compute. reflexivity. Qed.

Section Made.
  Context (h : list event) (w : world) (Hw : gui_run medium (gui_start 2 (Z.of_nat 2)) h = w) (j : joint_key) (Hj : kc_joint (w_doc w) = Some j)
    (Hjoined : kc_joined (w_doc w) = ["bob"; "alice"]) (Hgood : Forall (SpecGui.good_event medium) h).
  Notation d := (w_doc w).
  Lemma made_fit : fit_ceremony medium 2 2 h.
  Proof.
    constructor; rewrite ?Hw, ?Hjoined.
    - exact Hgood.
    - eexists. reflexivity.
    - lia.
    - split; [vm_compute; reflexivity|]. intros i Hi. assert (Hc : i = 0 \/ i = 1) by lia. destruct Hc as [->| ->]; vm_compute; reflexivity.
    - repeat constructor; cbn; intuition discriminate.
    - cbn. intuition discriminate.
    - reflexivity.
  Qed.
  Lemma made_reads : reads_ceremony medium "keys" 2 2 h (made_events d).
  Proof.
    intros i kcs id d' H Hk. assert (kcs = made_kcs d) by (cbn in H; destruct H as [H|[H|[H|[H|[]]]]]; congruence). subst kcs. cbn in Hk. injection Hk as <-.
    exists h, []. rewrite app_nil_r, Hw. split; reflexivity.
  Qed.
  Lemma made_files : same_files medium (made_disk (w_files w)) "keys" 2 2 h.
  Proof. intros u. rewrite Hw. reflexivity. Qed.
  Lemma made_prepared raw m : made_parse raw = Some m -> manifest_is_valid m = true -> (exists im, make_internal medium m = Ok im) -> (exists nm, get_name m = Ok nm) ->
    exists p, prepare medium made_parse raw d = Ok p /\ pg_manifest p = m /\ cx_key (pg_context p) = jk_key j /\ cx_manifest_hash (pg_context p) = manifest_hash medium m /\ pg_records p <> [].
  Proof.
    intros Hp Hv [im Him] [nm Hnm]. destruct (prepare_accepts medium made_parse raw d m im j nm Hp Hv Him Hnm Hj) as [p Hpr].
    exists p. split; [exact Hpr|]. destruct (prepare_ok _ _ _ _ _ Hpr) as (m' & im' & j' & H1 & _ & _ & H4 & ->). assert (m' = m) by congruence. assert (j' = j) by congruence. subst m' j'.
    cbn [pg_manifest pg_context pg_records make_context cx_key cx_manifest_hash]. do 3 (split; [reflexivity|]).
    assert (F := made_fit). rewrite <- (app_nil_r h) in F. assert (Hj2 : kc_joint (w_doc (gui_run medium (gui_start 2 (Z.of_nat 2)) h)) = Some j) by (rewrite Hw; exact Hj).
    destruct (ceremony_seats medium medium_valid 2 2 h [] j F Hj2) as (ss & _ & _ & S3 & _ & _ & _ & _ & _ & S9 & _). rewrite Hw in S9.
    intros Hemp. apply map_eq_nil in Hemp. rewrite Hemp in S9. cbn in S9. symmetry in S9. apply map_eq_nil in S9. contradiction.
  Qed.
  Lemma demo_prepared : exists p, prepare medium made_parse "{demo}" d = Ok p /\ pg_manifest p = demo_manifest /\ cx_key (pg_context p) = jk_key j /\ cx_manifest_hash (pg_context p) = im_hash demo_imv /\ pg_records p <> [].
  Proof. rewrite <- demo_imv_hash. destruct demo_setup as (D1 & D2 & _). apply made_prepared; [reflexivity|exact D1|eauto|eexists; reflexivity]. Qed.
  Lemma yn_prepared : exists p, prepare medium made_parse "{yn}" d = Ok p /\ pg_manifest p = yn_manifest.
  Proof. destruct (made_prepared "{yn}" yn_manifest) as (p & H1 & H2 & _); [reflexivity|vm_compute; reflexivity|eexists; vm_compute; reflexivity|eexists; reflexivity|eauto]. Qed.
  Lemma key_subgroup : in_subgroup medium (jk_key j).
  Proof.
    assert (F := made_fit). rewrite <- (app_nil_r h) in F. assert (Hj2 : kc_joint (w_doc (gui_run medium (gui_start 2 (Z.of_nat 2)) h)) = Some j) by (rewrite Hw; exact Hj).
    destruct (ceremony_seats medium medium_valid 2 2 h [] j F Hj2) as (ss & S1 & _ & _ & _ & _ & _ & _ & S8 & _). rewrite S8. apply (joint_subgroup medium medium_valid 2 ss S1).
  Qed.
  (** the election *)
  Lemma made_run p : prepare medium made_parse "{demo}" d = Ok p ->
    create_run medium made_parse (made_events d) = (mkSetup [new_election "primary" "Primary" "keys" p] [("keys", p)], [Created (Some "primary")]).
  Proof.
    intros Hp. unfold create_run, made_events. cbn [map fold_left create_event_step nth_error fst snd app create_step existsb su_elections set_nth].
    change (made_kcs d "keys") with (Some d). cbv iota. rewrite Hp. cbn [create_step nth_error fst snd su_elections su_files existsb set_nth dset app]. reflexivity.
  Qed.
  (** the voting and the decryption, whatever the files are *)
  Lemma made_voting p disk : prepare medium made_parse "{demo}" d = Ok p -> pg_manifest p = demo_manifest -> cx_key (pg_context p) = jk_key j -> cx_manifest_hash (pg_context p) = im_hash demo_imv ->
    exists parse, let device := fun _ : string => true in let im := demo_im medium in let cx := pg_context p in
    let db := setup_db (fst (create_run medium made_parse (made_events d))) in good_voters medium im voters /\
    let before := after_all medium parse device disk db show_h1 in
    only_voters medium parse im cx voters (dw_db before) "primary" /\ find_decryption (dw_docs before) "dec" = None /\
    (forall v, In v voters -> exists b, In b (stored (dw_db before) "primary") /\ closed (so_contents b) = true /\ file_of medium parse im cx v b) /\
    (forall u, In u ["bob"; "alice"] -> carried_out medium parse device disk (dec_event_step medium parse device disk before (NewDecryption "dec" "primary")) made_h2 (StartJoin u "dec")) /\
    carried_out medium parse device disk (after_all medium parse device disk db (show_h1 ++ NewDecryption "dec" "primary" :: made_h2)) made_h3 (StartView true "dec").
  Proof.
    intros Hp Hm Hk Hmh. rewrite (made_run p Hp). set (db := setup_db (fst (mkSetup [new_election "primary" "Primary" "keys" p] [("keys", p)], [Created (Some "primary")]))).
    assert (HK : in_subgroup medium (cx_key (pg_context p))) by (rewrite Hk; apply key_subgroup).
    destruct (voters_encrypted (pg_context p) HK) as [ebs Hebs]. inversion Hebs as [|? e1 ? ? E1 I2]; subst ebs. inversion I2 as [|? e2 ? ? E2 I3]; subst. inversion I3 as [|? e3 ? ? E3 I4]; subst. inversion I4; subst. clear Hebs I2 I3 I4.
    set (b1 := submit_ballot medium e1 CAST). set (b2 := submit_ballot medium e2 CAST). set (b3 := submit_ballot medium e3 SPOILED).
    exists (show_parse b1 b2 b3). cbv zeta. set (device := fun _ : string => true). set (parse := show_parse b1 b2 b3).
    destruct (ballot_contests _ _ _ _ _ _ _ _ _ _ E1) as (_ & _ & A1 & _ & B1 & _). destruct (ballot_contests _ _ _ _ _ _ _ _ _ _ E2) as (_ & _ & A2 & _ & B2 & _).
    destruct (ballot_contests _ _ _ _ _ _ _ _ _ _ E3) as (_ & _ & A3 & _ & B3 & _). rewrite <- demo_imv_eq in B1, B2, B3.
    assert (HS : db_uploads (uw_db (up_run parse device (mkUpWorld db []) show_uploads)) =
      [mkUpDoc (Oid "d1") "primary" (BallotDoc "u" "ballot-1" "{1}"); mkUpDoc (Oid "d2") "primary" (BallotDoc "u" "ballot-2" "{2}"); mkUpDoc (Oid "d3") "primary" (BallotDoc "u" "ballot-3" "{3}")]).
    { unfold parse. assert (A1' : sb_id b1 = "ballot-1") by exact A1. assert (A2' : sb_id b2 = "ballot-2") by exact A2. assert (A3' : sb_id b3 = "ballot-3") by exact A3.
      assert (B1' : cb_manifest_hash (sb_ballot b1) = im_hash demo_imv) by exact B1. assert (B2' : cb_manifest_hash (sb_ballot b2) = im_hash demo_imv) by exact B2. assert (B3' : cb_manifest_hash (sb_ballot b3) = im_hash demo_imv) by exact B3.
      clearbody b1 b2 b3. unfold db, setup_db, new_election. cbn [fst su_elections map ne_election]. clear -Hmh A1' A2' A3' B1' B2' B3'.
      destruct (pg_context p) as [c1 c2 c3 c4 c5 c6 c7]. cbn in Hmh. subst c5. generalize (map (fun r => (gr_id r, gr_seq r)) (pg_records p)) as rs. generalize (pg_manifest p) as mm. intros mm rs.
      destruct b1 as [[] s1], b2 as [[] s2], b3 as [[] s3]. cbn in A1', A2', A3', B1', B2', B3'. subst. vm_compute. reflexivity. }
    assert (Hdb : forall hh, ups hh = [] -> db_uploads (dw_db (after_all medium parse device disk db (show_h1 ++ hh))) =
      [mkUpDoc (Oid "d1") "primary" (BallotDoc "u" "ballot-1" "{1}"); mkUpDoc (Oid "d2") "primary" (BallotDoc "u" "ballot-2" "{2}"); mkUpDoc (Oid "d3") "primary" (BallotDoc "u" "ballot-3" "{3}")]).
    { intros hh Hh. unfold dw_db, after_all. rewrite ups_run. unfold ups. rewrite flat_map_app. fold (ups hh). rewrite Hh, app_nil_r. exact HS. }
    assert (Hst : stored (dw_db (after_all medium parse device disk db show_h1)) "primary" =
       [mkStored (Oid "d1") "u" "ballot-1" "{1}"; mkStored (Oid "d2") "u" "ballot-2" "{2}"; mkStored (Oid "d3") "u" "ballot-3" "{3}"]).
    { unfold stored. rewrite <- (app_nil_r show_h1), Hdb by reflexivity. reflexivity. }
    assert (F1 : file_of medium parse (demo_im medium) (pg_context p) voter1 (mkStored (Oid "d1") "u" "ballot-1" "{1}")) by (exists e1; split; [exact E1|reflexivity]).
    assert (F2 : file_of medium parse (demo_im medium) (pg_context p) voter2 (mkStored (Oid "d2") "u" "ballot-2" "{2}")) by (exists e2; split; [exact E2|reflexivity]).
    assert (F3 : file_of medium parse (demo_im medium) (pg_context p) voter3 (mkStored (Oid "d3") "u" "ballot-3" "{3}")) by (exists e3; split; [exact E3|reflexivity]).
    assert (Hnu : no_uploads db) by (constructor; [repeat constructor; cbn; intuition|reflexivity|intros x [<-|[]]; reflexivity]).
    assert (Hlen : forall hh, length (dw_calls (after_all medium parse device disk db (show_h1 ++ hh))) = length (filter is_start hh)).
    { intros hh. unfold after_all. rewrite calls_length, filter_app, app_length. reflexivity. }
    assert (Hend : forall hh ev h', (exists u id, ev = StartJoin u id) \/ (exists a id, ev = StartView a id) -> ups (hh ++ ev :: h') = [] ->
      (15 <= steps_of (length (filter is_start hh)) h')%nat ->
      exists ok, nth_error (dw_calls (after_all medium parse device disk db (show_h1 ++ hh ++ ev :: h'))) (length (filter is_start hh)) = Some (Finished ok)).
    { intros hh ev h' Hev Hu Hs. assert (T := gui_terminates medium parse device disk db (show_h1 ++ hh) ev h' Hnu Hev). cbv zeta in T. rewrite <- !app_assoc in T. rewrite (Hdb _ Hu) in T.
      rewrite Hlen in T. exact (T Hs). }
    split; [|split; [|split; [|split; [|split]]]].
    - constructor.
      + exact voters_usable.
      + repeat constructor; cbn; intuition discriminate.
      + intros v [<-|[<-|[<-|[]]]]; discriminate.
      + vm_compute. reflexivity.
      + vm_compute. discriminate.
      + vm_compute. discriminate.
    - intros b Hb'. rewrite Hst in Hb'. destruct Hb' as [<-|[<-|[<-|[]]]]; [exists voter1|exists voter2|exists voter3]; (split; [cbn; auto|assumption]).
    - unfold after_all, show_h1. rewrite uploads_only. reflexivity.
    - rewrite Hst. intros v [<-|[<-|[<-|[]]]].
      + eexists. split; [left; reflexivity|]. split; [reflexivity|exact F1].
      + eexists. split; [right; left; reflexivity|]. split; [reflexivity|exact F2].
      + eexists. split; [right; right; left; reflexivity|]. split; [reflexivity|exact F3].
    - assert (Hjn : forall ha u hb, made_h2 = ha ++ StartJoin u "dec" :: hb -> (15 <= steps_of (length (filter is_start ha)) hb)%nat ->
        carried_out medium parse device disk (dec_event_step medium parse device disk (after_all medium parse device disk db show_h1) (NewDecryption "dec" "primary")) made_h2 (StartJoin u "dec")).
      { intros ha u hb Hh Hs. exists ha, hb. split; [exact Hh|].
        assert (Hr : forall hh, dec_run medium parse device disk (dec_event_step medium parse device disk (after_all medium parse device disk db show_h1) (NewDecryption "dec" "primary")) hh
           = after_all medium parse device disk db (show_h1 ++ NewDecryption "dec" "primary" :: hh)) by (intros hh; unfold after_all; rewrite GuiDecRun.run_app; reflexivity).
        rewrite !Hr. rewrite Hlen.
        destruct (Hend (NewDecryption "dec" "primary" :: ha) (StartJoin u "dec") hb (or_introl (ex_intro _ u (ex_intro _ "dec" eq_refl)))) as [ok Hok].
        - change (ups ((NewDecryption "dec" "primary" :: ha) ++ StartJoin u "dec" :: hb)) with (ups (ha ++ StartJoin u "dec" :: hb)). rewrite <- Hh. reflexivity.
        - exact Hs.
        - exists ok. rewrite Hh. exact Hok. }
      intros u [<-|[<-|[]]]; [eapply (Hjn [StartJoin "alice" "dec"])|eapply (Hjn [])]; try reflexivity; apply Nat.leb_le; reflexivity.
    - exists [], (repeat (good 2) 15). split; [reflexivity|].
      destruct (Hend (NewDecryption "dec" "primary" :: made_h2) (StartView true "dec") (repeat (good 2) 15) (or_intror (ex_intro _ true (ex_intro _ "dec" eq_refl)))) as [ok Hok]; [reflexivity|apply Nat.leb_le; reflexivity|].
      exists ok. set (w' := after_all medium parse device disk db (show_h1 ++ NewDecryption "dec" "primary" :: made_h2)).
      assert (Hw' : dec_run medium parse device disk w' made_h3 = after_all medium parse device disk db (show_h1 ++ (NewDecryption "dec" "primary" :: made_h2) ++ StartView true "dec" :: repeat (good 2) 15)).
      { unfold w', after_all. rewrite <- GuiDecRun.run_app, <- app_assoc. reflexivity. }
      rewrite Hw'. change (dec_run medium parse device disk w' []) with w'. unfold w'. rewrite Hlen. exact Hok.
  Qed.
  (** two elections from one ceremony *)
  Lemma made_overwritten : exists x p, let s := one_by_one medium made_parse (made_requests d) in In x (su_elections s) /\ len (su_elections s) = 2 /\ el_id (ne_election x) = "primary" /\ el_manifest (ne_election x) = demo_manifest /\
    export_encryption_package s "primary" = Ok p /\ pg_manifest p = yn_manifest /\ ~ package_of x p.
  Proof.
    destruct demo_prepared as (p & Hp & Hm & _). destruct yn_prepared as (q & Hq & Hn). exists (new_election "primary" "Primary" "keys" p), q. cbv zeta.
    assert (Hs : one_by_one medium made_parse (made_requests d) = mkSetup [new_election "primary" "Primary" "keys" p; new_election "referendum" "Referendum" "keys" q] [("keys", q)]).
    { unfold one_by_one, made_requests, create_one. cbn [fold_left rq_name rq_ceremony rq_raw rq_kcs rq_id rq_steps create_calls create_step existsb su_elections].
      change (made_kcs d "keys") with (Some d). cbv iota. rewrite Hp. cbn [create_calls create_step existsb su_elections snd app new_election ne_name].
      change (String.eqb "Primary" "Referendum" || false)%bool with false. cbv iota. cbn [create_calls create_step]. change (made_kcs d "keys") with (Some d). cbv iota. rewrite Hq. reflexivity. }
    rewrite Hs. split; [left; reflexivity|]. do 2 (split; [reflexivity|]). split; [exact Hm|]. split; [reflexivity|]. split; [exact Hn|].
    intros (_ & H & _). cbn [new_election ne_election el_manifest] in H. rewrite Hn, Hm in H. discriminate H.
  Qed.
  Lemma made_twins : exists x y, su_elections (fst (create_run medium made_parse (twin_events d))) = [x; y] /\ ne_name x = "Primary" /\ ne_name y = "Primary" /\ el_manifest (ne_election x) = demo_manifest /\ el_manifest (ne_election y) = yn_manifest.
  Proof.
    destruct demo_prepared as (p & Hp & Hm & _). destruct yn_prepared as (q & Hq & Hn). exists (new_election "primary" "Primary" "keys" p), (new_election "primary-2" "Primary" "keys" q).
    split; [|repeat split; assumption].
    unfold create_run, twin_events. cbn [fold_left create_event_step nth_error fst snd app create_step existsb su_elections set_nth].
    change (made_kcs d "keys") with (Some d). cbv iota. rewrite Hp. cbn [create_step nth_error fst snd su_elections su_files existsb set_nth dset app].
    change (made_kcs d "keys") with (Some d). cbv iota. rewrite Hq. reflexivity.
  Qed.
End Made.
(** such a ceremony there is *)
Lemma ceremony_made : exists h w j, gui_run medium (gui_start 2 (Z.of_nat 2)) h = w /\ kc_joint (w_doc w) = Some j /\ kc_joined (w_doc w) = ["bob"; "alice"] /\ Forall (SpecGui.good_event medium) h.
Proof.
  exists (demo_joined ++ concat demo_rounds), (gui_run medium (gui_start 2 2) (demo_joined ++ concat demo_rounds)). destruct demo_joint as (j & J1 & J2). exists j.
  destruct demo_hypotheses as (_ & _ & _ & _ & _ & _ & A7 & _). assert (H2 : Z.of_nat 2 = 2) by reflexivity. rewrite H2. exact (conj eq_refl (conj J1 (conj J2 A7))).
Qed.
Lemma made_quiet : pools_work (show_h1 ++ made_h2 ++ made_h3) /\ no_more_uploads (made_h2 ++ made_h3) /\ reads_work (made_h2 ++ made_h3).
Proof.
  split; [|split].
  - intros i net up rnd H path. cbn in H. repeat (destruct H as [H|H]; [first [discriminate H|injection H as <- <- <- <-; reflexivity]|]). destruct H.
  - intros ev H. cbn in H. repeat (destruct H as [H|H]; [discriminate H|]). destruct H.
  - intros i net up rnd H. cbn in H. repeat (destruct H as [H|H]; [first [discriminate H|injection H as <- <- <- <-; reflexivity]|]). destruct H.
Qed.
(** everything the theorem about the whole run asks for *)
Lemma whole_ready : exists h hs x cx disk parse, fit_ceremony medium 2 2 h /\ reads_ceremony medium "keys" 2 2 h hs /\ same_files medium disk "keys" 2 2 h /\
  (let s := fst (create_run medium made_parse hs) in In x (su_elections s) /\ el_id (ne_election x) = "primary" /\ el_ceremony (ne_election x) = "keys" /\ el_context (ne_election x) = Some cx /\ el_manifest (ne_election x) = demo_manifest /\
   make_internal medium demo_manifest = Ok (demo_im medium) /\ distinct_option_ids (demo_im medium) /\ candidates_listed demo_manifest /\ good_voters medium (demo_im medium) voters /\
   let device := fun _ : string => true in let before := after_all medium parse device disk (setup_db s) show_h1 in
   pools_work (show_h1 ++ made_h2 ++ made_h3) /\ no_more_uploads (made_h2 ++ made_h3) /\ reads_work (made_h2 ++ made_h3) /\
   only_voters medium parse (demo_im medium) cx voters (dw_db before) "primary" /\ find_decryption (dw_docs before) "dec" = None /\
   (forall v, In v voters -> exists b, In b (stored (dw_db before) "primary") /\ closed (so_contents b) = true /\ file_of medium parse (demo_im medium) cx v b) /\
   (forall u, In u (kc_joined (w_doc (gui_run medium (gui_start 2 (Z.of_nat 2)) h))) ->
      carried_out medium parse device disk (dec_event_step medium parse device disk before (NewDecryption "dec" "primary")) made_h2 (StartJoin u "dec")) /\
   carried_out medium parse device disk (after_all medium parse device disk (setup_db s) (show_h1 ++ NewDecryption "dec" "primary" :: made_h2)) made_h3 (StartView true "dec")).
Proof.
  destruct ceremony_made as (h & w & j & Hw & Hj & Hjo & Hg). destruct (demo_prepared h w Hw j Hj Hjo Hg) as (p & P1 & P2 & P3 & P4 & _).
  destruct (made_voting h w Hw j Hj Hjo Hg p (made_disk (w_files w)) P1 P2 P3 P4) as (parse & V1 & V2 & V3 & V4 & V5 & V6). destruct made_quiet as (Q1 & Q2 & Q3). destruct demo_setup as (D1 & D2 & _).
  exists h, (made_events (w_doc w)), (new_election "primary" "Primary" "keys" p), (pg_context p), (made_disk (w_files w)), parse.
  split; [exact (made_fit h w Hw Hjo Hg)|]. split; [exact (made_reads h w Hw)|]. split; [exact (made_files h w Hw)|]. cbv zeta. cbv zeta in V2, V3, V4, V5, V6. rewrite Hw, Hjo.
  split; [rewrite (made_run w p P1); left; reflexivity|]. split; [reflexivity|]. split; [reflexivity|]. split; [reflexivity|]. split; [exact P2|]. split; [exact D2|]. split; [exact demo_distinct|]. split; [exact demo_listed|].
  split; [exact V1|]. split; [exact Q1|]. split; [exact Q2|]. split; [exact Q3|]. split; [exact V2|]. split; [exact V3|]. split; [exact V4|]. split; [exact V5|exact V6].
Qed.
Lemma overwritten : exists h parse r1 r2 x p, let d := w_doc (gui_run medium (gui_start 2 2) h) in let s := one_by_one medium parse [r1; r2] in
  Forall (fun r => rq_kcs r (rq_ceremony r) = Some d) [r1; r2] /\ In x (su_elections s) /\ len (su_elections s) = 2 /\ el_id (ne_election x) = "primary" /\
  export_encryption_package s "primary" = Ok p /\ pg_manifest p <> el_manifest (ne_election x) /\ ~ package_of x p.
Proof.
  destruct ceremony_made as (h & w & j & Hw & Hj & Hjo & Hg). destruct (made_overwritten h w Hw j Hj Hjo Hg) as (x & p & O1 & O2 & O3 & O4 & O5 & O6 & O7).
  exists h, made_parse, (mkRequest "Primary" "keys" "{demo}" (made_kcs (w_doc w)) "primary" 3), (mkRequest "Referendum" "keys" "{yn}" (made_kcs (w_doc w)) "referendum" 3), x, p.
  cbv zeta. assert (H2 : Z.of_nat 2 = 2) by reflexivity. rewrite H2 in Hw. rewrite Hw. split; [repeat constructor|]. split; [exact O1|]. split; [exact O2|]. split; [exact O3|]. split; [exact O5|].
  split; [rewrite O6, O4; discriminate|exact O7].
Qed.
Lemma twins : exists h parse hs x y, let d := w_doc (gui_run medium (gui_start 2 2) h) in
  (forall i kcs id, In (CreateStep i kcs id) hs -> kcs "keys" = Some d) /\ su_elections (fst (create_run medium parse hs)) = [x; y] /\ ne_name x = ne_name y /\ el_manifest (ne_election x) <> el_manifest (ne_election y).
Proof.
  destruct ceremony_made as (h & w & j & Hw & Hj & Hjo & Hg). destruct (made_twins h w Hw j Hj Hjo Hg) as (x & y & T1 & T2 & T3 & T4 & T5).
  exists h, made_parse, (twin_events (w_doc w)), x, y. cbv zeta. assert (H2 : Z.of_nat 2 = 2) by reflexivity. rewrite H2 in Hw. rewrite Hw. split; [|split; [exact T1|split; [congruence|rewrite T4, T5; discriminate]]].
  intros i kcs id H. assert (kcs = made_kcs (w_doc w)) by (cbn in H; repeat (destruct H as [H|H]; [congruence|]); destruct H). subst kcs. reflexivity.
Qed.
Lemma bare : exists h parse hs x, let d := w_doc (gui_run medium (gui_start 2 2) h) in
  (forall i kcs id, In (CreateStep i kcs id) hs -> kcs "keys" = Some d) /\ In x (su_elections (fst (create_run medium parse hs))) /\ el_ceremony (ne_election x) = "keys" /\ ne_records x <> [] /\
  Forall (fun k => len (pk_commitments k) = 2 /\ len (pk_proofs k) = 2) (kc_keys d) /\ Forall (fun r => gr_commitments r = [] /\ gr_proofs r = []) (ne_records x).
Proof.
  destruct ceremony_made as (h & w & j & Hw & Hj & Hjo & Hg). destruct (demo_prepared h w Hw j Hj Hjo Hg) as (p & P1 & P2 & P3 & P4 & P5).
  exists h, made_parse, (made_events (w_doc w)), (new_election "primary" "Primary" "keys" p). cbv zeta.
  assert (H2 : Z.of_nat 2 = 2) by reflexivity. assert (Hw2 := Hw). rewrite H2 in Hw2. rewrite Hw2.
  assert (Hin : In (new_election "primary" "Primary" "keys" p) (su_elections (fst (create_run medium made_parse (made_events (w_doc w)))))) by (rewrite (made_run w p P1); left; reflexivity).
  split; [|split; [exact Hin|split; [reflexivity|split; [exact P5|split; [|exact (records_bare medium made_parse _ _ Hin)]]]]].
  - intros i kcs id H. assert (kcs = made_kcs (w_doc w)) by (cbn in H; repeat (destruct H as [H|H]; [congruence|]); destruct H). subst kcs. reflexivity.
  - rewrite Forall_forall. intros key Hk. assert (Hnd : NoDup (kc_joined (w_doc (gui_run medium (gui_start 2 (Z.of_nat 2)) h)))) by (rewrite Hw, Hjo; repeat constructor; cbn; intuition discriminate).
    destruct (joins_run medium 2 h (gui_start 2 (Z.of_nat 2)) (start_ok medium _ _) (start_joins medium 2 2) Hg Hnd) as [J _]. rewrite Hw in J.
    destruct (j_keys _ _ _ J key Hk) as (r & R1 & R2). destruct (j_files _ _ _ J _ _ R1) as (s & S1 & -> & S3 & _). cbn in R2. rewrite <- R2.
    unfold share_keys, keys_of, get_commitments, get_proofs, generate_polynomial. cbn [pk_commitments pk_proofs ek_poly]. unfold len. rewrite !map_length, S3. split; reflexivity.
Qed.
Lemma one_created : exists h d j r, w_doc (gui_run medium (gui_start 2 2) h) = d /\ kc_joint d = Some j /\ rq_kcs r (rq_ceremony r) = Some d /\ made_parse (rq_raw r) = Some demo_manifest /\
  rq_ceremony r <> "" /\ fst (create_one medium made_parse (one_by_one medium made_parse []) r) = Created (Some (rq_id r)).
Proof.
  destruct ceremony_made as (h & w & j & Hw & Hj & Hjo & Hg). assert (H2 : Z.of_nat 2 = 2) by reflexivity. rewrite H2 in Hw.
  exists h, (w_doc w), j, (mkRequest "Primary" "keys" "{demo}" (made_kcs (w_doc w)) "primary" 3). rewrite Hw. split; [reflexivity|]. split; [exact Hj|]. do 2 (split; [reflexivity|]). split; [discriminate|].
  destruct demo_setup as (D1 & D2 & _). eapply (accepted medium made_parse _ "Primary" "keys" "{demo}" (made_kcs (w_doc w)) "primary" (w_doc w) demo_manifest _ j); eauto; try reflexivity; intros [].
Qed.
