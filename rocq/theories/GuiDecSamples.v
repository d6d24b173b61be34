(** * GuiDecSamples: a decryption of the graphical application that goes well, and others that go wrong. *)
From Verif Require Import Base Group Codec Hash DLog ElGamal ZK Poly Spec Tiny ListFacts Manifest Ballot Encrypt SpecElection Samples EncryptThms Box Tally SpecTally TallySamples
  Ceremony SpecCeremony Shares SpecShares SharesThms SharesSamples SpecEndToEnd EndToEndSamples GuiUpload SpecUpload GuiDecrypt SpecGuiDecrypt GuiDecRun GuiDecThms.
From Coq Require Import List Permutation.
Local Open Scope string_scope.
Local Open Scope list_scope.

(** ** three guardians, two cast ballots and a spoiled one *)
(** one of the calls takes its next step, and nothing fails *)
Definition good (i : nat) : dec_event := Step i true (fun _ => true) (fun _ => 4).
(** the reading of a ballot fails *)
Definition lost (i : nat) : dec_event := Step i false (fun _ => true) (fun _ => 4).
(** the pool of the tally fails *)
Definition pool_off (i : nat) : dec_event := Step i true (fun path => match path with [0%nat] => false | _ => true end) (fun _ => 4).
(** the i-th upload, of the file [s], which gets the document id [id] *)
Definition upload_file (i : nat) (s id : string) : list up_event := StartUpload "u" "primary" s :: map (Next i) ["-"; "-"; id; "-"; "-"].

Definition show_cx : context := mkContext 3 2 (gexp medium (sumZ (map st_secret dec_seats))) 1 (im_hash demo_imv) 1 7.
Definition show_parse (b1 b2 b3 : sub_ballot) (s : string) : option sub_ballot :=
  if String.eqb s "{1}" then Some b1 else if String.eqb s "{2}" then Some b2 else if String.eqb s "{3}" then Some b3 else None.
Definition show_disk (a b c : guardian) (user ceremony : string) : option private_record :=
  if String.eqb ceremony "keys" then
    if String.eqb user "alice" then Some (export_private_data a) else if String.eqb user "bob" then Some (export_private_data b)
    else if String.eqb user "carol" then Some (export_private_data c) else None
  else None.
Definition show_election : election := mkElection "primary" "keys" 3 2 (Some show_cx) demo_manifest [("alice", 1); ("bob", 2); ("carol", 3)] [].
Definition show_db : gdb := mkGdb [show_election] [].
Definition show_uploads : list up_event := upload_file 0 "{1}" "d1" ++ upload_file 1 "{2}" "d2" ++ upload_file 2 "{3}" "d3".
Definition show_h1 : list dec_event := map Uploads show_uploads.
Definition show_h2 : list dec_event := [StartJoin "alice" "dec"; StartJoin "bob" "dec"; StartJoin "carol" "dec"] ++ concat (repeat [good 2; good 0; good 1] 15).
Definition show_h3 : list dec_event := StartView true "dec" :: repeat (good 3) 15.

Definition is_start (ev : dec_event) : bool := match ev with StartJoin _ _ | StartView _ _ => true | _ => false end.
Lemma calls_length E parse device disk h : forall W, length (dw_calls (dec_run E parse device disk W h)) =
  (length (dw_calls W) + length (filter is_start h))%nat.
Proof.
  unfold dec_run. induction h as [|ev h IH]; intros W; [cbn; lia|]. cbn [fold_left]. rewrite IH. destruct ev as [u|id e|u id|a id|i net up rnd]; cbn [dec_event_step filter is_start dw_calls length];
    rewrite ?app_length; cbn [length]; try lia.
  destruct (nth_error _ _) as [c|]; [|reflexivity]. destruct (dec_step _ _ _ _ _ _ _ _ _) as [c' ds']. cbn [dw_calls]. rewrite set_nth_length. reflexivity.
Qed.
Lemma uploads_only E parse device disk l : forall W, dw_docs (dec_run E parse device disk W (map Uploads l)) = dw_docs W.
Proof. unfold dec_run. induction l as [|u l IH]; intros W; [reflexivity|]. cbn [map fold_left]. rewrite IH. reflexivity. Qed.
Lemma show_stored b1 b2 b3 : sb_id b1 = "ballot-1" -> sb_id b2 = "ballot-2" -> sb_id b3 = "ballot-3" ->
  (forall b, In b [b1; b2; b3] -> cb_manifest_hash (sb_ballot b) = im_hash demo_imv) ->
  db_uploads (uw_db (up_run (show_parse b1 b2 b3) (fun _ => true) (mkUpWorld show_db []) show_uploads)) =
  [mkUpDoc (Oid "d1") "primary" (BallotDoc "u" "ballot-1" "{1}"); mkUpDoc (Oid "d2") "primary" (BallotDoc "u" "ballot-2" "{2}"); mkUpDoc (Oid "d3") "primary" (BallotDoc "u" "ballot-3" "{3}")].
Proof.
  intros H1 H2 H3 HM. assert (M1 := HM b1 (or_introl eq_refl)). assert (M2 := HM b2 (or_intror (or_introl eq_refl))). assert (M3 := HM b3 (or_intror (or_intror (or_introl eq_refl)))). clear HM.
  destruct b1 as [[] s1], b2 as [[] s2], b3 as [[] s3]. cbn in H1, H2, H3, M1, M2, M3. subst. vm_compute. reflexivity.
Qed.
(** everything the theorems ask for *)
Lemma show_ready : exists parse disk, let device := fun _ : string => true in let im := demo_im medium in
  gui_election medium disk show_db "primary" demo_manifest im show_cx 2 dec_seats /\ good_voters medium im voters /\
  let before := after_all medium parse device disk show_db show_h1 in
  only_voters medium parse im show_cx voters (dw_db before) "primary" /\ find_decryption (dw_docs before) "dec" = None /\
  (forall v, In v voters -> exists b, In b (stored (dw_db before) "primary") /\ closed (so_contents b) = true /\ file_of medium parse im show_cx v b) /\
  (forall s, In s dec_seats -> carried_out medium parse device disk (dec_event_step medium parse device disk before (NewDecryption "dec" "primary")) show_h2 (StartJoin (st_id s) "dec")) /\
  carried_out medium parse device disk (after_all medium parse device disk show_db (show_h1 ++ NewDecryption "dec" "primary" :: show_h2)) show_h3 (StartView true "dec").
Proof.
  destruct dec_ready as [gs Hgs]. inversion Hgs as [|? ga ? ? Ha H2]; subst. inversion H2 as [|? gb ? ? Hb H3]; subst. inversion H3 as [|? gc ? ? Hc H4]; subst. clear Hgs H2 H3 H4.
  assert (HK : in_subgroup medium (cx_key show_cx)) by apply (joint_subgroup medium medium_valid 2 dec_seats dec_seats_good).
  destruct (voters_encrypted show_cx HK) as [ebs Hebs]. inversion Hebs as [|? e1 ? ? E1 I2]; subst. inversion I2 as [|? e2 ? ? E2 I3]; subst. inversion I3 as [|? e3 ? ? E3 I4]; subst. clear Hebs I2 I3 I4.
  set (b1 := submit_ballot medium e1 CAST). set (b2 := submit_ballot medium e2 CAST). set (b3 := submit_ballot medium e3 SPOILED).
  exists (show_parse b1 b2 b3), (show_disk ga gb gc). cbv zeta. set (device := fun _ : string => true). set (parse := show_parse b1 b2 b3). set (disk := show_disk ga gb gc).
  destruct (ballot_contests _ _ _ _ _ _ _ _ _ _ E1) as (_ & _ & A1 & _ & B1 & _). destruct (ballot_contests _ _ _ _ _ _ _ _ _ _ E2) as (_ & _ & A2 & _ & B2 & _).
  destruct (ballot_contests _ _ _ _ _ _ _ _ _ _ E3) as (_ & _ & A3 & _ & B3 & _). rewrite <- demo_imv_eq in B1, B2, B3.
  assert (HS := show_stored b1 b2 b3 A1 A2 A3). assert (HM : forall b, In b [b1; b2; b3] -> cb_manifest_hash (sb_ballot b) = im_hash demo_imv) by (intros b [<-|[<-|[<-|[]]]]; assumption).
  specialize (HS HM). clear HM. fold parse device in HS.
  assert (Hdb : forall h, ups h = [] -> db_uploads (dw_db (after_all medium parse device disk show_db (show_h1 ++ h))) =
    [mkUpDoc (Oid "d1") "primary" (BallotDoc "u" "ballot-1" "{1}"); mkUpDoc (Oid "d2") "primary" (BallotDoc "u" "ballot-2" "{2}"); mkUpDoc (Oid "d3") "primary" (BallotDoc "u" "ballot-3" "{3}")]).
  { intros h Hh. unfold dw_db, after_all. rewrite ups_run. unfold ups. rewrite flat_map_app. fold (ups h). rewrite Hh, app_nil_r. exact HS. }
  assert (Hst : stored (dw_db (after_all medium parse device disk show_db show_h1)) "primary" =
     [mkStored (Oid "d1") "u" "ballot-1" "{1}"; mkStored (Oid "d2") "u" "ballot-2" "{2}"; mkStored (Oid "d3") "u" "ballot-3" "{3}"]).
  { unfold stored. rewrite <- (app_nil_r show_h1), Hdb by reflexivity. reflexivity. }
  assert (F1 : file_of medium parse (demo_im medium) show_cx voter1 (mkStored (Oid "d1") "u" "ballot-1" "{1}")) by (exists e1; split; [exact E1|reflexivity]).
  assert (F2 : file_of medium parse (demo_im medium) show_cx voter2 (mkStored (Oid "d2") "u" "ballot-2" "{2}")) by (exists e2; split; [exact E2|reflexivity]).
  assert (F3 : file_of medium parse (demo_im medium) show_cx voter3 (mkStored (Oid "d3") "u" "ballot-3" "{3}")) by (exists e3; split; [exact E3|reflexivity]).
  assert (Hnu : no_uploads show_db) by (constructor; [repeat constructor; cbn; intuition|reflexivity|intros x [<-|[]]; reflexivity]).
  destruct demo_setup as (D1 & D2 & _).
  assert (Hlen : forall h, length (dw_calls (after_all medium parse device disk show_db (show_h1 ++ h))) = length (filter is_start h)).
  { intros h. unfold after_all. rewrite calls_length, filter_app, app_length. reflexivity. }
  assert (Hend : forall h ev h', (exists u id, ev = StartJoin u id) \/ (exists a id, ev = StartView a id) -> ups (h ++ ev :: h') = [] ->
    (15 <= steps_of (length (filter is_start h)) h')%nat ->
    exists ok, nth_error (dw_calls (after_all medium parse device disk show_db (show_h1 ++ h ++ ev :: h'))) (length (filter is_start h)) = Some (Finished ok)).
  { intros h ev h' Hev Hu Hs. assert (T := gui_terminates medium parse device disk show_db (show_h1 ++ h) ev h' Hnu Hev). cbv zeta in T. rewrite <- !app_assoc in T. rewrite (Hdb _ Hu) in T.
    rewrite Hlen in T. exact (T Hs). }
  split; [|split; [|split; [|split; [|split; [|split]]]]].
  - constructor.
    + exact Hnu.
    + exact D1.
    + exact D2.
    + exact demo_distinct.
    + exact dec_seats_good.
    + repeat constructor; cbn; intuition discriminate.
    + discriminate.
    + cbn; lia.
    + reflexivity.
    + cbn; lia.
    + reflexivity.
    + exists show_election. split; [left; reflexivity|]. do 5 (split; [reflexivity|]). split; [discriminate|]. split.
      * intros s [<-|[<-|[<-|[]]]]; discriminate.
      * intros u r n q Hr. unfold disk, show_disk in Hr. cbn [show_election el_ceremony String.eqb] in Hr. change (String.eqb "keys" "keys") with true in Hr. cbv iota in Hr.
        destruct (String.eqb_spec u "alice") as [->|]; [|destruct (String.eqb_spec u "bob") as [->|]; [|destruct (String.eqb_spec u "carol") as [->|]; [|discriminate]]]; injection Hr as <-.
        -- eexists. split; [left; reflexivity|]. split; [reflexivity|]. split; [exact (rg_key _ _ _ _ Ha)|exact (rg_secret _ _ _ _ Ha)].
        -- eexists. split; [right; left; reflexivity|]. split; [reflexivity|]. split; [exact (rg_key _ _ _ _ Hb)|exact (rg_secret _ _ _ _ Hb)].
        -- eexists. split; [right; right; left; reflexivity|]. split; [reflexivity|]. split; [exact (rg_key _ _ _ _ Hc)|exact (rg_secret _ _ _ _ Hc)].
  - constructor.
    + exact voters_usable.
    + repeat constructor; cbn; intuition discriminate.
    + intros v [<-|[<-|[<-|[]]]]; discriminate.
    + vm_compute. reflexivity.
    + vm_compute. discriminate.
    + vm_compute. discriminate.
  - intros b Hb'. rewrite Hst in Hb'. destruct Hb' as [<-|[<-|[<-|[]]]]; [exists voter1|exists voter2|exists voter3]; (split; [cbn; auto|assumption]).
  - unfold after_all, show_h1. rewrite uploads_only. reflexivity.
  - rewrite Hst. intros v [<-|[<-|[<-|[]]]].
    + eexists. split; [left; reflexivity|]. split; [reflexivity|exact F1].
    + eexists. split; [right; left; reflexivity|]. split; [reflexivity|exact F2].
    + eexists. split; [right; right; left; reflexivity|]. split; [reflexivity|exact F3].
  - assert (Hj : forall ha u hb, show_h2 = ha ++ StartJoin u "dec" :: hb -> (15 <= steps_of (length (filter is_start ha)) hb)%nat ->
      carried_out medium parse device disk (dec_event_step medium parse device disk (after_all medium parse device disk show_db show_h1) (NewDecryption "dec" "primary")) show_h2 (StartJoin u "dec")).
    { intros ha u hb Hh Hs. exists ha, hb. split; [exact Hh|]. 
      assert (Hr : forall h, dec_run medium parse device disk (dec_event_step medium parse device disk (after_all medium parse device disk show_db show_h1) (NewDecryption "dec" "primary")) h
         = after_all medium parse device disk show_db (show_h1 ++ NewDecryption "dec" "primary" :: h)) by (intros h; unfold after_all; rewrite run_app; reflexivity).
      rewrite !Hr. rewrite Hlen.
      destruct (Hend (NewDecryption "dec" "primary" :: ha) (StartJoin u "dec") hb (or_introl (ex_intro _ u (ex_intro _ "dec" eq_refl)))) as [ok Hok].
      - change (ups ((NewDecryption "dec" "primary" :: ha) ++ StartJoin u "dec" :: hb)) with (ups (ha ++ StartJoin u "dec" :: hb)). rewrite <- Hh. reflexivity.
      - exact Hs.
      - exists ok. rewrite Hh. exact Hok. }
    intros s [<-|[<-|[<-|[]]]]; [eapply (Hj [])|eapply (Hj [StartJoin "alice" "dec"])|eapply (Hj [StartJoin "alice" "dec"; StartJoin "bob" "dec"])]; try reflexivity; apply Nat.leb_le; reflexivity.
  - exists [], (repeat (good 3) 15). split; [reflexivity|].
    destruct (Hend (NewDecryption "dec" "primary" :: show_h2) (StartView true "dec") (repeat (good 3) 15) (or_intror (ex_intro _ true (ex_intro _ "dec" eq_refl)))) as [ok Hok]; [reflexivity|apply Nat.leb_le; reflexivity|].
    exists ok. set (w := after_all medium parse device disk show_db (show_h1 ++ NewDecryption "dec" "primary" :: show_h2)).
    assert (Hw : dec_run medium parse device disk w show_h3 = after_all medium parse device disk show_db (show_h1 ++ (NewDecryption "dec" "primary" :: show_h2) ++ StartView true "dec" :: repeat (good 3) 15)).
    { unfold w, after_all. rewrite <- run_app, <- app_assoc. reflexivity. }
    rewrite Hw. change (dec_run medium parse device disk w []) with w. unfold w. rewrite Hlen. exact Hok.
Qed.
Lemma show_quiet : pools_work (show_h1 ++ show_h2 ++ show_h3) /\ no_more_uploads (show_h2 ++ show_h3) /\ reads_work (show_h2 ++ show_h3).
Proof.
  split; [|split].
  - intros i net up rnd H path. cbn in H. repeat (destruct H as [H|H]; [first [discriminate H|injection H as <- <- <- <-; reflexivity]|]). destruct H.
  - intros ev H. cbn in H. repeat (destruct H as [H|H]; [discriminate H|]). destruct H.
  - intros i net up rnd H. cbn in H. repeat (destruct H as [H|H]; [first [discriminate H|injection H as <- <- <- <-; reflexivity]|]). destruct H.
Qed.
(** what comes out of it *)
Lemma show_result : exists parse disk d r,
  find_decryption (dw_docs (after_all medium parse (fun _ => true) disk show_db (show_h1 ++ NewDecryption "dec" "primary" :: show_h2 ++ show_h3))) "dec" = Some d /\ dy_result d = Some r /\
  count_of (rs_tally r) "mayor" "mayor-ann" = Some 2 /\ count_of (rs_tally r) "council" "council-di" = Some 1 /\ In "ballot-3" (dkeys (rs_spoiled r)).
Proof.
  destruct show_ready as (parse & disk & H1 & H2 & H3 & H4 & H5 & H6 & H7). destruct show_quiet as (Q1 & Q2 & Q3).
  destruct (gui_completes medium parse (fun _ => true) disk show_db "primary" demo_manifest (demo_im medium) show_cx 2 dec_seats voters show_h1 "dec" show_h2 show_h3 medium_valid H1 H2 Q1 Q2 Q3 H3 H4 H6 H7)
    as (d & r & counted & R1 & R2 & R3 & R4 & R5 & R6 & R7).
  assert (HP : Permutation counted voters).
  { apply NoDup_Permutation; [exact R3|apply (NoDup_map_inv vr_id), H2|]. intros v. rewrite R4. split; [intros [Hv _]; exact Hv|intros Hv; split; [exact Hv|apply H5, Hv]]. }
  assert (Hc : forall cid oid, cast_count (demo_im medium) counted cid oid = cast_count demo_imv voters cid oid).
  { intros cid oid. rewrite <- demo_imv_eq. unfold cast_count, len. f_equal. apply Permutation_length. clear -HP. induction HP; cbn [filter]; [constructor|destruct (_ && _); auto|repeat destruct (_ && _); try constructor; auto using Permutation_refl|eauto using Permutation_trans]. }
  exists parse, disk, d, r. split; [exact R1|]. split; [exact R2|]. split; [|split].
  - apply R5. split; [|rewrite Hc; vm_compute; reflexivity]. exists mayor. eexists. split; [vm_compute; tauto|]. split; [reflexivity|]. first [split; [left; reflexivity|reflexivity]|split; [right; left; reflexivity|reflexivity]|split; [right; right; left; reflexivity|reflexivity]].
  - apply R5. split; [|rewrite Hc; vm_compute; reflexivity]. exists council. eexists. split; [vm_compute; tauto|]. split; [reflexivity|]. first [split; [left; reflexivity|reflexivity]|split; [right; left; reflexivity|reflexivity]|split; [right; right; left; reflexivity|reflexivity]].
  - apply (R7 voter3); [|reflexivity]. apply (Permutation_in _ (Permutation_sym HP)). cbn; auto.
Qed.

(** ** a single guardian, in a small group *)
Definition yn_contest : contest_desc := mkContest "q1" 1 "county" "one_of_m" 1 (Some 1) "Question" [mkSel "yes" 1 "ann"; mkSel "no" 2 "bob"] None None None.
Definition yn_manifest : manifest := mkManifest "demo" "v0.95" "primary" "2020-03-01T08:00:00Z" "2020-03-01T20:00:00Z"
  (mf_gp_units demo_manifest) (mf_parties demo_manifest) (mf_candidates demo_manifest) [yn_contest] [mkStyle "all" (Some ["county"]) None None] None None.
Definition yn_im : internal_manifest := Eval vm_compute in match make_internal tiny yn_manifest with Ok im => im | Err _ => mkInternal [] [] [] 0 end.
Definition yn_cx : context := mkContext 1 1 (gexp tiny 3) 1 (im_hash yn_im) 1 7.
Definition yn_seat : seat := mkSeat "alice" 1 [(3, 1)].
(** a ballot that encrypts [a] for "yes" and [b] for "no", without any proof *)
Definition yn_sel (i c : string) (n v r : Z) (ph : bool) : ct_selection := mkCsel i n (selection_desc_hash tiny (mkSel i n c)) (sm_ct v r 3) 0 ph None None.
Definition yn_ballot (id : string) (a b r : Z) (st : box_state) : sub_ballot :=
  mkSub (mkCbal id "all" (im_hash yn_im) 0 [mkCcon "q1" 1 (contest_hash tiny yn_contest)
    [yn_sel "yes" "ann" 1 a r false; yn_sel "no" "bob" 2 b (r + 1) false; yn_sel "p" "p" 3 0 (r + 2) true] (mkCt 1 1) 0 None None None] 0 0 0 None) st.
Definition yn_parse (s : string) : option sub_ballot :=
  if String.eqb s "{a}" then Some (yn_ballot "a" 1 0 1 CAST) else if String.eqb s "{b}" then Some (yn_ballot "b" 0 1 2 CAST)
  else if String.eqb s "{s}" then Some (yn_ballot "s" 1 0 3 SPOILED) else if String.eqb s "{x}" then Some (yn_ballot "x" 5 0 4 CAST) else None.
Definition yn_disk (u c : string) : option private_record := if String.eqb u "alice" then Some (export_private_data sm_solo) else None.
Definition yn_db : gdb := mkGdb [mkElection "primary" "keys" 1 1 (Some yn_cx) yn_manifest [("alice", 1)] []] [].
Definition yn_run (h : list dec_event) : dec_world := after_all tiny yn_parse (fun _ => true) yn_disk yn_db h.
Definition up_file (i : nat) (s id : string) : list dec_event := map Uploads (upload_file i s id).
(** what is shown of each decryption: the votes for "yes" and "no", and the spoiled ballots *)
Definition shown (w : dec_world) : list (option (option Z * option Z * list string)) :=
  map (fun d => option_map (fun r => (count_of (rs_tally r) "q1" "yes", count_of (rs_tally r) "q1" "no", dkeys (rs_spoiled r))) (dy_result d)) (dw_docs w).
(** nothing goes wrong *)
Definition yn_fine : list dec_event := up_file 0 "{a}" "d1" ++ up_file 1 "{b}" "d2" ++ up_file 2 "{s}" "d3" ++
  NewDecryption "dec" "primary" :: StartJoin "alice" "dec" :: repeat (good 0) 9 ++ StartView true "dec" :: repeat (good 1) 9.
(** a spoiled ballot is uploaded after the guardian joined; then the administrator looks, the guardian joins again, the administrator looks *)
Definition yn_late (s : string) : list dec_event := up_file 0 "{a}" "d1" ++ NewDecryption "dec" "primary" :: StartJoin "alice" "dec" :: repeat (good 0) 9 ++ up_file 1 s "d2" ++
  StartView true "dec" :: repeat (good 1) 9 ++ StartJoin "alice" "dec" :: repeat (good 2) 9 ++ StartView true "dec" :: repeat (good 3) 9.
(** a ballot with 5 votes for "yes", and no proofs *)
Definition yn_fraud : list dec_event := up_file 0 "{x}" "d1" ++ NewDecryption "dec" "primary" :: StartJoin "alice" "dec" :: repeat (good 0) 9 ++ StartView true "dec" :: repeat (good 1) 9.
(** the second ballot cannot be read three times in a row, by the guardian and then by the administrator *)
Definition yn_lost (s : string) : list dec_event := up_file 0 "{a}" "d1" ++ up_file 1 s "d2" ++ NewDecryption "dec" "primary" :: StartJoin "alice" "dec" :: repeat (good 0) 4 ++ repeat (lost 0) 3 ++ repeat (good 0) 9 ++
  StartView true "dec" :: repeat (good 1) 4 ++ repeat (lost 1) 3 ++ repeat (good 1) 9.
(** the pool that adds the ballots up fails, for the guardian and then for the administrator *)
Definition yn_pool : list dec_event := up_file 0 "{a}" "d1" ++ NewDecryption "dec" "primary" :: StartJoin "alice" "dec" :: repeat (pool_off 0) 9 ++ StartView true "dec" :: repeat (pool_off 1) 9.

Lemma yn_election : gui_election tiny yn_disk yn_db "primary" yn_manifest yn_im yn_cx 1 [yn_seat].
Proof.
  constructor.
  - constructor; [repeat constructor; cbn; intuition|reflexivity|intros x [<-|[]]; reflexivity].
  - vm_compute. reflexivity.
  - vm_compute. reflexivity.
  - unfold distinct_option_ids. vm_compute. repeat constructor; cbn; intuition discriminate.
  - constructor; [repeat constructor; cbn; tauto|repeat constructor; discriminate|lia|repeat constructor; cbn; lia|].
    constructor; [|constructor]. cbn. split; [lia|]. intros j Hj. replace j with 0 by lia. cbn. lia.
  - repeat constructor; cbn; tauto.
  - discriminate.
  - vm_compute. split; [discriminate|reflexivity].
  - reflexivity.
  - vm_compute. discriminate.
  - vm_compute. reflexivity.
  - eexists. split; [left; reflexivity|]. do 5 (split; [reflexivity|]). split; [discriminate|]. split; [intros s [<-|[]]; discriminate|].
    intros u r n q Hr. unfold yn_disk in Hr. destruct (String.eqb_spec u "alice") as [->|]; [|discriminate]. injection Hr as <-. exists yn_seat. split; [left; reflexivity|]. split; [reflexivity|].
    split; [|reflexivity]. vm_compute. repeat split.
Qed.
