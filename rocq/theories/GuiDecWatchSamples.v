(** * GuiDecWatchSamples: three guardians and a page that publishes; pages that wait for ever. *)
From Coq Require Import List.
From Verif Require Import Base Group Hash ElGamal ZK Spec Tiny ListFacts Manifest Ballot Encrypt SpecElection Samples Box Tally SpecTally Ceremony SpecCeremony Shares SpecShares SharesSamples
  SpecEndToEnd EndToEndSamples GuiUpload SpecUpload GuiDecrypt SpecGuiDecrypt GuiDecRun GuiDecThms GuiDecSamples GuiDecWatch SpecGuiDecWatch GuiDecWatchFacts GuiDecWatchThms GuiDecWatchEnds.
Local Open Scope string_scope.
Local Open Scope list_scope.

(** ** three guardians: everybody joins, and then the page is opened *)
Definition show_w1 : list dx_event := map Do show_h1.
Definition show_w2 : list dx_event := map Do show_h2.
Definition show_w3 : list dx_event := [Tell 0; Tell 1; Tell 2; OpenPage "dec"; Look 0] ++ steps 3 60 ++ [Tell 3; Back 0].

Lemma update_first_length {A} (p : A -> bool) f l : length (update_first p f l) = length l.
Proof. induction l as [|x l IH]; [reflexivity|]. cbn [update_first]. destruct (p x); cbn [length]; auto. Qed.
Lemma uploads_step parse device w ev : (length (db_uploads (uw_db (up_step parse device w ev))) <= S (length (db_uploads (uw_db w))))%nat.
Proof.
  destruct ev as [e s|u e s|i new]; cbn [up_step uw_db]; try lia. destruct (nth_error (uw_calls w) i) as [c|]; [|lia]. destruct (call_step parse device new c (uw_db w)) as [c' d'] eqn:Hc. cbn [uw_db].
  assert (HI : forall d w', insert_doc (uw_db w) d = Ok w' -> length (db_uploads w') = S (length (db_uploads (uw_db w)))).
  { intros d w'. unfold insert_doc. destruct (existsb _ _); [discriminate|]. intros H. injection H as <-. cbn [db_uploads]. rewrite app_length. cbn. lia. }
  destruct c as [e s|e s|e u s|u e s|u e s o|u e s o|u e|u e|a]; cbn [call_step] in Hc.
  - destruct (find_election _ _); injection Hc as <- <-; lia.
  - destruct (insert_doc _ _) as [w'|] eqn:Hi; injection Hc as <- <-; [rewrite (HI _ _ Hi)|]; lia.
  - unfold append_ballot_upload in Hc. destruct (device s); injection Hc as <- <-; cbn [update_election db_uploads]; lia.
  - destruct (parse s) as [b|]; [|injection Hc as <- <-; lia]. destruct (find_election _ _) as [x|]; [|injection Hc as <- <-; lia]. destruct (el_context x) as [cx|]; [|injection Hc as <- <-; lia].
    destruct (cx_manifest_hash cx =? cb_manifest_hash (sb_ballot b))%Z; injection Hc as <- <-; lia.
  - destruct (any_ballot_exists _ _ _); injection Hc as <- <-; lia.
  - destruct (insert_doc _ _) as [w'|] eqn:Hi; injection Hc as <- <-; [rewrite (HI _ _ Hi)|]; lia.
  - injection Hc as <- <-. unfold increment_ballot_count. cbn [db_uploads]. rewrite update_first_length. lia.
  - injection Hc as <- <-. unfold increment_upload_count, update_election. cbn [db_uploads]. lia.
  - injection Hc as <- <-. lia.
Qed.
Lemma uploads_run parse device h : forall w, (length (db_uploads (uw_db (up_run parse device w h))) <= length h + length (db_uploads (uw_db w)))%nat.
Proof. induction h as [|e h IH]; intros w; [cbn; lia|]. cbn [up_run fold_left length]. specialize (IH (up_step parse device w e)). pose proof (uploads_step parse device w e). unfold up_run in IH. lia. Qed.
Lemma plains_do E parse device disk h : forall w, plains E parse device disk w (map Do h) = h.
Proof. induction h as [|e h IH]; intros w; [reflexivity|]. cbn [map plains plain app]. rewrite IH. reflexivity. Qed.
Lemma do_all E parse device disk w h : dx_dec (watched E parse device disk w (map Do h)) = after_all E parse device disk w h.
Proof. unfold watched. rewrite dec_of_run, plains_do. reflexivity. Qed.
(** what the steps of the calls do to the rest *)
Definition owes_from (is : list nat) (w : dx_world) : Prop := Forall (fun x => In (fst x) is) (dx_owes w).
Lemma do_rest E parse device disk h : forall w is, (forall i net up rnd, In (Step i net up rnd) h -> In i is) -> owes_from is w ->
  let w' := dx_run E parse device disk w (map Do h) in dx_pages w' = dx_pages w /\ dx_rows w' = dx_rows w /\ owes_from is w' /\ dx_dec w' = dec_run E parse device disk (dx_dec w) h.
Proof.
  induction h as [|ev h IH]; intros w is Hi Ho; [cbn; auto|]. cbv zeta. unfold dx_run. cbn [map fold_left]. fold (dx_run E parse device disk (dx_step E parse device disk w (Do ev)) (map Do h)).
  destruct (IH (dx_step E parse device disk w (Do ev)) is) as (H1 & H2 & H3 & H4).
  - intros i net up rnd H. apply (Hi i net up rnd). right. exact H.
  - destruct w as [d rows owes pages]. unfold owes_from in *. cbn [dx_step dx_owes] in *. unfold owes_after. destruct ev as [| | | |i net up rnd]; try exact Ho. destruct (nth_error (dw_calls d) i) as [c|]; [|exact Ho].
    destruct (last_change c); [|exact Ho]. apply Forall_app. split; [exact Ho|]. constructor; [|constructor]. apply (Hi i net up rnd). left. reflexivity.
  - cbv zeta in *. rewrite H1, H2, H4, dec_of_step. destruct w. split; [reflexivity|]. split; [reflexivity|]. split; [exact H3|reflexivity].
Qed.
Lemma tell_rest E parse device disk w i is : owes_from (i :: is) w -> let w' := dx_step E parse device disk w (Tell i) in dx_pages w' = dx_pages w /\ owes_from is w' /\ dx_dec w' = dx_dec w.
Proof.
  destruct w as [d rows owes pages]. unfold owes_from. cbn [dx_step dx_owes dx_pages dx_dec]. intros H. split; [reflexivity|]. split; [|reflexivity]. apply Forall_forall. intros x Hx. apply filter_In in Hx as [Hx Hn].
  rewrite Forall_forall in H. destruct (H x Hx) as [He|He]; [|exact He]. rewrite <- He, Nat.eqb_refl in Hn. discriminate.
Qed.

Lemma idle_steps E parse device disk i ok n : forall W, nth_error (dw_calls W) i = Some (Finished ok) -> dec_run E parse device disk W (repeat (good i) n) = W.
Proof.
  induction n as [|n IH]; intros W H; [reflexivity|]. cbn [repeat]. change (dec_run E parse device disk W (good i :: repeat (good i) n)) with (dec_run E parse device disk (dec_event_step E parse device disk W (good i)) (repeat (good i) n)).
  replace (dec_event_step E parse device disk W (good i)) with W; [apply IH, H|]. unfold good. cbn [dec_event_step]. rewrite H. cbn [dec_step]. rewrite (set_nth_id _ _ _ H). destruct W; reflexivity.
Qed.

Definition easy (e : dx_event) : bool := match e with Stop _ | Burn _ => false | _ => true end.
Lemma orderly_easy E parse device disk p id h : forall w, forallb easy h = true -> orderly E parse device disk p id w h.
Proof.
  induction h as [|e h IH]; intros w H; [exact Logic.I|]. cbn [forallb] in H. apply andb_prop in H as [H1 H2]. cbn [orderly]. split; [|apply IH, H2]. destruct e; try exact Logic.I; discriminate.
Qed.
Lemma last_page E parse device disk Wj : dx_pages Wj = [] -> owes_from [0; 1; 2]%nat Wj -> length (dw_calls (dx_dec Wj)) = 3%nat ->
  let D := dec_run E parse device disk (dec_run E parse device disk (dx_dec Wj) (reading 3 "dec")) (repeat (good 3) 60) in
  (exists ok, nth_error (dw_calls D) 3 = Some (Finished ok)) -> (exists x, find_decryption (dw_docs D) "dec" = Some x /\ has_result x = true) ->
  orderly E parse device disk 0 "dec" Wj show_w3 /\ at_rest (dx_run E parse device disk Wj show_w3) 0 "dec".
Proof.
  intros J1 J3 Hlen D Hfin HR.
  (* the messages, and the page is opened *)
  set (st := dx_step E parse device disk). set (A1 := st Wj (Tell 0)). set (A2 := st A1 (Tell 1)). set (A3 := st A2 (Tell 2)). set (A4 := st A3 (OpenPage "dec")). set (A5 := st A4 (Look 0)).
  set (B := dx_run E parse device disk A5 (steps 3 60)). set (C1 := st B (Tell 3)). set (C2 := st C1 (Back 0)).
  assert (HC : dx_run E parse device disk Wj show_w3 = C2).
  { unfold show_w3. rewrite !xrun_app. reflexivity. }
  rewrite HC.
  destruct (tell_rest E parse device disk Wj 0 [1; 2]%nat J3) as (T1 & T2 & T3). fold st A1 in T1, T2, T3.
  destruct (tell_rest E parse device disk A1 1 [2]%nat T2) as (U1 & U2 & U3). fold st A2 in U1, U2, U3.
  destruct (tell_rest E parse device disk A2 2 [] U2) as (V1 & V2 & V3). fold st A3 in V1, V2, V3.
  assert (P3 : dx_pages A3 = []) by congruence. assert (D3 : dx_dec A3 = dx_dec Wj) by congruence.
  assert (P4 : dx_pages A4 = [mkPage "dec" PgNew] /\ owes_from [] A4 /\ dx_dec A4 = dx_dec Wj).
  { unfold A4. clearbody A3. destruct A3 as [d rows owes pages]. cbn [dx_pages dx_dec] in P3, D3. subst pages d. split; [reflexivity|]. split; [exact V2|reflexivity]. }
  destruct P4 as (P4 & O4 & D4).
  assert (P5 : exists s, dx_pages A5 = [mkPage "dec" s] /\ owes_from [] A5 /\ dx_dec A5 = dec_run E parse device disk (dx_dec Wj) (reading 3 "dec") /\
    match s with PgRunning i => i = 3%nat | PgLooked _ | PgDone | PgFailed => True | _ => False end).
  { assert (Hd5 : dx_dec A5 = dec_run E parse device disk (dx_dec Wj) (reading 3 "dec")).
    { unfold A5, st. rewrite dec_of_step. cbn [plain]. rewrite P4. cbn [nth_error]. rewrite D4, Hlen. reflexivity. }
    rewrite Hd5. unfold A5. clearbody A4. destruct A4 as [d rows owes pages]. cbn [dx_pages dx_dec] in P4, D4. subst pages d. exists (after_look (dw_docs (dx_dec Wj)) "dec" 3 (length rows)).
    unfold st. cbn [dx_step nth_error]. rewrite Hlen. split; [reflexivity|]. split; [exact O4|]. split; [reflexivity|]. unfold after_look.
    destruct (find_decryption (dw_docs (dx_dec Wj)) "dec") as [x|]; [destruct (should_run true x); [exact eq_refl|destruct (has_result x); exact Logic.I]|exact Logic.I]. }
  destruct P5 as (s & P5 & O5 & D5 & Hs).
  destruct (do_rest E parse device disk (repeat (good 3) 60) A5 [3]%nat) as (B1 & B2 & B3 & B4).
  { intros i net up rnd Hi. apply repeat_spec in Hi. injection Hi as -> _ _ _. cbn. auto. }
  { unfold owes_from in *. eapply Forall_impl; [|exact O5]. intros x []. }
  fold (steps 3 60) in B1, B2, B3, B4. fold B in B1, B2, B3, B4.
  assert (HD : dx_dec B = D) by (rewrite B4, D5; reflexivity). rewrite <- HD in Hfin, HR. clearbody D.
  destruct (tell_rest E parse device disk B 3 [] B3) as (X1 & X2 & X3). fold st C1 in X1, X2, X3.
  assert (PC : dx_pages C1 = [mkPage "dec" s]) by congruence. rewrite <- X3 in Hfin. destruct Hfin as [ok Hok].
  assert (OC : dx_owes C1 = []) by (destruct (dx_owes C1) as [|x l] eqn:He; [reflexivity|unfold owes_from in X2; rewrite He in X2; inversion X2 as [|? ? []]]).
  assert (Hnl : forall n, s <> PgLooked n).
  { intros n ->. assert (Hw : dx_dec B = dx_dec A5).
    { rewrite B4, D5. set (W := dec_run E parse device disk (dx_dec Wj) (reading 3 "dec")). destruct (nth_error (dw_calls W) 3) as [c|] eqn:Hc.
      - apply (idle_steps _ _ _ _ _ true). rewrite Hc. f_equal. assert (R := reading_run E parse device disk (dx_dec Wj) "dec"). cbv zeta in R. rewrite Hlen in R. fold W in R. rewrite Hc in R. injection R as ->.
        assert (Hal : after_look (dw_docs (dx_dec Wj)) "dec" 3 (length (dx_rows A4)) = PgLooked n).
        { assert (H := f_equal dx_pages (eq_refl A5)). unfold A5 in P5. unfold st in P5. clear -P5 P4 D4 Hlen. destruct A4 as [d rows owes pages]. cbn [dx_pages dx_dec dx_rows] in *. subst pages d. cbn [dx_step nth_error] in P5. rewrite Hlen in P5.
          cbn [dx_pages set_page nth_error set_nth] in P5. injection P5 as P5. exact P5. }
        unfold after_look in Hal. destruct (find_decryption (dw_docs (dx_dec Wj)) "dec") as [x|]; [|discriminate]. destruct (should_run true x); [discriminate|reflexivity].
      - exfalso. apply nth_error_None in Hc. unfold W in Hc. rewrite <- Hlen in Hc at 1. rewrite <- Hlen, reading_world in Hc. cbn [dw_calls] in Hc. rewrite app_length in Hc. cbn in Hc. lia. }
    destruct HR as (x & F & R). rewrite Hw, D5 in F. rewrite <- Hlen, reading_world in F. cbn [dw_docs] in F.
    assert (Hal : after_look (dw_docs (dx_dec Wj)) "dec" 3 (length (dx_rows A4)) = PgLooked n).
    { unfold A5 in P5. unfold st in P5. clear -P5 P4 D4 Hlen. destruct A4 as [d rows owes pages]. cbn [dx_pages dx_dec dx_rows] in *. subst pages d. cbn [dx_step nth_error] in P5. rewrite Hlen in P5.
      cbn [dx_pages set_page nth_error set_nth] in P5. injection P5 as P5. exact P5. }
    unfold after_look in Hal. rewrite F, R in Hal. destruct (should_run true x); discriminate. }
  split.
  - unfold show_w3, steps. apply orderly_easy. reflexivity.
  - unfold C2. destruct HR as (x & F & R). rewrite <- X3 in F. clearbody C1. destruct C1 as [d rows owes pages]. cbn [dx_pages dx_owes dx_dec] in PC, OC, Hok, F. subst pages owes. unfold st, at_rest. cbn [dx_step nth_error]. destruct s as [|i|n|k|i k| | |]; try destruct Hs.
    + subst i. rewrite Hok. destruct ok; cbn [is_owed existsb dx_pages]; [rewrite F, R; exists PgDone|exists PgFailed]; (split; [reflexivity|exact Logic.I]).
    + destruct (Hnl n eq_refl).
    + exists PgDone. split; [reflexivity|exact Logic.I].
    + exists PgFailed. split; [reflexivity|exact Logic.I].
Qed.
Lemma watch_all E parse device disk d e m im cx k ss vs h1 h2 n : valid_env E -> gui_election E disk d e m im cx k ss -> good_voters E im vs ->
  let before := after_all E parse device disk d h1 in let g := h1 ++ NewDecryption "dec" e :: h2 in
  pools_work (h1 ++ h2) -> no_more_uploads h2 -> reads_work h2 ->
  only_voters E parse im cx vs (dw_db before) e -> find_decryption (dw_docs before) "dec" = None ->
  (forall s, In s ss -> carried_out E parse device disk (dec_event_step E parse device disk before (NewDecryption "dec" e)) h2 (StartJoin (st_id s) "dec")) ->
  (forall i net up rnd, In (Step i net up rnd) g -> In i [0; 1; 2]%nat) -> length (dw_calls (after_all E parse device disk d g)) = 3%nat ->
  length (ups (g ++ reading 3 "dec" ++ repeat (good 3) 60)) = n -> (n <= 18)%nat -> db_uploads d = [] ->
  let w1 := map Do h1 in let w2 := map Do h2 in
  let joined := watched E parse device disk d (w1 ++ Do (NewDecryption "dec" e) :: w2) in
  let last := watched E parse device disk d (w1 ++ Do (NewDecryption "dec" e) :: w2 ++ show_w3) in
  dx_dec (watched E parse device disk d w1) = before /\
  (forall s, In s ss -> joins E parse device disk d (w1 ++ [Do (NewDecryption "dec" e)]) w2 (st_id s) "dec") /\
  will_hear joined 0 "dec" /\ orderly E parse device disk 0 "dec" joined show_w3 /\ at_rest last 0 "dec".
Proof.
  intros HE H1 H2 before g Q1 Q2 Q3 H3 H4 H6 Hsteps Hl3 Hups Hn Hd0 w1 w2. cbv zeta. set (nd := NewDecryption "dec" e) in *.
  set (S0 := mkDx (mkDecWorld (mkUpWorld d []) [] []) [] [] []). set (Wj := dx_run E parse device disk S0 (map Do g)).
  assert (Hg : w1 ++ Do nd :: w2 = map Do g) by (unfold g, w1, w2; rewrite map_app; reflexivity).
  destruct (do_rest E parse device disk g S0 [0; 1; 2]%nat Hsteps ltac:(constructor)) as (J1 & J2 & J3 & J4). fold Wj in J1, J2, J3, J4. cbn [S0 dx_pages dx_rows dx_dec] in J1, J2, J4.
  assert (Hb : dx_dec (watched E parse device disk d w1) = after_all E parse device disk d h1) by apply (do_all E parse device disk d h1).
  split; [exact Hb|]. split.
  { intros s Hs. destruct (H6 s Hs) as (ha & hb & Hh & ok & Hok). exists (map Do ha), (map Do hb), ok. split; [unfold w2; rewrite Hh, map_app; reflexivity|].
    assert (Hx : forall h, dx_dec (watched E parse device disk d ((w1 ++ [Do nd]) ++ map Do h)) = dec_run E parse device disk (dec_event_step E parse device disk (after_all E parse device disk d h1) nd) h).
    { intros h. unfold w1. change [Do nd] with (map Do [nd]). rewrite <- !map_app, do_all. unfold after_all. rewrite !run_app. reflexivity. }
    cbv zeta. unfold w2. rewrite !Hx. exact Hok. }
  assert (HJ : watched E parse device disk d (w1 ++ Do nd :: w2) = Wj) by (rewrite Hg; reflexivity). rewrite HJ.
  split; [unfold will_hear; rewrite J1; exact Logic.I|].
  assert (HL : watched E parse device disk d (w1 ++ Do nd :: w2 ++ show_w3) = dx_run E parse device disk Wj show_w3).
  { change (w1 ++ Do nd :: w2 ++ show_w3) with (w1 ++ (Do nd :: w2) ++ show_w3). rewrite app_assoc, Hg. unfold watched. apply xrun_app. }
  rewrite HL. clear HJ HL. clearbody Wj.
  assert (Hlen : length (dw_calls (dx_dec Wj)) = 3%nat) by (rewrite J4; exact Hl3).
  set (D := dec_run E parse device disk (dec_run E parse device disk (dx_dec Wj) (reading 3 "dec")) (repeat (good 3) 60)).
  assert (Hfin : exists ok, nth_error (dw_calls D) 3 = Some (Finished ok)).
  { unfold D. rewrite <- run_app. assert (T := gui_terminates E parse device disk d g (StartView true "dec") (Step 3 true (fun _ => true) (fun _ => 0%Z) :: repeat (good 3) 60) (ge_start _ _ _ _ _ _ _ _ _ H1)).
    cbv zeta in T. unfold after_all in T. rewrite <- J4, Hlen in T. rewrite run_app, <- J4 in T. apply T; [right; eauto|].
    assert (Hu : (length (db_uploads (dw_db (dec_run E parse device disk (dx_dec Wj) (StartView true "dec" :: Step 3 true (fun _ => true) (fun _ => 0%Z) :: repeat (good 3) 60)))) <= 18)%nat).
    { rewrite J4, <- run_app. unfold dw_db. rewrite ups_run. cbn [dw_up].
      pose proof (uploads_run parse device (ups (g ++ StartView true "dec" :: Step 3 true (fun _ => true) (fun _ => 0%Z) :: repeat (good 3) 60)) (mkUpWorld d [])) as Hl. cbn [uw_db] in Hl.
      rewrite Hd0 in Hl. cbn [length] in Hl. change (StartView true "dec" :: Step 3 true (fun _ => true) (fun _ => 0%Z) :: repeat (good 3) 60) with (reading 3 "dec" ++ repeat (good 3) 60) in *. lia. }
    assert (Hst : steps_of 3 (Step 3 true (fun _ => true) (fun _ => 0%Z) :: repeat (good 3) 60) = 61%nat) by (vm_compute; reflexivity). lia. }
  destruct Hfin as [ok Hok].
  (* the result is there *)
  assert (HR : exists x, find_decryption (dw_docs D) "dec" = Some x /\ has_result x = true).
  { set (g3 := reading 3 "dec" ++ repeat (good 3) 60).
    assert (Hg3 : forall ev, In ev g3 -> ev = StartView true "dec" \/ exists rnd, ev = Step 3 true (fun _ => true) rnd).
    { intros ev Hi. apply in_app_or in Hi as [[<-|[<-|[]]]|Hi]; [auto|right; eauto|]. apply repeat_spec in Hi as ->. right. unfold good. eauto. }
    assert (Hdb : D = after_all E parse device disk d (h1 ++ nd :: h2 ++ g3)).
    { unfold D. rewrite J4, <- !run_app. unfold after_all, g3, g. rewrite <- !app_assoc. reflexivity. }
    destruct (gui_completes E parse device disk d e m im cx k ss vs h1 "dec" h2 g3 HE H1 H2) as (x & r & _ & R1 & R2 & _); try assumption.
    - intros i net up rnd Hi path. rewrite app_assoc in Hi. apply in_app_or in Hi as [Hi|Hi]; [exact (Q1 i net up rnd Hi path)|].
      destruct (Hg3 _ Hi) as [He|[r He]]; [discriminate|]. injection He as -> -> -> _. reflexivity.
    - intros ev Hi. apply in_app_or in Hi as [Hi|Hi]; [exact (Q2 ev Hi)|]. destruct (Hg3 _ Hi) as [He|[r He]]; discriminate.
    - intros i net up rnd Hi. apply in_app_or in Hi as [Hi|Hi]; [exact (Q3 i net up rnd Hi)|]. destruct (Hg3 _ Hi) as [He|[r He]]; [discriminate|]. injection He as -> -> -> _. reflexivity.
    - exists [], (Step 3 true (fun _ => true) (fun _ => 0%Z) :: repeat (good 3) 60). split; [reflexivity|]. exists ok.
      set (AJ := after_all E parse device disk d (h1 ++ NewDecryption "dec" e :: h2)). assert (HAJ : AJ = dx_dec Wj) by (symmetry; exact J4). clearbody AJ. subst AJ.
      change (dec_run E parse device disk (dx_dec Wj) []) with (dx_dec Wj). rewrite Hlen. unfold g3. rewrite run_app. exact Hok.
    - exists x. rewrite Hdb. split; [exact R1|]. unfold has_result. rewrite R2. reflexivity. }
  apply last_page; [exact J1|exact J3|exact Hlen|exists ok; exact Hok|exact HR].
Qed.

Lemma show_calls parse device disk : length (dw_calls (after_all medium parse device disk show_db (show_h1 ++ NewDecryption "dec" "primary" :: show_h2))) = 3%nat.
Proof.
  unfold after_all. rewrite calls_length. cbn [dw_calls length]. rewrite filter_app, app_length. reflexivity.
Qed.
Lemma show_watched : exists parse disk, let device := fun _ : string => true in let im := demo_im medium in
  gui_election medium disk show_db "primary" demo_manifest im show_cx 2 dec_seats /\ good_voters medium im voters /\
  let before := watched medium parse device disk show_db show_w1 in
  let joined := watched medium parse device disk show_db (show_w1 ++ Do (NewDecryption "dec" "primary") :: show_w2) in
  let last := watched medium parse device disk show_db (show_w1 ++ Do (NewDecryption "dec" "primary") :: show_w2 ++ show_w3) in
  only_voters medium parse im show_cx voters (dw_db (dx_dec before)) "primary" /\ find_decryption (dw_docs (dx_dec before)) "dec" = None /\
  (forall v, In v voters -> exists b, In b (stored (dw_db (dx_dec before)) "primary") /\ closed (so_contents b) = true /\ file_of medium parse im show_cx v b) /\
  (forall s, In s dec_seats -> joins medium parse device disk show_db (show_w1 ++ [Do (NewDecryption "dec" "primary")]) show_w2 (st_id s) "dec") /\
  will_hear joined 0 "dec" /\ orderly medium parse device disk 0 "dec" joined show_w3 /\ at_rest last 0 "dec".
Proof.
  destruct show_ready as (parse & disk & H1 & H2 & H3 & H4 & H5 & H6 & _). exists parse, disk. cbv zeta in *. destruct show_quiet as (Q1 & Q2 & Q3).
  destruct (watch_all medium parse (fun _ => true) disk show_db "primary" demo_manifest (demo_im medium) show_cx 2 dec_seats voters show_h1 show_h2 18 medium_valid H1 H2) as (W1 & W2 & W3 & W4 & W5).
  - intros i net up rnd Hi. apply (Q1 i net up rnd). rewrite app_assoc. apply in_or_app. left. exact Hi.
  - intros ev Hi. apply (Q2 ev). apply in_or_app. left. exact Hi.
  - intros i net up rnd Hi. apply (Q3 i net up rnd). apply in_or_app. left. exact Hi.
  - exact H3.
  - exact H4.
  - exact H6.
  - intros i net up rnd Hi. apply in_app_or in Hi as [Hi|[Hi|Hi]]; [|discriminate|].
    + unfold show_h1 in Hi. apply in_map_iff in Hi as (x & Hx & _). discriminate.
    + unfold show_h2 in Hi. apply in_app_or in Hi as [Hi|Hi]; [destruct Hi as [Hi|[Hi|[Hi|[]]]]; discriminate|]. apply in_concat in Hi as (l & Hl & Hi). apply repeat_spec in Hl. subst l.
      destruct Hi as [Hi|[Hi|[Hi|[]]]]; injection Hi as <- _ _ _; cbn; auto.
  - apply show_calls.
  - vm_compute. reflexivity.
  - apply le_n.
  - reflexivity.
  - unfold show_w1, show_w2. rewrite W1. repeat (split; [assumption|]). exact W5.
Qed.

Definition works_b (e : dx_event) : Prop := match e with Do (Step _ net up _) => net = true /\ (forall path, up path = true) | Do (Uploads _) => False | _ => True end.
Lemma works_pools l : (forall e, In e l -> works_b e) -> all_pools_work l /\ nothing_uploaded l /\ all_reads_work l.
Proof.
  intros H. split; [|split].
  - intros i net up rnd Hi. apply (H _ Hi).
  - intros ev Hi. exact (H _ Hi).
  - intros i net up rnd Hi. apply (H _ Hi).
Qed.
Lemma show_w3_works e : In e show_w3 -> works_b e.
Proof.
  intros H. unfold show_w3, steps in H. apply in_app_or in H as [H|H]; [repeat (destruct H as [<-|H]; [exact Logic.I|]); destruct H|].
  apply in_app_or in H as [H|H]; [|repeat (destruct H as [<-|H]; [exact Logic.I|]); destruct H].
  apply in_map_iff in H as (x & <- & Hx). apply repeat_spec in Hx as ->. split; [reflexivity|reflexivity].
Qed.
Lemma show_works : all_pools_work (show_w1 ++ show_w2 ++ show_w3) /\ nothing_uploaded (show_w2 ++ show_w3) /\ all_reads_work (show_w2 ++ show_w3).
Proof.
  destruct show_quiet as (Q1 & Q2 & Q3). destruct (works_pools _ show_w3_works) as (W1 & W2 & W3).
  assert (M : forall ev h, In (Do ev) (map Do h) -> In ev h) by (intros ev h H; apply in_map_iff in H as (x & Hx & H); injection Hx as ->; exact H).
  split; [|split].
  - intros i net up rnd Hi. rewrite app_assoc in Hi. apply in_app_or in Hi as [Hi|Hi]; [|apply (W1 _ _ _ _ Hi)]. apply (Q1 i net up rnd). rewrite app_assoc. apply in_or_app. left.
    apply M. rewrite map_app. exact Hi.
  - intros ev Hi. apply in_app_or in Hi as [Hi|Hi]; [|apply (W2 _ Hi)]. apply (Q2 ev). apply in_or_app. left. apply M, Hi.
  - intros i net up rnd Hi. apply in_app_or in Hi as [Hi|Hi]; [|apply (W3 _ _ _ _ Hi)]. apply (Q3 i net up rnd). apply in_or_app. left. apply M, Hi.
Qed.

(** ** one guardian *)
Ltac all_events := let H := fresh in intros ? ? ? ? H; cbn in H; repeat (destruct H as [H|H]; [first [discriminate H|injection H as <- <- <- <-; try (intros ?); reflexivity]|]); destruct H.
Lemma yn_hears : gui_election tiny yn_disk yn_db "primary" yn_manifest yn_im yn_cx 1 [yn_seat] /\
  let joined := yn_watched yn_heard in let last := yn_watched (yn_heard ++ yn_heard_rest) in
  dx_pages joined = [mkPage "dec" (PgWatching 0)] /\ will_hear joined 0 "dec" /\ orderly tiny yn_parse (fun _ => true) yn_disk 0 "dec" joined yn_heard_rest /\ at_rest last 0 "dec" /\
  published joined = [false] /\ published last = [true].
Proof.
  split; [exact yn_election|]. cbv zeta. assert (P : dx_pages (yn_watched yn_heard) = [mkPage "dec" (PgWatching 0)]) by (vm_compute; reflexivity).
  assert (O : dx_owes (yn_watched yn_heard) = [(1%nat, "dec")]) by (vm_compute; reflexivity).
  assert (P' : dx_pages (yn_watched (yn_heard ++ yn_heard_rest)) = [mkPage "dec" (PgWatching 3)]) by (vm_compute; reflexivity).
  assert (O' : dx_owes (yn_watched (yn_heard ++ yn_heard_rest)) = []) by (vm_compute; reflexivity).
  assert (R' : dx_rows (yn_watched (yn_heard ++ yn_heard_rest)) = ["other"; "dec"; "dec"]) by (vm_compute; reflexivity).
  split; [exact P|]. split.
  { unfold will_hear. rewrite P. left. exists 1%nat. rewrite O. left. reflexivity. }
  split; [apply orderly_easy; reflexivity|]. split.
  { exists (PgWatching 3). rewrite P'. split; [reflexivity|]. unfold unread, to_be_told. rewrite R', O'. split; [intros []|intros [? []]]. }
  split; vm_compute; reflexivity.
Qed.
Lemma yn_moves : Forall by_itself yn_heard_rest /\ published (yn_watched yn_heard) <> published (yn_watched (yn_heard ++ yn_heard_rest)).
Proof.
  split; [repeat constructor|]. destruct yn_hears as (_ & _ & _ & _ & _ & H1 & H2). rewrite H1, H2. discriminate.
Qed.
Lemma yn_result : exists d, In d (dw_docs (dx_dec (yn_watched (yn_heard ++ yn_heard_rest)))) /\ dy_result d <> None.
Proof.
  destruct yn_hears as (_ & _ & _ & _ & _ & _ & H2). cbv zeta in H2. unfold published in H2. destruct (dw_docs _) as [|d l] eqn:D; [discriminate H2|]. exists d. split; [left; reflexivity|].
  cbn [map] in H2. injection H2 as H2 _. unfold has_result in H2. destruct (dy_result d); [discriminate|discriminate H2].
Qed.
Lemma yn_between_waits : gui_election tiny yn_disk yn_db "primary" yn_manifest yn_im yn_cx 1 [yn_seat] /\ all_pools_work yn_between /\ all_reads_work yn_between /\
  dx_pages (yn_watched yn_between) = [mkPage "dec" (PgWatching 1)] /\
  exists d, find_decryption (dw_docs (dx_dec (yn_watched yn_between))) "dec" = Some d /\ dy_guardians d = len (dy_joined d) /\ get_status d = "performing decryption"%string /\
    forall l, Forall by_itself l -> find_decryption (dw_docs (dx_dec (dx_run tiny yn_parse (fun _ => true) yn_disk (yn_watched yn_between) l))) "dec" = Some d /\ dy_result d = None.
Proof.
  split; [exact yn_election|]. split; [all_events|]. split; [all_events|]. split; [vm_compute; reflexivity|]. apply waits_for_ever. vm_compute. reflexivity.
Qed.
Lemma yn_stopped_waits : gui_election tiny yn_disk yn_db "primary" yn_manifest yn_im yn_cx 1 [yn_seat] /\ all_pools_work yn_stopped /\ all_reads_work yn_stopped /\
  dx_pages (yn_watched yn_stopped) = [mkPage "dec" (PgWatching 0)] /\
  exists d, find_decryption (dw_docs (dx_dec (yn_watched yn_stopped))) "dec" = Some d /\ dy_guardians d = len (dy_joined d) /\ get_status d = "performing decryption"%string /\
    forall l, Forall by_itself l -> find_decryption (dw_docs (dx_dec (dx_run tiny yn_parse (fun _ => true) yn_disk (yn_watched yn_stopped) l))) "dec" = Some d /\ dy_result d = None.
Proof.
  split; [exact yn_election|]. split; [all_events|]. split; [all_events|]. split; [vm_compute; reflexivity|]. apply waits_for_ever. vm_compute. reflexivity.
Qed.
Lemma yn_misread_waits : gui_election tiny yn_disk yn_db "primary" yn_manifest yn_im yn_cx 1 [yn_seat] /\ all_pools_work yn_misread /\
  dx_pages (yn_watched yn_misread) = [mkPage "dec" (PgWatching 1)] /\
  exists d, find_decryption (dw_docs (dx_dec (yn_watched yn_misread))) "dec" = Some d /\ dy_guardians d = len (dy_joined d) /\ get_status d = "performing decryption"%string /\
    forall l, Forall by_itself l -> find_decryption (dw_docs (dx_dec (dx_run tiny yn_parse (fun _ => true) yn_disk (yn_watched yn_misread) l))) "dec" = Some d /\ dy_result d = None.
Proof.
  split; [exact yn_election|]. split; [all_events|]. split; [vm_compute; reflexivity|]. apply waits_for_ever. vm_compute. reflexivity.
Qed.
Lemma yn_unwatched_waits : gui_election tiny yn_disk yn_db "primary" yn_manifest yn_im yn_cx 1 [yn_seat] /\ all_pools_work yn_unwatched /\
  dx_pages (yn_watched yn_unwatched) = [mkPage "dec" PgFailed] /\
  exists d, find_decryption (dw_docs (dx_dec (yn_watched yn_unwatched))) "dec" = Some d /\ dy_guardians d = len (dy_joined d) /\ get_status d = "performing decryption"%string /\
    forall l, Forall by_itself l -> find_decryption (dw_docs (dx_dec (dx_run tiny yn_parse (fun _ => true) yn_disk (yn_watched yn_unwatched) l))) "dec" = Some d /\ dy_result d = None.
Proof.
  split; [exact yn_election|]. split; [all_events|]. split; [vm_compute; reflexivity|]. apply waits_for_ever. vm_compute. reflexivity.
Qed.
