(** * GuiDecWatchThms: what the administrator's page publishes, and when it does not. *)
From Coq Require Import List.
From Verif Require Import Base Group Hash ElGamal ZK Spec Tiny ListFacts Manifest Ballot Encrypt SpecElection Box Tally SpecTally Ceremony SpecCeremony Shares SpecShares SpecEndToEnd
  GuiUpload SpecUpload GuiDecrypt SpecGuiDecrypt GuiDecRun GuiDecThms GuiDecSamples GuiDecWatch SpecGuiDecWatch GuiDecWatchFacts.

Definition dx_start (w : gdb) : dx_world := mkDx (mkDecWorld (mkUpWorld w []) [] []) [] [] [].
Lemma page_publishes E parse device disk w0 e m im cx k ss vs h1 id h2 h3 p : valid_env E -> gui_election E disk w0 e m im cx k ss -> good_voters E im vs ->
  let before := watched E parse device disk w0 h1 in
  let joined := watched E parse device disk w0 (h1 ++ Do (NewDecryption id e) :: h2) in
  let last := watched E parse device disk w0 (h1 ++ Do (NewDecryption id e) :: h2 ++ h3) in
  all_pools_work (h1 ++ h2 ++ h3) -> nothing_uploaded (h2 ++ h3) -> all_reads_work (h2 ++ h3) ->
  only_voters E parse im cx vs (dw_db (dx_dec before)) e -> find_decryption (dw_docs (dx_dec before)) id = None ->
  (forall s, In s ss -> joins E parse device disk w0 (h1 ++ [Do (NewDecryption id e)]) h2 (st_id s) id) ->
  will_hear joined p id -> orderly E parse device disk p id joined h3 -> at_rest last p id ->
  exists d r counted, find_decryption (dw_docs (dx_dec last)) id = Some d /\ dy_result d = Some r /\ NoDup counted /\
    (forall v, In v counted <-> In v vs /\ exists b, In b (stored (dw_db (dx_dec before)) e) /\ closed (so_contents b) = true /\ file_of E parse im cx v b) /\
    right_counts m im counted r /\ right_spoiled im counted r /\ forall v, In v counted -> vr_state v = SPOILED -> In (vr_id v) (dkeys (rs_spoiled r)).
Proof.
  intros HE HG HV before joined last Hp Hu Hrd Hov Hno Hj Hwh Hor Har.
  set (S0 := dx_start w0). set (pls := plains E parse device disk). set (nd := Do (NewDecryption id e)) in *.
  assert (Hd : forall h, dx_dec (watched E parse device disk w0 h) = after_all E parse device disk w0 (pls S0 h)) by (intros h; apply dec_of_run).
  set (g1 := pls S0 h1). set (g2 := pls (dx_run E parse device disk S0 (h1 ++ [nd])) h2).
  set (g3 := pls joined h3).
  assert (P2 : pls S0 (h1 ++ nd :: h2) = g1 ++ NewDecryption id e :: g2).
  { change (nd :: h2) with ([nd] ++ h2). rewrite app_assoc. unfold pls. rewrite plains_app. fold pls. fold g2.
    unfold pls. rewrite plains_app. fold pls. fold g1. cbn [plains plain nd]. rewrite <- app_assoc. reflexivity. }
  assert (P3 : pls S0 (h1 ++ nd :: h2 ++ h3) = g1 ++ NewDecryption id e :: g2 ++ g3).
  { change (h1 ++ nd :: h2 ++ h3) with (h1 ++ (nd :: h2) ++ h3). rewrite app_assoc. unfold pls. rewrite plains_app. fold pls. rewrite P2, <- app_assoc. reflexivity. }
  assert (Hb : dx_dec before = after_all E parse device disk w0 g1) by apply Hd.
  assert (Hjd : dx_dec joined = after_all E parse device disk w0 (g1 ++ NewDecryption id e :: g2)) by (unfold joined; rewrite Hd, P2; reflexivity).
  assert (Hl : dx_dec last = after_all E parse device disk w0 (g1 ++ NewDecryption id e :: g2 ++ g3)) by (unfold last; rewrite Hd, P3; reflexivity).
  assert (Hlast : last = dx_run E parse device disk joined h3) by (unfold last, joined, watched; rewrite <- xrun_app, <- app_assoc; reflexivity).
  assert (Hcu : cursors joined) by (apply cursors_run; constructor).
  destruct (gui_completes E parse device disk w0 e m im cx k ss vs g1 id g2 g3) as (d & r & counted & C1 & C2 & C3 & C4 & C5 & C6 & C7); try assumption.
  - intros i net up rnd Hi path. apply in_app_or in Hi as [Hi|Hi]; [|apply in_app_or in Hi as [Hi|Hi]];
      (destruct (plains_step _ _ _ _ _ _ _ _ _ _ Hi) as [Hi'|[_ Hi']]; [eapply Hp; rewrite !in_app_iff; eauto|apply Hi']).
  - intros ev Hi. apply in_app_or in Hi as [Hi|Hi]; apply plains_uploads in Hi; apply (Hu ev), in_or_app; auto.
  - intros i net up rnd Hi. apply in_app_or in Hi as [Hi|Hi];
      (destruct (plains_step _ _ _ _ _ _ _ _ _ _ Hi) as [Hi'|[Hi' _]]; [eapply Hrd; rewrite !in_app_iff; eauto|apply Hi']).
  - rewrite <- Hb. exact Hov.
  - rewrite <- Hb. exact Hno.
  - intros s Hs. destruct (Hj s Hs) as (ha & hb & ok & Hh & Hok). cbv zeta in Hok. set (W1 := dx_run E parse device disk S0 (h1 ++ [nd])) in *.
    set (V := dec_event_step E parse device disk (after_all E parse device disk w0 g1) (NewDecryption id e)).
    assert (HW : dx_dec W1 = V). { unfold W1. rewrite dec_of_run. fold pls. unfold pls. rewrite plains_app. fold pls. fold g1. cbn [plains plain nd]. rewrite run_app. reflexivity. }
    assert (Hx : forall h, dx_dec (watched E parse device disk w0 ((h1 ++ [nd]) ++ h)) = dec_run E parse device disk V (pls W1 h)).
    { intros h. unfold watched. rewrite xrun_app. rewrite dec_of_run, <- HW. reflexivity. }
    exists (pls W1 ha), (pls (dx_step E parse device disk (dx_run E parse device disk W1 ha) (Do (StartJoin (st_id s) id))) hb). split.
    + unfold g2. rewrite Hh. unfold pls. rewrite plains_app. cbn [plains plain]. reflexivity.
    + exists ok. rewrite !Hx in Hok. exact Hok.
  - assert (Hh : hears E parse device disk p id joined last ([] ++ g3)).
    { rewrite Hlast. apply hears_run; [exact Hcu|reflexivity|exact Hor|]. right. left. exact Hwh. }
    cbn [app] in Hh. destruct Har as (s & Hs & Hr).
    destruct Hh as [(la & lb & Hg & H)|[H|H]].
    + exists la, lb. split; [exact Hg|]. cbv zeta in H. destruct H as [[ok Hok]|(s' & Hs' & H)].
      * exists ok. rewrite <- Hjd. replace (dec_run E parse device disk (dx_dec joined) g3) with (dx_dec last); [exact Hok|]. rewrite Hlast. apply dec_of_run.
      * rewrite Hs in Hs'. injection Hs' as <-. destruct s; try destruct Hr; destruct H.
    + unfold will_hear in H. rewrite Hs in H. cbn [pg_state] in H. destruct s; try destruct Hr; try destruct H; tauto.
    + rewrite Hs in H. cbn [pg_doc pg_state] in H. destruct H as [H|[H|(n & H & _)]]; [congruence|subst; destruct Hr|subst; destruct Hr].
  - exists d, r, counted. rewrite Hl, Hb. auto 8.
Qed.

(** ** nothing is published before as many guardians joined as the election has *)
Definition enough (d : decryption) : Prop := dy_guardians d <= len (dy_joined d).
Definition about (c : dec_call) : option string :=
  match c with ViewElection d | ViewList d _ _ _ | ViewRead d _ _ _ _ _ _ => Some (dy_id d) | ViewSet id _ => Some id | _ => None end.
Record counted_in (ds : list decryption) (calls : list dec_call) : Prop := {
  ci_ids : NoDup (map dy_id ds);
  ci_docs : forall d, In d ds -> dy_result d <> None -> enough d;
  ci_calls : forall c id, In c calls -> about c = Some id -> exists d, In d ds /\ dy_id d = id /\ enough d }.
Lemma update_ids ds id f : (forall d, dy_id (f d) = dy_id d) -> map dy_id (update_decryption ds id f) = map dy_id ds.
Proof.
  intros Hf. unfold update_decryption. induction ds as [|d ds IH]; [reflexivity|]. cbn [update_first]. destruct (String.eqb (dy_id d) id); cbn [map]; [rewrite Hf; reflexivity|].
  rewrite IH. reflexivity.
Qed.
Lemma update_in ds id f d' : In d' (update_decryption ds id f) -> In d' ds \/ exists d, In d ds /\ dy_id d = id /\ d' = f d.
Proof.
  unfold update_decryption. induction ds as [|d ds IH]; [intros []|]. cbn [update_first]. destruct (String.eqb_spec (dy_id d) id) as [He|He].
  - intros [<-|H]; [right; exists d; cbn; auto|left; right; exact H].
  - intros [<-|H]; [left; left; reflexivity|]. destruct (IH H) as [H'|(x & H1 & H2)]; [left; right; exact H'|right; exists x; cbn; auto].
Qed.
Lemma update_has ds id f d : In d ds -> In d (update_decryption ds id f) \/ In (f d) (update_decryption ds id f).
Proof.
  unfold update_decryption. induction ds as [|x ds IH]; [intros []|]. cbn [update_first]. destruct (String.eqb (dy_id x) id).
  - intros [<-|H]; [right; left; reflexivity|left; right; exact H].
  - intros [<-|H]; [left; left; reflexivity|]. destruct (IH H); [left|right]; right; assumption.
Qed.
Lemma find_dec ds id d : find_decryption ds id = Some d -> In d ds /\ dy_id d = id.
Proof.
  unfold find_decryption. induction ds as [|x ds IH]; [discriminate|]. cbn [find_first]. destruct (String.eqb_spec (dy_id x) id) as [He|_].
  - intros H. injection H as <-. cbn. auto.
  - intros H. destruct (IH H). cbn. auto.
Qed.
Lemma same_id ds : NoDup (map dy_id ds) -> forall a b, In a ds -> In b ds -> dy_id a = dy_id b -> a = b.
Proof.
  induction ds as [|x ds IH]; intros Hn a b Ha Hb He; [destruct Ha|]. cbn [map] in Hn. inversion Hn as [|? ? N1 N2]; subst. destruct Ha as [Ha|Ha], Hb as [Hb|Hb].
  - congruence.
  - exfalso. apply N1. rewrite Ha, He. apply in_map, Hb.
  - exfalso. apply N1. rewrite Hb, <- He. apply in_map, Ha.
  - apply IH; assumption.
Qed.
Lemma update_counted ds calls id f : (forall d, dy_id (f d) = dy_id d) -> (forall d, enough d -> enough (f d)) ->
  (forall d, In d ds -> dy_id d = id -> dy_result (f d) <> None -> enough (f d)) ->
  counted_in ds calls -> counted_in (update_decryption ds id f) calls.
Proof.
  intros H1 H2 H3 [C1 C2 C3]. constructor.
  - rewrite update_ids by exact H1. exact C1.
  - intros d' Hd Hr. destruct (update_in _ _ _ _ Hd) as [H|(d & D1 & D2 & ->)]; [apply C2; assumption|]. apply H3; assumption.
  - intros c i Hc Ha. destruct (C3 c i Hc Ha) as (d & D1 & D2 & D3). destruct (update_has ds id f d D1) as [H|H]; [exists d; auto|]. exists (f d). rewrite H1. auto.
Qed.
Lemma counted_call ds calls c i : counted_in ds calls -> (forall id, about c = Some id -> exists d, In d ds /\ dy_id d = id /\ enough d) -> counted_in ds (set_nth i c calls).
Proof.
  intros [C1 C2 C3] H. constructor; [exact C1|exact C2|]. intros c' id Hc Ha. assert (H' : c' = c \/ In c' calls).
  { revert i Hc. clear. induction calls as [|x l IH]; intros [|i] Hc; cbn in Hc; try contradiction; [destruct Hc as [<-|Hc]; cbn; auto|]. destruct Hc as [<-|Hc]; [cbn; auto|]. destruct (IH i Hc); cbn; auto. }
  destruct H' as [->|H']; eauto.
Qed.
Lemma counted_step E parse device disk W ev : counted_in (dw_docs W) (dw_calls W) ->
  counted_in (dw_docs (dec_event_step E parse device disk W ev)) (dw_calls (dec_event_step E parse device disk W ev)).
Proof.
  destruct W as [u ds calls]. cbn [dw_docs dw_calls]. intros C. assert (C' := C). destruct C' as [C1 C2 C3]. destruct ev as [v|id e|user id|a id|i net up rnd]; cbn [dec_event_step dw_docs dw_calls].
  - exact C.
  - unfold create_decryption. destruct (find_election _ e) as [x|]; [|exact C]. destruct (existsb _ ds) eqn:Hx; [exact C|]. constructor.
    + rewrite map_app. cbn [map dy_id]. assert (Hn : ~ In id (map dy_id ds)).
      { intros H. apply in_map_iff in H as (d & D1 & D2). assert (existsb (fun d => String.eqb (dy_id d) id) ds = true); [|congruence]. apply existsb_exists. exists d. rewrite D1, String.eqb_refl. auto. }
      clear -C1 Hn. induction ds as [|d ds IH]; cbn in *; [constructor; [tauto|constructor]|]. inversion C1; subst. constructor; [rewrite in_app_iff; cbn; intros [Hi|[Hi|[]]]; [tauto|apply Hn; left; congruence]|apply IH; tauto].
    + intros d Hd Hr. apply in_app_or in Hd as [Hd|[<-|[]]]; [auto|]. destruct (Hr eq_refl).
    + intros c j Hc Ha. destruct (C3 c j Hc Ha) as (d & D1 & D2). exists d. rewrite in_app_iff. tauto.
  - constructor; [exact C1|exact C2|]. intros c j Hc Ha. apply in_app_or in Hc as [Hc|[<-|[]]]; [eauto|discriminate].
  - constructor; [exact C1|exact C2|]. intros c j Hc Ha. apply in_app_or in Hc as [Hc|[<-|[]]]; [eauto|discriminate].
  - destruct (nth_error calls i) as [c|] eqn:Hc; [|exact C]. apply nth_error_In in Hc.
    assert (HE : forall j, about c = Some j -> exists d, In d ds /\ dy_id d = j /\ enough d) by (intros j; apply C3, Hc).
    assert (HD : forall c', about c' = None -> counted_in ds (set_nth i c' calls)) by (intros c' Hn; apply counted_call; [exact C|intros j Hj; congruence]).
    assert (HK : forall c', about c' = about c -> counted_in ds (set_nth i c' calls)) by (intros c' Hn; apply counted_call; [exact C|rewrite Hn; exact HE]).
    destruct c as [user id|user d|user d x cx g|user d x cx g ids k got|id en|id user|a id|d|d x cx med|d x cx med ids k got|id r|ok]; cbn [dec_step].
    + destruct (find_decryption ds id); apply HD; reflexivity.
    + destruct (find_election _ _) as [x|]; [|apply HD; reflexivity]. destruct (el_context x); [|apply HD; reflexivity]. destruct (load_guardian disk user d); apply HD; reflexivity.
    + apply HD. reflexivity.
    + destruct ids as [|j ids]; [destruct (join_entry _ _ _ _ _ _ _ _); apply HD; reflexivity|]. destruct (read_next _ _ _ _ _) as [[? ?] ?]. apply HD. reflexivity.
    + cbn [dw_docs dw_calls]. apply update_counted; [reflexivity|intros d H; exact H|intros d Hd _ Hr; exact (C2 d Hd Hr)|]. apply HD. reflexivity.
    + assert (Hm : forall d, enough d -> enough (push_joined user d)) by (intros d; unfold enough, push_joined, len; cbn [dy_guardians dy_joined]; rewrite app_length; lia).
      cbn [dw_docs dw_calls]. apply update_counted; [reflexivity|exact Hm|intros d Hd _ Hr; apply Hm; exact (C2 d Hd Hr)|]. apply HD. reflexivity.
    + destruct (find_decryption ds id) as [d|] eqn:Hf; [|apply HD; reflexivity]. destruct (should_run a d) eqn:Hs; [|apply HD; reflexivity].
      apply counted_call; [exact C|]. intros j Hj. injection Hj as <-. apply find_dec in Hf as [Hf _]. exists d. split; [exact Hf|]. split; [reflexivity|].
      unfold should_run in Hs. apply andb_prop in Hs as [Hs _]. apply andb_prop in Hs as [_ Hs]. unfold enough. lia.
    + destruct (find_election _ _) as [x|]; [|apply HD; reflexivity]. destruct (el_context x); [|apply HD; reflexivity].
      match goal with |- context [match ?t with Ok _ => _ | Err _ => _ end] => destruct t end; [apply HK|apply HD]; reflexivity.
    + apply HK. reflexivity.
    + destruct ids as [|j ids]; [destruct (make_result _ _ _ _ _ _); [apply HK|apply HD]; reflexivity|]. destruct (read_next _ _ _ _ _) as [[? ?] ?]. apply HK. reflexivity.
    + destruct (HE id eq_refl) as (d0 & D1 & D2 & D3). cbn [dw_docs dw_calls]. apply update_counted; [reflexivity|intros d H; exact H| |apply HD; reflexivity].
      intros d Hd Hid _. assert (d = d0) as ->; [|exact D3]. apply (same_id ds); [exact C1|exact Hd|exact D1|congruence].
    + apply HK. reflexivity.
Qed.
Lemma counted_run E parse device disk h : forall W, counted_in (dw_docs W) (dw_calls W) ->
  counted_in (dw_docs (dec_run E parse device disk W h)) (dw_calls (dec_run E parse device disk W h)).
Proof. induction h as [|ev h IH]; intros W H; [exact H|]. apply (IH (dec_event_step E parse device disk W ev)), counted_step, H. Qed.
Lemma all_needed E parse device disk w0 h d : In d (dw_docs (dx_dec (watched E parse device disk w0 h))) ->
  (dy_result d <> None -> dy_guardians d <= len (dy_joined d)) /\ (get_status d = "decryption complete"%string <-> dy_result d <> None).
Proof.
  intros Hd. unfold watched in Hd. rewrite dec_of_run in Hd. cbn [dx_dec] in Hd.
  assert (C := counted_run E parse device disk (plains E parse device disk (dx_start w0) h) (mkDecWorld (mkUpWorld w0 []) [] [])). cbn [dw_docs dw_calls] in C.
  assert (H : dy_result d <> None -> dy_guardians d <= len (dy_joined d)).
  { apply (ci_docs _ _ (C ltac:(constructor; [constructor|intros ? []|intros ? ? []])) d Hd). }
  split; [exact H|]. unfold get_status. destruct (Z.ltb_spec (len (dy_joined d)) (dy_guardians d)) as [Hl|Hl].
  - split; [intros Hs; discriminate Hs|]. intros Hr. specialize (H Hr). lia.
  - destruct (dy_result d); split; try discriminate; try congruence; auto.
Qed.

(** ** worlds in which nothing happens any more *)
Definition over (w : dx_world) : Prop := Forall (fun c => exists ok, c = Finished ok) (dw_calls (dx_dec w)) /\ dx_owes w = [] /\
  Forall (fun pg => match pg_state pg with PgWatching k => (length (dx_rows w) <= k)%nat | PgDone | PgFailed | PgClosed => True | _ => False end) (dx_pages w).
Lemma over_step E parse device disk w e : over w -> by_itself e -> over (dx_step E parse device disk w e) /\ dw_docs (dx_dec (dx_step E parse device disk w e)) = dw_docs (dx_dec w).
Proof.
  destruct w as [d rows owes pages]. intros Ho He. assert (Ho' := Ho). destruct Ho' as (O1 & O2 & O3). cbn [dx_dec dx_owes dx_pages dx_rows] in *. subst owes.
  assert (Hpg : forall q pg, nth_error pages q = Some pg -> match pg_state pg with PgWatching k => (length rows <= k)%nat | PgDone | PgFailed | PgClosed => True | _ => False end).
  { intros q pg H. rewrite Forall_forall in O3. exact (O3 _ (nth_error_In _ _ H)). }
  destruct e as [ev|i|i|s|id|p|p|p|p|p]; try destruct He; cbn [dx_step].
  - destruct ev as [| | | |i net up rnd]; try destruct He. cbn [plain]. unfold dec_run. cbn [fold_left dec_event_step owes_after].
    destruct (nth_error (dw_calls d) i) as [c|] eqn:Hc; [|split; [exact Ho|reflexivity]]. rewrite Forall_forall in O1. destruct (O1 c (nth_error_In _ _ Hc)) as [ok ->]. cbn [dec_step last_change].
    split; [|reflexivity]. split; [|split; [reflexivity|exact O3]]. cbn [dx_dec dw_calls]. apply Forall_forall. intros x Hx. apply In_nth_error in Hx as [n Hn].
    destruct (Nat.eqb_spec n i) as [->|Hne]; [rewrite (set_nth_same _ _ _ _ Hc) in Hn; injection Hn as <-; exists ok; reflexivity|].
    rewrite set_nth_other in Hn by congruence. apply O1, (nth_error_In _ _ Hn).
  - cbn [filter map]. rewrite app_nil_r. split; [exact Ho|reflexivity].
  - destruct (nth_error pages p) as [[id []]|] eqn:Hp; try (split; [exact Ho|reflexivity]). destruct (Hpg _ _ Hp).
  - destruct (nth_error pages p) as [[id []]|] eqn:Hp; try (split; [exact Ho|reflexivity]); destruct (Hpg _ _ Hp).
  - destruct (nth_error pages p) as [[id []]|] eqn:Hp; try (split; [exact Ho|reflexivity]). destruct (Hpg _ _ Hp).
  - destruct (nth_error pages p) as [[id []]|] eqn:Hp; try (split; [exact Ho|reflexivity]). assert (Hk := Hpg _ _ Hp). cbn [pg_state] in Hk.
    replace (nth_error rows k) with (@None string) by (symmetry; apply nth_error_None, Hk). split; [exact Ho|reflexivity].
Qed.
Lemma over_run E parse device disk l : forall w, over w -> Forall by_itself l -> dw_docs (dx_dec (dx_run E parse device disk w l)) = dw_docs (dx_dec w).
Proof.
  induction l as [|e l IH]; intros w Ho Hl; [reflexivity|]. inversion Hl; subst. destruct (over_step E parse device disk w e Ho H1) as [Ho' Hd]. unfold dx_run. cbn [fold_left].
  fold (dx_run E parse device disk (dx_step E parse device disk w e) l). rewrite IH by assumption. exact Hd.
Qed.

(** ** a page that publishes, and pages that wait for ever: one guardian, in a small group *)
Definition yn_watched (h : list dx_event) : dx_world := watched tiny yn_parse (fun _ => true) yn_disk yn_db h.
Definition steps (i n : nat) : list dx_event := map Do (repeat (good i) n).
Definition yn_begin : list dx_event := map Do (up_file 0 "{a}" "d1" ++ up_file 1 "{s}" "d3" ++ [NewDecryption "dec" "primary"]).
(** the page is opened and watches, then the guardian joins *)
Definition yn_heard : list dx_event := yn_begin ++ [OpenPage "dec"; Look 0; Burn 0; Row "other"; Do (StartJoin "alice" "dec")] ++ steps 1 9.
Definition yn_heard_rest : list dx_event := [Deliver 0; Tell 1; Deliver 0] ++ steps 2 9 ++ [Tell 2; Back 0; Deliver 0].
(** the guardian joins between the look and the watch *)
Definition yn_between : list dx_event := yn_begin ++ [OpenPage "dec"; Look 0; Do (StartJoin "alice" "dec")] ++ steps 1 9 ++ [Tell 1; Burn 0].
(** the guardian's program stops after its last change *)
Definition yn_stopped : list dx_event := yn_begin ++ [OpenPage "dec"; Look 0; Burn 0; Do (StartJoin "alice" "dec")] ++ steps 1 9 ++ [Stop 1].
(** the reading of a ballot fails while the page handles the message *)
Definition yn_misread : list dx_event := yn_begin ++ [OpenPage "dec"; Look 0; Burn 0; Do (StartJoin "alice" "dec")] ++ steps 1 9 ++ [Tell 1; Deliver 0] ++
  steps 2 2 ++ map Do (repeat (lost 2) 3) ++ steps 2 9 ++ [Back 0].
(** the same while the page is opened *)
Definition yn_unwatched : list dx_event := yn_begin ++ [Do (StartJoin "alice" "dec")] ++ steps 0 9 ++ [Tell 0; OpenPage "dec"; Look 0] ++
  steps 1 2 ++ map Do (repeat (lost 1) 3) ++ steps 1 9 ++ [Back 0].
Definition published (w : dx_world) : list bool := map has_result (dw_docs (dx_dec w)).
(** everybody has joined and nothing is published *)
Definition full_unpublished (w : dx_world) : bool :=
  match find_decryption (dw_docs (dx_dec w)) "dec" with
  | Some d => (dy_guardians d =? len (dy_joined d)) && negb (has_result d) && String.eqb (get_status d) "performing decryption"
  | None => false
  end.
Definition over_b (w : dx_world) : bool :=
  forallb (fun c => match c with Finished _ => true | _ => false end) (dw_calls (dx_dec w)) && match dx_owes w with [] => true | _ => false end &&
  forallb (fun pg => match pg_state pg with PgWatching k => Nat.leb (length (dx_rows w)) k | PgDone | PgFailed | PgClosed => true | _ => false end) (dx_pages w).
Lemma over_b_ok w : over_b w = true -> over w.
Proof.
  unfold over_b. intros H. apply andb_prop in H as [H H3]. apply andb_prop in H as [H1 H2]. rewrite forallb_forall in H1, H3. split; [|split].
  - apply Forall_forall. intros c Hc. specialize (H1 c Hc). destruct c; try discriminate. eauto.
  - destruct (dx_owes w); [reflexivity|discriminate].
  - apply Forall_forall. intros pg Hp. specialize (H3 pg Hp). destruct (pg_state pg); try discriminate; try exact Logic.I. apply PeanoNat.Nat.leb_le, H3.
Qed.
Lemma waits_for_ever w : over_b w && full_unpublished w = true ->
  exists d, find_decryption (dw_docs (dx_dec w)) "dec" = Some d /\ dy_guardians d = len (dy_joined d) /\ get_status d = "performing decryption"%string /\
    forall l, Forall by_itself l -> find_decryption (dw_docs (dx_dec (dx_run tiny yn_parse (fun _ => true) yn_disk w l))) "dec" = Some d /\ dy_result d = None.
Proof.
  intros H. apply andb_prop in H as [H1 H2]. apply over_b_ok in H1. unfold full_unpublished in H2. destruct (find_decryption (dw_docs (dx_dec w)) "dec") as [d|] eqn:F; [|discriminate].
  apply andb_prop in H2 as [H2 H3]. apply andb_prop in H2 as [H2 H4]. exists d. split; [reflexivity|]. split; [apply Z.eqb_eq, H2|]. split; [apply String.eqb_eq, H3|].
  intros l Hl. rewrite (over_run _ _ _ _ l w H1 Hl). split; [exact F|]. unfold has_result in H4. destruct (dy_result d); [discriminate|reflexivity].
Qed.
