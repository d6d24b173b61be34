(** * ReportPages: the pages of a completed decryption show the votes. *)
From Coq Require Import List QArith Permutation.
From Verif Require Import Base Group Hash DLog ElGamal Spec ListFacts Manifest ManifestThms Ballot BallotFacts Encrypt Box Tally SpecTally TallyFacts Ceremony SpecCeremony Shares SpecShares SpecEndToEnd EndToEnd
  MediatorFacts ShareRun GuiUpload SpecUpload UploadFacts GuiDecrypt SpecGuiDecrypt GuiDecRun GuiDecThms Report SpecReport ReportFacts ReportLink.
Local Open Scope Z_scope.

Lemma own_options E m im : make_internal E m = Ok im -> distinct_option_ids im -> own_option_ids m.
Proof.
  intros Hm Hd. apply make_internal_spec in Hm as (_ & _ & _ & HF). unfold own_option_ids. unfold distinct_option_ids in Hd. revert Hd. clear -HF.
  assert (G : forall (A B : Type) (f : A -> list B) (g : B -> string) l, map g (flat_map f l) = flat_map (fun x => map g (f x)) l).
  { intros A B f g l. induction l as [|a l IH]; [reflexivity|]. cbn [flat_map]. rewrite map_app, IH. reflexivity. }
  rewrite !G. intros Hd. enough (K : forall l, NoDup (flat_map (fun d => map sd_id (cd_selections (ph_desc d) ++ ph_placeholders d)) l) ->
      NoDup (flat_map (fun d => map sd_id (cd_selections (ph_desc d))) l)).
  { replace (flat_map (fun x => map sd_id (cd_selections x)) (mf_contests m)) with (flat_map (fun d => map sd_id (cd_selections (ph_desc d))) (im_contests im)); [apply K, Hd|].
    clear Hd K. induction HF as [|c d cs ds [H1 H2] HF IH]; [reflexivity|]. cbn [flat_map]. rewrite IH, H2. reflexivity. }
  clear. induction l as [|d l IH]; [constructor|]. cbn [flat_map]. rewrite map_app, <- app_assoc. intros Hn.
  assert (H1 := TallyMore.NoDup_app_l _ _ Hn). assert (H2 := TallyMore.NoDup_app_r _ _ (TallyMore.NoDup_app_r _ _ Hn)).
  assert (Hdis : forall x, In x (map sd_id (cd_selections (ph_desc d))) -> ~ In x (flat_map (fun d => map sd_id (cd_selections (ph_desc d) ++ ph_placeholders d)) l)).
  { intros x Hx Hy. revert Hn Hx. generalize (map sd_id (cd_selections (ph_desc d))). intros l0. induction l0 as [|a l0 IH0]; [intros _ []|]. cbn [app]. intros Hn [->|Hx].
    - inversion Hn as [|? ? N1 N2]; subst. apply N1, in_or_app. right. apply in_or_app. right. exact Hy.
    - inversion Hn; subst. auto. }
  specialize (IH H2). revert Hdis H1. generalize (map sd_id (cd_selections (ph_desc d))). intros l0. induction l0 as [|a l0 IH0]; intros Hdis H1; [exact IH|].
  inversion H1 as [|? ? N1 N2]; subst. cbn [app]. constructor.
  - intros Hi. apply in_app_or in Hi as [Hi|Hi]; [auto|]. apply (Hdis a (or_introl eq_refl)). apply in_flat_map in Hi as (d' & D1 & D2). apply in_flat_map. exists d'. split; [exact D1|]. rewrite map_app. apply in_or_app. auto.
  - apply IH0; [intros x Hx; apply Hdis; right; exact Hx|exact N2].
Qed.

Section Rows.
  Variables (m : manifest) (on : string -> string -> Prop) (votes : string -> string -> Z) (p : plain_tally).
  Hypotheses (Hv : manifest_is_valid m = true) (Ho : own_option_ids m) (Hc : candidates_listed m) (Hf : con_form m (pt_contests p)).
  Hypothesis Hon : forall cid oid, on cid oid -> in_manifest m cid oid.
  Hypothesis Hp : forall cid oid n, count_of p cid oid = Some n <-> on cid oid /\ n = votes cid oid.
  Lemma contests_by_id d d' : In d (mf_contests m) -> In d' (mf_contests m) -> cd_id d = cd_id d' -> d = d'.
  Proof. destruct (valid_ids m Hv) as (_ & _ & H & _). intros H1 H2. apply (NoDup_inj cd_id (mf_contests m)); assumption. Qed.
  Lemma options_by_id d o o' : In d (mf_contests m) -> In o (cd_selections d) -> In o' (cd_selections d) -> sd_id o = sd_id o' -> o = o'.
  Proof.
    intros Hd H1 H2. apply (NoDup_inj sd_id (flat_map cd_selections (mf_contests m)) o o' Ho); apply in_flat_map; eauto.
  Qed.
  Lemma stands_option d o c : In d (mf_contests m) -> In o (cd_selections d) -> stands_for m (cd_id d) (sd_id o) c -> In c (mf_candidates m) /\ ca_id c = sd_candidate_id o.
  Proof.
    intros Hd Hi (d' & o' & H1 & H2 & H3 & H4 & H5 & H6). assert (d' = d) by (apply contests_by_id; assumption). subst d'. assert (o' = o) by (apply (options_by_id d); assumption). subst o'. auto.
  Qed.
  Definition option_of (d : contest_desc) (s : plain_sel) (o : selection_desc) : Prop := In o (cd_selections d) /\ sd_id o = pl_id s /\ pl_tally s = votes (cd_id d) (sd_id o).
  Lemma options_of d l : (forall s, In s l -> exists o, option_of d s o) -> exists os, Forall2 (option_of d) l os.
  Proof.
    induction l as [|s l IH]; intros H; [exists []; constructor|]. destruct (H s (or_introl eq_refl)) as [o Hoo]. destruct IH as [os Hos]; [intros x Hx; apply H; right; exact Hx|]. exists (o :: os). constructor; assumption.
  Qed.
  Lemma options_map d l os : Forall2 (option_of d) l os -> map sd_id os = map pl_id l /\ map (fun o => votes (cd_id d) (sd_id o)) os = map pl_tally l.
  Proof. intros H. induction H as [|s o l os (H1 & H2 & H3) H [I1 I2]]; [split; reflexivity|]. cbn [map]. rewrite I1, I2, H2, H3, H2. split; reflexivity. Qed.
  Lemma row_shows d c r : In d (mf_contests m) -> In c (dvals (pt_contests p)) -> cd_id d = pn_id c -> right_row m c r -> shows_contest m on votes d r.
  Proof.
    intros Hd Hin Hid ((d' & D1 & D2 & D3) & named & others & R1 & R2 & R3 & R4 & R5). assert (d' = d) by (apply contests_by_id; [assumption..|congruence]). subst d'.
    split; [exact D3|]. destruct (form_of m p Hf) as [_ Hof]. destruct (Hof c Hin) as (N1 & _ & N3).
    assert (Hall : forall s, In s (dvals (pn_selections c)) -> on (cd_id d) (pl_id s) /\ exists o, option_of d s o).
    { intros s Hs. assert (Hcnt := form_counts m p c s Hf Hin Hs). apply Hp in Hcnt as [C1 C2]. rewrite <- Hid in C1, C2. split; [exact C1|].
      destruct (Hon _ _ C1) as (d' & o & O1 & O2 & O3 & O4). assert (d' = d) by (apply contests_by_id; assumption). subst d'. exists o. split; [exact O3|]. split; [exact O4|]. congruence. }
    assert (Hsub : forall s, In s (named ++ others) -> In s (dvals (pn_selections c))) by (intros s Hs; apply (Permutation_in _ (Permutation_sym R1)), Hs).
    destruct (options_of d named) as [on1 F1]; [intros s Hs; apply Hall, Hsub, in_or_app; auto|]. destruct (options_of d others) as [on2 F2]; [intros s Hs; apply Hall, Hsub, in_or_app; auto|].
    destruct (options_map d _ _ F1) as [M1 M2]. destruct (options_map d _ _ F2) as [M3 M4]. exists on1, on2.
    assert (HN : NoDup (map sd_id (on1 ++ on2))).
    { rewrite map_app, M1, M3, <- map_app. apply (Permutation_NoDup (l := map pl_id (dvals (pn_selections c)))); [apply Permutation_map, R1|exact N1]. }
    split; [apply (NoDup_map_inv sd_id), HN|]. split; [|split; [|split; [|split]]].
    - intros o. split.
      + intros Ho'. assert (HF := Forall2_app F1 F2). destruct (Forall2_in_r _ _ _ _ HF Ho') as (s & Hs & S1 & S2 & S3). split; [exact S1|]. rewrite S2. apply Hall, Hsub, Hs.
      + intros [O1 O2]. assert (Hcnt : count_of p (cd_id d) (sd_id o) = Some (votes (cd_id d) (sd_id o))) by (apply Hp; auto).
        apply (counts_form m p _ _ _ Hf) in Hcnt as (c' & s & K1 & K2 & K3 & K4 & K5).
        assert (c' = c). { destruct (form_of m p Hf) as [HNc _]. apply (NoDup_inj pn_id (dvals (pt_contests p))); [exact HNc|assumption..|congruence]. } subst c'.
        assert (Hs : In s (named ++ others)) by (apply (Permutation_in _ R1), K3). assert (HF := Forall2_app F1 F2). destruct (Forall2_in_l _ _ _ _ HF Hs) as (o' & Ho' & S1 & S2 & S3).
        replace o with o'; [exact Ho'|]. apply (options_by_id d); [assumption..|congruence].
    - intros o Ho'. destruct (Forall2_in_r _ _ _ _ F2 Ho') as (s & Hs & S1 & S2 & S3). destruct (R2 s Hs) as (k & K1 & K2). rewrite <- Hid, <- S2 in K1. apply stands_option in K1; [|assumption..]. exists k. tauto.
    - clear -R4 F1 Hid Hd Hv Ho. revert F1 R4. generalize (rr_total r) as tot. intros tot F1. revert on1 F1. generalize (rr_lines r) as ls. intros ls on1 F1 R4. revert on1 F1. induction R4 as [|s l ss ls R R4 IH]; intros on1 F1; inversion F1 as [|? o ? os (S1 & S2 & S3) F1']; subst; [constructor|].
      constructor; [|apply IH, F1']. destruct R as (k & K1 & K2 & K3 & K4 & K5 & K6 & K7). rewrite <- Hid, <- S2 in K1. apply stands_option in K1; [|assumption..]. exists k. rewrite <- S3. tauto.
    - rewrite M2. exact R3.
    - rewrite R5, M4. inversion F2; reflexivity.
  Qed.
  Lemma contests_of : forall l rows, Forall2 (right_row m) l rows -> incl l (dvals (pt_contests p)) ->
    exists ds, map cd_id ds = map pn_id l /\ incl ds (mf_contests m) /\ Forall2 (shows_contest m on votes) ds rows.
  Proof.
    intros l rows HF. induction HF as [|c r l rows R HF IH]; intros Hi; [exists []; split; [reflexivity|]; split; [intros x []|constructor]|].
    destruct IH as (ds & I1 & I2 & I3); [intros x Hx; apply Hi; right; exact Hx|]. assert (R' := R). destruct R as ((d & D1 & D2 & D3) & _). exists (d :: ds). cbn [map]. rewrite I1, D2. split; [reflexivity|]. split.
    - intros x [<-|Hx]; auto.
    - constructor; [|exact I3]. apply (row_shows d c r); [exact D1|apply Hi; left; reflexivity|exact D2|exact R'].
  Qed.
  Lemma page_shown : exists rows, get_plaintext_ballot_report m p = Ok rows /\ shows_page m on votes rows.
  Proof.
    destruct (report_right m Hv Ho Hc p (form_of m p Hf)) as (rows & R1 & R2). exists rows. split; [exact R1|]. destruct (contests_of _ _ R2 (incl_refl _)) as (ds & D1 & D2 & D3). exists ds.
    destruct (form_of m p Hf) as [HN _]. split; [apply (NoDup_map_inv cd_id); rewrite D1; exact HN|]. split; [exact D2|]. split; [|exact D3].
    intros d o Hd Hoo Hdo. assert (Hcnt : count_of p (cd_id d) (sd_id o) = Some (votes (cd_id d) (sd_id o))) by (apply Hp; auto).
    apply (counts_form m p _ _ _ Hf) in Hcnt as (c' & s & K1 & K2 & K3 & K4 & K5). assert (Hi : In (cd_id d) (map cd_id ds)) by (rewrite D1, <- K2; apply in_map, K1).
    apply in_map_iff in Hi as (d' & E1 & E2). replace d with d'; [exact E2|]. apply contests_by_id; auto.
  Qed.
End Rows.

Lemma pages_show E parse device disk w0 e m im cx k ss vs h1 id h2 h3 : valid_env E -> gui_election E disk w0 e m im cx k ss -> good_voters E im vs -> candidates_listed m ->
  let before := after_all E parse device disk w0 h1 in
  let joined := after_all E parse device disk w0 (h1 ++ NewDecryption id e :: h2) in
  let final := after_all E parse device disk w0 (h1 ++ NewDecryption id e :: h2 ++ h3) in
  pools_work (h1 ++ h2 ++ h3) -> no_more_uploads (h2 ++ h3) -> reads_work (h2 ++ h3) ->
  only_voters E parse im cx vs (dw_db before) e -> find_decryption (dw_docs before) id = None ->
  (forall s, In s ss -> carried_out E parse device disk (dec_event_step E parse device disk before (NewDecryption id e)) h2 (StartJoin (st_id s) id)) ->
  carried_out E parse device disk joined h3 (StartView true id) ->
  exists counted, NoDup counted /\
    (forall v, In v counted <-> In v vs /\ exists b, In b (stored (dw_db before) e) /\ closed (so_contents b) = true /\ file_of E parse im cx v b) /\
    (exists rows, view_tally (dw_db final) (dw_docs final) id = Ok rows /\ shows_page m (in_manifest m) (cast_count im counted) rows) /\
    (forall v, In v counted -> vr_state v = SPOILED ->
      exists rows, view_spoiled_ballot (dw_db final) (dw_docs final) id (vr_id v) = Ok rows /\ shows_page m (on_ballot im (vr_ballot v)) (vote_for im (vr_ballot v)) rows) /\
    (forall i rows, view_spoiled_ballot (dw_db final) (dw_docs final) id i = Ok rows -> exists v, In v counted /\ vr_id v = i /\ vr_state v = SPOILED).
Proof.
  intros HE HG HV Hcl before joined final Hp Hnu Hrd Hov Hno Hj Hvw. set (h := h1 ++ NewDecryption id e :: h2 ++ h3) in *. assert (Hvalid := ge_manifest _ _ _ _ _ _ _ _ _ HG). assert (Him := ge_internal _ _ _ _ _ _ _ _ _ HG).
  assert (Hown : own_option_ids m) by (apply (own_options E m im Him), (ge_options _ _ _ _ _ _ _ _ _ HG)). assert (Hst := ge_start _ _ _ _ _ _ _ _ _ HG).
  destruct (gui_completes E parse device disk w0 e m im cx k ss vs h1 id h2 h3 HE HG HV Hp Hnu Hrd Hov Hno Hj Hvw) as (d & r & counted & G1 & G2 & G3 & G4 & G5 & G6 & G7).
  fold h in G1. fold final in G1. assert (Hup : good_up parse w0 (dw_up final)) by (apply good_run; apply (good_init parse w0 Hst)).
  assert (Hdb : good_db parse w0 (dw_db final)) by apply Hup.
  destruct (ge_election _ _ _ _ _ _ _ _ _ HG) as (x0 & X1 & X2 & X3 & X4 & _).
  assert (HX : forall x, In x (db_elections w0) -> el_id x = e -> el_manifest x = m).
  { intros x Hx Hxe. rewrite <- X4. f_equal. apply (NoDup_inj el_id (db_elections w0)); [apply Hst|assumption..|congruence]. }
  apply find_first_some in G1 as G1'. destruct G1' as [Gin Gid]. apply String.eqb_eq in Gid.
  destruct (published_made E parse device disk w0 Hst h d r Gin G2) as (x & up & cx' & md & bl & M1 & M2 & M3).
  assert (He : dy_election d = e) by (apply (created_for E parse device disk w0 Hst h1 id e (h2 ++ h3) d); [eauto|assumption..]).
  rewrite He in M2. rewrite (HX x M1 M2) in M3. destruct (result_form E HE m up cx' md bl r M3) as (T1 & T2 & T3).
  assert (HF : exists x, find_election (dw_db final) (dy_election d) = Some x /\ el_manifest x = m).
  { rewrite He. destruct (find_election (dw_db final) e) as [y|] eqn:F.
    - exists y. split; [reflexivity|]. apply find_first_some in F as [F1 F2]. apply String.eqb_eq in F2.
      assert (Hi : In (el_fixed y) (map el_fixed (db_elections w0))) by (rewrite <- (gw_fixed _ _ _ Hdb); apply in_map, F1).
      apply in_map_iff in Hi as (z & Hz & Hi). injection Hz as Z1 Z2 Z3 Z4 Z5 Z6 Z7. rewrite <- Z3. apply HX; congruence.
    - exfalso. assert (Hi : In (el_fixed x0) (map el_fixed (db_elections (dw_db final)))) by (rewrite (gw_fixed _ _ _ Hdb); apply in_map, X1).
      apply in_map_iff in Hi as (y & Y1 & Y2). assert (Hy := proj1 (find_first_none _ _) F y Y2). cbn beta in Hy. apply String.eqb_neq in Hy. apply Hy. injection Y1 as Y3 _. congruence. }
  destruct HF as (xf & XF & XM). exists counted. split; [exact G3|]. split; [exact G4|]. split; [|split].
  - unfold view_tally. rewrite G1, XF, G2, XM. apply page_shown; try assumption. intros cid oid Hi. exact Hi.
  - intros v Hcv Hs. assert (Hk := G7 v Hcv Hs). unfold dkeys in Hk. apply in_map_iff in Hk as ([i p] & Hi & Hip). cbn [fst] in Hi. subst i. destruct (T3 _ _ Hip) as [P1 P2].
    assert (Hby : spoiled_by_id (dvals (rs_spoiled r)) (vr_id v) = Ok p).
    { unfold spoiled_by_id. destruct (filter _ _) as [|q l] eqn:Hfl.
      - exfalso. assert (Hin : In p (filter (fun p => String.eqb (pt_id p) (vr_id v)) (dvals (rs_spoiled r)))) by (apply filter_In; split; [apply (in_map snd _ _ Hip)|rewrite P1; apply String.eqb_refl]).
        rewrite Hfl in Hin. destruct Hin.
      - f_equal. assert (Hin : In q (filter (fun p => String.eqb (pt_id p) (vr_id v)) (dvals (rs_spoiled r)))) by (rewrite Hfl; left; reflexivity).
        apply filter_In in Hin as [Q1 Q2]. apply String.eqb_eq in Q2. unfold dvals in Q1. apply in_map_iff in Q1 as ([j q'] & Hjj & Hjq). cbn [snd] in Hjj. subst q'. destruct (T3 _ _ Hjq) as [Q3 _].
        assert (Hjv : j = vr_id v) by congruence. subst j. assert (D1 := in_dget _ _ _ T2 Hip). assert (D2 := in_dget _ _ _ T2 Hjq). congruence. }
    unfold view_spoiled_ballot. rewrite G1, XF, G2, Hby. cbn [rbind]. rewrite XM. destruct (G6 _ _ Hip) as (v' & V1 & V2 & V3 & V4).
    assert (Hvv : v' = v) by (apply (NoDup_inj vr_id vs); [apply (gv_ids _ _ _ HV)|apply G4, V1|apply G4, Hcv|exact V2]). subst v'.
    apply page_shown; try assumption. intros cid oid Hob. apply (manifest_options E m im Him). unfold on_ballot in Hob. destruct (find_option im (vr_ballot v) cid oid) as [[dd oo]|] eqn:Hfo; [|congruence].
    unfold find_option in Hfo. destruct (get_contests_for im (pb_style (vr_ballot v))) as [ds|] eqn:Hg; [|discriminate Hfo]. destruct (find _ ds) as [d1|] eqn:F1; [|discriminate Hfo]. destruct (find _ (cd_selections (ph_desc d1))) as [o1|] eqn:F2; [|discriminate Hfo].
    apply find_some in F1 as [F1 F3]. apply find_some in F2 as [F2 F4]. apply String.eqb_eq in F3, F4. exists d1, o1. split; [|auto].
    apply (proj1 (get_contests_sub _ _ _ Hg)), F1.
  - intros i rows. unfold view_spoiled_ballot. rewrite G1, XF, G2. unfold spoiled_by_id. destruct (filter _ _) as [|q l] eqn:Hfl; [discriminate|]. intros _.
    assert (Hin : In q (filter (fun p => String.eqb (pt_id p) i) (dvals (rs_spoiled r)))) by (rewrite Hfl; left; reflexivity).
    apply filter_In in Hin as [Q1 Q2]. apply String.eqb_eq in Q2. unfold dvals in Q1. apply in_map_iff in Q1 as ([j q'] & Hjj & Hjq). cbn [snd] in Hjj. subst q'. destruct (T3 _ _ Hjq) as [Q3 _].
    destruct (G6 _ _ Hjq) as (v & V1 & V2 & V3 & _). exists v. split; [exact V1|]. split; [congruence|exact V3].
Qed.
