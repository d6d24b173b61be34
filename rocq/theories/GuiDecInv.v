(** * GuiDecInv: a published result of the graphical application is never wrong. *)
From Verif Require Import Base Group Codec Hash DLog ElGamal ZK Poly Manifest Ballot Encrypt Box Tally Spec SpecElection SpecTally
  ListFacts CryptoThms TallyThms ShareRun Ceremony SharesThms SpecCeremony Shares SpecShares SpecEndToEnd EndToEnd GuiUpload SpecUpload UploadFacts UploadRead GuiDecrypt SpecGuiDecrypt GuiDecPure GuiDecRun.
From Coq Require Import List.

Section Inv.
  Context (E : env) (parse : string -> option sub_ballot) (device : string -> bool) (disk : string -> string -> option private_record) (w0 : gdb) (e : string).
  Context (m : manifest) (im : internal_manifest) (cx : context) (k : nat) (ss : list seat) (HE : valid_env E) (HG : gui_election E disk w0 e m im cx k ss).
  Context (vs : list voter) (HV : good_voters E im vs).
  Context (x0 : election) (Hx0 : In x0 (db_elections w0)) (Xid : el_id x0 = e) (Xcx : el_context x0 = Some cx) (Xm : el_manifest x0 = m)
    (Xrec : el_records x0 = map (fun s => (st_id s, st_seq s)) ss) (Xnum : el_guardians x0 = len ss) (Xcer : el_ceremony x0 <> ""%string)
    (Xhas : forall s, In s ss -> disk (st_id s) (el_ceremony x0) <> None)
    (Xdisk : forall u r n q, disk u (el_ceremony x0) = Some r -> exists s, In s ss /\ st_id s = u /\ holder E s (guardian_from_private_record r n q)).
  Notation estep := (dec_event_step E parse device disk).
  Notation run := (dec_run E parse device disk).
  Notation from_voter := (from_voter E im cx vs).
  Notation known := (known E im cx vs ss).
  Notation counts := (counts E im cx vs).
  Notation ballots_right := (ballots_right E im cx vs).
  Lemma key_in : in_subgroup E (cx_key cx).
  Proof. rewrite (ge_key _ _ _ _ _ _ _ _ _ HG). exact (joint_subgroup E HE k ss (ge_seats _ _ _ _ _ _ _ _ _ HG)). Qed.

  (** ** the election that is read *)
  Definition is_x (x : election) : Prop := el_fixed x = el_fixed x0.
  Lemma found w x : good_db parse w0 w -> find_election w e = Some x -> is_x x.
  Proof.
    intros Hw Hf. apply find_first_some in Hf as [F1 F2]. apply String.eqb_eq in F2.
    assert (Hi : In (el_fixed x) (map el_fixed (db_elections w0))) by (rewrite <- (gw_fixed _ _ _ Hw); apply in_map, F1).
    apply in_map_iff in Hi as (y & Hy & Hi). unfold is_x. rewrite <- Hy. f_equal.
    apply (NoDup_inj el_id (db_elections w0)); [apply (nu_ids _ (ge_start _ _ _ _ _ _ _ _ _ HG))|exact Hi|exact Hx0|]. injection Hy as Hy _. congruence.
  Qed.
  Lemma finds w : good_db parse w0 w -> exists x, find_election w e = Some x /\ is_x x.
  Proof.
    intros Hw. destruct (find_election w e) as [x|] eqn:Hf; [exists x; split; [reflexivity|apply (found w x Hw Hf)]|]. exfalso.
    assert (Hi : In (el_fixed x0) (map el_fixed (db_elections w))) by (rewrite (gw_fixed _ _ _ Hw); apply in_map, Hx0).
    apply in_map_iff in Hi as (y & Hy & Hi). pose proof (proj1 (find_first_none _ _) Hf y Hi) as Hn. cbn beta in Hn. injection Hy as Hy _. rewrite Hy, Xid, String.eqb_refl in Hn. discriminate.
  Qed.
  Lemma x_of x : is_x x -> el_id x = e /\ el_context x = Some cx /\ el_manifest x = m /\ el_records x = map (fun s => (st_id s, st_seq s)) ss /\ el_guardians x = len ss /\ el_ceremony x = el_ceremony x0.
  Proof. intros [= H1 H2 H3 H4 H5 H6 H7]. repeat split; congruence. Qed.

  (** ** the invariant; [must id sb]: whoever works on the document [id] has to read the ballot [sb] *)
  Context (must : string -> sub_ballot -> Prop).
  Definition got_ok (w : gdb) (got : list sub_ballot) : Prop := forall sb, In sb got -> from_voter sb /\ exists b, In b (stored w e) /\ parse (so_contents b) = Some sb.
  Definition ids_ok (w : gdb) (ids : list doc_id) : Prop := forall i, In i ids -> exists b, In b (stored w e) /\ so_doc b = i.
  Definition covers (w : gdb) (id : string) (ids : list doc_id) (got : list sub_ballot) : Prop := forall sb, must id sb ->
    In sb got \/ exists b, In b (stored w e) /\ In (so_doc b) ids /\ closed (so_contents b) = true /\ parse (so_contents b) = Some sb.
  Definition result_ok (w : gdb) (id : string) (l : list dec_entry) (r : dec_result) : Prop := exists vs' bl, got_ok w bl /\ counts vs' bl /\
    ((exists en, In en l /\ zero_response (en_share en)) \/ right_tally m im vs' (rs_tally r)) /\ ballots_right bl (rs_spoiled r) /\ forall sb, must id sb -> In sb bl.
  Definition doc_ok (w : gdb) (d : decryption) : Prop := dy_election d = e ->
    dy_ceremony d = el_ceremony x0 /\ dy_guardians d = len ss /\ Forall known (dy_shares d) /\ forall r, dy_result d = Some r -> result_ok w (dy_id d) (dy_shares d) r.
  Definition grown (d d' : decryption) : Prop := dy_id d' = dy_id d /\ dy_election d' = dy_election d /\ incl (dy_shares d) (dy_shares d').
  Definition snap (w : gdb) (ds : list decryption) (d : decryption) : Prop := doc_ok w d /\ exists d', In d' ds /\ grown d d'.
  Definition join_ok' (u : string) (x : election) (cx' : context) (g : guardian) : Prop := is_x x /\ cx' = cx /\ exists s, In s ss /\ st_id s = u /\ holder E s g.
  Definition view_ok (d : decryption) (x : election) (cx' : context) (med : dmediator) : Prop := is_x x /\ cx' = cx /\ announced cx x (dy_shares d) med.
  Definition call_ok (w : gdb) (ds : list decryption) (c : dec_call) : Prop :=
    match c with
    | JoinElection u d => snap w ds d
    | JoinList u d x cx' g => snap w ds d /\ (dy_election d = e -> join_ok' u x cx' g)
    | JoinRead u d x cx' g ids n got => snap w ds d /\ (dy_election d = e -> join_ok' u x cx' g /\ ids_ok w ids /\ got_ok w got)
    | JoinPush id en => exists d, In d ds /\ dy_id d = id /\ (dy_election d = e -> known en)
    | ViewElection d => snap w ds d
    | ViewList d x cx' med => snap w ds d /\ (dy_election d = e -> view_ok d x cx' med)
    | ViewRead d x cx' med ids n got => snap w ds d /\ (dy_election d = e -> view_ok d x cx' med /\ ids_ok w ids /\ got_ok w got /\ covers w (dy_id d) ids got)
    | ViewSet id r => exists d l, In d ds /\ dy_id d = id /\ incl l (dy_shares d) /\ (dy_election d = e -> result_ok w id l r)
    | JoinMark id _ => exists d, In d ds /\ dy_id d = id
    | JoinStart _ _ | ViewStart _ _ | Finished _ => True
    end.
  Record inv (W : dec_world) : Prop := {
    iv_up : good_up parse w0 (dw_up W);
    iv_ids : NoDup (map dy_id (dw_docs W));
    iv_docs : forall d, In d (dw_docs W) -> doc_ok (dw_db W) d;
    iv_calls : forall c, In c (dw_calls W) -> call_ok (dw_db W) (dw_docs W) c }.

  (** ** growing *)
  Definition more (w w' : gdb) : Prop := forall b, In b (stored w e) -> In b (stored w' e).
  Lemma got_more w w' l : more w w' -> got_ok w l -> got_ok w' l.
  Proof. intros Hm H sb Hs. destruct (H sb Hs) as (H1 & b & H2 & H3). split; [exact H1|]. exists b. auto. Qed.
  Lemma ids_more w w' l : more w w' -> ids_ok w l -> ids_ok w' l.
  Proof. intros Hm H i Hi. destruct (H i Hi) as (b & H2 & H3). exists b. auto. Qed.
  Lemma covers_more w w' id l g : more w w' -> covers w id l g -> covers w' id l g.
  Proof. intros Hm H sb Hs. destruct (H sb Hs) as [H1|(b & B1 & B2)]; [auto|]. right. exists b. auto. Qed.
  Lemma result_more w w' id l l' r : more w w' -> incl l l' -> result_ok w id l r -> result_ok w' id l' r.
  Proof.
    intros Hm Hi (vs' & bl & R1 & R2 & R3 & R4). exists vs', bl. split; [apply (got_more w), R1; exact Hm|]. split; [exact R2|]. split; [|exact R4].
    destruct R3 as [(en & Hen & Hz)|R3]; [left; exists en; auto|auto].
  Qed.
  Lemma doc_more w w' d : more w w' -> doc_ok w d -> doc_ok w' d.
  Proof. intros Hm H He. destruct (H He) as (D1 & D2 & D3 & D4). split; [exact D1|]. split; [exact D2|]. split; [exact D3|]. intros r Hr. apply (result_more w w' _ (dy_shares d)); auto using incl_refl. Qed.
  Lemma grown_refl d : grown d d.
  Proof. split; [reflexivity|]. split; [reflexivity|apply incl_refl]. Qed.
  Lemma grown_trans a b c : grown a b -> grown b c -> grown a c.
  Proof. intros (A1 & A2 & A3) (B1 & B2 & B3). split; [congruence|]. split; [congruence|]. eapply incl_tran; eassumption. Qed.
  Definition grow (ds ds' : list decryption) : Prop := forall d, In d ds -> exists d', In d' ds' /\ grown d d'.
  Lemma snap_more w w' ds ds' d : more w w' -> grow ds ds' -> snap w ds d -> snap w' ds' d.
  Proof. intros Hm Hg (S1 & d' & S2 & S3). split; [apply (doc_more w), S1; exact Hm|]. destruct (Hg d' S2) as (d2 & G1 & G2). exists d2. split; [exact G1|]. eapply grown_trans; eassumption. Qed.
  Lemma call_more w w' ds ds' c : more w w' -> grow ds ds' -> call_ok w ds c -> call_ok w' ds' c.
  Proof.
    intros Hm Hg. destruct c as [u id|u d|u d x cx' g|u d x cx' g ids n got|id en|id u|a id|d|d x cx' med|d x cx' med ids n got|id r|ok]; cbn [call_ok]; auto.
    - apply snap_more; assumption.
    - intros [S1 S2]. split; [apply (snap_more w w' ds); assumption|exact S2].
    - intros [S1 S2]. split; [apply (snap_more w w' ds); assumption|]. intros He. destruct (S2 He) as (S3 & S4 & S5). split; [exact S3|]. split; [apply (ids_more w)|apply (got_more w)]; assumption.
    - intros (d & D1 & D2 & D3). destruct (Hg d D1) as (d' & G1 & G2 & G3 & G4). exists d'. split; [exact G1|]. split; [congruence|]. intros He. apply D3. congruence.
    - intros (d & D1 & D2). destruct (Hg d D1) as (d' & G1 & G2 & G3 & G4). exists d'. split; [exact G1|congruence].
    - apply snap_more; assumption.
    - intros [S1 S2]. split; [apply (snap_more w w' ds); assumption|exact S2].
    - intros [S1 S2]. split; [apply (snap_more w w' ds); assumption|]. intros He. destruct (S2 He) as (S3 & S4 & S5 & S6). split; [exact S3|]. split; [apply (ids_more w)|split; [apply (got_more w)|apply (covers_more w)]]; assumption.
    - intros (d & l & D1 & D2 & D3 & D4). destruct (Hg d D1) as (d' & G1 & G2 & G3 & G4). exists d', l. split; [exact G1|]. split; [congruence|]. split; [eapply incl_tran; eassumption|].
      intros He. apply (result_more w w' id l); [exact Hm|apply incl_refl|]. apply D4. congruence.
  Qed.

  (** ** reading *)
  Definition all_voters (w : gdb) : Prop := forall b, In b (stored w e) -> exists sb, parse (so_contents b) = Some sb /\ from_voter sb.
  Definition must_ok (w : gdb) (net : bool) : Prop := forall id sb, must id sb -> net = true /\ exists b, In b (stored w e) /\ closed (so_contents b) = true /\ parse (so_contents b) = Some sb.
  Lemma read_ok w (net : bool) id i ids n got ids' n' got' : NoDup (map ud_id (db_uploads w)) -> all_voters w -> ids_ok w (i :: ids) -> got_ok w got ->
    read_next parse (if net then Some w else None) (i :: ids) n got = (ids', n', got') ->
    ids_ok w ids' /\ got_ok w got' /\ (must_ok w net -> covers w id (i :: ids) got -> covers w id ids' got').
  Proof.
    intros Hn Hav Hi Hg. destruct (Hi i (or_introl eq_refl)) as (b & Hb & Hd). destruct (Hav b Hb) as (sb & Hp & Hv). cbn [read_next].
    assert (Ht : ids_ok w ids) by (intros j Hj; apply Hi; right; exact Hj).
    destruct net.
    - subst i. rewrite (read_stored parse w e b sb Hn Hb Hp).
      assert (Hskip : closed (so_contents b) = false -> covers w id (so_doc b :: ids) got -> covers w id ids got).
      { intros Hc Hcov sb' Hs'. destruct (Hcov sb' Hs') as [H|(b' & B1 & B2 & B3 & B4)]; [auto|]. destruct B2 as [B2|B2]; [|right; exists b'; auto]. exfalso.
        apply in_stored in Hb as (d & D1 & D2 & D3 & D4). apply in_stored in B1 as (d' & E1 & E2 & E3 & E4).
        assert (d = d') by (apply (NoDup_inj ud_id (db_uploads w)); [exact Hn|exact D1|exact E1|congruence]). subst d'. rewrite D4 in E4. injection E4 as _ _ E4. rewrite E4 in Hc. congruence. }
      unfold closed in Hskip. destruct (last_char (so_contents b)) as [c|] eqn:Hl.
      + destruct (Ascii.eqb c "}"%char) eqn:Hc.
        * intros [= <- <- <-]. split; [exact Ht|]. split.
          -- intros s Hs. apply in_app_or in Hs as [Hs|[<-|[]]]; [apply Hg, Hs|]. split; [exact Hv|exists b; auto].
          -- intros _ Hcov sb' Hs'. destruct (Hcov sb' Hs') as [H|(b' & B1 & B2 & B3 & B4)]; [left; apply in_or_app; auto|]. destruct B2 as [B2|B2]; [|right; exists b'; auto].
             left. apply in_or_app. right. left.
             apply in_stored in Hb as (d & D1 & D2 & D3 & D4). apply in_stored in B1 as (d' & E1 & E2 & E3 & E4).
             assert (d = d') by (apply (NoDup_inj ud_id (db_uploads w)); [exact Hn|exact D1|exact E1|congruence]). subst d'. rewrite D4 in E4. injection E4 as _ _ E4. congruence.
        * destruct (Nat.leb 2 n); intros [= <- <- <-]; [split; [exact Ht|split; [exact Hg|intros _; apply Hskip; reflexivity]]|]. split; [exact Hi|]. split; [exact Hg|auto].
      + intros [= <- <- <-]. split; [exact Ht|]. split; [exact Hg|]. intros _. apply Hskip. reflexivity.
    - assert (Hno : must_ok w false -> forall l g, covers w id l g) by (intros H l g s Hs; destruct (H id s Hs); discriminate).
      cbn [get_submitted_ballot]. destruct (Nat.leb 2 n); intros [= <- <- <-]; split; try assumption; split; try assumption; intros H _; apply (Hno H).
  Qed.
  Lemma list_ok w net id x : is_x x -> ids_ok w (ballot_ids w (el_id x)) /\ got_ok w [] /\ (must_ok w net -> covers w id (ballot_ids w (el_id x)) []).
  Proof.
    intros Hx. destruct (x_of x Hx) as (-> & _). rewrite ids_stored. split; [intros i Hi; apply in_map_iff in Hi as (b & <- & Hb); exists b; auto|]. split; [intros s []|].
    intros Hm s Hs. destruct (Hm id s Hs) as (_ & b & B1 & B2 & B3). right. exists b. split; [exact B1|]. split; [apply in_map, B1|auto].
  Qed.

  (** ** one step *)
  Lemma find_dec ds id d : find_decryption ds id = Some d -> In d ds /\ dy_id d = id.
  Proof. intros H. apply find_first_some in H as [H1 H2]. apply String.eqb_eq in H2. auto. Qed.
  Lemma update_docs w ds id f d0 : NoDup (map dy_id ds) -> (forall d, grown d (f d)) -> (forall d, In d ds -> doc_ok w d) -> In d0 ds -> dy_id d0 = id -> (doc_ok w d0 -> doc_ok w (f d0)) ->
    let ds' := update_decryption ds id f in NoDup (map dy_id ds') /\ grow ds ds' /\ forall d, In d ds' -> doc_ok w d.
  Proof.
    intros Hn Hf Hds Hd0 Hi Hk. cbv zeta. split; [|split].
    - unfold update_decryption. rewrite update_first_map; [exact Hn|]. intros d _ _. apply Hf.
    - intros d Hd. apply update_first_grows; [apply grown_refl|exact Hf|exact Hd].
    - intros d Hd. apply update_first_in in Hd as [Hd|(y & Y1 & Y2 & ->)]; [apply Hds, Hd|]. apply String.eqb_eq in Y2.
      assert (y = d0) by (apply (NoDup_inj dy_id ds); [exact Hn|exact Y1|exact Hd0|congruence]). subst y. apply Hk, Hds, Hd0.
  Qed.
  Lemma step_ok net up rnd c w ds c' ds' : good_db parse w0 w -> all_voters w -> must_ok w net -> (forall path, up path = true) ->
    NoDup (map dy_id ds) -> (forall d, In d ds -> doc_ok w d) -> call_ok w ds c -> dec_step E parse disk net up rnd c w ds = (c', ds') ->
    NoDup (map dy_id ds') /\ grow ds ds' /\ (forall d, In d ds' -> doc_ok w d) /\ call_ok w ds' c'.
  Proof.
    intros Hw Hav Hmust Hup Hn Hds Hc.
    assert (Hsame : forall c1, call_ok w ds c1 -> (c1, ds) = (c', ds') -> NoDup (map dy_id ds') /\ grow ds ds' /\ (forall d, In d ds' -> doc_ok w d) /\ call_ok w ds' c').
    { intros c1 H1 [= <- <-]. split; [exact Hn|]. split; [intros d Hd; exists d; split; [exact Hd|apply grown_refl]|]. auto. }
    assert (Hfin : forall b, (Finished b, ds) = (c', ds') -> NoDup (map dy_id ds') /\ grow ds ds' /\ (forall d, In d ds' -> doc_ok w d) /\ call_ok w ds' c') by (intros b; apply Hsame; exact I).
    assert (Hsnap : forall d, In d ds -> snap w ds d) by (intros d Hd; split; [apply Hds, Hd|]; exists d; split; [exact Hd|apply grown_refl]).
    destruct c as [u id|u d|u d x cx' g|u d x cx' g ids n got|id en|id u|a id|d|d x cx' med|d x cx' med ids n got|id r|ok]; cbn [dec_step call_ok] in *.
    - destruct (find_decryption ds id) as [d|] eqn:Hf; [|apply Hfin]. apply Hsame. apply Hsnap. apply (find_dec _ _ _ Hf).
    - destruct (find_election w _) as [x|] eqn:Hf; [|apply Hfin]. destruct (el_context x) as [cx'|] eqn:Hcx; [|apply Hfin]. destruct (load_guardian disk u d) as [g|] eqn:Hl; [|apply Hfin].
      apply Hsame. cbn [call_ok]. split; [exact Hc|]. intros He. rewrite He in Hf. pose proof (found w x Hw Hf) as Hx. destruct (x_of x Hx) as (X1 & X2 & _).
      split; [exact Hx|]. split; [congruence|]. unfold load_guardian in Hl. destruct (String.eqb _ _); [discriminate|]. destruct Hc as (Hd & _). destruct (Hd He) as (D1 & _). rewrite D1 in Hl.
      destruct (disk u (el_ceremony x0)) as [r|] eqn:Hr; [|discriminate]. injection Hl as <-. apply Xdisk, Hr.
    - apply Hsame. cbn [call_ok]. destruct Hc as [Hc1 Hc2]. split; [exact Hc1|]. intros He. pose proof (Hc2 He) as Hj. destruct (list_ok w net "" x (proj1 Hj)) as (L1 & L2 & _). auto.
    - destruct Hc as [Hc1 Hc2]. destruct ids as [|i ids].
      + destruct (join_entry _ _ _ _ _ _ _ _) as [en|] eqn:Hj; [|apply Hfin]. apply Hsame. cbn [call_ok]. destruct Hc1 as (C1 & d' & D1 & D2 & D3 & D4). exists d'. split; [exact D1|]. split; [exact D2|].
        rewrite D3. intros He. destruct (Hc2 He) as ((Hx & -> & s & S1 & <- & S3) & _ & Hg). destruct (x_of x Hx) as (_ & _ & X3 & _). rewrite X3 in Hj.
        assert (HF : Forall from_voter got) by (apply Forall_forall; intros sb Hsb; apply (Hg sb Hsb)).
        destruct (join_ok E m im cx HE (ge_manifest _ _ _ _ _ _ _ _ _ HG) (ge_internal _ _ _ _ _ _ _ _ _ HG) key_in (ge_options _ _ _ _ _ _ _ _ _ HG) vs
           (gv_styles _ _ _ HV) (gv_ids _ _ _ HV) (gv_states _ _ _ HV) (gv_room _ _ _ HV) (gv_table _ _ _ HV) (gv_one _ _ _ HV) k ss (ge_seats _ _ _ _ _ _ _ _ _ HG)
           (ge_hash _ _ _ _ _ _ _ _ _ HG) up rnd s g got Hup S1 S3 HF) as (en' & J1 & J2). rewrite J1 in Hj. injection Hj as <-. exists s, got. auto.
      + destruct (read_next _ _ _ _ _) as [[ids' n'] got'] eqn:Hr. apply Hsame. cbn [call_ok]. split; [exact Hc1|]. intros He. destruct (Hc2 He) as (J & I1 & G1).
        destruct (read_ok w net "" i ids n got ids' n' got' (gw_ids _ _ _ Hw) Hav I1 G1 Hr) as (R1 & R2 & _). auto.
    - intros [= <- <-]. destruct Hc as (d0 & D1 & D2 & D3).
      destruct (update_docs w ds id (push_share en) d0 Hn) as (U1 & U2 & U3).
      + intros d. split; [reflexivity|]. split; [reflexivity|]. intros y Hy. cbn. apply in_or_app. auto.
      + exact Hds.
      + exact D1.
      + exact D2.
      + intros Hok He. cbn in He. destruct (Hok He) as (O1 & O2 & O3 & O4). cbn [push_share dy_ceremony dy_guardians dy_shares dy_result dy_id]. split; [exact O1|]. split; [exact O2|]. split.
        * apply Forall_app. split; [exact O3|]. constructor; [apply D3, He|constructor].
        * intros r Hr. apply (result_more w w _ (dy_shares d0)); [intros b; auto|intros y Hy; apply in_or_app; auto|apply O4, Hr].
      + split; [exact U1|]. split; [exact U2|]. split; [exact U3|]. cbn [call_ok]. destruct (U2 d0 D1) as (d' & G1 & G2 & _). exists d'. split; [exact G1|congruence].
    - intros [= <- <-]. destruct (find_decryption ds id) as [d0|] eqn:Hf.
      + destruct (find_dec _ _ _ Hf) as [D1 D2]. destruct (update_docs w ds id (push_joined u) d0 Hn) as (U1 & U2 & U3); [|exact Hds|exact D1|exact D2|intros H He; apply (H He)|].
        * intros d. split; [reflexivity|]. split; [reflexivity|apply incl_refl].
        * split; [exact U1|]. split; [exact U2|]. split; [exact U3|exact I].
      + unfold update_decryption. rewrite update_first_no by (apply find_first_none, Hf). split; [exact Hn|]. split; [intros d Hd; exists d; split; [exact Hd|apply grown_refl]|]. split; [exact Hds|exact I].
    - destruct (find_decryption ds id) as [d|] eqn:Hf; [|apply Hfin]. destruct (should_run a d); [|apply Hfin]. apply Hsame. apply Hsnap. apply (find_dec _ _ _ Hf).
    - destruct (find_election w _) as [x|] eqn:Hf; [|apply Hfin]. destruct (el_context x) as [cx'|] eqn:Hcx; [|apply Hfin].
      destruct (rbind _ _) as [med|] eqn:Hl; [|apply Hfin]. apply Hsame. cbn [call_ok]. split; [exact Hc|]. intros He. rewrite He in Hf. pose proof (found w x Hw Hf) as Hx. destruct (x_of x Hx) as (X1 & X2 & X3 & X4 & _).
      assert (cx' = cx) by congruence. subst cx'. split; [exact Hx|]. split; [reflexivity|]. unfold decryption_shares in Hl. destruct (forallb _ _); [|discriminate]. cbn [rbind] in Hl.
      destruct Hc as (Hd & _). destruct (Hd He) as (_ & _ & D3 & _).
      destruct (announce_ok E im cx vs k ss (ge_seats _ _ _ _ _ _ _ _ _ HG) (ge_orders _ _ _ _ _ _ _ _ _ HG) x X4 (dy_shares d) [] (new_dmediator "decryption-mediator" cx) D3 (announced_start cx x _)) as (md & M1 & M2).
      rewrite M1 in Hl. injection Hl as <-. exact M2.
    - apply Hsame. cbn [call_ok]. destruct Hc as [Hc1 Hc2]. split; [exact Hc1|]. intros He. pose proof (Hc2 He) as Hj. destruct (list_ok w net (dy_id d) x (proj1 Hj)) as (L1 & L2 & L3). auto.
    - destruct Hc as [Hc1 Hc2]. destruct ids as [|i ids].
      + destruct (make_result _ _ _ _ _ _) as [r|] eqn:Hr; [|apply Hfin]. apply Hsame. cbn [call_ok]. destruct Hc1 as (C1 & d' & D1 & D2 & D3 & D4). exists d', (dy_shares d). split; [exact D1|]. split; [exact D2|]. split; [exact D4|].
        rewrite D3. intros He. destruct (Hc2 He) as ((Hx & -> & Hann) & _ & Hg & Hcov). destruct (x_of x Hx) as (_ & _ & X3 & X4 & _). rewrite X3, Hup in Hr. destruct (C1 He) as (_ & _ & C3 & _).
        assert (HF : Forall from_voter got) by (apply Forall_forall; intros sb Hsb; apply (Hg sb Hsb)).
        destruct (result_right E m im cx HE (ge_manifest _ _ _ _ _ _ _ _ _ HG) (ge_internal _ _ _ _ _ _ _ _ _ HG) key_in (ge_options _ _ _ _ _ _ _ _ _ HG) vs
           (gv_styles _ _ _ HV) (gv_ids _ _ _ HV) (gv_states _ _ _ HV) (gv_room _ _ _ HV) (gv_table _ _ _ HV) (gv_one _ _ _ HV) k ss (ge_seats _ _ _ _ _ _ _ _ _ HG)
           (ge_orders _ _ _ _ _ _ _ _ _ HG) (ge_some _ _ _ _ _ _ _ _ _ HG) (ge_hash _ _ _ _ _ _ _ _ _ HG) (ge_number _ _ _ _ _ _ _ _ _ HG) (ge_quorum _ _ _ _ _ _ _ _ _ HG) (ge_key _ _ _ _ _ _ _ _ _ HG)
           x X4 (dy_shares d) med got r C3 Hann HF Hr) as (vs' & V1 & V2 & V3). exists vs', got. split; [exact Hg|]. split; [exact V1|]. split; [exact V2|]. split; [exact V3|].
        intros sb Hs. destruct (Hcov sb Hs) as [H|(b & _ & [] & _)]. exact H.
      + destruct (read_next _ _ _ _ _) as [[ids' n'] got'] eqn:Hr. apply Hsame. cbn [call_ok]. split; [exact Hc1|]. intros He. destruct (Hc2 He) as (J & I1 & G1 & V1).
        destruct (read_ok w net (dy_id d) i ids n got ids' n' got' (gw_ids _ _ _ Hw) Hav I1 G1 Hr) as (R1 & R2 & R3). auto.
    - intros [= <- <-]. destruct Hc as (d0 & l & D1 & D2 & D3 & D4). destruct (update_docs w ds id (set_completed r) d0 Hn) as (U1 & U2 & U3).
      + intros d. split; [reflexivity|]. split; [reflexivity|apply incl_refl].
      + exact Hds.
      + exact D1.
      + exact D2.
      + intros Hok He. cbn in He. destruct (Hok He) as (O1 & O2 & O3 & O4). cbn [set_completed dy_ceremony dy_guardians dy_shares dy_result dy_id]. split; [exact O1|]. split; [exact O2|]. split; [exact O3|].
        intros r' [= <-]. rewrite D2. apply (result_more w w id l); [intros b; auto|exact D3|apply D4, He].
      + split; [exact U1|]. split; [exact U2|]. split; [exact U3|exact I].
    - apply Hfin.
  Qed.
  Lemma create_ok w ds id e' : good_db parse w0 w -> NoDup (map dy_id ds) -> (forall d, In d ds -> doc_ok w d) ->
    let ds' := create_decryption w ds id e' in NoDup (map dy_id ds') /\ grow ds ds' /\ forall d, In d ds' -> doc_ok w d.
  Proof.
    intros Hw Hn Hds. cbv zeta. assert (Hsame : NoDup (map dy_id ds) /\ grow ds ds /\ forall d, In d ds -> doc_ok w d) by (split; [exact Hn|split; [intros d Hd; exists d; split; [exact Hd|apply grown_refl]|exact Hds]]).
    unfold create_decryption. destruct (find_election w e') as [x|] eqn:Hf; [|exact Hsame]. destruct (existsb _ ds) eqn:Hx; [exact Hsame|]. split; [|split].
    - rewrite map_app. apply NoDup_app_intro; [exact Hn|repeat constructor; intros []|]. intros i Hi [<-|[]]. apply in_map_iff in Hi as (d & Hd & Hi).
      rewrite (proj2 (existsb_exists _ _)) in Hx; [discriminate|]. exists d. split; [exact Hi|apply String.eqb_eq, Hd].
    - intros d Hd. exists d. split; [apply in_or_app; auto|apply grown_refl].
    - intros d Hd. apply in_app_or in Hd as [Hd|[<-|[]]]; [apply Hds, Hd|]. intros He. cbn in He. cbn [dy_ceremony dy_guardians dy_shares dy_result dy_id].
      assert (e' = e) by (apply find_first_some in Hf as [_ F2]; apply String.eqb_eq in F2; congruence). subst e'.
      destruct (x_of x (found w x Hw Hf)) as (_ & _ & _ & _ & X5 & X6). split; [exact X6|]. split; [exact X5|]. split; [constructor|discriminate].
  Qed.
  Lemma event_inv W ev : inv W -> all_voters (dw_db W) -> (forall i net up rnd, ev = Step i net up rnd -> must_ok (dw_db W) net /\ forall path, up path = true) -> inv (estep W ev).
  Proof.
    intros [I1 I2 I3 I4] Hav Hev. pose proof (good_event E parse device disk w0 W ev I1) as Hg. destruct (event_more E parse device disk w0 W ev I1) as [l Hl].
    assert (Hm : more (dw_db W) (dw_db (estep W ev))) by (intros b; apply (stored_more _ _ _ l Hl)).
    assert (Hr : grow (dw_docs W) (dw_docs W)) by (intros d Hd; exists d; split; [exact Hd|apply grown_refl]).
    assert (Hns : forall c, In c (dw_calls W) -> call_ok (dw_db (estep W ev)) (dw_docs W) c) by (intros c Hc; apply (call_more (dw_db W) _ (dw_docs W)); auto).
    destruct ev as [u|id e'|u id|a id|i net up rnd].
    - split; [exact Hg|exact I2|intros d Hd; apply (doc_more (dw_db W)); [exact Hm|apply I3, Hd]|exact Hns].
    - destruct (create_ok (dw_db W) (dw_docs W) id e' (proj1 I1) I2 I3) as (C1 & C2 & C3). split; [exact Hg|exact C1|exact C3|]. intros c Hc. apply (call_more (dw_db W) _ (dw_docs W)); auto.
    - split; [exact Hg|exact I2|exact I3|]. intros c Hc. cbn in Hc. apply in_app_or in Hc as [Hc|[<-|[]]]; [apply Hns, Hc|exact I].
    - split; [exact Hg|exact I2|exact I3|]. intros c Hc. cbn in Hc. apply in_app_or in Hc as [Hc|[<-|[]]]; [apply Hns, Hc|exact I].
    - destruct (Hev _ _ _ _ eq_refl) as [Hmu Hup]. clear Hm Hns Hl. revert Hg. cbn [dec_event_step]. destruct (nth_error (dw_calls W) i) as [c|] eqn:Hc; [|intros _; split; assumption].
      destruct (dec_step _ _ _ _ _ _ c _ _) as [c' ds'] eqn:Hs. intros Hg.
      destruct (step_ok net up rnd c (dw_db W) (dw_docs W) c' ds' (proj1 I1) Hav Hmu Hup I2 I3 (I4 c (nth_error_In _ _ Hc)) Hs) as (S1 & S2 & S3 & S4).
      split; [exact Hg|exact S1|exact S3|]. intros c2 Hc2. cbn [dw_calls] in Hc2. apply set_nth_in in Hc2 as [->|Hc2]; [exact S4|].
      apply (call_more (dw_db W) _ (dw_docs W)); [intros b; auto|exact S2|apply I4, Hc2].
  Qed.
  Lemma run_inv h : forall W, inv W -> all_voters (dw_db (run W h)) -> pools_work h ->
    (forall id sb, must id sb -> reads_work h /\ exists b, In b (stored (dw_db W) e) /\ closed (so_contents b) = true /\ parse (so_contents b) = Some sb) -> inv (run W h).
  Proof.
    induction h as [|ev h IH]; intros W HW Hav Hp Hmu; [exact HW|]. change (run W (ev :: h)) with (run (estep W ev) h) in *.
    destruct (run_more E parse device disk w0 (ev :: h) W (iv_up W HW)) as [l Hl]. change (run W (ev :: h)) with (run (estep W ev) h) in Hl.
    destruct (event_more E parse device disk w0 W ev (iv_up W HW)) as [l' Hl']. apply IH.
    - apply event_inv; [exact HW|intros b Hb; apply Hav, (stored_more _ _ _ l Hl), Hb|]. intros i net up rnd ->. split; [|apply (Hp i net up rnd); left; reflexivity].
      intros id sb Hs. destruct (Hmu id sb Hs) as [M1 M2]. split; [apply (M1 i net up rnd); left; reflexivity|exact M2].
    - exact Hav.
    - intros i net up rnd Hi. apply (Hp i net up rnd). right. exact Hi.
    - intros id sb Hs. destruct (Hmu id sb Hs) as (M1 & b & M2 & M3). split; [intros i net up rnd Hi; apply (M1 i net up rnd); right; exact Hi|]. exists b. split; [apply (stored_more _ _ _ l' Hl'), M2|exact M3].
  Qed.
End Inv.
