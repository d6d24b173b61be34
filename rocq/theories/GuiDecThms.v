(** * GuiDecThms: the decryption of the graphical application: never wrong, and done when everybody has joined. *)
From Verif Require Import Base Group Codec Hash DLog ElGamal ZK Poly Manifest Ballot Encrypt Box Tally Spec SpecElection SpecTally
  ListFacts CryptoThms TallyThms ShareRun Ceremony SharesThms SpecCeremony Shares SpecShares SpecEndToEnd EndToEnd GuiUpload SpecUpload UploadFacts UploadRead GuiDecrypt SpecGuiDecrypt GuiDecPure GuiDecRun GuiDecInv.
From Coq Require Import List.

Section Thms.
  Context (E : env) (parse : string -> option sub_ballot) (device : string -> bool) (disk : string -> string -> option private_record) (w0 : gdb) (e : string).
  Context (m : manifest) (im : internal_manifest) (cx : context) (k : nat) (ss : list seat) (HE : valid_env E) (HG : gui_election E disk w0 e m im cx k ss).
  Context (vs : list voter) (HV : good_voters E im vs).
  Context (x0 : election) (Hx0 : In x0 (db_elections w0)) (Xid : el_id x0 = e) (Xcx : el_context x0 = Some cx) (Xm : el_manifest x0 = m)
    (Xrec : el_records x0 = map (fun s => (st_id s, st_seq s)) ss) (Xnum : el_guardians x0 = len ss) (Xcer : el_ceremony x0 <> ""%string)
    (Xhas : forall s, In s ss -> disk (st_id s) (el_ceremony x0) <> None)
    (Xdisk : forall u r n q, disk u (el_ceremony x0) = Some r -> exists s, In s ss /\ st_id s = u /\ holder E s (guardian_from_private_record r n q)).
  Notation estep := (dec_event_step E parse device disk).
  Notation run := (dec_run E parse device disk).
  Notation from_voter := (from_voter E im cx vs).
  Notation known := (known E im cx vs ss).
  Notation counts := (counts E im cx vs).
  Notation ballots_right := (ballots_right E im cx vs).
  Notation inv := (inv E parse w0 e m im cx ss vs x0).
  Notation call_ok := (call_ok E parse e m im cx ss vs x0).
  Notation doc_ok := (doc_ok E parse e m im cx ss vs x0).
  Notation start := (mkDecWorld (mkUpWorld w0 []) [] []).
  Notation none := (fun (_ : string) (_ : sub_ballot) => False).
  Lemma inv_start must : inv must start.
  Proof. split; [apply (good_init parse w0 (ge_start _ _ _ _ _ _ _ _ _ HG))|constructor|intros d []|intros c []]. Qed.
  Lemma inv_change (must must' : string -> sub_ballot -> Prop) W : (forall id sb, must' id sb -> ~ In id (map dy_id (dw_docs W))) -> inv must W -> inv must' W.
  Proof.
    intros Hno [I1 I2 I3 I4].
    assert (Hr : forall w id l r, In id (map dy_id (dw_docs W)) -> result_ok E parse e m im cx vs must w id l r -> result_ok E parse e m im cx vs must' w id l r).
    { intros w id l r Hi (vs' & bl & R1 & R2 & R3 & R4 & _). exists vs', bl. do 4 (split; [assumption|]). intros sb Hs. destruct (Hno id sb Hs Hi). }
    assert (Hd : forall w d, In (dy_id d) (map dy_id (dw_docs W)) -> doc_ok must w d -> doc_ok must' w d).
    { intros w d Hi H He. destruct (H He) as (D1 & D2 & D3 & D4). split; [exact D1|]. split; [exact D2|]. split; [exact D3|]. intros r Hr'. apply Hr; [exact Hi|apply D4, Hr']. }
    assert (Hs : forall w d, snap E parse e m im cx ss vs x0 must w (dw_docs W) d -> snap E parse e m im cx ss vs x0 must' w (dw_docs W) d /\ In (dy_id d) (map dy_id (dw_docs W))).
    { intros w d (S1 & d' & S2 & S3). assert (Hi : In (dy_id d) (map dy_id (dw_docs W))) by (rewrite <- (proj1 S3); apply in_map, S2). split; [|exact Hi]. split; [apply Hd; assumption|]. exists d'. auto. }
    split; [exact I1|exact I2|intros d Hi; apply Hd; [apply in_map, Hi|apply I3, Hi]|].
    intros c Hc. specialize (I4 c Hc). destruct c as [u id|u d|u d x cx' g|u d x cx' g ids n got|id en|id u|a id|d|d x cx' med|d x cx' med ids n got|id r|ok]; cbn [GuiDecInv.call_ok] in *; auto.
    - apply Hs, I4.
    - destruct I4 as [A B]. split; [apply Hs, A|exact B].
    - destruct I4 as [A B]. split; [apply Hs, A|exact B].
    - apply Hs, I4.
    - destruct I4 as [A B]. split; [apply Hs, A|exact B].
    - destruct I4 as [A B]. destruct (Hs _ _ A) as [A' Hi]. split; [exact A'|]. intros He. destruct (B He) as (B1 & B2 & B3 & B4). split; [exact B1|]. split; [exact B2|]. split; [exact B3|].
      intros sb Hsb. destruct (Hno _ _ Hsb Hi).
    - destruct I4 as (d & l & D1 & D2 & D3 & D4). exists d, l. split; [exact D1|]. split; [exact D2|]. split; [exact D3|]. intros He. apply Hr; [rewrite <- D2; apply in_map, D1|apply D4, He].
  Qed.
  Lemma only_all w : only_voters E parse im cx vs w e -> all_voters E parse e im cx vs w.
  Proof. intros H b Hb. destruct (H b Hb) as (v & Hv & eb & H1 & H2). exists (submit_ballot E eb (vr_state v)). split; [exact H2|]. exists v. split; [exact Hv|]. exists eb. auto. Qed.
  Lemma pools_app h1 h2 : pools_work (h1 ++ h2) -> pools_work h1 /\ pools_work h2.
  Proof. intros H. split; intros i net up rnd Hi; apply (H i net up rnd), in_or_app; auto. Qed.
  Lemma all_less h W : good_up parse w0 (dw_up W) -> all_voters E parse e im cx vs (dw_db (run W h)) -> all_voters E parse e im cx vs (dw_db W).
  Proof. intros HW H b Hb. destruct (run_more E parse device disk w0 h W HW) as [l Hl]. apply H, (stored_more _ _ _ l Hl), Hb. Qed.
  Lemma reach h : all_voters E parse e im cx vs (dw_db (run start h)) -> pools_work h -> inv none (run start h).
  Proof.
    intros Hav Hp. apply (run_inv E parse device disk w0 e m im cx k ss HE HG vs HV x0 Hx0 Xid Xcx Xm Xrec Xnum Xdisk); [apply inv_start|exact Hav|exact Hp|intros id sb []].
  Qed.
  Lemma never_wrong h1 h2 d r : pools_work (h1 ++ h2) -> only_voters E parse im cx vs (dw_db (run start (h1 ++ h2))) e ->
    In d (dw_docs (run start (h1 ++ h2))) -> dy_election d = e -> dy_result d = Some r -> find_decryption (dw_docs (run start h1)) (dy_id d) = None ->
    exists counted, NoDup counted /\
      (forall v, In v counted -> In v vs /\ exists b, In b (stored (dw_db (run start (h1 ++ h2))) e) /\ file_of E parse im cx v b) /\
      (reads_work h2 -> forall v b, In v vs -> In b (stored (dw_db (run start h1)) e) -> closed (so_contents b) = true -> file_of E parse im cx v b -> In v counted) /\
      (zero_proof d \/ right_counts m im counted r) /\ right_spoiled im counted r.
  Proof.
    intros Hp Hov Hd He Hr Hnew. rewrite run_app in *. set (W1 := run start h1) in *. destruct (pools_app _ _ Hp) as [Hp1 Hp2].
    assert (Hup1 : good_up parse w0 (dw_up W1)) by (apply good_run; apply (good_init parse w0 (ge_start _ _ _ _ _ _ _ _ _ HG))).
    pose proof (only_all _ Hov) as Hav. pose proof (reach h1 (all_less h2 W1 Hup1 Hav) Hp1) as I1.
    set (must := fun (id : string) (sb : sub_ballot) => id = dy_id d /\ reads_work h2 /\ exists b, In b (stored (dw_db W1) e) /\ closed (so_contents b) = true /\ parse (so_contents b) = Some sb).
    assert (I2 : inv must (run W1 h2)).
    { apply (run_inv E parse device disk w0 e m im cx k ss HE HG vs HV x0 Hx0 Xid Xcx Xm Xrec Xnum Xdisk); [|exact Hav|exact Hp2|intros id sb (_ & A & B); auto].
      apply (inv_change none); [|exact I1]. intros id sb (-> & _) Hi. apply in_map_iff in Hi as (d' & Hi & Hd'). pose proof (proj1 (find_first_none _ _) Hnew d' Hd') as Hn. cbn beta in Hn.
      rewrite Hi, String.eqb_refl in Hn. discriminate. }
    destruct (iv_docs _ _ _ _ _ _ _ _ _ _ _ _ I2 d Hd He) as (_ & _ & _ & D). destruct (D r Hr) as (vs' & bl & R1 & [R2 R2'] & R3 & R4 & R5).
    exists vs'. split; [exact R2|]. split; [|split; [|split]].
    - intros v Hv. apply R2' in Hv as [Hi (sb & Hsb & eb & Hc & Hs)]. split; [exact Hi|]. destruct (R1 sb Hsb) as (_ & b & B1 & B2). exists b. split; [exact B1|]. exists eb. split; [exact Hc|congruence].
    - intros Hrd v b Hv Hb Hcl (eb & F1 & F2). apply R2'. split; [exact Hv|]. exists (submit_ballot E eb (vr_state v)). split; [|exists eb; auto]. apply R5. split; [reflexivity|]. split; [exact Hrd|]. exists b. auto.
    - destruct R3 as [(en & Hen & s & pf & Z1 & Z2 & Z3)|R3]; [left; exists en, s, pf; auto|right; exact R3].
    - intros i p Hip. destruct (R4 i p Hip) as (v & V1 & V2 & V3 & V4 & V5). exists v. split; [apply R2'; auto|]. auto.
  Qed.

  (** ** quiet histories: no uploads, and no reading fails *)
  Context (w : gdb) (id0 : string).
  Definition rd (ids : list doc_id) : list sub_ballot := flat_map (fun i => match get_submitted_ballot parse (Some w) i with Got b => [b] | _ => [] end) ids.
  Definition BL : list sub_ballot := rd (ballot_ids w e).
  Context (Hw : good_db parse w0 w) (Hav : all_voters E parse e im cx vs w).
  Lemma in_BL sb : In sb BL <-> exists b, In b (stored w e) /\ closed (so_contents b) = true /\ parse (so_contents b) = Some sb.
  Proof.
    unfold BL, rd. rewrite ids_stored, in_flat_map. split.
    - intros (i & Hi & Hs). apply in_map_iff in Hi as (b & <- & Hb). destruct (Hav b Hb) as (sb' & Hp & _). rewrite (read_stored parse w e b sb' (gw_ids _ _ _ Hw) Hb Hp) in Hs. exists b. unfold closed.
      destruct (last_char (so_contents b)) as [c|]; [|destruct Hs]. destruct (Ascii.eqb c "}"%char); [|destruct Hs]. destruct Hs as [<-|[]]. auto.
    - intros (b & Hb & Hc & Hp). exists (so_doc b). split; [apply in_map, Hb|]. rewrite (read_stored parse w e b sb (gw_ids _ _ _ Hw) Hb Hp). unfold closed in Hc.
      destruct (last_char (so_contents b)) as [c|]; [|discriminate]. rewrite Hc. left. reflexivity.
  Qed.
  Lemma BL_voters : Forall from_voter BL.
  Proof. apply Forall_forall. intros sb Hs. apply in_BL in Hs as (b & Hb & _ & Hp). destruct (Hav b Hb) as (sb' & Hp' & Hv). congruence. Qed.
  Lemma rd_next i ids n got ids' n' got' : read_next parse (Some w) (i :: ids) n got = (ids', n', got') -> got' ++ rd ids' = got ++ rd (i :: ids).
  Proof.
    cbn [read_next]. unfold rd at 2. cbn [flat_map]. fold (rd ids). destruct (get_submitted_ballot parse (Some w) i) as [| |b] eqn:Hg.
    - destruct (Nat.leb 2 n); intros [= <- <- <-]; [reflexivity|]. unfold rd at 1. cbn [flat_map]. rewrite Hg. reflexivity.
    - intros [= <- <- <-]. reflexivity.
    - intros [= <- <- <-]. rewrite <- app_assoc. reflexivity.
  Qed.
  Notation entry_for := (entry_for E im cx vs).
  Definition entry_right (en : dec_entry) : Prop := exists s, In s ss /\ entry_for s BL en.
  Definition exact_result (r : dec_result) : Prop := exists vs', counts vs' BL /\ right_tally m im vs' (rs_tally r) /\ ballots_right BL (rs_spoiled r) /\
    (forall v, In v vs' -> vr_state v = SPOILED -> In (vr_id v) (dkeys (rs_spoiled r))) /\ recorded E m cx ss BL r.
  Definition doc2 (d : decryption) : Prop := dy_id d = id0 -> dy_election d = e /\ Forall entry_right (dy_shares d) /\ (forall u, In u (dy_joined d) -> In u (map en_user (dy_shares d))) /\
    forall r, dy_result d = Some r -> exact_result r.
  Definition call2 (ds : list decryption) (c : dec_call) : Prop :=
    match c with
    | JoinRead u d x cx' g ids n got => dy_id d = id0 -> got ++ rd ids = BL
    | JoinPush id en => id = id0 -> entry_right en
    | JoinMark id u => id = id0 -> exists d, In d ds /\ dy_id d = id0 /\ In u (map en_user (dy_shares d))
    | ViewElection d | ViewList d _ _ _ => doc2 d
    | ViewRead d x cx' med ids n got => doc2 d /\ (dy_id d = id0 -> got ++ rd ids = BL)
    | ViewSet id r => id = id0 -> exact_result r
    | _ => True
    end.
  Definition here (ds : list decryption) : Prop := exists d, In d ds /\ dy_id d = id0.
  Record inv2 (W : dec_world) : Prop := {
    i2_inv : inv none W;
    i2_db : dw_db W = w;
    i2_here : here (dw_docs W);
    i2_docs : forall d, In d (dw_docs W) -> doc2 d;
    i2_calls : forall c, In c (dw_calls W) -> call2 (dw_docs W) c }.
  Lemma here_grow ds ds' : grow ds ds' -> here ds -> here ds'.
  Proof. intros Hg (d & D1 & D2). destruct (Hg d D1) as (d' & G1 & G2 & _). exists d'. split; [exact G1|congruence]. Qed.
  Lemma call2_grow ds ds' c : grow ds ds' -> call2 ds c -> call2 ds' c.
  Proof.
    intros Hg. destruct c; cbn [call2]; auto. intros H He. destruct (H He) as (d & D1 & D2 & D3). destruct (Hg d D1) as (d' & G1 & G2 & G3 & G4). exists d'. split; [exact G1|]. split; [congruence|].
    apply in_map_iff in D3 as (en & <- & D3). apply in_map, G4, D3.
  Qed.
  Lemma update_docs2 ds id f : (forall d, dy_id (f d) = dy_id d) -> (forall d, In d ds -> doc2 d) -> (forall d, In d ds -> dy_id d = id -> doc2 d -> doc2 (f d)) -> forall d, In d (update_decryption ds id f) -> doc2 d.
  Proof. intros Hf Hds Hk d Hd. apply update_first_in in Hd as [Hd|(y & Y1 & Y2 & ->)]; [apply Hds, Hd|]. apply String.eqb_eq in Y2. apply Hk; auto. Qed.
  Lemma snap_e ds d : NoDup (map dy_id ds) -> (forall d, In d ds -> doc2 d) -> (exists d', In d' ds /\ grown d d') -> dy_id d = id0 -> dy_election d = e.
  Proof. intros Hn Hds (d' & D1 & D2 & D3 & D4) Hi. destruct (Hds d' D1) as (F & _); congruence. Qed.
  Lemma step2 up rnd c ds c' ds' : (forall path, up path = true) -> NoDup (map dy_id ds) -> (forall d, In d ds -> doc_ok none w d) -> (forall d, In d ds -> doc2 d) ->
    call_ok none w ds c -> call2 ds c -> dec_step E parse disk true up rnd c w ds = (c', ds') -> (forall d, In d ds' -> doc2 d) /\ call2 ds' c'.
  Proof.
    intros Hup Hn Hdk Hds Hc H2.
    assert (Hsame : forall c1, call2 ds c1 -> (c1, ds) = (c', ds') -> (forall d, In d ds' -> doc2 d) /\ call2 ds' c') by (intros c1 H1 [= <- <-]; auto).
    assert (Hfin : forall b, (Finished b, ds) = (c', ds') -> (forall d, In d ds' -> doc2 d) /\ call2 ds' c') by (intros b; apply Hsame; exact I).
    destruct c as [u id|u d|u d x cx' g|u d x cx' g ids n got|id en|id u|a id|d|d x cx' med|d x cx' med ids n got|id r|ok]; cbn [dec_step GuiDecInv.call_ok call2] in *.
    - destruct (find_decryption ds id) as [d|]; [|apply Hfin]. apply Hsame. exact I.
    - destruct (find_election w _) as [x|]; [|apply Hfin]. destruct (el_context x) as [cx'|]; [|apply Hfin]. destruct (load_guardian disk u d) as [g|]; [|apply Hfin]. apply Hsame. exact I.
    - apply Hsame. cbn [call2]. intros Hi. destruct Hc as [Hc1 Hc2]. destruct Hc1 as (_ & Hc1). destruct (Hc2 (snap_e ds d Hn Hds Hc1 Hi)) as (Hx & _).
      destruct (x_of e m cx ss x0 Xid Xcx Xm Xrec Xnum x Hx) as (-> & _). reflexivity.
    - destruct Hc as [(C1 & Hc1) Hc2]. destruct ids as [|i ids].
      + destruct (join_entry _ _ _ _ _ _ _ _) as [en|] eqn:Hj; [|apply Hfin]. apply Hsame. cbn [call2]. intros Hi. specialize (H2 Hi). cbn in H2. rewrite app_nil_r in H2. subst got.
        destruct (Hc2 (snap_e ds d Hn Hds Hc1 Hi)) as ((Hx & -> & s & S1 & <- & S3) & _ & Hg). destruct (x_of e m cx ss x0 Xid Xcx Xm Xrec Xnum x Hx) as (_ & _ & X3 & _). rewrite X3 in Hj.
        destruct (join_ok E m im cx HE (ge_manifest _ _ _ _ _ _ _ _ _ HG) (ge_internal _ _ _ _ _ _ _ _ _ HG) (key_in E disk w0 e m im cx k ss HE HG) (ge_options _ _ _ _ _ _ _ _ _ HG) vs
           (gv_styles _ _ _ HV) (gv_ids _ _ _ HV) (gv_states _ _ _ HV) (gv_room _ _ _ HV) (gv_table _ _ _ HV) (gv_one _ _ _ HV) k ss (ge_seats _ _ _ _ _ _ _ _ _ HG)
           (ge_hash _ _ _ _ _ _ _ _ _ HG) up rnd s g BL Hup S1 S3 BL_voters) as (en' & J1 & J2). rewrite J1 in Hj. injection Hj as <-. exists s. auto.
      + destruct (read_next _ _ _ _ _) as [[ids' n'] got'] eqn:Hr. apply Hsame. cbn [call2]. intros Hi. rewrite (rd_next _ _ _ _ _ _ _ Hr). apply H2, Hi.
    - intros [= <- <-]. split.
      + apply update_docs2; [reflexivity|exact Hds|]. intros d Hd Hi Hok He. cbn in He. destruct (Hok He) as (O1 & O2 & O3 & O4). cbn [push_share dy_election dy_shares dy_result dy_joined]. split; [exact O1|]. split; [|split; [|exact O4]].
        * apply Forall_app. split; [exact O2|]. constructor; [apply H2; congruence|constructor].
        * intros u Hu. rewrite map_app. apply in_or_app. left. apply O3, Hu.
      + cbn [call2]. intros Hi. destruct Hc as (d & D1 & D2 & _).
        destruct (update_first_grows (fun d d' => (d' = d \/ d' = push_share en d)) (fun d => String.eqb (dy_id d) id) (push_share en) ds (fun _ => or_introl eq_refl) (fun _ => or_intror eq_refl) d D1) as (d' & G1 & _).
        assert (Hex : exists y, In y (update_decryption ds id (push_share en)) /\ dy_id y = id /\ In (en_user en) (map en_user (dy_shares y))).
        { clear - D1 D2. unfold update_decryption. induction ds as [|z l IH]; [destruct D1|]. cbn [update_first]. destruct (String.eqb_spec (dy_id z) id) as [Hz|Hz].
          - exists (push_share en z). split; [left; reflexivity|]. split; [exact Hz|]. cbn. rewrite map_app. apply in_or_app. right. left. reflexivity.
          - destruct D1 as [->|D1]; [congruence|]. destruct (IH D1) as (y & Y1 & Y2). exists y. split; [right; exact Y1|exact Y2]. }
        destruct Hex as (y & Y1 & Y2 & Y3). exists y. split; [exact Y1|]. split; [congruence|exact Y3].
    - intros [= <- <-]. split; [|exact I]. apply update_docs2; [reflexivity|exact Hds|]. intros d Hd Hi Hok He. cbn in He. destruct (Hok He) as (O1 & O2 & O3 & O4). cbn [push_joined dy_election dy_shares dy_result dy_joined].
      split; [exact O1|]. split; [exact O2|]. split; [|exact O4]. intros v Hv. apply in_app_or in Hv as [Hv|[<-|[]]]; [apply O3, Hv|].
      destruct H2 as (d' & D1 & D2 & D3); [congruence|]. assert (d' = d) by (apply (NoDup_inj dy_id ds); [exact Hn|exact D1|exact Hd|congruence]). subst d'. exact D3.
    - destruct (find_decryption ds id) as [d|] eqn:Hf; [|apply Hfin]. destruct (should_run a d); [|apply Hfin]. apply Hsame. cbn [call2]. apply Hds. apply (find_dec _ _ _ Hf).
    - destruct (find_election w _) as [x|]; [|apply Hfin]. destruct (el_context x) as [cx'|]; [|apply Hfin]. destruct (rbind _ _) as [med|]; [|apply Hfin]. apply Hsame. exact H2.
    - apply Hsame. cbn [call2]. split; [exact H2|]. intros Hi. destruct Hc as [Hc1 Hc2]. destruct (Hc2 (proj1 (H2 Hi))) as (Hx & _). destruct (x_of e m cx ss x0 Xid Xcx Xm Xrec Xnum x Hx) as (-> & _). reflexivity.
    - destruct Hc as [Hc1 Hc2]. destruct H2 as [Hd2 H2]. destruct ids as [|i ids].
      + destruct (make_result _ _ _ _ _ _) as [r|] eqn:Hr; [|apply Hfin]. apply Hsame. cbn [call2]. intros Hi. specialize (H2 Hi). cbn in H2. rewrite app_nil_r in H2. subst got. destruct (Hd2 Hi) as (He & D2 & D3 & D4).
        destruct (Hc2 He) as ((Hx & -> & Hann) & _ & Hg & _). destruct (x_of e m cx ss x0 Xid Xcx Xm Xrec Xnum x Hx) as (_ & _ & X3 & X4 & _). rewrite X3, Hup in Hr. destruct Hc1 as (C1 & _). destruct (C1 He) as (_ & _ & C3 & _).
        pose proof (success_full E m im cx HE (ge_manifest _ _ _ _ _ _ _ _ _ HG) (ge_internal _ _ _ _ _ _ _ _ _ HG) (key_in E disk w0 e m im cx k ss HE HG) (ge_options _ _ _ _ _ _ _ _ _ HG) vs
           (gv_styles _ _ _ HV) (gv_ids _ _ _ HV) (gv_states _ _ _ HV) ss (ge_number _ _ _ _ _ _ _ _ _ HG) x (dy_shares d) med BL r C3 Hann BL_voters Hr) as Hall.
        destruct (result_done E m im cx HE (ge_manifest _ _ _ _ _ _ _ _ _ HG) (ge_internal _ _ _ _ _ _ _ _ _ HG) (key_in E disk w0 e m im cx k ss HE HG) (ge_options _ _ _ _ _ _ _ _ _ HG) vs
           (gv_styles _ _ _ HV) (gv_ids _ _ _ HV) (gv_states _ _ _ HV) (gv_room _ _ _ HV) (gv_table _ _ _ HV) (gv_one _ _ _ HV) k ss (ge_seats _ _ _ _ _ _ _ _ _ HG)
           (ge_orders _ _ _ _ _ _ _ _ _ HG) (ge_some _ _ _ _ _ _ _ _ _ HG) (ge_hash _ _ _ _ _ _ _ _ _ HG) (ge_number _ _ _ _ _ _ _ _ _ HG) (ge_quorum _ _ _ _ _ _ _ _ _ HG) (ge_key _ _ _ _ _ _ _ _ _ HG)
           x X4 (dy_shares d) med BL D2 Hall Hann BL_voters) as (r' & vs' & R1 & R2). 
        pose proof (result_recorded E m im cx HE (ge_manifest _ _ _ _ _ _ _ _ _ HG) (ge_internal _ _ _ _ _ _ _ _ _ HG) (key_in E disk w0 e m im cx k ss HE HG) (ge_options _ _ _ _ _ _ _ _ _ HG) vs
           (gv_styles _ _ _ HV) (gv_ids _ _ _ HV) (gv_states _ _ _ HV) k ss (ge_seats _ _ _ _ _ _ _ _ _ HG)
           (ge_orders _ _ _ _ _ _ _ _ _ HG) x X4 (dy_shares d) med BL r D2 Hall Hann BL_voters Hr) as Hrec.
        rewrite R1 in Hr. injection Hr as <-. exists vs'. destruct R2 as (R2 & R3 & R4 & R5). auto.
      + destruct (read_next _ _ _ _ _) as [[ids' n'] got'] eqn:Hr. apply Hsame. cbn [call2]. split; [exact Hd2|]. intros Hi. rewrite (rd_next _ _ _ _ _ _ _ Hr). apply H2, Hi.
    - intros [= <- <-]. split; [|exact I]. apply update_docs2; [reflexivity|exact Hds|]. intros d Hd Hi Hok He. cbn in He. destruct (Hok He) as (O1 & O2 & O3 & O4). cbn [set_completed dy_election dy_shares dy_result dy_joined].
      split; [exact O1|]. split; [exact O2|]. split; [exact O3|]. intros r' [= <-]. apply H2. congruence.
    - apply Hfin.
  Qed.
  (** ** progress *)
  Definition kept (d d' : decryption) : Prop := dy_id d' = dy_id d /\ incl (dy_joined d) (dy_joined d') /\ (dy_result d <> None -> dy_result d' <> None).
  Lemma kept_refl d : kept d d.
  Proof. split; [reflexivity|]. split; [apply incl_refl|auto]. Qed.
  Lemma step_kept net up rnd c v ds c' ds' : dec_step E parse disk net up rnd c v ds = (c', ds') -> forall d, In d ds -> exists d', In d' ds' /\ kept d d'.
  Proof.
    assert (Hsame : forall c1, (c1, ds) = (c', ds') -> forall d, In d ds -> exists d', In d' ds' /\ kept d d') by (intros c1 [= <- <-] d Hd; exists d; split; [exact Hd|apply kept_refl]).
    assert (Hupd : forall c1 id f, (forall d, kept d (f d)) -> (c1, update_decryption ds id f) = (c', ds') -> forall d, In d ds -> exists d', In d' ds' /\ kept d d')
      by (intros c1 id f Hf [= <- <-] d Hd; apply update_first_grows; [apply kept_refl|exact Hf|exact Hd]).
    destruct c as [u id|u d|u d x cx' g|u d x cx' g ids n got|id en|id u|a id|d|d x cx' med|d x cx' med ids n got|id r|ok]; cbn [dec_step]; try apply Hsame.
    - destruct (find_decryption ds id); apply Hsame.
    - destruct (find_election v _) as [x|]; [|apply Hsame]. destruct (el_context x); [|apply Hsame]. destruct (load_guardian _ _ _); apply Hsame.
    - destruct ids as [|i ids]; [destruct (join_entry _ _ _ _ _ _ _ _); apply Hsame|]. destruct (read_next _ _ _ _ _) as [[ids' n'] got']; apply Hsame.
    - apply Hupd. intros d. split; [reflexivity|]. split; [apply incl_refl|auto].
    - apply Hupd. intros d. split; [reflexivity|]. split; [intros y Hy; apply in_or_app; auto|auto].
    - destruct (find_decryption ds id) as [d|]; [destruct (should_run a d)|]; apply Hsame.
    - destruct (find_election v _) as [x|]; [|apply Hsame]. destruct (el_context x); [|apply Hsame]. destruct (rbind _ _); apply Hsame.
    - destruct ids as [|i ids]; [destruct (make_result _ _ _ _ _ _); apply Hsame|]. destruct (read_next _ _ _ _ _) as [[ids' n'] got']; apply Hsame.
    - apply Hupd. intros d. split; [reflexivity|]. split; [apply incl_refl|cbn; discriminate].
  Qed.
  Definition quiet (ev : dec_event) : Prop := match ev with Uploads _ => False | Step _ net up _ => net = true /\ forall path, up path = true | _ => True end.
  Lemma event_kept W ev d : In d (dw_docs W) -> exists d', In d' (dw_docs (estep W ev)) /\ kept d d'.
  Proof.
    intros Hd. assert (Hs : exists d', In d' (dw_docs W) /\ kept d d') by (exists d; split; [exact Hd|apply kept_refl]).
    destruct ev as [u|id e'|u id|a id|i net up rnd]; cbn [dec_event_step dw_docs]; try exact Hs.
    - unfold create_decryption. destruct (find_election _ e'); [|exact Hs]. destruct (existsb _ _); [exact Hs|]. exists d. split; [apply in_or_app; auto|apply kept_refl].
    - destruct (nth_error _ i) as [c|]; [|exact Hs]. destruct (dec_step _ _ _ _ _ _ c _ _) as [c' ds'] eqn:Hst. cbn [dw_docs]. apply (step_kept _ _ _ _ _ _ _ _ Hst), Hd.
  Qed.
  Lemma event2 W ev : inv2 W -> quiet ev -> inv2 (estep W ev).
  Proof.
    intros [I1 I2 I3 I4 I5] Hq.
    assert (Hi : inv none (estep W ev)).
    { apply (event_inv E parse device disk w0 e m im cx k ss HE HG vs HV x0 Hx0 Xid Xcx Xm Xrec Xnum Xdisk); [exact I1|rewrite I2; exact Hav|]. intros i net up rnd ->. destruct Hq as [_ Hq]. split; [intros id sb []|exact Hq]. }
    assert (Hdb : dw_db (estep W ev) = w) by (unfold dw_db; rewrite up_of; destruct ev; [destruct Hq|exact I2..]).
    destruct ev as [u|id e'|u id|a id|i net up rnd]; [destruct Hq| | | |].
    - destruct (create_ok E parse disk w0 e m im cx k ss HG vs x0 Hx0 Xid Xcx Xm Xrec Xnum none (dw_db W) (dw_docs W) id e') as (C1 & C2 & C3);
        [apply (iv_up _ _ _ _ _ _ _ _ _ _ _ _ I1)|apply (iv_ids _ _ _ _ _ _ _ _ _ _ _ _ I1)|apply (iv_docs _ _ _ _ _ _ _ _ _ _ _ _ I1)|].
      split; [exact Hi|exact Hdb|apply (here_grow _ _ C2 I3)| |intros c Hc; apply (call2_grow (dw_docs W)); [exact C2|apply I5, Hc]].
      intros d Hd. cbn [dec_event_step dw_docs] in Hd. unfold create_decryption in Hd. destruct (find_election _ e'); [|apply I4, Hd]. destruct (existsb _ _) eqn:Hx; [apply I4, Hd|].
      apply in_app_or in Hd as [Hd|[<-|[]]]; [apply I4, Hd|]. intros Hid. cbn in Hid. subst id. destruct I3 as (d' & D1 & D2). rewrite (proj2 (existsb_exists _ _)) in Hx; [discriminate|]. exists d'. split; [exact D1|apply String.eqb_eq, D2].
    - split; [exact Hi|exact Hdb|exact I3|exact I4|]. intros c Hc. cbn in Hc. apply in_app_or in Hc as [Hc|[<-|[]]]; [apply I5, Hc|exact I].
    - split; [exact Hi|exact Hdb|exact I3|exact I4|]. intros c Hc. cbn in Hc. apply in_app_or in Hc as [Hc|[<-|[]]]; [apply I5, Hc|exact I].
    - destruct Hq as [-> Hup]. revert Hi Hdb. cbn [dec_event_step]. destruct (nth_error (dw_calls W) i) as [c|] eqn:Hc; [|intros _ _; split; assumption].
      destruct (dec_step _ _ _ _ _ _ c _ _) as [c' ds'] eqn:Hs. intros Hi Hdb. pose proof (nth_error_In _ _ Hc) as Hin. rewrite I2 in Hs.
      pose proof (iv_ids _ _ _ _ _ _ _ _ _ _ _ _ I1) as Hn. pose proof (iv_docs _ _ _ _ _ _ _ _ _ _ _ _ I1) as Hk. pose proof (iv_calls _ _ _ _ _ _ _ _ _ _ _ _ I1 c Hin) as Hck. rewrite I2 in Hk, Hck.
      destruct (step2 up rnd c (dw_docs W) c' ds' Hup Hn Hk I4 Hck (I5 c Hin) Hs) as (S1 & S2).
      destruct (step_ok E parse disk w0 e m im cx k ss HE HG vs HV x0 Hx0 Xid Xcx Xm Xrec Xnum Xdisk none true up rnd c w (dw_docs W) c' ds' Hw Hav) as (_ & Hgr & _ & _);
        [intros id sb []|exact Hup|exact Hn|exact Hk|exact Hck|exact Hs|].
      split; [exact Hi|exact Hdb|apply (here_grow _ _ Hgr I3)|exact S1|]. intros c2 Hc2. cbn [dw_calls] in Hc2. apply set_nth_in in Hc2 as [->|Hc2]; [exact S2|].
      apply (call2_grow (dw_docs W)); [exact Hgr|apply I5, Hc2].
  Qed.
  Lemma run2 h : forall W, inv2 W -> Forall quiet h -> inv2 (run W h).
  Proof. induction h as [|ev h IH]; intros W HW Hq; [exact HW|]. inversion Hq; subst. apply (IH (estep W ev)); [apply event2; assumption|assumption]. Qed.

  Definition has_joined (ds : list decryption) (u : string) : Prop := exists d, In d ds /\ dy_id d = id0 /\ In u (dy_joined d).
  Definition has_result (ds : list decryption) : Prop := exists d, In d ds /\ dy_id d = id0 /\ dy_result d <> None.
  Lemma joined_event W ev u : has_joined (dw_docs W) u -> has_joined (dw_docs (estep W ev)) u.
  Proof. intros (d & D1 & D2 & D3). destruct (event_kept W ev d D1) as (d' & K1 & K2 & K3 & K4). exists d'. split; [exact K1|]. split; [congruence|apply K3, D3]. Qed.
  Lemma result_event W ev : has_result (dw_docs W) -> has_result (dw_docs (estep W ev)).
  Proof. intros (d & D1 & D2 & D3). destruct (event_kept W ev d D1) as (d' & K1 & K2 & K3 & K4). exists d'. split; [exact K1|]. split; [congruence|apply K4, D3]. Qed.
  Definition active (u : string) (c : dec_call) : Prop :=
    match c with
    | JoinStart u' id => u' = u /\ id = id0
    | JoinElection u' d | JoinList u' d _ _ _ | JoinRead u' d _ _ _ _ _ _ => u' = u /\ dy_id d = id0
    | JoinPush id en => id = id0 /\ en_user en = u
    | JoinMark id u' => id = id0 /\ u' = u
    | _ => False
    end.
  Lemma here_find ds : here ds -> exists d, find_decryption ds id0 = Some d /\ In d ds /\ dy_id d = id0.
  Proof.
    intros (d & D1 & D2). destruct (find_decryption ds id0) as [d'|] eqn:Hf; [exists d'; split; [reflexivity|apply (find_dec _ _ _ Hf)]|].
    pose proof (proj1 (find_first_none _ _) Hf d D1) as Hn. cbn beta in Hn. rewrite D2, String.eqb_refl in Hn. discriminate.
  Qed.
  Lemma step_active s net up rnd c ds c' ds' : In s ss -> (forall path, up path = true) -> NoDup (map dy_id ds) -> here ds -> (forall d, In d ds -> doc_ok none w d) -> (forall d, In d ds -> doc2 d) ->
    call_ok none w ds c -> active (st_id s) c -> dec_step E parse disk net up rnd c w ds = (c', ds') -> active (st_id s) c' \/ has_joined ds' (st_id s).
  Proof.
    intros Hs Hup Hn Hh Hdk Hds Hc Ha.
    destruct c as [u id|u d|u d x cx' g|u d x cx' g ids n got|id en|id u|a id|d|d x cx' med|d x cx' med ids n got|id r|ok]; cbn [dec_step GuiDecInv.call_ok active] in *; try contradiction; destruct Ha as [A1 A2].
    - subst. destruct (here_find ds Hh) as (d & -> & D1 & D2). intros [= <- <-]. left. cbn. auto.
    - destruct Hc as (C1 & Hc1). pose proof (snap_e ds d Hn Hds Hc1 A2) as He. rewrite He. destruct (finds E parse disk w0 e m im cx k ss HG x0 Hx0 Xid w Hw) as (x & -> & Hx).
      destruct (x_of e m cx ss x0 Xid Xcx Xm Xrec Xnum x Hx) as (_ & -> & _). destruct (C1 He) as (D1 & _). unfold load_guardian. rewrite D1.
      destruct (String.eqb_spec (el_ceremony x0) "") as [Hb|_]; [destruct (Xcer Hb)|]. subst u. destruct (disk (st_id s) (el_ceremony x0)) as [r|] eqn:Hr; [|destruct (Xhas s Hs Hr)].
      intros [= <- <-]. left. cbn. auto.
    - intros [= <- <-]. left. cbn. auto.
    - destruct Hc as [(C1 & Hc1) Hc2]. destruct ids as [|i ids].
      + destruct (Hc2 (snap_e ds d Hn Hds Hc1 A2)) as ((Hx & -> & s' & S1 & S2 & S3) & _ & Hg). destruct (x_of e m cx ss x0 Xid Xcx Xm Xrec Xnum x Hx) as (_ & _ & -> & _).
        assert (HF : Forall from_voter got) by (apply Forall_forall; intros sb Hsb; apply (Hg sb Hsb)).
        destruct (join_ok E m im cx HE (ge_manifest _ _ _ _ _ _ _ _ _ HG) (ge_internal _ _ _ _ _ _ _ _ _ HG) (key_in E disk w0 e m im cx k ss HE HG) (ge_options _ _ _ _ _ _ _ _ _ HG) vs
           (gv_styles _ _ _ HV) (gv_ids _ _ _ HV) (gv_states _ _ _ HV) (gv_room _ _ _ HV) (gv_table _ _ _ HV) (gv_one _ _ _ HV) k ss (ge_seats _ _ _ _ _ _ _ _ _ HG)
           (ge_hash _ _ _ _ _ _ _ _ _ HG) up rnd s' g got Hup S1 S3 HF) as (en & J1 & J2). rewrite <- S2, J1. intros [= <- <-]. left. cbn. split; [exact A2|]. rewrite (ef_user _ _ _ _ _ _ _ J2). congruence.
      + destruct (read_next _ _ _ _ _) as [[ids' n'] got']. intros [= <- <-]. left. cbn. auto.
    - intros [= <- <-]. left. cbn. auto.
    - intros [= <- <-]. right. subst id u. destruct Hh as (d & D1 & D2). clear - D1 D2. unfold update_decryption. unfold has_joined. induction ds as [|z l IH]; [destruct D1|]. cbn [update_first].
      destruct (String.eqb_spec (dy_id z) id0) as [Hz|Hz].
      + exists (push_joined (st_id s) z). split; [left; reflexivity|]. split; [exact Hz|]. cbn. apply in_or_app. right. left. reflexivity.
      + destruct D1 as [->|D1]; [congruence|]. destruct (IH D1) as (y & Y1 & Y2). exists y. split; [right; exact Y1|exact Y2].
  Qed.
  Definition prog (s : seat) (i : nat) (W : dec_world) : Prop := has_joined (dw_docs W) (st_id s) \/ exists c, nth_error (dw_calls W) i = Some c /\ active (st_id s) c.
  Lemma calls_event W ev i c : nth_error (dw_calls W) i = Some c -> match ev with Step j _ _ _ => j <> i | _ => True end -> nth_error (dw_calls (estep W ev)) i = Some c.
  Proof.
    intros Hc He. destruct ev as [u|id e'|u id|a id|j net up rnd]; cbn [dec_event_step dw_calls]; [exact Hc|exact Hc|rewrite nth_error_app1 by (apply nth_error_Some; congruence); exact Hc..|].
    destruct (nth_error (dw_calls W) j) as [c0|] eqn:Hj; [|exact Hc]. destruct (dec_step _ _ _ _ _ _ c0 _ _) as [c' ds']. cbn [dw_calls]. rewrite set_nth_other by exact He. exact Hc.
  Qed.
  Lemma event_prog s i W ev : In s ss -> inv2 W -> quiet ev -> prog s i W -> prog s i (estep W ev).
  Proof.
    intros Hs HW Hq [H|(c & Hc & Ha)]; [left; apply joined_event, H|].
    assert (Hother : match ev with Step j _ _ _ => j <> i | _ => True end -> prog s i (estep W ev)) by (intros Ho; right; exists c; split; [apply calls_event; assumption|exact Ha]).
    destruct ev as [u|id e'|u id|a id|j net up rnd]; try (apply Hother; exact I). destruct (Nat.eq_dec j i) as [->|Hj]; [|apply Hother, Hj]. clear Hother.
    destruct Hq as [-> Hup]. unfold prog. cbn [dec_event_step]. rewrite Hc. destruct (dec_step _ _ _ _ _ _ c _ _) as [c' ds'] eqn:Hst. cbn [dw_calls dw_docs].
    destruct HW as [I1 I2 I3 I4 I5]. pose proof (iv_ids _ _ _ _ _ _ _ _ _ _ _ _ I1) as Hn. pose proof (iv_docs _ _ _ _ _ _ _ _ _ _ _ _ I1) as Hk. pose proof (iv_calls _ _ _ _ _ _ _ _ _ _ _ _ I1 c (nth_error_In _ _ Hc)) as Hck. rewrite I2 in *.
    destruct (step_active s true up rnd c (dw_docs W) c' ds' Hs Hup Hn I3 Hk I4 Hck Ha Hst) as [H|H]; [|left; exact H]. right. exists c'. split; [apply (set_nth_same i c' c), Hc|exact H].
  Qed.
  Lemma run_prog s i h : In s ss -> forall W, inv2 W -> Forall quiet h -> prog s i W -> prog s i (run W h).
  Proof.
    intros Hs. induction h as [|ev h IH]; intros W HW Hq Hp; [exact Hp|]. inversion Hq as [|? ? Hq1 Hq2]; subst. apply (IH (estep W ev)); [apply event2; assumption|exact Hq2|apply event_prog; assumption].
  Qed.
  Lemma join_recorded s W h : In s ss -> inv2 W -> Forall quiet h -> carried_out E parse device disk W h (StartJoin (st_id s) id0) -> has_joined (dw_docs (run W h)) (st_id s).
  Proof.
    intros Hs HW Hq (ha & hb & -> & ok & Hf). apply Forall_app in Hq as [Hqa Hqb]. inversion Hqb as [|? ? _ Hqb']; subst. set (i := length (dw_calls (run W ha))) in *.
    assert (Hp : prog s i (run W (ha ++ StartJoin (st_id s) id0 :: hb))).
    { rewrite run_app. change (run (run W ha) (StartJoin (st_id s) id0 :: hb)) with (run (estep (run W ha) (StartJoin (st_id s) id0)) hb).
      apply run_prog; [exact Hs|apply event2; [apply run2; assumption|exact I]|exact Hqb'|]. right. exists (JoinStart (st_id s) id0). split; [|split; reflexivity].
      cbn [dec_event_step dw_calls]. rewrite nth_error_app2 by (unfold i; lia). replace (i - _)%nat with 0%nat by (unfold i; lia). reflexivity. }
    destruct Hp as [Hp|(c & Hc & Ha)]; [exact Hp|]. rewrite Hc in Hf. injection Hf as ->. destruct Ha.
  Qed.

  Definition full (d : decryption) : Prop := forall s, In s ss -> In (st_id s) (map en_user (dy_shares d)).
  Definition vactive (c : dec_call) : Prop :=
    match c with
    | ViewStart a id => a = true /\ id = id0
    | ViewElection d | ViewList d _ _ _ | ViewRead d _ _ _ _ _ _ => dy_id d = id0 /\ full d
    | ViewSet id _ => id = id0
    | _ => False
    end.
  Lemma step_vactive up rnd c ds c' ds' : (forall s, In s ss -> has_joined ds (st_id s)) -> (forall path, up path = true) -> NoDup (map dy_id ds) -> here ds -> (forall d, In d ds -> doc_ok none w d) -> (forall d, In d ds -> doc2 d) ->
    call_ok none w ds c -> call2 ds c -> vactive c -> dec_step E parse disk true up rnd c w ds = (c', ds') -> vactive c' \/ has_result ds'.
  Proof.
    intros Hall Hup Hn Hh Hdk Hds Hc H2 Ha.
    destruct c as [u id|u d|u d x cx' g|u d x cx' g ids n got|id en|id u|a id|d|d x cx' med|d x cx' med ids n got|id r|ok]; cbn [dec_step GuiDecInv.call_ok vactive call2] in *; try contradiction; try match type of Ha with _ /\ _ => destruct Ha as [A1 A2] end.
    - subst. destruct (here_find ds Hh) as (d & -> & D1 & D2). destruct (Hds d D1 D2) as (He & F2 & F3 & F4). destruct (Hdk d D1 He) as (_ & K2 & _).
      assert (Hj : forall s, In s ss -> In (st_id s) (dy_joined d)).
      { intros s Hs. destruct (Hall s Hs) as (d' & E1 & E2 & E3). assert (d' = d) by (apply (NoDup_inj dy_id ds); [exact Hn|exact E1|exact D1|congruence]). subst d'. exact E3. }
      unfold should_run. rewrite K2. assert (Hlen : (len ss <=? len (dy_joined d)) = true).
      { apply Z.leb_le. unfold len. apply inj_le. rewrite <- (map_length st_id). apply NoDup_incl_length; [apply (gs_ids _ _ _ (ge_seats _ _ _ _ _ _ _ _ _ HG))|]. intros i Hi. apply in_map_iff in Hi as (s & <- & Hs). apply Hj, Hs. }
      rewrite Hlen. cbn [andb]. destruct (dy_result d) as [r|] eqn:Hr; intros [= <- <-].
      + right. exists d. split; [exact D1|]. split; [exact D2|congruence].
      + left. cbn. split; [exact D2|]. intros s Hs. apply F3, Hj, Hs.
    - destruct Hc as (C1 & Hc1). destruct (H2 A1) as (He & F2 & _). rewrite He. destruct (finds E parse disk w0 e m im cx k ss HG x0 Hx0 Xid w Hw) as (x & -> & Hx).
      destruct (x_of e m cx ss x0 Xid Xcx Xm Xrec Xnum x Hx) as (_ & -> & _ & X4 & _). destruct (C1 He) as (_ & _ & D3 & _).
      assert (Hrd : forallb entry_reads (dy_shares d) = true).
      { apply forallb_forall. intros en Hen. rewrite Forall_forall in F2. destruct (F2 en Hen) as (s & _ & Hf). unfold entry_reads. apply forallb_forall. intros [i o] Hio. destruct (ef_ballots _ _ _ _ _ _ _ Hf i o Hio) as (b & sh & _ & _ & -> & _). reflexivity. }
      unfold decryption_shares. rewrite Hrd. cbn [rbind].
      destruct (announce_ok E im cx vs k ss (ge_seats _ _ _ _ _ _ _ _ _ HG) (ge_orders _ _ _ _ _ _ _ _ _ HG) x X4 (dy_shares d) [] (new_dmediator "decryption-mediator" cx) D3 (announced_start cx x _)) as (md & -> & _).
      intros [= <- <-]. left. cbn. auto.
    - intros [= <- <-]. left. cbn. auto.
    - destruct Hc as [Hc1 Hc2]. destruct H2 as [Hd2 H2]. destruct ids as [|i ids].
      + specialize (H2 A1). cbn in H2. rewrite app_nil_r in H2. subst got. destruct (Hd2 A1) as (He & D2 & D3 & D4).
        destruct (Hc2 He) as ((Hx & -> & Hann) & _). destruct (x_of e m cx ss x0 Xid Xcx Xm Xrec Xnum x Hx) as (_ & _ & -> & X4 & _). rewrite Hup.
        destruct (result_done E m im cx HE (ge_manifest _ _ _ _ _ _ _ _ _ HG) (ge_internal _ _ _ _ _ _ _ _ _ HG) (key_in E disk w0 e m im cx k ss HE HG) (ge_options _ _ _ _ _ _ _ _ _ HG) vs
           (gv_styles _ _ _ HV) (gv_ids _ _ _ HV) (gv_states _ _ _ HV) (gv_room _ _ _ HV) (gv_table _ _ _ HV) (gv_one _ _ _ HV) k ss (ge_seats _ _ _ _ _ _ _ _ _ HG)
           (ge_orders _ _ _ _ _ _ _ _ _ HG) (ge_some _ _ _ _ _ _ _ _ _ HG) (ge_hash _ _ _ _ _ _ _ _ _ HG) (ge_number _ _ _ _ _ _ _ _ _ HG) (ge_quorum _ _ _ _ _ _ _ _ _ HG) (ge_key _ _ _ _ _ _ _ _ _ HG)
           x X4 (dy_shares d) med BL D2 A2 Hann BL_voters) as (r & vs' & -> & _). intros [= <- <-]. left. cbn. exact A1.
      + destruct (read_next _ _ _ _ _) as [[ids' n'] got']. intros [= <- <-]. left. cbn. auto.
    - intros [= <- <-]. right. subst id. destruct Hh as (d & D1 & D2). clear - D1 D2. unfold update_decryption, has_result. induction ds as [|z l IH]; [destruct D1|]. cbn [update_first].
      destruct (String.eqb_spec (dy_id z) id0) as [Hz|Hz].
      + exists (set_completed r z). split; [left; reflexivity|]. split; [exact Hz|]. cbn. discriminate.
      + destruct D1 as [->|D1]; [congruence|]. destruct (IH D1) as (y & Y1 & Y2). exists y. split; [right; exact Y1|exact Y2].
  Qed.
  Definition vprog (i : nat) (W : dec_world) : Prop := has_result (dw_docs W) \/ exists c, nth_error (dw_calls W) i = Some c /\ vactive c.
  Lemma event_vprog i W ev : (forall s, In s ss -> has_joined (dw_docs W) (st_id s)) -> inv2 W -> quiet ev -> vprog i W -> vprog i (estep W ev).
  Proof.
    intros Hall HW Hq [H|(c & Hc & Ha)]; [left; apply result_event, H|].
    assert (Hother : match ev with Step j _ _ _ => j <> i | _ => True end -> vprog i (estep W ev)) by (intros Ho; right; exists c; split; [apply calls_event; assumption|exact Ha]).
    destruct ev as [u|id e'|u id|a id|j net up rnd]; try (apply Hother; exact I). destruct (Nat.eq_dec j i) as [->|Hj]; [|apply Hother, Hj]. clear Hother.
    destruct Hq as [-> Hup]. unfold vprog. cbn [dec_event_step]. rewrite Hc. destruct (dec_step _ _ _ _ _ _ c _ _) as [c' ds'] eqn:Hst. cbn [dw_calls dw_docs].
    destruct HW as [I1 I2 I3 I4 I5]. pose proof (iv_ids _ _ _ _ _ _ _ _ _ _ _ _ I1) as Hn. pose proof (iv_docs _ _ _ _ _ _ _ _ _ _ _ _ I1) as Hk. pose proof (nth_error_In _ _ Hc) as Hin.
    pose proof (iv_calls _ _ _ _ _ _ _ _ _ _ _ _ I1 c Hin) as Hck. rewrite I2 in *.
    destruct (step_vactive up rnd c (dw_docs W) c' ds' Hall Hup Hn I3 Hk I4 Hck (I5 c Hin) Ha Hst) as [H|H]; [|left; exact H]. right. exists c'. split; [apply (set_nth_same i c' c), Hc|exact H].
  Qed.
  Lemma run_joined h : forall W u, has_joined (dw_docs W) u -> has_joined (dw_docs (run W h)) u.
  Proof. induction h as [|ev h IH]; intros W u H; [exact H|]. apply (IH (estep W ev)), joined_event, H. Qed.
  Lemma run_vprog i h : forall W, (forall s, In s ss -> has_joined (dw_docs W) (st_id s)) -> inv2 W -> Forall quiet h -> vprog i W -> vprog i (run W h).
  Proof.
    induction h as [|ev h IH]; intros W Hall HW Hq Hp; [exact Hp|]. inversion Hq as [|? ? Hq1 Hq2]; subst.
    apply (IH (estep W ev)); [intros s Hs; apply joined_event, Hall, Hs|apply event2; assumption|exact Hq2|apply event_vprog; assumption].
  Qed.
  Lemma view_publishes W h : (forall s, In s ss -> has_joined (dw_docs W) (st_id s)) -> inv2 W -> Forall quiet h -> carried_out E parse device disk W h (StartView true id0) -> has_result (dw_docs (run W h)).
  Proof.
    intros Hall HW Hq (ha & hb & -> & ok & Hf). apply Forall_app in Hq as [Hqa Hqb]. inversion Hqb as [|? ? _ Hqb']; subst. set (i := length (dw_calls (run W ha))) in *.
    assert (Hp : vprog i (run W (ha ++ StartView true id0 :: hb))).
    { rewrite run_app. change (run (run W ha) (StartView true id0 :: hb)) with (run (estep (run W ha) (StartView true id0)) hb).
      apply run_vprog; [intros s Hs; apply joined_event, run_joined, Hall, Hs|apply event2; [apply run2; assumption|exact I]|exact Hqb'|]. right. exists (ViewStart true id0). split; [|split; reflexivity].
      cbn [dec_event_step dw_calls]. rewrite nth_error_app2 by (unfold i; lia). replace (i - _)%nat with 0%nat by (unfold i; lia). reflexivity. }
    destruct Hp as [Hp|(c & Hc & Ha)]; [exact Hp|]. rewrite Hc in Hf. injection Hf as ->. destruct Ha.
  Qed.
  Lemma completes W h3 h4 : inv2 W -> Forall quiet h3 -> Forall quiet h4 -> (forall s, In s ss -> carried_out E parse device disk W h3 (StartJoin (st_id s) id0)) ->
    carried_out E parse device disk (run W h3) h4 (StartView true id0) ->
    exists d r, find_decryption (dw_docs (run (run W h3) h4)) id0 = Some d /\ dy_result d = Some r /\ exact_result r.
  Proof.
    intros HW Hq3 Hq4 Hj Hv. assert (H3 : inv2 (run W h3)) by (apply run2; assumption). assert (H4 : inv2 (run (run W h3) h4)) by (apply run2; assumption).
    assert (Hall : forall s, In s ss -> has_joined (dw_docs (run W h3)) (st_id s)) by (intros s Hs; apply join_recorded; auto).
    assert (Hr : has_result (dw_docs (run (run W h3) h4))) by (apply view_publishes; assumption).
    destruct Hr as (d & D1 & D2 & D3). destruct (here_find _ (i2_here _ H4)) as (d' & F1 & F2 & F3). rewrite F1. exists d'.
    assert (d = d') by (apply (NoDup_inj dy_id (dw_docs (run (run W h3) h4))); [apply (iv_ids _ _ _ _ _ _ _ _ _ _ _ _ (i2_inv _ H4))|exact D1|exact F2|congruence]). subst d'.
    destruct (dy_result d) as [r|] eqn:Hr; [|congruence]. exists r. split; [reflexivity|]. split; [reflexivity|]. apply (i2_docs _ H4 d D1 D2), Hr.
  Qed.
  (** ** the start of a quiet time *)
  Lemma created W1 : inv none W1 -> dw_db W1 = w -> find_decryption (dw_docs W1) id0 = None -> inv2 (estep W1 (NewDecryption id0 e)).
  Proof.
    intros I1 I2 Hno. assert (Hni : ~ In id0 (map dy_id (dw_docs W1))).
    { intros Hi. apply in_map_iff in Hi as (d & Hi & Hd). pose proof (proj1 (find_first_none _ _) Hno d Hd) as Hn. cbn beta in Hn. rewrite Hi, String.eqb_refl in Hn. discriminate. }
    assert (HI : inv none (estep W1 (NewDecryption id0 e))).
    { apply (event_inv E parse device disk w0 e m im cx k ss HE HG vs HV x0 Hx0 Xid Xcx Xm Xrec Xnum Xdisk); [exact I1|rewrite I2; exact Hav|discriminate]. }
    assert (Hdocs : exists x, is_x x0 x /\ dw_docs (estep W1 (NewDecryption id0 e)) = dw_docs W1 ++ [mkDecryption id0 (el_id x) (el_ceremony x) (el_guardians x) (el_quorum x) [] [] None]).
    { cbn [dec_event_step dw_docs]. unfold create_decryption. rewrite I2. destruct (finds E parse disk w0 e m im cx k ss HG x0 Hx0 Xid w Hw) as (x & -> & Hx). exists x. split; [exact Hx|].
      destruct (existsb _ _) eqn:Hex; [|reflexivity]. apply existsb_exists in Hex as (d & Hd & Hi). apply String.eqb_eq in Hi. destruct Hni. rewrite <- Hi. apply in_map, Hd. }
    destruct Hdocs as (x & Hx & Hdocs). destruct (x_of e m cx ss x0 Xid Xcx Xm Xrec Xnum x Hx) as (X1 & _).
    split; [exact HI|exact I2| | |].
    - rewrite Hdocs. eexists. split; [apply in_or_app; right; left; reflexivity|reflexivity].
    - rewrite Hdocs. intros d Hd Hi. apply in_app_or in Hd as [Hd|[<-|[]]]; [destruct Hni; rewrite <- Hi; apply in_map, Hd|]. cbn. split; [exact X1|]. split; [constructor|]. split; [intros u []|discriminate].
    - intros c Hc. change (In c (dw_calls W1)) in Hc. pose proof (iv_calls _ _ _ _ _ _ _ _ _ _ _ _ I1 c Hc) as Hok.
      assert (Hs : forall d, snap E parse e m im cx ss vs x0 none (dw_db W1) (dw_docs W1) d -> dy_id d <> id0) by (intros d (_ & d' & D1 & D2 & _) Hi; apply Hni; rewrite <- Hi, <- D2; apply in_map, D1).
      destruct c as [u id|u d|u d x' cx' g|u d x' cx' g ids n got|id en|id u|a id|d|d x' cx' med|d x' cx' med ids n got|id r|ok]; cbn [GuiDecInv.call_ok call2] in *; try exact I.
      + intros Hi. destruct (Hs d (proj1 Hok) Hi).
      + intros ->. destruct Hok as (d & D1 & D2 & _). destruct Hni. rewrite <- D2. apply in_map, D1.
      + intros ->. destruct Hok as (d & D1 & D2). destruct Hni. rewrite <- D2. apply in_map, D1.
      + intros Hi. destruct (Hs d Hok Hi).
      + intros Hi. destruct (Hs d (proj1 Hok) Hi).
      + split; intros Hi; destruct (Hs d (proj1 Hok) Hi).
      + intros ->. destruct Hok as (d & l & D1 & D2 & _). destruct Hni. rewrite <- D2. apply in_map, D1.
  Qed.
End Thms.

(** ** the statements *)
Lemma gui_never_wrong E parse device disk w0 e m im cx k ss vs h1 h2 d r : valid_env E -> gui_election E disk w0 e m im cx k ss -> good_voters E im vs ->
  let after := after_all E parse device disk w0 in
  pools_work (h1 ++ h2) -> only_voters E parse im cx vs (dw_db (after (h1 ++ h2))) e ->
  In d (dw_docs (after (h1 ++ h2))) -> dy_election d = e -> dy_result d = Some r -> find_decryption (dw_docs (after h1)) (dy_id d) = None ->
  exists counted, NoDup counted /\
    (forall v, In v counted -> In v vs /\ exists b, In b (stored (dw_db (after (h1 ++ h2))) e) /\ file_of E parse im cx v b) /\
    (reads_work h2 -> forall v b, In v vs -> In b (stored (dw_db (after h1)) e) -> closed (so_contents b) = true -> file_of E parse im cx v b -> In v counted) /\
    (zero_proof d \/ right_counts m im counted r) /\ right_spoiled im counted r.
Proof.
  intros HE HG HV. destruct (ge_election _ _ _ _ _ _ _ _ _ HG) as (x0 & X1 & X2 & X3 & X4 & X5 & X6 & X7 & X8 & X9).
  exact (never_wrong E parse device disk w0 e m im cx k ss HE HG vs HV x0 X1 X2 X3 X4 X5 X6 X9 h1 h2 d r).
Qed.
Lemma gui_completes_recorded E parse device disk w0 e m im cx k ss vs h1 id h2 h3 : valid_env E -> gui_election E disk w0 e m im cx k ss -> good_voters E im vs ->
  let before := after_all E parse device disk w0 h1 in
  let joined := after_all E parse device disk w0 (h1 ++ NewDecryption id e :: h2) in
  pools_work (h1 ++ h2 ++ h3) -> no_more_uploads (h2 ++ h3) -> reads_work (h2 ++ h3) ->
  only_voters E parse im cx vs (dw_db before) e -> find_decryption (dw_docs before) id = None ->
  (forall s, In s ss -> carried_out E parse device disk (dec_event_step E parse device disk before (NewDecryption id e)) h2 (StartJoin (st_id s) id)) ->
  carried_out E parse device disk joined h3 (StartView true id) ->
  exists d r counted, find_decryption (dw_docs (after_all E parse device disk w0 (h1 ++ NewDecryption id e :: h2 ++ h3))) id = Some d /\ dy_result d = Some r /\ NoDup counted /\
    (forall v, In v counted <-> In v vs /\ exists b, In b (stored (dw_db before) e) /\ closed (so_contents b) = true /\ file_of E parse im cx v b) /\
    right_counts m im counted r /\ right_spoiled im counted r /\ (forall v, In v counted -> vr_state v = SPOILED -> In (vr_id v) (dkeys (rs_spoiled r))) /\
    recorded E m cx ss (BL parse e (dw_db before)) r.
Proof.
  intros HE HG HV. destruct (ge_election _ _ _ _ _ _ _ _ _ HG) as (x0 & X1 & X2 & X3 & X4 & X5 & X6 & X7 & X8 & X9).
  intros before joined Hp Hnu Hrd Hov Hno Hj Hv. set (start := mkDecWorld (mkUpWorld w0 []) [] []) in *.
  assert (Hup : good_up parse w0 (dw_up before)) by (apply good_run; apply (good_init parse w0 (ge_start _ _ _ _ _ _ _ _ _ HG))).
  assert (Hav : all_voters E parse e im cx vs (dw_db before)) by (apply only_all, Hov).
  assert (I1 : inv E parse w0 e m im cx ss vs x0 (fun _ _ => False) before).
  { apply (reach E parse device disk w0 e m im cx k ss HE HG vs HV x0 X1 X2 X3 X4 X5 X6 X9); [exact Hav|]. intros i net up rnd Hi. apply (Hp i net up rnd). apply in_or_app. auto. }
  pose proof (created E parse device disk w0 e m im cx k ss HE HG vs HV x0 X1 X2 X3 X4 X5 X6 X9 (dw_db before) id (proj1 Hup) Hav before I1 eq_refl Hno) as I2.
  set (W2 := dec_event_step E parse device disk before (NewDecryption id e)) in *.
  assert (Hq : Forall quiet (h2 ++ h3)).
  { apply Forall_forall. intros ev Hev. destruct ev as [u|id' e'|u id'|a id'|i net up rnd]; cbn; auto; [destruct (Hnu u Hev)|]. split; [apply (Hrd i net up rnd Hev)|].
    apply (Hp i net up rnd). apply in_or_app. auto. }
  apply Forall_app in Hq as [Hq2 Hq3].
  assert (Hjo : joined = dec_run E parse device disk W2 h2) by (unfold joined, after_all; rewrite run_app; reflexivity). rewrite Hjo in Hv.
  destruct (completes E parse device disk w0 e m im cx k ss HE HG vs HV x0 X1 X2 X3 X4 X5 X6 X7 X8 X9 (dw_db before) id (proj1 Hup) Hav W2 h2 h3 I2 Hq2 Hq3 Hj Hv) as (d & r & F & Hr & vs' & [C1 C2] & C3 & C4 & C5 & C6).
  assert (Hfin : after_all E parse device disk w0 (h1 ++ NewDecryption id e :: h2 ++ h3) = dec_run E parse device disk (dec_run E parse device disk W2 h2) h3).
  { unfold after_all. rewrite run_app. change (NewDecryption id e :: h2 ++ h3) with ([NewDecryption id e] ++ (h2 ++ h3)). rewrite !run_app. reflexivity. }
  exists d, r, vs'. rewrite Hfin. split; [exact F|]. split; [exact Hr|]. split; [exact C1|].
  assert (HinBL := in_BL E parse w0 e im cx vs (dw_db before) (proj1 Hup) Hav).
  split; [|split; [exact C3|split; [|split; [exact C5|exact C6]]]].
  - intros v. rewrite C2. split.
    + intros [Hi (sb & Hsb & eb & E1 & E2)]. split; [exact Hi|]. apply HinBL in Hsb as (b & B1 & B2 & B3). exists b. split; [exact B1|]. split; [exact B2|]. exists eb. split; [exact E1|congruence].
    + intros [Hi (b & B1 & B2 & eb & E1 & E2)]. split; [exact Hi|]. exists (submit_ballot E eb (vr_state v)). split; [apply HinBL; exists b; auto|]. exists eb. auto.
  - intros i p Hip. destruct (C4 i p Hip) as (v & V1 & V2 & V3 & V4 & V5). exists v. split; [apply C2; auto|]. auto.
Qed.
Lemma gui_completes E parse device disk w0 e m im cx k ss vs h1 id h2 h3 : valid_env E -> gui_election E disk w0 e m im cx k ss -> good_voters E im vs ->
  let before := after_all E parse device disk w0 h1 in
  let joined := after_all E parse device disk w0 (h1 ++ NewDecryption id e :: h2) in
  pools_work (h1 ++ h2 ++ h3) -> no_more_uploads (h2 ++ h3) -> reads_work (h2 ++ h3) ->
  only_voters E parse im cx vs (dw_db before) e -> find_decryption (dw_docs before) id = None ->
  (forall s, In s ss -> carried_out E parse device disk (dec_event_step E parse device disk before (NewDecryption id e)) h2 (StartJoin (st_id s) id)) ->
  carried_out E parse device disk joined h3 (StartView true id) ->
  exists d r counted, find_decryption (dw_docs (after_all E parse device disk w0 (h1 ++ NewDecryption id e :: h2 ++ h3))) id = Some d /\ dy_result d = Some r /\ NoDup counted /\
    (forall v, In v counted <-> In v vs /\ exists b, In b (stored (dw_db before) e) /\ closed (so_contents b) = true /\ file_of E parse im cx v b) /\
    right_counts m im counted r /\ right_spoiled im counted r /\ forall v, In v counted -> vr_state v = SPOILED -> In (vr_id v) (dkeys (rs_spoiled r)).
Proof.
  intros HE HG HV before joined Hp Hnu Hrd Hov Hno Hj Hv.
  destruct (gui_completes_recorded E parse device disk w0 e m im cx k ss vs h1 id h2 h3 HE HG HV Hp Hnu Hrd Hov Hno Hj Hv) as (d & r & counted & C1 & C2 & C3 & C4 & C5 & C6 & C7 & _).
  exists d, r, counted. auto 8.
Qed.
Lemma gui_terminates E parse device disk w0 h1 ev h2 : no_uploads w0 -> (exists u id, ev = StartJoin u id) \/ (exists a id, ev = StartView a id) ->
  let before := after_all E parse device disk w0 h1 in let w := after_all E parse device disk w0 (h1 ++ ev :: h2) in
  let i := length (dw_calls before) in (3 * length (db_uploads (dw_db w)) + 6 <= steps_of i h2)%nat -> exists ok, nth_error (dw_calls w) i = Some (Finished ok).
Proof.
  intros Hnu Hev before w i Hst. set (start := mkDecWorld (mkUpWorld w0 []) [] []) in *.
  assert (Hup : good_up parse w0 (dw_up before)) by (apply good_run, good_init, Hnu).
  assert (Hw : w = dec_run E parse device disk (dec_event_step E parse device disk before ev) h2) by (unfold w, after_all; rewrite run_app; reflexivity).
  assert (Hc : exists c, nth_error (dw_calls (dec_event_step E parse device disk before ev)) i = Some c /\ (left (length (db_uploads (dw_db w))) c <= 3 * length (db_uploads (dw_db w)) + 6)%nat).
  { assert (Hn : forall c, nth_error (dw_calls before ++ [c]) i = Some c) by (intros c; rewrite nth_error_app2 by (unfold i; lia); replace (i - _)%nat with 0%nat by (unfold i; lia); reflexivity).
    destruct Hev as [(u & id & ->)|(a & id & ->)]; cbn [dec_event_step dw_calls]; eexists; (split; [apply Hn|cbn [left]; lia]). }
  destruct Hc as (c & Hc & Hl). rewrite Hw in *.
  destruct (call_ends E parse device disk w0 h2 _ i c (length (db_uploads (dw_db (dec_run E parse device disk (dec_event_step E parse device disk before ev) h2)))) (good_event E parse device disk w0 before ev Hup) Hc (Nat.le_refl _)) as (c' & C1 & C2).
  rewrite C1. destruct (left_finished (length (db_uploads (dw_db (dec_run E parse device disk (dec_event_step E parse device disk before ev) h2)))) c') as [ok ->]; [lia|]. exists ok. reflexivity.
Qed.
