(** * GuiElReady: an election created from a finished key ceremony is ready for voting and decryption; elections created one by one. *)
From Coq Require Import List Permutation.
From Verif Require Import Base Group Spec GroupFacts Codec Hash DLog ElGamal ElGamalFacts ZK ZKFacts Poly ListFacts Manifest Ballot Encrypt SpecElection
  Box Tally SpecTally Ceremony SpecCeremony MediatorFacts CeremonyFacts Shares SpecShares SpecEndToEnd GuiCeremony SpecGui GuiFacts GuiJoin GuiLive GuiThms GuiDemo GuiUpload SpecUpload UploadFacts
  GuiElection SpecGuiElection GuiElFacts GuiDecrypt SpecGuiDecrypt Report SpecReport ReportPages.

Lemma set_of_nodup {A} `{EqB A} (l : list A) : NoDup l -> set_of l = l.
Proof.
  intros Hn. unfold set_of. assert (G : forall acc, NoDup (acc ++ l) -> fold_left (fun a x => if inb x a then a else a ++ [x]) l acc = acc ++ l).
  { induction l as [|x l IH]; intros acc Ha; cbn; [rewrite app_nil_r; reflexivity|].
    destruct (inb x acc) eqn:Hx. { apply inb_spec in Hx. apply NoDup_remove_2 in Ha. destruct Ha. apply in_app_iff. auto. }
    inversion Hn; subst. rewrite IH; [rewrite <- app_assoc; reflexivity|assumption|rewrite <- app_assoc; exact Ha]. }
  exact (G [] Hn).
Qed.

Lemma NoDup_map_other {A B C} (f : A -> B) (g : A -> C) l : NoDup (map f l) -> (forall x y, In x l -> In y l -> g x = g y -> f x = f y) -> NoDup (map g l).
Proof.
  induction l as [|a l IH]; cbn; intros Hn H; [constructor|]. inversion Hn as [|? ? Ha Hl]; subst. constructor.
  - intros Hin. apply in_map_iff in Hin as [b [Hb Hin]]. apply Ha. rewrite <- (H b a); auto. apply in_map. assumption.
  - apply IH; [assumption|]. intros x y Hx Hy. apply H; auto.
Qed.
Lemma NoDup_of_map {A B} (f : A -> B) l : NoDup (map f l) -> NoDup l.
Proof. apply NoDup_map_inv. Qed.
Lemma map_in_inj {A B} (f : A -> B) l x y : NoDup (map f l) -> In x l -> In y l -> f x = f y -> x = y.
Proof.
  induction l as [|a l IH]; cbn; intros Hn Hx Hy He; [contradiction|]. inversion Hn as [|? ? Ha Hl]; subst.
  destruct Hx as [<-|Hx], Hy as [<-|Hy]; auto; exfalso; apply Ha; [rewrite He|rewrite <- He]; apply in_map; assumption.
Qed.

Section Ready.
  Context (E : env) (HE : valid_env E) (n : Z) (k : nat).
  Notation start := (gui_start n (Z.of_nat k)).

  (** a guardian's file is written only after the guardian has joined *)
  Lemma files_joined_step w e : joins_ok E k w -> (forall u, dget u (w_files w) <> None -> In u (kc_joined (w_doc w))) ->
    forall u, dget u (w_files (gui_step E w e)) <> None -> In u (kc_joined (w_doc (gui_step E w e))).
  Proof.
    intros J H u. pose proof (step_le E w e) as Hle.
    assert (G : dget u (w_files w) <> None -> In u (kc_joined (w_doc (gui_step E w e)))) by (intros Hu; eapply prefix_in; [apply (le_joined _ _ Hle)|apply H; assumption]).
    destruct (step_cases E w e) as [He|[(c & u' & a & -> & He)|(cl & Hd & He)]]; rewrite He in *; [exact G|exact G|].
    revert G. destruct cl as [user admin ph]. destruct e, ph; cbn [client_step cl_phase cl_user cl_admin]; try (intros G; exact G).
    - destruct user; intros G; exact G.
    - destruct user; [|intros G; exact G]. destruct (get_guardian_number _ _); intros G; exact G.
    - destruct user as [u'|]; [|intros G; exact G]. destruct (make_guardian _ _ _ _ _) as [g|]; [|intros G; exact G]. cbn [w_files w_doc]. intros G.
      destruct (j_busy _ _ _ J _ _ Hd eq_refl) as (u1 & B1 & B2 & _). cbn in B1. injection B1 as <-. rewrite dget_dset. eqb_cases u u'; [intros _; subst; assumption|exact G].
    - destruct (choose_stage _ _ _) as [[s|]|]; intros G; exact G.
    - destruct (run_stage _ _ _ _ _ _ _) as [[d' p]|]; intros G; exact G.
  Qed.
  Lemma files_joined h : Forall (good_event E) h -> NoDup (kc_joined (w_doc (gui_run E start h))) ->
    forall u, dget u (w_files (gui_run E start h)) <> None -> In u (kc_joined (w_doc (gui_run E start h))).
  Proof.
    induction h as [|e h IH] using rev_ind; intros Hg Hn u; [cbn; congruence|]. rewrite run_app in *. cbn [gui_run fold_left] in *. fold (gui_run E start h) in *.
    apply Forall_app in Hg as [Hg1 Hg2]. assert (Hn1 : NoDup (kc_joined (w_doc (gui_run E start h)))) by (eapply nodup_prefix; [apply (le_joined _ _ (step_le E _ e))|exact Hn]).
    destruct (joins_run E k h start (start_ok E _ _) (start_joins E k n) Hg1 Hn1) as [J _]. apply files_joined_step; auto.
  Qed.

  (** the seats of a ceremony whose joint key has been published *)
  Lemma ceremony_seats h1 h2 j : fit_ceremony E n k (h1 ++ h2) -> let d := w_doc (gui_run E start h1) in let w := gui_run E start (h1 ++ h2) in kc_joint d = Some j ->
    exists ss, good_seats E k ss /\ NoDup (map st_seq ss) /\ ss <> [] /\ len ss = n /\ Z.of_nat k <= n /\ kc_count d = n /\ kc_quorum d = Z.of_nat k /\
      jk_key j = gexp E (sumZ (map st_secret ss)) /\ kc_keys d = map (pk_of E) ss /\
      (forall s, In s ss -> dget (st_id s) (w_files w) <> None) /\
      forall u r a b, dget u (w_files w) = Some r -> exists s, In s ss /\ st_id s = u /\ holder E s (guardian_from_private_record r a b).
  Proof.
    intros [F1 [d0 F2] F3 [F4 F4'] F5 F6 F7] d w Hj. subst d w.
    set (w1 := gui_run E start h1) in *. set (w := gui_run E start (h1 ++ h2)) in *.
    assert (Hw : w = gui_run E w1 h2) by (unfold w; rewrite run_app; reflexivity).
    pose proof (run_le E h2 w1) as Hle. rewrite <- Hw in Hle.
    apply Forall_app in F1 as [G1 G2].
    assert (N1 : NoDup (kc_joined (w_doc w1))) by (eapply nodup_prefix; [apply (le_joined _ _ Hle)|exact F5]).
    assert (E1 : ~ In ""%string (kc_joined (w_doc w1))) by (intros Hin; apply F6; eapply prefix_in; [apply (le_joined _ _ Hle)|exact Hin]).
    assert (W1 : world_ok E w1) by (apply run_ok, start_ok).
    destruct (joins_run E k h1 start (start_ok E _ _) (start_joins E k n) G1 N1) as [J1 _]. fold w1 in J1.
    destruct (joins_run E k h2 w1 W1 J1 G2) as [J Hf]; [rewrite <- Hw; exact F5|]. rewrite <- Hw in J, Hf.
    destruct (joint_key_checked E n (Z.of_nat k) h1 j HE E1 Hj) as (us & ks & U1 & U2 & U3 & U4 & _ & _). fold w1 in U1, U3.
    unfold firsts in U1. rewrite set_of_nodup in U1 by assumption.
    (* the guardians counted are all that joined *)
    assert (Hus : us = kc_joined (w_doc w1) /\ kc_joined (w_doc w1) = kc_joined (w_doc w)).
    { destruct U1 as [t1 T1]. destruct (le_joined _ _ Hle) as [t2 T2].
      assert (HL : len us + len t1 + len t2 = n) by (rewrite <- F7, T2, T1, !len_app; lia).
      pose proof (len_nonneg t1). pose proof (len_nonneg t2).
      assert (t1 = []) by (destruct t1; [reflexivity|rewrite len_cons in *; pose proof (len_nonneg t1); lia]).
      assert (t2 = []) by (destruct t2; [reflexivity|rewrite len_cons in *; pose proof (len_nonneg t2); lia]).
      subst t1 t2. rewrite app_nil_r in T1, T2. split; [symmetry; exact T1|symmetry; exact T2]. }
    destruct Hus as [Hus Hsame].
    (* a seat for each key *)
    destruct (choice (fun key s => pk_of E s = key /\ st_id s = pk_owner key /\ dget (st_id s) (w_files w1) = Some (GuiLive.file_of E s) /\ length (st_draws s) = k /\ Forall (fun a => 0 <= a < qq E) (st_secrets s)) (kc_keys (w_doc w1))) as [ss Hss].
    { intros key Hin. destruct (j_keys _ _ _ J1 key Hin) as (r & R1 & R2). destruct (j_files _ _ _ J1 _ _ R1) as (s & S1 & -> & S3 & S4). cbn in R2.
      exists s. split; [exact R2|]. split; [assumption|]. split; [rewrite S1, R1; unfold GuiLive.file_of; rewrite S1; reflexivity|]. auto. }
    exists ss.
    assert (Hkeys : map (pk_of E) ss = kc_keys (w_doc w1)) by (clear -Hss; induction Hss as [|x s l ss (H & _) _ IH]; cbn; congruence).
    assert (Hids : map st_id ss = map pk_owner (kc_keys (w_doc w1))) by (rewrite <- Hkeys, map_map; reflexivity).
    assert (Hseqs : map st_seq ss = map pk_seq (kc_keys (w_doc w1))) by (rewrite <- Hkeys, map_map; reflexivity).
    assert (Hnd : NoDup (map st_id ss)) by (rewrite Hids; apply (j_owners _ _ _ J1)).
    assert (Hperm : Permutation (map st_id ss) us).
    { apply NoDup_Permutation; [assumption|rewrite Hus; assumption|]. intros u. rewrite Hids. split.
      - intros Hin. apply in_map_iff in Hin as [key [<- Hin]]. rewrite Hus. eapply key_joined; [apply (wo_doc _ _ W1)|assumption].
      - intros Hin. destruct (Forall2_in_l _ _ _ _ U3 Hin) as (key & _ & (l1 & l2 & K1 & K2 & _)). apply in_map_iff. exists key. split; [assumption|]. rewrite K1. apply in_app_iff. right. left. reflexivity. }
    assert (Hlen : len ss = n) by (rewrite <- (len_map st_id), <- U2; unfold len; rewrite (Permutation_length Hperm); reflexivity).
    assert (Hkn : Z.of_nat k <= n) by (unfold create_key_ceremony in F2; destruct (Z.ltb_spec n (Z.of_nat k)); [discriminate|lia]).
    assert (Hseat : forall s, In s ss -> In (pk_of E s) (kc_keys (w_doc w1)) /\ dget (st_id s) (w_files w1) = Some (GuiLive.file_of E s) /\ length (st_draws s) = k /\ Forall (fun a => 0 <= a < qq E) (st_secrets s)).
    { intros s Hs. destruct (Forall2_in_r _ _ _ _ Hss Hs) as (key & K1 & <- & _ & K3 & K4 & K5). auto. }
    assert (Hnum : forall s, In s ss -> get_guardian_number (w_doc w1) (st_id s) = Ok (st_seq s)).
    { intros s Hs. destruct (Hseat s Hs) as (S1 & _). exact (do_keys _ _ (wo_doc _ _ W1) _ S1). }
    pose proof (le_count _ _ (run_le E h1 start)) as Hcnt. cbn in Hcnt. fold w1 in Hcnt.
    repeat match goal with |- _ /\ _ => split end.
    - constructor; auto; rewrite Forall_forall; intros s Hs.
      + intros Hemp. apply E1. rewrite <- Hus. eapply Permutation_in; [exact Hperm|]. rewrite <- Hemp. apply in_map. assumption.
      + destruct (Hseat s Hs) as (_ & _ & S3 & S4). auto.
      + pose proof (Hnum s Hs) as Hn. unfold get_guardian_number in Hn. apply number_from_spec in Hn as (l1 & l2 & L1 & _ & L3).
        assert (Hb : 1 <= st_seq s <= n).
        { rewrite <- F7, <- Hsame, L1, len_app, len_cons, L3. pose proof (len_nonneg l1). pose proof (len_nonneg l2). lia. }
        split; [lia|]. intros i Hi. pose proof (F4' i Hi). assert (st_seq s ^ i <= n ^ i) by (apply Z.pow_le_mono_l; lia). lia.
    - eapply NoDup_map_other; [exact Hnd|]. intros s s' Hs Hs' Heq. eapply number_inj; [apply Hnum; exact Hs|]. rewrite Heq. apply Hnum. exact Hs'.
    - intros ->. cbn in Hlen. lia.
    - exact Hlen.
    - exact Hkn.
    - symmetry. exact Hcnt.
    - exact (j_quorum _ _ _ J1).
    - rewrite U4. rewrite <- (gexp_product E HE).
      + f_equal. apply prodZ_perm.
        assert (Hown : map pk_owner ks = us) by (clear -U3; induction U3 as [|u x us ks (l1 & l2 & _ & <- & _) _ IH]; cbn; congruence).
        assert (Hin : forall x, In x ks -> In x (kc_keys (w_doc w1))).
        { intros x Hx. destruct (Forall2_in_r _ _ _ _ U3 Hx) as (u & _ & (l1 & l2 & K1 & _)). rewrite K1. apply in_app_iff. right. left. reflexivity. }
        assert (Hp2 : Permutation ks (map (pk_of E) ss)).
        { rewrite Hkeys. apply NoDup_Permutation.
          - apply (NoDup_map_inv pk_owner). rewrite Hown, Hus. exact N1.
          - apply (NoDup_map_inv pk_owner). apply (j_owners _ _ _ J1).
          - intros x. split; [apply Hin|]. intros Hx. assert (Hu : In (pk_owner x) us) by (rewrite Hus; eapply key_joined; [apply (wo_doc _ _ W1)|assumption]).
            rewrite <- Hown in Hu. apply in_map_iff in Hu as [y [Y1 Y2]]. rewrite (map_in_inj pk_owner _ x y (j_owners _ _ _ J1) Hx (Hin y Y2)); [assumption|congruence]. }
        rewrite map_map. etransitivity; [apply Permutation_map; exact Hp2|]. rewrite map_map. apply Permutation_refl'. apply map_ext. intros s. apply pk_of_key. exact HE.
      + rewrite Forall_map, Forall_forall. intros s Hs. destruct (Hseat s Hs) as (_ & _ & S3 & S4). unfold st_secret. destruct S4 as [|a l A1 A2]; lia.
    - symmetry. exact Hkeys.
    - intros s Hs. destruct (Hseat s Hs) as (S1 & S2 & _). rewrite Hf; [congruence|]. apply in_map_iff. exists (pk_of E s). split; [reflexivity|assumption].
    - intros u r a b Hr. assert (Hu : In u (kc_joined (w_doc w))).
      { apply (files_joined (h1 ++ h2)); [apply Forall_app; auto|exact F5|]. fold w. congruence. }
      rewrite <- Hsame, <- Hus in Hu. apply (Permutation_in _ (Permutation_sym Hperm)) in Hu. apply in_map_iff in Hu as [s [S1 S2]]. exists s. split; [assumption|]. split; [assumption|].
      destruct (Hseat s S2) as (K1 & K2 & _). rewrite <- S1, Hf in Hr by (apply in_map_iff; exists (pk_of E s); split; [reflexivity|assumption]).
      rewrite K2 in Hr. injection Hr as <-. split; [|reflexivity].
      change (share_key (guardian_from_private_record (GuiLive.file_of E s) a b)) with (pk_of E s).
      split; [reflexivity|]. split; [reflexivity|]. split; [apply pk_of_key; exact HE|apply pk_of_commitments; exact HE].
  Qed.
End Ready.

(** an election created from such a ceremony is what the theorems about ballots, decryptions and pages start from *)
Lemma created_ready_records E parse n k h cer hs disk x cx m im : valid_env E -> fit_ceremony E n k h -> reads_ceremony E cer n k h hs -> same_files E disk cer n k h ->
  cer <> ""%string -> In x (su_elections (fst (create_run E parse hs))) -> el_ceremony (ne_election x) = cer -> el_context (ne_election x) = Some cx ->
  el_manifest (ne_election x) = m -> make_internal E m = Ok im -> distinct_option_ids im ->
  exists ss, map (fun r => (gr_id r, gr_seq r, gr_key r)) (ne_records x) = map (fun s => (st_id s, st_seq s, gexp E (st_secret s))) ss /\ cx_quorum cx = Z.of_nat k /\
    gui_election E disk (setup_db (fst (create_run E parse hs))) (el_id (ne_election x)) m im cx k ss /\ len ss = n /\ (forall u, In u (map st_id ss) <-> In u (kc_joined (w_doc (gui_run E (gui_start n (Z.of_nat k)) h)))).
Proof.
  intros HE F R D Hcer Hx Hc Hcx Hm Him Ho. destruct (elections_right_records E parse hs x Hx) as (i & kcs & id & raw & d & m' & X1 & X2 & X3 & X4 & X5 & X6). rewrite Hc in *.
  destruct (R i kcs id d X2 X3) as (h1 & h2 & -> & ->).
  destruct X5 as [V1 V2 V3 V4 V5 V6 V7 V8 (j & cx' & C1 & C2 & C3 & C4 & C5 & C6 & C7 & C8 & C9)]. rewrite Hcx in C2. injection C2 as <-. rewrite Hm in V3. subst m'.
  destruct (ceremony_seats E HE n k h1 h2 j F C1) as (ss & S1 & S2 & S3 & S4 & S5 & S6 & S7 & S8 & S9 & S10 & S11). exists ss.
  assert (Hids : forall u, In u (map st_id ss) <-> In u (kc_joined (w_doc (gui_run E (gui_start n (Z.of_nat k)) (h1 ++ h2))))).
  { assert (Hs : incl (map st_id ss) (kc_joined (w_doc (gui_run E (gui_start n (Z.of_nat k)) (h1 ++ h2))))).
    { intros u Hu. apply in_map_iff in Hu as [s [<- Hs]]. apply (files_joined E n k (h1 ++ h2)); [apply (fc_events _ _ _ _ F)|apply (fc_once _ _ _ _ F)|apply S10; assumption]. }
    intros u. split; [apply Hs|]. apply (NoDup_length_incl (gs_ids _ _ _ S1)); [|exact Hs]. rewrite map_length. pose proof (fc_number _ _ _ _ F) as Hl. unfold len in *. lia. }
  split.
  { rewrite X6, S9, !map_map. cbn [gr_id gr_seq gr_key]. apply map_ext. intros s. rewrite (pk_of_key E HE). reflexivity. }
  split; [rewrite C4; exact S7|].
  split; [|split; [assumption|exact Hids]]. constructor; auto.
  - constructor; cbn.
    + rewrite map_map. apply (tr_ids _ _ _ _ (traced_run E parse hs)).
    + reflexivity.
    + intros y Hy. apply in_map_iff in Hy as [z [<- Hz]]. destruct (elections_right E parse hs z Hz) as (? & ? & ? & ? & ? & ? & _ & _ & _ & _ & Z). apply (re_uploads _ _ _ _ _ Z).
  - rewrite C9. apply ZKFacts.hash_range. assumption.
  - rewrite C3, S6, S4. reflexivity.
  - rewrite C4, S7, S4. exact S5.
  - rewrite C5. exact S8.
  - exists (ne_election x). split; [apply in_map; assumption|]. split; [reflexivity|]. split; [exact Hcx|]. split; [exact Hm|]. split; [rewrite V7, S9, map_map; reflexivity|].
    split; [rewrite V5, S6, S4; reflexivity|]. rewrite Hc. split; [assumption|]. split.
    + intros s Hs. rewrite D. apply S10. assumption.
    + intros u r a b Hr. rewrite D in Hr. eapply S11. exact Hr.
Qed.
Lemma created_ready E parse n k h cer hs disk x cx m im : valid_env E -> fit_ceremony E n k h -> reads_ceremony E cer n k h hs -> same_files E disk cer n k h ->
  cer <> ""%string -> In x (su_elections (fst (create_run E parse hs))) -> el_ceremony (ne_election x) = cer -> el_context (ne_election x) = Some cx ->
  el_manifest (ne_election x) = m -> make_internal E m = Ok im -> distinct_option_ids im ->
  exists ss, gui_election E disk (setup_db (fst (create_run E parse hs))) (el_id (ne_election x)) m im cx k ss /\ len ss = n /\ (forall u, In u (map st_id ss) <-> In u (kc_joined (w_doc (gui_run E (gui_start n (Z.of_nat k)) h)))).
Proof.
  intros HE F R D Hcer Hx Hc Hcx Hm Him Ho. destruct (created_ready_records E parse n k h cer hs disk x cx m im HE F R D Hcer Hx Hc Hcx Hm Him Ho) as (ss & _ & _ & H). exists ss. exact H.
Qed.

(** the whole run of the application *)
Lemma whole_run E mparse n k h cer hs x cx m im : valid_env E -> fit_ceremony E n k h -> reads_ceremony E cer n k h hs -> cer <> ""%string ->
  In x (su_elections (fst (create_run E mparse hs))) -> el_ceremony (ne_election x) = cer -> el_context (ne_election x) = Some cx ->
  el_manifest (ne_election x) = m -> make_internal E m = Ok im -> distinct_option_ids im -> candidates_listed m ->
  forall parse device disk vs h1 id h2 h3, same_files E disk cer n k h -> good_voters E im vs ->
  let w0 := setup_db (fst (create_run E mparse hs)) in let e := el_id (ne_election x) in
  let before := after_all E parse device disk w0 h1 in
  let joined := after_all E parse device disk w0 (h1 ++ NewDecryption id e :: h2) in
  let final := after_all E parse device disk w0 (h1 ++ NewDecryption id e :: h2 ++ h3) in
  pools_work (h1 ++ h2 ++ h3) -> no_more_uploads (h2 ++ h3) -> reads_work (h2 ++ h3) ->
  only_voters E parse im cx vs (dw_db before) e -> find_decryption (dw_docs before) id = None ->
  (forall u, In u (kc_joined (w_doc (gui_run E (gui_start n (Z.of_nat k)) h))) ->
     carried_out E parse device disk (dec_event_step E parse device disk before (NewDecryption id e)) h2 (StartJoin u id)) ->
  carried_out E parse device disk joined h3 (StartView true id) ->
  exists counted, NoDup counted /\
    (forall v, In v counted <-> In v vs /\ exists b, In b (stored (dw_db before) e) /\ closed (so_contents b) = true /\ SpecGuiDecrypt.file_of E parse im cx v b) /\
    (exists rows, view_tally (dw_db final) (dw_docs final) id = Ok rows /\ shows_page m (in_manifest m) (cast_count im counted) rows) /\
    (forall v, In v counted -> vr_state v = SPOILED ->
      exists rows, view_spoiled_ballot (dw_db final) (dw_docs final) id (vr_id v) = Ok rows /\ shows_page m (on_ballot im (vr_ballot v)) (vote_for im (vr_ballot v)) rows) /\
    (forall i rows, view_spoiled_ballot (dw_db final) (dw_docs final) id i = Ok rows -> exists v, In v counted /\ vr_id v = i /\ vr_state v = SPOILED).
Proof.
  intros HE F R Hcer Hx Hc Hcx Hm Him Ho Hl parse device disk vs h1 id h2 h3 D V w0 e before joined final P1 P2 P3 P4 P5 P6 P7.
  destruct (created_ready E mparse n k h cer hs disk x cx m im HE F R D Hcer Hx Hc Hcx Hm Him Ho) as (ss & G & _ & Hids).
  apply (pages_show E parse device disk w0 e m im cx k ss vs h1 id h2 h3 HE G V Hl); auto.
  intros s Hs. apply P6. apply Hids. apply in_map. assumption.
Qed.

(** ** one after the other *)
Section Sequential.
  Context (E : env) (parse : string -> option manifest).
  Notation names s := (map ne_name (su_elections s)).
  Notation ids s := (map (fun x => el_id (ne_election x)) (su_elections s)).
  (** what one request can do *)
  Lemma create_one_cases s r : (su_elections (snd (create_one E parse s r)) = su_elections s /\
      (forall c, c <> rq_ceremony r -> dget c (su_files (snd (create_one E parse s r))) = dget c (su_files s)) /\ fst (create_one E parse s r) <> Created (Some (rq_id r))) \/
    exists d p, rq_kcs r (rq_ceremony r) = Some d /\ prepare E parse (rq_raw r) d = Ok p /\ ~ In (rq_name r) (names s) /\ ~ In (rq_id r) (ids s) /\
      create_one E parse s r = (Created (Some (rq_id r)), mkSetup (su_elections s ++ [new_election (rq_id r) (rq_name r) (rq_ceremony r) p]) (dset (rq_ceremony r) p (su_files s))).
  Proof.
    destruct r as [name cer raw kcs id n]. unfold create_one. cbn [rq_name rq_ceremony rq_raw rq_kcs rq_id rq_steps].
    assert (Stop : forall m r s, create_calls E parse kcs id m (Created r) s = (Created r, s)) by (induction m; intros; cbn; auto).
    destruct n as [|n]; [left; repeat split; auto; discriminate|]. cbn [create_calls create_step].
    destruct (existsb (fun x => String.eqb (ne_name x) name) (su_elections s)) eqn:Hn; [rewrite Stop; left; repeat split; auto; discriminate|].
    destruct n as [|n]; [left; repeat split; auto; discriminate|]. cbn [create_calls create_step].
    destruct (kcs cer) as [d|] eqn:Hk; [|rewrite Stop; left; repeat split; auto; discriminate].
    destruct (prepare E parse raw d) as [p|] eqn:Hp; [|rewrite Stop; left; repeat split; auto; discriminate].
    assert (Fl : forall c, c <> cer -> dget c (dset cer p (su_files s)) = dget c (su_files s)) by (intros c Hc; apply dget_dset_other; congruence).
    destruct n as [|n]; [left; cbn; repeat split; auto; discriminate|]. cbn [create_calls create_step su_elections su_files].
    destruct (existsb (fun x => String.eqb (el_id (ne_election x)) id) (su_elections s)) eqn:Hi; rewrite Stop; [left; cbn; repeat split; auto; discriminate|].
    right. exists d, p. split; [reflexivity|]. split; [exact Hp|]. split; [|split; [|reflexivity]].
    - intros Hin. apply in_map_iff in Hin as [x [X1 X2]]. assert (existsb (fun x => String.eqb (ne_name x) name) (su_elections s) = true) by (apply existsb_exists; exists x; split; [assumption|apply String.eqb_eq; assumption]). congruence.
    - intros Hin. apply in_map_iff in Hin as [x [X1 X2]]. assert (existsb (fun x => String.eqb (el_id (ne_election x)) id) (su_elections s) = true) by (apply existsb_exists; exists x; split; [assumption|apply String.eqb_eq; assumption]). congruence.
  Qed.
  Lemma names_once h : NoDup (names (one_by_one E parse h)) /\ NoDup (ids (one_by_one E parse h)).
  Proof.
    induction h as [|r h IH] using rev_ind; [split; constructor|]. unfold one_by_one in *. rewrite fold_left_app. cbn [fold_left]. set (s := fold_left _ h _) in *.
    destruct (create_one_cases s r) as [(-> & _)|(d & p & _ & _ & H1 & H2 & ->)]; [exact IH|]. cbn [snd su_elections]. rewrite !map_app. cbn. destruct IH. split; apply nodup_snoc; assumption.
  Qed.
  Lemma later_kept h2 : forall s id x p, find_first (fun x => String.eqb (el_id (ne_election x)) id) (su_elections s) = Some x -> dget (ne_file x) (su_files s) = Some p ->
    (forall r, In r h2 -> rq_ceremony r <> ne_file x) -> let s' := fold_left (fun s r => snd (create_one E parse s r)) h2 s in
    find_first (fun x => String.eqb (el_id (ne_election x)) id) (su_elections s') = Some x /\ dget (ne_file x) (su_files s') = Some p.
  Proof.
    induction h2 as [|r h2 IH]; intros s id x p Hx Hp Hr; [auto|]. cbn [fold_left]. apply IH; [| |intros r' Hr'; apply Hr; right; assumption].
    - destruct (create_one_cases s r) as [(-> & _)|(d & q & _ & _ & _ & _ & ->)]; [exact Hx|]. cbn [snd su_elections]. clear -Hx.
      induction (su_elections s) as [|y l IH]; cbn in *; [discriminate|]. destruct (String.eqb _ _); auto.
    - assert (Hne : ne_file x <> rq_ceremony r) by (intros Hc; apply (Hr r (or_introl eq_refl)); auto).
      destruct (create_one_cases s r) as [(_ & -> & _)|(d & q & _ & _ & _ & _ & ->)]; auto. cbn [snd su_files]. rewrite dget_dset_other by congruence. exact Hp.
  Qed.
  Lemma package_kept h1 r h2 : fst (create_one E parse (one_by_one E parse h1) r) = Created (Some (rq_id r)) -> rq_ceremony r <> ""%string -> (forall r', In r' h2 -> rq_ceremony r' <> rq_ceremony r) ->
    exists x p, In x (su_elections (one_by_one E parse (h1 ++ r :: h2))) /\ el_id (ne_election x) = rq_id r /\ ne_name x = rq_name r /\ el_ceremony (ne_election x) = rq_ceremony r /\
      export_encryption_package (one_by_one E parse (h1 ++ r :: h2)) (rq_id r) = Ok p /\ package_of x p.
  Proof.
    intros Hr Hc Hl. unfold one_by_one in *. rewrite fold_left_app. cbn [fold_left]. set (s := fold_left _ h1 _) in *.
    destruct (create_one_cases s r) as [(_ & _ & H)|(d & p & _ & _ & H1 & H2 & Heq)]; [contradiction|].
    set (x := new_election (rq_id r) (rq_name r) (rq_ceremony r) p). exists x, p.
    destruct (later_kept h2 (snd (create_one E parse s r)) (rq_id r) x p) as [L1 L2].
    - rewrite Heq. cbn [snd su_elections]. fold x. clear -H2. induction (su_elections s) as [|y l IH]; cbn in *; [rewrite String.eqb_refl; reflexivity|].
      destruct (String.eqb_spec (el_id (ne_election y)) (rq_id r)); [tauto|]. apply IH. tauto.
    - rewrite Heq. apply dget_dset_same.
    - exact Hl.
    - destruct (find_first_some _ _ _ L1) as [L3 _]. split; [exact L3|]. do 3 (split; [reflexivity|]). split; [|repeat split; reflexivity].
      unfold export_encryption_package. rewrite L1. change (ne_file x) with (rq_ceremony r) in *. destruct (String.eqb_spec (rq_ceremony r) ""); [contradiction|]. rewrite L2. reflexivity.
  Qed.
  (** a call on its own succeeds when its conditions are met *)
  Lemma accepted s name cer raw kcs id d m im j nm : ~ In name (names s) -> ~ In id (ids s) -> kcs cer = Some d -> kc_joint d = Some j -> parse raw = Some m -> manifest_is_valid m = true ->
    make_internal E m = Ok im -> get_name m = Ok nm -> fst (create_one E parse s (mkRequest name cer raw kcs id 3)) = Created (Some id).
  Proof.
    intros Hn Hi Hk Hj Hp Hv Him Hnm. destruct (prepare_accepts E parse raw d m im j nm Hp Hv Him Hnm Hj) as [p Hpr].
    unfold create_one. cbn [rq_name rq_ceremony rq_raw rq_kcs rq_id rq_steps create_calls create_step].
    destruct (existsb (fun x => String.eqb (ne_name x) name) (su_elections s)) eqn:H1.
    { apply existsb_exists in H1 as [x [X1 X2]]. apply String.eqb_eq in X2. destruct Hn. rewrite <- X2. apply in_map. assumption. }
    cbn [create_step]. rewrite Hk, Hpr. cbn [create_step su_elections].
    destruct (existsb (fun x => String.eqb (el_id (ne_election x)) id) (su_elections s)) eqn:H2; [|reflexivity].
    apply existsb_exists in H2 as [x [X1 X2]]. apply String.eqb_eq in X2. destruct Hi. rewrite <- X2. apply (in_map (fun x => el_id (ne_election x))). assumption.
  Qed.
End Sequential.
