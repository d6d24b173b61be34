(** * ReportLink: what a published decryption looks like on its pages. *)
From Coq Require Import List QArith Permutation.
From Verif Require Import Base Group Hash DLog ElGamal Spec ListFacts Manifest ManifestThms Ballot Encrypt Box Tally SpecTally TallyFacts Ceremony SpecCeremony Shares SpecShares SpecEndToEnd EndToEnd MediatorFacts ShareRun
  GuiUpload SpecUpload UploadFacts GuiDecrypt SpecGuiDecrypt GuiDecRun GuiDecThms Report SpecReport ReportFacts.
Local Open Scope Z_scope.

(** ** the form of a decrypted tally *)
Section Form.
  Variables (E : env) (HE : valid_env E) (m : manifest).
  Hypothesis Hv : manifest_is_valid m = true.
  Definition sel_form (ids : list string) (d : dict string plain_sel) : Prop :=
    NoDup (dkeys d) /\ forall k s, In (k, s) d -> pl_id s = k /\ In k ids /\ 0 <= pl_tally s.
  Lemma sels_form shares ext ids : forall ss d r, sel_form ids d -> decrypt_selections_shares E shares ext ids true ss d = Ok (Some r) -> sel_form ids r.
  Proof.
    induction ss as [|s ss IH]; intros d r Hd; cbn [decrypt_selections_shares]; [intros [= <-]; exact Hd|].
    destruct (inb (fst s) ids) eqn:Hi; cbn [negb andb]; [|apply IH, Hd]. unfold decrypt_selection_shares. destruct (negb _); [cbn [rbind]; discriminate|].
    destruct (div_p _ _ _) as [value|]; cbn [rbind]; [|discriminate]. destruct (dlog E value) as [t|] eqn:Ht; cbn [rbind]; [|discriminate]. cbn [pl_id].
    apply IH. split; [apply dset_nodup, Hd|]. intros k x Hx. apply MediatorFacts.dset_in in Hx as [[-> ->]|Hx]; [|apply Hd, Hx]. cbn [pl_id pl_tally]. split; [reflexivity|]. split; [apply inb_spec, Hi|].
    apply (ElGamalFacts.dlog_ok E) in Ht; tauto.
  Qed.
  Definition con_form (d : dict string plain_con) : Prop :=
    NoDup (dkeys d) /\ forall k c, In (k, c) d -> pn_id c = k /\ exists x, In x (mf_contests m) /\ cd_id x = k /\ sel_form (map sd_id (cd_selections x)) (pn_selections c).
  Lemma cons_form shares ext : forall cs d r, con_form d -> decrypt_contests_shares E shares ext (dict_of (map (fun d => (cd_id d, d)) (mf_contests m))) true cs d = Ok (Some r) -> con_form r.
  Proof.
    induction cs as [|c cs IH]; intros d r Hd; cbn [decrypt_contests_shares]; [intros [= <-]; exact Hd|].
    destruct (dget (cc_id c) _) as [x|] eqn:Hx; [|apply IH, Hd]. apply dget_in, dict_of_in, in_map_iff in Hx as (x' & Hx' & Hin). injection Hx' as Hid ->.
    unfold decrypt_contest_shares. destruct (decrypt_selections_shares _ _ _ _ _ _ _) as [[ss|]|] eqn:Hs; cbn [rbind]; [|discriminate..].
    apply sels_form in Hs; [|split; [constructor|intros k s []]]. apply IH. split; [apply dset_nodup, Hd|]. intros k y Hy. apply MediatorFacts.dset_in in Hy as [[-> ->]|Hy]; [|apply Hd, Hy].
    cbn [pn_id pn_selections]. split; [reflexivity|]. exists x. auto.
  Qed.
  Lemma shares_form id cs shares ext p : decrypt_shares E id cs shares ext m true = Ok (Some p) -> pt_id p = id /\ con_form (pt_contests p).
  Proof.
    unfold decrypt_shares. destruct (decrypt_contests_shares _ _ _ _ _ _ _) as [[d|]|] eqn:Hd; cbn [rbind]; [|discriminate..]. intros [= <-]. split; [reflexivity|]. apply (cons_form _ _ _ _ _) in Hd; [exact Hd|]. split; [constructor|intros k c []].
  Qed.
  Lemma form_of p : con_form (pt_contests p) -> of_manifest m p.
  Proof.
    intros [Hn Hf]. split.
    - replace (map pn_id (dvals (pt_contests p))) with (dkeys (pt_contests p)); [exact Hn|]. unfold dkeys, dvals. rewrite map_map. apply map_ext_in. intros [k c] Hi. symmetry. apply (proj1 (Hf k c Hi)).
    - intros c Hc. unfold dvals in Hc. apply in_map_iff in Hc as ([k c'] & <- & Hi). cbn [snd]. destruct (Hf k c' Hi) as (H1 & x & H2 & H3 & [H4 H5]). split; [|split].
      + replace (map pl_id (dvals (pn_selections c'))) with (dkeys (pn_selections c')); [exact H4|]. unfold dkeys, dvals. rewrite map_map. apply map_ext_in. intros [o s] Ho. symmetry. apply (proj1 (H5 o s Ho)).
      + exists x. rewrite H1. auto.
      + intros s Hs. unfold dvals in Hs. apply in_map_iff in Hs as ([o s'] & <- & Ho). cbn [snd]. destruct (H5 o s' Ho) as (S1 & S2 & S3). split; [|exact S3].
        apply in_map_iff in S2 as (od & O1 & O2). exists x, od. rewrite H1, S1. auto.
  Qed.
  (** the counts of a tally in that form are its selections' *)
  Lemma form_counts p c s : con_form (pt_contests p) -> In c (dvals (pt_contests p)) -> In s (dvals (pn_selections c)) -> count_of p (pn_id c) (pl_id s) = Some (pl_tally s).
  Proof.
    intros [Hn Hf] Hc Hs. unfold dvals in Hc, Hs. apply in_map_iff in Hc as ([k c'] & <- & Hi). cbn [snd] in *. destruct (Hf k c' Hi) as (-> & x & _ & _ & [H4 H5]).
    apply in_map_iff in Hs as ([o s'] & <- & Ho). cbn [snd]. destruct (H5 o s' Ho) as (-> & _). unfold count_of. rewrite (in_dget k c' _ Hn Hi), (in_dget o s' _ H4 Ho). reflexivity.
  Qed.
  Lemma counts_form p cid oid n : con_form (pt_contests p) -> count_of p cid oid = Some n -> exists c s, In c (dvals (pt_contests p)) /\ pn_id c = cid /\ In s (dvals (pn_selections c)) /\ pl_id s = oid /\ pl_tally s = n.
  Proof.
    intros [Hn Hf]. unfold count_of. destruct (dget cid _) as [c|] eqn:Hc; [|discriminate]. destruct (dget oid _) as [s|] eqn:Hs; [|discriminate]. intros [= <-]. apply dget_in in Hc, Hs. destruct (Hf _ _ Hc) as (H1 & x & _ & _ & [_ H5]).
    exists c, s. split; [apply (in_map snd _ _ Hc)|]. split; [exact H1|]. split; [apply (in_map snd _ _ Hs)|]. split; [apply (H5 _ _ Hs)|reflexivity].
  Qed.
  (** ** the computed result *)
  Lemma loop_form md : forall bs d ps, (forall k p, In (k, p) d -> pt_id p = k /\ con_form (pt_contests p)) -> NoDup (dkeys d) -> plaintext_ballots_loop E md m bs d = Ok ps ->
    (forall k p, In (k, p) ps -> pt_id p = k /\ con_form (pt_contests p)) /\ NoDup (dkeys ps).
  Proof.
    induction bs as [|b bs IH]; intros d ps Hd Hn; cbn [plaintext_ballots_loop]; [intros [= <-]; auto|].
    destruct (dget (sb_id b) (dm_ballots md)) as [[|sh0 shs]|]; [apply IH; assumption| |apply IH; assumption]. destruct (negb _); [apply IH; assumption|].
    unfold decrypt_ballot. destruct (decrypt_shares _ _ _ _ _ _ _) as [[p|]|] eqn:Hp; cbn [rbind]; [|apply IH; assumption|discriminate]. apply shares_form in Hp as [P1 P2].
    apply IH; [|apply dset_nodup, Hn]. intros k q Hq. apply MediatorFacts.dset_in in Hq as [[-> ->]|Hq]; [auto|apply Hd, Hq].
  Qed.
  Lemma result_form up cx md bl r : make_result E up m cx md bl = Ok r ->
    con_form (pt_contests (rs_tally r)) /\ NoDup (dkeys (rs_spoiled r)) /\ forall k p, In (k, p) (rs_spoiled r) -> pt_id p = k /\ con_form (pt_contests p).
  Proof.
    unfold make_result. destruct (get_tally _ _ _ _ _ _) as [t|]; cbn [rbind]; [|discriminate]. unfold dm_plaintext_tally. destruct (_ || _); [cbn [rbind]; discriminate|].
    destruct (decrypt_tally _ _ _ _ _ _) as [[p|]|] eqn:Hp; cbn [rbind]; [|discriminate..]. apply shares_form in Hp as [_ P]. unfold dm_plaintext_ballots. destruct (negb _); [cbn [rbind]; discriminate|].
    destruct (plaintext_ballots_loop _ _ _ _ _) as [ps|] eqn:Hl; cbn [rbind]; [|discriminate]. apply loop_form in Hl as [L1 L2]; [|intros k q []|constructor].
    destruct (lagrange_all _ _) as [la|]; cbn [rbind]; [|discriminate]. intros [= <-]. cbn [rs_tally rs_spoiled]. auto.
  Qed.
End Form.

(** ** whatever is published was computed, with the manifest of its election *)
Section Made.
  Variables (E : env) (parse : string -> option sub_ballot) (device : string -> bool) (disk : string -> string -> option private_record) (w0 : gdb).
  Hypothesis H0 : no_uploads w0.
  Notation run := (dec_run E parse device disk).
  Definition made (e : string) (r : dec_result) : Prop :=
    exists x up cx md bl, In x (db_elections w0) /\ el_id x = e /\ make_result E up (el_manifest x) cx md bl = Ok r.
  Definition key (d : decryption) : string * string := (dy_id d, dy_election d).
  Definition for_election (x : election) (e : string) : Prop := exists x0, In x0 (db_elections w0) /\ el_id x0 = e /\ el_manifest x0 = el_manifest x.
  Definition call_made (ds : list decryption) (c : dec_call) : Prop :=
    match c with
    | ViewElection d => In (key d) (map key ds)
    | ViewList d x _ _ | ViewRead d x _ _ _ _ _ => In (key d) (map key ds) /\ for_election x (dy_election d)
    | ViewSet id r => exists e, In (id, e) (map key ds) /\ made e r
    | _ => True
    end.
  Definition docs_made (ds : list decryption) : Prop := NoDup (map dy_id ds) /\ forall d r, In d ds -> dy_result d = Some r -> made (dy_election d) r.
  Definition all_made (W : dec_world) : Prop := docs_made (dw_docs W) /\ Forall (call_made (dw_docs W)) (dw_calls W).
  Lemma call_made_more ds ds' c : incl (map key ds) (map key ds') -> call_made ds c -> call_made ds' c.
  Proof. intros Hi. destruct c; cbn [call_made]; auto; [intros [H1 H2]; split; auto..|]. intros (e & H1 & H2). exists e. auto. Qed.
  Lemma update_keys ds id f : (forall d, key (f d) = key d) -> map key (update_decryption ds id f) = map key ds.
  Proof. intros Hf. unfold update_decryption. apply update_first_map. intros d _ _. apply Hf. Qed.
  Lemma keys_ids ds ds' : map key ds = map key ds' -> map dy_id ds = map dy_id ds'.
  Proof. intros H. apply (f_equal (map fst)) in H. rewrite !map_map in H. exact H. Qed.
  Lemma update_made ds id f : docs_made ds -> (forall d, key (f d) = key d) -> (forall d r, In d ds -> dy_id d = id -> dy_result (f d) = Some r -> made (dy_election d) r) -> docs_made (update_decryption ds id f).
  Proof.
    intros [D1 D2] Hf Hr. split; [rewrite (keys_ids _ ds); [exact D1|apply update_keys, Hf]|]. intros d r Hd Hdr. unfold update_decryption in Hd. apply update_first_in in Hd as [Hd|(d' & Hd' & Hid & ->)]; [eauto|].
    apply String.eqb_eq in Hid. assert (E1 := Hf d'). injection E1 as _ E2. rewrite E2. exact (Hr d' r Hd' Hid Hdr).
  Qed.
  Lemma step_made net up rnd c w ds c' ds' : good_db parse w0 w -> docs_made ds -> call_made ds c -> dec_step E parse disk net up rnd c w ds = (c', ds') ->
    docs_made ds' /\ map key ds' = map key ds /\ call_made ds c'.
  Proof.
    intros Hw Hd Hc. destruct c as [u id|u d|u d x cx g|u d x cx g ids k got|id en|id u|a id|d|d x cx md|d x cx md ids k got|id r|ok]; cbn [dec_step].
    - destruct (find_decryption ds id); intros [= <- <-]; cbn; auto.
    - destruct (find_election w _) as [x|]; [destruct (el_context x); [destruct (load_guardian _ _ _)|]|]; intros [= <- <-]; cbn; auto.
    - intros [= <- <-]; cbn; auto.
    - destruct ids as [|i ids]; [destruct (join_entry _ _ _ _ _ _ _ _); intros [= <- <-]; cbn; auto|]. destruct (read_next _ _ _ _ _) as [[ids' k'] got']. intros [= <- <-]; cbn; auto.
    - intros [= <- <-]. split; [|split; [apply update_keys; reflexivity|exact I]]. apply update_made; [exact Hd|reflexivity|]. intros d r Hin _ Hr. exact (proj2 Hd d r Hin Hr).
    - intros [= <- <-]. split; [|split; [apply update_keys; reflexivity|exact I]]. apply update_made; [exact Hd|reflexivity|]. intros d r Hin _ Hr. exact (proj2 Hd d r Hin Hr).
    - destruct (find_decryption ds id) as [d|] eqn:F; [|intros [= <- <-]; cbn; auto]. destruct (should_run a d); intros [= <- <-]; cbn [call_made]; auto.
      split; [exact Hd|]. split; [reflexivity|]. apply in_map. apply find_first_some in F. apply F.
    - destruct (find_election w _) as [x|] eqn:F; [|intros [= <- <-]; cbn; auto]. destruct (el_context x); [|intros [= <- <-]; cbn; auto].
      destruct (do l <- decryption_shares d; announce_entries x l _); intros [= <- <-]; cbn [call_made]; auto. split; [exact Hd|]. split; [reflexivity|]. split; [exact Hc|].
      apply find_first_some in F as [F1 F2]. apply String.eqb_eq in F2. assert (Hi : In (el_fixed x) (map el_fixed (db_elections w0))) by (rewrite <- (gw_fixed _ _ _ Hw); apply in_map, F1).
      apply in_map_iff in Hi as (y & Hy & Hi). injection Hy as Y1 Y2 Y3 Y4 Y5 Y6 Y7. exists y. repeat split; congruence.
    - intros [= <- <-]. cbn [call_made]. auto.
    - destruct ids as [|i ids].
      + destruct (make_result _ _ _ _ _ _) as [r|] eqn:R; intros [= <- <-]; cbn [call_made]; auto. split; [exact Hd|]. split; [reflexivity|]. destruct Hc as [C1 (x0 & X1 & X2 & X3)].
        exists (dy_election d). split; [exact C1|]. rewrite <- X3 in R. exists x0, (up [0%nat]), cx, md, got. auto.
      + destruct (read_next _ _ _ _ _) as [[ids' k'] got']. intros [= <- <-]. cbn [call_made]. auto.
    - intros [= <- <-]. split; [|split; [apply update_keys; reflexivity|exact I]]. apply update_made; [exact Hd|reflexivity|]. intros d r' Hin Hid Hr. cbn [dy_result set_completed] in Hr. injection Hr as <-.
      destruct Hc as (e & C1 & C2). apply in_map_iff in C1 as (d' & K1 & K2). injection K1 as K3 K4. replace (dy_election d) with e; [exact C2|]. rewrite <- K4. f_equal.
      apply (ShareRun.NoDup_inj dy_id ds); [apply Hd|exact K2|exact Hin|congruence].
    - intros [= <- <-]. cbn. auto.
  Qed.
  Lemma event_made W ev : good_up parse w0 (dw_up W) -> all_made W -> all_made (dec_event_step E parse device disk W ev).
  Proof.
    intros Hg [D C]. destruct ev as [u|id e|u id|a id|i net up rnd]; cbn [dec_event_step].
    - split; assumption.
    - unfold all_made. cbn [dw_docs dw_calls]. unfold create_decryption. destruct (find_election _ e) as [x|]; [|split; assumption]. destruct (existsb _ _) eqn:Hex; [split; assumption|].
      split; [|eapply Forall_impl; [|exact C]; intros c; apply call_made_more; rewrite map_app; intros y Hy; apply in_or_app; auto]. split.
      + rewrite map_app. cbn [map dy_id]. apply (Permutation_NoDup (l := id :: map dy_id (dw_docs W))); [apply Permutation_cons_append|]. constructor; [|apply D].
        intros Hi. apply in_map_iff in Hi as (d & Hd & Hin). assert (T : existsb (fun d => String.eqb (dy_id d) id) (dw_docs W) = true) by (apply existsb_exists; exists d; split; [exact Hin|apply String.eqb_eq, Hd]). congruence.
      + intros d r Hd Hr. apply in_app_or in Hd as [Hd|[<-|[]]]; [exact (proj2 D d r Hd Hr)|discriminate Hr].
    - split; [exact D|]. apply Forall_app. split; [exact C|repeat constructor].
    - split; [exact D|]. apply Forall_app. split; [exact C|repeat constructor].
    - destruct (nth_error _ _) as [c|] eqn:Hn; [|split; assumption]. destruct (dec_step _ _ _ _ _ _ _ _ _) as [c' ds'] eqn:Hs. rewrite Forall_forall in C.
      apply step_made in Hs as (S1 & S2 & S3); [|apply Hg|exact D|apply C; eapply nth_error_In; exact Hn]. split; cbn [dw_docs dw_calls]; [exact S1|].
      apply Forall_forall. intros y Hy. apply (call_made_more (dw_docs W)); [rewrite S2; apply incl_refl|]. apply set_nth_in in Hy as [->|Hy]; [exact S3|apply C, Hy].
  Qed.
  Lemma run_made h : forall W, good_up parse w0 (dw_up W) -> all_made W -> all_made (run W h).
  Proof.
    unfold dec_run. induction h as [|ev h IH]; intros W Hg Hm; [exact Hm|]. cbn [fold_left]. apply IH; [apply good_event, Hg|apply event_made; assumption].
  Qed.
  Lemma event_keys W ev : good_up parse w0 (dw_up W) -> all_made W -> incl (map key (dw_docs W)) (map key (dw_docs (dec_event_step E parse device disk W ev))).
  Proof.
    intros Hg [D C]. destruct ev as [u|id e|u id|a id|i net up rnd]; cbn [dec_event_step dw_docs]; try apply incl_refl.
    - unfold create_decryption. destruct (find_election _ e); [|apply incl_refl]. destruct (existsb _ _); [apply incl_refl|]. rewrite map_app. apply incl_appl, incl_refl.
    - destruct (nth_error _ _) as [c|] eqn:Hn; [|apply incl_refl]. destruct (dec_step _ _ _ _ _ _ _ _ _) as [c' ds'] eqn:Hs. rewrite Forall_forall in C.
      apply step_made in Hs as (S1 & S2 & S3); [|apply Hg|exact D|apply C; eapply nth_error_In; exact Hn]. cbn [dw_docs]. rewrite S2. apply incl_refl.
  Qed.
  Lemma run_keys h : forall W, good_up parse w0 (dw_up W) -> all_made W -> incl (map key (dw_docs W)) (map key (dw_docs (run W h))).
  Proof.
    unfold dec_run. induction h as [|ev h IH]; intros W Hg Hm; [apply incl_refl|]. cbn [fold_left]. eapply incl_tran; [apply event_keys; [exact Hg|exact Hm]|]. apply IH; [apply good_event, Hg|apply event_made; assumption].
  Qed.
  Lemma start_made : all_made (mkDecWorld (mkUpWorld w0 []) [] []).
  Proof. split; [split; [constructor|intros d' r' []]|constructor]. Qed.
  (** a decryption keeps the election it was created for *)
  Lemma created_for h1 id e h d : (exists x, In x (db_elections w0) /\ el_id x = e) -> find_decryption (dw_docs (after_all E parse device disk w0 h1)) id = None ->
    In d (dw_docs (after_all E parse device disk w0 (h1 ++ NewDecryption id e :: h))) -> dy_id d = id -> dy_election d = e.
  Proof.
    intros (x & X1 & X2) Hno Hd Hid. unfold after_all in *. rewrite run_app in Hd. set (W := run _ h1) in *.
    assert (GW : good_up parse w0 (dw_up W)) by (apply good_run, (good_init parse w0 H0)). assert (MW : all_made W) by (apply run_made; [apply (good_init parse w0 H0)|apply start_made]).
    change (run W (NewDecryption id e :: h)) with (run (dec_event_step E parse device disk W (NewDecryption id e)) h) in Hd. set (W2 := dec_event_step E parse device disk W (NewDecryption id e)) in *.
    assert (GW2 : good_up parse w0 (dw_up W2)) by (apply good_event, GW). assert (MW2 : all_made W2) by (apply event_made; assumption).
    assert (K : In (id, e) (map key (dw_docs W2))).
    { subst W2. cbn [dec_event_step dw_docs]. unfold create_decryption. destruct (find_election (dw_db W) e) as [y|] eqn:F.
      - destruct (existsb _ _) eqn:Hex.
        + exfalso. apply existsb_exists in Hex as (d0 & D1 & D2). exact (Bool.eq_true_false_abs _ D2 (proj1 (find_first_none _ _) Hno d0 D1)).
        + rewrite map_app. apply in_or_app. right. left. apply find_first_some in F as [_ F]. apply String.eqb_eq in F. unfold key. cbn [dy_id dy_election]. rewrite F. reflexivity.
      - exfalso. assert (Hi : In (el_fixed x) (map el_fixed (db_elections (dw_db W)))) by (change (dw_db W) with (uw_db (dw_up W)); rewrite (gw_fixed _ _ _ (proj1 GW)); apply in_map, X1).
        apply in_map_iff in Hi as (y & Y1 & Y2). assert (Hy := proj1 (find_first_none _ _) F y Y2). cbn beta in Hy. apply String.eqb_neq in Hy. apply Hy. injection Y1 as Y3 _. congruence. }
    apply (run_keys h W2 GW2 MW2) in K. apply in_map_iff in K as (d' & K1 & K2). injection K1 as K3 K4. rewrite <- K4. f_equal.
    apply (NoDup_inj dy_id (dw_docs (run W2 h))); [apply (run_made h W2 GW2 MW2)|assumption..|congruence].
  Qed.
  Lemma published_made h d r : In d (dw_docs (after_all E parse device disk w0 h)) -> dy_result d = Some r -> made (dy_election d) r.
  Proof.
    intros Hd Hr. unfold after_all in Hd. refine (proj2 (proj1 (run_made h _ _ _)) d r Hd Hr); [apply (good_init parse w0 H0)|apply start_made].
  Qed.
End Made.
