(** * GuiRecFacts: the record that the graphical application exports. *)
From Coq Require Import Permutation List Znumtheory.
From Verif Require Import Base Group Codec Hash DLog ElGamal ZK Poly Manifest Ballot Encrypt Box Tally Spec SpecElection SpecTally ListFacts GroupFacts CryptoThms TallyFacts TallyThms
  Ceremony CeremonyFacts SpecCeremony Shares SpecShares SharesFacts ShareRun SharesThms Verify SpecVerify VerifyFacts SpecEndToEnd EndToEnd GuiUpload SpecUpload UploadFacts UploadRead
  GuiDecrypt SpecGuiDecrypt GuiDecTally GuiDecPure GuiDecRun GuiDecInv GuiDecThms GuiDecSamples GuiCeremony SpecGui GuiElection SpecGuiElection GuiElFacts GuiElReady ReportLink Report SpecReport Cli SpecCli CliPaths CliFiles GuiRecord SpecGuiRecord.
Local Open Scope Z_scope.
Local Open Scope list_scope.

(** ** files written again with the same contents *)
Definition write_all (l : list (content * string * string)) (fs : dict string content) : dict string content := fold_left (fun fs e => dset (entry_path e) (fst (fst e)) fs) l fs.
Lemma write_again l : (forall e e', In e l -> In e' l -> entry_path e = entry_path e' -> fst (fst e) = fst (fst e')) -> forall fs : dict string content,
  (forall e, In e l -> dget (entry_path e) (write_all l fs) = Some (fst (fst e))) /\ (forall p c, In (p, c) (write_all l fs) -> In (p, c) fs \/ exists e, In e l /\ entry_path e = p /\ fst (fst e) = c).
Proof.
  induction l as [|a l IH] using rev_ind; intros Hc fs; [split; [intros e []|auto]|]. unfold write_all. rewrite fold_left_app. cbn [fold_left]. change (fold_left _ l fs) with (write_all l fs).
  destruct (IH (fun e e' He He' => Hc e e' (in_or_app _ _ _ (or_introl He)) (in_or_app _ _ _ (or_introl He'))) fs) as [I1 I2]. split.
  - intros e He. destruct (string_dec (entry_path e) (entry_path a)) as [Hp|Hp].
    + rewrite Hp, dget_dset_same. f_equal. symmetry. apply Hc; [exact He|apply in_or_app; right; left; reflexivity|exact Hp].
    + rewrite dget_dset_other by congruence. apply I1. apply in_app_iff in He as [He|[<-|[]]]; [exact He|congruence].
  - intros p c Hi. apply MediatorFacts.dset_in in Hi as [[-> ->]|Hi]; [right; exists a; split; [apply in_or_app; right; left; reflexivity|auto]|].
    destruct (I2 p c Hi) as [H|(e & H1 & H2)]; [left; exact H|right; exists e; split; [apply in_or_app; left; exact H1|exact H2]].
Qed.
Lemma write_nodup l : forall fs : dict string content, NoDup (dkeys fs) -> NoDup (dkeys (write_all l fs)).
Proof. induction l as [|e l IH]; intros fs H; [exact H|]. unfold write_all. cbn [fold_left]. apply IH, dset_nodup, H. Qed.
Lemma map_in_iff {A B} (f : A -> B) a b : (forall x, In x a <-> In x b) -> forall y, In y (map f a) <-> In y (map f b).
Proof. intros H y. rewrite !in_map_iff. split; intros (x & H1 & H2); exists x; (split; [exact H1|]); apply H, H2. Qed.
(** the record, when devices and ballots come more than once *)
Lemma record_again E m cx devs devs' subs subs' sps t p recs lag :
  (forall r, In r recs -> has_slash (gr_id r) = false) -> (forall b, In b subs -> has_slash (sb_id b) = false) -> (forall q, In q sps -> has_slash (pt_id q) = false) ->
  NoDup (map dv_id devs') -> NoDup (map gr_id recs) -> NoDup (map sb_id subs') -> NoDup (map pt_id sps) -> (forall d, In d devs <-> In d devs') -> (forall b, In b subs <-> In b subs') ->
  exists tmp, to_files temp_disk (record_files E temp_dir m cx devs subs sps t p recs lag) = (tmp, Ok tt) /\ files_are (dk_files tmp) (record_of E m cx devs' recs subs' sps t p lag).
Proof.
  intros Hr Hb Hs Nd Nr Nb Ns Hd Hsb. set (l := record_files E temp_dir m cx devs subs sps t p recs lag). set (l' := record_files E temp_dir m cx devs' subs' sps t p recs lag).
  assert (Hb' : forall b, In b subs' -> has_slash (sb_id b) = false) by (intros b Hi; apply Hb, Hsb, Hi).
  assert (Hll : forall e, In e l <-> In e l').
  { intros e. unfold l, l', record_files. rewrite !in_app_iff. rewrite (map_in_iff _ devs devs' Hd), (map_in_iff _ subs subs' Hsb). reflexivity. }
  pose proof (paths_nodup E m cx devs' subs' sps t p recs lag Hr Hb' Hs Nd Nr Nb Ns) as Hnd. fold l' in Hnd.
  assert (Hcons : forall e e', In e l -> In e' l -> entry_path e = entry_path e' -> fst (fst e) = fst (fst e')).
  { intros e e' He He' Hp. apply Hll in He, He'. f_equal. f_equal. apply (NoDup_inj entry_path l' _ _ Hnd); assumption. }
  destruct (to_files_fine l temp_disk (record_fine E m cx devs subs sps t p recs lag Hr Hb Hs)) as (ds & Ht & _). eexists. split; [exact Ht|]. cbn [dk_files temp_disk]. change (fold_left _ l []) with (write_all l []).
  pose proof (perm_record E m cx devs' subs' sps t p recs lag Hr Hb' Hs) as HP. fold l' in HP. destruct (write_again l Hcons []) as [W1 W2]. split.
  - apply (Permutation_NoDup (Permutation_map fst HP)). rewrite map_map. exact Hnd.
  - rewrite <- HP. assert (Hnk : NoDup (dkeys (write_all l []))) by (apply write_nodup; constructor). apply NoDup_Permutation.
    + apply (NoDup_map_inv fst). exact Hnk.
    + apply (NoDup_map_inv fst). rewrite map_map. exact Hnd.
    + intros [q c]. split.
      * intros Hi. destruct (W2 q c Hi) as [[]|(e & E1 & E2 & E3)]. apply in_map_iff. exists e. split; [congruence|apply Hll, E1].
      * intros Hi. apply in_map_iff in Hi as (e & E1 & E2). injection E1 as <- <-. apply Hll in E2. apply dget_in, W1, E2.
Qed.

(** ** reading *)
Lemma all_reads parse w e (net : doc_id -> nat -> option gdb) : (forall i k, net i k = Some w) -> gui_ballots parse net w e = BL parse e w.
Proof.
  intros Hn. unfold gui_ballots, BL, rd. induction (ballot_ids w e) as [|i ids IH]; [reflexivity|]. cbn [flat_map]. rewrite IH. f_equal.
  cbn [with_retry]. rewrite !Hn. destruct (get_submitted_ballot parse (Some w) i); reflexivity.
Qed.
Lemma find_own {A} (f : A -> string) l x : NoDup (map f l) -> In x l -> find_first (fun y => String.eqb (f y) (f x)) l = Some x.
Proof.
  induction l as [|y l IH]; intros Hn Hi; [destruct Hi|]. cbn [find_first]. inversion Hn as [|? ? Hy Hn']; subst. destruct Hi as [->|Hi]; [rewrite String.eqb_refl; reflexivity|].
  destruct (String.eqb_spec (f y) (f x)) as [He|_]; [exfalso; apply Hy; rewrite He; apply in_map, Hi|]. apply IH; assumption.
Qed.
Lemma one_each (f : device -> string) l : (forall a b, In a l -> In b l -> f a = f b -> a = b) -> exists l', NoDup (map f l') /\ forall d, In d l <-> In d l'.
Proof.
  intros H. exists (firsts f [] l). split; [apply firsts_nodup|]. intros d. split.
  - intros Hd. destruct (firsts_cover f l [] d Hd (fun x => x)) as (y & Y1 & Y2). replace d with y; [exact Y1|]. apply H; [apply firsts_in in Y1 as [Y1 _]; exact Y1|exact Hd|exact Y2].
  - intros Hd. apply firsts_in in Hd as [Hd _]. exact Hd.
Qed.

Section Export.
  Context (E : env) (mparse : string -> option manifest) (n : Z) (k : nat) (h : list event) (cer : string) (hs : list create_event) (x : named_election) (cx : context) (m : manifest) (im : internal_manifest).
  Context (HE : valid_env E) (F : fit_ceremony E n k h) (R : reads_ceremony E cer n k h hs) (Hcer : cer <> ""%string) (Hx : In x (su_elections (fst (create_run E mparse hs))))
    (Hc : el_ceremony (ne_election x) = cer) (Hcx : el_context (ne_election x) = Some cx) (Hm : el_manifest (ne_election x) = m) (Him : make_internal E m = Ok im) (Ho : distinct_option_ids im).
  Context (parse : string -> option sub_ballot) (device : string -> bool) (disk : string -> string -> option private_record) (vs : list voter) (h1 : list dec_event) (id : string) (h2 h3 : list dec_event) (u4 u5 : list up_event).
  Context (D : same_files E disk cer n k h) (V : good_voters E im vs).
  Notation s0 := (fst (create_run E mparse hs)).
  Notation w0 := (setup_db s0).
  Notation e := (el_id (ne_election x)).
  Notation all := (after_all E parse device disk w0).
  Notation before := (all h1).
  Notation joined := (all (h1 ++ NewDecryption id e :: h2)).
  Notation final := (all (h1 ++ NewDecryption id e :: h2 ++ h3)).
  Notation read := (all ((h1 ++ NewDecryption id e :: h2 ++ h3) ++ map Uploads u4)).
  Notation later := (all (((h1 ++ NewDecryption id e :: h2 ++ h3) ++ map Uploads u4) ++ map Uploads u5)).
  Notation members := (kc_joined (w_doc (gui_run E (gui_start n (Z.of_nat k)) h))).
  Context (P1 : pools_work (h1 ++ h2 ++ h3)) (P2 : no_more_uploads (h2 ++ h3)) (P3 : reads_work (h2 ++ h3)).
  Context (P4 : only_voters E parse im cx vs (dw_db later) e) (P5 : find_decryption (dw_docs before) id = None).
  Context (P6 : forall u, In u members -> carried_out E parse device disk (dec_event_step E parse device disk before (NewDecryption id e)) h2 (StartJoin u id)).
  Context (P7 : carried_out E parse device disk joined h3 (StartView true id)).
  Context (N1 : forall v, In v vs -> has_slash (vr_id v) = false) (N2 : forall u, In u members -> has_slash u = false).
  Lemma start_good : good_up parse w0 (mkUpWorld w0 []).
  Proof.
    destruct (created_ready E mparse n k h cer hs disk x cx m im HE F R D Hcer Hx Hc Hcx Hm Him Ho) as (ss & G & _). apply (good_init parse w0 (ge_start _ _ _ _ _ _ _ _ _ G)).
  Qed.
  Lemma world_good l : good_up parse w0 (dw_up (all l)).
  Proof. apply good_run, start_good. Qed.
  Lemma stored_later l l' b : In b (stored (dw_db (all l)) e) -> In b (stored (dw_db (all (l ++ l'))) e).
  Proof. unfold after_all. rewrite run_app. destruct (run_more E parse device disk w0 l' (all l) (world_good l)) as (t & Ht). apply (stored_more _ _ e t Ht). Qed.
  Lemma before_later b : In b (stored (dw_db before) e) -> In b (stored (dw_db later) e).
  Proof. intros H. rewrite <- !app_assoc. apply stored_later, H. Qed.
  Lemma docs_read : dw_docs read = dw_docs final.
  Proof. unfold after_all at 1. rewrite run_app. apply uploads_only. Qed.
  Lemma P4' : only_voters E parse im cx vs (dw_db before) e.
  Proof. intros b Hb. apply P4, before_later, Hb. Qed.
  Notation BLb := (BL parse e (dw_db before)).
  Notation BLl := (BL parse e (dw_db later)).

  Lemma export_record dev net location dk : (forall i a, net i a = Some (dw_db later)) ->
    (forall a b, In a (upload_ids (dw_db read) e) -> In b (upload_ids (dw_db read) e) -> dv_id (dev a) = dv_id (dev b) -> dev a = dev b) ->
    let zip := (splitext location ++ ".zip")%string in parent_exists dk zip = true -> ~ In zip (dk_dirs dk) ->
    exists kept counted files, NoDup kept /\ NoDup counted /\
      (forall v, In v kept <-> In v vs /\ exists b, In b (stored (dw_db later) e) /\ closed (so_contents b) = true /\ SpecGuiDecrypt.file_of E parse im cx v b) /\
      (forall v, In v counted <-> In v vs /\ exists b, In b (stored (dw_db before) e) /\ closed (so_contents b) = true /\ SpecGuiDecrypt.file_of E parse im cx v b) /\
      export_election_record E parse dev s0 (dw_docs read) (dw_db read) net (dw_db later) id location dk = (mkDisk (dk_dirs dk) (dset zip (JArchive files) (dk_files dk)), Ok tt) /\
      gui_record E m im cx n (Z.of_nat k) members (map dev (upload_ids (dw_db read) e)) kept counted files.
  Proof.
    intros Hnet Hdev zip Hpar Hzip.
    destruct (created_ready_records E mparse n k h cer hs disk x cx m im HE F R D Hcer Hx Hc Hcx Hm Him Ho) as (ss & Hrec & Hqu & G & Hlen & Hids).
    pose proof (ge_election _ _ _ _ _ _ _ _ _ G) as (x0 & X1 & X2 & X3 & X4 & X5 & X6 & X7 & X8 & X9).
    pose proof (GuiDecInv.key_in E disk w0 e m im cx k ss HE G) as HK.
    destruct (gui_completes_recorded E parse device disk w0 e m im cx k ss vs h1 id h2 h3 HE G V P1 P2 P3 P4' P5) as (d & r & counted & C1 & C2 & C3 & C4 & C5 & C6 & C7 & C8 & C9 & C10); [|exact P7|].
    { intros s Hs. apply P6, Hids, in_map, Hs. }
    assert (Hav : all_voters E parse e im cx vs (dw_db later)) by (apply only_all, P4).
    assert (Hav0 : all_voters E parse e im cx vs (dw_db before)) by (apply only_all, P4').
    pose proof (in_BL E parse w0 e im cx vs (dw_db later) (proj1 (world_good _)) Hav) as InL.
    pose proof (in_BL E parse w0 e im cx vs (dw_db before) (proj1 (world_good _)) Hav0) as InB.
    pose proof (BL_voters E parse w0 e im cx vs (dw_db later) (proj1 (world_good _)) Hav) as VL. rewrite Forall_forall in VL.
    pose proof (voter_id E im cx HE HK vs (gv_styles _ _ _ V)) as Vid. pose proof (voter_good E m im cx HE (ge_manifest _ _ _ _ _ _ _ _ _ G) Him HK Ho vs (gv_styles _ _ _ V) (gv_states _ _ _ V)) as Vgood.
    pose proof (same_ballot E im cx HE HK vs (gv_styles _ _ _ V) (gv_ids _ _ _ V)) as Same.
    assert (BinL : forall sb, In sb BLb -> In sb BLl) by (intros sb Hb; apply InL; apply InB in Hb as (b & B1 & B2); exists b; split; [apply before_later, B1|exact B2]).
    (* the decryption and the election that are read *)
    assert (Fd : find_decryption (dw_docs read) id = Some d) by (rewrite docs_read; exact C1).
    assert (Hde : dy_election d = e).
    { destruct (find_dec _ _ _ C1) as [D1 D2]. apply (created_for E parse device disk w0 (ge_start _ _ _ _ _ _ _ _ _ G) h1 id e (h2 ++ h3) d); [exists x0; auto|exact P5|exact D1|exact D2]. }
    destruct (finds E parse disk w0 e m im cx k ss G x0 X1 X2 (dw_db read) (proj1 (world_good _))) as (y & Fy & Iy). destruct (x_of e m cx ss x0 X2 X3 X4 X5 X6 y Iy) as (Y1 & Y2 & Y3 & _).
    assert (Hst : stored_records s0 e = Ok (ne_records x)).
    { unfold stored_records. rewrite (find_own (fun z => el_id (ne_election z)) (su_elections s0) x (tr_ids _ _ _ _ (traced_run E mparse hs)) Hx).
      destruct (ne_records x) as [|r0 rs]; [|reflexivity]. pose proof (ge_some _ _ _ _ _ _ _ _ _ G) as Hne. destruct ss; [congruence|discriminate Hrec]. }
    assert (Hup : map dev (upload_ids (dw_db read) e) = stored_devices dev y) by (unfold upload_ids; rewrite Fy; unfold stored_devices; rewrite map_map; reflexivity).
    (* the voters kept *)
    destruct (behind_exists E im cx vs (firsts sb_id [] BLl)) as (kept & ebs & HBk).
    { apply Forall_forall. intros b Hb. apply firsts_in in Hb as [Hb _]. apply VL, Hb. }
    assert (VL' : Forall (from_voter E im cx vs) BLl) by (apply Forall_forall; exact VL).
    destruct (behind_counts E im cx HE HK vs (gv_styles _ _ _ V) (gv_ids _ _ _ V) kept ebs BLl VL' HBk) as [K1 K2].
    assert (Kiff : forall v, In v kept <-> In v vs /\ exists b, In b (stored (dw_db later) e) /\ closed (so_contents b) = true /\ SpecGuiDecrypt.file_of E parse im cx v b).
    { intros v. rewrite K2. split; intros [Hv H]; (split; [exact Hv|]).
      - destruct H as (sb & Hsb & eb & E1 & E2). apply InL in Hsb as (b & B1 & B2 & B3). exists b. split; [exact B1|]. split; [exact B2|]. exists eb. split; [exact E1|congruence].
      - destruct H as (b & B1 & B2 & eb & E1 & E2). exists (submit_ballot E eb (vr_state v)). split; [apply InL; exists b; auto|]. exists eb. auto. }
    (* the ballots, each once *)
    set (SB := firsts sb_id [] BLb) in *. set (subs' := SB ++ filter (fun b => negb (inb (sb_id b) (map sb_id SB))) (firsts sb_id [] BLl)).
    assert (SBin : forall b, In b SB -> In b BLb) by (intros b Hb; apply firsts_in in Hb as [Hb _]; exact Hb).
    assert (Hsubs : forall b, In b BLl <-> In b subs').
    { intros b. unfold subs'. rewrite in_app_iff, filter_In. split.
      - intros Hb. destruct (inb (sb_id b) (map sb_id SB)) eqn:Hi.
        + left. apply inb_spec, in_map_iff in Hi as (b' & B1 & B2). replace b with b'; [exact B2|]. apply Same; [apply VL, BinL, SBin, B2|apply VL, Hb|exact B1].
        + right. split; [|reflexivity]. destruct (firsts_cover sb_id BLl [] b Hb (fun z => z)) as (b' & B1 & B2). replace b with b'; [exact B1|]. apply Same; [|apply VL, Hb|exact B2]. apply firsts_in in B1 as [B1 _]. apply VL, B1.
      - intros [Hb|[Hb _]]; [apply BinL, SBin, Hb|apply firsts_in in Hb as [Hb _]; exact Hb]. }
    assert (Nsubs : NoDup (map sb_id subs')).
    { unfold subs'. rewrite map_app. apply nodup_app; [apply firsts_nodup|apply NoDup_map_filter, firsts_nodup|]. intros i Hi Hi'. apply in_map_iff in Hi' as (b & <- & Hb). apply filter_In in Hb as [_ Hb].
      apply inb_spec in Hi. rewrite Hi in Hb. discriminate. }
    assert (Cids : forall i, In i (map vr_id counted) <-> In i (map sb_id SB)).
    { intros i. split; intros Hi; apply in_map_iff in Hi as (z & <- & Hz).
      - apply C4 in Hz as [Hz (b & B1 & B2 & eb & E1 & E2)]. assert (Hb : In (submit_ballot E eb (vr_state z)) BLb) by (apply InB; exists b; auto).
        destruct (firsts_cover sb_id BLb [] _ Hb (fun z => z)) as (b' & B1' & B2'). rewrite <- (proj1 (Vid z _ Hz (ex_intro _ eb (conj E1 eq_refl)))), <- B2'. apply in_map, B1'.
      - apply SBin in Hz. destruct (VL z (BinL z Hz)) as (v & V1 & V2). rewrite (proj1 (Vid v z V1 V2)). apply in_map. apply C4. split; [exact V1|]. apply InB in Hz as (b & B1 & B2 & B3).
        exists b. split; [exact B1|]. split; [exact B2|]. destruct V2 as (eb & E1 & E2). exists eb. split; [exact E1|congruence]. }
    assert (Hbal : ballots_of counted subs' = SB).
    { unfold ballots_of, subs'. rewrite filter_app.
      assert (H1 : filter (fun sb => inb (sb_id sb) (map vr_id counted)) SB = SB).
      { assert (Hall : forall b, In b SB -> inb (sb_id b) (map vr_id counted) = true) by (intros b Hb; apply inb_spec, Cids, in_map, Hb). clear - Hall. induction SB as [|b l IH]; [reflexivity|]. cbn [filter]. rewrite (Hall b (or_introl eq_refl)). f_equal. apply IH. intros b' Hb'. apply Hall. right. exact Hb'. }
      assert (H2 : forall l, filter (fun sb => inb (sb_id sb) (map vr_id counted)) (filter (fun b => negb (inb (sb_id b) (map sb_id SB))) l) = []).
      { induction l as [|b l IH]; [reflexivity|]. cbn [filter]. destruct (inb (sb_id b) (map sb_id SB)) eqn:Hi; cbn [negb]; [exact IH|]. cbn [filter].
        replace (inb (sb_id b) (map vr_id counted)) with false; [exact IH|]. symmetry. apply Bool.not_true_iff_false. intros Hi'. apply inb_spec, Cids, inb_spec in Hi'. congruence. }
      rewrite H1, H2, app_nil_r. reflexivity. }
    (* the form of the result *)
    destruct (published_made E parse device disk w0 (ge_start _ _ _ _ _ _ _ _ _ G) (h1 ++ NewDecryption id e :: h2 ++ h3) d r (proj1 (find_dec _ _ _ C1)) C2) as (x1 & up & cx1 & md & bl1 & M1 & M2 & M3).
    assert (x1 = x0). { apply (NoDup_inj el_id (db_elections w0)); [apply (nu_ids _ (ge_start _ _ _ _ _ _ _ _ _ G))|exact M1|exact X1|congruence]. } subst x1. rewrite X4 in M3.
    destruct (result_form E HE m up cx1 md bl1 r M3) as (_ & Q2 & Q3).
    assert (Hpt : map pt_id (dvals (rs_spoiled r)) = dkeys (rs_spoiled r)).
    { unfold dvals, dkeys. rewrite map_map. apply map_ext_in. intros [i p] Hi. cbn [fst snd]. apply (Q3 i p Hi). }
    assert (Hperm : Permutation (dkeys (rs_spoiled r)) (map vr_id (filter is_spoiled counted))).
    { apply NoDup_Permutation; [exact Q2|apply NoDup_map_filter|].
      - apply (nodup_map_by (fun v => v)); [rewrite map_id; exact C3|]. intros a b Ha Hb He. apply C4 in Ha as [Ha _]. apply C4 in Hb as [Hb _]. apply (NoDup_inj vr_id vs _ _ (gv_ids _ _ _ V)); assumption.
      - intros i. split.
        + intros Hi. apply in_map_iff in Hi as ([i' p] & <- & Hi). destruct (C6 i' p Hi) as (v & V1 & V2 & V3 & _). cbn [fst]. rewrite <- V2. apply in_map, filter_In. split; [exact V1|]. unfold is_spoiled. rewrite V3. reflexivity.
        + intros Hi. apply in_map_iff in Hi as (v & <- & Hv). apply filter_In in Hv as [Hv Hs]. apply C7; [exact Hv|]. unfold is_spoiled in Hs. destruct (vr_state v); try discriminate; reflexivity. }
    (* the guardians *)
    assert (Rid : map gr_id (ne_records x) = map st_id ss) by (apply (f_equal (map (fun t => fst (fst t)))) in Hrec; rewrite !map_map in Hrec; exact Hrec).
    assert (Rseq : map gr_seq (ne_records x) = map st_seq ss) by (apply (f_equal (map (fun t => snd (fst t)))) in Hrec; rewrite !map_map in Hrec; exact Hrec).
    assert (Rkey : map gr_key (ne_records x) = map (gexp E) (map st_secret ss)) by (apply (f_equal (map snd)) in Hrec; rewrite !map_map in Hrec; rewrite map_map; exact Hrec).
    assert (Nrec : NoDup (map gr_id (ne_records x))) by (rewrite Rid; apply (SpecCeremony.gs_ids _ _ _ (ge_seats _ _ _ _ _ _ _ _ _ G))).
    assert (Hkeys : seat_keys E ss (record_keys (ne_records x))).
    { intros s Hs. apply (in_map (fun s => (st_id s, st_seq s, gexp E (st_secret s)))) in Hs. rewrite <- Hrec in Hs. apply in_map_iff in Hs as (g & G1 & G2). injection G1 as G3 G4 G5.
      exists (mkPk (gr_id g) (gr_seq g) (gr_key g) (gr_commitments g) (gr_proofs g)). split; [|exact G5]. rewrite <- G3. unfold record_keys. apply in_dget; [unfold dkeys; rewrite map_map; exact Nrec|].
      apply (in_map (fun r => (gr_id r, mkPk (gr_id r) (gr_seq r) (gr_key r) (gr_commitments r) (gr_proofs r)))), G2. }
    destruct (C9 _ Hkeys) as [Vt Vs].
    destruct (one_each (fun z => decimal (dv_id z)) (stored_devices dev y)) as (devs & Nd & Hdv).
    { rewrite <- Hup. intros a b Ha Hb He. apply in_map_iff in Ha as (ua & <- & Ha). apply in_map_iff in Hb as (ub & <- & Hb). apply Hdev; [exact Ha|exact Hb|]. apply decimal_inj, He. }
    assert (Nd' : NoDup (map dv_id devs)) by (apply (nodup_map_by (fun z => decimal (dv_id z)) dv_id devs Nd); intros a b _ _ ->; reflexivity).
    destruct (record_again E m cx (stored_devices dev y) devs BLl subs' (dvals (rs_spoiled r)) (rs_ciphertext r) (rs_tally r) (ne_records x) (rs_lagrange r)) as (tmp & T1 & T2).
    - intros g Hg. apply N2, Hids. rewrite <- Rid. apply in_map, Hg.
    - intros b Hb. destruct (VL b Hb) as (v & V1 & V2). rewrite (proj1 (Vid v b V1 V2)). apply N1, V1.
    - intros q Hq. apply (in_map pt_id) in Hq. rewrite Hpt in Hq. apply (Permutation_in _ Hperm) in Hq. apply in_map_iff in Hq as (v & <- & Hv). apply filter_In in Hv as [Hv _]. apply C4 in Hv as [Hv _]. apply N1, Hv.
    - exact Nd'.
    - exact Nrec.
    - exact Nsubs.
    - rewrite Hpt. exact Q2.
    - exact Hdv.
    - exact Hsubs.
    - exists kept, counted, (dk_files tmp). split; [exact K1|]. split; [exact C3|]. split; [exact Kiff|]. split; [exact C4|]. split.
      + unfold export_election_record. rewrite Fd. cbn [rbind]. rewrite Hde, Fy. cbn [rbind]. rewrite Y2. cbn [rbind]. rewrite C2. cbn [rbind]. rewrite Y1, Hst. cbn [rbind]. rewrite Y3, (all_reads parse (dw_db later) e net Hnet).
        unfold export_archive. rewrite T1. fold zip. unfold write_path. rewrite Hpar. replace (inb zip (dk_dirs dk)) with false; [reflexivity|]. symmetry. apply Bool.not_true_iff_false. intros Hi. apply inb_spec in Hi. exact (Hzip Hi).
      + exists (ne_records x), devs, subs', (dvals (rs_spoiled r)), (rs_ciphertext r), (rs_tally r), (rs_lagrange r). split; [exact T2|].
        split; [rewrite (ge_number _ _ _ _ _ _ _ _ _ G); exact Hlen|]. split; [exact Hqu|]. split.
        { rewrite (ge_key _ _ _ _ _ _ _ _ _ G), Rkey, (gexp_product E HE); [reflexivity|]. rewrite Forall_map. apply Forall_forall. intros s Hs. pose proof (SpecCeremony.gs_draws _ _ _ (ge_seats _ _ _ _ _ _ _ _ _ G)) as Hd. rewrite Forall_forall in Hd.
          destruct (Hd s Hs) as [_ Hd']. unfold st_secret. destruct Hd' as [|a l A1 A2]; cbn [hd]; lia. }
        split. { apply NoDup_Permutation; [exact Nrec|apply (fc_once _ _ _ _ F)|]. intros u. rewrite Rid. apply Hids. }
        split. { intros z. rewrite Hup. symmetry. apply Hdv. }
        split.
        { apply NoDup_Permutation.
          - apply (nodup_map_by sb_id _ _ Nsubs). intros a b _ _ [= H _]. exact H.
          - apply (nodup_map_by (fun v => v)); [rewrite map_id; exact K1|]. intros a b Ha Hb [= He _]. apply Kiff in Ha as [Ha _]. apply Kiff in Hb as [Hb _]. apply (NoDup_inj vr_id vs _ _ (gv_ids _ _ _ V)); assumption.
          - intros [i st]. split; intros Hi; apply in_map_iff in Hi as (z & Hz & Hi); injection Hz as <- <-.
            + apply Hsubs in Hi. destruct (VL z Hi) as (v & V1 & V2). destruct (Vid v z V1 V2) as [-> ->]. apply (in_map (fun v => (vr_id v, vr_state v))). apply K2. split; [exact V1|]. exists z. auto.
            + apply K2 in Hi as [Hv (sb & S1 & S2)]. destruct (Vid z sb Hv S2) as [<- <-]. apply (in_map (fun sb => (sb_id sb, sb_state sb))). apply Hsubs, S1. }
        split. { intros sb Hs. apply Hsubs in Hs. destruct (VL sb Hs) as (v & V1 & eb & E1 & E2). exists v, eb. split; [|auto]. apply K2. split; [exact V1|]. exists sb. split; [exact Hs|]. exists eb. auto. }
        split. { rewrite Hpt. exact Hperm. }
        split. { intros sb Hs. apply Hsubs in Hs. destruct (VL sb Hs) as (v & V1 & V2). destruct (Vgood v sb V1 V2) as [Hp _]. apply (accepted_verifies E (sb_ballot sb) m im cx Him). unfold passes in Hp.
          destruct (ballot_valid_for_election E (sb_ballot sb) im cx true) as [[|]|]; [reflexivity|discriminate..]. }
        split. { rewrite Hbal. exact C8. }
        split; [exact Vt|]. split. { intros q Hq. apply in_map_iff in Hq as ([i q'] & <- & Hq). exact (Vs i q' Hq). }
        split; [exact C5|]. split.
        { intros q Hq. apply in_map_iff in Hq as ([i q'] & <- & Hq). destruct (C6 i q' Hq) as (v & V1 & V2 & V3). exists v. split; [exact V1|]. split; [|exact V3]. cbn [snd]. rewrite (proj1 (Q3 i q' Hq)). exact V2. }
        destruct C10 as (L1 & L2 & L3).
        assert (Rd : map (fun g => decimal (gr_seq g)) (ne_records x) = map (fun s => decimal (st_seq s)) ss) by (rewrite <- (map_map gr_seq decimal), Rseq, map_map; reflexivity).
        split; [exact L1|]. split. { intros i. rewrite Rd. apply L2. }
        intros g Hg. apply (in_map gr_seq) in Hg. rewrite Rseq in Hg. apply in_map_iff in Hg as (s & S1 & S2). rewrite <- S1, Rseq. apply L3, S2.
  Qed.
End Export.

(** ** ballots that came after the decryption *)
Lemma filter_less {A} (f : A -> bool) a b v : NoDup a -> incl a b -> In v b -> ~ In v a -> f v = true -> len (filter f a) < len (filter f b).
Proof.
  intros Na Hi Hv Hn Hf. assert (H : (length (v :: filter f a) <= length (filter f b))%nat).
  { apply NoDup_incl_length.
    - constructor; [rewrite filter_In; tauto|apply NoDup_filter, Na].
    - intros y [<-|Hy]; [apply filter_In; auto|]. apply filter_In in Hy as [Hy Hg]. apply filter_In. split; [apply Hi, Hy|exact Hg]. }
  cbn [length] in H. unfold len. lia.
Qed.
Lemma late_record E m im cx n k guardians devices kept counted files v cid oid : gui_record E m im cx n k guardians devices kept counted files -> NoDup counted -> incl counted kept ->
  In v kept -> ~ In v counted -> vr_state v = CAST -> in_manifest m cid oid -> vote_for im (vr_ballot v) cid oid = 1 ->
  exists p c, In ("record/tally.json"%string, JTally p) files /\ count_of p cid oid = Some c /\ c < cast_count im kept cid oid.
Proof.
  intros (records & devs & subs & decrypted & t & p & lagrange & (_ & HP) & G) Nc Hi Hv Hn Hs Hm Ho. destruct G as (_ & _ & _ & _ & _ & _ & _ & _ & _ & _ & _ & _ & Hc & _).
  exists p, (cast_count im counted cid oid). split; [apply (Permutation_in _ (Permutation_sym HP)); cbn; tauto|]. split; [apply Hc; auto|].
  unfold cast_count. apply (filter_less _ counted kept v Nc Hi Hv Hn). unfold is_cast. rewrite Hs, Ho. reflexivity.
Qed.
(** ** exports that fail *)
Lemma export_atomic E parse dev s ds w net w' id location dk : snd (export_election_record E parse dev s ds w net w' id location dk) <> Ok tt ->
  fst (export_election_record E parse dev s ds w net w' id location dk) = dk.
Proof.
  unfold export_election_record. destruct (rbind _ _) as [files|]; [|reflexivity]. unfold export_archive. destruct (to_files _ _) as [tmp [|]]; [|reflexivity]. destruct (write_path _ _ _) as [dk'|]; [|reflexivity].
  intros H. destruct (H eq_refl).
Qed.
Lemma export_once E parse dev s ds w net w' id location dk dk' : export_election_record E parse dev s ds w net w' id location dk = (dk', Ok tt) ->
  exists d r, find_decryption ds id = Some d /\ dy_result d = Some r /\ dk_dirs dk' = dk_dirs dk /\
    (forall path, path <> (splitext location ++ ".zip")%string -> dget path (dk_files dk') = dget path (dk_files dk)) /\
    (forall sb, In sb (gui_ballots parse net w' (dy_election d)) -> has_slash (sb_id sb) = false) /\
    exists x, In x (su_elections s) /\ el_id (ne_election x) = dy_election d /\ ne_records x <> [].
Proof.
  unfold export_election_record. destruct (find_decryption ds id) as [d|]; [|discriminate]. cbn [rbind]. destruct (find_election w (dy_election d)) as [x|] eqn:Hx; [|discriminate]. cbn [rbind].
  destruct (el_context x) as [cx|]; [|discriminate]. cbn [rbind]. destruct (dy_result d) as [r|] eqn:Hr; [|discriminate]. cbn [rbind]. destruct (stored_records s (el_id x)) as [recs|] eqn:Hrec; [|discriminate]. cbn [rbind].
  unfold export_archive. set (l := record_files _ _ _ _ _ _ _ _ _ _ _). destruct (to_files temp_disk l) as [tmp [u|]] eqn:Ht; [|discriminate]. unfold write_path.
  destruct (_ && _); [|discriminate]. intros [= <-]. exists d, r. split; [reflexivity|]. split; [exact Hr|]. split; [reflexivity|]. split; [|split].
  - intros path Hp. cbn [dk_files]. apply dget_dset_other. congruence.
  - apply find_first_some in Hx as [_ Hx]. apply String.eqb_eq in Hx. rewrite <- Hx. intros sb Hs. destruct (has_slash (sb_id sb)) eqn:Hsl; [|reflexivity]. exfalso. destruct u.
    apply (record_slash E (el_manifest x) cx (stored_devices dev x) (gui_ballots parse net w' (el_id x)) (dvals (rs_spoiled r)) (rs_ciphertext r) (rs_tally r) recs (rs_lagrange r) sb Hs Hsl). fold l. rewrite Ht. reflexivity.
  - apply find_first_some in Hx as [_ Hx]. apply String.eqb_eq in Hx. unfold stored_records in Hrec. destruct (find_first _ (su_elections s)) as [y|] eqn:Hy; [|discriminate].
    apply find_first_some in Hy as [Y1 Y2]. apply String.eqb_eq in Y2. exists y. split; [exact Y1|]. split; [congruence|]. intros H0. rewrite H0 in Hrec. discriminate.
Qed.
