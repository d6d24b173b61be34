(** * GuiDecPure: what the guardians' and the administrator's computations of GuiDecrypt.v produce from the ballots they read. *)
From Verif Require Import Base Group Codec Hash DLog ElGamal ZK Poly Manifest Ballot Encrypt Box Tally Spec SpecElection SpecTally
  ListFacts GroupFacts ElGamalFacts ZKFacts PolyFacts CryptoThms ManifestThms EncryptFacts BallotFacts EncryptThms TallyFacts TallyThms TallyMore
  Ceremony SpecCeremony Shares SpecShares SharesFacts ShareRun SharesThms SharesMore Verify SpecVerify VerifyFacts SpecEndToEnd EndToEnd GuiUpload UploadFacts GuiDecrypt GuiDecTally GuiDecShares.
From Coq Require Import Permutation List DecimalString DecimalZ.

Lemma decimal_inj a b : decimal a = decimal b -> a = b.
Proof.
  unfold decimal. intros H. assert (Hi : Some (Z.to_int a) = Some (Z.to_int b)) by (rewrite <- !NilEmpty.isi; f_equal; exact H).
  injection Hi as Hi. rewrite <- (DecimalZ.of_to a), <- (DecimalZ.of_to b), Hi. reflexivity.
Qed.
Lemma firsts_snoc {A} (f : A -> string) l : forall s x, firsts f s (l ++ [x]) = firsts f s l ++ (if inb (f x) (s ++ map f l) then [] else [x]).
Proof.
  induction l as [|y l IH]; intros s x; cbn [app firsts map].
  - rewrite app_nil_r. destruct (inb (f x) s); reflexivity.
  - destruct (inb (f y) s) eqn:Hy; rewrite IH.
    + f_equal. replace (inb (f x) (s ++ f y :: map f l)) with (inb (f x) (s ++ map f l)); [reflexivity|].
      apply Bool.eq_true_iff_eq. rewrite !inb_spec, !in_app_iff. cbn [In]. apply inb_spec in Hy. split; [tauto|]. intros [H|[H|H]]; [tauto|left; congruence|tauto].
    + cbn [app]. f_equal. f_equal. replace (inb (f x) (s ++ f y :: map f l)) with (inb (f x) ((f y :: s) ++ map f l)); [reflexivity|].
      apply Bool.eq_true_iff_eq. rewrite !inb_spec. cbn [app In]. rewrite !in_app_iff. cbn [In]. tauto.
Qed.
Lemma passes_weaker E im cx b : passes E im cx b true = true -> passes E im cx b false = true.
Proof.
  unfold passes, ballot_valid_for_election. destruct (ballot_valid_for_style _ _) as [[|]|]; cbn [rbind]; auto.
Qed.

Lemma nodup_map_by {A B C} (f : A -> B) (g : A -> C) l : NoDup (map f l) -> (forall x y, In x l -> In y l -> g x = g y -> f x = f y) -> NoDup (map g l).
Proof.
  induction l as [|a l IH]; cbn; intros Hn H; [constructor|]. inversion Hn as [|? ? Ha Hl]; subst. constructor.
  - intros Hi. apply in_map_iff in Hi as (b & B1 & B2). apply Ha. rewrite <- (H b a (or_intror B2) (or_introl eq_refl) B1). apply in_map, B2.
  - apply IH; [exact Hl|]. intros x y Hx Hy. apply H; right; assumption.
Qed.
Lemma lagrange_of_keys E (HE : valid_env E) (ss : list seat) : NoDup (map st_seq ss) -> forall k, Forall (fun s => 0 <= st_seq s < qq E /\ forall j, 0 <= j < Z.of_nat k -> st_seq s ^ j < pp E) ss -> forall kl L,
  lagrange_all E kl = Ok L -> (forall kk, In kk kl -> exists s, In s ss /\ pk_seq kk = st_seq s /\ pk_owner kk = decimal (st_seq s)) ->
  (forall s, In s ss -> exists kk, In kk kl /\ pk_seq kk = st_seq s /\ pk_owner kk = decimal (st_seq s)) -> NoDup (map pk_owner kl) ->
  NoDup (dkeys L) /\ (forall i, In i (dkeys L) <-> In i (map (fun s => decimal (st_seq s)) ss)) /\
  forall s, In s ss -> exists w, dget (decimal (st_seq s)) L = Some w /\ is_lagrange E (st_seq s) (filter (fun z => negb (z =? st_seq s)) (map st_seq ss)) w.
Proof.
  intros Hseq k Hr kl L HL Hk Hc Hnd. unfold lagrange_all in HL. destruct (rmapM _ kl) as [l|] eqn:Hl; cbn [rbind] in HL; [|discriminate]. injection HL as <-. apply rmapM_iff in Hl.
  assert (Hkeys : map fst l = map pk_owner kl).
  { clear -Hl. induction Hl as [|kk y kl' l H _ IH]; [reflexivity|]. cbn [map]. destruct (lagrange_for E kk kl); cbn [rbind] in H; [|discriminate]. injection H as <-. rewrite IH. reflexivity. }
  assert (Hp : Permutation (map pk_seq kl) (map st_seq ss)).
  { apply NoDup_Permutation; [|exact Hseq|].
    - apply (nodup_map_by pk_owner pk_seq kl Hnd). intros a b Ha Hb He. destruct (Hk a Ha) as (s & _ & S1 & S2), (Hk b Hb) as (s' & _ & S1' & S2'). congruence.
    - intros z. split; intros Hz; apply in_map_iff in Hz as (y & <- & Hy).
      + destruct (Hk y Hy) as (s & S0 & -> & _). apply in_map, S0.
      + destruct (Hc y Hy) as (kk & K0 & <- & _). apply in_map, K0. }
  rewrite dict_of_distinct by (rewrite Hkeys; exact Hnd). unfold dkeys. rewrite Hkeys. split; [exact Hnd|]. split.
  - intros i. split; intros Hi; apply in_map_iff in Hi as (y & <- & Hy).
    + destruct (Hk y Hy) as (s & S0 & _ & ->). apply (in_map (fun s => decimal (st_seq s))), S0.
    + destruct (Hc y Hy) as (kk & K0 & _ & <-). apply in_map, K0.
  - intros s Hs. destruct (Hc s Hs) as (kk & K0 & K1 & K2). destruct (Forall2_in_l _ _ _ kk Hl K0) as (y & Y1 & Y2). destruct (lagrange_for E kk kl) as [w|] eqn:Hw; cbn [rbind] in Y2; [|discriminate]. injection Y2 as <-.
    exists w. rewrite <- K2. split; [apply in_dget; [unfold dkeys; rewrite Hkeys; exact Hnd|exact Y1]|]. unfold lagrange_for in Hw.
    assert (Hf : map pk_seq (filter (fun o => negb (eqb (pk_owner o) (pk_owner kk))) kl) = filter (fun z => negb (z =? st_seq s)) (map pk_seq kl)).
    { clear - Hk K1 K2. induction kl as [|o kl IH]; [reflexivity|]. cbn [filter map]. rewrite <- IH by (intros; apply Hk; right; assumption). destruct (Hk o (or_introl eq_refl)) as (s' & _ & S1 & S2).
      replace (eqb (pk_owner o) (pk_owner kk)) with (pk_seq o =? st_seq s); [destruct (negb _); reflexivity|]. rewrite S1, S2, K2. apply Bool.eq_true_iff_eq. rewrite Z.eqb_eq.
      change (eqb (decimal (st_seq s')) (decimal (st_seq s)) = true) with (String.eqb (decimal (st_seq s')) (decimal (st_seq s)) = true). rewrite String.eqb_eq. split; [congruence|apply decimal_inj]. }
    rewrite Hf, K1 in Hw. destruct (lagrange_coefficient_spec E HE (st_seq s) (filter (fun z => negb (z =? st_seq s)) (map pk_seq kl))) as (w' & W1 & W2 & W3).
    { intros z Hz. apply filter_In in Hz as [Hz Hne]. apply in_map_iff in Hz as (o & <- & Ho). destruct (Hk o Ho) as (s' & S0 & S1 & _). rewrite Forall_forall in Hr. destruct (Hr s Hs) as [R _], (Hr s' S0) as [R' _]. rewrite S1 in *.
      rewrite !Z.mod_small by assumption. intros He. rewrite He, Z.eqb_refl in Hne. discriminate. }
    rewrite Hw in W1. injection W1 as <-. split; [exact W2|]. pose proof (filter_perm (fun z => negb (z =? st_seq s)) _ _ Hp) as Hpf.
    rewrite <- (prodZ_perm _ _ (Permutation_map (fun z => z - st_seq s) Hpf)), <- (prodZ_perm _ _ Hpf). exact W3.
Qed.

Section Reads.
  Context (E : env) (m : manifest) (im : internal_manifest) (cx : context).
  Context (HE : valid_env E) (Hv : manifest_is_valid m = true) (Hm : make_internal E m = Ok im) (HK : in_subgroup E (cx_key cx)).
  Context (Hdist : distinct_option_ids im).
  Context (vs : list voter) (Hst : forall v, In v vs -> usable_style E im (vr_ballot v)) (Hids : NoDup (map vr_id vs)) (Hun : forall v, In v vs -> vr_state v <> UNKNOWN).
  Context (Hq : len (filter is_cast vs) < qq E) (Hd : len (filter is_cast vs) <= dmax E) (Hd1 : 1 <= dmax E).
  Definition from_voter (sb : sub_ballot) : Prop := exists v, In v vs /\ comes_from E im cx v sb.
  Lemma voter_id v sb : In v vs -> comes_from E im cx v sb -> sb_id sb = vr_id v /\ sb_state sb = vr_state v.
  Proof. apply (from_id E im cx HE HK vs Hst). Qed.
  Lemma voter_good v sb : In v vs -> comes_from E im cx v sb -> passes E im cx sb true = true /\ sb_state sb <> UNKNOWN /\ SpecTally.complete im (sb_ballot sb) /\ own_ids im (sb_ballot sb).
  Proof. apply (from_good E m im cx HE Hv Hm HK Hdist vs Hst Hun). Qed.
  Lemma comes_unique v sb sb' : comes_from E im cx v sb -> comes_from E im cx v sb' -> sb = sb'.
  Proof. intros (eb & He & ->) (eb' & He' & ->). unfold encrypted_as in *. congruence. Qed.
  Lemma voter_same v v' : In v vs -> In v' vs -> vr_id v = vr_id v' -> v = v'.
  Proof. apply (NoDup_inj vr_id vs); exact Hids. Qed.
  Lemma same_ballot sb sb' : from_voter sb -> from_voter sb' -> sb_id sb = sb_id sb' -> sb = sb'.
  Proof.
    intros (v & Hi & Hf) (v' & Hi' & Hf') He. destruct (voter_id v sb Hi Hf) as [I _], (voter_id v' sb' Hi' Hf') as [I' _].
    assert (v = v') by (apply voter_same; congruence). subst v'. apply (comes_unique v); assumption.
  Qed.
  (** the voters behind a list of ballots without repetitions *)
  Record behind (vs' : list voter) (ebs : list ct_ballot) (bl : list sub_ballot) : Prop := {
    bh_enc : Forall2 (encrypted_as E im cx) vs' ebs;
    bh_subs : subs E vs' ebs = bl;
    bh_incl : forall v, In v vs' -> In v vs }.
  Lemma behind_exists bl : Forall from_voter bl -> exists vs' ebs, behind vs' ebs bl.
  Proof.
    induction 1 as [|sb bl (v & Hi & eb & He & ->) _ (vs' & ebs & [B1 B2 B3])]; [exists [], []; split; [constructor|reflexivity|intros ? []]|].
    exists (v :: vs'), (eb :: ebs). split; [constructor; assumption|unfold subs, history in *; cbn [map combine fst snd]; rewrite B2; reflexivity|].
    intros x [<-|Hx]; [exact Hi|apply B3, Hx].
  Qed.
  Section Behind.
    Context (vs' : list voter) (ebs : list ct_ballot) (bl : list sub_ballot) (HB : behind vs' ebs bl) (Hn : NoDup (map sb_id bl)).
    Lemma bh_style v : In v vs' -> usable_style E im (vr_ballot v).
    Proof. intros H. apply Hst, (bh_incl _ _ _ HB), H. Qed.
    Lemma bh_unknown v : In v vs' -> vr_state v <> UNKNOWN.
    Proof. intros H. apply Hun, (bh_incl _ _ _ HB), H. Qed.
    Lemma bh_ids : map vr_id vs' = map sb_id bl.
    Proof. rewrite <- (bh_subs _ _ _ HB). symmetry. apply (subs_ids E im cx HE HK vs' ebs (bh_enc _ _ _ HB) bh_style). Qed.
    Lemma bh_nodup : NoDup (map vr_id vs').
    Proof. rewrite bh_ids. exact Hn. Qed.
    Lemma bh_len : len (filter is_cast vs') <= len (filter is_cast vs).
    Proof.
      unfold len. apply inj_le. apply NoDup_incl_length; [apply NoDup_filter, (NoDup_map_inv vr_id), bh_nodup|].
      intros v H. apply filter_In in H as [H1 H2]. apply filter_In. split; [apply (bh_incl _ _ _ HB), H1|exact H2].
    Qed.
    Notation T := (total_tally E im cx vs' ebs).
    Lemma bh_distinct : tally_distinct T.
    Proof. apply (total_distinct E m im cx HE Hv Hm HK Hdist vs' ebs (bh_enc _ _ _ HB) bh_style bh_unknown). Qed.
    Lemma bh_encrypts : encrypts_all E (cx_key cx) (tally_options T) (cast_count im vs').
    Proof. pose proof bh_len. apply (total_encrypts E m im cx HE Hv Hm HK Hdist vs' ebs (bh_enc _ _ _ HB) bh_style bh_nodup bh_unknown); lia. Qed.
    Lemma bh_options cid oid : (exists ct, In (cid, oid, ct) (tally_options T)) <-> in_manifest m cid oid.
    Proof. apply (total_options E m im cx HE Hv Hm HK Hdist vs' ebs (bh_enc _ _ _ HB) bh_style bh_unknown). Qed.
    Lemma bh_good : item_good E (map tally_cc (dvals (ty_contests T))).
    Proof.
      apply (item_good_of E HE (cx_key cx) _ (cast_count im vs') HK); [|rewrite tally_cc_options; exact bh_encrypts]. rewrite tally_cc_options, map_map. exact bh_distinct.
    Qed.
    Lemma bh_form : exists cs ss vf, T = state_of E im cx "election-results" cs ss vf.
    Proof. apply (tally_form E m im cx HE Hv Hm HK Hdist vs' ebs (bh_enc _ _ _ HB) bh_style bh_unknown). Qed.
    Lemma bh_tally : get_tally E true m cx bl false = Ok T.
    Proof.
      unfold get_tally. rewrite Hm. cbn [rbind]. pose proof (im_nodup E m im Hv Hm) as Hin.
      assert (HG : Forall (fun b => passes E im cx b true = true /\ sb_state b <> UNKNOWN /\ SpecTally.complete im (sb_ballot b) /\ own_ids im (sb_ballot b)) bl).
      { rewrite <- (bh_subs _ _ _ HB). apply (subs_good E m im cx HE Hv Hm HK Hdist vs' ebs (bh_enc _ _ _ HB) bh_style bh_unknown). }
      assert (HG' : Forall (fun b => passes E im cx b false = true /\ sb_state b <> UNKNOWN /\ SpecTally.complete im (sb_ballot b) /\ own_ids im (sb_ballot b)) bl).
      { eapply Forall_impl; [|exact HG]. cbv beta. intros b (H1 & H2). split; [apply passes_weaker, H1|exact H2]. }
      destruct (batch_equals_append E im cx HE Hin "election-results" [] bl false) as [Hb _]; [constructor|exact HG'|exact Hn|intros b _; cbn; tauto|].
      unfold run_appends in Hb at 1. cbn [fold_left fst] in Hb. rewrite Hb. cbn [rbind]. f_equal. unfold total_tally. rewrite (bh_subs _ _ _ HB).
      change (fst (run_appends E all_up (new_tally E "election-results" im cx) [])) with (new_tally E "election-results" im cx).
      assert (HC : forall v : bool, Forall (fun '(b, _) => SpecTally.complete im (sb_ballot b)) (map (fun b => (b, v)) bl)).
      { intros v. apply Forall_map. eapply Forall_impl; [|exact HG]. cbv beta. tauto. }
      rewrite (proj1 (run_appends_form E im cx Hin "election-results" _ (HC false))), (proj1 (run_appends_form E im cx Hin "election-results" _ (HC true))).
      rewrite !(fun v H => proj1 (accepted_all E im cx v bl [] H Hn (fun _ _ H => H))); [reflexivity| |]; first [solve [eapply Forall_impl; [|exact HG]; cbv beta; tauto]|eapply Forall_impl; [|exact HG']; cbv beta; tauto].
    Qed.
  End Behind.
  Lemma shape_same vs1 ebs1 bl1 vs2 ebs2 bl2 : behind vs1 ebs1 bl1 -> behind vs2 ebs2 bl2 ->
    Forall2 same_shape (map tally_cc (dvals (ty_contests (total_tally E im cx vs1 ebs1)))) (map tally_cc (dvals (ty_contests (total_tally E im cx vs2 ebs2)))).
  Proof.
    intros B1 B2. destruct (bh_form _ _ _ B1) as (c1 & s1 & f1 & ->), (bh_form _ _ _ B2) as (c2 & s2 & f2 & ->). unfold state_of. cbn [ty_contests].
    rewrite build_eq by apply (im_nodup E m im Hv Hm). unfold upd, dvals. rewrite !map_map. apply Forall2_map_l, Forall2_map_r. cbn [fst snd].
    induction (im_contests im) as [|d l IH]; constructor; [|exact IH]. split; [reflexivity|]. cbn [tally_cc cc_selections tc_selections]. unfold upd_sel, dvals. rewrite !map_map. reflexivity.
  Qed.
  (** the tally of any list of ballots read *)
  Lemma read_tally bl : Forall from_voter bl -> exists vs' ebs, behind vs' ebs (firsts sb_id [] bl) /\ get_tally E true m cx bl false = Ok (total_tally E im cx vs' ebs).
  Proof.
    intros HF. destruct (behind_exists (firsts sb_id [] bl)) as (vs' & ebs & HB).
    { apply Forall_forall. intros b Hb. apply firsts_in in Hb as [Hb _]. rewrite Forall_forall in HF. apply HF, Hb. }
    exists vs', ebs. split; [exact HB|]. rewrite <- (bh_tally vs' ebs _ HB (firsts_nodup sb_id bl [])). unfold get_tally. rewrite Hm. cbn [rbind].
    rewrite (batch_dups E im cx); [reflexivity|reflexivity|reflexivity| |].
    - eapply Forall_impl; [|exact HF]. intros b (v & Hi & Hf). destruct (voter_good v b Hi Hf) as (H1 & _ & _ & H4). split; [apply passes_weaker, H1|exact H4].
    - intros b b' Hb Hb'. rewrite Forall_forall in HF. apply same_ballot; apply HF; assumption.
  Qed.
  Lemma behind_voters vs' ebs bl v : behind vs' ebs (firsts sb_id [] bl) -> In v vs' <-> In v vs /\ exists sb, In sb bl /\ sb_id sb = vr_id v.
  Proof.
    intros HB. pose proof (bh_ids _ _ _ HB) as Hi. split.
    - intros H. split; [apply (bh_incl _ _ _ HB), H|]. assert (Hin : In (vr_id v) (map sb_id (firsts sb_id [] bl))) by (rewrite <- Hi; apply in_map, H).
      apply in_map_iff in Hin as [sb [Hs Hb]]. apply firsts_in in Hb as [Hb _]. exists sb. auto.
    - intros [Hv' (sb & Hb & Hs)]. destruct (firsts_cover sb_id bl [] sb Hb) as (y & Hy & He); [intros []|]. assert (Hin : In (vr_id v) (map vr_id vs')) by (rewrite Hi, <- Hs, <- He; apply in_map, Hy).
      apply in_map_iff in Hin as [v' [Hv1 Hv2]]. replace v with v'; [exact Hv2|]. apply voter_same; [apply (bh_incl _ _ _ HB), Hv2|exact Hv'|exact Hv1].
  Qed.
  (** a spoiled ballot *)
  Notation bcs b := (map ballot_cc (cb_contests (sb_ballot b))).
  Lemma ballot_facts sb : from_voter sb -> encrypts_all E (cx_key cx) (ballot_options (sb_ballot sb)) (spoiled_value im vs (sb_id sb)) /\ item_good E (bcs sb).
  Proof.
    intros (v & Hi & Hf). destruct (voter_id v sb Hi Hf) as [I _]. destruct Hf as (eb & He & Hb).
    destruct (ballot_entries E m im cx HE Hv Hm HK Hdist v eb He (Hst v Hi)) as (B1 & B2 & _). rewrite <- Hb in B1, B2.
    assert (Hen : encrypts_all E (cx_key cx) (ballot_options (sb_ballot sb)) (spoiled_value im vs (sb_id sb))).
    { intros cid oid ct Hin. unfold spoiled_value. rewrite I, (find_by_id vr_id vs v Hids Hi). destruct (B2 cid oid ct Hin) as [B3 B4]. split; [exact B3|].
      assert (1 < qq E) by (pose proof (ve_q E HE) as Hp; apply Znumtheory.prime_ge_2 in Hp; lia). lia. }
    split; [exact Hen|]. apply (item_good_of E HE (cx_key cx) _ (spoiled_value im vs (sb_id sb)) HK); [|rewrite ballot_cc_options; exact Hen]. rewrite ballot_cc_options, map_map. exact B1.
  Qed.
  (** ** stage 1 *)
  Context (k : nat) (ss : list seat) (Hseats : good_seats E k ss) (Hseq : NoDup (map st_seq ss)) (Hne : ss <> []).
  Context (HQ : 0 <= cx_ext_hash cx < qq E) (Hgn : cx_guardians cx = len ss) (Hcq : cx_quorum cx <= len ss) (Hkey : cx_key cx = gexp E (sumZ (map st_secret ss))).
  Notation Q := (cx_ext_hash cx).
  Notation tcs vs' ebs := (map tally_cc (dvals (ty_contests (total_tally E im cx vs' ebs)))).
  Record entry_for (s : seat) (bl : list sub_ballot) (en : dec_entry) : Prop := {
    ef_user : en_user en = st_id s;
    ef_key : key_of E s (en_key en);
    ef_guardian : sh_guardian (en_share en) = st_id s;
    ef_share : exists vs' ebs, behind vs' ebs (firsts sb_id [] bl) /\ good_share E Q (st_secret s) (tcs vs' ebs) (en_share en);
    ef_parts : forall d, In d (share_entries (en_share en)) -> dc_parts d = None;
    ef_nodup : NoDup (dkeys (en_ballots en));
    ef_all : forall b, In b (spoiled_ballots bl) -> In (sb_id b) (dkeys (en_ballots en));
    ef_ballots : forall i o, In (i, o) (en_ballots en) -> exists b sh, In b (spoiled_ballots bl) /\ sb_id b = i /\ o = Some sh /\
      sh_guardian sh = st_id s /\ good_share E Q (st_secret s) (bcs b) sh;
    ef_direct : direct (en_share en);
    ef_ballots_direct : forall i sh, In (i, Some sh) (en_ballots en) -> direct sh }.
  Lemma join_ok up rnd s g bl : (forall path, up path = true) -> In s ss -> holder E s g -> Forall from_voter bl ->
    exists en, join_entry E up rnd (st_id s) m cx g bl = Ok en /\ entry_for s bl en.
  Proof.
    intros Hup Hs Hg HF. destruct (read_tally bl HF) as (vs' & ebs & HB & Ht). unfold join_entry. rewrite Hup, Ht. cbn [rbind].
    pose proof (secret_good E k ss (seats_hss E k ss Hseats) s g Hg Hs) as Hkg. destruct Hg as [Hko Hsec].
    pose proof (bh_good vs' ebs _ HB (firsts_nodup sb_id bl [])) as Hi. unfold gd_tally_share, compute_decryption_share.
    destruct (share_of_any E HE Q HQ (fun c => up [1%nat; c]) (fun c x => rnd [1%nat; c; x]) (gd_keys g) (ty_id (total_tally E im cx vs' ebs)) _ (fun c => Hup _) Hkg Hi) as (sh & Hsh & G1 & G2 & _).
    rewrite Hsh. eexists. split; [reflexivity|]. assert (Ho : ek_owner (gd_keys g) = st_id s) by (destruct Hko as (H & _); exact H). rewrite Hsec in G1.
    assert (Hbk : forall b o, In (sb_id b, o) (gd_ballot_shares E (fun b0 c => up [2%nat; b0; c]) (fun b0 c x => rnd [2%nat; b0; c; x]) g (spoiled_ballots bl) cx) ->
      exists b' sh, In b' (spoiled_ballots bl) /\ sb_id b' = sb_id b /\ o = Some sh /\ sh_guardian sh = st_id s /\ good_share E Q (st_secret s) (bcs b') sh).
    { intros b o Hin. unfold gd_ballot_shares in Hin. apply dict_of_in in Hin. apply in_map_iff in Hin as [[j b'] [He Hin]]. cbn [fst snd] in He. injection He as He1 He2.
      assert (Hb' : In b' (spoiled_ballots bl)) by (rewrite <- (number_snd (spoiled_ballots bl)); apply (in_map snd _ (j, b')), Hin).
      assert (Hfv : from_voter b') by (apply filter_In in Hb' as [Hb' _]; rewrite Forall_forall in HF; apply HF, Hb').
      unfold compute_decryption_share_for_ballot in He2.
      destruct (share_of_any E HE Q HQ (fun c => up [2%nat; j; c]) (fun c x => rnd [2%nat; j; c; x]) (gd_keys g) (sb_id b') _ (fun c => Hup _) Hkg (proj2 (ballot_facts b' Hfv))) as (sh' & Hsh' & G1' & G2' & _).
      exists b', sh'. rewrite Hsec in G1'. split; [exact Hb'|]. split; [exact He1|]. split; [congruence|]. split; [congruence|exact G1']. }
    constructor; cbn [en_user en_key en_share en_ballots]; try reflexivity; try assumption.
    - congruence.
    - exists vs', ebs. auto.
    - apply (share_no_parts _ _ _ _ _ _ _ _ (fun c => Hup _) Hsh).
    - apply dict_of_nodup.
    - intros b Hb. apply dict_of_keys. rewrite map_map. cbn [fst]. rewrite (number_ids sb_id). apply in_map, Hb.
    - intros i o Hin. assert (Hi' : exists b, sb_id b = i).
      { pose proof Hin as Hk. unfold gd_ballot_shares in Hk. apply dict_of_in, (in_map fst) in Hk. rewrite map_map in Hk. cbn [fst] in Hk. rewrite (number_ids sb_id) in Hk.
        apply in_map_iff in Hk as [b [Hb _]]. exists b. exact Hb. }
      destruct Hi' as [b <-]. destruct (Hbk b o Hin) as (b' & sh' & H1 & H2 & H3 & H4 & H5). exists b', sh'. auto.
    - apply (share_of_direct _ _ _ _ _ _ _ _ Hsh).
    - intros i sh' Hin. unfold gd_ballot_shares in Hin. apply dict_of_in in Hin. apply in_map_iff in Hin as [[j b'] [He _]]. injection He as _ He. apply (share_of_direct _ _ _ _ _ _ _ _ He).
  Qed.
  (** ** the announcements *)
  Context (x : election) (Hx : el_records x = map (fun s => (st_id s, st_seq s)) ss).
  Definition known (en : dec_entry) : Prop := exists s bl, In s ss /\ Forall from_voter bl /\ entry_for s bl en.
  Definition ord (en : dec_entry) : string := match sequence_order x (en_user en) with Ok n => decimal n | Err _ => ""%string end.
  Lemma order_known s : In s ss -> sequence_order x (st_id s) = Ok (st_seq s).
  Proof.
    intros Hs. unfold sequence_order. rewrite Hx. destruct (find_first _ _) as [r|] eqn:Hf.
    - apply find_first_some in Hf as [H1 H2]. apply in_map_iff in H1 as [s' [<- Hs']]. cbn [fst snd] in *. apply String.eqb_eq in H2.
      replace s' with s; [reflexivity|]. apply (NoDup_inj st_id ss); try assumption; [apply Hseats|congruence].
    - rewrite find_first_none in Hf. specialize (Hf (st_id s, st_seq s)). cbn [fst] in Hf. rewrite String.eqb_refl in Hf. discriminate Hf. apply (in_map (fun s => (st_id s, st_seq s))), Hs.
  Qed.
  Lemma ord_known s bl en : In s ss -> entry_for s bl en -> ord en = decimal (st_seq s).
  Proof. intros Hs He. unfold ord. rewrite (ef_user _ _ _ He), (order_known s Hs). reflexivity. Qed.
  Lemma ord_inj en en' : known en -> known en' -> ord en = ord en' -> en_user en = en_user en'.
  Proof.
    intros (s & bl & Hs & _ & He) (s' & bl' & Hs' & _ & He') H. rewrite (ord_known _ _ _ Hs He), (ord_known _ _ _ Hs' He') in H. apply decimal_inj in H.
    rewrite (ef_user _ _ _ He), (ef_user _ _ _ He'). f_equal. apply (NoDup_inj st_seq ss); assumption.
  Qed.
  Lemma ord_same en en' : en_user en = en_user en' -> ord en = ord en'.
  Proof. unfold ord. intros ->. reflexivity. Qed.
  Notation fs := (firsts en_user []).
  Definition shares_of (bid : string) (d : dict string (dict string dec_share)) : dict string dec_share := match dget bid d with Some s => s | None => [] end.
  Definition brow (bid : string) (en : dec_entry) : list (string * dec_share) := match dget bid (en_ballots en) with Some (Some sh) => [(ord en, sh)] | _ => [] end.
  Record announced (done : list dec_entry) (md : dmediator) : Prop := {
    an_cx : dm_context md = cx;
    an_missing : dm_missing md = [];
    an_available : dm_available md = map (fun en => (ord en, with_owner (en_key en) (ord en))) (fs done);
    an_tally : dm_tally md = map (fun en => (ord en, en_share en)) (fs done);
    an_ballots : forall bid, shares_of bid (dm_ballots md) = flat_map (brow bid) (fs done) }.
  Lemma save_shares g bs : forall d bid, NoDup (dkeys bs) -> shares_of bid (fold_left (save_ballot_share g) bs d) =
    match dget bid bs with Some (Some s) => dset g s (shares_of bid d) | _ => shares_of bid d end.
  Proof.
    induction bs as [|[a o] bs IH]; intros d bid Hn; [reflexivity|]. unfold dkeys in Hn. cbn [map fst] in Hn. inversion Hn as [|? ? Ha Hn']; subst. cbn [fold_left].
    rewrite IH by exact Hn'. change (dget bid ((a, o) :: bs)) with (if eqb bid a then Some o else dget bid bs). eqb_cases bid a.
    - subst bid. replace (dget a bs) with (@None (option dec_share)) by (symmetry; apply ListFacts.dget_none; exact Ha). unfold save_ballot_share, shares_of; cbn [fst snd]. rewrite dget_dset_same. destruct o; reflexivity.
    - unfold save_ballot_share, shares_of; cbn [fst snd]. rewrite !dget_dset_other by assumption. reflexivity.
  Qed.
  Lemma ord_fresh done en : Forall known done -> known en -> ~ In (en_user en) (map en_user done) -> ~ In (ord en) (map ord (fs done)).
  Proof.
    intros Hd' Hk Hn H. apply in_map_iff in H as [e [He Hin]]. apply firsts_in in Hin as [Hin _]. rewrite Forall_forall in Hd'.
    apply Hn. rewrite <- (ord_inj e en (Hd' e Hin) Hk He). apply in_map, Hin.
  Qed.
  Lemma announce_ok l : forall done md, Forall known (done ++ l) -> announced done md -> exists md', announce_entries x l md = Ok md' /\ announced (done ++ l) md'.
  Proof.
    induction l as [|en l IH]; intros done md HF HA; [exists md; rewrite app_nil_r; auto|]. cbn [announce_entries].
    assert (Hen : known en) by (rewrite Forall_forall in HF; apply HF, in_or_app; right; left; reflexivity). pose proof Hen as (s & bl & Hs & _ & He).
    assert (Hdone : Forall known done) by (apply Forall_forall; intros e Hin; rewrite Forall_forall in HF; apply HF, in_or_app; left; exact Hin).
    rewrite (ef_user _ _ _ He), (order_known s Hs). cbn [rbind]. rewrite <- (ord_known s bl en Hs He).
    assert (Hsnoc : done ++ en :: l = (done ++ [en]) ++ l) by (rewrite <- app_assoc; reflexivity). rewrite Hsnoc. apply IH; [rewrite <- Hsnoc; exact HF|].
    destruct HA as [A1 A2 A3 A4 A5]. unfold dm_announce. cbn [pk_owner with_owner].
    destruct (inb (en_user en) (map en_user done)) eqn:Hin.
    - replace (dmem (ord en) (dm_available md)) with true; [constructor; rewrite ?firsts_snoc; cbn [app]; rewrite ?Hin, ?app_nil_r; auto; intros bid; rewrite firsts_snoc; cbn [app]; rewrite Hin, app_nil_r; apply A5|].
      symmetry. unfold dmem. apply inb_spec in Hin. apply in_map_iff in Hin as [e [Hu Hin]]. destruct (firsts_cover en_user done [] e Hin) as (y & Hy & Hyu); [intros []|].
      assert (Hk : In (ord en) (dkeys (dm_available md))).
      { rewrite A3. unfold dkeys. rewrite map_map. cbn [fst]. apply in_map_iff. exists y. split; [apply ord_same; congruence|exact Hy]. }
      apply dget_some_key in Hk as [v ->]. reflexivity.
    - pose proof Hin as Hni. apply inb_false in Hni. pose proof (ord_fresh done en Hdone Hen Hni) as Hfr.
      replace (dmem (ord en) (dm_available md)) with false.
      2: { symmetry. unfold dmem. replace (dget (ord en) (dm_available md)) with (@None public_key); [reflexivity|]. symmetry. apply ListFacts.dget_none.
           rewrite A3. unfold dkeys. rewrite map_map. exact Hfr. }
      constructor; cbn [dm_context dm_missing dm_available dm_tally dm_ballots]; rewrite ?firsts_snoc; cbn [app]; rewrite ?Hin.
      + exact A1.
      + rewrite A2. reflexivity.
      + rewrite A3, dset_new, map_app by (unfold dkeys; rewrite map_map; exact Hfr). reflexivity.
      + rewrite A4, dset_new, map_app by (unfold dkeys; rewrite map_map; exact Hfr). reflexivity.
      + intros bid. rewrite save_shares by apply (ef_nodup _ _ _ He). rewrite A5, flat_map_app. cbn [flat_map]. rewrite app_nil_r.
        change (brow bid en) with (match dget bid (en_ballots en) with Some (Some sh) => [(ord en, sh)] | _ => [] end).
        destruct (dget bid (en_ballots en)) as [[sh|]|]; rewrite ?app_nil_r; [|reflexivity|reflexivity]. rewrite dset_new; [reflexivity|].
        intros H. apply Hfr. unfold dkeys in H. apply in_map_iff in H as [[o sh'] [Ho H]]. cbn [fst] in Ho. subst o. apply in_flat_map in H as [e [He1 He2]].
        apply in_map_iff. exists e. split; [|exact He1]. unfold brow in He2. destruct (dget bid (en_ballots e)) as [[sh0|]|]; [|destruct He2|destruct He2]. destruct He2 as [He2|[]]. congruence.
  Qed.
  Lemma announced_start id : announced [] (new_dmediator id cx).
  Proof. constructor; reflexivity. Qed.
  (** ** the seats of the announcements *)
  Definition sits (s : seat) (en : dec_entry) : Prop := In s ss /\ exists bl, Forall from_voter bl /\ entry_for s bl en.
  Lemma seats_of l : Forall known l -> exists sl, Forall2 sits sl l.
  Proof.
    induction 1 as [|en l (s & bl & Hs & HF & He) _ (sl & IH)]; [exists []; constructor|]. exists (s :: sl). constructor; [|exact IH]. split; [exact Hs|]. exists bl. auto.
  Qed.
  Lemma seats_users sl l : Forall2 sits sl l -> map st_id sl = map en_user l.
  Proof. intros H. apply Forall2_map_eq. revert H. apply F2_impl. intros s en (_ & bl & _ & He). symmetry. apply (ef_user _ _ _ He). Qed.
  Lemma seats_full l sl : Forall2 sits sl (fs l) -> (length ss <= length (fs l))%nat -> Permutation sl ss.
  Proof.
    intros HF Hl. assert (Hn : NoDup (map st_id sl)) by (rewrite (seats_users _ _ HF); apply firsts_nodup).
    apply NoDup_Permutation_bis; [apply (NoDup_map_inv st_id), Hn|rewrite (F2_length HF); exact Hl|].
    intros s Hs. destruct (Forall2_in_l _ _ _ s HF Hs) as (en & _ & H & _). exact H.
  Qed.
  Lemma table_shows id cs sl t M : Permutation sl ss -> item_good E cs -> table_good E Q cs (map st_secret sl) t -> encrypts_all E (cx_key cx) (cc_options cs) M ->
    exists p, decrypt_shares E id cs t Q m true = Ok (Some p) /\ shows p m (cc_options cs) M.
  Proof.
    intros Hp Hi Ht Hen. rewrite Hkey in Hen. pose proof (all_open_of E HE ss cs M Hen) as Ho.
    assert (Hm' : NoDup (map cd_id (mf_contests m))) by (apply manifest_is_valid_iff in Hv as (_ & _ & _ & _ & H & _); exact H).
    destruct (decrypt_shares_ok E HE Q id cs (map st_secret sl) t m true M Hi Ht) as (p & P1 & P2 & P3).
    - apply Forall_forall. intros y Hy. apply in_map_iff in Hy as [s [<- Hs]]. apply (Permutation_in s Hp) in Hs. destruct (seats_hss E k ss Hseats s Hs) as [H _]. lia.
    - intros c desc s Hc _ Hs. unfold kept_sels in Hs. apply filter_In in Hs as [Hs _]. destruct (Ho c s Hc Hs) as [H1 H2]. split; [apply (opens_joint E ss); assumption|exact H2].
    - exists p. split; [exact P1|]. apply (shows_of E Q cs _ m M p Hi Hm' P3).
  Qed.
  (** ** the tally *)
  Definition zero_response (sh : dec_share) : Prop := exists d pf, In d (share_entries sh) /\ dc_proof d = Some pf /\ cp_v pf = 0.
  Lemma zero_dec sh : zero_response sh \/ no_zero sh.
  Proof.
    destruct (existsb (fun d => match dc_proof d with Some pf => cp_v pf =? 0 | None => false end) (share_entries sh)) eqn:He.
    - left. apply existsb_exists in He as [d [Hin He]]. destruct (dc_proof d) as [pf|] eqn:Hpf; [|discriminate]. exists d, pf. apply Z.eqb_eq in He. auto.
    - right. intros d pf Hin Hpf Hz. assert (Ht : existsb (fun d => match dc_proof d with Some pf => cp_v pf =? 0 | None => false end) (share_entries sh) = true).
      { apply existsb_exists. exists d. split; [exact Hin|]. rewrite Hpf. apply Z.eqb_eq, Hz. }
      congruence.
  Qed.
  Lemma zeros_dec (l : list dec_entry) : (exists en, In en l /\ zero_response (en_share en)) \/ forall en, In en l -> no_zero (en_share en).
  Proof.
    induction l as [|en l [(e & H1 & H2)|IH]]; [right; intros ? []|left; exists e; split; [right; exact H1|exact H2]|].
    destruct (zero_dec (en_share en)) as [H|H]; [left; exists en; split; [left; reflexivity|exact H]|right; intros e [<-|He]; [exact H|apply IH, He]].
  Qed.
  Definition right_tally (vs' : list voter) (p : plain_tally) : Prop := forall cid oid n, count_of p cid oid = Some n <-> in_manifest m cid oid /\ n = cast_count im vs' cid oid.
  Lemma shows_tally vs' ebs bl p : behind vs' ebs bl -> shows p m (tally_options (total_tally E im cx vs' ebs)) (cast_count im vs') -> right_tally vs' p.
  Proof. intros HB Hs cid oid n. rewrite (Hs cid oid n), (bh_options _ _ _ HB cid oid). tauto. Qed.
  Lemma tally_vals l : dvals (map (fun en => (ord en, en_share en)) l) = dvals (by_guardian (map en_share l)).
  Proof. rewrite by_guardian_vals. unfold dvals. rewrite map_map. reflexivity. Qed.
  Lemma guardians_nodup l sl : Forall2 sits sl (fs l) -> NoDup (dkeys (by_guardian (map en_share (fs l)))).
  Proof.
    intros HF. rewrite by_guardian_keys, map_map. replace (map (fun en => sh_guardian (en_share en)) (fs l)) with (map en_user (fs l)); [apply firsts_nodup|].
    rewrite <- (seats_users _ _ HF). apply Forall2_map_eq. revert HF. apply F2_impl. intros s en (_ & bl & _ & He). symmetry. apply (ef_guardian _ _ _ He).
  Qed.
  (** shares made from other readings of the ballots *)
  Lemma tally_right l sl vs' ebs bl p : Forall2 sits sl (fs l) -> Permutation sl ss -> behind vs' ebs bl -> NoDup (map sb_id bl) ->
    decrypt_tally E (total_tally E im cx vs' ebs) (map (fun en => (ord en, en_share en)) (fs l)) Q m true = Ok (Some p) ->
    (exists en, In en l /\ zero_response (en_share en)) \/ right_tally vs' p.
  Proof.
    intros HF Hp HB Hn Hdec. destruct (zeros_dec (fs l)) as [(en & H1 & H2)|Hz]; [left; exists en; split; [apply (firsts_in en_user l []), H1|exact H2]|right].
    unfold decrypt_tally in Hdec. rewrite (decrypt_shares_dvals E _ _ (tally_vals (fs l))) in Hdec.
    assert (Hrows : exists rows, Forall2 (row_ok E Q) rows (by_guardian (map en_share (fs l))) /\ map fst rows = map st_secret sl /\ forall r, In r rows -> Forall2 same_shape (tcs vs' ebs) (snd r)).
    { clear Hdec Hp Hz. induction HF as [|s en sl' l' (Hs & bl' & _ & He) _ (rows & R1 & R2 & R3)]; [exists []; split; [constructor|split; [reflexivity|intros ? []]]|].
      destruct (ef_share _ _ _ He) as (vs1 & ebs1 & HB1 & Hg1). exists ((st_secret s, tcs vs1 ebs1) :: rows). split; [|split; [cbn [map fst]; rewrite R2; reflexivity|]].
      - cbn [map by_guardian]. constructor; [|exact R1]. split; [reflexivity|]. split; [apply (bh_good _ _ _ HB1 (firsts_nodup sb_id bl' []))|exact Hg1].
      - intros r [<-|Hr]; [apply (shape_same _ _ _ _ _ _ HB HB1)|apply R3, Hr]. }
    destruct Hrows as (rows & R1 & R2 & R3).
    assert (Hm' : NoDup (map cd_id (mf_contests m))) by (apply manifest_is_valid_iff in Hv as (_ & _ & _ & _ & H & _); exact H).
    pose proof (bh_good _ _ _ HB Hn) as Hi.
    assert (Ht : table_good E Q (tcs vs' ebs) (map fst rows) (by_guardian (map en_share (fs l)))).
    { apply (success_fresh E HE Q (ty_id (total_tally E im cx vs' ebs)) (tcs vs' ebs) rows _ m p Hi Hm' R1 (guardians_nodup l sl HF) R3); [| |exact Hdec].
      - intros sh Hsh. rewrite by_guardian_vals in Hsh. apply in_map_iff in Hsh as [en [<- Hen]]. split; [apply Hz, Hen|].
        destruct (Forall2_in_r _ _ _ en HF Hen) as (s & _ & _ & bl' & _ & He). apply (ef_parts _ _ _ He).
      - intros c sel Hc Hsel. apply (bh_options _ _ _ HB). exists (snd sel). rewrite <- tally_cc_options. apply options_in. exists c. destruct sel; auto. }
    rewrite R2 in Ht. destruct (table_shows (ty_id (total_tally E im cx vs' ebs)) (tcs vs' ebs) sl _ (cast_count im vs') Hp Hi Ht) as (p' & P1 & P2); [rewrite tally_cc_options; apply (bh_encrypts _ _ _ HB Hn)|].
    rewrite P1 in Hdec. injection Hdec as <-. apply (shows_tally _ _ _ _ HB). rewrite <- tally_cc_options. exact P2.
  Qed.
  (** shares made from the same reading *)
  Lemma behind_unique vs1 ebs1 vs2 ebs2 bl : behind vs1 ebs1 bl -> behind vs2 ebs2 bl -> total_tally E im cx vs1 ebs1 = total_tally E im cx vs2 ebs2.
  Proof. intros [_ B1 _] [_ B2 _]. unfold total_tally. rewrite B1, B2. reflexivity. Qed.
  Definition sits_for (bl : list sub_ballot) (s : seat) (en : dec_entry) : Prop := In s ss /\ entry_for s bl en.
  Lemma tally_done l sl vs' ebs bl : Forall2 sits sl (fs l) -> Forall2 (sits_for bl) sl (fs l) -> Permutation sl ss -> behind vs' ebs (firsts sb_id [] bl) ->
    exists p, decrypt_tally E (total_tally E im cx vs' ebs) (map (fun en => (ord en, en_share en)) (fs l)) Q m true = Ok (Some p) /\ right_tally vs' p.
  Proof.
    intros HF0 HF Hp HB. pose proof (firsts_nodup sb_id bl []) as Hn. unfold decrypt_tally. rewrite (decrypt_shares_dvals E _ _ (tally_vals (fs l))). pose proof (bh_good _ _ _ HB Hn) as Hi.
    assert (Ht : table_good E Q (tcs vs' ebs) (map st_secret sl) (by_guardian (map en_share (fs l)))).
    { split; [apply (guardians_nodup l sl HF0)|]. unfold by_guardian. rewrite map_map. apply Forall2_map_l, Forall2_map_r. revert HF. apply F2_impl. intros s en (Hs & He).
      cbn [fst snd]. split; [reflexivity|]. destruct (ef_share _ _ _ He) as (vs1 & ebs1 & HB1 & Hg1). rewrite (behind_unique _ _ _ _ _ HB HB1). exact Hg1. }
    destruct (table_shows (ty_id (total_tally E im cx vs' ebs)) (tcs vs' ebs) sl _ (cast_count im vs') Hp Hi Ht) as (p' & P1 & P2); [rewrite tally_cc_options; apply (bh_encrypts _ _ _ HB Hn)|].
    exists p'. split; [exact P1|]. apply (shows_tally _ _ _ _ HB). rewrite <- tally_cc_options. exact P2.
  Qed.
  (** ** the spoiled ballots *)
  Definition right_ballot (v : voter) (p : plain_tally) : Prop :=
    forall cid oid n, count_of p cid oid = Some n <-> on_ballot im (vr_ballot v) cid oid /\ n = vote_for im (vr_ballot v) cid oid.
  Lemma brow_len bid en : (length (brow bid en) <= 1)%nat.
  Proof. unfold brow. destruct (dget bid (en_ballots en)) as [[sh|]|]; cbn; lia. Qed.
  Lemma brows_len bid l : (length (flat_map (brow bid) l) <= length l)%nat.
  Proof. induction l as [|en l IH]; [reflexivity|]. cbn [flat_map length]. rewrite app_length. pose proof (brow_len bid en). lia. Qed.
  Lemma brows_full bid l : length (flat_map (brow bid) l) = length l -> Forall2 (fun en kv => dget bid (en_ballots en) = Some (Some (snd kv))) l (flat_map (brow bid) l).
  Proof.
    induction l as [|en l IH]; intros H; [constructor|]. cbn [flat_map length] in *. rewrite app_length in H. pose proof (brow_len bid en). pose proof (brows_len bid l).
    unfold brow in *. destruct (dget bid (en_ballots en)) as [[sh|]|] eqn:Hg; cbn [length app] in *; try lia. constructor; [exact Hg|]. apply IH. lia.
  Qed.
  Lemma ballot_table l sl sb t : Forall2 sits sl (fs l) -> from_voter sb -> t = flat_map (brow (sb_id sb)) (fs l) -> length t = length (fs l) ->
    table_good E Q (bcs sb) (map st_secret sl) (by_guardian (dvals t)).
  Proof.
    intros HF Hsb -> Hl. pose proof (brows_full _ _ Hl) as HB.
    assert (H : Forall2 (fun s kv => sh_guardian (snd kv) = st_id s /\ good_share E Q (st_secret s) (bcs sb) (snd kv)) sl (flat_map (brow (sb_id sb)) (fs l))).
    { clear Hl. revert HF HB. generalize (flat_map (brow (sb_id sb)) (fs l)). intros t HF. revert t. induction HF as [|s en sl' l' (Hs & bl' & Hbl & He) _ IH]; intros t HB; inversion HB as [|? kv ? t' Hg HB']; subst; constructor; [|apply IH, HB'].
      apply dget_in in Hg. destruct (ef_ballots _ _ _ He _ _ Hg) as (b & sh & Hb & Hid & Ho & Hg1 & Hg2). injection Ho as Ho. rewrite Ho. split; [exact Hg1|].
      replace sb with b; [exact Hg2|]. apply same_ballot; [|exact Hsb|exact Hid]. rewrite Forall_forall in Hbl. apply Hbl. apply filter_In in Hb as [Hb _]. exact Hb. }
    assert (Hk : dkeys (by_guardian (dvals (flat_map (brow (sb_id sb)) (fs l)))) = map st_id sl).
    { rewrite by_guardian_keys. unfold dvals. rewrite map_map. symmetry. apply Forall2_map_eq. revert H. apply F2_impl. intros s kv [H _]. symmetry. exact H. }
    split; [rewrite Hk, (seats_users _ _ HF); apply firsts_nodup|]. unfold by_guardian, dvals. rewrite map_map. apply Forall2_map_l, Forall2_map_r. revert H. apply F2_impl. intros s kv [_ H]. split; [reflexivity|exact H].
  Qed.
  Lemma ballot_right l sl v sb t p : Forall2 sits sl (fs l) -> Permutation sl ss -> In v vs -> comes_from E im cx v sb -> t = flat_map (brow (sb_id sb)) (fs l) -> length t = length (fs l) ->
    decrypt_ballot E sb t Q m true = Ok p -> exists p', p = Some p' /\ pt_id p' = sb_id sb /\ right_ballot v p'.
  Proof.
    intros HF Hp Hi Hc Ht Hl Hdec. assert (Hsb : from_voter sb) by (exists v; auto). pose proof (ballot_table l sl sb t HF Hsb Ht Hl) as Htb. destruct (ballot_facts sb Hsb) as [Hen Hg].
    destruct (table_shows (sb_id sb) (bcs sb) sl _ (spoiled_value im vs (sb_id sb)) Hp Hg Htb) as (p' & P1 & P2); [rewrite ballot_cc_options; exact Hen|].
    unfold decrypt_ballot in Hdec. rewrite (decrypt_shares_dvals E t (by_guardian (dvals t))) in Hdec by (symmetry; apply by_guardian_vals). rewrite P1 in Hdec. injection Hdec as <-. exists p'. split; [reflexivity|]. split.
    - unfold decrypt_shares in P1. destruct (decrypt_contests_shares _ _ _ _ _ _ _) as [[r|]|]; cbn [rbind] in P1; try discriminate. injection P1 as <-. reflexivity.
    - rewrite ballot_cc_options in P2. exact (spoiled_shows E m im cx HE Hv Hm HK Hdist vs Hst Hids v sb p' Hi Hc P2).
  Qed.
  Definition ballots_right (bl : list sub_ballot) (ps : dict string plain_tally) : Prop :=
    forall i p, In (i, p) ps -> exists v, In v vs /\ vr_id v = i /\ vr_state v = SPOILED /\ (exists sb, In sb bl /\ comes_from E im cx v sb) /\ right_ballot v p.
  Lemma spoiled_state bl sb v : In sb (spoiled_ballots bl) -> In v vs -> comes_from E im cx v sb -> vr_state v = SPOILED /\ In sb bl.
  Proof.
    intros Hb Hi Hc. apply filter_In in Hb as [Hb Hs]. destruct (voter_id v sb Hi Hc) as [_ <-]. split; [|exact Hb]. destruct (sb_state sb); [discriminate|reflexivity|discriminate].
  Qed.
  Lemma loop_right l sl md bl : Forall2 sits sl (fs l) -> Permutation sl ss -> announced l md -> Forall from_voter bl -> forall bs d ps, (forall b, In b bs -> In b (spoiled_ballots bl)) ->
    plaintext_ballots_loop E md m bs d = Ok ps -> ballots_right bl d -> ballots_right bl ps.
  Proof.
    intros HF Hp HA Hbl. assert (Hlen : length ss = length (fs l)) by (rewrite <- (F2_length HF); symmetry; apply Permutation_length, Hp).
    induction bs as [|b bs IH]; intros d ps Hbs Hps Hd'; cbn [plaintext_ballots_loop] in Hps; [injection Hps as <-; exact Hd'|].
    assert (Hbs' : forall y, In y bs -> In y (spoiled_ballots bl)) by (intros y Hy; apply Hbs; right; exact Hy).
    pose proof (an_ballots _ _ HA (sb_id b)) as Hsh. unfold shares_of in Hsh. destruct (dget (sb_id b) (dm_ballots md)) as [t|]; [|apply (IH _ _ Hbs' Hps Hd')].
    assert (Hps' : (if negb (ready_to_decrypt md t) then plaintext_ballots_loop E md m bs d else
        do o <- decrypt_ballot E b t (cx_ext_hash (dm_context md)) m true; plaintext_ballots_loop E md m bs (match o with Some p => dset (pt_id p) p d | None => d end)) = Ok ps).
    { destruct t as [|e t]; [|exact Hps]. unfold ready_to_decrypt. rewrite (an_cx _ _ HA), Hgn.
      assert (Hz : (len (@nil (string * dec_share)) =? len ss) = false). { apply Z.eqb_neq. unfold len. destruct ss; [contradiction|]. cbn [length]. lia. }
      rewrite Hz. exact Hps. }
    clear Hps. destruct (ready_to_decrypt md t) eqn:Hr; cbn [negb] in Hps'; [|apply (IH _ _ Hbs' Hps' Hd')].
    destruct (decrypt_ballot E b t (cx_ext_hash (dm_context md)) m true) as [o|] eqn:Hdec; cbn [rbind] in Hps'; [|discriminate].
    apply (IH _ _ Hbs' Hps'). unfold ready_to_decrypt in Hr. rewrite (an_cx _ _ HA), Hgn in Hr. apply Z.eqb_eq in Hr. rewrite (an_cx _ _ HA) in Hdec.
    assert (Hb : In b (spoiled_ballots bl)) by (apply Hbs; left; reflexivity). assert (Hfv : from_voter b) by (rewrite Forall_forall in Hbl; apply Hbl; apply filter_In in Hb as [Hb _]; exact Hb).
    destruct Hfv as (v & Hi & Hc). destruct (ballot_right l sl v b t o HF Hp Hi Hc Hsh) as (p & -> & P1 & P2); [unfold len in Hr; lia|exact Hdec|].
    intros i q Hin. apply MediatorFacts.dset_in in Hin as [[-> ->]|Hin]; [|apply Hd', Hin]. rewrite P1. exists v. destruct (spoiled_state bl b v Hb Hi Hc) as [S1 S2].
    split; [exact Hi|]. split; [symmetry; apply (voter_id v b Hi Hc)|]. split; [exact S1|]. split; [exists b; auto|exact P2].
  Qed.
  Lemma loop_done l sl md bl : Forall2 sits sl (fs l) -> Forall2 (sits_for bl) sl (fs l) -> Permutation sl ss -> announced l md -> Forall from_voter bl -> forall bs d, (forall b, In b bs -> In b (spoiled_ballots bl)) ->
    exists ps, plaintext_ballots_loop E md m bs d = Ok ps /\ forall i, In i (map sb_id bs) \/ In i (dkeys d) -> In i (dkeys ps).
  Proof.
    intros HF HF' Hp HA Hbl. assert (Hlen : length ss = length (fs l)) by (rewrite <- (F2_length HF); symmetry; apply Permutation_length, Hp).
    induction bs as [|b bs IH]; intros d Hbs; cbn [plaintext_ballots_loop]; [exists d; split; [reflexivity|intros i [[]|H]; exact H]|].
    assert (Hbs' : forall y, In y bs -> In y (spoiled_ballots bl)) by (intros y Hy; apply Hbs; right; exact Hy).
    assert (Hb : In b (spoiled_ballots bl)) by (apply Hbs; left; reflexivity).
    assert (Hfv : from_voter b) by (rewrite Forall_forall in Hbl; apply Hbl; apply filter_In in Hb as [Hb' _]; exact Hb').
    pose proof (an_ballots _ _ HA (sb_id b)) as Hsh.
    assert (Hl : length (flat_map (brow (sb_id b)) (fs l)) = length (fs l)).
    { clear - HF' Hb. revert HF'. generalize (fs l) as el. intros el HF'. induction HF' as [|s en sl' l' [_ He] _ IH]; [reflexivity|]. cbn [flat_map length]. rewrite app_length, IH. unfold brow.
      pose proof (ef_all _ _ _ He b Hb) as Hk. apply dget_some_key in Hk as [o Ho]. rewrite Ho. apply dget_in in Ho. destruct (ef_ballots _ _ _ He _ _ Ho) as (b' & sh & _ & _ & -> & _). reflexivity. }
    unfold shares_of in Hsh. destruct (dget (sb_id b) (dm_ballots md)) as [[|e t]|].
    1,3: exfalso; rewrite <- Hsh in Hl; cbn [length] in Hl; rewrite <- Hlen in Hl; destruct ss; [contradiction|discriminate].
    rewrite <- Hsh in Hl. assert (Hr : ready_to_decrypt md (e :: t) = true). { unfold ready_to_decrypt. rewrite (an_cx _ _ HA), Hgn. unfold len. rewrite Hl, <- Hlen. apply Z.eqb_refl. }
    rewrite Hr. cbn [negb]. rewrite (an_cx _ _ HA). destruct Hfv as (v & Hi & Hc). assert (Hsb : from_voter b) by (exists v; auto).
    destruct (table_shows (sb_id b) (bcs b) sl _ (spoiled_value im vs (sb_id b)) Hp (proj2 (ballot_facts b Hsb)) (ballot_table l sl b (e :: t) HF Hsb Hsh Hl)) as (p & P1 & P2);
      [rewrite ballot_cc_options; apply (ballot_facts b Hsb)|].
    assert (Hdec : decrypt_ballot E b (e :: t) Q m true = Ok (Some p)).
    { unfold decrypt_ballot. rewrite (decrypt_shares_dvals E (e :: t) (by_guardian (dvals (e :: t)))) by (symmetry; apply by_guardian_vals). exact P1. }
    rewrite Hdec. cbn [rbind]. destruct (ballot_right l sl v b (e :: t) _ HF Hp Hi Hc Hsh Hl Hdec) as (p' & He' & Hid & _). injection He' as <-. rewrite Hid.
    destruct (IH (dset (sb_id b) p d) Hbs') as (ps & Hps & Hin). exists ps. split; [exact Hps|]. intros i Hi'. apply Hin. cbn [map] in Hi'. rewrite dkeys_dset_in. destruct Hi' as [[<-|Hi']|Hi']; auto.
  Qed.
  (** ** the published result *)
  Definition counts (vs' : list voter) (bl : list sub_ballot) : Prop := NoDup vs' /\ forall v, In v vs' <-> In v vs /\ exists sb, In sb bl /\ comes_from E im cx v sb.
  Lemma behind_counts vs' ebs bl : Forall from_voter bl -> behind vs' ebs (firsts sb_id [] bl) -> counts vs' bl.
  Proof.
    intros Hbl HB. split; [apply (NoDup_map_inv vr_id), (bh_nodup _ _ _ HB (firsts_nodup sb_id bl []))|]. intros v. rewrite (behind_voters _ _ _ v HB). split; intros [Hi (sb & Hb & H)]; (split; [exact Hi|]); exists sb; (split; [exact Hb|]).
    - rewrite Forall_forall in Hbl. destruct (Hbl sb Hb) as (v' & Hi' & Hc). replace v with v'; [exact Hc|]. apply voter_same; [exact Hi'|exact Hi|]. rewrite <- H. symmetry. apply (voter_id v' sb Hi' Hc).
    - apply (voter_id v sb Hi H).
  Qed.
  Lemma result_right l md bl r : Forall known l -> announced l md -> Forall from_voter bl -> make_result E true m cx md bl = Ok r ->
    exists vs', counts vs' bl /\ ((exists en, In en l /\ zero_response (en_share en)) \/ right_tally vs' (rs_tally r)) /\ ballots_right bl (rs_spoiled r).
  Proof.
    intros HF HA Hbl Hr. destruct (read_tally bl Hbl) as (vs' & ebs & HB & Ht). unfold make_result in Hr. rewrite Ht in Hr. cbn [rbind] in Hr.
    destruct (seats_of (fs l)) as (sl & Hsl). { apply Forall_forall. intros en Hen. apply firsts_in in Hen as [Hen _]. rewrite Forall_forall in HF. apply HF, Hen. }
    unfold dm_plaintext_tally in Hr. destruct (announcement_complete md) eqn:Hac; cbn [negb orb] in Hr; [|discriminate].
    destruct (ready_to_decrypt md (dm_tally md)) eqn:Hrd; cbn [negb] in Hr; [|discriminate]. unfold ready_to_decrypt in Hrd. rewrite (an_cx _ _ HA), Hgn, (an_tally _ _ HA) in Hrd. apply Z.eqb_eq in Hrd. unfold len in Hrd. rewrite map_length in Hrd.
    assert (Hp : Permutation sl ss) by (apply (seats_full l sl Hsl); lia).
    destruct (decrypt_tally E _ (dm_tally md) _ m true) as [[p|]|] eqn:Hdec; cbn [rbind] in Hr; try discriminate. rewrite (an_tally _ _ HA), (an_cx _ _ HA) in Hdec.
    unfold dm_plaintext_ballots in Hr. rewrite Hac in Hr. cbn [negb] in Hr. destruct (plaintext_ballots_loop E md m (spoiled_ballots bl) []) as [ps|] eqn:Hps; cbn [rbind] in Hr; [|discriminate].
    destruct (lagrange_all E _) as [L|]; cbn [rbind] in Hr; [|discriminate]. injection Hr as <-. cbn [rs_tally rs_spoiled].
    exists vs'. split; [apply (behind_counts _ _ _ Hbl HB)|]. split; [apply (tally_right l sl vs' ebs _ p Hsl Hp HB (firsts_nodup sb_id bl []) Hdec)|].
    apply (loop_right l sl md bl Hsl Hp HA Hbl (spoiled_ballots bl) [] ps (fun _ H => H) Hps). intros i q [].
  Qed.
  Lemma success_full l md bl r : Forall known l -> announced l md -> Forall from_voter bl -> make_result E true m cx md bl = Ok r -> forall s, In s ss -> In (st_id s) (map en_user l).
  Proof.
    intros HF HA Hbl Hr. destruct (read_tally bl Hbl) as (vs' & ebs & HB & Ht). unfold make_result in Hr. rewrite Ht in Hr. cbn [rbind] in Hr.
    destruct (seats_of (fs l)) as (sl & Hsl). { apply Forall_forall. intros en Hen. apply firsts_in in Hen as [Hen _]. rewrite Forall_forall in HF. apply HF, Hen. }
    unfold dm_plaintext_tally in Hr. destruct (announcement_complete md) eqn:Hac; cbn [negb orb] in Hr; [|discriminate].
    destruct (ready_to_decrypt md (dm_tally md)) eqn:Hrd; cbn [negb] in Hr; [|discriminate]. unfold ready_to_decrypt in Hrd. rewrite (an_cx _ _ HA), Hgn, (an_tally _ _ HA) in Hrd. apply Z.eqb_eq in Hrd. unfold len in Hrd. rewrite map_length in Hrd.
    assert (Hp : Permutation sl ss) by (apply (seats_full l sl Hsl); lia).
    intros s Hs. apply (Permutation_in _ (Permutation_sym Hp)) in Hs. apply (in_map st_id) in Hs. rewrite (seats_users _ _ Hsl) in Hs.
    apply in_map_iff in Hs as (en & <- & Hen). apply firsts_in in Hen as [Hen _]. apply in_map, Hen.
  Qed.
  Lemma result_done l md bl : Forall (fun en => exists s, In s ss /\ entry_for s bl en) l -> (forall s, In s ss -> In (st_id s) (map en_user l)) -> announced l md -> Forall from_voter bl ->
    exists r vs', make_result E true m cx md bl = Ok r /\ counts vs' bl /\ right_tally vs' (rs_tally r) /\ ballots_right bl (rs_spoiled r) /\
      forall v, In v vs' -> vr_state v = SPOILED -> In (vr_id v) (dkeys (rs_spoiled r)).
  Proof.
    intros HF Hall HA Hbl. destruct (read_tally bl Hbl) as (vs' & ebs & HB & Ht). unfold make_result. rewrite Ht. cbn [rbind].
    assert (Hsl : exists sl, Forall2 (sits_for bl) sl (fs l)).
    { assert (Hfs : Forall (fun en => exists s, In s ss /\ entry_for s bl en) (fs l)) by (apply Forall_forall; intros en Hen; apply firsts_in in Hen as [Hen _]; rewrite Forall_forall in HF; apply HF, Hen).
      revert Hfs. generalize (fs l) as el. intros el. induction 1 as [|en el (s & Hs & He) _ (sl & IH)]; [exists []; constructor|]. exists (s :: sl). constructor; [split; assumption|exact IH]. }
    destruct Hsl as (sl & Hsl). assert (Hsl' : Forall2 sits sl (fs l)) by (revert Hsl; apply F2_impl; intros s en [H1 H2]; split; [exact H1|exists bl; auto]).
    assert (Hp : Permutation sl ss).
    { apply (seats_full l sl Hsl'). rewrite <- (map_length st_id ss), <- (map_length en_user (fs l)). apply NoDup_incl_length; [apply Hseats|]. intros i Hi. apply in_map_iff in Hi as [s [<- Hs]].
      specialize (Hall s Hs). apply in_map_iff in Hall as [en [Hu Hen]]. destruct (firsts_cover en_user l [] en Hen) as (y & Hy & Hyu); [intros []|]. rewrite <- Hu, <- Hyu. apply in_map, Hy. }
    assert (Hlen : length (fs l) = length ss) by (rewrite <- (F2_length Hsl); apply Permutation_length, Hp).
    assert (Hac : announcement_complete md = true).
    { unfold announcement_complete. rewrite (an_available _ _ HA), (an_missing _ _ HA), (an_cx _ _ HA), Hgn. unfold len in *. rewrite map_length, Hlen. cbn [length]. apply andb_true_intro. split; [apply Z.leb_le; lia|apply Z.eqb_eq; lia]. }
    unfold dm_plaintext_tally. rewrite Hac. unfold ready_to_decrypt. rewrite (an_cx _ _ HA), Hgn, (an_tally _ _ HA).
    replace (len (map (fun en => (ord en, en_share en)) (fs l)) =? len ss) with true by (symmetry; apply Z.eqb_eq; unfold len; rewrite map_length, Hlen; reflexivity). cbn [negb orb].
    destruct (tally_done l sl vs' ebs bl Hsl' Hsl Hp HB) as (p & -> & Hright). cbn [rbind].
    unfold dm_plaintext_ballots. rewrite Hac. cbn [negb]. destruct (loop_done l sl md bl Hsl' Hsl Hp HA Hbl (spoiled_ballots bl) [] (fun _ H => H)) as (ps & Hps & Hin). rewrite Hps. cbn [rbind].
    assert (HL : exists L, lagrange_all E (dvals (dm_available md)) = Ok L).
    { rewrite (an_available _ _ HA). unfold dvals. rewrite map_map. cbn [snd]. unfold lagrange_all.
      assert (Hk : forall kk, In kk (map (fun en => with_owner (en_key en) (ord en)) (fs l)) -> exists s, In s ss /\ pk_seq kk = st_seq s /\ pk_owner kk = decimal (st_seq s)).
      { intros kk Hkk. apply in_map_iff in Hkk as [en [<- Hen]]. destruct (Forall2_in_r _ _ _ en Hsl' Hen) as (s & _ & Hs & bl' & _ & He). exists s. split; [exact Hs|]. cbn [with_owner pk_seq pk_owner].
        split; [apply (ef_key _ _ _ He)|apply (ord_known s bl' en Hs He)]. }
      revert Hk. generalize (map (fun en => with_owner (en_key en) (ord en)) (fs l)) as kl. intros kl Hk.
      assert (HM : forall kl', (forall kk, In kk kl' -> In kk kl) -> exists L, rmapM (fun kk => do w <- lagrange_for E kk kl; Ok (pk_owner kk, w)) kl' = Ok L).
      { induction kl' as [|kk kl' IH]; intros Hsub; [eexists; reflexivity|]. cbn [rmapM]. destruct (IH (fun y Hy => Hsub y (or_intror Hy))) as [L ->].
        unfold lagrange_for. destruct (lagrange_coefficient_spec E HE (pk_seq kk) (map pk_seq (filter (fun o => negb (eqb (pk_owner o) (pk_owner kk))) kl))) as (w & -> & _); [|eexists; reflexivity].
        intros z Hz. apply in_map_iff in Hz as [o [<- Ho]]. apply filter_In in Ho as [Ho Hne'].
        destruct (Hk o Ho) as (s & Hs & S1 & S2), (Hk kk (Hsub kk (or_introl eq_refl))) as (s' & Hs' & S1' & S2').
        pose proof (gs_seq E k ss Hseats) as Hsq. rewrite Forall_forall in Hsq. destruct (Hsq s Hs) as [R1 _], (Hsq s' Hs') as [R2 _]. rewrite S1, S1', !Z.mod_small by assumption.
        intros Heq. rewrite S2, S2', Heq in Hne'. rewrite (eqb_refl' (decimal (st_seq s'))) in Hne'. discriminate. }
      destruct (HM kl (fun _ H => H)) as [L ->]. eexists. reflexivity. }
    destruct HL as [L ->]. cbn [rbind]. eexists. exists vs'. split; [reflexivity|]. cbn [rs_tally rs_spoiled]. pose proof (behind_counts _ _ _ Hbl HB) as Hcnt. split; [exact Hcnt|]. split; [exact Hright|]. split.
    - apply (loop_right l sl md bl Hsl' Hp HA Hbl (spoiled_ballots bl) [] ps (fun _ H => H) Hps). intros i q [].
    - intros v Hv' Hs. apply Hin. left. apply Hcnt in Hv' as [Hi (sb & Hb & Hc)]. destruct (voter_id v sb Hi Hc) as [I1 I2]. rewrite <- I1. apply in_map. apply filter_In. split; [exact Hb|]. rewrite I2, Hs. reflexivity.
  Qed.
  (** ** what anybody can check of a result *)
  Definition seat_keys (keys : dict string public_key) : Prop := forall s, In s ss -> exists k, dget (st_id s) keys = Some k /\ pk_key k = gexp E (st_secret s).
  Definition share_ok (keys : dict string public_key) (sh : dec_share) : Prop := direct sh /\ exists k, dget (sh_guardian sh) keys = Some k /\ pk_key k = sh_key sh.
  Definition lagrange_right (L : dict string Z) : Prop := NoDup (dkeys L) /\ (forall i, In i (dkeys L) <-> In i (map (fun s => decimal (st_seq s)) ss)) /\
    forall s, In s ss -> exists w, dget (decimal (st_seq s)) L = Some w /\ is_lagrange E (st_seq s) (filter (fun z => negb (z =? st_seq s)) (map st_seq ss)) w.
  Definition recorded (bl : list sub_ballot) (r : dec_result) : Prop :=
    verify_aggregation E (fun _ => all_up) (firsts sb_id [] bl) (rs_ciphertext r) m cx = Ok verified /\
    (forall keys, seat_keys keys -> verify_decryption E (rs_tally r) keys cx = Ok verified /\ forall i p, In (i, p) (rs_spoiled r) -> verify_decryption E p keys cx = Ok verified) /\
    lagrange_right (rs_lagrange r).
  Lemma loop_verified keys md : dm_context md = cx -> (forall bid shares sh, dget bid (dm_ballots md) = Some shares -> In sh (dvals shares) -> share_ok keys sh) -> forall bs d ps,
    (forall i p, In (i, p) d -> verify_decryption E p keys cx = Ok verified) -> plaintext_ballots_loop E md m bs d = Ok ps -> forall i p, In (i, p) ps -> verify_decryption E p keys cx = Ok verified.
  Proof.
    intros Hcx Hok. induction bs as [|b bs IH]; intros d ps Hd'; cbn [plaintext_ballots_loop]; [intros [= <-]; exact Hd'|].
    destruct (dget (sb_id b) (dm_ballots md)) as [[|sh0 shs]|] eqn:Hb; [apply IH; assumption| |apply IH; assumption]. destruct (negb _); [apply IH; assumption|].
    unfold decrypt_ballot. destruct (decrypt_shares _ _ _ _ _ _ _) as [[p|]|] eqn:Hp; cbn [rbind]; [|apply IH; assumption|discriminate].
    apply IH. intros i q Hq'. apply MediatorFacts.dset_in in Hq' as [[-> ->]|Hq']; [|apply (Hd' i), Hq']. rewrite Hcx in Hp.
    apply (direct_verifies E HE _ _ _ _ _ _ _ _ Hp). intros sh Hsh. apply (Hok _ _ _ Hb Hsh).
  Qed.
  Lemma result_recorded l md bl r : Forall (fun en => exists s, In s ss /\ entry_for s bl en) l -> (forall s, In s ss -> In (st_id s) (map en_user l)) -> announced l md -> Forall from_voter bl ->
    make_result E true m cx md bl = Ok r -> recorded bl r.
  Proof.
    intros HF Hall HA Hbl Hr. destruct (read_tally bl Hbl) as (vs' & ebs & HB & Ht). unfold make_result in Hr. rewrite Ht in Hr. cbn [rbind] in Hr.
    unfold dm_plaintext_tally in Hr. destruct (_ || _); [discriminate|]. destruct (decrypt_tally _ _ _ _ _ _) as [[p|]|] eqn:Hp; cbn [rbind] in Hr; [|discriminate..].
    unfold dm_plaintext_ballots in Hr. destruct (negb _); [discriminate|]. destruct (plaintext_ballots_loop _ _ _ _ _) as [ps|] eqn:Hl; cbn [rbind] in Hr; [|discriminate].
    destruct (lagrange_all _ _) as [L|] eqn:HL; cbn [rbind] in Hr; [|discriminate]. injection Hr as <-. unfold recorded. cbn [rs_tally rs_spoiled rs_ciphertext rs_lagrange].
    assert (Hfs : forall en, In en (fs l) -> exists s, In s ss /\ entry_for s bl en) by (intros en Hen; apply firsts_in in Hen as [Hen _]; rewrite Forall_forall in HF; apply HF, Hen).
    split; [|split].
    - pose proof (firsts_nodup sb_id bl []) as Hn. pose proof (bh_ids _ _ _ HB) as Hi.
      assert (Hids' : NoDup (map vr_id vs')) by (rewrite Hi; exact Hn).
      rewrite <- (bh_subs _ _ _ HB), <- (store_values E m im cx HE Hv Hm HK vs' ebs (bh_enc _ _ _ HB) (bh_style _ _ _ HB) Hids').
      apply (aggregated E m im cx HE Hv Hm HK Hdist vs' ebs (bh_enc _ _ _ HB) (bh_style _ _ _ HB) Hids' (bh_unknown _ _ _ HB)).
    - intros keys Hks. rewrite (an_cx _ _ HA) in Hp. split.
      + unfold decrypt_tally in Hp. apply (direct_verifies E HE _ _ _ _ _ _ _ _ Hp). intros sh Hsh. rewrite (an_tally _ _ HA) in Hsh. unfold dvals in Hsh. rewrite map_map in Hsh. cbn [snd] in Hsh.
        apply in_map_iff in Hsh as (en & <- & Hen). destruct (Hfs en Hen) as (s & Hs & He). split; [apply (ef_direct _ _ _ He)|]. destruct (Hks s Hs) as (kk & K1 & K2). exists kk. rewrite (ef_guardian _ _ _ He). split; [exact K1|].
        destruct (ef_share _ _ _ He) as (? & ? & _ & G & _). congruence.
      + apply (loop_verified keys md (an_cx _ _ HA)) with (bs := spoiled_ballots bl) (d := []); [|intros i q []|exact Hl]. intros bid shares sh Hb Hsh. pose proof (an_ballots _ _ HA bid) as Hbr. unfold shares_of in Hbr. rewrite Hb in Hbr. subst shares.
        unfold dvals in Hsh. apply in_map_iff in Hsh as ([g sh'] & <- & Hsh). cbn [snd]. apply in_flat_map in Hsh as (en & Hen & Hsh). unfold brow in Hsh. destruct (dget bid (en_ballots en)) as [[sh1|]|] eqn:Hg; try destruct Hsh as [[= <- <-]|[]]; try destruct Hsh.
        destruct (Hfs en Hen) as (s & Hs & He). apply dget_in in Hg. split; [apply (ef_ballots_direct _ _ _ He bid), Hg|]. destruct (ef_ballots _ _ _ He _ _ Hg) as (b & sh2 & _ & _ & [= <-] & G1 & G2 & _). destruct (Hks s Hs) as (kk & K1 & K2).
        exists kk. rewrite G1. split; [exact K1|congruence].
    - rewrite (an_available _ _ HA) in HL. unfold dvals in HL. rewrite map_map in HL. cbn [snd] in HL.
      assert (Hk : forall kk, In kk (map (fun en => with_owner (en_key en) (ord en)) (fs l)) -> exists s, In s ss /\ pk_seq kk = st_seq s /\ pk_owner kk = decimal (st_seq s)).
      { intros kk Hkk. apply in_map_iff in Hkk as [en [<- Hen]]. destruct (Hfs en Hen) as (s & Hs & He). exists s. split; [exact Hs|]. cbn [with_owner pk_seq pk_owner].
        split; [apply (ef_key _ _ _ He)|apply (ord_known s bl en Hs He)]. }
      assert (Hc : forall s, In s ss -> exists kk, In kk (map (fun en => with_owner (en_key en) (ord en)) (fs l)) /\ pk_seq kk = st_seq s /\ pk_owner kk = decimal (st_seq s)).
      { intros s Hs. specialize (Hall s Hs). apply in_map_iff in Hall as [en [Hu Hen]]. destruct (firsts_cover en_user l [] en Hen) as (y & Hy & Hyu); [intros []|]. eexists. split; [apply in_map, Hy|].
        destruct (Hfs y Hy) as (s' & Hs' & He). assert (s' = s). { apply (NoDup_inj st_id ss); [apply Hseats|exact Hs'|exact Hs|]. rewrite <- (ef_user _ _ _ He). congruence. } subst s'. cbn [with_owner pk_seq pk_owner].
        split; [apply (ef_key _ _ _ He)|apply (ord_known s bl y Hs He)]. }
      assert (Hnd : NoDup (map pk_owner (map (fun en => with_owner (en_key en) (ord en)) (fs l)))).
      { rewrite map_map. cbn [with_owner pk_owner]. pose proof (firsts_nodup en_user l []) as Hn. apply (nodup_map_by en_user ord (fs l) Hn). intros a b Ha Hb.
        destruct (Hfs a Ha) as (s & Hs & He), (Hfs b Hb) as (s' & Hs' & He'). apply ord_inj; [exists s, bl|exists s', bl]; auto. }
      revert HL Hk Hc Hnd. generalize (map (fun en => with_owner (en_key en) (ord en)) (fs l)) as kl. intros kl HL Hk Hc Hnd. apply (lagrange_of_keys E HE ss Hseq k (gs_seq E k ss Hseats) kl L HL Hk Hc Hnd).
  Qed.
End Reads.
