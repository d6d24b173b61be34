(** * SampleFacts: the ballots, the voters and the ballot box of a sample election. *)
From Coq Require Import Permutation List Lia.
From Verif Require Import Base Group Codec Hash DLog ElGamal ZK Poly Manifest Ballot Encrypt Box Tally Spec SpecElection SpecTally
  ListFacts GroupFacts ZKFacts CryptoThms ManifestThms EncryptFacts BallotFacts EncryptThms TallyFacts TallyThms TallyMore BoxFacts
  Ceremony SpecCeremony Shares SpecShares SharesFacts ShareRun SharesThms SharesMore Verify SpecVerify VerifyFacts SpecEndToEnd EndToEnd
  GuiDecrypt GuiDecPure GuiElection Cli SpecCli CliDec CliRun CliE2e Mark SpecMark MarkFacts MarkThms SampleGen SpecSample AccFacts.
Local Open Scope Z_scope.
Local Open Scope list_scope.

(** ** the ballots *)
Lemma under_total lk d : contest_ph_is_valid d = true -> 1 <= cd_number_elected (ph_desc d) -> exists c, random_contest false false true lk d = Ok c.
Proof. intros Hv H1. unfold random_contest. rewrite Hv. cbn [negb andb]. unfold randint. destruct (Z.ltb_spec (cd_number_elected (ph_desc d)) 1); [lia|]. cbn [rbind]. eexists. reflexivity. Qed.
Lemma drawn_ballots_total E m im st lk n : manifest_is_valid m = true -> make_internal E m = Ok im -> (forall c, In c (mf_contests m) -> 1 <= cd_number_elected c) ->
  (match st with Some s => In s (map bs_id (im_styles im)) | None => im_styles im <> [] end) -> exists bs, fake_ballots im n st false true lk = Ok bs.
Proof.
  intros Hv Hm Hn Hst. assert (Hph : forall d, In d (im_contests im) -> contest_ph_is_valid d = true /\ 1 <= cd_number_elected (ph_desc d)).
  { intros d Hd. apply make_internal_spec in Hm as HS. destruct HS as (_ & _ & _ & HF). destruct (Forall2_in_r _ _ _ _ HF Hd) as (c & Hc & _ & He). assert (Hn1 : 1 <= cd_number_elected (ph_desc d)) by (rewrite He; exact (Hn c Hc)).
    split; [|exact Hn1]. apply (internal_good E m im Hv Hm d Hd). lia. }
  assert (Hone : forall i, exists b, fake_ballot im st false true lk i = Ok b).
  { intros i. unfold fake_ballot. assert (Hs : exists s, In (bs_id s) (map bs_id (im_styles im)) /\
      match st with Some sid => get_ballot_style im sid | None => do x <- randint 0 (len (im_styles im) - 1) (lk_style lk i); match nth_error (im_styles im) (Z.to_nat x) with Some s => Ok s | None => Err IndexError end end = Ok s).
    { assert (HF : forall sid, In sid (map bs_id (im_styles im)) -> exists s, In (bs_id s) (map bs_id (im_styles im)) /\ get_ballot_style im sid = Ok s).
      { intros sid H. unfold get_ballot_style. destruct (find_first _ _) as [s|] eqn:Hf; [exists s; split; [apply in_map, (find_first_some _ _ _ Hf)|reflexivity]|]. exfalso. apply in_map_iff in H as (s & Hs & H). pose proof (proj1 (find_first_none _ _) Hf s H) as HX. cbn in HX. rewrite Hs, String.eqb_refl in HX. discriminate. }
      destruct st as [sid|]; [apply HF, Hst|]. unfold randint. assert (Hl : 0 < len (im_styles im)) by (unfold len; destruct (im_styles im); [contradiction|cbn; lia]).
      destruct (Z.ltb_spec (len (im_styles im) - 1) 0); [lia|]. cbn [rbind]. pose proof (Z.mod_pos_bound (lk_style lk i) (len (im_styles im) - 1 - 0 + 1) ltac:(lia)) as HB.
      destruct (nth_error (im_styles im) _) as [s|] eqn:Hs; [exists s; split; [apply in_map, (nth_error_In _ _ Hs)|reflexivity]|]. exfalso. apply nth_error_None in Hs. unfold len in *. lia. }
    destruct Hs as (s & Hin & ->). cbn [rbind]. unfold get_contests_for, get_ballot_style. destruct (find_first _ (im_styles im)) as [s'|] eqn:Hf.
    2:{ exfalso. apply in_map_iff in Hin as (s2 & Hs & H). pose proof (proj1 (find_first_none _ _) Hf s2 H) as HX. cbn in HX. rewrite Hs, String.eqb_refl in HX. discriminate. }
    cbn [rbind]. set (r := match bs_gp_unit_ids s' with Some _ => _ | None => _ end). assert (Hr : exists ds, r = Ok ds /\ incl ds (im_contests im)).
    { unfold r. destruct (bs_gp_unit_ids s') as [us|]; [eexists; split; [reflexivity|intros x Hx; apply filter_In in Hx; tauto]|exists []; split; [reflexivity|intros x []]]. }
    destruct Hr as (ds & -> & Hds). cbn [rbind]. assert (Hc : forall k, exists cs, rmapM (fun jd : nat * contest_ph => random_contest false false true (lk_contest lk i (fst jd)) (snd jd)) (combine (seq k (List.length ds)) ds) = Ok cs).
    { induction ds as [|d ds IH]; intros k; cbn [List.length seq combine rmapM]; [eauto|]. cbn [fst snd]. destruct (under_total (lk_contest lk i k) d (proj1 (Hph d (Hds d (or_introl eq_refl)))) (proj2 (Hph d (Hds d (or_introl eq_refl))))) as [c ->]. cbn [rbind].
      destruct (IH (fun x Hx => Hds x (or_intror Hx)) (S k)) as [cs ->]. cbn [rbind]. eauto. }
    destruct (Hc 0%nat) as [cs ->]. cbn [rbind]. eauto. }
  unfold fake_ballots. induction (seq 0 (Z.to_nat n)) as [|i l IH]; cbn [rmapM]; [eauto|]. destruct (Hone i) as [b ->]. cbn [rbind]. destruct IH as [bs ->]. cbn [rbind]. eauto.
Qed.

Lemma drawn_ballot im lk i b : honest_luck lk -> fake_ballot im None false true lk i = Ok b ->
  pb_id b = ("ballot-" ++ lk_uuid lk i)%string /\ In (pb_style b) (map bs_id (im_styles im)) /\ allowed_ballot im b /\ no_blank_contest b.
Proof.
  intros HL H. unfold fake_ballot in H. match type of H with rbind ?e _ = _ => destruct e as [s|] eqn:Hs; [|discriminate] end. cbn [rbind] in H.
  destruct (get_contests_for im (bs_id s)) as [ds|] eqn:Hd; cbn [rbind] in H; [|discriminate]. destruct (rmapM _ _) as [cs|] eqn:Hc; cbn [rbind] in H; [|discriminate]. injection H as <-. cbn [pb_id pb_style].
  split; [reflexivity|]. split.
  - destruct (randint _ _ _) as [x|]; cbn [rbind] in Hs; [|discriminate]. destruct (nth_error _ _) as [s'|] eqn:Hn; [|discriminate]. injection Hs as ->. apply in_map, (nth_error_In _ _ Hn).
  - assert (HF : Forall2 (fun d c => (filled_in d c /\ SpecElection.marked c <= cd_number_elected (ph_desc d)) /\ 1 <= SpecElection.marked c) ds cs).
    { refine (made_contests _ _ ds 0%nat cs _ Hc). intros j d c Hg. cbn [fst snd] in Hg. destruct (random_contest_marks _ _ _ _ _ (HL i j) Hg) as (_ & F & K1 & _ & K2 & _). split; [split; [exact F|lia]|apply K2; reflexivity]. }
    split.
    + exists ds. cbn [pb_style pb_contests]. split; [exact Hd|]. clear -HF. induction HF; constructor; tauto.
    + intros c Hcc. cbn [pb_contests] in Hcc. destruct (Forall2_in_r _ _ _ _ HF Hcc) as (d & _ & _ & H). exact H.
Qed.
Lemma drawn_ballots im lk n bs : honest_luck lk -> fake_ballots im n None false true lk = Ok bs ->
  map pb_id bs = map (fun i => "ballot-" ++ lk_uuid lk i)%string (seq 0 (Z.to_nat n)) /\
  forall b, In b bs -> In (pb_style b) (map bs_id (im_styles im)) /\ allowed_ballot im b /\ no_blank_contest b.
Proof.
  intros HL H. unfold fake_ballots in H. apply rmapM_iff in H. split.
  - induction H as [|i b l bs Hb H IH]; [reflexivity|]. cbn [map]. rewrite IH. f_equal. exact (proj1 (drawn_ballot _ _ _ _ HL Hb)).
  - intros b Hb. destruct (Forall2_in_r _ _ _ _ H Hb) as (i & _ & Hi). exact (proj2 (drawn_ballot _ _ _ _ HL Hi)).
Qed.

(** ** the voters *)
Definition st_of (rate : Z) (draw : nat -> Z) (i : nat) : box_state := if drawn rate draw i then SPOILED else CAST.
Lemma voters_behind E st rnd im cx : forall bs i seed ebs, encrypt_loop E rnd i (mkEncMed im cx seed) bs = Ok ebs ->
  exists vs, map vr_ballot vs = bs /\ map vr_state vs = map st (seq i (length bs)) /\ Forall2 (encrypted_as E im cx) vs ebs.
Proof.
  induction bs as [|b bs IH]; intros i seed ebs; cbn [encrypt_loop].
  - intros [= <-]. exists []. repeat split; constructor.
  - unfold mediator_encrypt. cbn [em_manifest em_context em_seed]. destruct (encrypt_ballot E b im cx seed None false _ _) as [[eb|]|] eqn:He; cbn [rbind get_optional]; [|discriminate..].
    destruct (encrypt_loop E rnd (S i) _ bs) as [l|] eqn:Hl; cbn [rbind]; [|discriminate]. intros [= <-]. destruct (IH _ _ _ Hl) as (vs & V1 & V2 & V3).
    exists (mkVoter b (st i) seed None false (fst (rnd i)) (snd (rnd i)) :: vs). cbn [map vr_ballot vr_state length seq]. rewrite V1, V2. split; [reflexivity|]. split; [reflexivity|]. constructor; [exact He|exact V3].
Qed.
Lemma number_from {A} (l : list A) : number l = combine (seq 0 (length l)) l. Proof. reflexivity. Qed.
Lemma voters_cast im rate draw cid oid : forall vs i, map vr_state vs = map (st_of rate draw) (seq i (length vs)) ->
  cast_count im vs cid oid = SpecCli.marked im (map snd (filter (fun ib => negb (drawn rate draw (fst ib))) (combine (seq i (length vs)) (map vr_ballot vs)))) cid oid.
Proof.
  unfold cast_count, SpecCli.marked. induction vs as [|v vs IH]; intros i H; [reflexivity|]. cbn [map length seq combine filter fst] in *. injection H as H1 H2. specialize (IH (S i) H2). unfold is_cast at 1. rewrite H1. unfold st_of.
  destruct (drawn rate draw i); cbn [box_state_eqb andb negb map snd filter]; [exact IH|]. destruct (vote_for im (vr_ballot v) cid oid =? 1); [rewrite !len_cons, IH; reflexivity|exact IH].
Qed.
Lemma voters_spoiled rate draw : forall vs i, map vr_state vs = map (st_of rate draw) (seq i (length vs)) ->
  map vr_ballot (filter is_spoiled vs) = map snd (filter (fun ib => drawn rate draw (fst ib)) (combine (seq i (length vs)) (map vr_ballot vs))).
Proof.
  induction vs as [|v vs IH]; intros i H; [reflexivity|]. cbn [map length seq combine filter fst] in *. injection H as H1 H2. specialize (IH (S i) H2). unfold is_spoiled at 1. rewrite H1. unfold st_of.
  destruct (drawn rate draw i); cbn [box_state_eqb map snd]; [rewrite IH; reflexivity|exact IH].
Qed.
Lemma cast_at_most vs : len (filter is_cast vs) <= len vs.
Proof. unfold len. apply inj_le. induction vs as [|v vs IH]; [apply Nat.le_refl|]. cbn [filter List.length]. destruct (is_cast v); cbn [List.length]; lia. Qed.

(** ** the ballot box *)
Lemma spoil_or_cast_runs E rate draw im cx : forall ebs i s, Forall (fun b => ballot_valid_for_election E b im cx true = Ok true) ebs -> NoDup (map cb_id ebs) -> (forall b, In b ebs -> ~ In (cb_id b) (dkeys s)) ->
  let sbs := map (fun p => submit_ballot E (fst p) (snd p)) (combine ebs (map (st_of rate draw) (seq i (length ebs)))) in
  spoil_or_cast E rate draw i (mkBox im cx s) ebs = Ok (mkBox im cx (s ++ map (fun b => (sb_id b, b)) sbs), sbs).
Proof.
  induction ebs as [|b ebs IH]; intros i s HF Hn Hs sbs; cbn [spoil_or_cast]; [unfold sbs; cbn [map combine]; rewrite app_nil_r; reflexivity|]. apply Forall_cons_iff in HF as [Hb HF]. cbn [map] in Hn. apply NoDup_cons_iff in Hn as [Hi Hn].
  unfold randint at 1. change (100 <? 0) with false. cbn [rbind]. change (0 + draw i mod (100 - 0 + 1)) with (draw i mod 101). fold (drawn rate draw i). fold (st_of rate draw i).
  unfold box_submit, submit_to_box. cbn [bx_manifest bx_context bx_store]. rewrite Hb. pose proof (Hs b (or_introl eq_refl)) as Hk.
  destruct (ds_get s (cb_id b)) as [y|] eqn:Hg; [exfalso; apply Hk, dget_some_key; eauto|]. unfold ds_get, ds_set in *. change (sb_id (submit_ballot E b (st_of rate draw i))) with (cb_id b). rewrite dget_dset_same. cbn [rbind get_optional].
  rewrite (dset_new (cb_id b) _ s Hk). rewrite IH; [|exact HF|exact Hn|].
  - cbn [rbind fst snd]. unfold sbs. cbn [length seq map combine fst snd]. rewrite <- app_assoc. reflexivity.
  - intros b' Hb' Hin. unfold dkeys in Hin. rewrite map_app in Hin. apply in_app_iff in Hin as [Hin|[Hin|[]]]; [apply (Hs b' (or_intror Hb') Hin)|]. cbn [fst] in Hin. apply Hi. rewrite Hin. apply in_map, Hb'.
Qed.

(** ** the guardians that take part stay the same *)
Lemma rfold_keeps {A B C} (f : A -> B -> res A) (g : A -> C) : (forall a b a', f a b = Ok a' -> g a' = g a) -> forall l a a', rfold f l a = Ok a' -> g a' = g a.
Proof. intros Hf. induction l as [|b l IH]; intros a a' H; cbn [rfold] in H; [injection H as <-; reflexivity|]. destruct (f a b) as [a1|] eqn:H1; cbn [rbind] in H; [|discriminate]. rewrite (IH _ _ H). exact (Hf _ _ _ H1). Qed.
Lemma exchange_available E up rnd gs m cx t bs m' : exchange E up rnd gs m cx t bs = Ok m' -> dm_available m' = dm_available m.
Proof.
  unfold exchange. cbv zeta. destruct (rfold _ (number gs) m) as [m1|] eqn:H1; cbn [rbind]; [|discriminate].
  assert (HA : dm_available m1 = dm_available m).
  { revert H1. apply (rfold_keeps _ dm_available). intros a ig a'. apply (rfold_keeps _ dm_available). intros x [j k] x'. unfold exchange_one. destruct ig as [i g]. destruct (gd_compensated_tally _ _ _ _ _ _ _) as [o|]; cbn [rbind]; [|discriminate].
    destruct (gd_compensated_ballots _ _ _ _ _ _ _) as [d|]; cbn [rbind]; [|discriminate]. intros [= <-]. destruct o; reflexivity. }
  destruct (dm_reconstruct_tally E m1 t) as [m2 r] eqn:H2. destruct r; cbn [rbind]; [|discriminate]. destruct (dm_reconstruct_ballots E m2 bs) as [m3 r] eqn:H3. destruct r; cbn [rbind]; [|discriminate]. intros [= <-]. rewrite <- HA.
  transitivity (dm_available m2).
  - unfold dm_reconstruct_ballots in H3. destruct (lagrange_all _ _); [|congruence]. destruct (reconstruct_ballots_loop _ _ _ _ _). injection H3 as <- _. reflexivity.
  - unfold dm_reconstruct_tally in H2. destruct (lagrange_all _ _); [|congruence]. destruct (reconstruct_tally_loop _ _ _ _ _). injection H2 as <- _. reflexivity.
Qed.
