(** * AccFacts: what accumulate_plaintext_ballots counts. *)
From Coq Require Import List Lia.
From Verif Require Import Base Group Codec Hash Manifest Ballot Encrypt SpecElection ListFacts ManifestThms TallyFacts SpecTally SpecShares SpecEndToEnd Cli SpecCli Mark SpecMark MarkFacts MarkThms SampleGen SpecSample.
Local Open Scope Z_scope.
Local Open Scope list_scope.

Definition entries (b : pt_ballot) : list pt_selection := flat_map pc_selections (pb_contests b).
Definition votes_of (oid : string) (l : list pt_selection) : Z := sumZ (map (fun s => if String.eqb (ps_id s) oid then ps_vote s else 0) l).
Lemma sum_app a b : sumZ (a ++ b) = sumZ a + sumZ b.
Proof. induction a as [|x a IH]; [reflexivity|]. unfold sumZ in *. cbn [app fold_right]. rewrite IH. lia. Qed.
Lemma votes_app oid a b : votes_of oid (a ++ b) = votes_of oid a + votes_of oid b.
Proof. unfold votes_of. rewrite map_app. apply sum_app. Qed.
Lemma entry_counted t s : ps_placeholder s = false -> exists t', count_entry t s = Ok t' /\ forall oid, counted t' oid = counted t oid + if String.eqb (ps_id s) oid then ps_vote s else 0.
Proof.
  intros Hp. unfold count_entry. rewrite Hp. cbv zeta. destruct (dmem (ps_id s) t) eqn:Hm.
  - assert (Hg : exists n, dget (ps_id s) t = Some n). { destruct (dget (ps_id s) t) as [n|] eqn:Hg; [eauto|]. exfalso. apply dmem_spec in Hm. apply dget_none in Hg. contradiction. }
    destruct Hg as [n Hn]. rewrite Hn. cbn [rbind]. eexists. split; [reflexivity|]. intros oid. unfold counted. destruct (String.eqb_spec (ps_id s) oid) as [<-|Ho]; [rewrite dget_dset_same, Hn; reflexivity|].
    rewrite dget_dset_other by congruence. lia.
  - rewrite dget_dset_same. cbn [rbind]. eexists. split; [reflexivity|]. intros oid. unfold counted. destruct (String.eqb_spec (ps_id s) oid) as [<-|Ho].
    + rewrite dget_dset_same. destruct (dget (ps_id s) t) as [n|] eqn:Hg; [|reflexivity]. exfalso. apply dget_in in Hg. assert (HX : dmem (ps_id s) t = true) by (apply dmem_spec; apply (in_map fst) in Hg; exact Hg). congruence.
    + rewrite !dget_dset_other by congruence. lia.
Qed.
Lemma list_counted l : forall t, (forall s, In s l -> ps_placeholder s = false) -> exists t', rfold count_entry l t = Ok t' /\ forall oid, counted t' oid = counted t oid + votes_of oid l.
Proof.
  induction l as [|s l IH]; intros t H; [exists t; split; [reflexivity|intros oid; unfold votes_of; cbn; lia]|]. cbn [rfold]. destruct (entry_counted t s (H s (or_introl eq_refl))) as (t1 & -> & H1). cbn [rbind].
  destruct (IH t1 (fun x Hx => H x (or_intror Hx))) as (t2 & -> & H2). exists t2. split; [reflexivity|]. intros oid. rewrite H2, H1. unfold votes_of, sumZ. cbn [map fold_right]. lia.
Qed.
Lemma contests_counted cs : forall t, (forall s, In s (flat_map pc_selections cs) -> ps_placeholder s = false) ->
  exists t', rfold (fun t c => rfold count_entry (pc_selections c) t) cs t = Ok t' /\ forall oid, counted t' oid = counted t oid + votes_of oid (flat_map pc_selections cs).
Proof.
  induction cs as [|c cs IH]; intros t H; [exists t; split; [reflexivity|intros oid; unfold votes_of; cbn; lia]|]. cbn [rfold flat_map] in *. destruct (list_counted (pc_selections c) t) as (t1 & -> & H1); [intros s Hs; apply H, in_app_iff; auto|]. cbn [rbind].
  destruct (IH t1) as (t2 & -> & H2); [intros s Hs; apply H, in_app_iff; auto|]. exists t2. split; [reflexivity|]. intros oid. rewrite H2, H1, votes_app. lia.
Qed.
Lemma ballots_counted bs : forall t, (forall b s, In b bs -> In s (entries b) -> ps_placeholder s = false) ->
  exists t', rfold (fun t b => rfold (fun t c => rfold count_entry (pc_selections c) t) (pb_contests b) t) bs t = Ok t' /\ forall oid, counted t' oid = counted t oid + sumZ (map (fun b => votes_of oid (entries b)) bs).
Proof.
  induction bs as [|b bs IH]; intros t H; [exists t; split; [reflexivity|intros oid; cbn; lia]|]. cbn [rfold]. destruct (contests_counted (pb_contests b) t) as (t1 & -> & H1); [intros s Hs; apply (H b s (or_introl eq_refl) Hs)|]. cbn [rbind].
  destruct (IH t1) as (t2 & -> & H2); [intros x s Hx; apply H; right; exact Hx|]. exists t2. split; [reflexivity|]. intros oid. rewrite H2, H1. unfold sumZ. cbn [map fold_right]. unfold entries. lia.
Qed.

Lemma votes_none oid l : (forall s, In s l -> ps_id s <> oid) -> votes_of oid l = 0.
Proof.
  induction l as [|s l IH]; intros H; [reflexivity|]. unfold votes_of, sumZ in *. cbn [map fold_right]. rewrite IH by (intros x Hx; apply H; right; exact Hx).
  destruct (String.eqb_spec (ps_id s) oid) as [He|_]; [destruct (H s (or_introl eq_refl) He)|reflexivity].
Qed.
Lemma votes_choice c o : NoDup (map ps_id (pc_selections c)) -> votes_of (sd_id o) (pc_selections c) = voter_choice c o.
Proof.
  unfold voter_choice. induction (pc_selections c) as [|s l IH]; intros H; [reflexivity|]. cbn [map find] in *. inversion H as [|? ? N1 N2]; subst. destruct (String.eqb_spec (ps_id s) (sd_id o)) as [He|He].
  - unfold votes_of. cbn [map]. rewrite He, String.eqb_refl. change (ps_vote s + votes_of (sd_id o) l = ps_vote s). rewrite votes_none; [lia|]. intros x Hx Hxo. apply N1. rewrite He, <- Hxo. apply in_map, Hx.
  - unfold votes_of in *. cbn [map]. apply String.eqb_neq in He. rewrite He. change (0 + sumZ (map (fun s0 => if String.eqb (ps_id s0) (sd_id o) then ps_vote s0 else 0) l) = match find (fun s0 => String.eqb (ps_id s0) (sd_id o)) l with Some s0 => ps_vote s0 | None => 0 end).
    rewrite <- IH by exact N2. lia.
Qed.

Lemma nodup_app_disjoint {A} (a b : list A) : NoDup (a ++ b) -> forall x, In x a -> In x b -> False.
Proof. induction a as [|y a IH]; intros H x Ha Hb; [destruct Ha|]. cbn [app] in H. inversion H as [|? ? N1 N2]; subst. destruct Ha as [->|Ha]; [apply N1, in_app_iff; right; exact Hb|exact (IH N2 x Ha Hb)]. Qed.
Lemma nodup_app_tail {A} (a b : list A) : NoDup (a ++ b) -> NoDup b.
Proof. induction a as [|y a IH]; intros H; [exact H|]. inversion H; auto. Qed.

Section Acc.
  Context (E : env) (m : manifest) (im : internal_manifest) (Hv : manifest_is_valid m = true) (Hm : make_internal E m = Ok im) (Hdist : distinct_option_ids im).
  (** an option belongs to one contest *)
  Lemma option_once d d' o : In d (im_contests im) -> In d' (im_contests im) -> In o (map sd_id (cd_selections (ph_desc d))) -> In o (map sd_id (cd_selections (ph_desc d'))) -> d = d'.
  Proof using Hdist.
    unfold distinct_option_ids in Hdist. induction (im_contests im) as [|x l IH]; intros H1 H2 O1 O2; [destruct H1|]. cbn [flat_map] in Hdist. rewrite map_app in Hdist.
    assert (HX : forall y, In y l -> In o (map sd_id (cd_selections (ph_desc y))) -> In o (map sd_id (cd_selections (ph_desc x))) -> False).
    { intros y Hy Oy Ox. apply (nodup_app_disjoint _ _ Hdist o).
      - rewrite map_app. apply in_app_iff. left. exact Ox.
      - apply in_map_iff in Oy as (s & <- & Hs). apply in_map. apply in_flat_map. exists y. split; [exact Hy|]. apply in_app_iff. left. exact Hs. }
    destruct H1 as [<-|H1], H2 as [<-|H2]; [reflexivity|exfalso; eapply HX; eassumption|exfalso; eapply HX; eassumption|].
    apply IH; [|assumption..]. apply nodup_app_tail in Hdist. exact Hdist.
  Qed.
  Lemma allowed_entry b ds d : allowed_ballot im b -> get_contests_for im (pb_style b) = Ok ds -> In d ds -> In (voter_contest b d) (pb_contests b) /\ filled_in d (voter_contest b d) /\ SpecElection.marked (voter_contest b d) <= cd_number_elected (ph_desc d).
  Proof using Hv Hm.
    intros (ds' & Hd & HF) Hds Hin. assert (ds' = ds) by congruence. subst ds'. destruct (style_contests E m im Hv Hm _ _ Hds) as [_ Hn].
    destruct (find_entry ds (pb_contests b) _ (fun d c H => proj1 (proj1 H)) Hn HF d Hin) as (c & Hc & H). unfold voter_contest. rewrite Hc. split; [apply (find_some _ _ Hc)|exact H].
  Qed.
  Lemma choice_01 d c o : filled_in d c -> voter_choice c o = 0 \/ voter_choice c o = 1.
  Proof using. intros (_ & _ & F3). unfold voter_choice. destruct (find _ _) as [s|] eqn:Hf; [|auto]. apply find_some in Hf as [Hs _]. apply F3 in Hs. tauto. Qed.
  Lemma given_marked d c : filled_in d c -> votes_given c = SpecElection.marked c.
  Proof using.
    intros (_ & _ & F3). unfold votes_given, SpecElection.marked. assert (HZ : forall s, In s (pc_selections c) -> ps_vote s = 0 \/ ps_vote s = 1) by (intros s Hs; apply F3, Hs). clear -HZ. induction (pc_selections c) as [|s l IH]; [reflexivity|].
    cbn [map filter]. specialize (IH (fun x Hx => HZ x (or_intror Hx))). unfold sumZ in *. cbn [fold_right]. destruct (HZ s (or_introl eq_refl)) as [->| ->]; cbn [Z.ltb Z.compare]; rewrite ?len_cons; lia.
  Qed.
  (** the entries of a ballot for an option are the vote for it *)
  Lemma ballot_votes b cid oid : allowed_ballot im b -> in_manifest m cid oid -> votes_of oid (entries b) = vote_for im b cid oid /\ (vote_for im b cid oid = 0 \/ vote_for im b cid oid = 1).
  Proof using Hv Hm Hdist.
    intros HB (d0 & o0 & Hd0 & Hc0 & Ho0 & Hi0). pose proof HB as HB2. destruct HB as (ds & Hds & HF).
    destruct (style_contests E m im Hv Hm _ _ Hds) as [Hi Hn].
    assert (Hd1 : exists dd, In dd (im_contests im) /\ cd_id (ph_desc dd) = cid /\ cd_selections (ph_desc dd) = cd_selections d0).
    { apply make_internal_spec in Hm as HS. destruct HS as (_ & _ & _ & HFi). destruct (Forall2_in_l _ _ _ _ HFi Hd0) as (dd & Hdd & _ & He). exists dd. split; [exact Hdd|]. rewrite He. cbn. split; [exact Hc0|reflexivity]. }
    destruct Hd1 as (dd & Hdd & Hcd & Hsel).
    assert (Hother : forall d c, In d (im_contests im) -> d <> dd -> filled_in d c -> votes_of oid (pc_selections c) = 0).
    { intros d c Hd Hne (_ & _ & F3). apply votes_none. intros s Hs Hso. apply Hne. apply (option_once d dd oid Hd Hdd); [rewrite <- Hso; apply F3, Hs|rewrite Hsel, <- Hi0; apply in_map, Ho0]. }
    unfold vote_for, find_option. rewrite Hds. destruct (find (fun d => String.eqb (cd_id (ph_desc d)) cid) ds) as [d|] eqn:Hfd.
    - apply find_some in Hfd as [Hd He]. apply String.eqb_eq in He. assert (d = dd) by (apply (same_contest E m im Hv Hm); [apply Hi, Hd|exact Hdd|congruence]). subst d.
      destruct (find (fun o => String.eqb (sd_id o) oid) (cd_selections (ph_desc dd))) as [o|] eqn:Hfo.
      2:{ exfalso. rewrite <- Hsel in Ho0. apply (find_none _ _ Hfo o0) in Ho0 as HX. cbn in HX. rewrite Hi0, String.eqb_refl in HX. discriminate. }
      apply find_some in Hfo as [Ho Heo]. apply String.eqb_eq in Heo. cbn [option_map].
      destruct (allowed_entry b ds dd HB2 Hds Hd) as (_ & F & Fm). destruct (internal_good E m im Hv Hm dd Hdd) as [HG _].
      assert (Hov : overvoted (voter_contest b dd) dd = false).
      { unfold overvoted. destruct (Z.ltb_spec (cd_number_elected (ph_desc dd)) (SpecElection.marked (voter_contest b dd))); [lia|]. cbn [orb]. destruct (Z.eqb_spec (SpecElection.marked (voter_contest b dd)) (cd_number_elected (ph_desc dd))) as [Hx|]; [|reflexivity]. cbn [andb].
        destruct (cd_votes_allowed (ph_desc dd)) as [va|] eqn:Hva; [|reflexivity]. apply Z.ltb_ge. rewrite (given_marked dd _ F), Hx. apply (gc_votes _ HG va Hva). }
      unfold recorded_vote. rewrite Hov, andb_false_r. split; [|apply (choice_01 dd _ o F)]. rewrite <- (votes_choice (voter_contest b dd) o) by apply F. rewrite Heo.
      assert (Hvc : voter_contest b dd = match find (fun c => String.eqb (pc_id c) (cd_id (ph_desc dd))) (pb_contests b) with Some c => c | None => voter_contest b dd end).
      { unfold voter_contest. destruct (find _ _); reflexivity. }
      destruct (find_entry ds (pb_contests b) _ (fun d c H => proj1 (proj1 H)) Hn HF dd Hd) as (c & Hc & _). rewrite Hc in Hvc. rewrite Hvc. clear Hvc F Fm Hov HB2. unfold entries.
      clear Hds. revert Hi Hn Hd Hc. induction HF as [|d1 c1 ds cs [H1 _] HF IH]; intros Hi Hn Hd Hc; [destruct Hd|]. cbn [flat_map find map] in *. apply NoDup_cons_iff in Hn as [N1 N2]. rewrite votes_app.
      rewrite (proj1 H1) in Hc. destruct (String.eqb_spec (cd_id (ph_desc d1)) (cd_id (ph_desc dd))) as [Hx|Hx].
      + injection Hc as <-. assert (d1 = dd) by (apply (same_contest E m im Hv Hm); [apply Hi; left; reflexivity|exact Hdd|exact Hx]). subst d1.
        enough (HZ : votes_of oid (flat_map pc_selections cs) = 0) by lia. assert (HI : forall x, In x ds -> In x (im_contests im) /\ x <> dd).
        { intros x Hx'. split; [apply Hi; right; exact Hx'|]. intros ->. apply N1. apply (in_map (fun d => cd_id (ph_desc d))), Hx'. }
        clear -HF HI Hother. induction HF as [|d2 c2 ds cs [H2 _] HF IH]; [reflexivity|]. cbn [flat_map]. rewrite votes_app, IH by (intros x Hx; apply HI; right; exact Hx). destruct (HI d2 (or_introl eq_refl)) as [A B]. rewrite (Hother d2 c2 A B H2). reflexivity.
      + destruct Hd as [->|Hd]; [congruence|]. rewrite (Hother d1 c1); [|apply Hi; left; reflexivity|congruence|exact H1]. rewrite IH; [lia|intros x Hx'; apply Hi; right; exact Hx'|exact N2|exact Hd|exact Hc].
    - split; [|left; reflexivity]. assert (HI : forall x, In x ds -> In x (im_contests im) /\ x <> dd).
      { intros x Hx. split; [apply Hi, Hx|]. intros ->. apply (find_none _ _ Hfd) in Hx. cbn in Hx. rewrite Hcd, String.eqb_refl in Hx. discriminate. }
      unfold entries. clear -HF HI Hother. induction HF as [|d2 c2 ds cs [H2 _] HF IH]; [reflexivity|]. cbn [flat_map]. rewrite votes_app, IH by (intros x Hx; apply HI; right; exact Hx). destruct (HI d2 (or_introl eq_refl)) as [A B]. rewrite (Hother d2 c2 A B H2). reflexivity.
  Qed.
  Lemma allowed_placeholders b s : allowed_ballot im b -> In s (entries b) -> ps_placeholder s = false.
  Proof using.
    intros (ds & _ & HF) Hs. unfold entries in Hs. apply in_flat_map in Hs as (c & Hc & Hs). destruct (Forall2_in_r _ _ _ _ HF Hc) as (d & _ & (_ & _ & F3) & _). apply F3, Hs.
  Qed.
  Lemma accumulated bs : (forall b, In b bs -> allowed_ballot im b) -> exists d, accumulate bs = Ok d /\ forall cid oid, in_manifest m cid oid -> counted d oid = marked im bs cid oid.
  Proof using Hv Hm Hdist.
    intros HB. destruct (ballots_counted bs []) as (d & Hd & HC); [intros b s Hb Hs; apply (allowed_placeholders b s (HB b Hb) Hs)|]. exists d. split; [exact Hd|]. intros cid oid Hi. rewrite HC. unfold counted. cbn [dget]. unfold SpecCli.marked. rewrite Z.add_0_l.
    clear -HB Hi Hv Hm Hdist. induction bs as [|b bs IH]; [reflexivity|]. specialize (IH (fun x Hx => HB x (or_intror Hx))). unfold sumZ in *. cbn [map fold_right filter]. destruct (ballot_votes b cid oid (HB b (or_introl eq_refl)) Hi) as [-> [->| ->]]; cbn [Z.eqb Pos.eqb]; rewrite ?len_cons; lia.
  Qed.
End Acc.

(** ** placeholders are refused *)
Lemma rfold_placeholder {A} (f : dict string Z -> A -> res (dict string Z)) (bad : A -> bool) : (forall t x, if bad x then f t x = Err AssertionError else exists t', f t x = Ok t') ->
  forall l t, if existsb bad l then rfold f l t = Err AssertionError else exists t', rfold f l t = Ok t'.
Proof.
  intros Hf. induction l as [|x l IH]; intros t; [exists t; reflexivity|]. cbn [existsb rfold]. specialize (Hf t x). destruct (bad x); cbn [orb]; [rewrite Hf; reflexivity|]. destruct Hf as [t' ->]. cbn [rbind]. apply IH.
Qed.
Lemma placeholders_refused bs : if existsb (fun b => existsb (fun c => existsb ps_placeholder (pc_selections c)) (pb_contests b)) bs then accumulate bs = Err AssertionError else exists d, accumulate bs = Ok d.
Proof.
  unfold accumulate. apply rfold_placeholder. intros t b. apply rfold_placeholder. clear t. intros t c. apply rfold_placeholder. clear t. intros t s. destruct (ps_placeholder s) eqn:Hp; [unfold count_entry; rewrite Hp; reflexivity|]. destruct (entry_counted t s Hp) as (t' & H & _). eauto.
Qed.
Lemma refused_iff bs : accumulate bs = Err AssertionError <-> exists b c s, In b bs /\ In c (pb_contests b) /\ In s (pc_selections c) /\ ps_placeholder s = true.
Proof.
  pose proof (placeholders_refused bs) as H. split.
  - intros He. destruct (existsb _ bs) eqn:Hb; [|destruct H as [d H]; congruence]. apply existsb_exists in Hb as (b & B1 & B2). apply existsb_exists in B2 as (c & C1 & C2). apply existsb_exists in C2 as (s & S1 & S2). eauto 10.
  - intros (b & c & s & B & C & S & P). destruct (existsb _ bs) eqn:Hb; [exact H|]. exfalso. rewrite <- not_true_iff_false in Hb. apply Hb. apply existsb_exists. exists b. split; [exact B|]. apply existsb_exists. exists c. split; [exact C|]. apply existsb_exists. exists s. auto.
Qed.
Lemma only_refused bs e : accumulate bs = Err e -> e = AssertionError.
Proof. intros He. pose proof (placeholders_refused bs) as H. destruct (existsb _ bs); [congruence|]. destruct H as [d H]. congruence. Qed.
