(** * HonestFacts: ballots made by encrypt_ballot, in the ballot box and in the tally. *)
From Verif Require Import Base Group Codec Hash DLog ElGamal ZK Manifest Ballot Encrypt Box Tally Spec SpecElection SpecTally
  ListFacts GroupFacts CryptoThms EncryptFacts BallotFacts EncryptThms TallyFacts TallyThms TallyMore BoxFacts.
From Coq Require Import Permutation List.

Lemma encrypted_well_made E (HE : valid_env E) b im cx eseed nonce verify rand now eb : in_subgroup E (cx_key cx) ->
  encrypt_ballot E b im cx eseed nonce verify rand now = Ok (Some eb) ->
  exists ds, get_contests_for im (pb_style b) = Ok ds /\ cb_id eb = pb_id b /\ cb_style eb = pb_style b /\
    let K := cx_key cx in let Q := cx_ext_hash cx in let seed := seed_of E b im nonce rand in
    well_made E b ds K Q seed (cb_contests eb) /\
    forall st, well_made E b ds K Q seed (cb_contests (sb_ballot (submit_ballot E eb st))).
Proof.
  intros HK Henc. destruct (encrypt_ballot_form _ _ _ _ _ _ _ _ _ _ Henc) as (ds & ecs & Hds & HF & Heb).
  exists ds. split; [exact Hds|]. subst eb. split; [reflexivity|]. split; [reflexivity|].
  cbv zeta. cbn [make_ct_ballot cb_contests submit_ballot make_submitted sb_ballot].
  assert (Hw : well_made E b ds (cx_key cx) (cx_ext_hash cx) (seed_of E b im nonce rand) ecs).
  { eapply Forall2_impl'; [|exact HF]. intros d ec _ _ He.
    destruct (encrypt_contest_spec E HE _ _ _ _ _ _ _ HK He) as (re & ex & vs & Hce).
    exists ec, re, ex, vs. split; [exact Hce|left; reflexivity]. }
  split; [exact Hw|]. intros st. apply Forall2_map_r. eapply Forall2_impl'; [|exact Hw].
  intros d ec _ _ (e & re & ex & vs & Hce & Hc). exists e, re, ex, vs. split; [exact Hce|]. right.
  destruct Hc as [-> | ->]; [reflexivity|]. unfold strip_contest; cbn. f_equal. rewrite map_map. reflexivity.
Qed.

Section WellMade.
  Context (E : env) (HE : valid_env E) (b : pt_ballot) (ds : list contest_ph) (K Q seed : Z) (cs : list ct_contest).
  Context (Hw : well_made E b ds K Q seed cs).
  (** one contest, in terms of the specification *)
  Definition votes_as (d : contest_ph) (c : ct_contest) : Prop :=
    bc_id c = cd_id (ph_desc d) /\ bc_selections c <> [] /\
    map cs_id (bc_selections c) = map sd_id (cd_selections (ph_desc d) ++ ph_placeholders d) /\
    NoDup (map sd_id (cd_selections (ph_desc d))) /\
    forall o, In o (cd_selections (ph_desc d)) -> exists s r,
      find (fun s => String.eqb (sd_id o) (cs_id s)) (bc_selections c) = Some s /\ cs_placeholder s = false /\
      0 < r < qq E /\ (recorded_vote (voter_contest b d) d o = 0 \/ recorded_vote (voter_contest b d) d o = 1) /\
      is_encryption E K r (recorded_vote (voter_contest b d) d o) (ct_pad (cs_ct s)) (ct_data (cs_ct s)).
  Lemma F2_find_first (P : selection_desc -> ct_selection -> Prop) os ss o : Forall2 P os ss ->
    (forall o s, P o s -> cs_id s = sd_id o) -> NoDup (map sd_id os) -> In o os ->
    forall rest, exists s, find_first (fun s => eqb (sd_id o) (cs_id s)) (ss ++ rest) = Some s /\ P o s.
  Proof.
    intros HF Hid Hn Ho rest. clear Hw. induction HF as [|o' s os ss Hs HF IH]; [destruct Ho|]. cbn [app find_first].
    rewrite (Hid _ _ Hs). cbn [map] in Hn. inversion Hn as [|? ? Hni Hn']; subst. eqb_cases (sd_id o) (sd_id o').
    - exists s. split; [reflexivity|]. destruct Ho as [->|Ho]; [exact Hs|]. exfalso. apply Hni. rewrite <- Heq. apply in_map, Ho.
    - apply IH; [exact Hn'|]. destruct Ho as [->|Ho]; [congruence|exact Ho].
  Qed.
  Lemma contest_votes_as d c : (exists ec re ex vs, contest_encrypted E (voter_contest b d) d K Q seed ec re ex vs /\
      (c = ec \/ c = strip_contest ec)) -> votes_as d c.
  Proof.
    intros (ec & re & ex & vs & Hce & Hc).
    assert (Hids : map cs_id (bc_selections ec) = map sd_id (cd_selections (ph_desc d) ++ ph_placeholders d)).
    { rewrite (ce_split _ _ _ _ _ _ _ _ _ _ Hce), !map_app. f_equal.
      - symmetry. apply Forall2_map_eq. eapply Forall2_impl'; [|exact (ce_real _ _ _ _ _ _ _ _ _ _ Hce)].
        intros o e _ _ (_ & _ & (Hi & _) & _). symmetry. exact Hi.
      - pose proof (ce_extra _ _ _ _ _ _ _ _ _ _ Hce) as HX. rewrite (ce_vs _ _ _ _ _ _ _ _ _ _ Hce) in HX.
        set (n := cd_number_elected _ - _) in HX. clearbody n. clear - HX.
        revert n ex HX. induction (ph_placeholders d) as [|o os IH]; intros n ex HX; cbn [fill combine] in HX; inversion HX; subst; cbn [map]; [reflexivity|].
        f_equal; [|eapply IH; eassumption]. match goal with H : enc_as _ _ _ _ _ _ _ _ |- _ => destruct H as (_ & _ & (Hi & _) & _); exact Hi end. }
    assert (Hnd : NoDup (map sd_id (cd_selections (ph_desc d)))).
    { apply gc_ids. apply (ce_matches _ _ _ _ _ _ _ _ _ _ Hce). }
    assert (Hv : votes_as d ec).
    { split; [exact (ce_id _ _ _ _ _ _ _ _ _ _ Hce)|]. split; [exact (ce_nonempty _ _ _ _ _ _ _ _ _ _ Hce)|]. split; [exact Hids|].
      split; [exact Hnd|]. intros o Ho.
      destruct (F2_find_first _ _ _ o (ce_real _ _ _ _ _ _ _ _ _ _ Hce)) with (rest := ex) as (s & Hs1 & H01 & _ & (Hi & _ & _ & Hp & r & _ & Hr & Henc) & _).
      - intros o' s (_ & _ & (Hi & _) & _). exact Hi.
      - exact Hnd.
      - exact Ho.
      - exists s, r. rewrite (ce_split _ _ _ _ _ _ _ _ _ _ Hce), find_find_first. cbv [eqb EqB_string] in Hs1. auto. }
    destruct Hc as [-> | ->]; [exact Hv|]. destruct Hv as (V1 & V2 & V3 & V4 & V5).
    unfold votes_as. cbn [strip_contest bc_id bc_selections]. split; [exact V1|].
    split; [destruct (bc_selections ec); [congruence|discriminate]|]. rewrite map_map.
    split; [etransitivity; [|exact V3]; apply map_ext; intros; reflexivity|]. split; [exact V4|].
    intros o Ho. destruct (V5 o Ho) as (s & r & S1 & S2). exists (strip_selection s), r.
    rewrite find_find_first in S1 |- *. rewrite find_first_map. cbn [strip_selection cs_id]. rewrite S1. cbn [option_map]. auto.
  Qed.
  Lemma made_votes : Forall2 votes_as ds cs.
  Proof. eapply Forall2_impl'; [|exact Hw]. intros d c _ _. apply contest_votes_as. Qed.
End WellMade.

(** from here on the ballot's contests are only known through [votes_as] *)
Section Made.
  Context (E : env) (HE : valid_env E) (im : internal_manifest) (b : pt_ballot) (ds : list contest_ph) (K : Z) (eb : ct_ballot).
  Context (Hn : NoDup (contest_ids im)) (Hds : get_contests_for im (pb_style b) = Ok ds) (HV : Forall2 (votes_as E b K) ds (cb_contests eb)).

  Lemma made_complete : complete im eb.
  Proof.
    intros c Hc. destruct (Forall2_in_r _ _ _ _ HV Hc) as [d [Hd (V1 & V2 & V3 & V4 & V5)]].
    exists d. split; [apply (get_contests_sub _ _ _ Hds), Hd|]. split; [symmetry; exact V1|]. split; [exact V2|].
    intros o Ho. destruct (V5 o Ho) as (s & r & S1 & S2 & _). apply find_some in S1 as [S0 S1]. apply String.eqb_eq in S1. eauto.
  Qed.
  Lemma made_ids : map bc_id (cb_contests eb) = map (fun d => cd_id (ph_desc d)) ds.
  Proof. symmetry. apply Forall2_map_eq. eapply Forall2_impl'; [|exact HV]. intros d c _ _ (V1 & _). symmetry. exact V1. Qed.
  Lemma made_nodup : NoDup (map bc_id (cb_contests eb)).
  Proof. rewrite made_ids. apply (get_contests_sub _ _ _ Hds), Hn. Qed.
  Lemma made_selection_ids : map cs_id (flat_map bc_selections (cb_contests eb)) =
    map sd_id (flat_map (fun d => cd_selections (ph_desc d) ++ ph_placeholders d) ds).
  Proof.
    revert HV. generalize (cb_contests eb). clear. intros cs HV. induction HV as [|d c ds cs Hdc HV' IH]; [reflexivity|]. destruct Hdc as (_ & _ & V3 & _). cbn [flat_map].
    rewrite map_app, (map_app sd_id (cd_selections (ph_desc d) ++ ph_placeholders d)), (IH HV'), <- V3. reflexivity.
  Qed.
  Lemma NoDup_flat_filter {A B} (f : A -> list B) p l : NoDup (flat_map f l) -> NoDup (flat_map f (filter p l)).
  Proof.
    induction l as [|x l IH]; cbn [flat_map filter]; intros H; [constructor|].
    assert (H2 := NoDup_app_r _ _ H). destruct (p x); [|apply IH, H2]. cbn [flat_map].
    revert H. induction (f x) as [|y ys IHy]; cbn [app]; intros H; [apply IH, H2|]. inversion H as [|? ? Hni Hnd]; subst.
    constructor; [|apply IHy, Hnd]. intros Hin. apply Hni. apply in_app_or in Hin as [Hin|Hin]; apply in_or_app; [left; exact Hin|right].
    apply in_flat_map in Hin as [z [Hz Hy]]. apply filter_In in Hz as [Hz _]. apply in_flat_map. eauto.
  Qed.
  Lemma NoDup_flat_same {A B} (f : A -> list B) l x y v : NoDup (flat_map f l) -> In x l -> In y l -> In v (f x) -> In v (f y) -> x = y.
  Proof.
    induction l as [|z l IH]; cbn [flat_map]; intros H Hx Hy Hvx Hvy; [destruct Hx|].
    assert (H2 := NoDup_app_r _ _ H).
    assert (Hno : forall w, In w l -> In v (f w) -> In v (f z) -> False).
    { intros w Hw Hvw Hvz. revert H Hvz. induction (f z) as [|u us IHu]; cbn [app]; intros H []; inversion H as [|? ? Hni Hnd]; subst.
      - apply Hni. apply in_or_app. right. apply in_flat_map. eauto.
      - auto. }
    destruct Hx as [->|Hx], Hy as [->|Hy]; [reflexivity| | |apply IH; assumption]; exfalso; eauto.
  Qed.
  Lemma map_flat {A B C} (g : B -> C) (f : A -> list B) l : map g (flat_map f l) = flat_map (fun x => map g (f x)) l.
  Proof. induction l as [|x l IH]; cbn; [reflexivity|]. rewrite map_app, IH. reflexivity. Qed.
  Lemma made_own_ids : distinct_option_ids im -> own_ids im eb.
  Proof.
    unfold distinct_option_ids. rewrite map_flat. intros Hd. split.
    - rewrite made_selection_ids, map_flat. unfold get_contests_for in Hds.
      destruct (get_ballot_style im (pb_style b)) as [s|]; cbn [rbind] in Hds; [|discriminate].
      destruct (bs_gp_unit_ids s); injection Hds as <-; [apply NoDup_flat_filter, Hd|constructor].
    - intros c s d o Hc Hs Hdi Ho Hid. destruct (Forall2_in_r _ _ _ _ HV Hc) as [d' [Hd' (V1 & V2 & V3 & V4 & V5)]].
      rewrite V1. f_equal. f_equal. apply (NoDup_flat_same _ _ d' d (cs_id s) Hd); [apply (get_contests_sub _ _ _ Hds), Hd'|exact Hdi| |]; cbv beta.
      + rewrite <- V3. apply in_map, Hs.
      + rewrite Hid. apply in_map, in_or_app. left. exact Ho.
  Qed.
  (** what the ballot contributes to an option *)
  Lemma made_votes_for d o : In d (im_contests im) -> In o (cd_selections (ph_desc d)) ->
    (~ In d ds /\ votes_for eb (cd_id (ph_desc d)) (sd_id o) = []) \/
    (In d ds /\ exists c r, votes_for eb (cd_id (ph_desc d)) (sd_id o) = [c] /\ 0 < r < qq E /\
       (recorded_vote (voter_contest b d) d o = 0 \/ recorded_vote (voter_contest b d) d o = 1) /\
       is_encryption E K r (recorded_vote (voter_contest b d) d o) (ct_pad c) (ct_data c)).
  Proof.
    intros Hd Ho. destruct (get_contests_sub _ _ _ Hds) as [Hsub Hnd]. specialize (Hnd Hn).
    assert (Hsame : forall d', In d' ds -> cd_id (ph_desc d') = cd_id (ph_desc d) -> d' = d).
    { intros d' Hd' Hid. unfold contest_ids in Hn. clear - Hn Hd Hid Hsub Hd'. specialize (Hsub d' Hd').
      induction (im_contests im) as [|x l IH]; [destruct Hd|]. cbn in Hn. inversion Hn as [|? ? Hni Hn']; subst.
      destruct Hd as [->|Hd], Hsub as [->|Hsub]; auto; exfalso; apply Hni; [rewrite <- Hid|rewrite Hid];
        apply (in_map (fun d => cd_id (ph_desc d))); assumption. }
    clear Hsub Hds Hd. unfold votes_for. revert Hnd Hsame HV. generalize (cb_contests eb). clear - Ho. intros cs Hnd Hsame HV. revert Hnd Hsame. induction HV as [|d' c ds' cs' (V1 & V2 & V3 & V4 & V5) HV' IH]; intros Hnd Hsame.
    - left. split; [intros []|reflexivity].
    - cbn [flat_map map] in *. inversion Hnd as [|? ? Hni Hnd']; subst.
      assert (IH' := IH HV' Hnd' (fun d'' H => Hsame d'' (or_intror H))). clear IH.
      destruct (String.eqb_spec (bc_id c) (cd_id (ph_desc d))) as [Hc|Hc].
      + assert (d' = d) by (apply Hsame; [left; reflexivity|congruence]). subst d'. right. split; [left; reflexivity|].
        assert (Hdn : ~ In d ds').
        { intros H. apply Hni. apply (in_map (fun d => cd_id (ph_desc d))), H. }
        destruct IH' as [[_ ->]|[H _]]; [|contradiction]. rewrite app_nil_r.
        destruct (V5 o Ho) as (s & r & -> & _ & Hr & H01 & Henc). exists (cs_ct s), r. auto.
      + cbn [app]. destruct IH' as [[H1 H2]|[H1 H2]].
        * left. split; [|exact H2]. intros [->|H]; [congruence|contradiction].
        * right. split; [right; exact H1|exact H2].
  Qed.
End Made.

(** ** C24: the box and the tally accept an honestly encrypted ballot *)
Section Accept.
  Context (E : env) (m : manifest) (im : internal_manifest) (cx : context) (b : pt_ballot).
  Context (eseed : Z) (nonce : option Z) (verify : bool) (rand now : Z) (eb : ct_ballot) (ds : list contest_ph).
  Context (HE : valid_env E) (Hv : manifest_is_valid m = true) (Hm : make_internal E m = Ok im) (HK : in_subgroup E (cx_key cx)).
  Context (Hds : get_contests_for im (pb_style b) = Ok ds) (Hne : ds <> []) (Hord : in_order ds).
  Context (Hfit : forall d, In d ds -> limit_fits E (cd_number_elected (ph_desc d))).
  Context (Henc : encrypt_ballot E b im cx eseed nonce verify rand now = Ok (Some eb)).
  Lemma accept_box x st : bx_manifest x = im -> bx_context x = cx -> ds_get (bx_store x) (cb_id eb) = None ->
    box_submit E x eb st = (mkBox im cx (ds_set (bx_store x) (cb_id eb) (submit_ballot E eb st)), Ok (Some (submit_ballot E eb st))).
  Proof.
    intros Hx1 Hx2 Hf. destruct (encrypted_ballot_valid E m im cx b eseed nonce verify rand now eb ds) as (_ & H & _); try assumption.
    unfold box_submit, submit_to_box. rewrite Hx1, Hx2, H, Hf. change (sb_id (submit_ballot E eb st)) with (cb_id eb).
    unfold ds_get, ds_set. rewrite dget_dset_same. reflexivity.
  Qed.
  Lemma accept_valid st v : passes E im cx (submit_ballot E eb st) v = true.
  Proof.
    destruct (encrypted_ballot_valid E m im cx b eseed nonce verify rand now eb ds) as (_ & _ & H); try assumption.
    destruct (H st 0 _ eq_refl) as [H1 H2]. unfold passes. fold (submit_ballot E eb st) in H1, H2.
    destruct v; [rewrite H2; reflexivity|]. unfold ballot_valid_for_election in *.
    destruct (ballot_valid_for_style E (sb_ballot (submit_ballot E eb st)) im) as [[|]|]; cbn in *; try discriminate. reflexivity.
  Qed.
  Lemma accept_complete st : complete im (sb_ballot (submit_ballot E eb st)).
  Proof.
    destruct (encrypted_well_made E HE _ _ _ _ _ _ _ _ _ HK Henc) as (ds' & H1 & _ & _ & _ & H2).
    rewrite Hds in H1. injection H1 as <-. eapply (made_complete E im b ds); [exact Hds|eapply made_votes; apply H2].
  Qed.
  Lemma accept_own st : distinct_option_ids im -> own_ids im (sb_ballot (submit_ballot E eb st)).
  Proof.
    destruct (encrypted_well_made E HE _ _ _ _ _ _ _ _ _ HK Henc) as (ds' & H1 & _ & _ & _ & H2).
    rewrite Hds in H1. injection H1 as <-. intros Hd. eapply (made_own_ids E im b ds); [exact Hds|eapply made_votes; apply H2|exact Hd].
  Qed.
  Lemma accept_votes st d o : In d (im_contests im) -> In o (cd_selections (ph_desc d)) ->
    (~ In d ds /\ votes_for (sb_ballot (submit_ballot E eb st)) (cd_id (ph_desc d)) (sd_id o) = []) \/
    (In d ds /\ exists c r, votes_for (sb_ballot (submit_ballot E eb st)) (cd_id (ph_desc d)) (sd_id o) = [c] /\ 0 < r < qq E /\
       (recorded_vote (voter_contest b d) d o = 0 \/ recorded_vote (voter_contest b d) d o = 1) /\
       is_encryption E (cx_key cx) r (recorded_vote (voter_contest b d) d o) (ct_pad c) (ct_data c)).
  Proof.
    destruct (encrypted_well_made E HE _ _ _ _ _ _ _ _ _ HK Henc) as (ds' & H1 & _ & _ & _ & H2).
    rewrite Hds in H1. injection H1 as <-. apply made_votes_for; [apply (internal_ids E m); assumption|exact Hds|]. eapply made_votes; apply H2.
  Qed.
  Lemma accept_tally id h st v : Forall (fun '(b, _) => complete im (sb_ballot b)) h -> st <> UNKNOWN ->
    let t := fst (run_appends E all_up (new_tally E id im cx) h) in
    ~ In (cb_id eb) (ty_cast t) -> ~ In (cb_id eb) (ty_spoiled t) ->
    snd (append E all_up t (submit_ballot E eb st) v) = Ok true.
  Proof.
    intros HF Hst t Hc Hs.
    assert (Hn : NoDup (contest_ids im)) by (apply (internal_ids E m); assumption).
    destruct (run_appends_form E im cx Hn id h HF) as [H1 _]. unfold t in *. clear t.
    rewrite H1 in Hc, Hs |- *. clear H1. cbn [state_of ty_cast ty_spoiled] in Hc, Hs.
    unfold append, tally_contains. change (sb_id (submit_ballot E eb st)) with (cb_id eb).
    change (sb_state (submit_ballot E eb st)) with st. cbn [state_of ty_cast ty_spoiled ty_manifest ty_context].
    apply inb_false in Hs. rewrite Hs. pose proof Hc as Hc'. apply inb_false in Hc'. rewrite Hc'. cbn [orb].
    pose proof (accept_valid st v) as Hp. unfold passes in Hp.
    destruct st; [| |congruence]; cbn [box_state_eqb]; destruct (ballot_valid_for_election _ _ im cx v) as [[|]|]; try discriminate Hp; [|reflexivity].
    rewrite add_cast_ok; [reflexivity|exact Hn|apply accept_complete|exact Hc].
  Qed.
End Accept.
