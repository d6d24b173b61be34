(** * BallotFacts: lemmas about encrypt_ballot, the ballot validators and the confirmation codes *)
From Verif Require Import Base Group Codec Hash DLog ElGamal ZK Manifest Ballot Encrypt Spec SpecElection
  GroupFacts HashFacts ListFacts ElGamalFacts ZKFacts CodecFacts PolyFacts CryptoThms ManifestThms EncryptFacts.
From Coq Require Import Permutation Sorted.
From Coq Require Import List.

(** ** encrypting a whole ballot *)
Lemma voter_contest_eq b d :
  match find_first (fun c => eqb (pc_id c) (cd_id (ph_desc d))) (pb_contests b) with
  | Some c => c | None => contest_from (ph_desc d) end = voter_contest b d.
Proof. unfold voter_contest. rewrite find_find_first. reflexivity. Qed.

Lemma encrypt_contests_iff E b K Q seed verify ds : forall ecs,
  encrypt_contests E ds (pb_contests b) K Q seed verify = Ok (Some ecs) <->
  Forall2 (fun d ec => encrypt_contest E (voter_contest b d) d K Q seed verify = Ok (Some ec)) ds ecs.
Proof.
  induction ds as [|d ds IH]; intros ecs; cbn [encrypt_contests].
  - split; [intros H; injection H as <-; constructor|intros H; inversion H; reflexivity].
  - rewrite voter_contest_eq. split.
    + destruct (encrypt_contest E _ d K Q seed verify) as [[ec|]|] eqn:He; cbn [rbind]; try discriminate.
      destruct (encrypt_contests E ds _ K Q seed verify) as [[rest|]|] eqn:Hr; cbn [rbind]; try discriminate.
      intros H. injection H as <-. constructor; [assumption|]. apply IH. reflexivity.
    + intros H. inversion H as [|? ec ? rest He Hr]; subst. rewrite He. cbn [rbind].
      apply IH in Hr. rewrite Hr. reflexivity.
Qed.

Definition seed_of (E : env) (b : pt_ballot) (im : internal_manifest) (nonce : option Z) (rand : Z) : Z :=
  ballot_nonce_seed E (im_hash im) (pb_id b) (match nonce with Some n => n | None => rand end).

Lemma encrypt_ballot_form E b im cx eseed nonce verify rand now eb :
  encrypt_ballot E b im cx eseed nonce verify rand now = Ok (Some eb) ->
  exists ds ecs, get_contests_for im (pb_style b) = Ok ds /\
    Forall2 (fun d ec => encrypt_contest E (voter_contest b d) d (cx_key cx) (cx_ext_hash cx)
               (seed_of E b im nonce rand) verify = Ok (Some ec)) ds ecs /\
    eb = make_ct_ballot E (pb_id b) (pb_style b) (im_hash im) (Some eseed) ecs
           (Some (match nonce with Some n => n | None => rand end)) None None now.
Proof.
  unfold encrypt_ballot. destruct (get_ballot_style im (pb_style b)) as [st|] eqn:Hst; cbn [rbind]; [|discriminate].
  destruct (pt_ballot_is_valid b (bs_id st)); cbn [negb]; [|discriminate].
  destruct (get_contests_for im (pb_style b)) as [ds|] eqn:Hds; cbn [rbind]; [|discriminate].
  fold (seed_of E b im nonce rand).
  destruct (encrypt_contests E ds _ _ _ _ verify) as [[ecs|]|] eqn:He; cbn [rbind]; try discriminate.
  apply encrypt_contests_iff in He. intros Heq. exists ds, ecs. split; [reflexivity|]. split; [assumption|].
  destruct verify; cbn [negb] in Heq; [|congruence].
  destruct (ballot_is_valid_encryption E _ _ _ _) as [[|]|]; cbn [rbind] in Heq; congruence.
Qed.

Lemma sorted_by_F2 ds ecs : in_order ds ->
  Forall2 (fun (d : contest_ph) (ec : ct_contest) => bc_seq ec = cd_seq (ph_desc d)) ds ecs ->
  sorted_by bc_seq ecs.
Proof.
  intros Hs HF. induction HF as [|d ec ds ecs Hd HF IH]; [constructor|].
  inversion Hs as [|? ? Hs' Hall]; subst. constructor; [apply IH; assumption|].
  apply Forall_forall. intros x Hx. destruct (Forall2_in_r _ _ _ _ HF Hx) as [y [Hy Hxy]].
  rewrite Forall_forall in Hall. pose proof (Hall y Hy). lia.
Qed.

Lemma rmapM_all_true {A} (f : A -> res bool) l : (forall x, In x l -> f x = Ok true) ->
  exists vs, rmapM f l = Ok vs /\ forallb (fun v => v) vs = true.
Proof.
  intros H. exists (map (fun _ => true) l). split.
  - apply rmapM_total. assumption.
  - apply forallb_forall. intros v Hv. apply in_map_iff in Hv as [? [<- _]]. reflexivity.
Qed.

Section BallotEnc.
  Context (E : env) (HE : valid_env E).

  (** [b] is (up to the removal of nonces) an honestly encrypted ballot *)
  Definition well_made (b0 : pt_ballot) (ds : list contest_ph) (K Q seed : Z) (cs : list ct_contest) : Prop :=
    Forall2 (fun d c => exists ec real extra vs,
       contest_encrypted E (voter_contest b0 d) d K Q seed ec real extra vs /\ (c = ec \/ c = strip_contest ec)) ds cs.

  Lemma contest_hash_strip i ss s : contest_crypto_hash E i (map strip_selection ss) s = contest_crypto_hash E i ss s.
  Proof.
    unfold contest_crypto_hash. destruct ss as [|x ss]; [reflexivity|].
    change (map strip_selection (x :: ss)) with (strip_selection x :: map strip_selection ss) at 1. cbv iota.
    rewrite (sort_by_map cs_seq cs_seq strip_selection) by reflexivity. rewrite map_map. reflexivity.
  Qed.
  Lemma contest_valid_strip c s K Q : contest_is_valid_encryption E (strip_contest c) s K Q = contest_is_valid_encryption E c s K Q.
  Proof.
    unfold contest_is_valid_encryption, strip_contest; cbn [bc_id bc_seq bc_desc_hash bc_selections bc_acc bc_hash bc_nonce bc_proof bc_ext].
    rewrite contest_hash_strip. unfold accumulate_selections. rewrite map_map. reflexivity.
  Qed.
  Lemma contest_checks_strip c K Q : contest_checks E (strip_contest c) K Q = contest_checks E c K Q.
  Proof.
    unfold contest_checks. rewrite contest_valid_strip. cbn [strip_contest bc_desc_hash bc_selections].
    destruct (contest_is_valid_encryption E c (bc_desc_hash c) K Q); cbn [rbind]; [|reflexivity].
    f_equal. f_equal. induction (bc_selections c) as [|x l IH]; [reflexivity|]. cbn [map forallb]. rewrite IH. reflexivity.
  Qed.
  Lemma forallb_ext' {A} (f g : A -> bool) l : (forall x, In x l -> f x = g x) -> forallb f l = forallb g l.
  Proof. induction l as [|x l IH]; intros H; cbn; [reflexivity|]. rewrite (H x), IH; auto; [|left; reflexivity]. intros; apply H; right; assumption. Qed.
  Lemma find_first_map {A B} (f : A -> B) (p : B -> bool) l : find_first p (map f l) = option_map f (find_first (fun x => p (f x)) l).
  Proof. induction l as [|x l IH]; cbn; [reflexivity|]. destruct (p (f x)); [reflexivity|assumption]. Qed.

  Lemma style_ok_of c d K Q seed ec real extra vs : contest_encrypted E c d K Q seed ec real extra vs ->
    forall c', c' = ec \/ c' = strip_contest ec ->
    contest_valid_for_style E c' d
    && forallb (fun sd => match find_first (fun s => eqb (sd_id sd) (cs_id s)) (bc_selections c') with
                          | None => false | Some s => selection_valid_for_style E s sd end) (cd_selections (ph_desc d)) = true.
  Proof.
    intros Hce.
    assert (Hmain : contest_valid_for_style E ec d
      && forallb (fun sd => match find_first (fun s => eqb (sd_id sd) (cs_id s)) (bc_selections ec) with
                          | None => false | Some s => selection_valid_for_style E s sd end) (cd_selections (ph_desc d)) = true).
    { unfold contest_valid_for_style. rewrite (ce_desc _ _ _ _ _ _ _ _ _ _ Hce), Z.eqb_refl. cbn [andb].
      pose proof (ce_real _ _ _ _ _ _ _ _ _ _ Hce) as Hr. pose proof (ce_extra _ _ _ _ _ _ _ _ _ _ Hce) as Hx.
      pose proof (ce_vs _ _ _ _ _ _ _ _ _ _ Hce) as Hvs.
      rewrite (ce_split _ _ _ _ _ _ _ _ _ _ Hce).
      apply andb_true_iff. split.
      - rewrite len_app. unfold len. rewrite <- (Forall2_len _ _ _ Hr), <- (Forall2_len _ _ _ Hx), combine_length.
        rewrite Hvs, fill_length, Nat.min_id. apply Z.eqb_refl.
      - apply forallb_forall. intros sd Hsd.
        destruct (ce_matches _ _ _ _ _ _ _ _ _ _ Hce) as (_ & _ & Hg & _).
        apply gc_ids in Hg. clear Hvs Hx Hce.
        generalize extra as ex. intros ex. revert Hsd Hg. induction Hr as [|o e os es Ho Hr IH]; [intros []|].
        intros Hin Hnd. cbn [app find_first]. destruct Ho as (_ & _ & (Hid & _ & Hdh & _) & _).
        rewrite Hid. cbn [map] in Hnd. inversion Hnd as [|? ? Hni Hnd']; subst.
        destruct Hin as [->|Hin].
        + rewrite eqb_refl'. unfold selection_valid_for_style. rewrite Hdh. apply Z.eqb_refl.
        + eqb_cases (sd_id sd) (sd_id o).
          * exfalso. apply Hni. rewrite <- Heq. apply in_map, Hin.
          * apply IH; assumption. }
    intros c' [->| ->]; [exact Hmain|]. rewrite <- Hmain. f_equal.
    - unfold contest_valid_for_style, strip_contest; cbn [bc_desc_hash bc_selections]. rewrite len_map. reflexivity.
    - apply forallb_ext'. intros sd _. cbn [strip_contest bc_selections]. rewrite find_first_map. cbn [strip_selection cs_id].
      destruct (find_first _ (bc_selections ec)); reflexivity.
  Qed.

  Lemma well_made_valid b0 ds K Q seed cs b im : in_subgroup E K -> well_made b0 ds K Q seed cs ->
    (forall d, In d ds -> limit_fits E (cd_number_elected (ph_desc d))) ->
    in_order ds -> ds <> [] -> NoDup (map (fun d => cd_id (ph_desc d)) ds) ->
    get_contests_for im (cb_style b) = Ok ds -> cb_contests b = cs -> cb_manifest_hash b = im_hash im ->
    cb_hash b = create_ballot_hash E (cb_id b) (cb_manifest_hash b) cs ->
    ballot_is_valid_encryption E b (im_hash im) K Q = Ok true /\
    ballot_valid_for_style E b im = Ok true.
  Proof.
    intros HK Hw Hfit Hord Hne Hnd Hds Hcs Hmh Hh.
    assert (Hseq : sorted_by bc_seq cs).
    { apply (sorted_by_F2 ds); [assumption|]. eapply Forall2_impl'; [|exact Hw].
      intros d c _ _ (ec & re & ex & vs & Hce & Hc).
      rewrite <- (ce_seq _ _ _ _ _ _ _ _ _ _ Hce). destruct Hc as [-> | ->]; reflexivity. }
    split.
    - unfold ballot_is_valid_encryption. rewrite Hmh, Z.eqb_refl. cbn [negb].
      assert (Hbh : cb_hash b = ballot_crypto_hash_with E b (im_hash im)).
      { rewrite Hh, Hmh. unfold create_ballot_hash, ballot_crypto_hash_with. rewrite sort_by_id, Hcs by assumption.
        destruct cs as [|c cs']; [|reflexivity]. inversion Hw. congruence. }
      rewrite <- Hbh, Z.eqb_refl. cbn [negb].
      destruct (rmapM_all_true (fun c => contest_checks E c K Q) (cb_contests b)) as [vs [H1 H2]].
      + intros c Hc. rewrite Hcs in Hc. destruct (Forall2_in_r _ _ _ _ Hw Hc) as [d [Hd (ec & re & ex & vs & Hce & Hc')]].
        destruct (Hfit d Hd) as (F1 & F2 & F3).
        destruct (contest_encrypted_checks E HE _ _ _ _ _ _ _ _ _ HK Hce F1 F2 F3) as [_ Hck].
        destruct Hc' as [-> | ->]; [|rewrite contest_checks_strip]; exact Hck.
      + rewrite H1. cbn [rbind]. rewrite H2. reflexivity.
    - unfold ballot_valid_for_style. rewrite Hds. cbn [rbind]. f_equal.
      apply forallb_forall. intros d Hd. unfold style_contest_ok. rewrite Hcs.
      assert (Hfind : exists c, find_first (fun c => eqb (cd_id (ph_desc d)) (bc_id c)) cs = Some c /\
                exists ec real extra vs, contest_encrypted E (voter_contest b0 d) d K Q seed ec real extra vs /\ (c = ec \/ c = strip_contest ec)).
      { clear - Hw Hd Hnd. revert Hd Hnd. induction Hw as [|d' c ds cs Hdc Hw IH]; [intros []|].
        intros Hin Hnd. cbn [find_first]. pose proof Hdc as (ec & re & ex & vs & Hce & Hc').
        assert (Hid : bc_id c = cd_id (ph_desc d')).
        { rewrite <- (ce_id _ _ _ _ _ _ _ _ _ _ Hce). destruct Hc' as [-> | ->]; reflexivity. }
        rewrite Hid. cbn [map] in Hnd. inversion Hnd as [|? ? Hni Hnd']; subst.
        destruct Hin as [->|Hin]; [rewrite eqb_refl'; eauto|].
        eqb_cases (cd_id (ph_desc d)) (cd_id (ph_desc d')); [|apply IH; assumption].
        exfalso. apply Hni. rewrite <- Heq. apply (in_map (fun d => cd_id (ph_desc d))), Hin. }
      destruct Hfind as [c [-> (ec & re & ex & vs & Hce & Hc')]].
      exact (style_ok_of _ _ _ _ _ _ _ _ _ Hce c Hc').
  Qed.
End BallotEnc.

Lemma get_contests_sub im sid ds : get_contests_for im sid = Ok ds ->
  (forall d, In d ds -> In d (im_contests im)) /\
  (NoDup (map (fun d => cd_id (ph_desc d)) (im_contests im)) -> NoDup (map (fun d => cd_id (ph_desc d)) ds)).
Proof.
  unfold get_contests_for. destruct (get_ballot_style im sid) as [s|]; cbn [rbind]; [|discriminate].
  destruct (bs_gp_unit_ids s) as [us|]; intros H; injection H as <-.
  - split; [intros d Hd; apply filter_In in Hd; tauto|apply NoDup_map_filter].
  - split; [intros d []|intros; constructor].
Qed.
Lemma internal_ids E m im : manifest_is_valid m = true -> make_internal E m = Ok im ->
  NoDup (map (fun d => cd_id (ph_desc d)) (im_contests im)).
Proof.
  intros Hv Hm. apply manifest_is_valid_iff in Hv as (_ & _ & _ & _ & Hn & _).
  apply internal_manifest_contests in Hm as [_ Hf].
  replace (map (fun d => cd_id (ph_desc d)) (im_contests im)) with (map cd_id (mf_contests m)); [assumption|].
  apply Forall2_map_eq. eapply Forall2_impl'; [|exact Hf]. intros c d _ _ H. symmetry. apply H.
Qed.

(** the central fact: what encrypt_ballot returns passes every check, before and after submission *)
Lemma encrypted_ballot_valid E m im cx b eseed nonce verify rand now eb ds : valid_env E ->
  manifest_is_valid m = true -> make_internal E m = Ok im -> in_subgroup E (cx_key cx) ->
  get_contests_for im (pb_style b) = Ok ds -> ds <> [] -> in_order ds ->
  (forall d, In d ds -> limit_fits E (cd_number_elected (ph_desc d))) ->
  encrypt_ballot E b im cx eseed nonce verify rand now = Ok (Some eb) ->
  ballot_is_valid_encryption E eb (im_hash im) (cx_key cx) (cx_ext_hash cx) = Ok true /\
  ballot_valid_for_election E eb im cx true = Ok true /\
  (forall state t sb, sb = make_submitted E (cb_id eb) (cb_style eb) (cb_manifest_hash eb) (Some (cb_code_seed eb))
                     (cb_contests eb) (Some (cb_code eb)) (Some (cb_timestamp eb)) state t ->
     ballot_is_valid_encryption E (sb_ballot sb) (im_hash im) (cx_key cx) (cx_ext_hash cx) = Ok true /\
     ballot_valid_for_election E (sb_ballot sb) im cx true = Ok true).
Proof.
  intros HE Hv Hm HK Hds Hne Hord Hfit Henc.
  assert (Hnd : NoDup (map (fun d => cd_id (ph_desc d)) ds)).
  { apply (get_contests_sub _ _ _ Hds). apply (internal_ids E m); assumption. }
  destruct (encrypt_ballot_form _ _ _ _ _ _ _ _ _ _ Henc) as (ds' & ecs & Hds' & HF & Heb).
  rewrite Hds in Hds'. injection Hds' as <-.
  assert (Hw : well_made E b ds (cx_key cx) (cx_ext_hash cx) (seed_of E b im nonce rand) ecs).
  { eapply Forall2_impl'; [|exact HF]. intros d ec _ _ He.
    destruct (encrypt_contest_spec E HE _ _ _ _ _ _ _ HK He) as (re & ex & vs & Hce).
    exists ec, re, ex, vs. split; [exact Hce|left; reflexivity]. }
  assert (Hw2 : well_made E b ds (cx_key cx) (cx_ext_hash cx) (seed_of E b im nonce rand) (map strip_contest ecs)).
  { apply Forall2_map_r. eapply Forall2_impl'; [|exact Hw]. intros d ec _ _ (e & re & ex & vs & Hce & Hc).
    exists e, re, ex, vs. split; [exact Hce|right]. destruct Hc as [-> | ->]; [reflexivity|].
    unfold strip_contest; cbn [bc_id bc_seq bc_desc_hash bc_selections bc_acc bc_hash bc_nonce bc_proof bc_ext].
    rewrite map_map. reflexivity. }
  assert (H1 : ballot_is_valid_encryption E eb (im_hash im) (cx_key cx) (cx_ext_hash cx) = Ok true /\ ballot_valid_for_style E eb im = Ok true).
  { subst eb. refine (well_made_valid E HE b ds _ _ _ ecs _ im HK Hw Hfit Hord Hne Hnd _ _ _ _); first [exact Hds|reflexivity]. }
  split; [apply H1|]. split.
  { unfold ballot_valid_for_election. rewrite (proj2 H1). cbn [rbind negb]. rewrite (proj1 H1). reflexivity. }
  intros state t sb Hsb.
  assert (H2 : ballot_is_valid_encryption E (sb_ballot sb) (im_hash im) (cx_key cx) (cx_ext_hash cx) = Ok true /\ ballot_valid_for_style E (sb_ballot sb) im = Ok true).
  { subst sb eb. refine (well_made_valid E HE b ds _ _ _ (map strip_contest ecs) _ im HK Hw2 Hfit Hord Hne Hnd _ _ _ _); try first [exact Hds|reflexivity].
    cbn [make_submitted sb_ballot make_ct_ballot cb_hash cb_id cb_manifest_hash cb_contests].
    unfold create_ballot_hash. rewrite (sort_by_map bc_seq bc_seq strip_contest) by reflexivity. rewrite map_map. reflexivity. }
  split; [apply H2|].
  unfold ballot_valid_for_election. rewrite (proj2 H2). cbn [rbind negb]. rewrite (proj1 H2). reflexivity.
Qed.

(** ** when it succeeds *)
Lemma encrypt_ballot_succeeds E im cx b eseed nonce verify rand now ds m : valid_env E -> hmac_32 E ->
  manifest_is_valid m = true -> make_internal E m = Ok im -> in_subgroup E (cx_key cx) ->
  get_contests_for im (pb_style b) = Ok ds -> (verify = true -> ds <> [] /\ in_order ds) ->
  (forall d, In d ds -> limit_fits E (cd_number_elected (ph_desc d)) /\ seqs_nonneg d /\
     usable_nonces E d (hash_elems E [HElem (im_hash im); HStr (pb_id b); HElem (match nonce with Some n => n | None => rand end)])) ->
  (forall d, In d ds -> let c := voter_contest b d in
     pt_contest_valid c d <> CheckInvalid /\
     ((1 <=? marked c) && overvoted c d = true \/ forall s, In s (pc_selections c) -> ps_vote s = 0 \/ ps_vote s = 1) /\
     cd_selections (ph_desc d) <> [] /\
     (forall err data x, contest_error (pt_contest_valid c d) = Some (err, data, x) ->
       Z.of_nat (String.length (contest_data_json E err data (write_ins c))) <= 510)) ->
  exists eb, encrypt_ballot E b im cx eseed nonce verify rand now = Ok (Some eb).
Proof.
  intros HE Hmac Hv Hm HK Hds Hord Hok Hvote.
  assert (Hst : exists st, get_ballot_style im (pb_style b) = Ok st /\ bs_id st = pb_style b).
  { unfold get_contests_for in Hds. destruct (get_ballot_style im (pb_style b)) as [st|] eqn:Hst; [|discriminate].
    exists st. split; [reflexivity|]. unfold get_ballot_style in Hst.
    destruct (find_first _ (im_styles im)) as [s|] eqn:Hf; [|discriminate]. injection Hst as ->.
    apply find_first_some in Hf as [_ Hf]. apply eqb_spec in Hf. assumption. }
  destruct Hst as [st [Hst Hid]].
  assert (Hcs : forall l, (forall d, In d l -> In d ds) -> exists ecs,
     Forall2 (fun d ec => encrypt_contest E (voter_contest b d) d (cx_key cx) (cx_ext_hash cx)
               (seed_of E b im nonce rand) verify = Ok (Some ec)) l ecs).
  { induction l as [|d l IH]; intros Hin; [exists []; constructor|].
    destruct IH as [ecs Hecs]; [intros; apply Hin; right; assumption|].
    destruct (Hok d (Hin d (or_introl eq_refl))) as (F1 & F2 & F3).
    destruct (Hvote d (Hin d (or_introl eq_refl))) as (G1 & G2 & G3 & G4).
    destruct (encrypt_contest_succeeds E HE Hmac (voter_contest b d) d (cx_key cx) (cx_ext_hash cx)
                (seed_of E b im nonce rand) verify HK G1 G2 F2 F3 G3 G4 (fun _ => F1)) as [ec Hec].
    exists (ec :: ecs). constructor; assumption. }
  destruct (Hcs ds (fun d H => H)) as [ecs HF].
  assert (Hno : exists eb, encrypt_ballot E b im cx eseed nonce false rand now = Ok (Some eb) \/ verify = true).
  { destruct verify; [exists (mkCbal "" "" 0 0 [] 0 0 0 None); right; reflexivity|].
    unfold encrypt_ballot. rewrite Hst. cbn [rbind]. unfold pt_ballot_is_valid. rewrite Hid, eqb_refl'. cbn [negb].
    rewrite Hds. cbn [rbind]. fold (seed_of E b im nonce rand).
    apply encrypt_contests_iff in HF. rewrite HF. cbn [rbind negb]. eexists; left; reflexivity. }
  destruct verify; [|destruct Hno as [eb [H|H]]; [exists eb; exact H|discriminate]].
  unfold encrypt_ballot. rewrite Hst. cbn [rbind]. unfold pt_ballot_is_valid. rewrite Hid, eqb_refl'. cbn [negb].
  rewrite Hds. cbn [rbind]. fold (seed_of E b im nonce rand).
  pose proof HF as HF'. apply encrypt_contests_iff in HF'. rewrite HF'. cbn [rbind negb].
  match goal with |- exists eb, (do v <- ballot_is_valid_encryption E ?X _ _ _; _) = _ => set (eb0 := X) end.
  assert (H1 : ballot_is_valid_encryption E eb0 (im_hash im) (cx_key cx) (cx_ext_hash cx) = Ok true /\ ballot_valid_for_style E eb0 im = Ok true).
  { eapply (well_made_valid E HE b ds) with (seed := seed_of E b im nonce rand) (cs := ecs); try assumption; try reflexivity; try (apply Hord; reflexivity).
    - eapply Forall2_impl'; [|exact HF]. intros d ec _ _ He.
      destruct (encrypt_contest_spec E HE _ _ _ _ _ _ _ HK He) as (re & ex & vs & Hce).
      exists ec, re, ex, vs. split; [exact Hce|left; reflexivity].
    - intros d Hd. apply Hok, Hd.
    - apply (get_contests_sub _ _ _ Hds). apply (internal_ids E m); assumption. }
  rewrite (proj1 H1). cbn [rbind]. eauto.
Qed.

(** ** confirmation codes *)
Lemma chain_code_eq E : forall bs seed final, chained E seed bs final ->
  final = chain_code E seed (map (fun b => (cb_timestamp b, cb_hash b)) bs).
Proof.
  induction bs as [|b bs IH]; intros seed final H; cbn in *; [assumption|].
  destruct H as (_ & Hc & H). rewrite <- Hc. apply IH, H.
Qed.
Lemma chain_code_app E seed l t h : chain_code E seed (l ++ [(t, h)]) =
  hash_elems E [HElem (chain_code E seed l); HInt t; HElem h].
Proof. revert seed. induction l as [|[t' h'] l IH]; intros seed; cbn [app chain_code]; [reflexivity|apply IH]. Qed.
Lemma chain_texts_app E seed l t h : chain_texts E seed (l ++ [(t, h)]) =
  chain_texts E seed l ++ [hash_text E [HElem (chain_code E seed l); HInt t; HElem h]].
Proof. revert seed. induction l as [|[t' h'] l IH]; intros seed; cbn [app chain_code chain_texts]; [reflexivity|]. rewrite IH. reflexivity. Qed.

Definition bars (s : string) : nat := List.length (filter (fun c => Ascii.eqb c "|"%char) (list_ascii_of_string s)).
Lemma list_ascii_app' s t : list_ascii_of_string (s ++ t) = list_ascii_of_string s ++ list_ascii_of_string t.
Proof. induction s as [|c s IH]; [reflexivity|]. cbn. rewrite IH. reflexivity. Qed.
Lemma bars_app s t : bars (s ++ t) = (bars s + bars t)%nat.
Proof. unfold bars. rewrite list_ascii_app', filter_app, app_length. reflexivity. Qed.
Lemma bars_no_bar s : no_bar s = true -> bars s = 0%nat.
Proof.
  unfold bars, no_bar. induction (list_ascii_of_string s) as [|c l IH]; [reflexivity|]. cbn [forallb filter].
  intros H. apply andb_true_iff in H as [H1 H2]. apply negb_true_iff in H1. rewrite H1. apply IH, H2.
Qed.
Lemma code_text_bars E c t h : 0 <= c -> 0 <= h -> bars (hash_text E [HElem c; HInt t; HElem h]) = 4%nat.
Proof.
  intros Hc Hh. unfold hash_text. cbn [fold_right hash_me]. rewrite !bars_app.
  rewrite (bars_no_bar (int_to_hex c)), (bars_no_bar (int_to_hex h)), (bars_no_bar (str_int t));
    auto using int_to_hex_no_bar, str_int_no_bar.
Qed.
Lemma device_text_bars E d : (5 <= bars (device_text E d))%nat.
Proof.
  unfold device_text, hash_text. cbn [fold_right hash_me]. rewrite !bars_app.
  change (bars "|") with 1%nat. lia.
Qed.

Lemma trailing_bar a : forall b, (a ++ "|" = b ++ "|")%string -> a = b.
Proof.
  induction a as [|c a IH]; intros [|d b] H; cbn in H; [reflexivity| | |].
  - injection H as _ H. destruct b; discriminate.
  - injection H as _ H. destruct a; discriminate.
  - injection H as -> H. f_equal. apply IH, H.
Qed.
Lemma code_text_inj E c t h c' t' h' : 0 <= c -> 0 <= c' -> 0 <= h -> 0 <= h' ->
  hash_text E [HElem c; HInt t; HElem h] = hash_text E [HElem c'; HInt t'; HElem h'] -> c = c' /\ t = t' /\ h = h'.
Proof.
  intros Hc Hc' Hh Hh' Heq. unfold hash_text in Heq. cbn [fold_right hash_me] in Heq.
  cbn [append] in Heq. injection Heq as Heq.
  apply no_bar_split in Heq as [H1 Heq]; auto using int_to_hex_no_bar.
  apply no_bar_split in Heq as [H2 Heq]; auto using str_int_no_bar.
  apply no_bar_split in Heq as [H3 _]; auto using int_to_hex_no_bar.
  auto using int_to_hex_inj, str_int_inj.
Qed.
Lemma device_text_inj E d d' : device_text E d = device_text E d' -> d = d'.
Proof.
  destruct d as [a b c l], d' as [a' b' c' l']. unfold device_text, hash_text.
  cbn [fold_right hash_me dv_id dv_session dv_launch dv_location append]. intros Heq. injection Heq as Heq.
  apply no_bar_split in Heq as [H1 Heq]; auto using str_int_no_bar.
  apply no_bar_split in Heq as [H2 Heq]; auto using str_int_no_bar.
  apply no_bar_split in Heq as [H3 Heq]; auto using str_int_no_bar.
  apply trailing_bar in Heq. apply str_int_inj in H1, H2, H3. congruence.
Qed.

Definition clash (E : env) (a b : list string) : Prop :=
  exists s t, In s a /\ In t b /\ s <> t /\ sha E s mod qq E = sha E t mod qq E.

Lemma chain_unique E d d' : 0 < qq E -> forall l l',
  Forall (fun th => 0 <= snd th) l -> Forall (fun th => 0 <= snd th) l' ->
  chain_code E (device_hash E d) l = chain_code E (device_hash E d') l' ->
  (d = d' /\ l = l') \/
  clash E (device_text E d :: chain_texts E (device_hash E d) l) (device_text E d' :: chain_texts E (device_hash E d') l').
Proof.
  intros Hq.
  assert (Hnn : forall x l, 0 <= chain_code E (device_hash E x) l).
  { intros x l. destruct (rev_case l) as [->|[[t h] [l0 ->]]]; [|rewrite chain_code_app]; apply hash_elems_nonneg; assumption. }
  induction l as [|[t h] l IH] using rev_ind; intros l' Hl Hl' Heq; destruct (rev_case l') as [->|[[t' h'] [l0 ->]]].
  - cbn in Heq. unfold device_hash, get_hash_for_device in Heq.
    destruct (string_dec (device_text E d) (device_text E d')) as [Ht|Ht].
    + left. split; [apply (device_text_inj E), Ht|reflexivity].
    + right. exists (device_text E d), (device_text E d'). split; [left; reflexivity|]. split; [left; reflexivity|].
      split; [exact Ht|exact Heq].
  - right. rewrite chain_code_app in Heq. cbn [chain_code] in Heq. rewrite chain_texts_app.
    exists (device_text E d), (hash_text E [HElem (chain_code E (device_hash E d') l0); HInt t'; HElem h']).
    split; [left; reflexivity|]. split; [right; apply in_or_app; right; left; reflexivity|].
    split; [|exact Heq]. intros He. pose proof (device_text_bars E d) as Hb. rewrite He in Hb.
    rewrite code_text_bars in Hb; [lia|apply Hnn|]. apply Forall_app in Hl' as [_ Hl']. inversion Hl'; assumption.
  - right. rewrite chain_code_app in Heq. cbn [chain_code] in Heq. rewrite chain_texts_app.
    exists (hash_text E [HElem (chain_code E (device_hash E d) l); HInt t; HElem h]), (device_text E d').
    split; [right; apply in_or_app; right; left; reflexivity|]. split; [left; reflexivity|].
    split; [|exact Heq]. intros He. pose proof (device_text_bars E d') as Hb. rewrite <- He in Hb.
    rewrite code_text_bars in Hb; [lia|apply Hnn|]. apply Forall_app in Hl as [_ Hl]. inversion Hl; assumption.
  - rewrite !chain_code_app in Heq. rewrite !chain_texts_app.
    apply Forall_app in Hl as [Hl Hh]. apply Forall_app in Hl' as [Hl' Hh'].
    assert (Hh0 : 0 <= h) by (inversion Hh; assumption). assert (Hh0' : 0 <= h') by (inversion Hh'; assumption).
    destruct (string_dec (hash_text E [HElem (chain_code E (device_hash E d) l); HInt t; HElem h])
                         (hash_text E [HElem (chain_code E (device_hash E d') l0); HInt t'; HElem h'])) as [Ht|Ht].
    + apply code_text_inj in Ht as (Hc & -> & ->); auto.
      destruct (IH l0 Hl Hl' Hc) as [[-> ->]|(s & u & Hs & Hu & Hcl)]; [left; auto|right].
      exists s, u. split; [|split; [|exact Hcl]].
      * destruct Hs as [Hs|Hs]; [left; exact Hs|right; apply in_or_app; left; exact Hs].
      * destruct Hu as [Hu|Hu]; [left; exact Hu|right; apply in_or_app; left; exact Hu].
    + right. eexists _, _. split; [right; apply in_or_app; right; left; reflexivity|].
      split; [right; apply in_or_app; right; left; reflexivity|]. split; [exact Ht|exact Heq].
Qed.

(** ** a run of the encryption mediator *)
Definition produced (r : res (option ct_ballot)) : list ct_ballot := match r with Ok (Some b) => [b] | _ => [] end.
Fixpoint mediator_run (E : env) (m : enc_mediator) (reqs : list (pt_ballot * Z * Z)) : enc_mediator * list ct_ballot :=
  match reqs with
  | [] => (m, [])
  | (b, rand, now) :: reqs' =>
    let '(m1, r) := mediator_encrypt E m b rand now in
    let '(m2, bs) := mediator_run E m1 reqs' in (m2, produced r ++ bs)
  end.
Lemma mediator_run_chained E : forall reqs m, chained E (em_seed m) (snd (mediator_run E m reqs)) (em_seed (fst (mediator_run E m reqs))).
Proof.
  induction reqs as [|[[b rand] now] reqs IH]; intros m; cbn [mediator_run fst snd chained]; [reflexivity|].
  unfold mediator_encrypt.
  destruct (encrypt_ballot E b _ _ _ None false rand now) as [[eb|]|] eqn:He.
  - specialize (IH (mkEncMed (em_manifest m) (em_context m) (cb_code eb))).
    destruct (mediator_run E _ reqs) as [m2 bs]. cbn [fst snd produced app chained em_seed] in *.
    destruct (encrypt_ballot_form _ _ _ _ _ _ _ _ _ _ He) as (ds & ecs & _ & _ & ->). cbn in *. auto.
  - specialize (IH m). destruct (mediator_run E m reqs) as [m2 bs]. exact IH.
  - specialize (IH m). destruct (mediator_run E m reqs) as [m2 bs]. exact IH.
Qed.
