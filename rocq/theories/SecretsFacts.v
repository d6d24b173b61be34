(** * SecretsFacts: decryption of honestly encrypted ballots with the secret key or the nonce. *)
From Verif Require Import Base Group Codec Hash DLog ElGamal ZK Manifest Ballot Encrypt DecryptSecrets Box Spec SpecElection
  ListFacts GroupFacts HashFacts CryptoThms EncryptFacts BallotFacts EncryptThms HonestFacts.
From Coq Require Import List.

Lemma omapM_all {A B} (f : A -> res (option B)) g l : (forall x, In x l -> f x = Ok (Some (g x))) -> omapM f l = Ok (Some (map g l)).
Proof.
  induction l as [|x l IH]; intros H; cbn [omapM map]; [reflexivity|]. rewrite H by (left; reflexivity). cbn [rbind].
  rewrite IH by (intros; apply H; right; assumption). reflexivity.
Qed.
Lemma omapM_F2 {A B C} (f : A -> res (option B)) (g : C -> B) (R : C -> A -> Prop) cs l : Forall2 R cs l ->
  (forall c x, In c cs -> In x l -> R c x -> f x = Ok (Some (g c))) -> omapM f l = Ok (Some (map g cs)).
Proof.
  induction 1 as [|c x cs l Hc HF IH]; intros H; cbn [omapM map]; [reflexivity|]. rewrite (H c x) by (auto; left; reflexivity).
  cbn [rbind]. rewrite IH; [reflexivity|]. intros c' x' H1 H2 H3. apply H; [right|right|]; assumption.
Qed.
(** some call gives None while the earlier ones succeed *)
Lemma omapM_F2_or {A B C} (f : A -> res (option B)) (g : C -> B) (R : C -> A -> Prop) cs l : Forall2 R cs l ->
  (forall c x, In c cs -> In x l -> R c x -> f x = Ok (Some (g c)) \/ f x = Ok None) ->
  omapM f l = Ok (Some (map g cs)) \/ omapM f l = Ok None.
Proof.
  induction 1 as [|c x cs l Hc HF IH]; intros H; cbn [omapM map]; [left; reflexivity|].
  destruct (H c x) as [-> | ->]; [left; reflexivity|left; reflexivity|exact Hc| |right; reflexivity]. cbn [rbind].
  destruct IH as [-> | ->]; [intros c' x' H1 H2 H3; apply H; [right|right|]; assumption|left; reflexivity|right; reflexivity].
Qed.

Section Secrets.
  Context (E : env) (HE : valid_env E) (Hd : 1 <= dmax E).
  Context (K Q secret : Z) (Hsec : 0 <= secret) (HK : K = gexp E secret).
  Lemma HKsub : in_subgroup E K. Proof. rewrite HK. apply gexp_subgroup; assumption. Qed.

  (** what is needed of an encrypted selection, with or without its nonce *)
  Definition sel_dec (seed : Z) (x : bool * selection_desc * Z) (s : ct_selection) : Prop :=
    let '(ph, o, v) := x in
    cs_id s = sd_id o /\ cs_placeholder s = ph /\ 0 <= sd_seq o /\
    elgamal_decrypt E (cs_ct s) secret = Ok v /\ decrypt_known_nonce E (cs_ct s) K (sel_nonce E o seed) = Ok v /\
    selection_is_valid_encryption E s (selection_desc_hash E o) K Q = true /\
    (cs_nonce s = None \/ cs_nonce s = Some (sel_nonce E o seed)).
  Lemma enc_sel_dec seed ph o v es : enc_as E K Q seed ph o v es -> sel_dec seed (ph, o, v) es.
  Proof.
    intros (H01 & Hs & (I1 & I2 & I3 & I4 & r & I5 & I6 & I7) & Hn & _ & Hv). rewrite I5 in Hn. injection Hn as Hn. subst r.
    assert (Hq : 1 < qq E) by (destruct (ve_q E HE); assumption).
    rewrite HK in I7. destruct (decrypt_three_ways E HE secret (sel_nonce E o seed) v (cs_ct es)) as (D1 & D2 & _); [lia|lia|lia|lia|exact I7|].
    unfold sel_dec. rewrite HK at 1. rewrite <- I3. repeat (split; [assumption|]). right. exact I5.
  Qed.
  Lemma sel_dec_strip seed x s : sel_dec seed x s -> sel_dec seed x (strip_selection s).
  Proof.
    destruct x as [[ph o] v]. intros (H1 & H2 & H3 & H4 & H5 & H6 & H7). unfold sel_dec. cbn [strip_selection cs_id cs_placeholder cs_ct cs_nonce].
    do 5 (split; [assumption|]). split; [exact H6|]. left. reflexivity.
  Qed.
  Definition options_of (c : pt_contest) (d : contest_ph) : list (bool * selection_desc * Z) :=
    map (fun o => (false, o, recorded_vote c d o)) (cd_selections (ph_desc d)) ++
    map (fun ov => (true, fst ov, snd ov))
      (combine (ph_placeholders d) (fill (cd_number_elected (ph_desc d) - sumZ (map (recorded_vote c d) (cd_selections (ph_desc d)))) (ph_placeholders d))).
  Definition con_dec (b : pt_ballot) (seed : Z) (d : contest_ph) (c : ct_contest) : Prop :=
    let cn := contest_nonce_of E d seed in
    bc_id c = cd_id (ph_desc d) /\ 0 <= cd_seq (ph_desc d) /\
    Forall2 (sel_dec cn) (options_of (voter_contest b d) d) (bc_selections c) /\
    (bc_nonce c = None \/ bc_nonce c = Some cn) /\
    (limit_fits E (cd_number_elected (ph_desc d)) -> contest_is_valid_encryption E c (contest_hash E (ph_desc d)) K Q = Ok true).
  Lemma well_made_dec b ds seed cs : well_made E b ds K Q seed cs -> Forall2 (con_dec b seed) ds cs.
  Proof.
    intros Hw. eapply Forall2_impl'; [|exact Hw]. intros d c _ _ (ec & re & ex & vs & Hce & Hc).
    assert (He : con_dec b seed d ec).
    { split; [exact (ce_id _ _ _ _ _ _ _ _ _ _ Hce)|]. split; [exact (ce_seq_nonneg _ _ _ _ _ _ _ _ _ _ Hce)|]. split; [|split].
      - rewrite (ce_split _ _ _ _ _ _ _ _ _ _ Hce). unfold options_of. apply Forall2_app; apply Forall2_map_l.
        + eapply Forall2_impl'; [|exact (ce_real _ _ _ _ _ _ _ _ _ _ Hce)]. intros o e _ _. apply enc_sel_dec.
        + rewrite <- (ce_vs _ _ _ _ _ _ _ _ _ _ Hce). eapply Forall2_impl'; [|exact (ce_extra _ _ _ _ _ _ _ _ _ _ Hce)].
          intros [o v] e _ _. apply enc_sel_dec.
      - right. exact (ce_nonce _ _ _ _ _ _ _ _ _ _ Hce).
      - intros (F1 & F2 & F3). rewrite <- (ce_desc _ _ _ _ _ _ _ _ _ _ Hce).
        exact (proj1 (contest_encrypted_checks E HE _ _ _ _ _ _ _ _ _ HKsub Hce F1 F2 F3)). }
    destruct Hc as [-> | ->]; [exact He|]. destruct He as (H1 & H2 & H3 & H4 & H5). split; [exact H1|]. split; [exact H2|].
    split; [|split].
    - cbn [strip_contest bc_selections]. apply Forall2_map_r. eapply Forall2_impl'; [|exact H3]. intros x s _ _. apply sel_dec_strip.
    - left. reflexivity.
    - intros Hf. rewrite contest_valid_strip. apply H5, Hf.
  Qed.

  Lemma selection_for_own d o : distinct_ids d -> In o (cd_selections (ph_desc d) ++ ph_placeholders d) -> selection_for d (sd_id o) = Some o.
  Proof.
    intros Hn Ho.
    assert (Hf : find_first (fun s => eqb (sd_id s) (sd_id o)) (cd_selections (ph_desc d) ++ ph_placeholders d) = Some o)
      by exact (find_first_unique sd_id _ _ Hn Ho).
    unfold selection_for. revert Hf. generalize (cd_selections (ph_desc d)) as l. clear.
    induction l as [|x l IH]; cbn [app find_first]; [auto|]. destruct (eqb (sd_id x) (sd_id o)); auto.
  Qed.
  Lemma options_of_in c d x : In x (options_of c d) -> In (snd (fst x)) (cd_selections (ph_desc d) ++ ph_placeholders d).
  Proof.
    unfold options_of. intros Hx. apply in_app_or in Hx as [Hx|Hx]; apply in_map_iff in Hx as [y [<- Hy]]; cbn [fst snd]; apply in_or_app.
    - left. exact Hy.
    - right. destruct y as [o v]. apply in_combine_l in Hy. exact Hy.
  Qed.
  Definition plain_of (x : bool * selection_desc * Z) : pt_selection := let '(ph, o, v) := x in mkPsel (sd_id o) v ph None.
  Lemma keep_options c d remove : mkPcon (cd_id (ph_desc d)) (keep remove (map plain_of (options_of c d))) = opened_contest c d remove.
  Proof.
    unfold opened_contest. f_equal. unfold options_of. rewrite map_app. unfold keep. rewrite filter_app, !map_map. cbn [plain_of]. f_equal.
    - induction (cd_selections (ph_desc d)) as [|o l IH]; cbn [map filter]; [reflexivity|]. cbn [ps_placeholder negb]. rewrite orb_true_r. f_equal. exact IH.
    - induction (combine _ _) as [|[o v] l IH]; [destruct remove; reflexivity|]. cbn [map filter ps_placeholder negb fst snd].
      rewrite orb_false_r. destruct remove; cbn [negb]; [exact IH|]. f_equal. exact IH.
  Qed.
  Section Loops.
    Context (b : pt_ballot) (seed : Z) (d : contest_ph) (c : ct_contest) (Hc : con_dec b seed d c) (Hids : distinct_ids d).
    Let cn := contest_nonce_of E d seed.
    Lemma sels_secret suppress : selections_loop (fun s o => selection_with_secret E s o K secret Q suppress) d (bc_selections c)
      = Ok (Some (map plain_of (options_of (voter_contest b d) d))).
    Proof.
      destruct Hc as (_ & _ & HF & _). eapply omapM_F2; [exact HF|]. intros [[ph o] v] s Hx Hs (H1 & H2 & H3 & H4 & H5 & H6 & H7).
      rewrite H1, (selection_for_own d o Hids) by exact (options_of_in _ _ _ Hx). cbn [get_optional rbind]. unfold selection_with_secret.
      rewrite H6, andb_false_r, H4. cbn [rbind]. unfold plain, plain_of. rewrite H1, H2. reflexivity.
    Qed.
    Lemma sels_nonce suppress : selections_loop (fun s o => selection_with_nonce E s o K Q (Some cn) suppress) d (bc_selections c)
      = Ok (Some (map plain_of (options_of (voter_contest b d) d))).
    Proof.
      destruct Hc as (_ & _ & HF & _). eapply omapM_F2; [exact HF|]. intros [[ph o] v] s Hx Hs (H1 & H2 & H3 & H4 & H5 & H6 & H7).
      rewrite H1, (selection_for_own d o Hids) by exact (options_of_in _ _ _ Hx). cbn [get_optional rbind]. unfold selection_with_nonce.
      rewrite H6, andb_false_r, nonce_get_ok by exact H3. cbn [rbind]. change (nonce_at E _ (sd_seq o)) with (sel_nonce E o cn).
      assert (Hm : match cs_nonce s with Some m => negb (sel_nonce E o cn =? m) | None => false end = false).
      { destruct H7 as [-> | ->]; [reflexivity|]. fold cn. rewrite Z.eqb_refl. reflexivity. }
      fold cn in H5. rewrite Hm, H5. cbn [rbind]. unfold plain, plain_of. rewrite H1, H2. reflexivity.
    Qed.
    Context (suppress : bool) (Hsup : suppress = false -> limit_fits E (cd_number_elected (ph_desc d))).
    Lemma con_check : (if suppress then Ok true else contest_is_valid_encryption E c (contest_hash E (ph_desc d)) K Q) = Ok true.
    Proof. destruct Hc as (_ & _ & _ & _ & H). destruct suppress; [reflexivity|apply H, Hsup; reflexivity]. Qed.
    Lemma con_secret remove : contest_with_secret E c d K secret Q suppress remove = Ok (Some (opened_contest (voter_contest b d) d remove)).
    Proof.
      unfold contest_with_secret. rewrite con_check. cbn [rbind negb]. rewrite sels_secret. cbn [rbind option_map].
      rewrite (proj1 Hc), keep_options. reflexivity.
    Qed.
    Lemma con_nonce_tail n remove : n = cn ->
      (if match bc_nonce c with Some m => negb (n =? m) | None => false end then Ok None
       else do r <- selections_loop (fun s o => selection_with_nonce E s o K Q (Some n) suppress) d (bc_selections c);
            Ok (option_map (fun ps => mkPcon (bc_id c) (keep remove ps)) r)) = Ok (Some (opened_contest (voter_contest b d) d remove)).
    Proof.
      intros ->. assert (Hm : match bc_nonce c with Some m => negb (cn =? m) | None => false end = false).
      { destruct Hc as (_ & _ & _ & [-> | ->] & _); [reflexivity|]. fold cn. rewrite Z.eqb_refl. reflexivity. }
      rewrite Hm, sels_nonce. cbn [rbind option_map]. rewrite (proj1 Hc), keep_options. reflexivity.
    Qed.
    Lemma con_nonce remove : contest_with_nonce E c d K Q (Some seed) suppress remove = Ok (Some (opened_contest (voter_contest b d) d remove)).
    Proof.
      unfold contest_with_nonce. rewrite con_check. cbn [rbind negb]. rewrite nonce_get_ok by apply Hc. cbn [rbind].
      apply con_nonce_tail. reflexivity.
    Qed.
    Lemma con_any_nonce seed' remove : bc_nonce c = Some cn ->
      contest_with_nonce E c d K Q (Some seed') suppress remove = Ok (Some (opened_contest (voter_contest b d) d remove)) \/
      contest_with_nonce E c d K Q (Some seed') suppress remove = Ok None.
    Proof.
      intros Hn. unfold contest_with_nonce. rewrite con_check. cbn [rbind negb]. rewrite nonce_get_ok by apply Hc. cbn [rbind].
      set (n := nonce_at E _ (cd_seq (ph_desc d))). destruct (Z.eq_dec n cn) as [He|He].
      - left. apply con_nonce_tail. exact He.
      - right. rewrite Hn. destruct (Z.eqb_spec n cn); [contradiction|reflexivity].
    Qed.
  End Loops.
End Secrets.

Section BallotSecrets.
  Context (E : env) (m : manifest) (im : internal_manifest) (cx : context) (b : pt_ballot) (secret : Z).
  Context (eseed : Z) (nonce : option Z) (verify : bool) (rand now : Z) (eb : ct_ballot) (ds : list contest_ph).
  Context (HE : valid_env E) (Hdm : 1 <= dmax E) (Hv : manifest_is_valid m = true) (Hm : make_internal E m = Ok im).
  Context (Hsec : 0 <= secret) (HK : cx_key cx = gexp E secret).
  Context (Hds : get_contests_for im (pb_style b) = Ok ds) (Hids : forall d, In d ds -> distinct_ids d).
  Context (suppress : bool) (Hsup : suppress = false -> ds <> [] /\ in_order ds /\ forall d, In d ds -> limit_fits E (cd_number_elected (ph_desc d))).
  Context (Henc : encrypt_ballot E b im cx eseed nonce verify rand now = Ok (Some eb)).
  Let K := cx_key cx. Let Q := cx_ext_hash cx. Let seed := seed_of E b im nonce rand.

  (** the encrypted ballot or its submitted copy *)
  Definition copy_of (x : ct_ballot) : Prop := x = eb \/ exists st, x = sb_ballot (submit_ballot E eb st).
  Lemma copy_facts x : copy_of x -> cb_id x = pb_id b /\ cb_style x = pb_style b /\ cb_manifest_hash x = im_hash im /\
    Forall2 (con_dec E K Q secret b seed) ds (cb_contests x) /\
    (if suppress then Ok true else ballot_is_valid_encryption E x (im_hash im) K Q) = Ok true.
  Proof.
    intros Hx. assert (HKs : in_subgroup E (cx_key cx)) by (rewrite HK; apply gexp_subgroup; assumption).
    destruct (encrypted_well_made E HE _ _ _ _ _ _ _ _ _ HKs Henc) as (ds' & H1 & H2 & H3 & H4 & H5). rewrite Hds in H1. injection H1 as <-.
    assert (Hmh : cb_manifest_hash eb = im_hash im).
    { destruct (encrypt_ballot_form _ _ _ _ _ _ _ _ _ _ Henc) as (ds' & ecs & _ & _ & ->). reflexivity. }
    assert (Hval : suppress = false -> ballot_is_valid_encryption E eb (im_hash im) K Q = Ok true /\
      forall st, ballot_is_valid_encryption E (sb_ballot (submit_ballot E eb st)) (im_hash im) K Q = Ok true).
    { intros Hs. destruct (Hsup Hs) as (Hne & Hord & Hfit).
      destruct (encrypted_ballot_valid E m im cx b eseed nonce verify rand now eb ds) as (V1 & _ & V2); try assumption.
      split; [exact V1|]. intros st. exact (proj1 (V2 st 0 _ eq_refl)). }
    destruct Hx as [-> | [st ->]].
    - split; [exact H2|]. split; [exact H3|]. split; [exact Hmh|]. split.
      + apply well_made_dec; [exact HE|exact Hdm|exact Hsec|exact HK|exact H4].
      + destruct suppress; [reflexivity|apply Hval; reflexivity].
    - split; [exact H2|]. split; [exact H3|]. split; [exact Hmh|]. split.
      + apply well_made_dec; [exact HE|exact Hdm|exact Hsec|exact HK|exact (H5 st)].
      + destruct suppress; [reflexivity|apply Hval; reflexivity].
  Qed.
  Lemma contest_for_own d : In d ds -> contest_for im (cd_id (ph_desc d)) = Some d.
  Proof.
    intros Hd. apply (find_first_unique (fun d => cd_id (ph_desc d))); [apply (internal_ids E m); assumption|].
    apply (get_contests_sub _ _ _ Hds), Hd.
  Qed.
  Lemma sup_limit d : In d ds -> suppress = false -> limit_fits E (cd_number_elected (ph_desc d)).
  Proof. intros Hd Hs. destruct (Hsup Hs) as (_ & _ & H). apply H, Hd. Qed.
  Theorem secret_opens x remove : copy_of x -> ballot_with_secret E x im Q K secret suppress remove = Ok (Some (opened_ballot b ds remove)).
  Proof.
    intros Hx. destruct (copy_facts x Hx) as (X1 & X2 & X3 & X4 & X5). unfold ballot_with_secret. rewrite X5. cbn [rbind negb].
    unfold contests_loop. rewrite (omapM_F2 _ (fun d => opened_contest (voter_contest b d) d remove) _ _ _ X4).
    - cbn [rbind option_map]. rewrite X1, X2. reflexivity.
    - intros d c Hd _ Hc. rewrite (proj1 Hc), contest_for_own by exact Hd. cbn [get_optional rbind].
      apply (con_secret E K Q secret b seed); [exact Hc|apply Hids, Hd|apply sup_limit, Hd].
  Qed.
  Theorem nonce_opens x n remove : copy_of x -> 
    (n = Some (match nonce with Some n => n | None => rand end) \/ n = None /\ x = eb) ->
    ballot_with_nonce E x im Q K n suppress remove = Ok (Some (opened_ballot b ds remove)).
  Proof.
    intros Hx Hn. destruct (copy_facts x Hx) as (X1 & X2 & X3 & X4 & X5). unfold ballot_with_nonce. rewrite X5. cbn [rbind negb].
    assert (Hs : match n with None => hashed_ballot_nonce E x | Some n => Some (ballot_nonce_seed E (im_hash im) (cb_id x) n) end = Some seed).
    { destruct Hn as [-> | [-> ->]]; [rewrite X1; reflexivity|]. unfold hashed_ballot_nonce. rewrite X1, X3.
      destruct (encrypt_ballot_form _ _ _ _ _ _ _ _ _ _ Henc) as (ds' & ecs & _ & _ & Heb). rewrite Heb. reflexivity. }
    rewrite Hs. unfold contests_loop. rewrite (omapM_F2 _ (fun d => opened_contest (voter_contest b d) d remove) _ _ _ X4).
    - cbn [rbind option_map]. rewrite X1, X2. reflexivity.
    - intros d c Hd _ Hc. rewrite (proj1 Hc), contest_for_own by exact Hd. cbn [get_optional rbind].
      apply (con_nonce E K Q secret b seed); [exact Hc|apply Hids, Hd|apply sup_limit, Hd].
  Qed.
  (** any other nonce is noticed on a ballot that still has its contest nonces *)
  Theorem wrong_nonce_noticed n remove : 
    ballot_with_nonce E eb im Q K (Some n) suppress remove = Ok (Some (opened_ballot b ds remove)) \/
    ballot_with_nonce E eb im Q K (Some n) suppress remove = Ok None.
  Proof.
    destruct (copy_facts eb (or_introl eq_refl)) as (X1 & X2 & X3 & X4 & X5). unfold ballot_with_nonce. rewrite X5. cbn [rbind negb].
    assert (Hnn : Forall2 (fun d c => con_dec E K Q secret b seed d c /\ bc_nonce c = Some (contest_nonce_of E d seed)) ds (cb_contests eb)).
    { destruct (encrypt_ballot_form _ _ _ _ _ _ _ _ _ _ Henc) as (ds' & ecs & Hds' & HF & Heb). rewrite Hds in Hds'. injection Hds' as <-.
      rewrite Heb in X4 |- *. cbn [make_ct_ballot cb_contests] in *. clear - X4 HF HK Hsec HE.
      assert (HKs : in_subgroup E (cx_key cx)) by (rewrite HK; apply gexp_subgroup; assumption).
      induction X4 as [|d c ds cs Hc X4 IH]; inversion HF; subst; constructor; [|apply IH; assumption]. split; [exact Hc|].
      match goal with H : encrypt_contest _ _ _ _ _ _ _ = _ |- _ => destruct (encrypt_contest_spec E HE _ _ _ _ _ _ _ HKs H) as (re & ex & vs & Hce) end.
      exact (ce_nonce _ _ _ _ _ _ _ _ _ _ Hce). }
    unfold contests_loop. destruct (omapM_F2_or (fun c => do d <- get_optional (contest_for im (bc_id c));
       contest_with_nonce E c d K Q (Some (ballot_nonce_seed E (im_hash im) (cb_id eb) n)) suppress remove)
       (fun d => opened_contest (voter_contest b d) d remove) _ _ _ Hnn) as [-> | ->].
    - intros d c Hd _ [Hc Hn]. rewrite (proj1 Hc), contest_for_own by exact Hd. cbn [get_optional rbind].
      apply (con_any_nonce E K Q secret b seed); [exact Hc|apply Hids, Hd|apply sup_limit, Hd|exact Hn].
    - left. cbn [rbind option_map]. rewrite X1, X2. reflexivity.
    - right. reflexivity.
  Qed.
End BallotSecrets.
