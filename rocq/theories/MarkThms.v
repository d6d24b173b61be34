(** * MarkThms: the mark-ballots command. *)
From Coq Require Import Permutation List Znumtheory Ascii.
From Verif Require Import Base Group Codec Hash DLog ElGamal ZK Poly Manifest Ballot Encrypt Box Tally Spec SpecElection SpecTally
  ListFacts GroupFacts ZKFacts CryptoThms ManifestThms EncryptFacts BallotFacts EncryptThms TallyFacts TallyThms TallyMore BoxFacts
  Ceremony SpecCeremony Shares SpecShares SharesFacts ShareRun SharesThms SharesMore Verify SpecVerify VerifyFacts SpecEndToEnd EndToEnd
  GuiDecrypt GuiDecPure GuiElection Report SpecReport ReportFacts ReportLink ReportPages Cli SpecCli CliDec CliRun CliPaths CliE2e CliFiles CliThms CliPipe CliVotes Mark SpecMark MarkFacts.
Local Open Scope Z_scope.
Local Open Scope list_scope.

(** ** the entries of a full ballot *)
Section Full.
  Context (E : env) (m : manifest) (im : internal_manifest) (Hv : manifest_is_valid m = true) (Hm : make_internal E m = Ok im).
  Lemma find_entry ds cs : forall (P : contest_ph -> pt_contest -> Prop), (forall d c, P d c -> pc_id c = cd_id (ph_desc d)) -> NoDup (map (fun d => cd_id (ph_desc d)) ds) -> Forall2 P ds cs ->
    forall d, In d ds -> exists c, find (fun c => String.eqb (pc_id c) (cd_id (ph_desc d))) cs = Some c /\ P d c.
  Proof using.
    intros P HP Hn HF. induction HF as [|d c ds cs H HF IH]; intros x Hx; [destruct Hx|]. cbn [map] in Hn. inversion Hn as [|? ? Hn1 Hn2]; subst. cbn [find]. destruct Hx as [->|Hx].
    - rewrite (HP _ _ H), String.eqb_refl. eauto.
    - destruct (String.eqb_spec (pc_id c) (cd_id (ph_desc x))) as [He|_]; [|apply IH; assumption]. exfalso. apply Hn1. rewrite <- (HP _ _ H), He. apply (in_map (fun d => cd_id (ph_desc d))), Hx.
  Qed.
  Lemma style_contests sid ds : get_contests_for im sid = Ok ds -> incl ds (im_contests im) /\ NoDup (map (fun d => cd_id (ph_desc d)) ds).
  Proof using Hv Hm.
    pose proof (internal_ids E m im Hv Hm) as Hn. unfold get_contests_for. destruct (get_ballot_style im sid) as [s|]; cbn [rbind]; [|discriminate].
    destruct (bs_gp_unit_ids s) as [us|]; intros H; injection H as <-; [|split; [intros d []|constructor]]. split; [intros d Hd; apply filter_In in Hd; tauto|apply NoDup_map_filter, Hn].
  Qed.
  Lemma internal_good d : In d (im_contests im) -> good_contest (ph_desc d) /\ (0 <= cd_number_elected (ph_desc d) -> contest_ph_is_valid d = true).
  Proof using Hv Hm.
    intros Hd. apply make_internal_spec in Hm as HS. destruct HS as (_ & _ & _ & HF). destruct (Forall2_in_r _ _ _ _ HF Hd) as (c & Hc & Hg & He). assert (HG : good_contest c) by (apply manifest_is_valid_iff in Hv; apply Hv, Hc).
    assert (HG' : good_contest (ph_desc d)) by (rewrite He; destruct HG; constructor; assumption). split; [exact HG'|]. intros H0. apply ph_valid_iff. split; [exact HG'|]. apply generate_placeholders_ok in Hg as (Hl & _). rewrite Hl.
    rewrite He in H0 |- *. cbn in *. lia.
  Qed.
  Lemma full_entry b ds d : full_ballot im b -> get_contests_for im (pb_style b) = Ok ds -> In d ds -> filled_in d (voter_contest b d) /\ SpecElection.marked (voter_contest b d) = cd_number_elected (ph_desc d).
  Proof using Hv Hm.
    intros (ds' & Hd & HF) Hds Hin. assert (ds' = ds) by congruence. subst ds'. destruct (style_contests _ _ Hds) as [_ Hn].
    destruct (find_entry ds (pb_contests b) _ (fun d c H => proj1 (proj1 H)) Hn HF d Hin) as (c & Hc & H). unfold voter_contest. rewrite Hc. exact H.
  Qed.
  Lemma filled_matches d c : In d (im_contests im) -> filled_in d c -> SpecElection.marked c = cd_number_elected (ph_desc d) -> matches c d /\ votes_given c = SpecElection.marked c /\ write_ins c = None.
  Proof using Hv Hm.
    intros Hd (F1 & F2 & F3) Hk. destruct (internal_good d Hd) as [HG HV]. assert (H0 : 0 <= cd_number_elected (ph_desc d)) by (rewrite <- Hk; unfold SpecElection.marked, len; lia). apply HV, ph_valid_iff in H0 as [_ H0].
    split; [|split].
    - split; [exact F1|]. split; [|split; [exact HG|split; [exact H0|intros s Hs; apply F3, Hs]]]. rewrite <- (len_map ps_id (pc_selections c)), <- (len_map sd_id). unfold len. apply inj_le, NoDup_incl_length; [exact F2|].
      intros x Hx. apply in_map_iff in Hx as (s & <- & Hs). apply F3, Hs.
    - unfold votes_given, SpecElection.marked. assert (HZ : forall s, In s (pc_selections c) -> ps_vote s = 0 \/ ps_vote s = 1) by (intros s Hs; apply F3, Hs). clear -HZ. induction (pc_selections c) as [|s l IH]; [reflexivity|].
      cbn [map filter]. specialize (IH (fun x Hx => HZ x (or_intror Hx))). unfold sumZ in *. cbn [fold_right]. destruct (HZ s (or_introl eq_refl)) as [->| ->]; cbn [Z.ltb Z.compare]; rewrite ?len_cons; lia.
    - unfold write_ins. replace (flat_map _ (pc_selections c)) with (@nil (string * string)); [reflexivity|]. assert (HW : forall s, In s (pc_selections c) -> ps_write_in s = None) by (intros s Hs; apply F3, Hs). clear -HW.
      induction (pc_selections c) as [|s l IH]; [reflexivity|]. cbn [flat_map]. rewrite (HW s (or_introl eq_refl)). apply IH. intros x Hx. apply HW. right. exact Hx.
  Qed.

  (** *** encryption *)
  Lemma full_can_encrypt b ds r : valid_env E -> hmac_32 E -> short_texts E -> full_ballot im b -> get_contests_for im (pb_style b) = Ok ds ->
    (forall d, In d ds -> limit_fits E (cd_number_elected (ph_desc d)) /\ seqs_nonneg d /\ usable_nonces E d (hash_elems E [HElem (im_hash im); HStr (pb_id b); HElem (fst r)]) /\ cd_selections (ph_desc d) <> [] /\
       (cd_votes_allowed (ph_desc d) = None \/ cd_votes_allowed (ph_desc d) = Some (cd_number_elected (ph_desc d)))) -> can_encrypt E im b r.
  Proof using Hv Hm.
    intros HE H32 HS HB Hds HD cx seed HK. apply (encrypt_ballot_succeeds E im cx b seed None false (fst r) (snd r) ds m HE H32 Hv Hm HK Hds); [discriminate| |].
    - intros d Hd. destruct (HD d Hd) as (H1 & H2 & H3 & _). auto.
    - intros d Hd. cbv zeta. destruct (full_entry b ds d HB Hds Hd) as [F1 F2]. destruct (HD d Hd) as (_ & _ & _ & Hne & Hva). set (c := voter_contest b d) in *. destruct (style_contests _ _ Hds) as [Hi _].
      destruct (filled_matches d c (Hi d Hd) F1 F2) as (M1 & M2 & M3). assert (HC : exists e, (e = None \/ e = Some "nullvote"%string) /\ contest_error (pt_contest_valid c d) = Some (e, None, false)).
      { destruct (Z_lt_le_dec (SpecElection.marked c) 1) as [Hl|Hl].
        - exists (Some "nullvote"%string). split; [right; reflexivity|]. rewrite (proj2 (valid_null_iff c d) (conj M1 Hl)). reflexivity.
        - exists None. split; [left; reflexivity|]. rewrite (proj2 (valid_ok_iff c d)); [reflexivity|]. split; [exact M1|]. split; [exact Hl|]. split; [exact F2|]. intros va Hva'. destruct Hva as [Hva|Hva]; rewrite Hva in Hva'; [discriminate|]. injection Hva' as <-. rewrite M2, F2. lia. }
      destruct HC as (e & He & HC). split; [intros HX; rewrite HX in HC; discriminate|]. split; [right; intros s Hs; apply F1, Hs|]. split; [exact Hne|].
      intros err data x Hx. rewrite HC in Hx. injection Hx as <- <- <-. rewrite M3. apply HS, He.
  Qed.
  Lemma full_refused b ds d va cx seed nonce verify rand now : full_ballot im b -> get_contests_for im (pb_style b) = Ok ds -> In d ds -> 1 <= cd_number_elected (ph_desc d) ->
    cd_votes_allowed (ph_desc d) = Some va -> cd_number_elected (ph_desc d) < va -> forall eb, encrypt_ballot E b im cx seed nonce verify rand now <> Ok (Some eb).
  Proof using Hv Hm.
    intros HB Hds Hd H1 Hva Hlt eb He. destruct (full_entry b ds d HB Hds Hd) as [F1 F2]. destruct (style_contests _ _ Hds) as [Hi _]. destruct (filled_matches d _ (Hi d Hd) F1 F2) as (M1 & M2 & _).
    destruct (encrypt_ballot_form _ _ _ _ _ _ _ _ _ _ He) as (ds' & ecs & Hds' & HF & _). assert (ds' = ds) by congruence. subst ds'. destruct (Forall2_in_l _ _ _ _ HF Hd) as (ec & _ & Hec).
    assert (HC : pt_contest_valid (voter_contest b d) d = CheckInvalid).
    { set (c := voter_contest b d) in *. clearbody c. clear -M1 M2 F2 H1 Hva Hlt. destruct M1 as (A1 & A2 & A3 & A4 & A5). unfold pt_contest_valid. rewrite total_selected_marked, total_votes_given, Hva.
      assert (Hp : contest_ph_is_valid d = true) by (apply ph_valid_iff; auto). rewrite Hp. destruct (Z.ltb_spec (len (cd_selections (ph_desc d))) (len (pc_selections c))); [lia|]. rewrite A1. unfold eqb. cbn. rewrite String.eqb_refl. cbn [negb orb].
      destruct (forallb _ _); [|reflexivity]. cbn [negb]. destruct (Z.ltb_spec (SpecElection.marked c) 1); [lia|]. destruct (Z.ltb_spec (SpecElection.marked c) (cd_number_elected (ph_desc d))); [lia|].
      destruct (Z.ltb_spec (cd_number_elected (ph_desc d)) (SpecElection.marked c)); [lia|]. destruct (Z.ltb_spec va (votes_given c)); [lia|]. destruct (Z.ltb_spec (SpecElection.marked c) va); [reflexivity|lia]. }
    unfold encrypt_contest in Hec. rewrite HC in Hec. discriminate.
  Qed.

  (** *** totals *)
  Lemma choices_marked d c : good_contest (ph_desc d) -> filled_in d c -> len (filter (fun o => voter_choice c o =? 1) (cd_selections (ph_desc d))) = SpecElection.marked c.
  Proof using.
    intros HG (F1 & F2 & F3). unfold SpecElection.marked. rewrite <- (len_map sd_id), <- (len_map ps_id). unfold len. f_equal. apply Permutation_length, NoDup_Permutation.
    - apply NoDup_map_filter, HG.
    - apply NoDup_map_filter, F2.
    - assert (HC : forall o s, In s (pc_selections c) -> ps_id s = sd_id o -> voter_choice c o = ps_vote s).
      { intros o s Hs Hid. unfold voter_choice. clear F3. induction (pc_selections c) as [|x l IH]; [destruct Hs|]. cbn [find map] in *. inversion F2 as [|? ? N1 N2]; subst. destruct Hs as [->|Hs].
        - rewrite Hid, String.eqb_refl. reflexivity.
        - destruct (String.eqb_spec (ps_id x) (sd_id o)) as [He|_]; [|apply IH; assumption]. exfalso. apply N1. rewrite He, <- Hid. apply in_map, Hs. }
      intros x. rewrite !in_map_iff. split.
      + intros (o & <- & Ho). apply filter_In in Ho as [Ho Hc]. unfold voter_choice in Hc. destruct (find _ _) as [s|] eqn:Hf; [|discriminate]. apply find_some in Hf as [Hs He]. apply String.eqb_eq in He. exists s. split; [exact He|]. apply filter_In. split; [exact Hs|]. apply Z.eqb_eq in Hc. rewrite Hc. reflexivity.
      + intros (s & <- & Hs). apply filter_In in Hs as [Hs Hp]. destruct (F3 s Hs) as (Hi & Hb & _). apply in_map_iff in Hi as (o & Ho & Hi). exists o. split; [exact Ho|]. apply filter_In. split; [exact Hi|]. rewrite (HC o s Hs (eq_sym Ho)). destruct Hb as [Hb|Hb]; rewrite Hb in *; [discriminate|reflexivity].
  Qed.
  Lemma same_contest d d' : In d (im_contests im) -> In d' (im_contests im) -> cd_id (ph_desc d) = cd_id (ph_desc d') -> d = d'.
  Proof using Hv Hm.
    pose proof (internal_ids E m im Hv Hm) as Hn. induction (im_contests im) as [|x l IH]; intros H1 H2 He; [destruct H1|]. cbn [map] in Hn. inversion Hn as [|? ? N1 N2]; subst. destruct H1 as [->|H1], H2 as [->|H2]; [reflexivity| | |apply IH; assumption]; exfalso; apply N1.
    - rewrite He. apply (in_map (fun d => cd_id (ph_desc d))), H2.
    - rewrite <- He. apply (in_map (fun d => cd_id (ph_desc d))), H1.
  Qed.
  Lemma ballot_total b d : full_ballot im b -> In d (im_contests im) ->
    len (filter (fun o => vote_for im b (cd_id (ph_desc d)) (sd_id o) =? 1) (cd_selections (ph_desc d))) = if has_contest im (cd_id (ph_desc d)) b then cd_number_elected (ph_desc d) else 0.
  Proof using Hv Hm.
    intros HB Hd. destruct HB as (ds & Hds & HF) eqn:HB'. assert (HB2 := HB). clear HB'. unfold has_contest. rewrite Hds. destruct (existsb _ ds) eqn:He.
    - apply existsb_exists in He as (d' & Hd' & He). apply String.eqb_eq in He. destruct (style_contests _ _ Hds) as [Hi Hn]. assert (d' = d) by (apply same_contest; [apply Hi, Hd'|exact Hd|exact He]). subst d'.
      destruct (full_entry b ds d HB2 Hds Hd') as [F1 F2]. destruct (internal_good d Hd) as [HG _]. destruct (filled_matches d _ Hd F1 F2) as (_ & M2 & _). rewrite <- F2, <- (choices_marked d _ HG F1). f_equal. apply filter_ext_in. intros o Ho. f_equal.
      unfold vote_for, find_option. rewrite Hds. replace (find (fun d0 => String.eqb (cd_id (ph_desc d0)) (cd_id (ph_desc d))) ds) with (Some d).
      + replace (find (fun o0 => String.eqb (sd_id o0) (sd_id o)) (cd_selections (ph_desc d))) with (Some o).
        * cbn [option_map]. unfold recorded_vote. replace (overvoted (voter_contest b d) d) with false; [rewrite andb_false_r; reflexivity|]. unfold overvoted. rewrite F2, Z.ltb_irrefl, Z.eqb_refl. cbn [orb andb].
          destruct (cd_votes_allowed (ph_desc d)) as [va|] eqn:Hva; [|reflexivity]. symmetry. apply Z.ltb_ge. rewrite M2, F2. apply (gc_votes _ HG va Hva).
        * pose proof (gc_ids _ HG) as Hu. clear -Ho Hu. induction (cd_selections (ph_desc d)) as [|x l IH]; [destruct Ho|]. cbn [find map] in *. inversion Hu as [|? ? N1 N2]; subst. destruct Ho as [->|Ho]; [rewrite String.eqb_refl; reflexivity|].
          destruct (String.eqb_spec (sd_id x) (sd_id o)) as [Hx|_]; [|apply IH; assumption]. exfalso. apply N1. rewrite Hx. apply in_map, Ho.
      + clear -Hn Hd'. induction ds as [|x l IH]; [destruct Hd'|]. cbn [find map] in *. inversion Hn as [|? ? N1 N2]; subst. destruct Hd' as [->|Ho]; [rewrite String.eqb_refl; reflexivity|].
        destruct (String.eqb_spec (cd_id (ph_desc x)) (cd_id (ph_desc d))) as [Hx|_]; [|apply IH; assumption]. exfalso. apply N1. rewrite Hx. apply (in_map (fun d => cd_id (ph_desc d))), Ho.
    - rewrite filter_false; [reflexivity|]. intros o Ho. unfold vote_for, find_option. rewrite Hds. destruct (find _ ds) as [d'|] eqn:Hf; [|reflexivity]. exfalso. apply find_some in Hf as [Hf1 Hf2].
      assert (HT : existsb (fun d0 => String.eqb (cd_id (ph_desc d0)) (cd_id (ph_desc d))) ds = true) by (apply existsb_exists; eauto). congruence.
  Qed.
  Lemma sum_add {A} (f g : A -> Z) l : sumZ (map (fun x => f x + g x) l) = sumZ (map f l) + sumZ (map g l).
  Proof using. unfold sumZ. induction l as [|x l IH]; cbn [map fold_right]; [reflexivity|]. rewrite IH. lia. Qed.
  Lemma sum_bool {A} (f : A -> bool) l : sumZ (map (fun x => if f x then 1 else 0) l) = len (filter f l).
  Proof using. unfold sumZ. induction l as [|x l IH]; cbn [map fold_right filter]; [reflexivity|]. rewrite IH. destruct (f x); rewrite ?len_cons; lia. Qed.
  Lemma marks_total bs c : (forall b, In b bs -> full_ballot im b) -> In c (mf_contests m) ->
    sumZ (map (fun o => SpecCli.marked im bs (cd_id c) (sd_id o)) (cd_selections c)) = cd_number_elected c * len (filter (has_contest im (cd_id c)) bs).
  Proof using Hv Hm.
    intros HB Hc. apply make_internal_spec in Hm as HS. destruct HS as (_ & _ & _ & HF). destruct (Forall2_in_l _ _ _ _ HF Hc) as (d & Hd & _ & He). assert (E1 : cd_id (ph_desc d) = cd_id c) by (rewrite He; reflexivity).
    assert (E2 : cd_selections (ph_desc d) = cd_selections c) by (rewrite He; reflexivity). assert (E3 : cd_number_elected (ph_desc d) = cd_number_elected c) by (rewrite He; reflexivity). rewrite <- E1, <- E2, <- E3. clear HF He E1 E2 E3.
    induction bs as [|b bs IH].
    - clear -im. transitivity 0; [|unfold len; cbn [filter List.length Z.of_nat]; lia]. unfold SpecCli.marked, sumZ. induction (cd_selections (ph_desc d)) as [|x l IHl]; [reflexivity|]. cbn [map fold_right]. rewrite IHl. reflexivity.
    - specialize (IH (fun x Hx => HB x (or_intror Hx))). pose proof (ballot_total b d (HB b (or_introl eq_refl)) Hd) as HT. rewrite <- sum_bool in HT.
      replace (map (fun o => SpecCli.marked im (b :: bs) (cd_id (ph_desc d)) (sd_id o)) (cd_selections (ph_desc d)))
        with (map (fun o => (if vote_for im b (cd_id (ph_desc d)) (sd_id o) =? 1 then 1 else 0) + SpecCli.marked im bs (cd_id (ph_desc d)) (sd_id o)) (cd_selections (ph_desc d))).
      2:{ apply map_ext. intros o. unfold SpecCli.marked. cbn [filter]. destruct (vote_for im b _ _ =? 1); rewrite ?len_cons; lia. }
      rewrite sum_add, IH, HT. cbn [filter]. destruct (has_contest im (cd_id (ph_desc d)) b); rewrite ?len_cons; lia.
  Qed.
End Full.

(** ** the command *)
Section Command.
  Context (E : env) (lk : luck) (HL : honest_luck lk) (n : Z) (st : option string) (mp cp d : string) (dk : disk) (m : manifest) (im : internal_manifest) (cx : context).
  Context (Hmf : dget mp (dk_files dk) = Some (JManifest m)) (Hcf : dget cp (dk_files dk) = Some (JContext cx)) (Hm : make_internal E m = Ok im) (Hd : plain_dir d) (Hu : fresh_ids lk n).
  Notation run := (mark_command E lk n st mp cp (Some d) dk).
  Definition mark_entries (bs : list pt_ballot) : list (content * string) := map (fun b => (JPlain b, pb_id b)) bs.
  Lemma mark_run nm : manifest_is_valid m = true -> get_name m = Ok nm -> run = match fake_ballots im n st false false lk with Err e => failed dk e | Ok bs => let '(dk1, a) := to_files dk (map (fun e : content * string => (fst e, snd e, d)) (mark_entries bs)) in mkOut dk1 None a end.
  Proof using Hmf Hcf Hm.
    intros Hv Hn. unfold mark_command. rewrite (manifest_gets dk mp m nm Hmf Hv Hn). cbn [rbind]. rewrite (context_read dk cp _ Hcf). cbn [rbind]. unfold build_with_context. rewrite (built E _ _ m im _ Hm Hv). cbn [rbind fst].
    destruct (fake_ballots im n st false false lk); [|reflexivity]. unfold mark_entries. rewrite map_map. reflexivity.
  Qed.
  Lemma prefix_slash s t : has_slash (s ++ t)%string = (has_slash s || has_slash t)%bool.
  Proof using. induction s as [|c s IH]; [reflexivity|]. cbn. rewrite IH. apply orb_assoc. Qed.
  Lemma prefix_inj s a b : (s ++ a)%string = (s ++ b)%string -> a = b.
  Proof using. induction s as [|c s IH]; cbn; [auto|]. intros H. injection H as H. apply IH, H. Qed.
  Lemma mark_entries_fine bs : map pb_id bs = map (fun i => "ballot-" ++ lk_uuid lk i)%string (seq 0 (Z.to_nat n)) -> NoDup (map snd (mark_entries bs)) /\ (forall e, In e (mark_entries bs) -> has_slash (snd e) = false) /\ file_ids bs.
  Proof using Hu.
    intros Hi. destruct Hu as [U1 U2]. assert (HN : NoDup (map pb_id bs)).
    { rewrite Hi, <- (map_map (lk_uuid lk) (fun u => "ballot-" ++ u)%string). apply FinFun.Injective_map_NoDup; [|exact U1]. intros a b. apply prefix_inj. }
    assert (HS : forall b, In b bs -> has_slash (pb_id b) = false /\ pb_id b <> "device"%string).
    { intros b Hb. apply (in_map pb_id) in Hb. rewrite Hi in Hb. apply in_map_iff in Hb as (i & <- & Hb). apply in_seq in Hb. split; [rewrite prefix_slash; apply U2; lia|]. intros H. cbn in H. discriminate. }
    unfold mark_entries. rewrite map_map. cbn [snd]. split; [exact HN|]. split; [|split; assumption]. intros e He. apply in_map_iff in He as (b & <- & Hb). apply HS, Hb.
  Qed.
  Lemma mark_done : oc_end run = Ok tt -> exists bs, map pb_id bs = map (fun i => "ballot-" ++ lk_uuid lk i)%string (seq 0 (Z.to_nat n)) /\ file_ids bs /\
    (forall b, In b bs -> match st with Some s => pb_style b = s | None => In (pb_style b) (map bs_id (im_styles im)) end /\ full_ballot im b) /\
    (forall b, In b bs -> dget (file_named d (pb_id b)) (dk_files (oc_disk run)) = Some (JPlain b)) /\
    (forall p, (forall b, In b bs -> p <> file_named d (pb_id b)) -> dget p (dk_files (oc_disk run)) = dget p (dk_files dk)).
  Proof using HL Hmf Hcf Hm Hd Hu.
    intros Ho. assert (HV : manifest_is_valid m = true /\ exists nm, get_name m = Ok nm).
    { unfold mark_command in Ho. destruct (get_manifest dk mp) as [x|] eqn:Hx; [|discriminate]. destruct (manifest_got _ _ _ _ Hmf Hx) as (_ & H). exact H. }
    destruct HV as (Hv & nm & Hnm). revert Ho. rewrite (mark_run nm Hv Hnm). destruct (fake_ballots im n st false false lk) as [bs|] eqn:Hb; [|discriminate]. destruct (fake_ballots_full _ _ _ _ _ HL Hb) as [F1 F2].
    destruct (mark_entries_fine bs F1) as (N1 & N2 & N3). destruct (to_files dk _) as [dk1 a] eqn:Ht. cbn [oc_end oc_disk]. intros ->. destruct (dir_read d Hd (mark_entries bs) N1 N2 dk dk1 Ht) as [R1 R2].
    exists bs. split; [exact F1|]. split; [exact N3|]. split; [exact F2|]. split.
    - intros b Hb'. apply (R1 (JPlain b, pb_id b)). unfold mark_entries. apply in_map_iff. exists b. auto.
    - intros p Hp. apply R2. intros e He. unfold mark_entries in He. apply in_map_iff in He as (b & <- & Hb'). apply Hp, Hb'.
  Qed.
  Lemma mark_ends nm : manifest_is_valid m = true -> get_name m = Ok nm -> (forall c, In c (mf_contests m) -> 0 <= cd_number_elected c) ->
    match st with Some s => In s (map bs_id (mf_styles m)) | None => mf_styles m <> [] end -> writable dk d (map (fun i => "ballot-" ++ lk_uuid lk i)%string (seq 0 (Z.to_nat n))) -> oc_end run = Ok tt.
  Proof using HL Hmf Hcf Hm Hd Hu.
    intros Hv Hnm Hc Hst Hw. rewrite (mark_run nm Hv Hnm). destruct (make_internal_spec _ _ _ Hm) as (_ & Es & _). rewrite <- Es in Hst. destruct (fake_ballots_total E m im st lk n Hv Hm Hc Hst) as [bs Hb]. rewrite Hb.
    destruct (fake_ballots_full _ _ _ _ _ HL Hb) as [F1 F2]. destruct (mark_entries_fine bs F1) as (N1 & N2 & _). destruct (dir_writes d Hd (mark_entries bs) N2 dk) as (dk' & -> & _); [|reflexivity].
    replace (map snd (mark_entries bs)) with (map pb_id bs) by (unfold mark_entries; rewrite map_map; reflexivity). rewrite F1. exact Hw.
  Qed.
  Lemma mark_unknown s : st = Some s -> ~ In s (map bs_id (mf_styles m)) -> 0 < n -> exists e, run = mkOut dk None (Err e).
  Proof using Hm Hmf Hcf.
    intros -> Hs Hn. unfold mark_command. destruct (get_manifest dk mp) as [x|e] eqn:Hx; [|exists e; reflexivity]. destruct (manifest_got _ _ _ _ Hmf Hx) as (-> & Hv & _). cbn [rbind]. rewrite (context_read dk cp _ Hcf). cbn [rbind].
    unfold build_with_context. rewrite (built E _ _ m im _ Hm Hv). cbn [rbind fst]. unfold fake_ballots. destruct (Z.to_nat n) as [|k] eqn:Hk; [lia|]. cbn [seq rmapM]. unfold fake_ballot at 1, get_ballot_style.
    destruct (make_internal_spec _ _ _ Hm) as (_ & Es & _). destruct (find_first _ _) as [y|] eqn:Hf; [|cbn [rbind]; eexists; reflexivity]. exfalso. apply find_first_some in Hf as [Hf He]. apply String.eqb_eq in He. apply Hs. rewrite <- He, <- Es. apply in_map, Hf.
  Qed.
End Command.
(** the ballots can be handed to encrypt-ballots *)
Lemma marked_copies dk d from bs od : (forall b, In b bs -> dget (file_named od (pb_id b)) (dk_files from) = Some (JPlain b)) -> copies dk d from (map (fun b => file_named od (pb_id b)) bs) -> plain_ballots dk d bs.
Proof.
  intros H HC. right. split; [apply HC|]. apply (copies_values JPlain dk d from _ bs HC). clear HC. induction bs as [|b bs IH]; [constructor|]. cbn [map]. constructor; [apply H; left; reflexivity|]. apply IH. intros x Hx. apply H. right. exact Hx.
Qed.
(** encrypt-ballots fails when a contest allows more votes than it has seats *)
Lemma loop_all E rnd im cx : forall bs i seed ebs, encrypt_loop E rnd i (mkEncMed im cx seed) bs = Ok ebs -> forall b, In b bs -> exists s j eb, encrypt_ballot E b im cx s None false (fst (rnd j)) (snd (rnd j)) = Ok (Some eb).
Proof.
  induction bs as [|x bs IH]; intros i seed ebs H b Hb; [destruct Hb|]. cbn [encrypt_loop] in H. unfold mediator_encrypt in H. cbn [em_manifest em_context em_seed] in H.
  destruct (encrypt_ballot E x im cx seed None false (fst (rnd i)) (snd (rnd i))) as [[eb|]|] eqn:He; cbn [rbind get_optional] in H; try discriminate. destruct (encrypt_loop E rnd (S i) (mkEncMed im cx (cb_code eb)) bs) as [l|] eqn:Hl; cbn [rbind] in H; [|discriminate].
  destruct Hb as [->|Hb]; [eauto|]. exact (IH _ _ _ Hl b Hb).
Qed.
Lemma encrypt_refuses E m im n k key h ch mp cp bp ed dk bs b ds d va : make_internal E m = Ok im -> fair E ch -> proper_disk dk -> dget mp (dk_files dk) = Some (JManifest m) ->
  dget cp (dk_files dk) = Some (JContext (make_context E n k key h (im_hash im))) -> plain_ballots dk bp bs -> In b bs -> full_ballot im b -> get_contests_for im (pb_style b) = Ok ds -> In d ds ->
  1 <= cd_number_elected (ph_desc d) -> cd_votes_allowed (ph_desc d) = Some va -> cd_number_elected (ph_desc d) < va -> exists e, encrypt_command E ch mp cp bp (Some ed) dk = mkOut dk None (Err e).
Proof.
  intros Hm HF Hp Hmf Hcf Hbs Hb HB Hds Hd H1 Hva Hlt. destruct (get_manifest dk mp) as [x|e] eqn:Hx.
  2:{ exists e. unfold encrypt_command. rewrite Hx. reflexivity. }
  destruct (manifest_got _ _ _ _ Hmf Hx) as (-> & Hv & nm & Hnm). destruct (encrypt_run E m im Hm Hv nm Hnm n k key h ch HF mp cp bp ed dk Hp Hmf Hcf bs Hbs) as (bs' & HP & ->).
  destruct (encrypt_votes E ch bs' im _) as [ebs|e] eqn:He; [|exists e; reflexivity]. exfalso. apply (Permutation_in _ (Permutation_sym HP)) in Hb. destruct (loop_all E _ im _ bs' 0%nat _ ebs He b Hb) as (s & j & eb & HX).
  exact (full_refused E m im Hv Hm b ds d va _ _ _ _ _ _ HB Hds Hd H1 Hva Hlt eb HX).
Qed.
