(** * CliE2e: the guardians, the files that are read, and the election of the e2e command. *)
From Coq Require Import Permutation List Znumtheory.
From Verif Require Import Base Group Codec Hash DLog ElGamal ZK Poly Manifest Ballot Encrypt Box Tally Spec SpecElection SpecTally
  ListFacts GroupFacts ZKFacts CryptoThms ManifestThms EncryptFacts BallotFacts EncryptThms TallyFacts TallyThms TallyMore BoxFacts
  Ceremony SpecCeremony Shares SpecShares SharesFacts ShareRun SharesThms SharesMore Verify SpecVerify VerifyFacts SpecEndToEnd EndToEnd
  GuiDecrypt GuiDecPure GuiElection Report SpecReport ReportFacts ReportLink ReportPages Cli SpecCli CliDec CliRun CliPaths.
Local Open Scope Z_scope.
Local Open Scope list_scope.

Lemma decimal_some n : decimal n <> ""%string.
Proof.
  unfold decimal. assert (H : forall u, u <> Decimal.Nil -> DecimalString.NilEmpty.string_of_uint u <> ""%string) by (intros []; cbn; [congruence|discriminate..]).
  assert (G : forall p, Pos.to_uint p <> Decimal.Nil).
  { intros p Hp. pose proof (DecimalPos.Unsigned.to_uint_nonnil p) as K. contradiction. }
  destruct n as [|p|p]; cbn; [discriminate|apply H, G|discriminate].
Qed.
Lemma rmapM_ext {A B} (f g : A -> res B) : forall l, (forall x, In x l -> f x = g x) -> rmapM f l = rmapM g l.
Proof. induction l as [|x l IH]; intros H; [reflexivity|]. cbn [rmapM]. rewrite (H x (or_introl eq_refl)), IH; [reflexivity|]. intros y Hy. apply H. right. exact Hy. Qed.
Lemma rmapM_map {A B C} (f : B -> res C) (g : A -> B) : forall l, rmapM f (map g l) = rmapM (fun x => f (g x)) l.
Proof. induction l as [|x l IH]; [reflexivity|]. cbn [map rmapM]. rewrite IH. reflexivity. Qed.
Lemma rmapM_all {A B} (f : A -> res B) (g : B -> A) : (forall b, f (g b) = Ok b) -> forall l, rmapM f (map g l) = Ok l.
Proof. intros H. induction l as [|x l IH]; [reflexivity|]. cbn [map rmapM]. rewrite H, IH. reflexivity. Qed.

(** ** the guardians *)
(** the ceremony changes nobody's keys *)
Lemma rmapM_keys {A B C} (f : A -> res B) (ka : A -> C) (kb : B -> C) : (forall a b, f a = Ok b -> kb b = ka a) -> forall l l', rmapM f l = Ok l' -> map kb l' = map ka l.
Proof.
  intros H. induction l as [|a l IH]; intros l' HR; cbn [rmapM] in HR; [injection HR as <-; reflexivity|]. destruct (f a) as [b|] eqn:Ha; cbn [rbind] in HR; [|discriminate].
  destruct (rmapM f l) as [l1|]; cbn [rbind] in HR; [|discriminate]. injection HR as <-. cbn [map]. rewrite (H _ _ Ha), (IH l1 eq_refl). reflexivity.
Qed.
Lemma backups_keys E rnd ks : forall g g' r, generate_backups_loop E rnd ks g = (g', r) -> gd_keys g' = gd_keys g.
Proof.
  induction ks as [|k ks IH]; intros g g' r H; cbn [generate_backups_loop] in H; [injection H as <- _; reflexivity|]. destruct (generate_backup _ _ _ _ _) as [b|]; [|injection H as <- _; reflexivity].
  rewrite (IH _ _ _ H). reflexivity.
Qed.
Lemma fold_keys {A} (f : guardian -> A -> guardian) : (forall g x, gd_keys (f g x) = gd_keys g) -> forall l g, gd_keys (fold_left f l g) = gd_keys g.
Proof. intros H. induction l as [|x l IH]; intros g; [reflexivity|]. cbn [fold_left]. rewrite IH. apply H. Qed.
Lemma send_keys E rnd : forall gs m r, send_backups E rnd gs m = Ok r -> map gd_keys (fst r) = map gd_keys gs.
Proof.
  induction gs as [|g gs IH]; intros m r H; cbn [send_backups] in H; [injection H as <-; reflexivity|]. destruct (gd_generate_backups E (rnd (gd_id g)) g) as [g' a] eqn:Hg. destruct a; cbn [rbind] in H; [|discriminate].
  destruct (send_backups E rnd gs _) as [r'|] eqn:Hs; cbn [rbind] in H; [|discriminate]. injection H as <-. cbn [fst map]. rewrite (IH _ _ Hs), (backups_keys _ _ _ _ _ _ Hg). reflexivity.
Qed.
Lemma ceremony_keys E rnd gs m gs' m' : full_ceremony E rnd gs m = Ok (gs', m') -> map gd_keys gs' = map gd_keys gs.
Proof.
  unfold full_ceremony, round_1. set (m1 := fold_left _ gs m). clearbody m1. destruct (rmapM _ gs) as [gs1|] eqn:H1; cbn [rbind fst snd]; [|discriminate].
  apply (rmapM_keys _ gd_keys gd_keys) in H1; [|intros a b Hab; destruct (get_optional _) as [ks|]; cbn [rbind] in Hab; [|discriminate]; injection Hab as <-; apply fold_keys; reflexivity].
  unfold round_2. destruct (send_backups E rnd gs1 m1) as [r|] eqn:H2; cbn [rbind fst snd]; [|discriminate]. apply send_keys in H2.
  destruct (rmapM _ (fst r)) as [gs2|] eqn:H3; cbn [rbind fst snd]; [|discriminate].
  apply (rmapM_keys _ gd_keys gd_keys) in H3; [|intros a b Hab; destruct (share_backups _ _) as [o|]; cbn [rbind] in Hab; [|discriminate]; destruct (get_optional o) as [bs|]; cbn [rbind] in Hab; [|discriminate]; injection Hab as <-; apply fold_keys; reflexivity].
  destruct (round_3 _ _ _); cbn [rbind]; [|discriminate]. intros [= <- _]. congruence.
Qed.
Definition seat_at (ch : chance) (k : Z) (i : nat) : seat := mkSeat (decimal (Z.of_nat i + 1)) (Z.of_nat i + 1) (map (ch_draw ch i) (seq 0 (Z.to_nat k))).
Definition seats_at (ch : chance) (n k : Z) : list seat := map (seat_at ch k) (seq 0 (Z.to_nat n)).
Section Guardians.
  Context (E : env) (HE : valid_env E) (Hh : hmac_32 E) (Hq : qq E <= 2 ^ 1024) (ch : chance) (HF : fair E ch) (n k : Z) (Hfit : seats_fit E n k).
  Notation ss := (seats_at ch n k).
  Lemma seat_order s : In s ss -> 1 <= st_seq s <= n.
  Proof. intros H. apply in_map_iff in H as (i & <- & Hi). apply in_seq in Hi. cbn [st_seq seat_at]. destruct Hfit as (? & _). lia. Qed.
  Lemma seats_len : len ss = n.
  Proof. unfold len, seats_at. rewrite map_length, seq_length. destruct Hfit as (? & _). lia. Qed.
  Lemma seats_good : good_seats E (Z.to_nat k) ss.
  Proof.
    destruct Hfit as (Hkn & Hnq & Hpow). constructor.
    - unfold seats_at. rewrite map_map. cbn [st_id seat_at]. apply FinFun.Injective_map_NoDup; [|apply seq_NoDup]. intros a b H. apply decimal_inj in H. lia.
    - apply Forall_forall. intros s H. apply in_map_iff in H as (i & <- & _). apply decimal_some.
    - lia.
    - apply Forall_forall. intros s H. apply in_map_iff in H as (i & <- & _). cbn [st_draws st_secrets seat_at]. rewrite map_length, seq_length. split; [reflexivity|].
      unfold st_secrets. cbn [st_draws seat_at]. rewrite map_map. apply Forall_map, Forall_forall. intros j _. apply (fa_draw E ch HF i j).
    - apply Forall_forall. intros s H. pose proof (seat_order s H) as Hs. split; [lia|]. intros j Hj. apply (Z.le_lt_trans _ (n ^ (k - 1))); [|exact Hpow].
      transitivity (n ^ j); [apply Z.pow_le_mono_l; lia|apply Z.pow_le_mono_r; lia].
  Qed.
  Lemma seats_some : ss <> [].
  Proof. intros H. pose proof seats_len as Hl. rewrite H in Hl. destruct Hfit as (? & _). cbn in Hl. lia. Qed.
  Lemma seats_quorum : (Z.to_nat k <= length ss)%nat.
  Proof. unfold seats_at. rewrite map_length, seq_length. destruct Hfit as (? & _). lia. Qed.
  Lemma seats_orders : NoDup (map (fun s => st_seq s mod qq E) ss).
  Proof.
    destruct Hfit as (Hkn & Hnq & _). unfold seats_at. rewrite map_map. cbn [st_seq seat_at].
    assert (G : forall l, NoDup l -> (forall i, In i l -> Z.of_nat i < n) -> NoDup (map (fun i => (Z.of_nat i + 1) mod qq E) l)).
    { induction l as [|i l IH]; intros Hn Hl; [constructor|]. inversion Hn as [|? ? Hi Hn']; subst. cbn [map]. constructor; [|apply IH; [exact Hn'|intros j Hj; apply Hl; right; exact Hj]].
      intros H. apply in_map_iff in H as (j & Hj & Hjl). pose proof (Hl i (or_introl eq_refl)). pose proof (Hl j (or_intror Hjl)). rewrite !Z.mod_small in Hj by lia. assert (j = i) by lia. subst j. contradiction. }
    apply G; [apply seq_NoDup|]. intros i Hi. apply in_seq in Hi. lia.
  Qed.
  Lemma guardians_made : exists gs gs' j, create_guardians E ch n k = Ok gs /\ run_key_ceremony E ch gs = Ok (gs', j) /\ jk_key j = gexp E (sumZ (map st_secret ss)) /\
    Forall2 (holder E) ss gs' /\ Forall (fun g => good_published E k (guardian_publish g)) gs'.
  Proof.
    destruct (ceremony_ready E (ch_backup ch) (Z.to_nat k) ss "mediator_1" HE Hh Hq seats_good (fa_backup E ch HF)) as (gs & gs' & md & R1 & R2 & R3 & R4 & _).
    assert (Hk : Z.of_nat (Z.to_nat k) = k) by (destruct Hfit as (? & _); lia). rewrite Hk, seats_len in *.
    assert (Hc : create_guardians E ch n k = Ok gs). { rewrite <- R1. unfold create_guardians, seats_at. rewrite rmapM_map. reflexivity. }
    exists gs, gs'. eexists. split; [exact Hc|]. split; [|split; [|split; [eapply F2_impl; [|exact R4]; intros s g [G1 G2 _ _]; split; assumption|]]].
    - unfold run_key_ceremony. destruct gs as [|g gs1].
      + exfalso. apply seats_some. destruct ss as [|s l] eqn:Hs; [reflexivity|]. exfalso. cbn [rmapM] in R1. destruct (guardian_from_nonce _ _ _ _ _ _) as [g|]; cbn [rbind] in R1; [|discriminate]. destruct (rmapM _ l); cbn [rbind] in R1; discriminate.
      + assert (Hg : gd_details g = mkDetails n k).
        { destruct ss as [|s l] eqn:Hs; [discriminate R1|]. cbn [rmapM] in R1. destruct (guardian_from_nonce E (st_id s) (st_seq s) n k (st_draws s)) as [g'|] eqn:Hg; cbn [rbind] in R1; [|discriminate].
          destruct (rmapM _ l); cbn [rbind] in R1; [|discriminate]. injection R1 as -> _. unfold guardian_from_nonce in Hg. destruct (generate_election_key_pair _ _ _ _) as [kp|]; cbn [rbind] in Hg; [|discriminate]. injection Hg as <-. reflexivity. }
        rewrite Hg, R2. cbn [rbind snd fst]. rewrite R3. cbn [rbind get_optional]. reflexivity.
    - reflexivity.
    - apply ceremony_keys in R2. apply Forall_forall. intros g Hg. apply (in_map gd_keys) in Hg. rewrite R2 in Hg. clear R1 R2 R3 R4. apply in_map_iff in Hg as (g0 & Hk0 & Hg).
      unfold guardian_publish, share_key. rewrite <- Hk0. clear Hk0. unfold create_guardians in Hc.
      assert (Hex : exists i, guardian_from_nonce E (decimal (Z.of_nat i + 1)) (Z.of_nat i + 1) n k (map (ch_draw ch i) (seq 0 (Z.to_nat k))) = Ok g0).
      { clear -Hc Hg. revert gs Hc Hg. induction (seq 0 (Z.to_nat n)) as [|i l IH]; intros gs Hc Hg; cbn [rmapM] in Hc; [injection Hc as <-; destruct Hg|].
        destruct (guardian_from_nonce _ _ _ _ _ _) as [g1|] eqn:H1; cbn [rbind] in Hc; [|discriminate]. destruct (rmapM _ l) as [l1|]; cbn [rbind] in Hc; [|discriminate]. injection Hc as <-. destruct Hg as [->|Hg]; [eauto|apply (IH l1 eq_refl Hg)]. }
      destruct Hex as [i Hi]. unfold guardian_from_nonce, generate_election_key_pair in Hi. remember (map (ch_draw ch i) (seq 0 (Z.to_nat k))) as dr eqn:Hdr.
      assert (Hfr : Forall (fun d => 0 <= fst d < qq E /\ 0 <= snd d < qq E) dr) by (rewrite Hdr; apply Forall_map, Forall_forall; intros j _; apply (fa_draw E ch HF)).
      destruct (generated_polynomial E HE dr Hfr) as (_ & _ & P3). destruct (generate_polynomial E dr) as [|c pl] eqn:Hpl; cbn [rbind] in Hi; [discriminate|]. injection Hi as <-.
      unfold good_published, publish_guardian_record, share_keys, new_guardian, save_guardian_key. cbn [gd_keys gr_commitments gr_key gr_proofs pk_commitments pk_key pk_proofs ek_poly ek_pair kp_public]. split; [|split; [reflexivity|split; [|exact P3]]].
      + unfold get_commitments, len. rewrite map_length, <- Hpl. unfold generate_polynomial. rewrite map_length, Hdr, map_length, seq_length. exact Hk.
      + unfold get_proofs, get_commitments. rewrite map_map, <- Hpl. unfold generate_polynomial. rewrite !map_map. reflexivity.
  Qed.
End Guardians.

(** ** reading *)
Lemma read_dir_is {A} order (conv : content -> res A) dk d l : (forall l, Permutation (order l) l) -> proper_disk dk -> directory dk d l ->
  exists l', Permutation l' l /\ read_dir order conv dk d = rmapM conv (map snd l').
Proof.
  intros Ho Hp HD. pose proof (names_map_file dk d l HD Hp) as HN. destruct HD as (H1 & H2 & H3 & H4 & H5 & H6).
  set (X := names_in d (dkeys (dk_files dk)) ++ names_in d (dk_dirs dk)) in *.
  assert (HX : Permutation (order X) (map fst l)) by (rewrite (Ho X); exact HN).
  apply Permutation_map_inv in HX as (l' & HX & Hl'). exists l'. split; [symmetry; exact Hl'|]. unfold read_dir, listdir, is_dir. apply inb_spec in H3. apply String.eqb_neq in H1 as H1'. rewrite H3, H1'. cbn [negb andb rbind].
  fold X. rewrite HX, !rmapM_map. apply rmapM_ext. intros [f x] Hfx. cbn [fst snd]. assert (Hin : In (f, x) l) by (apply (Permutation_in _ (Permutation_sym Hl')), Hfx). apply H5 in Hin as [Hs Hg].
  rewrite (os_join_plain d f H1 H2 Hs). unfold from_file. rewrite Hg. reflexivity.
Qed.
Lemma plain_read order dk p bs : (forall l, Permutation (order l) l) -> proper_disk dk -> plain_ballots dk p bs -> exists bs', Permutation bs' bs /\ get_ballots_at order as_plain as_plains dk p = Ok bs'.
Proof.
  intros Ho Hp [Hf|(Hf & l & HD & HL)]; unfold get_ballots_at.
  - exists bs. split; [reflexivity|]. unfold dmem, from_file. rewrite Hf. reflexivity.
  - destruct (read_dir_is order as_plain dk p l Ho Hp HD) as (l' & L1 & L2). unfold dmem. rewrite Hf. assert (Hd : is_dir dk p = true).
    { destruct HD as (H1 & _ & H3 & _). unfold is_dir. apply inb_spec in H3. apply String.eqb_neq in H1. rewrite H1, H3. reflexivity. }
    rewrite Hd, L2. assert (HP : Permutation (map snd l') (map JPlain bs)) by (rewrite (Permutation_map snd L1); exact HL). apply Permutation_map_inv in HP as (bs' & -> & HB). exists bs'. split; [symmetry; exact HB|].
    apply rmapM_all. reflexivity.
Qed.
Lemma manifest_read dk p m : dget p (dk_files dk) = Some (JManifest m) -> get_manifest dk p = Ok m \/ exists e, get_manifest dk p = Err e.
Proof. intros H. unfold get_manifest, from_file. rewrite H. cbn [rbind as_manifest]. destruct (manifest_is_valid m); [|right; eauto]. destruct (get_name m); cbn [rbind]; eauto. Qed.
Lemma built E n k m im j : make_internal E m = Ok im -> manifest_is_valid m = true -> build_election E n k m j = Ok (im, make_context E n k (jk_key j) (jk_hash j) (im_hash im)).
Proof.
  intros Hm Hv. unfold build_election, builder_build. rewrite Hm. cbn [rbind]. rewrite Hv. cbn [negb rbind get_optional]. destruct (make_internal_spec _ _ _ Hm) as (-> & _). reflexivity.
Qed.

(** ** the voters of the ballots *)
Definition state_for (sp : option string) (b : pt_ballot) : box_state := if named_spoiled sp b then SPOILED else CAST.
Lemma state_same sp b : state_by sp (pb_id b) = state_for sp b.
Proof. reflexivity. Qed.
Lemma cast_voters im sp vs bs cid oid : Forall2 (behind_ballot (state_for sp)) vs bs -> cast_count im vs cid oid = marked im (cast_of sp bs) cid oid.
Proof.
  intros HF. unfold cast_count, marked, cast_of, len. f_equal. induction HF as [|v b vs bs [H1 H2] HF IH]; [reflexivity|]. cbn [filter]. unfold is_cast at 1. rewrite H2, H1. unfold state_for.
  destruct (named_spoiled sp b); cbn [box_state_eqb andb negb filter]; [exact IH|]. destruct (vote_for im b cid oid =? 1); cbn [List.length]; rewrite IH; reflexivity.
Qed.
Lemma cast_number sp vs bs : Forall2 (behind_ballot (state_for sp)) vs bs -> len (filter is_cast vs) <= len bs.
Proof.
  intros HF. unfold len. apply inj_le. induction HF as [|v b vs bs _ HF IH]; [apply Nat.le_refl|]. cbn [filter List.length]. destruct (is_cast v); cbn [List.length]; lia.
Qed.
Lemma spoiled_voters sp vs bs : Forall2 (behind_ballot (state_for sp)) vs bs -> map vr_ballot (filter is_spoiled vs) = spoiled_of sp bs.
Proof.
  intros HF. unfold spoiled_of. induction HF as [|v b vs bs [H1 H2] HF IH]; [reflexivity|]. cbn [filter]. unfold is_spoiled at 1. rewrite H2. unfold state_for.
  destruct (named_spoiled sp b); cbn [box_state_eqb map]; rewrite IH; [rewrite H1|]; reflexivity.
Qed.
Lemma voters_ids st vs bs : Forall2 (behind_ballot st) vs bs -> map vr_id vs = map pb_id bs.
Proof. intros HF. induction HF as [|v b vs bs [H1 H2] HF IH]; [reflexivity|]. cbn [map]. rewrite IH. unfold vr_id. rewrite H1. reflexivity. Qed.
Lemma voters_in st vs bs v : Forall2 (behind_ballot st) vs bs -> In v vs -> In (vr_ballot v) bs /\ vr_state v = st (vr_ballot v).
Proof. intros HF Hi. destruct (Forall2_in_l _ _ _ _ HF Hi) as (b & Hb & H1 & H2). rewrite H1. auto. Qed.
Lemma permuted_marks im bs bs' cid oid : Permutation bs bs' -> marked im bs cid oid = marked im bs' cid oid.
Proof. intros HP. unfold marked, len. f_equal. induction HP as [|x l l' HP IH|x y l|l l' l'' H1 IH1 H2 IH2]; [reflexivity| | |congruence]; cbn [filter]; repeat (destruct (_ =? 1)); cbn [List.length]; auto. Qed.
Lemma permuted_filter {A} (f : A -> bool) l l' : Permutation l l' -> Permutation (filter f l) (filter f l').
Proof. intros HP. induction HP as [|x l l' HP IH|x y l|l l' l'' H1 IH1 H2 IH2]; cbn [filter]; [constructor| | |etransitivity; eassumption]; [destruct (f x); auto|]. destruct (f x), (f y); try reflexivity. apply perm_swap. Qed.
Lemma spoiled_one sp bs : NoDup (map pb_id bs) -> (length (spoiled_of sp bs) <= 1)%nat.
Proof.
  intros Hn. unfold spoiled_of. destruct sp as [i|]; [|assert (H : filter (named_spoiled None) bs = []) by (clear; induction bs; auto); rewrite H; cbn; lia].
  assert (HN : NoDup (map pb_id (filter (named_spoiled (Some i)) bs))) by (apply NoDup_map_filter, Hn).
  destruct (filter (named_spoiled (Some i)) bs) as [|a [|b l]] eqn:Hf; cbn; try lia. exfalso.
  assert (Ha : In a (filter (named_spoiled (Some i)) bs)) by (rewrite Hf; left; reflexivity). assert (Hb : In b (filter (named_spoiled (Some i)) bs)) by (rewrite Hf; right; left; reflexivity).
  apply filter_In in Ha as [_ Ha], Hb as [_ Hb]. cbn [named_spoiled] in Ha, Hb. apply String.eqb_eq in Ha, Hb. cbn [map] in HN. inversion HN as [|? ? Hi _]; subst. apply Hi. left. congruence.
Qed.
Lemma permuted_one {A} (l l' : list A) : (length l <= 1)%nat -> Permutation l l' -> l = l'.
Proof.
  intros Hl HP. destruct l as [|a [|b l]]; cbn in Hl; [apply Permutation_nil in HP; auto|apply Permutation_length_1_inv in HP; auto|lia].
Qed.

(** ** the e2e command up to the decryption *)
Section E2e.
  Context (E : env) (HE : valid_env E) (Hh : hmac_32 E) (Hq : qq E <= 2 ^ 1024) (ch : chance) (HF : fair E ch) (n k : Z) (Hfit : seats_fit E n k).
  Context (m : manifest) (im : internal_manifest) (Hm : make_internal E m = Ok im) (Hdist : distinct_option_ids im).
  Context (mp bp : string) (sp : option string) (dk : disk) (Hp : proper_disk dk) (Hmf : dget mp (dk_files dk) = Some (JManifest m)).
  Context (bs : list pt_ballot) (Hbs : plain_ballots dk bp bs) (Hst : forall b, In b bs -> usable_style E im b) (Hvf : votes_fit E (len bs)).
  Notation ss := (seats_at ch n k).
  (** what an election leaves *)
  Record good_end (d : e2e_done) : Prop := {
    ge_ids : NoDup (map pb_id bs);
    ge_manifest : ee_manifest d = m;
    ge_guardians : Forall2 (holder E) ss (ee_guardians d);
    ge_published : Forall (fun g => good_published E k (guardian_publish g)) (ee_guardians d);
    ge_context : cx_guardians (ee_context d) = n /\ cx_quorum (ee_context d) = k /\ cx_key (ee_context d) = gexp E (sumZ (map st_secret ss));
    ge_printed : exists out, print_results m (ee_result d) = Ok out /\ shows_election m im (cast_of sp bs) (spoiled_of sp bs) out;
    ge_subs : map sb_id (ee_submitted d) = map cb_id (map sb_ballot (ee_submitted d)) /\ Permutation (map sb_id (ee_submitted d)) (map pb_id bs);
    ge_states : forall sb, In sb (ee_submitted d) -> sb_state sb = if match sp with Some i => String.eqb (sb_id sb) i | None => false end then SPOILED else CAST;
    ge_ballots : Forall (fun sb => passes E im (ee_context d) sb true = true) (ee_submitted d);
    ge_aggregation : verify_aggregation E (fun _ => all_up) (ee_submitted d) (rs_ciphertext (ee_result d)) m (ee_context d) = Ok verified;
    ge_spoiled : map pt_id (dvals (rs_spoiled (ee_result d))) = map pb_id (spoiled_of sp bs);
    ge_decryption : forall keys, has_keys keys (ee_guardians d) -> verify_decryption E (rs_tally (ee_result d)) keys (ee_context d) = Ok verified /\
      forall p, In p (dvals (rs_spoiled (ee_result d))) -> verify_decryption E p keys (ee_context d) = Ok verified;
    ge_coefficients : good_coefficients E (map (fun s => (st_id s, st_seq s)) ss) (rs_lagrange (ee_result d)) }.
  Lemma vals_ids (d : dict string plain_tally) l : dkeys d = l -> (forall i p, In (i, p) d -> pt_id p = i) -> map pt_id (dvals d) = l.
  Proof. intros <- H. unfold dvals, dkeys. rewrite map_map. apply map_ext_in. intros [i p] Hi. apply H, Hi. Qed.
  (** after the ceremony and the encryption everything follows *)
  Lemma from_encrypted cx gs bs' ebs x : manifest_is_valid m = true -> Permutation bs' bs -> Forall2 (holder E) ss gs -> Forall (fun g => good_published E k (guardian_publish g)) gs -> 0 <= cx_ext_hash cx < qq E ->
    cx_guardians cx = n -> cx_quorum cx = k -> cx_key cx = gexp E (sumZ (map st_secret ss)) ->
    encrypt_votes E ch bs' im cx = Ok ebs -> cast_and_spoil E sp (mkBox im cx ds_new) ebs = Ok x ->
    exists t r, cli_tally E (ch_up ch []) im cx (map snd (ds_items (bx_store x))) = Ok t /\
      cli_decrypt E ch t (dvals (get_ballots (bx_store x) (Some SPOILED))) gs cx m = Ok r /\ good_end (mkE2e gs m cx (ds_all (bx_store x)) r).
  Proof.
    intros Hv HP Hhold Hpub HQ Hgn Hcq HKey Henc Hbox. pose proof (seats_good E ch HF n k Hfit) as Hseats. pose proof (seats_some E ch n k Hfit) as Hne. pose proof (seats_quorum E ch n k Hfit) as Hkq.
    pose proof (seats_orders E ch n k Hfit) as Hord. pose proof (seats_len E ch n k Hfit) as Hlen. rewrite <- Hlen in Hgn. assert (Hcq' : cx_quorum cx <= len ss) by (rewrite Hlen, Hcq; destruct Hfit; lia).
    unfold encrypt_votes, Encrypt.new_mediator in Henc. destruct (encrypt_loop_sound E (state_for sp) _ _ _ _ _ _ _ Henc) as (vs & V1 & V2).
    destruct (cast_and_spoil_sound E sp im cx ebs _ x Hbox) as (Hx & Hn & _). unfold ds_new in Hx. cbn [app] in Hx.
    assert (HK : in_subgroup E (cx_key cx)) by (rewrite HKey; apply (joint_subgroup E HE _ ss Hseats)).
    assert (Hst' : forall v, In v vs -> usable_style E im (vr_ballot v)). { intros v Hi. destruct (voters_in _ _ _ v V1 Hi) as [Hb _]. apply Hst, (Permutation_in _ HP), Hb. }
    assert (Hcb : Forall2 (fun v eb => cb_id eb = vr_id v) vs ebs). { eapply Forall2_impl'; [|exact V2]. cbn beta. intros v eb Hi _ He. destruct (voter_contests E im cx HE HK v eb He (Hst' v Hi)) as (_ & _ & H & _). exact H. }
    assert (Hidv : map vr_id vs = map cb_id ebs) by (clear -Hcb; induction Hcb as [|v eb vs ebs H _ IH]; [reflexivity|cbn [map]; rewrite H, IH; reflexivity]).
    assert (Hids : NoDup (map vr_id vs)) by (rewrite Hidv; exact Hn). assert (Hun : forall v, In v vs -> vr_state v <> UNKNOWN).
    { intros v Hi. destruct (voters_in _ _ _ v V1 Hi) as [_ ->]. unfold state_for. destruct (named_spoiled _ _); discriminate. }
    assert (Hsubs : map (fun b => submit_ballot E b (state_by sp (cb_id b))) ebs = subs E vs ebs).
    { unfold subs, history. clear -V1 Hcb. revert bs' V1. induction Hcb as [|v eb vs ebs H HF IH]; intros bs' V1; [reflexivity|]. inversion V1 as [|? b ? bs'' [H1 H2] V1']; subst. cbn [map combine fst snd].
      rewrite (IH _ V1'), H2, H. unfold vr_id. f_equal. }
    assert (Hitems : ds_items (bx_store x) = map (fun b => (sb_id b, b)) (subs E vs ebs)). { rewrite Hx, <- Hsubs, map_map. reflexivity. }
    pose proof (subs_nodup E im cx HE HK vs ebs V2 Hst' Hids) as Hsn.
    assert (Hall : map snd (ds_items (bx_store x)) = subs E vs ebs) by (rewrite Hitems, map_map, map_id; reflexivity).
    assert (Hvals : ds_all (bx_store x) = subs E vs ebs). { unfold ds_all. change (dvals (bx_store x)) with (map snd (ds_items (bx_store x))). exact Hall. }
    assert (Hspo : dvals (get_ballots (bx_store x) (Some SPOILED)) = in_state SPOILED (subs E vs ebs)).
    { unfold get_ballots. rewrite Hitems. rewrite dict_of_distinct.
      - unfold dvals, in_state. clear. induction (subs E vs ebs) as [|b l IH]; [reflexivity|]. cbn [map filter snd]. destruct (box_state_eqb (sb_state b) SPOILED); cbn [map snd]; rewrite IH; reflexivity.
      - apply NoDup_keys_filter. unfold dkeys. rewrite map_map. exact Hsn. }
    destruct Hvf as (F1 & F2 & F3). pose proof (cast_number _ _ _ V1) as Hcn. assert (Hlb : len bs' = len bs) by (unfold len; rewrite (Permutation_length HP); reflexivity). rewrite Hlb in Hcn.
    assert (Hq' : len (filter is_cast vs) < qq E) by lia. assert (Hd' : len (filter is_cast vs) <= dmax E) by lia.
    pose proof (subs_tallied E HE _ ss Hseats m im Hv Hm Hdist cx HQ HKey vs ebs V2 Hst' Hids Hun) as HT.
    destruct (subs_counted E HE _ ss Hseats Hne Hkq Hord m im Hv Hm Hdist cx HQ Hgn Hcq' HKey vs ebs V2 Hst' Hids Hun Hq' Hd' F3 ch (fa_up E ch HF) ss gs (Permutation_refl _) Hhold)
      as (r & out & R1 & R2 & R3 & R4 & R5 & R6 & R7 & R8 & R9 & R10).
    exists (total_tally E im cx vs ebs), r. rewrite (fa_up E ch HF), Hall, Hspo, Hvals. split; [exact HT|]. split; [exact R1|].
    assert (Hidb : NoDup (map pb_id bs)). { apply (Permutation_NoDup (l := map pb_id bs')); [apply Permutation_map, HP|]. rewrite <- (voters_ids _ _ _ V1). exact Hids. }
    assert (Hidb' : NoDup (map pb_id bs')) by (rewrite <- (voters_ids _ _ _ V1); exact Hids).
    assert (Hsp : spoiled_of sp bs' = spoiled_of sp bs) by (apply permuted_one; [apply spoiled_one, Hidb'|apply permuted_filter, HP]).
    constructor; cbn [ee_manifest ee_guardians ee_result ee_submitted ee_context].
    - exact Hidb.
    - reflexivity.
    - exact Hhold.
    - exact Hpub.
    - split; [rewrite Hgn; exact Hlen|]. split; [exact Hcq|exact HKey].
    - exists out. split; [exact R2|]. split.
      + assert (G : forall f g, (forall c o, f c o = g c o) -> forall on l, shows_print m on f l -> shows_print m on g l).
        { intros f g Hfg on l (ds & S1 & S2 & S3 & S4). exists ds. split; [exact S1|]. split; [exact S2|]. split; [exact S3|]. eapply F2_impl; [|exact S4]. intros d rr (P1 & os & P2 & P3 & P4).
          split; [exact P1|]. exists os. split; [exact P2|]. split; [exact P3|]. eapply F2_impl; [|exact P4]. cbn beta. intros o ll. unfold print_line. rewrite Hfg. auto. }
        apply (G (cast_count im vs)); [|exact R4]. intros c o. rewrite (cast_voters im sp vs bs' c o V1). apply permuted_marks, permuted_filter, HP.
      + rewrite <- Hsp, <- (spoiled_voters sp vs bs' V1). apply Forall2_map_l. exact R5.
    - split; [rewrite map_map; reflexivity|]. rewrite (subs_ids E im cx HE HK vs ebs V2 Hst'), (voters_ids _ _ _ V1). apply Permutation_map, HP.
    - intros sb Hi. rewrite <- Hsubs in Hi. apply in_map_iff in Hi as (b & <- & _). reflexivity.
    - eapply Forall_impl; [|apply (subs_good E m im cx HE Hv Hm HK Hdist vs ebs V2 Hst' Hun)]. cbv beta. tauto.
    - rewrite R3. apply (box_aggregated E HE _ ss Hseats m im Hv Hm Hdist cx HKey vs ebs V2 Hst' Hids Hun).
    - rewrite (vals_ids _ _ R6 R7), <- Hsp, <- (spoiled_voters sp vs bs' V1), map_map. reflexivity.
    - intros keys Hk. destruct (R9 keys Hk) as [K1 K2]. split; [exact K1|]. intros p Hi. unfold dvals in Hi. apply in_map_iff in Hi as ([i q] & <- & Hi). apply (K2 i q Hi).
    - exact R10.
  Qed.
  Lemma context_fits j : jk_key j = gexp E (sumZ (map st_secret ss)) -> let cx := make_context E n k (jk_key j) (jk_hash j) (im_hash im) in
    0 <= cx_ext_hash cx < qq E /\ cx_guardians cx = n /\ cx_quorum cx = k /\ cx_key cx = gexp E (sumZ (map st_secret ss)).
  Proof. intros Hj. cbn [cx_guardians cx_quorum cx_key make_context]. split; [apply (ZKFacts.hash_range E HE)|]. auto. Qed.
  Lemma election_sound d : e2e_election E ch n k mp bp sp dk = Ok d -> manifest_is_valid m = true /\ good_end d.
  Proof.
    unfold e2e_election. destruct (guardians_made E HE Hh Hq ch HF n k Hfit) as (gs & gs' & j & G1 & G2 & G3 & G4 & G5). rewrite G1. cbn [rbind].
    assert (Hmm : forall x, get_manifest dk mp = Ok x -> x = m /\ manifest_is_valid m = true).
    { intros x. unfold get_manifest, from_file. rewrite Hmf. cbn [rbind as_manifest]. destruct (manifest_is_valid m); [|discriminate]. destruct (get_name m); cbn [rbind]; [|discriminate]. intros [= <-]. auto. }
    destruct (get_manifest dk mp) as [m'|]; cbn [rbind]; [|discriminate]. destruct (Hmm m' eq_refl) as [-> Hv].
    destruct (plain_read (ch_order ch) dk bp bs (fa_order E ch HF) Hp Hbs) as (bs' & HP & ->). cbn [rbind]. rewrite G2. cbn [rbind snd fst]. rewrite (built E n k m im j Hm Hv). cbn [rbind fst snd].
    destruct (context_fits j G3) as (X1 & X2 & X3 & X4). set (cx := make_context _ _ _ _ _ _) in *. clearbody cx.
    destruct (encrypt_votes E ch bs' im cx) as [ebs|] eqn:He; cbn [rbind]; [|discriminate]. destruct (cast_and_spoil E sp _ ebs) as [x|] eqn:Hb; cbn [rbind]; [|discriminate].
    destruct (from_encrypted cx gs' bs' ebs x Hv HP G4 G5 X1 X2 X3 X4 He Hb) as (t & r & T1 & T2 & T3). rewrite T1. cbn [rbind]. rewrite T2. cbn [rbind]. intros [= <-]. split; assumption.
  Qed.
  Lemma election_runs : manifest_is_valid m = true -> (exists nm, get_name m = Ok nm) -> NoDup (map pb_id bs) -> (forall i b, In b bs -> can_encrypt E im b (ch_ballot ch i)) ->
    exists d, e2e_election E ch n k mp bp sp dk = Ok d.
  Proof.
    intros Hv [nm Hnm] Hids Hce. unfold e2e_election. destruct (guardians_made E HE Hh Hq ch HF n k Hfit) as (gs & gs' & j & G1 & G2 & G3 & G4 & G5). rewrite G1. cbn [rbind].
    unfold get_manifest at 1, from_file at 1. rewrite Hmf. cbn [rbind as_manifest]. rewrite Hv, Hnm. cbn [rbind].
    destruct (plain_read (ch_order ch) dk bp bs (fa_order E ch HF) Hp Hbs) as (bs' & HP & ->). cbn [rbind]. rewrite G2. cbn [rbind snd fst]. rewrite (built E n k m im j Hm Hv). cbn [rbind fst snd].
    destruct (context_fits j G3) as (X1 & X2 & X3 & X4). set (cx := make_context _ _ _ _ _ _) in *. clearbody cx.
    assert (HK : in_subgroup E (cx_key cx)) by (rewrite X4; apply (joint_subgroup E HE _ ss (seats_good E ch HF n k Hfit))).
    destruct (encrypt_loop_runs E (ch_ballot ch) im cx HK bs' 0 (device_hash E (ch_device ch))) as [ebs He]; [intros i b Hb; apply Hce, (Permutation_in _ HP), Hb|].
    assert (He' : encrypt_votes E ch bs' im cx = Ok ebs) by exact He. rewrite He'. cbn [rbind].
    destruct (encrypt_loop_sound E (state_for sp) _ _ _ _ _ _ _ He) as (vs & V1 & V2).
    assert (Hst' : forall v, In v vs -> usable_style E im (vr_ballot v)). { intros v Hi. destruct (voters_in _ _ _ v V1 Hi) as [Hb _]. apply Hst, (Permutation_in _ HP), Hb. }
    destruct (cast_and_spoil_runs E sp im cx ebs ds_new) as [x Hx].
    - apply Forall_forall. intros eb Hi. destruct (Forall2_in_r _ _ _ _ V2 Hi) as (v & Hvi & Hve). destruct (voter_contests E im cx HE HK v eb Hve (Hst' v Hvi)) as (ds & H1 & H2 & _ & H3 & H4 & H5).
      destruct (encrypted_ballot_valid E m im cx (vr_ballot v) _ _ _ _ _ eb ds HE Hv Hm HK H1 H3 H4 H5 Hve) as (_ & Hval & _). exact Hval.
    - assert (Hidv : map cb_id ebs = map vr_id vs).
      { assert (Hcb : Forall2 (fun v eb => cb_id eb = vr_id v) vs ebs). { eapply Forall2_impl'; [|exact V2]. cbn beta. intros v eb Hi _ Hve. destruct (voter_contests E im cx HE HK v eb Hve (Hst' v Hi)) as (_ & _ & H & _). exact H. }
        clear -Hcb. induction Hcb as [|v eb vs ebs H _ IH]; [reflexivity|cbn [map]; rewrite H, IH; reflexivity]. }
      rewrite Hidv, (voters_ids _ _ _ V1). apply (Permutation_NoDup (l := map pb_id bs)); [apply Permutation_map, Permutation_sym, HP|exact Hids].
    - intros b _ [].
    - rewrite Hx. cbn [rbind]. destruct (from_encrypted cx gs' bs' ebs x Hv HP G4 G5 X1 X2 X3 X4 He' Hx) as (t & r & -> & T2 & _). cbn [rbind]. rewrite T2. cbn [rbind]. eauto.
  Qed.
End E2e.
