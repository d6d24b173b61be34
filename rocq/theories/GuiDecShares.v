(** * GuiDecShares: shares made for one tally and checked against another. *)
From Verif Require Import Base Group Codec Hash DLog ElGamal ZK Poly Spec ListFacts GroupFacts PolyFacts ZKFacts CryptoThms Manifest Ballot Box Tally
  Ceremony SpecCeremony Shares SpecShares SharesFacts ShareRun SharesThms SharesMore.
From Coq Require Import Permutation List.

(** ** only the shares of a table matter, not its keys *)
Section Values.
  Context (E : env) (t t' : dict string dec_share) (Ht : dvals t = dvals t').
  Lemma get_shares_dvals id : get_shares_for_selection id t = get_shares_for_selection id t'.
  Proof. unfold get_shares_for_selection. rewrite Ht. reflexivity. Qed.
  Lemma decrypt_selections_dvals ext ids rm ss : forall d, decrypt_selections_shares E t ext ids rm ss d = decrypt_selections_shares E t' ext ids rm ss d.
  Proof.
    induction ss as [|s ss IH]; intros d; [reflexivity|]. cbn [decrypt_selections_shares]. rewrite get_shares_dvals.
    destruct (_ && rm); [apply IH|]. destruct (decrypt_selection_shares _ _ _ _) as [[p|]|]; cbn [rbind]; [apply IH|reflexivity|reflexivity].
  Qed.
  Lemma decrypt_contests_dvals ext descs rm cs : forall d, decrypt_contests_shares E t ext descs rm cs d = decrypt_contests_shares E t' ext descs rm cs d.
  Proof.
    induction cs as [|c cs IH]; intros d; [reflexivity|]. cbn [decrypt_contests_shares]. destruct (dget (cc_id c) descs) as [desc|]; [|apply IH].
    unfold decrypt_contest_shares. rewrite decrypt_selections_dvals. destruct (decrypt_selections_shares _ _ _ _ _ _ _) as [[p|]|]; cbn [rbind]; [apply IH|reflexivity|reflexivity].
  Qed.
  Lemma decrypt_shares_dvals id cs ext m rm : decrypt_shares E id cs t ext m rm = decrypt_shares E id cs t' ext m rm.
  Proof. unfold decrypt_shares. rewrite decrypt_contests_dvals. reflexivity. Qed.
End Values.
Definition by_guardian (l : list dec_share) : dict string dec_share := map (fun sh => (sh_guardian sh, sh)) l.
Lemma by_guardian_vals l : dvals (by_guardian l) = l.
Proof. unfold dvals, by_guardian. rewrite map_map. apply map_id. Qed.
Lemma by_guardian_keys l : dkeys (by_guardian l) = map sh_guardian l.
Proof. unfold dkeys, by_guardian. rewrite map_map. reflexivity. Qed.

(** ** a decryption that succeeds has checked everything it shows *)
Section Success.
  Context (E : env) (t : dict string dec_share) (ext : Z).
  Lemma selections_checked ids rm ss : forall d r, decrypt_selections_shares E t ext ids rm ss d = Ok (Some r) ->
    forall s, In s ss -> In (fst s) ids -> exists p, decrypt_selection_shares E s (get_shares_for_selection (fst s) t) ext = Ok (Some p).
  Proof.
    induction ss as [|x ss IH]; intros d r Hr s; [intros []|]. cbn [decrypt_selections_shares] in Hr. intros Hs Hin.
    destruct (negb (inb (fst x) ids) && rm) eqn:Hk.
    - destruct Hs as [->|Hs]; [|apply (IH _ _ Hr s Hs Hin)]. apply inb_spec in Hin. rewrite Hin in Hk. discriminate.
    - destruct (decrypt_selection_shares E x _ ext) as [[p|]|] eqn:Hx; cbn [rbind] in Hr; try discriminate.
      destruct Hs as [<-|Hs]; [exists p; exact Hx|apply (IH _ _ Hr s Hs Hin)].
  Qed.
  Lemma contests_checked descs rm cs : forall d r, decrypt_contests_shares E t ext descs rm cs d = Ok (Some r) ->
    forall c desc s, In c cs -> dget (cc_id c) descs = Some desc -> In s (cc_selections c) -> In (fst s) (map sd_id (cd_selections desc)) ->
    exists p, decrypt_selection_shares E s (get_shares_for_selection (fst s) t) ext = Ok (Some p).
  Proof.
    induction cs as [|x cs IH]; intros d r Hr c desc s Hc Hd Hs Hin; [destruct Hc|]. cbn [decrypt_contests_shares] in Hr.
    destruct (dget (cc_id x) descs) as [desc'|] eqn:Hx.
    - destruct (decrypt_contest_shares E x t ext desc' rm) as [[p|]|] eqn:Hp; cbn [rbind] in Hr; try discriminate.
      destruct Hc as [->|Hc]; [|apply (IH _ _ Hr c desc s Hc Hd Hs Hin)]. assert (desc' = desc) by congruence. subst desc'. unfold decrypt_contest_shares in Hp.
      destruct (decrypt_selections_shares E t ext (map sd_id (cd_selections desc)) rm (cc_selections c) []) as [[q|]|] eqn:Hq; cbn [rbind] in Hp; try discriminate.
      apply (selections_checked _ _ _ _ _ Hq s Hs Hin).
    - destruct Hc as [->|Hc]; [congruence|apply (IH _ _ Hr c desc s Hc Hd Hs Hin)].
  Qed.
  Lemma shares_checked id cs m p : NoDup (map cd_id (mf_contests m)) -> decrypt_shares E id cs t ext m true = Ok (Some p) ->
    forall c s, In c cs -> In s (cc_selections c) -> in_manifest m (cc_id c) (fst s) ->
    exists p, decrypt_selection_shares E s (get_shares_for_selection (fst s) t) ext = Ok (Some p).
  Proof.
    intros Hn Hp c s Hc Hs (desc & sd & M1 & M2 & M3 & M4). unfold decrypt_shares in Hp.
    destruct (decrypt_contests_shares E t ext _ true cs []) as [[r|]|] eqn:Hr; cbn [rbind] in Hp; try discriminate.
    apply (contests_checked _ _ _ _ _ Hr c desc s Hc); [|exact Hs|rewrite <- M4; apply in_map, M3].
    rewrite dict_of_distinct by (unfold dkeys; rewrite map_map; exact Hn). apply in_dget; [unfold dkeys; rewrite map_map; exact Hn|].
    apply in_map_iff. exists desc. split; [congruence|exact M1].
  Qed.
End Success.

(** ** honest shares carry a proof and no parts *)
Lemma collect_values {A} (key : A -> string) : forall l d r, collect key l d = Some r -> forall a, In a (dvals r) -> In a (dvals d) \/ In (Some a) l.
Proof.
  induction l as [|[x|] l IH]; intros d r Hr a Ha; cbn [collect] in Hr; try discriminate; [left; congruence|].
  destruct (IH _ _ Hr a Ha) as [H|H]; [|right; right; exact H]. apply in_map_iff in H as [[k v] [Hv H]]. cbn in Hv. subst v.
  apply MediatorFacts.dset_in in H as [[_ H]|H]; [right; left; congruence|left; apply in_map_iff; exists (k, a); auto].
Qed.
Lemma share_no_parts E up rnd k ext id cs sh : (forall c, up c = true) -> share_of E up rnd k ext id cs = Some sh -> forall d, In d (share_entries sh) -> dc_parts d = None.
Proof.
  intros Hup. unfold share_of. destruct (share_contests E up rnd k ext 0 cs []) as [dn|] eqn:H; [|discriminate]. intros [= <-]. unfold share_entries. cbn [sh_contests].
  assert (HP : forall cs i d r, share_contests E up rnd k ext i cs d = Some r -> (forall c x, In c (dvals d) -> In x (dvals (dn_selections c)) -> dc_parts x = None) ->
    forall c x, In c (dvals r) -> In x (dvals (dn_selections c)) -> dc_parts x = None).
  { clear - Hup. induction cs as [|c cs IH]; intros i d r Hr Hd; cbn [share_contests] in Hr; [injection Hr as <-; exact Hd|]. destruct (share_for_contest E (up i) (rnd i) k c ext) as [dn|] eqn:Hc; [|discriminate].
    apply (IH _ _ _ Hr). intros c' x Hin Hx. apply in_map_iff in Hin as [[k' v] [Hv Hin]]. cbn in Hv. subst v.
    apply MediatorFacts.dset_in in Hin as [[_ Hin]|Hin]; [|apply (Hd c' x); [apply in_map_iff; exists (k', c'); auto|exact Hx]]. subst c'.
    unfold share_for_contest in Hc. rewrite Hup, schedule_total in Hc. destruct (collect dc_id _ []) as [l|] eqn:Hl; [|discriminate]. injection Hc as <-. cbn [dn_selections] in Hx.
    destruct (collect_values _ _ _ _ Hl x Hx) as [[]|Hin]. apply in_map_iff in Hin as [[j s] [Hs _]]. unfold share_for_selection in Hs. cbn [snd fst] in Hs.
    destruct (partially_decrypt E k (snd s) ext (rnd i j)) as [m pf]. destruct (cp_is_valid _ _ _ _ _ _); [|discriminate]. injection Hs as <-. reflexivity. }
  intros d Hd. apply in_flat_map in Hd as [c [Hc Hd]]. apply (HP _ _ _ _ H (fun c x (Hx : In c (dvals [])) => match Hx with end) c d Hc Hd).
Qed.

(** ** a share made for other ciphertexts that still passes the check *)
Section Stale.
  Context (E : env) (HE : valid_env E) (Q : Z).
  Notation rs := (resid (pp E) (qq E)).
  Definition same_shape (c c' : cipher_contest) : Prop := cc_id c = cc_id c' /\ map fst (cc_selections c) = map fst (cc_selections c').
  Definition no_zero (sh : dec_share) : Prop := forall d pf, In d (share_entries sh) -> dc_proof d = Some pf -> cp_v pf <> 0.
  Lemma power_inj x y v : rs x -> rs y -> 0 < v < qq E -> x ^ v mod pp E = y ^ v mod pp E -> x = y.
  Proof.
    intros Hx Hy Hv H. destruct (subgroup_cyclic E x HE Hx) as (a & Ha & ->). destruct (subgroup_cyclic E y HE Hy) as (b & Hb & ->).
    rewrite !(G1_pow E HE) in * by lia. rewrite !(pow_GX_p E HE) in H by (try lia; apply G1_resid; assumption). rewrite !GX_G1 in H by assumption.
    apply (G1_inj E HE) in H. f_equal. pose proof (ve_q E HE) as Hp. assert (Hd : (qq E | (a - b) * v)).
    { rewrite Z.mul_sub_distr_r. apply Z.mod_divide; [lia|]. rewrite Zminus_mod, H, <- Zminus_mod, Z.sub_diag. reflexivity. }
    apply Znumtheory.prime_mult in Hd; [|exact Hp]. destruct Hd as [Hd|Hd].
    - destruct Hd as [z Hz]. assert (z = 0) by nia. lia.
    - apply Znumtheory.Zdivide_le in Hd; lia.
  Qed.
  Lemma restale_sel x s s' d : fst s = fst s' -> dc_parts d = None -> (forall pf, dc_proof d = Some pf -> cp_v pf <> 0) ->
    sel_share E Q x s' (fst s', d) -> dec_sel_valid E d (snd s) (gexp E x) Q = true -> sel_share E Q x s (fst s', d).
  Proof.
    intros Hf Hp Hz (H1 & H2 & H3 & H4) Hv. cbn [fst snd] in *. unfold sel_share. cbn [fst snd]. split; [congruence|]. split; [congruence|]. split; [|exact Hv]. rewrite H3.
    unfold dec_sel_valid in H4, Hv. rewrite Hp in H4, Hv. destruct (dc_proof d) as [[a b c v]|]; [|discriminate]. specialize (Hz _ eq_refl). cbn in Hz.
    apply (cp_accept_iff E HE) in H4, Hv. destruct H4 as ((P1 & _) & _ & _ & _ & _ & _ & Hr & _ & _ & _ & Hx), Hv as ((P2 & _) & _ & _ & _ & _ & _ & _ & _ & _ & _ & Hy).
    f_equal. f_equal. apply (power_inj _ _ v); [exact P1|exact P2|lia|congruence].
  Qed.
  Lemma restale x cs cs' sh : item_good E cs' -> good_share E Q x cs' sh -> Forall2 same_shape cs cs' -> (forall d, In d (share_entries sh) -> dc_parts d = None) -> no_zero sh ->
    (forall s d, In s (flat_map cc_selections cs) -> In d (share_entries sh) -> dc_id d = fst s -> dec_sel_valid E d (snd s) (gexp E x) Q = true) -> good_share E Q x cs sh.
  Proof.
    intros Hi [Hk HF] Hs Hp Hz Hv. split; [exact Hk|]. unfold no_zero, share_entries in *. revert HF Hs Hp Hz Hv. generalize (sh_contests sh) as dns. clear Hi. intros dns. revert cs dns.
    induction cs' as [|c' cs' IH]; intros cs dns HF Hs Hp Hz Hv; inversion HF as [|? kd ? dns' [C1 C2] HF']; subst; inversion Hs as [|c ? cs0 ? [S1 S2] Hs']; subst; constructor.
    - split; [congruence|]. assert (Hin : forall d, In d (dvals (dn_selections (snd kd))) -> In d (flat_map (fun dn => dvals (dn_selections dn)) (dvals (kd :: dns')))).
      { intros d Hd. apply in_flat_map. exists (snd kd). split; [left; reflexivity|exact Hd]. }
      assert (Hc : forall s, In s (cc_selections c) -> In s (flat_map cc_selections (c :: cs0))) by (intros s H; cbn [flat_map]; apply in_or_app; left; exact H).
      revert Hin Hc C2 S2. generalize (dn_selections (snd kd)) as ds, (cc_selections c) as ss, (cc_selections c') as ss'. clear - Hp Hz Hv HE.
      intros ds ss ss'. revert ds ss. induction ss' as [|s' ss' IH]; intros ds ss Hin Hc HF Hm; inversion HF as [|? e ? ds' He HF']; subst; destruct ss as [|s ss]; try discriminate; constructor.
      + cbn [map] in Hm. injection Hm as Hm1 Hm2. destruct e as [i d]. pose proof He as (I1 & I2 & _). cbn [fst snd] in I1, I2. subst i.
        apply (restale_sel x s s' d Hm1); [apply Hp, Hin; left; reflexivity|intros pf; apply Hz, Hin; left; reflexivity|exact He|].
        apply Hv; [apply Hc; left; reflexivity|apply Hin; left; reflexivity|congruence].
      + cbn [map] in Hm. injection Hm as Hm1 Hm2. apply IH; [intros d Hd; apply Hin; right; exact Hd|intros q Hq; apply Hc; right; exact Hq|exact HF'|exact Hm2].
    - assert (Hin : forall d, In d (flat_map (fun dn => dvals (dn_selections dn)) (dvals dns')) -> In d (flat_map (fun dn => dvals (dn_selections dn)) (dvals (kd :: dns')))).
      { intros d Hd. cbn [dvals map flat_map]. apply in_or_app. right. exact Hd. }
      apply IH; [exact HF'|exact Hs'|intros d Hd; apply Hp, Hin, Hd|intros d pf Hd; apply Hz, Hin, Hd|].
      intros s d H1 H2. apply Hv; [cbn [flat_map]; apply in_or_app; right; exact H1|apply Hin, H2].
  Qed.

  (** the rows of a table made for different ciphertexts *)
  Definition row_ok (r : Z * list cipher_contest) (kv : string * dec_share) : Prop := fst kv = sh_guardian (snd kv) /\ item_good E (snd r) /\ good_share E Q (fst r) (snd r) (snd kv).
  Lemma entry_unique x cs sh d d' : item_good E cs -> good_share E Q x cs sh -> In d (share_entries sh) -> In d' (share_entries sh) -> dc_id d = dc_id d' -> d = d'.
  Proof.
    intros Hi Hg H1 H2 He. pose proof (share_sels_ok E Q x cs sh Hg) as HF. change (share_sels sh) with (share_entries sh) in HF.
    apply (NoDup_inj dc_id (share_entries sh)); try assumption.
    replace (map dc_id (share_entries sh)) with (sel_ids cs); [apply Hi|]. apply Forall2_map_eq. revert HF. apply F2_impl. intros a b (_ & H & _). symmetry. exact H.
  Qed.
  Lemma rows_picked id : forall rows t acc, Forall2 row_ok rows t -> NoDup (dkeys t) -> (forall k, In k (dkeys t) -> ~ In k (dkeys acc)) ->
    (forall r, In r rows -> In id (sel_ids (snd r))) ->
    exists l, fold_left (fun acc sh => fold_left (fun acc dn => fold_left (fun acc d => if eqb (dc_id d) id then dset (sh_guardian sh) (sh_key sh, d) acc else acc) (dvals (dn_selections dn)) acc)
        (dvals (sh_contests sh)) acc) (dvals t) acc = acc ++ l /\ Forall2 (fun kv e => fst (snd e) = sh_key (snd kv) /\ In (snd (snd e)) (share_entries (snd kv)) /\ dc_id (snd (snd e)) = id) t l.
  Proof.
    induction rows as [|[x cs] rows IH]; intros t acc HF Hn Ha Hid; inversion HF as [|? [g sh] ? t' (R1 & R2 & R3) HF']; subst; cbn [fst snd] in *.
    - exists []. rewrite app_nil_r. split; [reflexivity|constructor].
    - subst g. unfold dkeys in Hn. cbn [map fst] in Hn. inversion Hn as [|? ? Hx Hl]; subst. change (dvals ((sh_guardian sh, sh) :: t')) with (sh :: dvals t'). cbn [fold_left].
      pose proof (Hid _ (or_introl eq_refl)) as Hs. cbn [snd] in Hs. unfold sel_ids in Hs. apply in_map_iff in Hs as [s [Hs1 Hs2]].
      pose proof (share_sels_ok E Q x cs sh R3) as HS. destruct (Forall2_in_l _ _ _ s HS Hs2) as (d & Hd & Hsd).
      assert (Hfold : forall acc, fold_left (fun acc dn => fold_left (fun acc d => if eqb (dc_id d) id then dset (sh_guardian sh) (sh_key sh, d) acc else acc) (dvals (dn_selections dn)) acc)
        (dvals (sh_contests sh)) acc = dset (sh_guardian sh) (sh_key sh, d) acc).
      { intros a. rewrite (flat_fold (fun dn => dvals (dn_selections dn))). fold (share_sels sh).
        apply (pick_one 0 (sh_guardian sh) id a (fun d => (sh_key sh, d))); [|exact Hd|destruct Hsd as (_ & Hsd & _); cbn [snd] in Hsd; congruence].
        replace (map dc_id (share_sels sh)) with (sel_ids cs); [apply R2|]. apply Forall2_map_eq. revert HS. apply F2_impl. intros a0 b (_ & H & _). symmetry. exact H. }
      rewrite Hfold, dset_new by (apply Ha; left; reflexivity).
      destruct (IH t' (acc ++ [(sh_guardian sh, (sh_key sh, d))]) HF' Hl) as (l & -> & HL).
      { intros k Hk. unfold dkeys. rewrite map_app, in_app_iff. cbn. intros [H|[H|[]]]; [apply (Ha k (or_intror Hk) H)|]. subst k. contradiction. }
      { intros r Hr. apply Hid. right. exact Hr. }
      exists ((sh_guardian sh, (sh_key sh, d)) :: l). rewrite <- app_assoc. split; [reflexivity|]. constructor; [|exact HL]. cbn [fst snd]. split; [reflexivity|]. split; [exact Hd|].
      destruct Hsd as (_ & Hsd & _). cbn [snd] in Hsd. congruence.
  Qed.
  (** if a decryption with such a table succeeds, the shares are right for the ciphertexts decrypted *)
  Lemma success_fresh id cs rows t m p : item_good E cs -> NoDup (map cd_id (mf_contests m)) -> Forall2 row_ok rows t -> NoDup (dkeys t) ->
    (forall r, In r rows -> Forall2 same_shape cs (snd r)) -> (forall sh, In sh (dvals t) -> no_zero sh /\ forall d, In d (share_entries sh) -> dc_parts d = None) ->
    (forall c s, In c cs -> In s (cc_selections c) -> in_manifest m (cc_id c) (fst s)) ->
    decrypt_shares E id cs t Q m true = Ok (Some p) -> table_good E Q cs (map fst rows) t.
  Proof.
    intros Hi Hmn HF Hn Hsh Hz Hm Hp. split; [exact Hn|]. apply Forall2_map_l.
    assert (Hpick : forall s, In s (flat_map cc_selections cs) -> forall kv d, In kv t -> In d (share_entries (snd kv)) -> dc_id d = fst s -> dec_sel_valid E d (snd s) (sh_key (snd kv)) Q = true).
    { intros s Hs kv d Hkv Hd Hid. pose proof Hs as Hs0. apply in_flat_map in Hs as [c [Hc Hs]].
      destruct (shares_checked E t Q id cs m p Hmn Hp c s Hc Hs (Hm c s Hc Hs)) as [q Hq].
      destruct (rows_picked (fst s) rows t [] HF Hn) as (l & Hl & HL); [intros k _ []| |].
      { intros r Hr. specialize (Hsh r Hr). replace (sel_ids (snd r)) with (sel_ids cs); [unfold sel_ids; apply in_map; exact Hs0|].
        unfold sel_ids. clear - Hsh. induction Hsh as [|a b l l' [_ H] _ IH]; [reflexivity|]. cbn [flat_map]. rewrite !map_app, IH, H. reflexivity. }
      cbn [app] in Hl. unfold decrypt_selection_shares in Hq. change (get_shares_for_selection (fst s) t = l) in Hl. rewrite Hl in Hq.
      destruct (forallb (fun kd => dec_sel_valid E (snd kd) (snd s) (fst kd) Q) (dvals l)) eqn:Hall; [|discriminate].
      rewrite forallb_forall in Hall. destruct (Forall2_in_l _ _ _ kv HL Hkv) as (e & He & E1 & E2 & E3).
      assert (Hdd : snd (snd e) = d).
      { destruct (Forall2_in_r _ _ _ kv HF Hkv) as ([x cs'] & _ & _ & R2 & R3). cbn [fst snd] in *. apply (entry_unique x cs' (snd kv)); try assumption. congruence. }
      specialize (Hall (snd e)). rewrite Hdd, E1 in Hall. apply Hall. apply in_map, He. }
    eapply Forall2_impl'; [|exact HF]. intros r kv Hr Hkv (R1 & R2 & R3). split; [exact R1|].
    assert (Hv : In (snd kv) (dvals t)) by (apply in_map, Hkv). destruct (Hz _ Hv) as [Z1 Z2].
    apply (restale (fst r) cs (snd r) (snd kv) R2 R3 (Hsh r Hr) Z2 Z1). intros s d H1 H2 H3. rewrite <- (proj1 R3). apply (Hpick s H1 kv d Hkv H2 H3).
  Qed.
End Stale.
