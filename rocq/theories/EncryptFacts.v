(** * EncryptFacts: lemmas about encrypt.py *)
From Verif Require Import Base Group Codec Hash DLog ElGamal ZK Manifest Ballot Encrypt Spec SpecElection
  GroupFacts HashFacts ListFacts ElGamalFacts ZKFacts CodecFacts PolyFacts CryptoThms ManifestThms.
From Coq Require Import Permutation.
From Coq Require Import List.

Section Sel.
  Context (E : env) (HE : valid_env E).
  Let Hq : 0 < qq E. Proof. pose proof (q_gt_1 E HE); lia. Qed.

  Lemma hash_range l : 0 <= hash_elems E l < qq E.
  Proof. unfold hash_elems. apply Z.mod_pos_bound. assumption. Qed.

  Lemma disj_made_valid c r K Q seed m pf : 0 <= r < qq E -> in_subgroup E K ->
    is_encryption E K r m (ct_pad c) (ct_data c) ->
    make_disjunctive E c r K Q seed m = Ok pf ->
    (m = 0 \/ m = 1) /\ disj_is_valid E pf c K Q = true.
  Proof.
    intros Hr HK Henc Hpf.
    destruct (Z.eq_dec m 0) as [->|H0].
    - destruct (disj_complete E HE 0 r K Q seed c) as [pf' [H1 H2]]; auto. split; [auto|congruence].
    - destruct (Z.eq_dec m 1) as [->|H1].
      + destruct (Z.eq_dec (hnonce E seed disj_header 0) 0) as [Hz|Hz].
        * exfalso. unfold make_disjunctive in Hpf. change ((0 <=? 1) && (1 <=? 1)) with true in Hpf.
          cbv iota in Hpf. change (1 =? 0) with false in Hpf. cbv iota in Hpf.
          rewrite disj_one_zero_nonce in Hpf by assumption. discriminate.
        * destruct (disj_complete E HE 1 r K Q seed c) as [pf' [H1 H2]]; auto. split; [auto|congruence].
      + rewrite disj_other in Hpf by tauto. discriminate.
  Qed.

  Definition sel_nonce (o : selection_desc) (seed : Z) : Z :=
    nonce_at E (mk_nonces E (selection_desc_hash E o) [HElem seed]) (sd_seq o).
  Definition sel_proof_seed (o : selection_desc) (seed : Z) : Z :=
    nonce_at E (mk_nonces E (selection_desc_hash E o) [HElem seed]) 0.

  Lemma encrypt_selection_spec s o K Q seed ph verify es : in_subgroup E K ->
    encrypt_selection E s o K Q seed ph verify = Ok (Some es) ->
    ps_id s = sd_id o /\ (ps_vote s = 0 \/ ps_vote s = 1) /\ 0 <= sd_seq o /\
    encrypts_option E K ph o (ps_vote s) es /\ cs_nonce es = Some (sel_nonce o seed) /\
    cs_hash es = selection_hash E (sd_id o) (selection_desc_hash E o) (cs_ct es) /\
    selection_is_valid_encryption E es (cs_desc_hash es) K Q = true.
  Proof.
    intros HK. unfold encrypt_selection, pt_selection_is_valid.
    destruct (negb _) eqn:Hv; [discriminate|]. rewrite negb_false_iff, andb_true_iff, eqb_spec in Hv.
    destruct Hv as [Hid Hvote]. rewrite negb_true_iff, orb_false_iff, !Z.ltb_ge in Hvote.
    destruct (Z.ltb_spec (sd_seq o) 0) as [Hs|Hs].
    { unfold nonce_get, nonce_with_headers. apply Z.ltb_lt in Hs. rewrite Hs. discriminate. }
    rewrite nonce_get_ok by assumption. cbn [rbind]. fold (sel_nonce o seed). fold (sel_proof_seed o seed).
    assert (Hr := hash_range [HElem (mk_nonces E (selection_desc_hash E o) [HElem seed]); HInt (sd_seq o)]).
    change (0 <= sel_nonce o seed < qq E) in Hr.
    destruct (Z.eq_dec (sel_nonce o seed) 0) as [Hz|Hz].
    { unfold elgamal_encrypt. rewrite Hz. cbn. discriminate. }
    destruct (encrypt_ok E HE (ps_vote s) (sel_nonce o seed) K HK ltac:(lia) ltac:(lia)) as [c [Hc Henc]].
    rewrite Hc. cbn [rbind]. unfold make_ct_selection.
    destruct (make_disjunctive E c (sel_nonce o seed) K Q (sel_proof_seed o seed) (ps_vote s)) as [pf|] eqn:Hpf;
      [|discriminate].
    cbn [rbind cs_proof].
    destruct (disj_made_valid _ _ _ _ _ _ _ Hr HK Henc Hpf) as [H01 Hvalid].
    assert (Hok : selection_is_valid_encryption E
       (mkCsel (ps_id s) (sd_seq o) (selection_desc_hash E o) c (selection_hash E (ps_id s) (selection_desc_hash E o) c) ph
          (Some (sel_nonce o seed)) (Some pf)) (selection_desc_hash E o) K Q = true).
    { unfold selection_is_valid_encryption; cbn [cs_desc_hash cs_hash cs_id cs_ct cs_proof].
      rewrite !Z.eqb_refl. exact Hvalid. }
    rewrite Hok. intros Heq.
    assert (Hes : es = mkCsel (ps_id s) (sd_seq o) (selection_desc_hash E o) c
       (selection_hash E (ps_id s) (selection_desc_hash E o) c) ph (Some (sel_nonce o seed)) (Some pf))
      by (destruct verify; cbn in Heq; congruence).
    subst es. cbn [cs_id cs_seq cs_desc_hash cs_ct cs_hash cs_placeholder cs_nonce cs_proof].
    do 3 (split; [assumption|]). split.
    { unfold encrypts_option; cbn. do 4 (split; [assumption || reflexivity|]).
      exists (sel_nonce o seed). split; [reflexivity|]. split; [lia|assumption]. }
    split; [reflexivity|]. split; [rewrite Hid; reflexivity|]. exact Hok.
  Qed.

  Lemma encrypt_selection_succeeds s o K Q seed ph verify : in_subgroup E K ->
    ps_id s = sd_id o -> (ps_vote s = 0 \/ ps_vote s = 1) -> 0 <= sd_seq o ->
    sel_nonce o seed <> 0 -> (ps_vote s = 0 \/ hnonce E (sel_proof_seed o seed) disj_header 0 <> 0) ->
    exists es, encrypt_selection E s o K Q seed ph verify = Ok (Some es).
  Proof.
    intros HK Hid Hv Hs Hn Hp. unfold encrypt_selection, pt_selection_is_valid.
    rewrite Hid, eqb_refl'. replace (negb ((ps_vote s <? 0) || (1 <? ps_vote s))) with true by (destruct Hv as [-> | ->]; reflexivity).
    cbn [andb negb]. rewrite nonce_get_ok by assumption. cbn [rbind]. fold (sel_nonce o seed). fold (sel_proof_seed o seed).
    assert (Hr := hash_range [HElem (mk_nonces E (selection_desc_hash E o) [HElem seed]); HInt (sd_seq o)]).
    change (0 <= sel_nonce o seed < qq E) in Hr.
    destruct (encrypt_ok E HE (ps_vote s) (sel_nonce o seed) K HK ltac:(lia) ltac:(lia)) as [c [Hc Henc]].
    rewrite Hc. cbn [rbind]. unfold make_ct_selection.
    destruct (disj_complete E HE (ps_vote s) (sel_nonce o seed) K Q (sel_proof_seed o seed) c) as [pf [Hpf Hvalid]]; try assumption.
    rewrite Hpf. cbn [rbind cs_proof].
    destruct verify; cbn [negb]; [|eauto]. unfold selection_is_valid_encryption; cbn [cs_desc_hash cs_hash cs_id cs_ct cs_proof].
    rewrite !Z.eqb_refl, Hvalid. cbn [negb]. eauto.
  Qed.

  (** ** the two loops *)
  Definition enc_as (K Q seed : Z) (ph : bool) (o : selection_desc) (v : Z) (es : ct_selection) : Prop :=
    (v = 0 \/ v = 1) /\ 0 <= sd_seq o /\ encrypts_option E K ph o v es /\
    cs_nonce es = Some (sel_nonce o seed) /\
    cs_hash es = selection_hash E (sd_id o) (selection_desc_hash E o) (cs_ct es) /\
    selection_is_valid_encryption E es (cs_desc_hash es) K Q = true.

  Definition opt_vote (overvote : bool) (sels : list pt_selection) (o : selection_desc) : Z :=
    if overvote then 0 else
    match find_first (fun s => eqb (ps_id s) (sd_id o)) sels with Some s => ps_vote s | None => 0 end.

  Lemma encrypt_options_spec K Q seed verify ov sels : in_subgroup E K -> forall ds count es n,
    encrypt_options E ds sels ov K Q seed verify count = Ok (Some (es, n)) ->
    Forall2 (fun o e => enc_as K Q seed false o (opt_vote ov sels o) e) ds es /\
    n = count + sumZ (map (opt_vote ov sels) ds).
  Proof.
    intros HK. induction ds as [|o ds IH]; intros count es n; cbn [encrypt_options].
    - intros [= <- <-]. split; [constructor|cbn; lia].
    - set (ch := if ov then None else find_first (fun s => eqb (ps_id s) (sd_id o)) sels).
      intros Heq.
      assert (Hcase : exists s cnt, match ch with Some s => (s, count + ps_vote s) | None => (selection_from o false false, count) end = (s, cnt) /\
                        ps_vote s = opt_vote ov sels o /\ cnt = count + opt_vote ov sels o).
      { unfold ch, opt_vote. destruct ov; [do 2 eexists; split; [reflexivity|]; cbn; lia|].
        destruct (find_first _ _); do 2 eexists; (split; [reflexivity|]); cbn; lia. }
      destruct Hcase as [s [cnt [Hs [Hv Hcnt]]]]. rewrite Hs in Heq. cbn [rbind] in Heq.
      destruct (encrypt_selection E s o K Q seed false verify) as [[e|]|] eqn:He; cbn [rbind] in Heq; try discriminate.
      destruct (encrypt_options E ds sels ov K Q seed verify cnt) as [[[rest n']|]|] eqn:Hr; cbn [rbind] in Heq; try discriminate.
      injection Heq as <- <-. apply IH in Hr as [Hf Hn].
      apply encrypt_selection_spec in He; [|assumption]. destruct He as (_ & H01 & Hseq & Henc & Hnon & Hhash & Hval).
      rewrite Hv in *. split.
      + constructor; [|assumption]. unfold enc_as. auto 10.
      + cbn [map]. unfold sumZ in *. cbn [fold_right]. lia.
  Qed.

  Lemma encrypt_placeholders_spec K Q seed verify L : in_subgroup E K -> forall ds count es,
    encrypt_placeholders E ds L K Q seed verify count = Ok (Some es) ->
    Forall2 (fun ov e => enc_as K Q seed true (fst ov) (snd ov) e) (combine ds (fill (L - count) ds)) es.
  Proof.
    intros HK. induction ds as [|o ds IH]; intros count es; cbn [encrypt_placeholders].
    - intros [= <-]. constructor.
    - intros Heq.
      destruct (encrypt_selection E _ o K Q seed true verify) as [[e|]|] eqn:He; cbn [rbind] in Heq; try discriminate.
      destruct (encrypt_placeholders E ds L K Q seed verify _) as [[rest|]|] eqn:Hr; cbn [rbind] in Heq; try discriminate.
      injection Heq as <-. apply IH in Hr.
      apply encrypt_selection_spec in He; [|assumption]. destruct He as (_ & H01 & Hseq & Henc & Hnon & Hhash & Hval).
      cbn [fill combine].
      replace (0 <? L - count) with (count <? L) by (destruct (Z.ltb_spec count L), (Z.ltb_spec 0 (L - count)); lia).
      constructor.
      + cbn [fst snd]. unfold selection_from in *; cbn [ps_vote] in *. unfold enc_as. auto 10.
      + destruct (Z.ltb_spec count L) as [Hlt|Hge].
        * replace (L - count - 1) with (L - (count + 1)) by lia. assumption.
        * assert (Hz : forall (l : list selection_desc) a b, a <= 0 -> b <= 0 -> fill a l = fill b l).
          { clear. induction l as [|x l IHl]; intros a b Ha Hb; cbn; [reflexivity|].
            destruct (Z.ltb_spec 0 a), (Z.ltb_spec 0 b); try lia. f_equal. apply IHl; lia. }
          rewrite (Hz ds (L - count - 1) (L - count)) by lia. assumption.
  Qed.
End Sel.

Section Con.
  Context (E : env) (HE : valid_env E).
  Let Hq : 1 < qq E := q_gt_1 E HE.

  Lemma is_encryption_mod K R m c : in_subgroup E K -> 0 <= R -> 0 <= m ->
    is_encryption E K R m (ct_pad c) (ct_data c) <-> is_encryption E K (R mod qq E) m (ct_pad c) (ct_data c).
  Proof.
    intros HK HR Hm. pose proof (Z.mod_pos_bound R (qq E) ltac:(lia)).
    rewrite !(ct_of_spec E HE) by (assumption || lia). unfold ct_of.
    rewrite (G1_congr E (R mod qq E) R), (GX_congr E K (R mod qq E) R) by (apply Z.mod_mod; lia). reflexivity.
  Qed.

  Lemma fill_sum {A} (l : list A) : forall n, 0 <= n <= len l -> sumZ (fill n l) = n.
  Proof.
    unfold sumZ, len. induction l as [|x l IH]; intros n Hn; cbn [length fill fold_right] in *; [lia|].
    destruct (Z.ltb_spec 0 n).
    - rewrite IH by lia. lia.
    - assert (n = 0) by lia. subst. 
      enough (Hz : forall (k : list A) a, a <= 0 -> fold_right Z.add 0 (fill a k) = 0) by (rewrite Hz; lia).
      clear. induction k as [|y k IHk]; intros a Ha; cbn; [reflexivity|]. destruct (Z.ltb_spec 0 a); [lia|].
      rewrite IHk; lia.
  Qed.
  Lemma fill_length {A} (l : list A) : forall n, length (fill n l) = length l.
  Proof. induction l as [|x l IH]; intros n; cbn; [reflexivity|]. rewrite IH. reflexivity. Qed.
  Lemma fill_01 {A} (l : list A) : forall n, Forall (fun v => v = 0 \/ v = 1) (fill n l).
  Proof. induction l as [|x l IH]; intros n; cbn; constructor; [|apply IH]. destruct (0 <? n); auto. Qed.

  Lemma votes_le_marked sels ds : NoDup (map sd_id ds) ->
    (forall o, In o ds -> opt_vote false sels o = 0 \/ opt_vote false sels o = 1) ->
    sumZ (map (opt_vote false sels) ds) <= len (filter (fun s => 0 <? ps_vote s) sels).
  Proof.
    intros Hnd H01.
    set (ds1 := filter (fun o => opt_vote false sels o =? 1) ds).
    assert (Hsum : sumZ (map (opt_vote false sels) ds) = len ds1).
    { unfold ds1. clear Hnd. induction ds as [|o ds IH]; [reflexivity|]. cbn [map filter].
      destruct (H01 o (or_introl eq_refl)) as [H|H]; rewrite H; cbn [Z.eqb Pos.eqb];
      unfold sumZ in *; cbn [fold_right]; rewrite IH by (intros; apply H01; right; assumption); rewrite ?len_cons; lia. }
    rewrite Hsum.
    assert (Hinc : incl (map sd_id ds1) (map ps_id (filter (fun s => 0 <? ps_vote s) sels))).
    { intros i Hi. apply in_map_iff in Hi as [o [<- Ho]]. apply filter_In in Ho as [Ho Hv].
      apply Z.eqb_eq in Hv. unfold opt_vote in Hv.
      destruct (find_first _ sels) as [s|] eqn:Hf; [|discriminate].
      apply find_first_some in Hf as [Hs He]. apply eqb_spec in He. rewrite <- He.
      apply in_map, filter_In. split; [assumption|]. rewrite Hv. reflexivity. }
    apply NoDup_incl_length in Hinc.
    - rewrite !map_length in Hinc. unfold len. lia.
    - apply NoDup_map_filter. assumption.
  Qed.

  Lemma find_find_first {A} (f : A -> bool) l : find f l = find_first f l.
  Proof. induction l as [|x l IH]; cbn; [reflexivity|]. destruct (f x); [reflexivity|assumption]. Qed.

  Lemma opt_vote_recorded c d o b : (1 <=? marked c) && overvoted c d = b ->
    opt_vote b (pc_selections c) o = recorded_vote c d o.
  Proof.
    intros <-. unfold opt_vote, recorded_vote, voter_choice. rewrite find_find_first.
    destruct (_ && _); reflexivity.
  Qed.

  (** how the outcome of the validity check relates to the plain notion of overvoting *)
  Lemma check_overvote c d err data b : contest_error (pt_contest_valid c d) = Some (err, data, b) ->
    matches c d /\ (1 <=? marked c) && overvoted c d = b /\
    (b = false -> marked c <= cd_number_elected (ph_desc d)).
  Proof.
    destruct (pt_contest_valid c d) as [| | |ids|] eqn:Hv; cbn; intros [= <- <- <-].
    - apply valid_ok_iff in Hv as (H1 & H2 & H3 & H4). split; [assumption|]. split; [|lia].
      apply andb_false_iff. right. unfold overvoted. rewrite H3, Z.ltb_irrefl, Z.eqb_refl. cbn [orb andb].
      destruct (cd_votes_allowed (ph_desc d)) as [va|]; [|reflexivity]. apply Z.ltb_ge. apply H4; reflexivity.
    - apply valid_null_iff in Hv as [H1 H2]. split; [assumption|].
      assert (Hm : 0 <= marked c) by apply len_nonneg.
      assert (Hn : 0 <= cd_number_elected (ph_desc d)).
      { destruct H1 as (_ & _ & _ & H1 & _). rewrite <- H1. apply len_nonneg. }
      split; [|lia]. apply andb_false_iff. left. apply Z.leb_gt. lia.
    - apply valid_under_iff in Hv as [H1 H2]. split; [assumption|]. split; [|lia].
      apply andb_false_iff. right. unfold overvoted. 
      destruct (Z.ltb_spec (cd_number_elected (ph_desc d)) (marked c)); [lia|].
      destruct (Z.eqb_spec (marked c) (cd_number_elected (ph_desc d))); [lia|]. reflexivity.
    - apply valid_over_iff in Hv as (H1 & H2 & _ & H3). split; [assumption|]. split; [|discriminate].
      apply andb_true_iff. split; [apply Z.leb_le; assumption|]. unfold overvoted. apply orb_true_iff.
      destruct H3 as [H3|[H3 [va [H4 H5]]]]; [left; apply Z.ltb_lt; assumption|right].
      rewrite H3, Z.eqb_refl, H4. cbn. apply Z.ltb_lt; assumption.
  Qed.

  Definition contest_nonce_of (d : contest_ph) (seed : Z) : Z :=
    nonce_at E (mk_nonces E (contest_hash E (ph_desc d)) [HElem seed]) (cd_seq (ph_desc d)).

  Lemma all_nonces_spec ss : (forall s, In s ss -> exists r, cs_nonce s = Some r) ->
    exists rs, all_nonces ss = Some rs /\ Forall2 (fun s r => cs_nonce s = Some r) ss rs.
  Proof.
    induction ss as [|s ss IH]; intros Hs; cbn [all_nonces]; [eexists; split; [reflexivity|constructor]|].
    destruct (Hs s (or_introl eq_refl)) as [r Hr]. rewrite Hr.
    destruct IH as [rs [H1 H2]]; [intros; apply Hs; right; assumption|]. rewrite H1.
    eexists; split; [reflexivity|]. constructor; assumption.
  Qed.

  (** a list of selections that encrypt votes [vs], accumulated *)
  Lemma accumulate_enc K Q seed (ovs : list (bool * selection_desc * Z)) ss : in_subgroup E K ->
    Forall2 (fun x e => enc_as E K Q seed (fst (fst x)) (snd (fst x)) (snd x) e) ovs ss -> ss <> [] ->
    exists acc rs, accumulate_selections E ss = Ok acc /\ all_nonces ss = Some rs /\
      Forall (fun r => 0 < r < qq E) rs /\
      is_encryption E K (add_q E rs) (sumZ (map snd ovs)) (ct_pad acc) (ct_data acc).
  Proof.
    intros HK Hf Hne.
    assert (Hl : exists l : list (ciphertext * Z * Z), map (fun '(c, _, _) => c) l = map cs_ct ss /\
       map (fun '(_, _, m) => m) l = map snd ovs /\ all_nonces ss = Some (map (fun '(_, r, _) => r) l) /\
       Forall (fun '(c, r, m) => 0 <= r /\ 0 <= m /\ is_encryption E K r m (ct_pad c) (ct_data c)) l /\
       Forall (fun r => 0 < r < qq E) (map (fun '(_, r, _) => r) l)).
    { clear Hne. induction Hf as [|x e ovs ss Hx Hf IH].
      - exists []. repeat split; constructor.
      - destruct IH as [l (H1 & H2 & H3 & H4 & H5)]. destruct Hx as (H01 & _ & (_ & _ & _ & _ & r & Hr & Hrr & Henc) & _).
        exists ((cs_ct e, r, snd x) :: l). cbn [map all_nonces]. rewrite H1, H2, Hr, H3.
        split; [reflexivity|]. split; [reflexivity|]. split; [reflexivity|].
        split; constructor; try assumption. split; [lia|]. split; [lia|assumption]. }
    destruct Hl as [l (H1 & H2 & H3 & H4 & H5)].
    assert (Hlne : l <> []) by (intros ->; destruct ss; [contradiction|discriminate]).
    destruct (add_encryptions E HE K l HK Hlne H4) as [acc [Ha Hi]].
    exists acc, (map (fun '(_, r, _) => r) l). unfold accumulate_selections. rewrite <- H1.
    split; [assumption|]. split; [assumption|]. split; [assumption|].
    rewrite <- H2, add_q_eq by assumption. refine (proj1 (is_encryption_mod K _ _ acc HK _ _) Hi).
    - apply sumZ_nonneg. eapply Forall_impl; [|exact H5]. cbv beta. intros; lia.
    - apply sumZ_nonneg. clear - H4. induction H4 as [|[[c r] m] l (_ & Hm & _) _ IH]; cbn [map]; constructor; assumption.
  Qed.
End Con.

(** ** encrypt_contest *)
Section Contest.
  Context (E : env) (HE : valid_env E).
  Let Hq : 1 < qq E := q_gt_1 E HE.

  Record contest_encrypted (c : pt_contest) (d : contest_ph) (K Q seed : Z) (ec : ct_contest)
      (real extra : list ct_selection) (vs : list Z) : Prop := {
    ce_matches : matches c d;
    ce_seq_nonneg : 0 <= cd_seq (ph_desc d);
    ce_id : bc_id ec = cd_id (ph_desc d);
    ce_seq : bc_seq ec = cd_seq (ph_desc d);
    ce_desc : bc_desc_hash ec = contest_hash E (ph_desc d);
    ce_nonce : bc_nonce ec = Some (contest_nonce_of E d seed);
    ce_split : bc_selections ec = real ++ extra;
    ce_nonempty : bc_selections ec <> [];
    ce_real : Forall2 (fun o e => enc_as E K Q (contest_nonce_of E d seed) false o (recorded_vote c d o) e)
                (cd_selections (ph_desc d)) real;
    ce_vs : vs = fill (cd_number_elected (ph_desc d) - sumZ (map (recorded_vote c d) (cd_selections (ph_desc d)))) (ph_placeholders d);
    ce_extra : Forall2 (fun ov e => enc_as E K Q (contest_nonce_of E d seed) true (fst ov) (snd ov) e)
                 (combine (ph_placeholders d) vs) extra;
    ce_sum : sumZ (map (recorded_vote c d) (cd_selections (ph_desc d))) + sumZ vs = cd_number_elected (ph_desc d);
    ce_le : 0 <= sumZ (map (recorded_vote c d) (cd_selections (ph_desc d))) <= cd_number_elected (ph_desc d);
    ce_hash : bc_hash ec = contest_crypto_hash E (bc_id ec) (bc_selections ec) (bc_desc_hash ec);
    ce_acc : accumulate_selections E (bc_selections ec) = Ok (bc_acc ec);
    ce_proof : exists r, 0 <= r < qq E /\
      is_encryption E K r (cd_number_elected (ph_desc d)) (ct_pad (bc_acc ec)) (ct_data (bc_acc ec)) /\
      bc_proof ec = Some (make_constant E (bc_acc ec) (cd_number_elected (ph_desc d)) r K
         (nonce_at E (mk_nonces E (contest_hash E (ph_desc d)) [HElem seed]) 0) Q);
    ce_ext : exists err data bytes x, padded_encode (contest_data_json E err data (write_ins c)) = Ok bytes /\
      hashed_elgamal_encrypt E bytes
        (nonce_at E (mk_nonces E (contest_nonce_of E d seed) [HStr "constant-extended-data"]) 0) K Q = Ok x /\
      bc_ext ec = Some x }.

  Lemma combine_fst_snd {A B} (l : list A) : forall (m : list B), length l = length m -> map snd (combine l m) = m.
  Proof.
    induction l as [|x l IH]; intros [|y m] Hl; cbn in *; try reflexivity; try discriminate.
    rewrite IH by congruence. reflexivity.
  Qed.

  Lemma encrypt_contest_inner c d K Q seed verify err data ov real n extra bytes x : in_subgroup E K ->
    contest_error (pt_contest_valid c d) = Some (err, data, ov) -> 0 <= cd_seq (ph_desc d) ->
    let cn := contest_nonce_of E d seed in
    encrypt_options E (cd_selections (ph_desc d)) (pc_selections c) ov K Q cn verify 0 = Ok (Some (real, n)) ->
    encrypt_placeholders E (ph_placeholders d) (cd_number_elected (ph_desc d)) K Q cn verify n = Ok (Some extra) ->
    padded_encode (contest_data_json E err data (write_ins c)) = Ok bytes ->
    hashed_elgamal_encrypt E bytes (nonce_at E (mk_nonces E cn [HStr "constant-extended-data"]) 0) K Q = Ok x ->
    real ++ extra <> [] ->
    exists ec vs, make_ct_contest E (pc_id c) (cd_seq (ph_desc d)) (contest_hash E (ph_desc d)) (real ++ extra) K Q
        (nonce_at E (mk_nonces E (contest_hash E (ph_desc d)) [HElem seed]) 0)
        (cd_number_elected (ph_desc d)) (Some cn) (Some x) = Ok ec /\
      contest_encrypted c d K Q seed ec real extra vs.
  Proof.
    intros HK Herr Hs cn Hopt Hph Hbytes Hx Hne.
    destruct (check_overvote _ _ _ _ _ Herr) as (Hm & Hov & Hle).
    apply (encrypt_options_spec E HE) in Hopt; [|assumption]. destruct Hopt as [Hreal Hn].
    apply (encrypt_placeholders_spec E HE) in Hph; [|assumption].
    assert (Hrec : map (opt_vote ov (pc_selections c)) (cd_selections (ph_desc d)) = map (recorded_vote c d) (cd_selections (ph_desc d))).
    { apply map_ext. intros o. apply opt_vote_recorded. assumption. }
    rewrite Hrec in Hn. replace n with (sumZ (map (recorded_vote c d) (cd_selections (ph_desc d)))) in Hph by lia.
    set (vs := fill (cd_number_elected (ph_desc d) - sumZ (map (recorded_vote c d) (cd_selections (ph_desc d)))) (ph_placeholders d)) in *.
    assert (Hreal' : Forall2 (fun o e => enc_as E K Q cn false o (recorded_vote c d o) e) (cd_selections (ph_desc d)) real).
    { eapply Forall2_impl'; [|exact Hreal]. intros o e _ _ Ho. rewrite <- (opt_vote_recorded c d o ov Hov). exact Ho. }
    assert (Hrec01 : forall o, In o (cd_selections (ph_desc d)) -> recorded_vote c d o = 0 \/ recorded_vote c d o = 1).
    { intros o Ho. destruct (Forall2_in_l _ _ _ _ Hreal' Ho) as [e [_ [H01 _]]]. assumption. }
    destruct Hm as (Hm1 & Hm2 & Hm3 & Hm4 & Hm5).
    assert (HL : 0 <= cd_number_elected (ph_desc d)) by (rewrite <- Hm4; apply len_nonneg).
    assert (Hsum : 0 <= sumZ (map (recorded_vote c d) (cd_selections (ph_desc d))) <= cd_number_elected (ph_desc d)).
    { split.
      - apply sumZ_nonneg, Forall_forall. intros v Hv. apply in_map_iff in Hv as [o [<- Ho]].
        destruct (Hrec01 o Ho) as [-> | ->]; lia.
      - destruct ov.
        + rewrite <- Hrec. replace (map (opt_vote true (pc_selections c)) (cd_selections (ph_desc d)))
            with (map (fun _ : selection_desc => 0) (cd_selections (ph_desc d))) by reflexivity.
          enough (Hz : sumZ (map (fun _ : selection_desc => 0) (cd_selections (ph_desc d))) = 0) by lia.
          generalize (cd_selections (ph_desc d)). unfold sumZ. induction l; cbn; lia.
        + rewrite <- Hrec. etransitivity; [apply votes_le_marked|].
          * apply gc_ids. assumption.
          * intros o Ho. rewrite (opt_vote_recorded c d o false Hov). apply Hrec01; assumption.
          * apply Hle. reflexivity. }
    assert (Hvs : sumZ (map (recorded_vote c d) (cd_selections (ph_desc d))) + sumZ vs = cd_number_elected (ph_desc d)).
    { unfold vs. rewrite fill_sum by lia. lia. }
    pose (ovs := map (fun o => (false, o, recorded_vote c d o)) (cd_selections (ph_desc d))
                 ++ map (fun ov => (true, fst ov, snd ov)) (combine (ph_placeholders d) vs)).
    assert (Hovs : Forall2 (fun x e => enc_as E K Q cn (fst (fst x)) (snd (fst x)) (snd x) e) ovs (real ++ extra)).
    { apply Forall2_app.
      - apply Forall2_map_l. exact Hreal'.
      - apply Forall2_map_l. exact Hph. }
    destruct (accumulate_enc E HE K Q cn ovs (real ++ extra) HK Hovs Hne) as [acc [rs (Ha & Hrs & Hrs0 & Henc)]].
    assert (Htot : sumZ (map snd ovs) = cd_number_elected (ph_desc d)).
    { unfold ovs. rewrite map_app, !map_map, sumZ_app. cbn [snd].
      rewrite combine_fst_snd by (unfold vs; rewrite fill_length; reflexivity). exact Hvs. }
    rewrite Htot in Henc.
    unfold make_ct_contest, aggregate_nonce. rewrite Ha, Hrs. cbn [rbind option_map].
    eexists _, vs. split; [reflexivity|].
    constructor; cbn [bc_id bc_seq bc_desc_hash bc_nonce bc_selections bc_hash bc_acc bc_proof bc_ext];
      try assumption; try reflexivity.
    - unfold matches; auto.
    - exists (add_q E rs). split; [apply add_q_range; assumption|]. split; [assumption|reflexivity].
    - exists err, data, bytes, x. auto.
  Qed.

  Lemma encrypt_contest_spec c d K Q seed verify ec : in_subgroup E K ->
    encrypt_contest E c d K Q seed verify = Ok (Some ec) ->
    exists real extra vs, contest_encrypted c d K Q seed ec real extra vs.
  Proof.
    intros HK. unfold encrypt_contest.
    destruct (contest_error (pt_contest_valid c d)) as [[[err data] ov]|] eqn:Herr; [|discriminate].
    destruct (Z.ltb_spec (cd_seq (ph_desc d)) 0) as [Hs|Hs].
    { unfold nonce_get, nonce_with_headers. apply Z.ltb_lt in Hs. rewrite Hs. discriminate. }
    rewrite nonce_get_ok by assumption. cbn [rbind]. fold (contest_nonce_of E d seed).
    destruct (encrypt_options E _ _ _ _ _ _ _ _) as [[[real n]|]|] eqn:Hopt; cbn [rbind]; try discriminate.
    destruct (encrypt_placeholders E _ _ _ _ _ _ _) as [[extra|]|] eqn:Hph; cbn [rbind]; try discriminate.
    destruct (padded_encode _) as [bytes|] eqn:Hbytes; cbn [rbind]; [|discriminate].
    destruct (hashed_elgamal_encrypt E bytes _ K Q) as [x|] eqn:Hx; cbn [rbind]; [|discriminate].
    intros Heq.
    assert (Hne : real ++ extra <> []) by (intros He; rewrite He in Heq; discriminate).
    destruct (encrypt_contest_inner c d K Q seed verify err data ov real n extra bytes x HK Herr Hs Hopt Hph Hbytes Hx Hne)
      as [ec0 [vs [Hmk Hce]]].
    rewrite Hmk in Heq. cbn [rbind] in Heq.
    assert (Hec : ec = ec0).
    { destruct (ce_proof _ _ _ _ _ _ _ _ _ Hce) as [r (_ & _ & Hpf)]. rewrite Hpf in Heq.
      destruct verify; cbn [orb] in Heq; [|congruence].
      destruct (contest_is_valid_encryption E ec0 _ K Q) as [[|]|]; cbn in Heq; congruence. }
    subst ec. eauto.
  Qed.

  (** the checks a verifier runs on an encrypted contest *)
  Lemma contest_encrypted_checks c d K Q seed ec real extra vs : in_subgroup E K ->
    contest_encrypted c d K Q seed ec real extra vs ->
    cd_number_elected (ph_desc d) < qq E -> cd_number_elected (ph_desc d) < 1000000000 ->
    qq E * cd_number_elected (ph_desc d) <= pp E ->
    contest_is_valid_encryption E ec (bc_desc_hash ec) K Q = Ok true /\ contest_checks E ec K Q = Ok true.
  Proof.
    intros HK Hc H1 H2 H3. 
    assert (HL : 0 <= cd_number_elected (ph_desc d)) by (destruct (ce_le _ _ _ _ _ _ _ _ _ Hc); lia).
    assert (Hv : contest_is_valid_encryption E ec (bc_desc_hash ec) K Q = Ok true).
    { unfold contest_is_valid_encryption. rewrite Z.eqb_refl. cbn [negb].
      rewrite (ce_hash _ _ _ _ _ _ _ _ _ Hc), Z.eqb_refl. cbn [negb].
      destruct (ce_proof _ _ _ _ _ _ _ _ _ Hc) as [r (Hr & Henc & ->)].
      rewrite (ce_acc _ _ _ _ _ _ _ _ _ Hc). cbn [rbind]. unfold ct_eqb. rewrite !Z.eqb_refl. cbn [andb negb].
      rewrite const_honest by (assumption || lia). reflexivity. }
    split; [exact Hv|].
    unfold contest_checks. rewrite Hv. cbn [rbind].
    replace (forallb _ (bc_selections ec)) with true; [reflexivity|]. symmetry. apply forallb_forall.
    intros s Hs. rewrite (ce_split _ _ _ _ _ _ _ _ _ Hc) in Hs. apply in_app_or in Hs as [Hs|Hs].
    - destruct (Forall2_in_r _ _ _ _ (ce_real _ _ _ _ _ _ _ _ _ Hc) Hs) as [o [_ Hx]]. apply Hx.
    - destruct (Forall2_in_r _ _ _ _ (ce_extra _ _ _ _ _ _ _ _ _ Hc) Hs) as [o [_ Hx]]. apply Hx.
  Qed.
End Contest.

(** ** when encryption succeeds *)
Section Success.
  Context (E : env) (HE : valid_env E).
  Let Hq : 1 < qq E := q_gt_1 E HE.
  Hypothesis Hmac : hmac_32 E.

  Definition sel_ok (cn : Z) (o : selection_desc) : Prop :=
    0 <= sd_seq o /\ sel_nonce E o cn <> 0 /\ hnonce E (sel_proof_seed E o cn) disj_header 0 <> 0.

  Lemma encrypt_options_succeeds K Q cn verify ov sels : in_subgroup E K -> forall ds count,
    (forall o, In o ds -> sel_ok cn o) ->
    (forall o, In o ds -> opt_vote ov sels o = 0 \/ opt_vote ov sels o = 1) ->
    exists r, encrypt_options E ds sels ov K Q cn verify count = Ok (Some r).
  Proof.
    intros HK. induction ds as [|o ds IH]; intros count Hok Hv; cbn [encrypt_options]; [eauto|].
    set (ch := if ov then None else find_first (fun s => eqb (ps_id s) (sd_id o)) sels).
    assert (Hcase : exists s cnt, match ch with Some s => (s, count + ps_vote s) | None => (selection_from o false false, count) end = (s, cnt) /\
                        ps_vote s = opt_vote ov sels o /\ ps_id s = sd_id o).
    { unfold ch, opt_vote. destruct ov; [do 2 eexists; split; [reflexivity|]; cbn; auto|].
      destruct (find_first _ _) as [s|] eqn:Hf; do 2 eexists; (split; [reflexivity|]); cbn; [|auto].
      apply find_first_some in Hf as [_ Hf]. apply eqb_spec in Hf. auto. }
    destruct Hcase as [s [cnt [Hs [Hvote Hid]]]]. rewrite Hs.
    destruct (Hok o (or_introl eq_refl)) as (H1 & H2 & H3).
    destruct (encrypt_selection_succeeds E HE s o K Q cn false verify HK Hid) as [es Hes]; try assumption.
    { rewrite Hvote. apply Hv. left; reflexivity. }
    { right; assumption. }
    rewrite Hes. cbn [rbind].
    destruct (IH cnt) as [[rest n] Hr]; [intros; apply Hok; right; assumption|intros; apply Hv; right; assumption|].
    rewrite Hr. cbn [rbind]. eauto.
  Qed.

  Lemma encrypt_placeholders_succeeds K Q cn verify L : in_subgroup E K -> forall ds count,
    (forall o, In o ds -> sel_ok cn o) ->
    exists r, encrypt_placeholders E ds L K Q cn verify count = Ok (Some r).
  Proof.
    intros HK. induction ds as [|o ds IH]; intros count Hok; cbn [encrypt_placeholders]; [eauto|].
    destruct (Hok o (or_introl eq_refl)) as (H1 & H2 & H3).
    destruct (encrypt_selection_succeeds E HE (selection_from o true (count <? L)) o K Q cn true verify HK) as [es Hes]; try assumption.
    { reflexivity. }
    { unfold selection_from; cbn. destruct (count <? L); auto. }
    { right; assumption. }
    rewrite Hes. cbn [rbind].
    destruct (IH (if count <? L then count + 1 else count)) as [rest Hr]; [intros; apply Hok; right; assumption|].
    rewrite Hr. cbn [rbind]. eauto.
  Qed.

  Lemma string_bytes_is_bytes s : is_bytes (string_bytes s).
  Proof.
    unfold is_bytes, string_bytes. apply Forall_forall. intros b Hb. apply in_map_iff in Hb as [c [<- _]].
    destruct c as [[] [] [] [] [] [] [] []]; cbn; lia.
  Qed.
  Lemma string_bytes_len s : zlen (string_bytes s) = Z.of_nat (String.length s).
  Proof.
    unfold zlen, string_bytes. rewrite map_length. f_equal.
    induction s as [|c s IH]; [reflexivity|]. cbn in *. rewrite IH. reflexivity.
  Qed.
  Lemma to_bytes_le_raw_bytes len : forall n, is_bytes (to_bytes_le_raw len n).
  Proof.
    induction len as [|k IH]; intros n; cbn [to_bytes_le_raw]; constructor; [|apply IH].
    apply Z.mod_pos_bound. lia.
  Qed.
  Lemma add_padding_bytes m size allow p : is_bytes m -> add_padding m size allow = Ok p -> is_bytes p.
  Proof.
    intros Hm. unfold add_padding.
    destruct (if _ <? _ then _ else _) as [ml|]; cbn [rbind]; [|discriminate].
    unfold to_bytes_be, to_bytes_le. destruct (_ && _); cbn [rmap rbind]; [|discriminate].
    intros Hp. injection Hp as <-. unfold is_bytes in *. do 2 (constructor; [apply Z.mod_pos_bound; lia|]). apply Forall_app; split.
    - unfold py_slice. apply Forall_forall. intros x Hx. rewrite Forall_forall in Hm. apply Hm.
      apply In_firstn in Hx. apply In_skipn in Hx. exact Hx.
    - unfold zeros. apply Forall_forall. intros x Hx. apply repeat_spec in Hx. lia.
  Qed.
  Lemma padded_encode_ok s : Z.of_nat (String.length s) <= 510 ->
    exists bytes, padded_encode s = Ok bytes /\ zlen bytes = 512 /\ is_bytes bytes /\ remove_padding bytes 512 = string_bytes s.
  Proof.
    intros Hs. destruct (padding_ok (string_bytes s) 512 false) as [p (H1 & H2 & H3)]; [lia|rewrite string_bytes_len; lia|].
    exists p. unfold padded_encode. rewrite H1. do 2 (split; [assumption || reflexivity|]). split; [|assumption].
    eapply add_padding_bytes; [|exact H1]. apply string_bytes_is_bytes.
  Qed.

  Lemma encrypt_contest_succeeds c d K Q seed verify : in_subgroup E K ->
    pt_contest_valid c d <> CheckInvalid ->
    ((1 <=? marked c) && overvoted c d = true \/
     forall s, In s (pc_selections c) -> ps_vote s = 0 \/ ps_vote s = 1) ->
    seqs_nonneg d -> usable_nonces E d seed -> cd_selections (ph_desc d) <> [] ->
    (forall err data b, contest_error (pt_contest_valid c d) = Some (err, data, b) ->
       Z.of_nat (String.length (contest_data_json E err data (write_ins c))) <= 510) ->
    (verify = true -> limit_fits E (cd_number_elected (ph_desc d))) ->
    exists ec, encrypt_contest E c d K Q seed verify = Ok (Some ec).
  Proof.
    intros HK Hval Hvotes [Hs0 Hs] Huse Hne Htext Hfit.
    destruct (contest_error (pt_contest_valid c d)) as [[[err data] ov]|] eqn:Herr;
      [|destruct (pt_contest_valid c d); try discriminate; contradiction].
    destruct (check_overvote _ _ _ _ _ Herr) as (Hm & Hov & Hle).
    unfold encrypt_contest. rewrite Herr, nonce_get_ok by assumption. cbn [rbind]. fold (contest_nonce_of E d seed).
    assert (Hsel : forall o, In o (cd_selections (ph_desc d) ++ ph_placeholders d) -> sel_ok (contest_nonce_of E d seed) o).
    { intros o Ho. destruct (Huse o Ho) as [H1 H2]. unfold sel_ok. split; [apply Hs; assumption|]. split; assumption. }
    destruct (encrypt_options_succeeds K Q (contest_nonce_of E d seed) verify ov (pc_selections c) HK (cd_selections (ph_desc d)) 0)
      as [[real n] Hopt].
    { intros o Ho. apply Hsel, in_or_app. left; assumption. }
    { intros o Ho. unfold opt_vote. destruct ov; [left; reflexivity|].
      destruct Hvotes as [Hv|Hv]; [congruence|].
      destruct (find_first _ _) as [s|] eqn:Hf; [|left; reflexivity]. apply Hv. apply find_first_some in Hf. apply Hf. }
    rewrite Hopt. cbn [rbind].
    destruct (encrypt_placeholders_succeeds K Q (contest_nonce_of E d seed) verify (cd_number_elected (ph_desc d)) HK (ph_placeholders d) n)
      as [extra Hph].
    { intros o Ho. apply Hsel, in_or_app. right; assumption. }
    rewrite Hph. cbn [rbind].
    destruct (padded_encode_ok _ (Htext err data ov eq_refl)) as [bytes (Hb1 & Hb2 & Hb3 & _)]. rewrite Hb1. cbn [rbind].
    destruct (subgroup_cyclic E K HE HK) as [a [Ha HKa]].
    assert (Hnn : 0 <= nonce_at E (mk_nonces E (contest_nonce_of E d seed) [HStr "constant-extended-data"]) 0)
      by (apply hash_elems_nonneg; lia).
    destruct (hashed_encrypt_form E HE Hmac bytes 16 a _ Q Hb3 ltac:(unfold zlen in Hb2; lia) ltac:(lia) ltac:(lia) Hnn ltac:(lia)) as [x [Hx _]].
    rewrite HKa. rewrite Hx. cbn [rbind]. rewrite <- HKa.
    assert (Hne2 : real ++ extra <> []).
    { apply (encrypt_options_spec E HE) in Hopt; [|assumption]. destruct Hopt as [Hr _].
      destruct (cd_selections (ph_desc d)); [contradiction|]. inversion Hr; subst. discriminate. }
    rewrite <- HKa in Hx.
    destruct (encrypt_contest_inner E HE c d K Q seed verify err data ov real n extra bytes x HK Herr Hs0 Hopt Hph Hb1 Hx Hne2)
      as [ec [vs [Hmk Hce]]].
    rewrite Hmk. cbn [rbind]. destruct (ce_proof _ _ _ _ _ _ _ _ _ _ Hce) as [r (_ & _ & Hpf)]. rewrite Hpf.
    destruct verify; cbn [orb]; [|eauto]. destruct (Hfit eq_refl) as (F1 & F2 & F3).
    destruct (contest_encrypted_checks E HE _ _ _ _ _ _ _ _ _ HK Hce F1 F2 F3) as [Hv _].
    rewrite <- (ce_desc _ _ _ _ _ _ _ _ _ _ Hce), Hv. cbn [rbind]. eauto.
  Qed.
End Success.
