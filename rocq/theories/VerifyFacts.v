(** * VerifyFacts: lemmas about the verification functions. *)
From Verif Require Import Base Group Codec Hash DLog ElGamal ZK Spec Manifest Ballot Encrypt Box Tally Ceremony Shares SpecCeremony SpecShares SpecTally SpecElection Verify SpecVerify
  GroupFacts ListFacts TallyFacts TallyThms TallyMore SharesFacts SharesThms SharesMore MediatorFacts CryptoThms ManifestThms BallotFacts EncryptThms.
From Coq Require Import Permutation List.

(** ** verify_decryption *)
Section Dec.
  Variables (E : env) (keys : dict string public_key) (cx : context).
  Notation ext := (cx_ext_hash cx).
  Definition checkable (d : dec_sel) : Prop := dmem (dc_guardian d) keys = true /\ dc_proof d <> None.
  Definition holds (ct : ciphertext) (d : dec_sel) : Prop := exists k, dget (dc_guardian d) keys = Some k /\ proof_holds E d ct (pk_key k) ext.
  Definition fails (ct : ciphertext) (d : dec_sel) : Prop :=
    exists k pf, dget (dc_guardian d) keys = Some k /\ dc_proof d = Some pf /\ cp_is_valid E pf ct (pk_key k) (dc_share d) ext = false.
  Lemma verify_share_spec ct d : match verify_share E keys cx ct d with
    | Ok true => holds ct d | Ok false => fails ct d | Err e => e = AttributeError /\ ~ checkable d end.
  Proof.
    unfold verify_share, holds, fails, checkable, proof_holds, dmem. destruct (dget (dc_guardian d) keys) as [k|]; [|split; [reflexivity|intros [H _]; discriminate]].
    destruct (dc_proof d) as [pf|]; [|split; [reflexivity|intros [_ H]; congruence]].
    destruct (cp_is_valid E pf ct (pk_key k) (dc_share d) ext) eqn:Hv; [exists k; split; [reflexivity|]; exists pf; auto|exists k, pf; auto].
  Qed.
  Lemma holds_not_fails ct d : holds ct d -> fails ct d -> False.
  Proof. intros (k & H1 & pf & H2 & H3) (k' & pf' & H1' & H2' & H3'). congruence. Qed.
  Lemma holds_checkable ct d : holds ct d -> checkable d.
  Proof. intros (k & H1 & pf & H2 & H3). unfold checkable, dmem. rewrite H1, H2. split; [reflexivity|discriminate]. Qed.
  Lemma fails_checkable ct d : fails ct d -> checkable d.
  Proof. intros (k & pf & H1 & H2 & H3). unfold checkable, dmem. rewrite H1, H2. split; [reflexivity|discriminate]. Qed.
  Lemma verify_shares_spec id ct ds : match verify_shares E keys cx id ct ds with
    | Ok None => Forall (holds ct) ds
    | Ok (Some i) => i = id /\ exists d, In d ds /\ fails ct d
    | Err e => e = AttributeError /\ exists d, In d ds /\ ~ checkable d end.
  Proof.
    induction ds as [|d ds IH]; cbn [verify_shares]; [constructor|].
    pose proof (verify_share_spec ct d) as Hd. destruct (verify_share E keys cx ct d) as [[|]|e]; cbn [rbind].
    - destruct (verify_shares E keys cx id ct ds) as [[i|]|e].
      + destruct IH as (H1 & d' & H2 & H3). split; [assumption|]. exists d'. split; [right; assumption|assumption].
      + constructor; assumption.
      + destruct IH as (H1 & d' & H2 & H3). split; [assumption|]. exists d'. split; [right; assumption|assumption].
    - split; [reflexivity|]. exists d. split; [left; reflexivity|assumption].
    - destruct Hd as [-> Hd]. split; [reflexivity|]. exists d. split; [left; reflexivity|assumption].
  Qed.
  Definition in_sels (ss : dict string plain_sel) (oid : string) (ct : ciphertext) (d : dec_sel) : Prop :=
    exists ps, In (oid, ps) ss /\ pl_message ps = ct /\ In d (pl_shares ps).
  Lemma verify_selections_spec ss : match verify_selections E keys cx ss with
    | Ok None => forall oid ct d, in_sels ss oid ct d -> holds ct d
    | Ok (Some i) => exists ct d, in_sels ss i ct d /\ fails ct d
    | Err e => e = AttributeError /\ exists oid ct d, in_sels ss oid ct d /\ ~ checkable d end.
  Proof.
    induction ss as [|[id s] ss IH]; cbn [verify_selections]; [intros oid ct d (ps & [] & _)|].
    assert (Hw : forall oid ct d, in_sels ss oid ct d -> in_sels ((id, s) :: ss) oid ct d).
    { intros oid ct d (ps & H1 & H2). exists ps. split; [right; assumption|assumption]. }
    pose proof (verify_shares_spec id (pl_message s) (pl_shares s)) as Hs. destruct (verify_shares E keys cx id (pl_message s) (pl_shares s)) as [[i|]|e]; cbn [rbind].
    - destruct Hs as (-> & d & H1 & H2). exists (pl_message s), d. split; [|assumption]. exists s. split; [left; reflexivity|auto].
    - destruct (verify_selections E keys cx ss) as [[i|]|e].
      + destruct IH as (ct & d & H1 & H2). exists ct, d. auto.
      + intros oid ct d (ps & [H1|H1] & H2 & H3); [|apply (IH oid ct d); exists ps; auto]. inversion H1; subst. rewrite Forall_forall in Hs. apply Hs; assumption.
      + destruct IH as (H0 & oid & ct & d & H1 & H2). split; [assumption|]. exists oid, ct, d. auto.
    - destruct Hs as (-> & d & H1 & H2). split; [reflexivity|]. exists id, (pl_message s), d. split; [|assumption]. exists s. split; [left; reflexivity|auto].
  Qed.
  Definition in_cons (cs : dict string plain_con) (oid : string) (ct : ciphertext) (d : dec_sel) : Prop :=
    exists cid pc, In (cid, pc) cs /\ in_sels (pn_selections pc) oid ct d.
  Lemma verify_contests_spec cs : match verify_contests E keys cx cs with
    | Ok None => forall oid ct d, in_cons cs oid ct d -> holds ct d
    | Ok (Some i) => exists ct d, in_cons cs i ct d /\ fails ct d
    | Err e => e = AttributeError /\ exists oid ct d, in_cons cs oid ct d /\ ~ checkable d end.
  Proof.
    induction cs as [|[cid c] cs IH]; cbn [verify_contests]; [intros oid ct d (k & pc & [] & _)|].
    assert (Hw : forall oid ct d, in_cons cs oid ct d -> in_cons ((cid, c) :: cs) oid ct d).
    { intros oid ct d (k & pc & H1 & H2). exists k, pc. split; [right; assumption|assumption]. }
    assert (Hh : forall oid ct d, in_sels (pn_selections c) oid ct d -> in_cons ((cid, c) :: cs) oid ct d).
    { intros oid ct d H. exists cid, c. split; [left; reflexivity|assumption]. }
    pose proof (verify_selections_spec (pn_selections c)) as Hs. destruct (verify_selections E keys cx (pn_selections c)) as [[i|]|e]; cbn [rbind].
    - destruct Hs as (ct & d & H1 & H2). exists ct, d. auto.
    - destruct (verify_contests E keys cx cs) as [[i|]|e].
      + destruct IH as (ct & d & H1 & H2). exists ct, d. auto.
      + intros oid ct d (k & pc & [H1|H1] & H2); [|apply (IH oid ct d); exists k, pc; auto]. inversion H1; subst. apply (Hs _ _ _ H2).
      + destruct IH as (H0 & oid & ct & d & H1 & H2). split; [assumption|]. exists oid, ct, d. auto.
    - destruct Hs as (-> & oid & ct & d & H1 & H2). split; [reflexivity|]. exists oid, ct, d. auto.
  Qed.
  Lemma in_cons_shown p oid ct d : in_cons (pt_contests p) oid ct d <-> shown_share p oid ct d.
  Proof. unfold in_cons, in_sels, shown_share. split; [intros (a & b & H1 & c & H2 & H3 & H4)|intros (a & b & c & H1 & H2 & H3 & H4)]; eauto 10. Qed.
  Lemma verify_decryption_spec p : match verify_decryption E p keys cx with
    | Ok v => (v = verified /\ forall oid ct d, shown_share p oid ct d -> holds ct d) \/
              exists oid ct d, v = rejected ("verify_decryption: " ++ oid ++ " selection is not valid") /\ shown_share p oid ct d /\ fails ct d
    | Err e => e = AttributeError /\ exists oid ct d, shown_share p oid ct d /\ ~ checkable d end.
  Proof.
    unfold verify_decryption. pose proof (verify_contests_spec (pt_contests p)) as H. destruct (verify_contests E keys cx (pt_contests p)) as [[i|]|e]; cbn [rbind].
    - right. destruct H as (ct & d & H1 & H2). exists i, ct, d. rewrite <- in_cons_shown. auto.
    - left. split; [reflexivity|]. intros oid ct d Hd. apply in_cons_shown in Hd. apply (H oid ct d Hd).
    - destruct H as (-> & oid & ct & d & H1 & H2). split; [reflexivity|]. exists oid, ct, d. rewrite <- in_cons_shown. auto.
  Qed.
  Lemma accepts_exactly p : verify_decryption E p keys cx = Ok verified <->
    forall oid ct d, shown_share p oid ct d -> exists k, dget (dc_guardian d) keys = Some k /\ proof_holds E d ct (pk_key k) ext.
  Proof.
    pose proof (verify_decryption_spec p) as H. split.
    - intros Hv. rewrite Hv in H. destruct H as [[_ H]|(oid & ct & d & H & _)]; [exact H|discriminate].
    - intros Hall. destruct (verify_decryption E p keys cx) as [v|e].
      + destruct H as [[-> _]|(oid & ct & d & _ & H1 & H2)]; [reflexivity|]. exfalso. exact (holds_not_fails ct d (Hall _ _ _ H1) H2).
      + destruct H as (_ & oid & ct & d & H1 & H2). exfalso. apply H2. exact (holds_checkable ct d (Hall _ _ _ H1)).
  Qed.
  Lemma rejects_exactly p : (forall oid ct d, shown_share p oid ct d -> dmem (dc_guardian d) keys = true /\ dc_proof d <> None) ->
    (exists oid ct d, verify_decryption E p keys cx = Ok (rejected ("verify_decryption: " ++ oid ++ " selection is not valid")) /\ shown_share p oid ct d /\
       exists k, dget (dc_guardian d) keys = Some k /\ ~ proof_holds E d ct (pk_key k) ext) \/
    (verify_decryption E p keys cx = Ok verified /\ forall oid ct d k, shown_share p oid ct d -> dget (dc_guardian d) keys = Some k -> proof_holds E d ct (pk_key k) ext).
  Proof.
    intros Hc. pose proof (verify_decryption_spec p) as H. destruct (verify_decryption E p keys cx) as [v|e].
    - destruct H as [[-> H]|(oid & ct & d & -> & H1 & (k & pf & H2 & H3 & H4))].
      + right. split; [reflexivity|]. intros oid ct d k Hd Hk. destruct (H oid ct d Hd) as (k' & Hk' & Hp). rewrite Hk in Hk'. inversion Hk'; subst. exact Hp.
      + left. exists oid, ct, d. split; [reflexivity|]. split; [assumption|]. exists k. split; [assumption|]. intros (pf' & P1 & P2). congruence.
    - destruct H as (_ & oid & ct & d & H1 & H2). exfalso. apply H2. exact (Hc oid ct d H1).
  Qed.
End Dec.

(** *** plaintexts shown by the mediator *)
Lemma dset_nodup' {V} k (v : V) (d : dict string V) : NoDup (dkeys d) -> NoDup (dkeys (dset k v d)).
Proof. apply dset_nodup. Qed.
Lemma decrypt_selections_nodup E shares ext ids remove : forall ss d r, NoDup (dkeys d) ->
  decrypt_selections_shares E shares ext ids remove ss d = Ok (Some r) -> NoDup (dkeys r).
Proof.
  induction ss as [|s ss IH]; intros d r Hd H; cbn [decrypt_selections_shares] in H; [inversion H; subst; assumption|].
  destruct (negb (inb (fst s) ids) && remove); [eauto|].
  destruct (decrypt_selection_shares _ _ _ _) as [[p|]|]; cbn [rbind] in H; [|discriminate|discriminate]. eapply IH; [|exact H]. apply dset_nodup. assumption.
Qed.
Definition plain_dicts (d : dict string plain_con) : Prop := NoDup (dkeys d) /\ forall k c, In (k, c) d -> NoDup (dkeys (pn_selections c)).
Lemma decrypt_contests_nodup E shares ext descs remove : forall cs d r, plain_dicts d ->
  decrypt_contests_shares E shares ext descs remove cs d = Ok (Some r) -> plain_dicts r.
Proof.
  induction cs as [|c cs IH]; intros d r Hd H; cbn [decrypt_contests_shares] in H; [inversion H; subst; assumption|].
  destruct (dget (cc_id c) descs) as [desc|]; [|eauto]. unfold decrypt_contest_shares in H.
  destruct (decrypt_selections_shares E shares ext _ remove (cc_selections c) []) as [[sd|]|] eqn:Hs; cbn [rbind] in H; [|discriminate|discriminate].
  eapply IH; [|exact H]. destruct Hd as [H1 H2]. split; [apply dset_nodup; assumption|]. intros k c' Hin.
  apply TallyFacts.dset_in in Hin. destruct Hin as [Hin|Hin]; [|apply (H2 k c' Hin)]. inversion Hin; subst. cbn [pn_selections].
  eapply decrypt_selections_nodup; [|exact Hs]. constructor.
Qed.
Lemma decrypt_shares_dicts E id cs shares ext mf remove p : decrypt_shares E id cs shares ext mf remove = Ok (Some p) -> plain_dicts (pt_contests p).
Proof.
  unfold decrypt_shares. destruct (decrypt_contests_shares _ _ _ _ _ _ _) as [[d|]|] eqn:H; cbn [rbind]; [|discriminate|discriminate].
  intros Hp; inversion Hp; subst. cbn [pt_contests]. eapply decrypt_contests_nodup; [|exact H]. split; [constructor|intros ? ? []].
Qed.
(** direct shares: every entry names the guardian of the share, is complete and has a proof of its own *)
Definition direct (sh : dec_share) : Prop := forall d, In d (share_entries sh) -> dc_guardian d = sh_guardian sh /\ dc_parts d = None.
Lemma direct_verifies E (HE : valid_env E) id cs shares cx mf remove p keys :
  decrypt_shares E id cs shares (cx_ext_hash cx) mf remove = Ok (Some p) ->
  (forall sh, In sh (dvals shares) -> direct sh /\ exists k, dget (sh_guardian sh) keys = Some k /\ pk_key k = sh_key sh) ->
  verify_decryption E p keys cx = Ok verified.
Proof.
  intros H Hsh. apply accepts_exactly. intros oid ct d (cid & pc & ps & H1 & H2 & H3 & H4). destruct (decrypt_shares_dicts _ _ _ _ _ _ _ _ H) as [N1 N2].
  assert (Hs : shown p cid oid ps). { exists pc. split; [apply in_dget; assumption|apply in_dget; [apply (N2 cid pc H1)|assumption]]. }
  destruct (decrypt_shares_backed E HE _ _ _ _ _ _ _ _ _ _ H Hs) as (ct' & _ & B1 & B2 & B3 & _). rewrite Forall_forall in B3.
  destruct (B3 d H4) as (Hid & sh & S1 & S2 & S3). destruct (Hsh sh S1) as [Hd (k & K1 & K2)]. destruct (Hd d S2) as [G1 G2].
  exists k. rewrite G1. split; [assumption|]. rewrite K2. subst ct. rewrite B2. unfold dec_sel_valid in S3. rewrite G2 in S3. destruct (dc_proof d) as [pf|] eqn:Hpf; [|discriminate].
  exists pf. auto.
Qed.
(** what a guardian computes is direct *)
Lemma collect_keeps {A} (P : A -> Prop) key : forall l d r, (forall kv, In kv d -> P (snd kv)) -> (forall a, In (Some a) l -> P a) ->
  collect key l d = Some r -> forall kv, In kv r -> P (snd kv).
Proof.
  induction l as [|[a|] l IH]; intros d r Hd Hl H; cbn [collect] in H; [inversion H; subst; assumption| |discriminate].
  eapply IH; [|intros; apply Hl; right; eassumption|exact H]. intros [k v] Hin. apply TallyFacts.dset_in in Hin. destruct Hin as [Hin|Hin]; [|apply (Hd _ Hin)].
  inversion Hin; subst. cbn [snd]. apply Hl. left; reflexivity.
Qed.
Lemma schedule_in_results {A B} (task : A -> res B) args up b : In b (schedule up task args) -> exists a, In a args /\ task a = Ok b.
Proof.
  intros Hb. unfold schedule in Hb. destruct up; [|destruct Hb]. destruct (rmapM task args) as [l|] eqn:H; [|destruct Hb].
  apply rmapM_iff in H. destruct (Forall2_in_r _ _ _ _ H Hb) as (a & Ha & Hab). eauto.
Qed.
Lemma share_of_direct E up rnd k ext id cs sh : share_of E up rnd k ext id cs = Some sh -> direct sh /\ sh_guardian sh = ek_owner k /\ sh_key sh = kp_public (ek_pair k).
Proof.
  unfold share_of. destruct (share_contests E up rnd k ext 0 cs []) as [d|] eqn:H; [|discriminate]. intros Hs; inversion Hs; subst. split; [|split; reflexivity].
  assert (Hd : forall i cs d0 d, (forall kv, In kv d0 -> forall x, In x (dvals (dn_selections (snd kv))) -> dc_guardian x = ek_owner k /\ dc_parts x = None) ->
    share_contests E up rnd k ext i cs d0 = Some d -> forall kv, In kv d -> forall x, In x (dvals (dn_selections (snd kv))) -> dc_guardian x = ek_owner k /\ dc_parts x = None).
  { clear. intros i cs; revert i. induction cs as [|c cs IH]; intros i d0 d H0 H; cbn [share_contests] in H; [inversion H; subst; exact H0|].
    destruct (share_for_contest E (up i) (rnd i) k c ext) as [dn|] eqn:Hc; [|discriminate]. eapply IH; [|exact H]. intros [k' v] Hin.
    apply TallyFacts.dset_in in Hin. destruct Hin as [Hin|Hin]; [|apply (H0 _ Hin)]. inversion Hin; subst. cbn [snd]. unfold share_for_contest in Hc.
    destruct (collect dc_id _ []) as [sels|] eqn:Hcol; [|discriminate]. inversion Hc; subst. cbn [dn_selections]. intros x Hx. unfold dvals in Hx.
    apply in_map_iff in Hx. destruct Hx as (kv & <- & Hkv).
    apply (collect_keeps (fun x => dc_guardian x = ek_owner k /\ dc_parts x = None) _ _ _ _ (fun kv (H : In kv []) => match H with end)) with (2 := Hcol); [|assumption].
    intros a Ha. apply schedule_in_results in Ha. destruct Ha as (b & _ & Hb). inversion Hb as [Hb']. unfold share_for_selection in Hb'.
    destruct (partially_decrypt E k (snd (snd b)) ext (rnd i (fst b))) as [mm pf]. destruct (cp_is_valid _ _ _ _ _ _); [|discriminate]. inversion Hb'; subst. split; reflexivity. }
  intros x Hx. cbn [sh_guardian]. unfold share_entries in Hx. cbn [sh_contests] in Hx. apply in_flat_map in Hx. destruct Hx as (dn & Hdn & Hx). unfold dvals in Hdn.
  apply in_map_iff in Hdn. destruct Hdn as (kv & <- & Hkv). apply (Hd 0%nat cs [] d (fun kv (H : In kv []) => match H with end) H kv Hkv x Hx).
Qed.
(** every share a mediator holds after announcements comes from one of the guardians *)
Section Announced.
  Variables (E : env) (up : list nat -> bool) (rnd : list nat -> Z) (t : tally) (bs : list sub_ballot) (cx : context).
  Definition made_by (gs : list guardian) (sh : dec_share) : Prop := exists g, In g gs /\ sh_guardian sh = pk_owner (share_key g) /\ sh_key sh = pk_key (share_key g) /\ direct sh.
  Definition all_made (gs : list guardian) (m : dmediator) : Prop :=
    dm_context m = cx /\ (forall sh, In sh (dvals (dm_tally m)) -> made_by gs sh) /\
    forall id shs, In (id, shs) (dm_ballots m) -> forall sh, In sh (dvals shs) -> made_by gs sh.
  Lemma in_dvals_dset {V} k (v : V) (d : dict string V) x : In x (dvals (dset k v d)) -> x = v \/ In x (dvals d).
  Proof.
    unfold dvals. intros H. apply in_map_iff in H. destruct H as ([k' v'] & <- & H). apply TallyFacts.dset_in in H. cbn [snd].
    destruct H as [H|H]; [left; congruence|right]. apply in_map_iff. exists (k', v'). auto.
  Qed.
  Lemma announce_one_made gs g i m m' : In g gs -> all_made gs m -> announce_one E up rnd t bs cx m (i, g) = Ok m' -> all_made gs m'.
  Proof.
    intros Hg (Hc & Ht & Hb) H. unfold announce_one in H. unfold gd_tally_share, compute_decryption_share in H.
    destruct (share_of E _ _ (gd_keys g) _ (ty_id t) _) as [sh|] eqn:Hsh; [|discriminate]. cbn [get_optional rbind] in H. inversion H; subst m'. clear H.
    apply share_of_direct in Hsh. destruct Hsh as (D1 & D2 & D3).
    assert (Hmade : made_by gs sh) by (exists g; exact (conj Hg (conj D2 (conj D3 D1)))).
    unfold dm_announce. destruct (dmem (pk_owner (share_key g)) (dm_available m)); [split; [assumption|split; assumption]|].
    split; [exact Hc|]. cbn [dm_tally dm_ballots]. split; [intros x Hx; apply in_dvals_dset in Hx; destruct Hx as [->|Hx]; auto|].
    set (l := valid_ballot_shares _).
    assert (Hl : forall kv, In kv l -> made_by gs (snd kv)).
    { unfold l, valid_ballot_shares. set (src := gd_ballot_shares _ _ _ _ _ _).
      assert (Hsrc : forall kv, In kv src -> forall s, snd kv = Some s -> made_by gs s).
      { intros [k o] Hin s Hs. cbn [snd] in Hs. subst o. apply dict_of_in in Hin. apply in_map_iff in Hin. destruct Hin as (ib & Heq & _). inversion Heq as [[H1 H2]].
        apply share_of_direct in H2. destruct H2 as (F1 & F2 & F3). exists g. exact (conj Hg (conj F2 (conj F3 F1))). }
      assert (H : forall src (d : dict string dec_share), (forall kv, In kv src -> forall s, snd kv = Some s -> made_by gs s) -> (forall kv, In kv d -> made_by gs (snd kv)) ->
        forall kv, In kv (fold_left (fun acc kv => match snd kv with Some s => dset (fst kv) s acc | None => acc end) src d) -> made_by gs (snd kv)).
      { clear. induction src as [|[k [s|]] src IH]; intros d Hs Hd; cbn [fold_left fst snd]; [exact Hd| |].
        - apply IH; [intros; eapply Hs; [right; eassumption|assumption]|]. intros [k' v'] Hin. apply TallyFacts.dset_in in Hin. destruct Hin as [Hin|Hin]; [|apply (Hd _ Hin)].
          inversion Hin; subst. apply (Hs (k, Some s)); [left; reflexivity|reflexivity].
        - apply IH; [intros; eapply Hs; [right; eassumption|assumption]|exact Hd]. }
      apply H; [exact Hsrc|intros ? []]. }
    clearbody l. set (bd := dm_ballots m) in *. clearbody bd. revert bd Hb Hl. clear - t. induction l as [|[k s] l IH]; intros bd Hb Hl; cbn [map fold_left fst snd]; [exact Hb|].
    apply IH; [|intros; apply Hl; right; assumption]. intros id shs Hin x Hx. unfold save_ballot_share in Hin. cbn [fst snd] in Hin. apply TallyFacts.dset_in in Hin.
    destruct Hin as [Hin|Hin]; [|apply (Hb id shs Hin x Hx)]. inversion Hin; subst. apply in_dvals_dset in Hx. destruct Hx as [->|Hx]; [apply (Hl (k, s)); left; reflexivity|].
    destruct (dget k bd) as [s0|] eqn:Hk; [|destruct Hx]. apply dget_in in Hk. apply (Hb k s0 Hk x Hx).
  Qed.
  Lemma announcement_made gs keys mid m : announcement E up rnd gs keys (new_dmediator mid cx) cx t bs = Ok m -> all_made gs m.
  Proof.
    unfold announcement. intros H.
    assert (Hf : forall l m m1, (forall ig, In ig l -> In (snd ig) gs) -> all_made gs m -> rfold (announce_one E up rnd t bs cx) l m = Ok m1 -> all_made gs m1).
    { clear. induction l as [|[i g] l IH]; intros m m1 Hl Hm Hr; cbn [rfold] in Hr; [inversion Hr; subst; assumption|].
      destruct (announce_one E up rnd t bs cx m (i, g)) as [m2|] eqn:H2; [|discriminate]. cbn [rbind] in Hr.
      eapply IH; [intros; apply Hl; right; assumption| |exact Hr]. apply (announce_one_made gs g i m m2); [apply (Hl (i, g)); left; reflexivity|assumption|assumption]. }
    destruct (rfold (announce_one E up rnd t bs cx) (number gs) (new_dmediator mid cx)) as [m1|] eqn:H1; [|discriminate]. cbn [rbind] in H. inversion H; subst m. clear H.
    apply Hf in H1; [|intros ig Hig; rewrite <- (number_snd gs); apply in_map; assumption|split; [reflexivity|split; [intros ? []|intros ? ? []]]].
    set (l := filter _ keys). clearbody l. revert m1 H1. induction l as [|k l IH]; intros m1 H1; cbn [fold_left]; [assumption|]. apply IH.
    unfold dm_announce_missing. destruct (dmem (pk_owner k) (dm_available m1)); [assumption|]. exact H1.
  Qed.
End Announced.
Lemma setup_verifies E up rnd gs mid cx t bs m mf p keys : valid_env E -> decryption_setup E up rnd gs (new_dmediator mid cx) cx t bs = Ok m ->
  dm_plaintext_tally E m t mf = Ok (Some p) -> has_keys keys gs -> verify_decryption E p keys cx = Ok verified.
Proof.
  intros HE Hm Hp Hk. apply announcement_made in Hm. destruct Hm as (Hc & Ht & _). unfold dm_plaintext_tally in Hp.
  destruct (negb (announcement_complete m) || negb (ready_to_decrypt m (dm_tally m))); [discriminate|]. rewrite Hc in Hp.
  apply (direct_verifies E HE _ _ _ _ _ _ _ _ Hp). intros sh Hsh. destruct (Ht sh Hsh) as (g & G1 & G2 & G3 & G4). split; [assumption|].
  destruct (Hk g G1) as (k & K1 & K2). exists k. rewrite G2, G3. auto.
Qed.
Lemma ballots_loop_in E m mf : forall bs d r, plaintext_ballots_loop E m mf bs d = Ok r -> forall id p, In (id, p) r ->
  In (id, p) d \/ exists b shares, dget (sb_id b) (dm_ballots m) = Some shares /\ decrypt_ballot E b shares (cx_ext_hash (dm_context m)) mf true = Ok (Some p).
Proof.
  induction bs as [|b bs IH]; intros d r H id p Hin; cbn [plaintext_ballots_loop] in H; [inversion H; subst; auto|].
  destruct (dget (sb_id b) (dm_ballots m)) as [[|x shares]|] eqn:Hb; [apply (IH _ _ H _ _ Hin)| |apply (IH _ _ H _ _ Hin)].
  destruct (negb (ready_to_decrypt m (x :: shares))); [apply (IH _ _ H _ _ Hin)|].
  destruct (decrypt_ballot E b (x :: shares) (cx_ext_hash (dm_context m)) mf true) as [o|] eqn:Ho; [|discriminate]. cbn [rbind] in H.
  destruct (IH _ _ H _ _ Hin) as [H'|H']; [|auto]. destruct o as [q|]; [|auto]. apply TallyFacts.dset_in in H'. destruct H' as [H'|H']; [|auto].
  inversion H'; subst. right. eauto.
Qed.
Lemma setup_verifies_ballots E up rnd gs mid cx t bs m mf ps id p keys : valid_env E -> decryption_setup E up rnd gs (new_dmediator mid cx) cx t bs = Ok m ->
  dm_plaintext_ballots E m bs mf = Ok (Some ps) -> In (id, p) ps -> has_keys keys gs -> verify_decryption E p keys cx = Ok verified.
Proof.
  intros HE Hm Hp Hin Hk. apply announcement_made in Hm. destruct Hm as (Hc & _ & Hb). unfold dm_plaintext_ballots in Hp.
  destruct (negb (announcement_complete m)); [discriminate|]. destruct (plaintext_ballots_loop E m mf bs []) as [d|] eqn:Hl; [|discriminate]. cbn [rbind] in Hp. inversion Hp; subst d.
  destruct (ballots_loop_in _ _ _ _ _ _ Hl id p Hin) as [[]|(b & shares & H1 & H2)]. rewrite Hc in H2.
  apply (direct_verifies E HE _ _ _ _ _ _ _ _ H2). apply dget_in in H1. intros sh Hsh. destruct (Hb _ _ H1 sh Hsh) as (g & G1 & G2 & G3 & G4). split; [assumption|].
  destruct (Hk g G1) as (k & K1 & K2). exists k. rewrite G2, G3. auto.
Qed.

(** ** verify_aggregation *)
Lemma set_eqb_spec (a b : list string) : set_eqb a b = true <-> same_ids a b.
Proof.
  unfold set_eqb, subsetb. rewrite andb_true_iff, !forallb_forall. unfold same_ids. split.
  - intros [H1 H2] i. split; intros Hi; [apply H1 in Hi|apply H2 in Hi]; apply inb_spec in Hi; assumption.
  - intros H. split; intros i Hi; apply inb_spec; apply H; assumption.
Qed.
Lemma dict_eqb_spec {V} (f : V -> V -> bool) (R : V -> V -> Prop) (a b : dict string V) : NoDup (dkeys a) -> NoDup (dkeys b) ->
  (forall k v w, In (k, v) a -> In (k, w) b -> (f v w = true <-> R v w)) -> (dict_eqb f a b = true <-> same_map R a b).
Proof.
  intros Ha Hb Hf. unfold dict_eqb. rewrite andb_true_iff, Z.eqb_eq, forallb_forall. split.
  - intros [Hlen H]. assert (Hab : incl (dkeys a) (dkeys b)).
    { intros k Hk. unfold dkeys in Hk. apply in_map_iff in Hk. destruct Hk as (kv & <- & Hkv). specialize (H kv Hkv). destruct (dget (fst kv) b) eqn:Hg; [|discriminate].
      apply dget_in in Hg. apply (in_map fst) in Hg. exact Hg. }
    assert (Hba : incl (dkeys b) (dkeys a)).
    { apply NoDup_length_incl; [assumption| |assumption]. unfold len in Hlen. unfold dkeys. rewrite !map_length. lia. }
    intros k. destruct (dget k a) as [v|] eqn:Hv.
    + apply dget_in in Hv. pose proof (H _ Hv) as Hk. cbn [fst snd] in Hk. destruct (dget k b) as [w|] eqn:Hw; [|discriminate]. apply (Hf k v w); [assumption|apply dget_in; assumption|assumption].
    + destruct (dget k b) as [w|] eqn:Hw; [|exact I]. apply dget_none in Hv. apply Hv, Hba. apply dget_in in Hw. apply (in_map fst) in Hw. exact Hw.
  - intros H. split.
    + assert (Hk : forall k, In k (dkeys a) <-> In k (dkeys b)).
      { intros k. specialize (H k). destruct (dget k a) as [v|] eqn:Hv, (dget k b) as [w|] eqn:Hw; try contradiction.
        - apply dget_in in Hv, Hw. apply (in_map fst) in Hv, Hw. tauto.
        - apply dget_none in Hv, Hw. tauto. }
      assert (HP : Permutation (dkeys a) (dkeys b)) by (apply NoDup_Permutation; assumption). apply Permutation_length in HP. unfold dkeys in HP. rewrite !map_length in HP. unfold len. lia.
    + intros [k v] Hin. cbn [fst snd]. pose proof (H k) as Hk. rewrite (in_dget k v a Ha Hin) in Hk. destruct (dget k b) as [w|] eqn:Hw; [|contradiction].
      apply (Hf k v w); [assumption|apply dget_in; assumption|assumption].
Qed.
Lemma tally_selection_eqb_spec a b : tally_selection_eqb a b = true <-> a = b.
Proof.
  unfold tally_selection_eqb, ct_eqb. rewrite !andb_true_iff, !Z.eqb_eq. cbv [eqb EqB_string]. rewrite String.eqb_eq.
  destruct a as [a1 a2 a3 [a4 a5]], b as [b1 b2 b3 [b4 b5]]; cbn. split; [intros [[[-> ->] ->] [-> ->]]; reflexivity|intros H; inversion H; auto 10].
Qed.
Lemma tally_contest_eqb_spec a b : NoDup (dkeys (tc_selections a)) -> NoDup (dkeys (tc_selections b)) -> (tally_contest_eqb a b = true <-> same_contest a b).
Proof.
  intros Ha Hb. unfold tally_contest_eqb, same_contest. rewrite !andb_true_iff, !Z.eqb_eq. cbv [eqb EqB_string]. rewrite String.eqb_eq.
  rewrite (dict_eqb_spec tally_selection_eqb eq) by (try assumption; intros; apply tally_selection_eqb_spec). tauto.
Qed.
Lemma contests_eqb_spec a b : tally_dicts a -> tally_dicts b ->
  (dict_eqb tally_contest_eqb (ty_contests a) (ty_contests b) = true <-> same_map same_contest (ty_contests a) (ty_contests b)).
Proof.
  intros [A1 A2] [B1 B2]. apply dict_eqb_spec; [assumption|assumption|]. intros k v w Hv Hw. apply tally_contest_eqb_spec; eauto.
Qed.
(** dictionaries keep different keys *)
Lemma store_results_keys rs : forall ss, dkeys (fst (store_results rs ss)) = dkeys ss.
Proof.
  induction rs as [|[k [c|]] rs IH]; intros ss; cbn [store_results]; [reflexivity| |reflexivity].
  destruct (dget k ss) as [t|] eqn:Hg; [|reflexivity]. rewrite IH. apply dget_in in Hg. apply dset_keys_same. apply (in_map fst) in Hg. exact Hg.
Qed.
Lemma accumulate_keys E up tc sels : dkeys (tc_selections (fst (accumulate_contest E up tc sels))) = dkeys (tc_selections tc).
Proof.
  unfold accumulate_contest. destruct sels as [|s sels]; [reflexivity|]. destruct (existsb _ _); [reflexivity|].
  set (rs := schedule _ _ _). pose proof (store_results_keys rs (tc_selections tc)) as H. destruct (store_results rs (tc_selections tc)). exact H.
Qed.
Definition dict_ok (d : dict string tally_contest) : Prop := NoDup (dkeys d) /\ forall k c, In (k, c) d -> NoDup (dkeys (tc_selections c)).
Lemma add_contests_dicts E up : forall cs i d, dict_ok d -> dict_ok (fst (add_contests E up i cs d)).
Proof.
  induction cs as [|c cs IH]; intros i d Hd; cbn [add_contests]; [assumption|]. destruct (dget (bc_id c) d) as [tc|] eqn:Hg; [|assumption].
  pose proof (accumulate_keys E (up i) tc (bc_selections c)) as Hk. destruct (accumulate_contest E (up i) tc (bc_selections c)) as [tc' r]. cbn [fst] in Hk.
  assert (Hd' : dict_ok (dset (bc_id c) tc' d)).
  { destruct Hd as [H1 H2]. split; [apply dset_nodup; assumption|]. intros k x Hin. apply TallyFacts.dset_in in Hin. destruct Hin as [Hin|Hin]; [|apply (H2 k x Hin)].
    inversion Hin; subst. rewrite Hk. apply dget_in in Hg. apply (H2 _ _ Hg). }
  destruct r as [[|]|]; [apply IH; assumption|assumption|assumption].
Qed.
Lemma append_dicts E up t b v : tally_dicts t -> tally_dicts (fst (append E up t b v)).
Proof.
  intros Hd. unfold append. destruct (box_state_eqb (sb_state b) UNKNOWN); [assumption|]. destruct (tally_contains t b); [assumption|].
  destruct (ballot_valid_for_election E (sb_ballot b) _ _ v) as [[|]|]; [|assumption|assumption]. destruct (sb_state b); [|assumption|assumption].
  unfold add_cast. pose proof (add_contests_dicts E up (cb_contests (sb_ballot b)) 0%nat (ty_contests t) Hd) as H.
  destruct (add_contests E up 0 (cb_contests (sb_ballot b)) (ty_contests t)) as [d r]. destruct r as [[|]|]; exact H.
Qed.
Lemma new_tally_dicts E id im cx : tally_dicts (new_tally E id im cx).
Proof.
  destruct (build_dwf E im) as [H1 H2]. split; [exact H1|]. intros k c Hin. apply (H2 k c). apply in_dget; assumption.
Qed.
Lemma run_any_dicts E id im cx h : tally_dicts (fst (run_any E (new_tally E id im cx) h)).
Proof. unfold run_any. apply run_any_inv; [intros; apply append_dicts; assumption|apply new_tally_dicts]. Qed.

Lemma run_any_fold E h : forall t rs, fold_left (fun '(t, rs) '(up, b, v) => let '(t', r) := append E up t b v in (t', rs ++ [r])) h (t, rs)
  = (fst (run_any E t h), rs ++ snd (run_any E t h)).
Proof.
  unfold run_any. induction h as [|[[up b] v] h IH]; intros t rs; cbn [fold_left]; [cbn; rewrite app_nil_r; reflexivity|].
  destruct (append E up t b v) as [t' r]. rewrite (IH t' (rs ++ [r])), (IH t' ([] ++ [r])). cbn [fst snd app]. rewrite <- app_assoc. reflexivity.
Qed.
Lemma run_any_cons E t up b v h : run_any E t ((up, b, v) :: h) =
  (fst (run_any E (fst (append E up t b v)) h), snd (append E up t b v) :: snd (run_any E (fst (append E up t b v)) h)).
Proof.
  unfold run_any at 1. cbn [fold_left]. destruct (append E up t b v) as [t' r]. rewrite run_any_fold. reflexivity.
Qed.
Lemma append_all_spec E up : forall bs i t n, append_all E up i bs t = Ok n <->
  (let h := map (fun ib => (up (fst ib), snd ib, true)) (combine (seq i (length bs)) bs) in fst (run_any E t h) = n /\ none_raised (snd (run_any E t h))).
Proof.
  induction bs as [|b bs IH]; intros i t n; cbn [append_all length seq combine map fst snd].
  - cbn. split; [intros H; inversion H; split; [reflexivity|intros e []]|intros [-> _]; reflexivity].
  - cbv zeta. rewrite run_any_cons. destruct (append E (up i) t b true) as [t' r] eqn:Ha. cbn [fst snd]. destruct r as [v|e]; cbn [rbind].
    + rewrite IH. cbv zeta. split; intros [H1 H2]; (split; [exact H1|]); intros e; [intros [He|He]; [discriminate|apply (H2 e He)]|intros He; apply (H2 e); right; assumption].
    + split; [discriminate|]. intros [_ H]. exfalso. apply (H e). left. reflexivity.
Qed.
Lemma aggregation_exact E up bs t m cx im : make_internal E m = Ok im -> tally_dicts t ->
  let r := run_any E (new_tally E "verify" im cx) (calls up bs) in
  (verify_aggregation E up bs t m cx = Ok verified <-> none_raised (snd r) /\ same_tally (fst r) t).
Proof.
  intros Him Ht r. unfold verify_aggregation. rewrite Him. cbn [rbind].
  pose proof (append_all_spec E up bs 0%nat (new_tally E "verify" im cx)) as Ha. cbv zeta in Ha. change (map _ (combine (seq 0 (length bs)) bs)) with (calls up bs) in Ha. fold r in Ha.
  assert (Hd : tally_dicts (fst r)) by apply run_any_dicts.
  destruct (append_all E up 0 bs (new_tally E "verify" im cx)) as [n|e] eqn:Hn; cbn [rbind].
  - destruct (proj1 (Ha n) eq_refl) as [H1 H2]. subst n. unfold same_tally. rewrite <- (contests_eqb_spec _ _ Hd Ht), <- !set_eqb_spec.
    destruct (set_eqb (ty_cast (fst r)) (ty_cast t)), (set_eqb (ty_spoiled (fst r)) (ty_spoiled t)), (dict_eqb tally_contest_eqb (ty_contests (fst r)) (ty_contests t)); cbn [andb];
      split; intros H; try discriminate; try reflexivity; try (repeat split; assumption || reflexivity); destruct H as (_ & H3 & H4 & H5); discriminate.
  - split; [discriminate|]. intros [H1 _]. assert (Hx : Err e = Ok (fst r)) by (apply Ha; auto). discriminate.
Qed.

(** with working pools *)
Lemma run_appends_any E up t h : run_appends E up t h = run_any E t (map (fun bv => (up, fst bv, snd bv)) h).
Proof.
  unfold run_appends, run_any. change (t, @nil (res bool)) with (t, rev (@nil (res bool))). generalize (rev (@nil (res bool))). cbn [rev].
  revert t. induction h as [|[b v] h IH]; intros t rs; cbn [fold_left map fst snd]; [reflexivity|].
  destruct (append E up t b v) as [t' r]. apply IH.
Qed.
Lemma calls_up bs : calls (fun _ => all_up) bs = map (fun bv => (all_up, fst bv, snd bv)) (map (fun b => (b, true)) bs).
Proof.
  unfold calls. rewrite map_map. cbn [fst snd]. rewrite <- (number_snd bs) at 2. rewrite map_map. reflexivity.
Qed.
Lemma run_calls_up E t bs : run_any E t (calls (fun _ => all_up) bs) = run_appends E all_up t (map (fun b => (b, true)) bs).
Proof. rewrite calls_up, run_appends_any. reflexivity. Qed.
Lemma complete_true im bs : (forall b, In b bs -> complete im (sb_ballot b)) -> Forall (fun '(b, _) => complete im (sb_ballot b)) (with_true bs).
Proof. intros H. apply Forall_forall. intros [b v] Hin. apply in_map_iff in Hin. destruct Hin as (b' & He & Hb). inversion He; subst. auto. Qed.

Lemma run_appends_snoc E up t h b v : run_appends E up t (h ++ [(b, v)]) =
  (fst (append E up (fst (run_appends E up t h)) b v), snd (run_appends E up t h) ++ [snd (append E up (fst (run_appends E up t h)) b v)]).
Proof.
  unfold run_appends at 1. rewrite fold_left_app. fold (run_appends E up t h). destruct (run_appends E up t h) as [t' rs]. cbn [fold_left fst snd].
  destruct (append E up t' b v). reflexivity.
Qed.
Lemma appends_do_not_raise E im cx id bs : NoDup (contest_ids im) -> (forall b, In b bs -> complete im (sb_ballot b)) -> (forall b, In b bs -> checks_answer E im cx b) ->
  none_raised (snd (run_appends E all_up (new_tally E id im cx) (with_true bs))).
Proof.
  intros Hn. induction bs as [|b bs IH] using rev_ind; intros Hc Hv; [intros e []|].
  unfold with_true in *. rewrite map_app. cbn [map]. rewrite run_appends_snoc. cbn [snd]. intros e Hin. apply in_app_iff in Hin. destruct Hin as [Hin|[Hin|[]]].
  - apply (IH) in Hin; [assumption| |]; intros x Hx; [apply Hc|apply Hv]; apply in_app_iff; left; assumption.
  - destruct (run_appends_form E im cx Hn id (with_true bs)) as [H1 _]; [apply complete_true; intros x Hx; apply Hc; apply in_app_iff; left; assumption|]. unfold with_true in H1. rewrite H1 in Hin.
    assert (Hb : In b (bs ++ [b])) by (apply in_app_iff; right; left; reflexivity). specialize (Hc b Hb). destruct (Hv b Hb) as [v Hv']. unfold append in Hin.
    destruct (box_state_eqb (sb_state b) UNKNOWN); [discriminate|]. destruct (tally_contains _ b) eqn:Hcon; [discriminate|]. cbn [state_of ty_manifest ty_context] in Hin. rewrite Hv' in Hin.
    destruct v; [|discriminate]. unfold tally_contains in Hcon. apply orb_false_iff in Hcon as [Hcon _]. apply inb_false in Hcon. cbn [state_of ty_cast] in Hcon.
    destruct (sb_state b); [|discriminate|discriminate]. fold (state_of E im cx id (map sb_id (in_state CAST (accepted (passes E im cx) [] (map (fun b => (b, true)) bs))))
      (map sb_id (in_state SPOILED (accepted (passes E im cx) [] (map (fun b => (b, true)) bs)))) (casts (accepted (passes E im cx) [] (map (fun b => (b, true)) bs)))) in Hin.
    rewrite add_cast_ok in Hin; [discriminate|assumption|assumption|exact Hcon].
Qed.
Lemma total_of_same a b cid oid : same_tally a b -> total_of a cid oid = total_of b cid oid.
Proof.
  intros (_ & _ & H). unfold total_of. specialize (H cid). destruct (dget cid (ty_contests a)) as [ca|], (dget cid (ty_contests b)) as [cb|]; try contradiction; [|reflexivity].
  destruct H as (_ & _ & _ & H). specialize (H oid). destruct (dget oid (tc_selections ca)), (dget oid (tc_selections cb)); try contradiction; [subst; reflexivity|reflexivity].
Qed.
Lemma total_only_manifest E im cx id cs ss vf cid oid c : total_of (state_of E im cx id cs ss vf) cid oid = Some c ->
  exists d o, In d (im_contests im) /\ In o (cd_selections (ph_desc d)) /\ cid = cd_id (ph_desc d) /\ oid = sd_id o.
Proof.
  unfold total_of, state_of. cbn [ty_contests]. rewrite dget_upd. destruct (dget cid (build_collection E im)) as [tc|] eqn:Hg; [|discriminate]. cbn [option_map tc_selections].
  rewrite dget_upd_sel. apply build_get_inv in Hg as (d & Hd & <- & ->). destruct (dget oid (build_selections E (cd_selections (ph_desc d)))) as [ts|] eqn:Ht; [|discriminate].
  intros _. apply dget_in in Ht. apply (in_map fst) in Ht. apply build_selections_keys in Ht. cbn [fst] in Ht. apply in_map_iff in Ht. destruct Ht as (o & Ho & Hin). exists d, o. auto.
Qed.
Lemma aggregation_sound E bs t m cx im : valid_env E -> manifest_is_valid m = true -> make_internal E m = Ok im -> tally_dicts t ->
  (forall b, In b bs -> complete im (sb_ballot b)) -> verify_aggregation E (fun _ => all_up) bs t m cx = Ok verified ->
  let counted := accepted (passes E im cx) [] (with_true bs) in
  same_ids (ty_cast t) (map sb_id (in_state CAST counted)) /\ same_ids (ty_spoiled t) (map sb_id (in_state SPOILED counted)) /\
  forall cid oid c, total_of t cid oid = Some c <->
    exists d o, In d (im_contests im) /\ In o (cd_selections (ph_desc d)) /\ cid = cd_id (ph_desc d) /\ oid = sd_id o /\
      c = product E (flat_map (fun b => votes_for (sb_ballot b) cid oid) (in_state CAST counted)).
Proof.
  intros HE Hv Hm Ht Hc H counted. pose proof (BallotFacts.internal_ids E m im Hv Hm) as Hn.
  apply (aggregation_exact E _ bs t m cx im Hm Ht) in H. destruct H as [_ H]. rewrite run_calls_up in H.
  destruct (run_appends_form E im cx Hn "verify" (with_true bs) (complete_true im bs Hc)) as [H1 _]. unfold with_true in H1. rewrite H1 in H. clear H1. fold (with_true bs) in H. fold counted in H.
  pose proof H as (I1 & I2 & _). split; [intros i; symmetry; apply I1|]. split; [intros i; symmetry; apply I2|]. intros cid oid c. rewrite <- (total_of_same _ _ cid oid H). split.
  - intros Hc'. destruct (total_only_manifest _ _ _ _ _ _ _ _ _ _ Hc') as (d & o & Hd & Ho & -> & ->). exists d, o. do 4 (split; [auto|]).
    rewrite total_of_state in Hc' by assumption. inversion Hc'. reflexivity.
  - intros (d & o & Hd & Ho & -> & -> & ->). rewrite total_of_state by assumption. reflexivity.
Qed.
Lemma same_map_refl {V} (R : V -> V -> Prop) (d : dict string V) : (forall v, R v v) -> same_map R d d.
Proof. intros H k. destruct (dget k d); auto. Qed.
Lemma same_contest_refl c : same_contest c c.
Proof. unfold same_contest. do 3 (split; [reflexivity|]). apply same_map_refl. reflexivity. Qed.
Lemma aggregation_complete E bs bs' id m cx im : valid_env E -> manifest_is_valid m = true -> make_internal E m = Ok im ->
  (forall b, In b bs -> complete im (sb_ballot b) /\ checks_answer E im cx b) -> Permutation bs bs' -> NoDup (map sb_id bs) ->
  verify_aggregation E (fun _ => all_up) bs (fst (run_appends E all_up (new_tally E id im cx) (with_true bs'))) m cx = Ok verified.
Proof.
  intros HE Hv Hm Hb HP Hn. pose proof (BallotFacts.internal_ids E m im Hv Hm) as Hids.
  apply (aggregation_exact E _ bs _ m cx im Hm).
  - rewrite run_appends_any. apply run_any_dicts.
  - rewrite run_calls_up. split; [apply appends_do_not_raise; [assumption| |]; intros b Hin; apply (Hb b Hin)|].
    destruct (order_independent E im cx "verify" (with_true bs) (with_true bs') HE Hids) as (H1 & H2 & H3).
    + apply complete_true. intros b Hin; apply (Hb b Hin).
    + apply Permutation_map. assumption.
    + unfold with_true. rewrite map_map. exact Hn.
    + assert (Hc' : Forall (fun '(b, _) => complete im (sb_ballot b)) (with_true bs')).
      { apply complete_true. intros b Hin. apply (Hb b). apply (Permutation_in b (Permutation_sym HP)). assumption. }
      destruct (run_appends_form E im cx Hids "verify" (with_true bs') Hc') as [F1 _]. destruct (run_appends_form E im cx Hids id (with_true bs') Hc') as [F2 _].
      rewrite F1 in H1, H2, H3. rewrite F2. cbn [state_of ty_cast ty_spoiled ty_contests] in *. unfold same_tally. cbn [state_of ty_cast ty_spoiled ty_contests]. unfold with_true in H1, H2, H3. rewrite H1.
      split; [intros i; split; intros Hi; [apply (Permutation_in i H2 Hi)|apply (Permutation_in i (Permutation_sym H2) Hi)]|].
      split; [intros i; split; intros Hi; [apply (Permutation_in i H3 Hi)|apply (Permutation_in i (Permutation_sym H3) Hi)]|].
      apply same_map_refl. apply same_contest_refl.
Qed.
Lemma aggregation_complete_store E (s : ballot_store) m cx im t : valid_env E -> manifest_is_valid m = true -> make_internal E m = Ok im ->
  NoDup (ds_keys s) -> (forall i sb, ds_get s i = Some sb -> sb_id sb = i) ->
  Forall (fun b => passes E im cx b true = true /\ sb_state b <> UNKNOWN /\ complete im (sb_ballot b) /\ own_ids im (sb_ballot b)) (ds_values s) ->
  tally_ballots E true s im cx = Ok (Some t) -> verify_aggregation E (fun _ => all_up) (ds_values s) t m cx = Ok verified.
Proof.
  intros HE Hv Hm Hk Hid HF Ht. pose proof (BallotFacts.internal_ids E m im Hv Hm) as Hids.
  rewrite (tally_ballots_form E im cx HE Hids s Hk Hid HF) in Ht. inversion Ht; subst t. rewrite Forall_forall in HF.
  apply (aggregation_complete E (ds_values s) (ds_values s) "election-results" m cx im HE Hv Hm); [|apply Permutation_refl|].
  - intros b Hb. destruct (HF b Hb) as (P1 & _ & P2 & _). split; [assumption|]. unfold passes in P1. unfold checks_answer. destruct (ballot_valid_for_election E (sb_ballot b) im cx true); [eauto|discriminate].
  - unfold ds_values, dvals. rewrite map_map. replace (map (fun x => sb_id (snd x)) s) with (ds_keys s); [assumption|]. unfold ds_keys, dkeys. apply map_ext_in. intros [k v] Hin. cbn [fst snd].
    symmetry. apply Hid. apply in_dget; assumption.
Qed.
(** two tallies that pass for the same ballots are the same *)
Lemma same_tally_sym a b : same_tally a b -> same_tally b a.
Proof.
  intros (H1 & H2 & H3). split; [intros i; symmetry; apply H1|]. split; [intros i; symmetry; apply H2|]. intros k. specialize (H3 k).
  destruct (dget k (ty_contests a)), (dget k (ty_contests b)); auto. destruct H3 as (E1 & E2 & E3 & E4). repeat split; auto. intros o. specialize (E4 o).
  destruct (dget o (tc_selections _)), (dget o (tc_selections _)); auto.
Qed.
Lemma same_tally_trans a b c : same_tally a b -> same_tally b c -> same_tally a c.
Proof.
  intros (H1 & H2 & H3) (K1 & K2 & K3). split; [intros i; rewrite (H1 i); apply K1|]. split; [intros i; rewrite (H2 i); apply K2|]. intros k. specialize (H3 k). specialize (K3 k).
  destruct (dget k (ty_contests a)), (dget k (ty_contests b)), (dget k (ty_contests c)); try contradiction; auto.
  destruct H3 as (E1 & E2 & E3 & E4), K3 as (F1 & F2 & F3 & F4). split; [congruence|]. split; [congruence|]. split; [congruence|]. intros o. specialize (E4 o). specialize (F4 o).
  destruct (dget o (tc_selections _)), (dget o (tc_selections _)), (dget o (tc_selections _)); try contradiction; congruence.
Qed.
Lemma aggregation_unique E up bs t t' m cx im : make_internal E m = Ok im -> tally_dicts t -> tally_dicts t' ->
  verify_aggregation E up bs t m cx = Ok verified -> (verify_aggregation E up bs t' m cx = Ok verified <-> same_tally t t').
Proof.
  intros Hm Ht Ht' H. apply (aggregation_exact E up bs t m cx im Hm Ht) in H. destruct H as [H1 H2]. rewrite (aggregation_exact E up bs t' m cx im Hm Ht'). split.
  - intros [_ H3]. apply (same_tally_trans _ _ _ (same_tally_sym _ _ H2) H3).
  - intros H3. split; [assumption|]. apply (same_tally_trans _ _ _ H2 H3).
Qed.

(** ** verify_ballot *)
Lemma internal_hash E m im : make_internal E m = Ok im -> im_hash im = manifest_hash E m.
Proof. unfold make_internal. destruct (rmapM _ _); cbn [rbind]; [|discriminate]. intros H; inversion H. reflexivity. Qed.
Lemma verify_ballot_exact E b m cx : verify_ballot E b m cx = Ok verified <-> ballot_is_valid_encryption E b (manifest_hash E m) (cx_key cx) (cx_ext_hash cx) = Ok true.
Proof.
  unfold verify_ballot. destruct (ballot_is_valid_encryption _ _ _ _ _) as [[|]|e]; cbn [rbind]; split; intros H; try reflexivity; try discriminate.
Qed.
Lemma verify_ballot_spelled E b m cx : verify_ballot E b m cx = Ok verified <->
  cb_manifest_hash b = manifest_hash E m /\ cb_hash b = ballot_crypto_hash_with E b (manifest_hash E m) /\
  forall c, In c (cb_contests b) ->
    bc_hash c = contest_crypto_hash E (bc_id c) (bc_selections c) (bc_desc_hash c) /\
    elgamal_add E (map cs_ct (bc_selections c)) = Ok (bc_acc c) /\
    (exists pf, bc_proof c = Some pf /\ const_is_valid E pf (bc_acc c) (cx_key cx) (cx_ext_hash cx) = true) /\
    forall s, In s (bc_selections c) ->
      cs_hash s = selection_hash E (cs_id s) (cs_desc_hash s) (cs_ct s) /\
      exists pf, cs_proof s = Some pf /\ disj_is_valid E pf (cs_ct s) (cx_key cx) (cx_ext_hash cx) = true.
Proof.
  rewrite verify_ballot_exact, ballot_valid_iff. split; intros (H1 & H2 & H3); (split; [congruence|]); (split; [congruence|]); intros c Hc; specialize (H3 c Hc).
  - apply contest_checks_iff in H3 as [H3 H4]. apply contest_valid_iff in H4 as (H4 & H5 & H6).
    split; [assumption|]. split; [assumption|]. split; [assumption|]. intros s Hs. apply selection_valid_iff, H3, Hs.
  - destruct H3 as (H4 & H5 & H6 & H7). apply contest_checks_iff. split; [intros s Hs; apply selection_valid_iff, H7, Hs|]. apply contest_valid_iff. auto.
Qed.
Lemma accepted_verifies E b m im cx : make_internal E m = Ok im -> ballot_valid_for_election E b im cx true = Ok true -> verify_ballot E b m cx = Ok verified.
Proof.
  intros Hm H. apply verify_ballot_exact. rewrite <- (internal_hash E m im Hm). unfold ballot_valid_for_election in H. destruct (ballot_valid_for_style E b im) as [[|]|]; cbn [rbind negb] in H; try discriminate.
  destruct (ballot_is_valid_encryption E b (im_hash im) (cx_key cx) (cx_ext_hash cx)); [assumption|discriminate].
Qed.
Lemma encrypted_verifies : forall E m im cx b eseed nonce verify rand now eb ds, valid_env E ->
  manifest_is_valid m = true -> make_internal E m = Ok im -> in_subgroup E (cx_key cx) ->
  get_contests_for im (pb_style b) = Ok ds -> ds <> [] -> in_order ds ->
  (forall d, In d ds -> limit_fits E (cd_number_elected (ph_desc d))) ->
  encrypt_ballot E b im cx eseed nonce verify rand now = Ok (Some eb) -> verify_ballot E eb m cx = Ok verified.
Proof.
  intros E m im cx b eseed nonce verify rand now eb ds HE Hv Hm HK Hd Hn Ho Hl He. apply (accepted_verifies E eb m im cx Hm).
  refine (proj1 (proj2 (encrypted_ballot_valid E m im cx b eseed nonce verify rand now eb ds HE Hv Hm HK Hd Hn Ho Hl He))).
Qed.
Lemma honest_accepted : forall E k ss cx t bs up rnd av gs mid mf M MB keys, valid_env E -> good_seats E k ss -> ss <> [] ->
  0 <= cx_ext_hash cx < qq E -> cx_guardians cx = len ss -> cx_quorum cx <= len ss -> (forall path, up path = true) ->
  Permutation av ss -> Forall2 (holder E) av gs -> NoDup (map cd_id (mf_contests mf)) ->
  tally_distinct t -> encrypts_all E (gexp E (sumZ (map st_secret ss))) (tally_options t) M ->
  NoDup (map sb_id bs) -> (forall b, In b bs -> ballot_distinct (sb_ballot b) /\ encrypts_all E (gexp E (sumZ (map st_secret ss))) (ballot_options (sb_ballot b)) (MB (sb_id b))) ->
  has_keys keys gs ->
  exists m p, decryption_setup E up rnd gs (new_dmediator mid cx) cx t bs = Ok m /\ dm_plaintext_tally E m t mf = Ok (Some p) /\
    shows p mf (tally_options t) M /\ verify_decryption E p keys cx = Ok verified.
Proof.
  intros E k ss cx t bs up rnd av gs mid mf M MB keys HE H1 H2 H3 H4 H5 H6 H7 H8 H9 H10 H11 H12 H13 Hk.
  destruct (all_decrypt E k ss cx t bs up rnd av gs mid mf M MB HE H1 H2 H3 H4 H5 H6 H7 H8 H9 H10 H11 H12 H13) as (m & Hm & ((p & Hp & _ & Hs) & _) & _).
  exists m, p. split; [assumption|]. split; [assumption|]. split; [assumption|]. apply (setup_verifies E up rnd gs mid cx t bs m mf p keys HE Hm Hp Hk).
Qed.
Lemma verified_share_sound : forall E E' keys cx cx' p p' oid ct d d' pf pf', valid_env E -> same_group E E' ->
  verify_decryption E p keys cx = Ok verified -> verify_decryption E' p' keys cx' = Ok verified -> shown_share p oid ct d -> shown_share p' oid ct d' ->
  dc_guardian d = dc_guardian d' -> dc_share d = dc_share d' -> dc_proof d = Some pf -> dc_proof d' = Some pf' ->
  cp_a pf = cp_a pf' -> cp_b pf = cp_b pf' -> cp_c pf <> cp_c pf' ->
  exists k s, dget (dc_guardian d) keys = Some k /\ 0 <= s < qq E /\ pk_key k = gexp E s /\ dc_share d = ct_pad ct ^ s mod pp E.
Proof.
  intros E E' keys cx cx' p p' oid ct d d' pf pf' HE HS V1 V2 S1 S2 Hg Hsh P1 P2 Ha Hb Hc. apply accepts_exactly with (oid := oid) (ct := ct) (d := d) in V1; [|assumption].
  apply accepts_exactly with (oid := oid) (ct := ct) (d := d') in V2; [|assumption]. destruct V1 as (k & K1 & pf1 & Q1 & R1), V2 as (k' & K2 & pf2 & Q2 & R2).
  rewrite P1 in Q1. rewrite P2 in Q2. inversion Q1; inversion Q2; subst pf1 pf2. rewrite <- Hg in K2. rewrite K1 in K2. inversion K2; subst k'.
  destruct pf as [a b c v], pf' as [a' b' c' v']. cbn [cp_a cp_b cp_c] in *. subst a' b'. rewrite <- Hsh in R2.
  destruct (cp_extract E E' HE HS ct (pk_key k) (dc_share d) a b _ _ c v c' v' R1 R2 Hc) as (s & E1 & E2 & E3). exists k, s. auto.
Qed.
