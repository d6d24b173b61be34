(** * ShareRun: the decryption ceremony run by honest guardians, from announcement to plaintexts. *)
From Verif Require Import Base Group GroupFacts Codec Hash DLog ElGamal ElGamalFacts ZK ZKFacts Poly PolyFacts CryptoThms Spec
  Manifest Ballot Box Tally Ceremony SpecCeremony Shares SpecShares ListFacts CeremonyFacts SharesFacts.
From Coq Require Import Znumtheory Permutation List.

(** ** lists *)
Lemma Forall2_snoc {A B} (R : A -> B -> Prop) l l' a b : Forall2 R l l' -> R a b -> Forall2 R (l ++ [a]) (l' ++ [b]).
Proof. intros H Hr. apply Forall2_app; [assumption|]. constructor; [assumption|constructor]. Qed.
Lemma F2_keys {A V} (f : A -> string) (R : A -> string * V -> Prop) l d : Forall2 R l d -> (forall a kv, R a kv -> fst kv = f a) -> dkeys d = map f l.
Proof. intros H Hk. symmetry. apply Forall2_map_eq. revert H. apply F2_impl. intros a kv Hr. symmetry. apply Hk. exact Hr. Qed.
Lemma F2_length {A B} {R : A -> B -> Prop} {l l'} : Forall2 R l l' -> length l = length l'.
Proof. induction 1; cbn; congruence. Qed.
Lemma NoDup_app' {A} (a b : list A) : NoDup a -> NoDup b -> (forall x, In x a -> In x b -> False) -> NoDup (a ++ b).
Proof.
  induction 1 as [|x a Hx Ha IH]; intros Hb Hd; [assumption|]. cbn [app]. constructor.
  - rewrite in_app_iff. intros [H|H]; [contradiction|]. apply (Hd x); [left; reflexivity|assumption].
  - apply IH; [assumption|]. intros y Hy. apply Hd. right; assumption.
Qed.
Lemma filter_by_missing_ok r : forall (d : dict (string * string) comp_share) (acc : dict string comp_share), NoDup (dkeys d) ->
  let res := fold_left (fun acc kv => if eqb (snd (fst kv)) r then dset (fst (fst kv)) (snd kv) acc else acc) d acc in
  (forall g, dget g res = match dget (g, r) d with Some v => Some v | None => dget g acc end) /\ (NoDup (dkeys acc) -> NoDup (dkeys res)).
Proof.
  induction d as [|[[g0 r0] sh] d IH]; intros acc Hn; [cbn; auto|].
  unfold dkeys in Hn. cbn [map fst] in Hn. inversion Hn as [|? ? Hx Hl]; subst. cbn [fold_left fst snd].
  destruct (IH (if eqb r0 r then dset g0 sh acc else acc) Hl) as [H1 H2]. split.
  - intros g. rewrite H1. cbn [dget].
    eqb_cases (g, r) (g0, r0).
    + inversion Heq; subst. rewrite eqb_refl'. replace (dget (g0, r0) d) with (@None comp_share); [apply dget_dset_same|]. symmetry. apply dget_none. exact Hx.
    + destruct (dget (g, r) d); [reflexivity|]. eqb_cases r0 r; [|reflexivity]. apply dget_dset_other. congruence.
  - intros Ha. apply H2. eqb_cases r0 r; [|assumption]. apply dset_nodup. assumption.
Qed.

Section Run.
  Variable E : env.
  Hypothesis HE : valid_env E.
  Let Hp : 1 < pp E := p_gt_1 E HE.
  Let Hq : 1 < qq E := q_gt_1 E HE.
  Variable k : nat.
  Variable ss : list seat.
  Hypothesis Hss : forall s, In s ss -> 0 <= st_secret s < qq E /\ Forall (fun a => 0 <= a < qq E) (st_secrets s) /\ (length (st_secrets s) <= k)%nat /\ poly_at (st_secrets s) 0 = st_secret s.
  Hypothesis Hnd : NoDup (map st_id ss).
  Variable cx : context.
  Hypothesis HQ : 0 <= cx_ext_hash cx < qq E.
  Notation Q := (cx_ext_hash cx).
  Variable t : tally.
  Notation tcs := (map tally_cc (dvals (ty_contests t))).
  Hypothesis Ht : item_good E tcs.
  Variable bs : list sub_ballot.
  Notation bcs b := (map ballot_cc (cb_contests (sb_ballot b))).
  Hypothesis Hb : forall b, In b bs -> item_good E (bcs b).
  Hypothesis Hbn : NoDup (map sb_id bs).
  Variable up : list nat -> bool.
  Hypothesis Hup : forall l, up l = true.
  Variable rnd : list nat -> Z.

  Definition entry (cs : list cipher_contest) (s : seat) (kv : string * dec_share) : Prop :=
    fst kv = st_id s /\ sh_guardian (snd kv) = st_id s /\ good_share E Q (st_secret s) cs (snd kv).
  Definition key_entry_of (s : seat) (kv : string * public_key) : Prop := fst kv = st_id s /\ key_of E s (snd kv).
  Definition old (b : sub_ballot) (d : dict string (dict string dec_share)) : dict string dec_share :=
    match dget (sb_id b) d with Some s => s | None => [] end.


  Lemma secret_good s g : holder E s g -> In s ss -> key_good E (gd_keys g).
  Proof.
    intros [(_ & _ & Hk & _) Hsec] Hs. unfold key_good. rewrite Hsec. split; [apply Hss; assumption|]. exact Hk.
  Qed.
  (** extensionality in the pool argument is avoided by rewriting the loops for any working pool *)
  Lemma share_contests_up u rd kp ext cs : (forall c, u c = true) -> forall i d, share_contests E u rd kp ext i cs d = share_contests E (fun _ => true) rd kp ext i cs d.
  Proof. intros Hu. induction cs as [|c cs IH]; intros i d; cbn [share_contests]; [reflexivity|]. rewrite Hu. destruct share_for_contest; [apply IH|reflexivity]. Qed.
  Lemma comp_contests_up u rd y pr mi ext cs : (forall c, u c = true) -> forall i d, comp_contests E u rd y pr mi ext i cs d = comp_contests E (fun _ => true) rd y pr mi ext i cs d.
  Proof. intros Hu. induction cs as [|c cs IH]; intros i d; cbn [comp_contests]; [reflexivity|]. rewrite Hu. destruct comp_for_contest; [apply IH|reflexivity]. Qed.
  Lemma share_up u rd kp id cs : (forall c, u c = true) -> key_good E kp -> item_good E cs ->
    exists sh, share_of E u rd kp Q id cs = Some sh /\ good_share E Q (ek_secret kp) cs sh /\ sh_guardian sh = ek_owner kp /\ sh_id sh = id.
  Proof.
    intros Hu Hk Hi. destruct (share_of_ok E HE Q HQ kp rd id cs Hk Hi) as (sh & H). exists sh. unfold share_of in *. rewrite (share_contests_up u) by assumption. exact H.
  Qed.

  (** *** ballot shares of one guardian *)
  Lemma valid_ballot_shares_all {A} (l : list (string * A)) : NoDup (map fst l) ->
    valid_ballot_shares (map (fun kv => (fst kv, Some (snd kv))) l) = l.
  Proof.
    intros Hn. unfold valid_ballot_shares.
    assert (H : forall d, fold_left (fun acc kv => match snd kv with Some s => dset (fst kv) s acc | None => acc end) (map (fun kv : string * A => (fst kv, Some (snd kv))) l) d
      = fold_left (fun d kv => dset (fst kv) (snd kv) d) l d).
    { induction l as [|[a b] l IH]; intros d; [reflexivity|]. cbn [map fold_left fst snd]. apply IH. cbn in Hn. inversion Hn; assumption. }
    rewrite H. exact (dict_of_distinct l Hn).
  Qed.
  Lemma number_ids {A} (f : A -> string) (l : list A) : map (fun ib => f (snd ib)) (number l) = map f l.
  Proof. rewrite <- (map_map snd f). rewrite number_snd. reflexivity. Qed.
  Lemma F2_number {A B} (R : A -> B -> Prop) (l : list A) l' : Forall2 (fun ia b => R (snd ia) b) (number l) l' -> Forall2 R l l'.
  Proof. intros H. rewrite <- (number_snd l). apply Forall2_map_l. exact H. Qed.
  Lemma ballot_shares_ok s g (u : nat -> nat -> bool) rd : (forall b c, u b c = true) -> In s ss -> holder E s g ->
    exists l, valid_ballot_shares (gd_ballot_shares E u rd g bs cx) = l /\
      Forall2 (fun b kv => fst kv = sb_id b /\ sh_guardian (snd kv) = st_id s /\ good_share E Q (st_secret s) (bcs b) (snd kv)) bs l.
  Proof.
    intros Hu Hs Hg. eexists. split; [reflexivity|]. unfold gd_ballot_shares.
    pose proof (secret_good s g Hg Hs) as Hk.
    assert (H : exists l, map (fun ib => (sb_id (snd ib), compute_decryption_share_for_ballot E (u (fst ib)) (rd (fst ib)) (gd_keys g) (snd ib) cx)) (number bs)
       = map (fun kv => (fst kv, Some (snd kv))) l /\
       Forall2 (fun ib kv => fst kv = sb_id (snd ib) /\ sh_guardian (snd kv) = st_id s /\ good_share E Q (st_secret s) (bcs (snd ib)) (snd kv)) (number bs) l).
    { assert (Hb' : forall ib, In ib (number bs) -> In (snd ib) bs) by (intros ib Hib; rewrite <- (number_snd bs); apply in_map; assumption).
      revert Hb'. induction (number bs) as [|ib l IH]; intros Hb'; [exists []; split; [reflexivity|constructor]|].
      destruct IH as (l' & H1 & H2); [intros; apply Hb'; right; assumption|].
      destruct (share_up (u (fst ib)) (rd (fst ib)) (gd_keys g) (sb_id (snd ib)) (bcs (snd ib)) (Hu (fst ib)) Hk) as (sh & Hsh & Hgood & Hgid & _).
      { apply Hb, Hb'. left; reflexivity. }
      exists ((sb_id (snd ib), sh) :: l'). cbn [map fst snd]. unfold compute_decryption_share_for_ballot at 1. rewrite Hsh, H1. split; [reflexivity|].
      constructor; [|assumption]. cbn [fst snd]. split; [reflexivity|]. destruct Hg as [(Ho & _) Hsec]. split; [rewrite Hgid; exact Ho|]. rewrite <- Hsec. exact Hgood. }
    destruct H as (l & -> & HF).
    assert (Hids : map fst l = map sb_id bs).
    { symmetry. rewrite <- (number_ids sb_id). apply Forall2_map_eq. revert HF. apply F2_impl. intros ib kv (H & _). symmetry. exact H. }
    rewrite dict_of_distinct by (rewrite map_map; cbn [fst]; change (map (fun x : string * dec_share => fst x) l) with (map fst l); rewrite Hids; assumption).
    rewrite valid_ballot_shares_all by (rewrite Hids; assumption).
    apply (F2_number (fun b kv => fst kv = sb_id b /\ sh_guardian (snd kv) = st_id s /\ good_share E Q (st_secret s) (bcs b) (snd kv))). exact HF.
  Qed.

  (** *** announcements *)
  Record announced (done : list seat) (m : dmediator) : Prop := {
    an_cx : dm_context m = cx;
    an_avail : Forall2 key_entry_of done (dm_available m);
    an_missing : dm_missing m = [];
    an_tally : Forall2 (entry tcs) done (dm_tally m);
    an_ballots : forall b, In b bs -> Forall2 (entry (bcs b)) done (old b (dm_ballots m)) /\ (done <> [] -> dget (sb_id b) (dm_ballots m) <> None);
    an_ctally : dm_ctally m = [];
    an_cballots : dm_cballots m = [] }.

  Lemma save_ballots_ok g : forall (l : list (string * dec_share)) d, NoDup (map fst l) -> forall id,
    dget id (fold_left (save_ballot_share g) (map (fun kv => (fst kv, Some (snd kv))) l) d) =
    match dget id l with
    | Some sh => Some (dset g sh (match dget id d with Some s => s | None => [] end))
    | None => dget id d
    end.
  Proof.
    induction l as [|[a sh] l IH]; intros d Hn id; [reflexivity|]. cbn [map fst] in Hn. inversion Hn as [|? ? Ha Hl]; subst.
    cbn [map fold_left fst snd]. rewrite IH by assumption. unfold save_ballot_share; cbn [fst snd dget].
    eqb_cases id a.
    - subst id. replace (dget a l) with (@None dec_share); [apply dget_dset_same|]. symmetry. apply dget_none. exact Ha.
    - rewrite dget_dset_other by assumption. reflexivity.
  Qed.

  Lemma announce_one_ok done s i g m : announced done m -> In s ss -> ~ In (st_id s) (map st_id done) -> holder E s g ->
    exists m', announce_one E up rnd t bs cx m (i, g) = Ok m' /\ announced (done ++ [s]) m'.
  Proof.
    intros [A1 A2 A3 A4 A5 A6 A7] Hs Hnew Hg. unfold announce_one. pose proof (secret_good s g Hg Hs) as Hk.
    destruct (share_up (fun c => up [i; 0%nat; c]) (fun c x => rnd [i; 0%nat; c; x]) (gd_keys g) (ty_id t) tcs (fun c => Hup _) Hk Ht) as (sh & Hsh & Hgood & Hgid & _).
    unfold gd_tally_share, compute_decryption_share. rewrite Hsh. cbn [get_optional rbind].
    destruct (ballot_shares_ok s g (fun b c => up [i; S b; c]) (fun b c x => rnd [i; S b; c; x]) (fun b c => Hup _) Hs Hg) as (l & -> & HF).
    pose proof (proj1 Hg) as Hkey. destruct Hkey as (Ho & Hkey'). pose proof (proj2 Hg) as Hsec.
    eexists. split; [reflexivity|]. unfold dm_announce. rewrite Ho.
    assert (Hkeys : dkeys (dm_available m) = map st_id done) by (eapply F2_keys; [exact A2|intros a kv [H _]; exact H]).
    assert (Hkt : dkeys (dm_tally m) = map st_id done) by (eapply F2_keys; [exact A4|intros a kv [H _]; exact H]).
    destruct (dmem (st_id s) (dm_available m)) eqn:Hmem; [exfalso; apply Hnew; rewrite <- Hkeys; apply dmem_spec; exact Hmem|].
    constructor; cbn [dm_context dm_available dm_missing dm_tally dm_ballots dm_ctally dm_cballots]; try assumption.
    - rewrite dset_new by (rewrite Hkeys; assumption). apply Forall2_snoc; [assumption|]. split; [reflexivity|]. split; assumption.
    - rewrite A3. reflexivity.
    - rewrite dset_new by (rewrite Hkt; assumption). apply Forall2_snoc; [assumption|]. split; [reflexivity|]. cbn [snd]. split; [rewrite Hgid; exact Ho|]. rewrite <- Hsec. exact Hgood.
    - intros b Hbb. destruct (A5 b Hbb) as [H1 H2].
      assert (Hids : map fst l = map sb_id bs) by (symmetry; apply Forall2_map_eq; revert HF; apply F2_impl; intros x kv (H & _); symmetry; exact H).
      destruct (Forall2_in_l _ _ _ b HF Hbb) as ([id shb] & Hin & Hid & Hgb & Hshb). cbn [fst snd] in *. subst id.
      assert (Hg' : dget (sb_id b) l = Some shb) by (apply in_dget; [unfold dkeys; rewrite Hids; assumption|assumption]).
      unfold old in *. rewrite save_ballots_ok, Hg' by (rewrite Hids; assumption).
      assert (Hko : dkeys (match dget (sb_id b) (dm_ballots m) with Some s0 => s0 | None => [] end) = map st_id done)
        by (eapply F2_keys; [exact H1|intros a kv [H _]; exact H]).
      split; [|intros _; discriminate].
      rewrite dset_new by (rewrite Hko; assumption). apply Forall2_snoc; [assumption|]. split; [reflexivity|]. split; assumption.
  Qed.
  Lemma announce_all : forall gl done sl m, announced done m -> (forall s, In s sl -> In s ss) -> NoDup (map st_id (done ++ sl)) ->
    Forall2 (fun s ig => holder E s (snd ig)) sl gl ->
    exists m', rfold (announce_one E up rnd t bs cx) gl m = Ok m' /\ announced (done ++ sl) m'.
  Proof.
    induction gl as [|[i g] gl IH]; intros done sl m Hm Hin Hn HF; inversion HF as [|s ? sl' ? Hg HF']; subst.
    - exists m. rewrite app_nil_r. auto.
    - destruct (announce_one_ok done s i g m Hm) as (m1 & H1 & Hm1); [apply Hin; left; reflexivity| |exact Hg|].
      { rewrite map_app in Hn. cbn [map] in Hn. apply NoDup_remove_2 in Hn. intros H. apply Hn. apply in_app_iff. left. exact H. }
      cbn [rfold]. rewrite H1. cbn [rbind]. destruct (IH (done ++ [s]) sl' m1 Hm1) as (m' & H2 & H3).
      + intros; apply Hin; right; assumption.
      + rewrite <- app_assoc. exact Hn.
      + assumption.
      + exists m'. rewrite <- app_assoc in H3. auto.
  Qed.

  (** *** the missing guardians *)
  Variable av : list seat.
  Hypothesis Hav : forall s, In s av -> In s ss.
  Hypothesis Havn : NoDup (map st_id av).
  Hypothesis Hne : av <> [].
  Variable gs : list guardian.
  Hypothesis Hhold : Forall2 (holder E) av gs.
  Variable all_keys : list public_key.
  Hypothesis Hkeys : Forall2 (key_of E) ss all_keys.
  Definition mi : list seat := filter (fun s => negb (inb (st_id s) (map st_id av))) ss.
  Lemma mi_in s : In s mi <-> In s ss /\ ~ In (st_id s) (map st_id av).
  Proof. unfold mi. rewrite filter_In, negb_true_iff, inb_false. reflexivity. Qed.
  Lemma mi_nodup : NoDup (map st_id mi).
  Proof. apply NoDup_map_filter. exact Hnd. Qed.
  Lemma F2_filter {A B} (R : A -> B -> Prop) (f : A -> bool) (g : B -> bool) l l' : (forall a b, R a b -> f a = g b) ->
    Forall2 R l l' -> Forall2 R (filter f l) (filter g l').
  Proof. intros H. induction 1 as [|a b l l' Hr _ IH]; cbn [filter]; [constructor|]. rewrite (H a b Hr). destruct (g b); [constructor|]; assumption. Qed.
  Lemma gs_ids : map gd_id gs = map st_id av.
  Proof. symmetry. apply Forall2_map_eq. revert Hhold. apply F2_impl. intros s g [(H & _) _]. symmetry. exact H. Qed.

  Record settled (m : dmediator) : Prop := {
    se_cx : dm_context m = cx;
    se_avail : Forall2 key_entry_of av (dm_available m);
    se_missing : Forall2 key_entry_of mi (dm_missing m);
    se_tally : Forall2 (entry tcs) av (dm_tally m);
    se_ballots : forall b, In b bs -> exists tb, dget (sb_id b) (dm_ballots m) = Some tb /\ Forall2 (entry (bcs b)) av tb }.

  Lemma announce_missing_all : forall sl kl done m, Forall2 (key_of E) sl kl ->
    (forall s, In s sl -> ~ In (st_id s) (dkeys (dm_available m))) ->
    Forall2 key_entry_of done (dm_missing m) -> NoDup (map st_id (done ++ sl)) ->
    exists d, fold_left dm_announce_missing kl m = dm_with_missing m d /\ Forall2 key_entry_of (done ++ sl) d.
  Proof.
    induction sl as [|s sl IH]; intros kl done m HF Hn Hd Hnd'; inversion HF as [|? kk ? kl' Hk HF']; subst; cbn [fold_left].
    - exists (dm_missing m). rewrite app_nil_r. split; [destruct m; reflexivity|assumption].
    - assert (Hkd : dkeys (dm_missing m) = map st_id done) by (eapply F2_keys; [exact Hd|intros a kv [H _]; exact H]).
      assert (Hs : ~ In (st_id s) (map st_id done)).
      { rewrite map_app in Hnd'. cbn [map] in Hnd'. apply NoDup_remove_2 in Hnd'. intros H. apply Hnd'. apply in_app_iff. left. exact H. }
      destruct Hk as (Ho & Hk').
      assert (Hone : dm_announce_missing m kk = dm_with_missing m (dm_missing m ++ [(st_id s, kk)])).
      { unfold dm_announce_missing. rewrite Ho. destruct (dmem (st_id s) (dm_available m)) eqn:Hmem.
        - exfalso. apply (Hn s (or_introl eq_refl)). apply dmem_spec. exact Hmem.
        - rewrite dset_new by (rewrite Hkd; assumption). reflexivity. }
      rewrite Hone. destruct (IH kl' (done ++ [s]) (dm_with_missing m (dm_missing m ++ [(st_id s, kk)]))) as (d & H1 & H2).
      + assumption.
      + intros s' Hs'. apply Hn. right; assumption.
      + cbn [dm_missing dm_with_missing]. apply Forall2_snoc; [assumption|]. split; [reflexivity|]. split; assumption.
      + rewrite <- app_assoc. exact Hnd'.
      + exists d. rewrite <- app_assoc in H2. split; [exact H1|exact H2].
  Qed.
  Lemma announcement_ok id : exists m, announcement E up rnd gs all_keys (new_dmediator id cx) cx t bs = Ok m /\ settled m
    /\ dm_ctally m = [] /\ dm_cballots m = [].
  Proof.
    unfold announcement.
    destruct (announce_all (number gs) [] av (new_dmediator id cx)) as (m1 & H1 & [A1 A2 A3 A4 A5 A6 A7]).
    - constructor; try reflexivity; try apply Forall2_nil. intros b Hbb. split; [constructor|intros []; reflexivity].
    - exact Hav.
    - exact Havn.
    - apply Forall2_map_r with (f := snd). rewrite number_snd. exact Hhold.
    - cbn [app] in *. rewrite H1. cbn [rbind].
      assert (Hmk : Forall2 (key_of E) mi (filter (fun kk => negb (inb (pk_owner kk) (map gd_id gs))) all_keys)).
      { apply F2_filter; [|exact Hkeys]. intros s kk (Ho & _). rewrite Ho, gs_ids. reflexivity. }
      destruct (announce_missing_all mi _ [] m1 Hmk) as (d & -> & Hd).
      + intros s Hs. assert (Hka : dkeys (dm_available m1) = map st_id av) by (eapply F2_keys; [exact A2|intros a kv [H _]; exact H]).
        rewrite Hka. apply mi_in. exact Hs.
      + rewrite A3. constructor.
      + exact mi_nodup.
      + eexists. split; [reflexivity|]. split; [|split; assumption]. constructor; try assumption.
        intros b Hbb. destruct (A5 b Hbb) as [Hold Hget]. cbn [dm_with_missing dm_ballots]. unfold old in Hold. specialize (Hget Hne).
        destruct (dget (sb_id b) (dm_ballots m1)) as [tb|]; [|contradiction]. exists tb. auto.
  Qed.

  (** *** exchange of compensated shares *)
  Hypothesis Hgs : Forall2 (ready_guardian E ss) av gs.
  Definition point_of (r s : seat) : Z := poly_at (st_secrets r) (st_seq s) mod qq E.
  Lemma point_range r s : 0 <= point_of r s < qq E.
  Proof. apply Z.mod_pos_bound. lia. Qed.
  Lemma decrypt_own s g r : In s av -> ready_guardian E ss s g -> In r mi ->
    exists kk b, dget (st_id r) (gd_pubkeys g) = Some kk /\ key_of E r kk /\ dget (st_id r) (gd_backups g) = Some b /\
      decrypt_backup E b (gd_keys g) = Ok (Some (point_of r s)).
  Proof.
    intros Hs [(K1 & K2 & K3) Hsec Hk Hbk] Hr. apply mi_in in Hr. destruct Hr as [Hr1 Hr2].
    destruct (Hk r Hr1) as (kk & Hkk & Hkey). destruct (Hbk r Hr1) as (b & bytes & H1 & H2 & H3).
    { intros Heq. apply Hr2. rewrite Heq. apply in_map. assumption. }
    exists kk, b. split; [assumption|]. split; [assumption|]. split; [assumption|].
    unfold decrypt_backup. unfold share_key, share_keys in K1, K2. cbn [pk_owner pk_seq] in K1, K2. rewrite Hsec, K1, K2, H2. cbn [rbind]. rewrite H3. reflexivity.
  Qed.
  Lemma comp_up u rd y pr mis coeffs id cs : (forall c, u c = true) -> 0 <= y < qq E -> y = poly_at coeffs (pk_seq pr) mod qq E ->
    Forall (fun a => 0 <= a) coeffs -> pk_commitments mis = map (gexp E) coeffs -> item_good E cs ->
    exists sh, comp_of E u rd y pr mis Q id cs = Some sh /\ cgood_share E Q y cs sh /\ csh_guardian sh = pk_owner pr /\ csh_missing sh = pk_owner mis.
  Proof.
    intros Hu Hy Hyp Hc Hm Hi. destruct (comp_of_ok E HE Q HQ y pr mis coeffs Hy Hyp Hc Hm rd id cs Hi) as (sh & H1 & H2 & H3 & H4 & _).
    exists sh. unfold comp_of in *. rewrite (comp_contests_up u) by assumption. auto.
  Qed.
  Lemma comp_tally_ok s g r u rd : (forall c, u c = true) -> In s av -> ready_guardian E ss s g -> In r mi ->
    exists sh, gd_compensated_tally E u rd g (st_id r) t cx = Ok (Some sh) /\ cgood_share E Q (point_of r s) tcs sh
      /\ csh_guardian sh = st_id s /\ csh_missing sh = st_id r.
  Proof.
    intros Hu Hs Hg Hr. destruct (decrypt_own s g r Hs Hg Hr) as (kk & b & H1 & (K1 & K2 & K3 & K4) & H3 & H4).
    unfold gd_compensated_tally. rewrite H1, H3, H4. cbn [rbind get_optional]. unfold compute_compensated_share.
    destruct (rg_key _ _ _ _ Hg) as (G1' & G2 & _).
    destruct (comp_up u rd (point_of r s) (share_key g) kk (st_secrets r) (ty_id t) tcs Hu (point_range r s)) as (sh & -> & S1 & S2 & S3); try assumption.
    - unfold point_of. rewrite G2. reflexivity.
    - apply mi_in in Hr. destruct (Hss r (proj1 Hr)) as (_ & H & _). eapply Forall_impl; [|exact H]. cbn. lia.
    - exists sh. split; [reflexivity|]. split; [assumption|]. split; [rewrite S2; assumption|rewrite S3; assumption].
  Qed.
  Lemma comp_ballots_ok s g r (u : nat -> nat -> bool) rd : (forall b c, u b c = true) -> In s av -> ready_guardian E ss s g -> In r mi ->
    exists d l, gd_compensated_ballots E u rd g (st_id r) bs cx = Ok d /\ valid_ballot_shares d = l /\
      Forall2 (fun b kv => fst kv = sb_id b /\ csh_guardian (snd kv) = st_id s /\ csh_missing (snd kv) = st_id r /\ cgood_share E Q (point_of r s) (bcs b) (snd kv)) bs l.
  Proof.
    intros Hu Hs Hg Hr. destruct (decrypt_own s g r Hs Hg Hr) as (kk & bk & H1 & (K1 & K2 & K3 & K4) & H3 & H4).
    unfold gd_compensated_ballots. rewrite H1, H3, H4. cbn [rbind].
    destruct (rg_key _ _ _ _ Hg) as (G1' & G2 & _).
    set (f := fun (d : dict string (option comp_share)) (ib : nat * sub_ballot) => do y <- get_optional (Some (point_of r s));
      Ok (dset (sb_id (snd ib)) (compute_compensated_share_for_ballot E (u (fst ib)) (rd (fst ib)) y kk (share_key g) (snd ib) cx) d)).
    set (none := dict_of (map (fun b => (sb_id b, None)) bs)).
    assert (Hnone : none = map (fun b => (sb_id b, None)) bs).
    { apply dict_of_distinct. rewrite map_map. cbn. exact Hbn. }
    assert (H : forall post pre (done : list (string * comp_share)), map (fun ib => sb_id (snd ib)) (number bs) = map fst done ++ map (fun ib => sb_id (snd ib)) post -> 
      (forall ib, In ib post -> In (snd ib) bs) ->
      Forall2 (fun b kv => fst kv = sb_id b /\ csh_guardian (snd kv) = st_id s /\ csh_missing (snd kv) = st_id r /\ cgood_share E Q (point_of r s) (bcs b) (snd kv)) pre done ->
      exists l, rfold f post (map (fun kv => (fst kv, Some (snd kv))) done ++ map (fun ib => (sb_id (snd ib), None)) post) = Ok (map (fun kv => (fst kv, Some (snd kv))) l) /\
        Forall2 (fun b kv => fst kv = sb_id b /\ csh_guardian (snd kv) = st_id s /\ csh_missing (snd kv) = st_id r /\ cgood_share E Q (point_of r s) (bcs b) (snd kv)) (pre ++ map snd post) l).
    { induction post as [|ib post IH]; intros pre done Hids Hpost HF.
      - exists done. cbn [map rfold]. rewrite !app_nil_r. auto.
      - cbn [rfold map]. unfold f at 1. cbn [get_optional rbind].
        destruct (comp_up (u (fst ib)) (rd (fst ib)) (point_of r s) (share_key g) kk (st_secrets r) (sb_id (snd ib)) (bcs (snd ib)) (Hu (fst ib)) (point_range r s)) as (sh & Hsh & S1 & S2 & S3).
        { unfold point_of. rewrite G2. reflexivity. }
        { apply mi_in in Hr. destruct (Hss r (proj1 Hr)) as (_ & H & _). eapply Forall_impl; [|exact H]. cbn. lia. }
        { assumption. }
        { apply Hb, Hpost. left; reflexivity. }
        unfold compute_compensated_share_for_ballot. rewrite Hsh.
        assert (Hset : dset (sb_id (snd ib)) (Some sh) (map (fun kv => (fst kv, Some (snd kv))) done ++ (sb_id (snd ib), None) :: map (fun ib0 => (sb_id (snd ib0), None)) post)
          = map (fun kv => (fst kv, Some (snd kv))) (done ++ [(sb_id (snd ib), sh)]) ++ map (fun ib0 => (sb_id (snd ib0), None)) post).
        { rewrite map_app, <- app_assoc. cbn [map app fst snd].
          assert (Hfresh : ~ In (sb_id (snd ib)) (map fst done)).
          { rewrite number_ids in Hids. cbn [map] in Hids. pose proof Hbn as Hbn'. rewrite Hids in Hbn'. apply NoDup_remove_2 in Hbn'. intros Hx. apply Hbn'. apply in_app_iff. left; exact Hx. }
          clear - Hfresh. induction done as [|[a c] done IHd]; cbn [map app dset fst snd].
          - rewrite eqb_refl'. reflexivity.
          - cbn [map fst] in Hfresh. eqb_cases (sb_id (snd ib)) a; [exfalso; apply Hfresh; left; symmetry; exact Heq|].
            f_equal. apply IHd. intros Hx. apply Hfresh. right; exact Hx. }
        rewrite Hset. destruct (IH (pre ++ [snd ib]) (done ++ [(sb_id (snd ib), sh)])) as (l & Hl1 & Hl2).
        + rewrite map_app, <- app_assoc. exact Hids.
        + intros; apply Hpost; right; assumption.
        + apply Forall2_snoc; [assumption|]. cbn [fst snd]. split; [reflexivity|]. split; [rewrite S2; assumption|]. split; [rewrite S3; assumption|assumption].
        + exists l. rewrite <- app_assoc in Hl2. auto. }
    destruct (H (number bs) [] []) as (l & Hl1 & Hl2); [reflexivity|intros ib Hib; rewrite <- (number_snd bs); apply in_map; assumption|constructor|].
    assert (Hst : map (fun ib => (sb_id (snd ib), @None comp_share)) (number bs) = map (fun b => (sb_id b, None)) bs)
      by (rewrite <- (map_map snd (fun b => (sb_id b, None))), number_snd; reflexivity).
    cbn [map app] in Hl1. rewrite Hst in Hl1. rewrite Hnone. exists (map (fun kv => (fst kv, Some (snd kv))) l), l. split; [exact Hl1|].
    rewrite number_snd in Hl2. cbn [app] in Hl2. split; [|exact Hl2]. apply valid_ballot_shares_all.
    replace (map fst l) with (map sb_id bs); [assumption|]. apply Forall2_map_eq. revert Hl2. apply F2_impl. intros b kv (Hx & _). symmetry. exact Hx.
  Qed.

  Lemma NoDup_inj {A B} (f : A -> B) l x y : NoDup (map f l) -> In x l -> In y l -> f x = f y -> x = y.
  Proof.
    induction l as [|a l IH]; intros Hn Hx Hy Hf; [destruct Hx|]. cbn [map] in Hn. inversion Hn as [|? ? Ha Hl]; subst.
    destruct Hx as [->|Hx], Hy as [->|Hy]; auto.
    - exfalso. apply Ha. rewrite Hf. apply in_map. assumption.
    - exfalso. apply Ha. rewrite <- Hf. apply in_map. assumption.
  Qed.
  Record cgood_table (cs : list cipher_contest) (done : list (seat * seat)) (d : dict (string * string) comp_share) : Prop := {
    cg_nd : NoDup (dkeys d);
    cg_keys : forall g r, In (g, r) (dkeys d) -> In g (map st_id av);
    cg_shares : forall s r, In (s, r) done -> exists sh, dget (st_id s, st_id r) d = Some sh /\ cgood_share E Q (point_of r s) cs sh }.
  Definition cold (b : sub_ballot) (d : dict string (dict (string * string) comp_share)) : dict (string * string) comp_share :=
    match dget (sb_id b) d with Some s => s | None => [] end.
  Record exchanged (done : list (seat * seat)) (m : dmediator) : Prop := {
    ex_settled : settled m;
    ex_done : forall s r, In (s, r) done -> In s av /\ In r mi;
    ex_tally : cgood_table tcs done (dm_ctally m);
    ex_ballots : forall b, In b bs -> cgood_table (bcs b) done (cold b (dm_cballots m)) }.

  Lemma cgood_add cs done d s r sh : cgood_table cs done d -> (forall a b, In (a, b) done -> In a av /\ In b mi) -> In s av -> In r mi ->
    cgood_share E Q (point_of r s) cs sh -> cgood_table cs ((s, r) :: done) (dset (st_id s, st_id r) sh d).
  Proof.
    intros [H1 H2 H3] Hdone Hs Hr Hsh. constructor.
    - apply dset_nodup. assumption.
    - intros g x Hx. apply dkeys_dset_in in Hx. destruct Hx as [Hx|Hx]; [inversion Hx; subst; apply in_map; assumption|]. apply (H2 g x Hx).
    - intros s' r' Hin. eqb_cases (st_id s', st_id r') (st_id s, st_id r).
      + inversion Heq as [[Hs' Hr']].
        assert (Hin' : In s' av /\ In r' mi) by (destruct Hin as [Hin|Hin]; [inversion Hin; subst; auto|apply Hdone; assumption]).
        assert (s' = s) by (apply (NoDup_inj st_id ss); auto; apply Hav, Hin').
        assert (r' = r) by (apply (NoDup_inj st_id ss); auto; apply mi_in; first [assumption|apply Hin']). subst.
        rewrite dget_dset_same. exists sh. auto.
      + rewrite dget_dset_other by assumption. apply H3. destruct Hin as [Hin|Hin]; [|assumption]. inversion Hin; subst. contradiction.
  Qed.
  Lemma receive_ballots_get : forall (l : list (string * comp_share)) d, NoDup (map fst l) -> forall id,
    dget id (fold_left (fun acc kv => dset (fst kv) (dset (csh_guardian (snd kv), csh_missing (snd kv)) (snd kv)
                                               (match dget (fst kv) acc with Some s => s | None => [] end)) acc) l d) =
    match dget id l with
    | Some sh => Some (dset (csh_guardian sh, csh_missing sh) sh (match dget id d with Some s => s | None => [] end))
    | None => dget id d
    end.
  Proof.
    induction l as [|[a sh] l IH]; intros d Hn id; [reflexivity|]. cbn [map fst] in Hn. inversion Hn as [|? ? Ha Hl]; subst.
    cbn [fold_left fst snd]. rewrite IH by assumption. cbn [dget].
    eqb_cases id a.
    - subst id. replace (dget a l) with (@None comp_share); [apply dget_dset_same|]. symmetry. apply dget_none. exact Ha.
    - rewrite dget_dset_other by assumption. reflexivity.
  Qed.
  Lemma settled_same m m' : settled m -> dm_context m' = dm_context m -> dm_available m' = dm_available m -> dm_missing m' = dm_missing m ->
    dm_tally m' = dm_tally m -> dm_ballots m' = dm_ballots m -> settled m'.
  Proof. intros [H1 H2 H3 H4 H5] E1 E2 E3 E4 E5. constructor; rewrite ?E1, ?E2, ?E3, ?E4, ?E5; assumption. Qed.
  Lemma exchange_one_ok done s r i g j kk m : exchanged done m -> In s av -> ready_guardian E ss s g -> In r mi -> key_of E r kk ->
    exists m', exchange_one E up rnd t bs cx (i, g) m (j, kk) = Ok m' /\ exchanged ((s, r) :: done) m'.
  Proof.
    intros [X1 X2 X3 X4] Hs Hg Hr (Ho & _). unfold exchange_one. rewrite Ho.
    destruct (comp_tally_ok s g r (fun c => up [i; j; 0%nat; c]) (fun c x => rnd [i; j; 0%nat; c; x]) (fun c => Hup _) Hs Hg Hr) as (sh & -> & S1 & S2 & S3).
    cbn [rbind].
    destruct (comp_ballots_ok s g r (fun b c => up [i; j; S b; c]) (fun b c x => rnd [i; j; S b; c; x]) (fun b c => Hup _) Hs Hg Hr) as (d & l & -> & Hdl & HF).
    cbn [rbind]. rewrite Hdl. eexists. split; [reflexivity|]. constructor.
    - apply (settled_same m); try assumption; reflexivity.
    - intros a b [Heq|Hin]; [inversion Heq; subst; auto|apply X2; assumption].
    - cbn [dm_receive_ballots dm_receive_tally dm_ctally]. rewrite S2, S3. apply cgood_add; assumption.
    - intros b Hbb. cbn [dm_receive_ballots dm_receive_tally dm_cballots]. unfold cold.
      assert (Hids : map fst l = map sb_id bs) by (symmetry; apply Forall2_map_eq; revert HF; apply F2_impl; intros x kv (H & _); symmetry; exact H).
      destruct (Forall2_in_l _ _ _ b HF Hbb) as ([id shb] & Hin & Hid & Hgb & Hmb & Hshb). cbn [fst snd] in *. subst id.
      assert (Hg' : dget (sb_id b) l = Some shb) by (apply in_dget; [unfold dkeys; rewrite Hids; assumption|assumption]).
      rewrite receive_ballots_get, Hg' by (rewrite Hids; assumption). rewrite Hgb, Hmb. apply cgood_add; try assumption. apply (X4 b Hbb).
  Qed.
  Lemma exchange_inner s i g : In s av -> ready_guardian E ss s g -> forall kl rl done m, exchanged done m ->
    Forall2 (fun r jk => key_of E r (snd jk)) rl kl -> (forall r, In r rl -> In r mi) ->
    exists m', rfold (exchange_one E up rnd t bs cx (i, g)) kl m = Ok m' /\ exchanged (rev (map (fun r => (s, r)) rl) ++ done) m'.
  Proof.
    intros Hs Hg. induction kl as [|[j kk] kl IH]; intros rl done m Hm HF Hin; inversion HF as [|r ? rl' ? Hk HF']; subst.
    - exists m. auto.
    - destruct (exchange_one_ok done s r i g j kk m Hm Hs Hg) as (m1 & H1 & Hm1); [apply Hin; left; reflexivity|exact Hk|].
      cbn [rfold]. rewrite H1. cbn [rbind]. destruct (IH rl' ((s, r) :: done) m1 Hm1 HF') as (m' & H2 & H3); [intros; apply Hin; right; assumption|].
      exists m'. split; [exact H2|]. cbn [map rev]. rewrite <- app_assoc. exact H3.
  Qed.
  Lemma exchange_outer kl : Forall2 (fun r jk => key_of E r (snd jk)) mi kl -> forall gl sl done m, exchanged done m ->
    Forall2 (fun s ig => ready_guardian E ss s (snd ig)) sl gl -> (forall s, In s sl -> In s av) ->
    exists done' m', rfold (fun m ig => rfold (exchange_one E up rnd t bs cx ig) kl m) gl m = Ok m' /\ exchanged done' m' /\
      (forall s r, In (s, r) done \/ In s sl /\ In r mi -> In (s, r) done').
  Proof.
    intros Hkl. induction gl as [|[i g] gl IH]; intros sl done m Hm HF Hin; inversion HF as [|s ? sl' ? Hg HF']; subst.
    - exists done, m. split; [reflexivity|]. split; [assumption|]. intros s r [H|[[] _]]. assumption.
    - destruct (exchange_inner s i g (Hin s (or_introl eq_refl)) Hg kl mi done m Hm Hkl (fun r H => H)) as (m1 & H1 & Hm1).
      cbn [rfold]. rewrite H1. cbn [rbind].
      destruct (IH sl' _ m1 Hm1 HF') as (done' & m' & H2 & H3 & H4); [intros; apply Hin; right; assumption|].
      exists done', m'. split; [exact H2|]. split; [exact H3|]. intros a b Hab. apply H4. destruct Hab as [Hab|[[->|Ha] Hb']].
      + left. apply in_app_iff. right; assumption.
      + left. apply in_app_iff. left. rewrite <- in_rev. apply in_map. assumption.
      + right. auto.
  Qed.

  (** *** Lagrange coefficients *)
  Hypothesis Hseqs : NoDup (map (fun s => st_seq s mod qq E) av).
  Hypothesis Hquorum : (k <= length av)%nat.
  Definition xs_av : list Z := map st_seq av.
  Definition w_of (s : seat) : Z := match compute_lagrange_coefficient E (st_seq s) (remove Z.eq_dec (st_seq s) xs_av) with Ok w => w | Err _ => 0 end.
  Lemma weights r : In r ss -> (forall s, In s av -> compute_lagrange_coefficient E (st_seq s) (remove Z.eq_dec (st_seq s) xs_av) = Ok (w_of s) /\ 0 <= w_of s)
    /\ sumZ (map (fun s => w_of s * point_of r s) av) mod qq E = st_secret r mod qq E.
  Proof.
    intros Hr. destruct (Hss r Hr) as (_ & _ & Hlen & H0).
    destruct (lagrange_reconstruct E HE (st_secrets r) xs_av) as (ws & H1 & H2 & H3).
    - unfold xs_av. rewrite map_map. exact Hseqs.
    - unfold xs_av. rewrite map_length. lia.
    - assert (Hws : ws = map w_of av).
      { unfold xs_av in H1. apply Forall2_map_l in H1.
        assert (H : forall l, Forall2 (fun s w => compute_lagrange_coefficient E (st_seq s) (remove Z.eq_dec (st_seq s) (map st_seq av)) = Ok w) l ws -> ws = map w_of l).
        { clear. intros l H. induction H as [|s w l ws Hw _ IH]; [reflexivity|]. cbn [map]. f_equal; [unfold w_of, xs_av; rewrite Hw; reflexivity|exact IH]. }
        apply H. exact H1. }
      split.
      + intros s Hs. unfold xs_av in H1. apply Forall2_map_l in H1. destruct (Forall2_in_l _ _ _ s H1 Hs) as (w & Hw & Hc).
        assert (Hw' : w_of s = w) by (unfold w_of, xs_av; rewrite Hc; reflexivity). rewrite Hw'. split; [exact Hc|].
        rewrite Forall_forall in H2. apply H2 in Hw. lia.
      + rewrite <- H0. rewrite <- (H3 (map (point_of r) av)).
        * f_equal. f_equal. rewrite Hws. clear. induction av as [|s l IH]; [reflexivity|]. cbn [map combine fst snd]. f_equal. exact IH.
        * unfold xs_av. apply Forall2_map_l, Forall2_map_r, Forall2_diag. intros s _. unfold point_of. apply Z.mod_mod. lia.
  Qed.
  Lemma remove_own (kl : list public_key) : forall sl, Forall2 (key_of E) sl kl -> NoDup (map st_id sl) -> NoDup (map st_seq sl) -> forall s kk, In s sl -> key_of E s kk ->
    map pk_seq (filter (fun o => negb (eqb (pk_owner o) (pk_owner kk))) kl) = remove Z.eq_dec (st_seq s) (map st_seq sl).
  Proof.
    intros sl HF Hi Hs s kk Hin (Ho & _). rewrite Ho.
    assert (H : forall l kl', Forall2 (key_of E) l kl' -> (forall x, In x l -> In x sl) ->
      map pk_seq (filter (fun o => negb (eqb (pk_owner o) (st_id s))) kl') = remove Z.eq_dec (st_seq s) (map st_seq l)).
    { induction 1 as [|a ka l kl' (Ka & Ks & _) _ IH]; intros Hsub; [reflexivity|]. cbn [filter map remove]. rewrite Ka.
      eqb_cases (st_id a) (st_id s).
      - cbn [negb]. assert (a = s) by (apply (NoDup_inj st_id sl); auto; apply Hsub; left; reflexivity). subst a.
        destruct (Z.eq_dec (st_seq s) (st_seq s)); [|contradiction]. apply IH. intros; apply Hsub; right; assumption.
      - cbn [negb map]. destruct (Z.eq_dec (st_seq s) (st_seq a)) as [Heq'|_].
        + exfalso. apply Heq. f_equal. apply (NoDup_inj st_seq sl); auto. apply Hsub; left; reflexivity.
        + rewrite Ks. f_equal. apply IH. intros; apply Hsub; right; assumption. }
    apply H; [assumption|auto].
  Qed.
  Lemma lagrange_ok m : settled m -> (exists r, In r ss) -> exists L, lagrange_all E (dvals (dm_available m)) = Ok L /\ (forall s, In s av -> dindex (st_id s) L = Ok (w_of s)).
  Proof.
    intros [_ Ha _ _ _] [r0 Hr0]. set (kl := dvals (dm_available m)).
    assert (HF : Forall2 (key_of E) av kl).
    { unfold kl, dvals. apply Forall2_map_r. revert Ha. apply F2_impl. intros s kv [_ H]. exact H. }
    assert (Hsq : NoDup (map st_seq av)).
    { apply (NoDup_mod (qq E)). rewrite map_map. exact Hseqs. }
    unfold lagrange_all. clearbody kl.
    assert (H : rmapM (fun kk => do w <- lagrange_for E kk kl; Ok (pk_owner kk, w)) kl = Ok (map (fun s => (st_id s, w_of s)) av)).
    { apply rmapM_iff. apply Forall2_map_r. 
      assert (HF' : Forall2 (fun x y => key_of E y x) kl av) by (clear - HF; induction HF; constructor; assumption).
      revert HF'. apply Forall2_impl'. intros kk s _ Hs Hk. unfold lagrange_for.
      rewrite (remove_own kl av HF Havn Hsq s kk Hs Hk). destruct Hk as (Ho & Hsqk & _). rewrite Hsqk, Ho.
      destruct (weights r0 Hr0) as [Hw _]. destruct (Hw s Hs) as [Hc _]. unfold xs_av in Hc. rewrite Hc. reflexivity. }
    rewrite H. cbn [rbind]. eexists. split; [reflexivity|]. intros s Hs.
    rewrite dict_of_distinct by (rewrite map_map; exact Havn).
    apply dindex_in; [unfold dkeys; rewrite map_map; exact Havn|]. apply (in_map (fun s => (st_id s, w_of s))). assumption.
  Qed.
  (** the compensated shares for one missing guardian, as rows *)
  Lemma rows_ok cs done d r L : cgood_table cs done d -> In r mi -> (forall s, In s av -> In (s, r) done) -> (forall s, In s av -> dindex (st_id s) L = Ok (w_of s)) ->
    exists rows, rec_good E rows (st_secret r) L /\
      Forall2 (fun row kv => fst kv = r_id row /\ cgood_share E Q (r_y row) cs (snd kv)) rows (filter_by_missing (st_id r) d).
  Proof.
    intros [H1 H2 H3] Hr Hd HL. destruct (filter_by_missing_ok (st_id r) d [] H1) as [F1 F2]. specialize (F2 (NoDup_nil _)).
    change (fold_left _ d []) with (filter_by_missing (st_id r) d) in F1, F2. cbn [dget] in F1.
    assert (Hperm : Permutation (dkeys (filter_by_missing (st_id r) d)) (map st_id av)).
    { apply NoDup_Permutation; [exact F2|exact Havn|]. intros g. split.
      - intros Hg. apply dget_some_key in Hg. destruct Hg as [sh Hg]. rewrite F1 in Hg. destruct (dget (g, st_id r) d) eqn:Hx; [|discriminate].
        apply (H2 g (st_id r)). apply dget_some_key. eauto.
      - intros Hg. apply in_map_iff in Hg. destruct Hg as (s & <- & Hs). destruct (H3 s r (Hd s Hs)) as (sh & Hsh & _).
        apply dget_some_key. exists sh. rewrite F1, Hsh. reflexivity. }
    apply Permutation_map_inv in Hperm. destruct Hperm as (av' & Hk & Hp').
    set (row := fun s => (st_id s, w_of s, point_of r s)).
    destruct (weights r (proj1 (proj1 (mi_in r) Hr))) as [Hw Hsum].
    exists (map row av'). split.
    - split; [|split].
      + apply Forall_forall. intros x Hx. apply in_map_iff in Hx. destruct Hx as (s & <- & Hs). 
        assert (Hs' : In s av) by (apply (Permutation_in s (Permutation_sym Hp')); assumption).
        unfold row, r_id, r_w, r_y; cbn [fst snd]. split; [apply HL; assumption|]. split; [apply Hw; assumption|]. pose proof (point_range r s). lia.
      + destruct (Hss r (proj1 (proj1 (mi_in r) Hr))) as [H _]. lia.
      + rewrite map_map. unfold row, r_w, r_y; cbn [fst snd]. rewrite <- Hsum. f_equal. apply sumZ_perm. apply Permutation_map. apply Permutation_sym. exact Hp'.
    - assert (Hgen : forall l (fd : dict string comp_share), dkeys fd = map st_id l -> (forall s, In s l -> In s av) -> (forall kv, In kv fd -> dget (fst kv) (filter_by_missing (st_id r) d) = Some (snd kv)) ->
        Forall2 (fun row kv => fst kv = r_id row /\ cgood_share E Q (r_y row) cs (snd kv)) (map row l) fd).
      { induction l as [|s l IH]; intros [|[g sh] fd] Hkk Hl Hg; try discriminate; [constructor|]. unfold dkeys in Hkk. cbn [map fst] in Hkk. inversion Hkk as [[Hg0 Hrest]].
        cbn [map]. constructor.
        - unfold row, r_id, r_y; cbn [fst snd]. split; [reflexivity|]. 
          pose proof (Hg _ (or_introl eq_refl)) as Hx. cbn [fst snd] in Hx. rewrite F1 in Hx.
          destruct (H3 s r) as (sh' & Hs1 & Hs2); [apply Hd, Hl; left; reflexivity|]. rewrite Hg0, Hs1 in Hx. inversion Hx; subst. exact Hs2.
        - apply IH; [exact Hrest|intros; apply Hl; right; assumption|intros; apply Hg; right; assumption]. }
      apply Hgen; [exact Hk|intros s Hs; apply (Permutation_in s (Permutation_sym Hp')); assumption|].
      intros [g sh] Hin. cbn [fst snd]. apply in_dget; [exact F2|exact Hin].
  Qed.

  (** *** reconstruction *)
  Lemma av_mi_nodup : NoDup (map st_id (av ++ mi)).
  Proof.
    rewrite map_app. apply NoDup_app'; [exact Havn|exact mi_nodup|]. intros x Hx Hx'. apply in_map_iff in Hx'.
    destruct Hx' as (s & <- & Hs). apply mi_in in Hs. destruct Hs as [_ Hs]. contradiction.
  Qed.
  Lemma av_mi_perm : Permutation (av ++ mi) ss.
  Proof.
    apply NoDup_Permutation; [apply (NoDup_map_inv st_id), av_mi_nodup|apply (NoDup_map_inv st_id), Hnd|].
    intros s. rewrite in_app_iff. split.
    - intros [H|H]; [auto|apply mi_in in H; apply H].
    - intros H. destruct (inb (st_id s) (map st_id av)) eqn:Hi.
      + apply inb_spec in Hi. apply in_map_iff in Hi. destruct Hi as (s' & He & Hs'). left. replace s with s'; [assumption|].
        apply (NoDup_inj st_id ss); auto.
      + right. apply mi_in. split; [assumption|]. apply inb_false. assumption.
  Qed.
  Lemma not_yet cs done (d : dict string dec_share) r : Forall2 (entry cs) done d -> ~ In (st_id r) (map st_id done) -> dmem (st_id r) d = false /\ ~ In (st_id r) (dkeys d).
  Proof.
    intros HF Hn. assert (Hk : dkeys d = map st_id done) by (apply (F2_keys _ _ _ _ HF); intros a kv (H & _); exact H).
    rewrite <- Hk in Hn. split; [|assumption]. destruct (dmem (st_id r) d) eqn:Hm; [|reflexivity]. apply dmem_spec in Hm. contradiction.
  Qed.
  Lemma reconstruct_tally_ok L ct dn : cgood_table tcs dn ct -> (forall s, In s av -> dindex (st_id s) L = Ok (w_of s)) -> forall (kl : dict string public_key) rl done d,
    Forall2 key_entry_of rl kl -> Forall2 (entry tcs) done d -> NoDup (map st_id (done ++ rl)) -> (forall r, In r rl -> In r mi /\ forall s, In s av -> In (s, r) dn) ->
    exists d', reconstruct_tally_loop E t ct L kl d = (d', Ok tt) /\ Forall2 (entry tcs) (done ++ rl) d'.
  Proof.
    intros Hct HL. induction kl as [|[id kk] kl IH]; intros rl done d HK HF Hn Hr; inversion HK as [|r ? rl' ? [Hid Hkk] HK']; subst.
    - exists d. rewrite app_nil_r. auto.
    - cbn [fst snd] in *. subst id. cbn [reconstruct_tally_loop].
      destruct (not_yet tcs done d r HF) as [-> Hfresh].
      { rewrite map_app in Hn. cbn [map] in Hn. apply NoDup_remove_2 in Hn. intros H. apply Hn. apply in_app_iff. left; exact H. }
      destruct (Hr r (or_introl eq_refl)) as [Hrm Hrd].
      destruct (rows_ok tcs dn ct r L Hct Hrm Hrd HL) as (rows & HR & HRF).
      destruct Hkk as (K1 & K2 & K3 & K4).
      destruct (reconstruct_ok E HE Q rows (st_secret r) L kk (ty_id t) tcs _ HR Ht K3 HRF) as (sh & Hsh & G1' & G2 & _).
      unfold reconstruct_share. rewrite Hsh. rewrite dset_new by assumption.
      destruct (IH rl' (done ++ [r]) (d ++ [(st_id r, sh)]) HK') as (d' & -> & HF').
      + apply Forall2_snoc; [assumption|]. split; [reflexivity|]. cbn [snd]. split; [rewrite G2; assumption|assumption].
      + rewrite <- app_assoc. exact Hn.
      + intros; apply Hr; right; assumption.
      + exists d'. split; [reflexivity|]. rewrite <- app_assoc in HF'. exact HF'.
  Qed.
  Lemma reconstruct_ballot_ok b L ct dn : In b bs -> cgood_table (bcs b) dn (match ct with Some c => c | None => [] end) ->
    (forall s, In s av -> dindex (st_id s) L = Ok (w_of s)) -> forall (kl : dict string public_key) rl done d,
    Forall2 key_entry_of rl kl -> Forall2 (entry (bcs b)) done d -> NoDup (map st_id (done ++ rl)) -> (forall r, In r rl -> In r mi /\ forall s, In s av -> In (s, r) dn) ->
    exists d', reconstruct_ballot_loop E b ct L kl d = (d', Ok tt) /\ Forall2 (entry (bcs b)) (done ++ rl) d'.
  Proof.
    intros Hbb Hct HL. induction kl as [|[id kk] kl IH]; intros rl done d HK HF Hn Hr; inversion HK as [|r ? rl' ? [Hid Hkk] HK']; subst.
    - exists d. rewrite app_nil_r. auto.
    - cbn [fst snd] in *. subst id. cbn [reconstruct_ballot_loop].
      destruct (not_yet (bcs b) done d r HF) as [-> Hfresh].
      { rewrite map_app in Hn. cbn [map] in Hn. apply NoDup_remove_2 in Hn. intros H. apply Hn. apply in_app_iff. left; exact H. }
      destruct (Hr r (or_introl eq_refl)) as [Hrm Hrd].
      destruct ct as [ct|].
      2:{ exfalso. destruct av as [|s0 ?] eqn:Hav0; [apply Hne; reflexivity|]. destruct (cg_shares _ _ _ Hct s0 r) as (sh & Hsh & _); [apply Hrd; left; reflexivity|discriminate Hsh]. }
      destruct (rows_ok (bcs b) dn ct r L Hct Hrm Hrd HL) as (rows & HR & HRF).
      destruct Hkk as (K1 & K2 & K3 & K4).
      destruct (reconstruct_ok E HE Q rows (st_secret r) L kk (sb_id b) (bcs b) _ HR (Hb b Hbb) K3 HRF) as (sh & Hsh & G1' & G2 & _).
      unfold reconstruct_share_for_ballot. rewrite Hsh. rewrite dset_new by assumption.
      destruct (IH rl' (done ++ [r]) (d ++ [(st_id r, sh)]) HK') as (d' & -> & HF').
      + apply Forall2_snoc; [assumption|]. split; [reflexivity|]. cbn [snd]. split; [rewrite G2; assumption|assumption].
      + rewrite <- app_assoc. exact Hn.
      + intros; apply Hr; right; assumption.
      + exists d'. split; [reflexivity|]. rewrite <- app_assoc in HF'. exact HF'.
  Qed.
  Lemma reconstruct_ballots_ok L m dn : Forall2 key_entry_of mi (dm_missing m) -> (forall b, In b bs -> cgood_table (bcs b) dn (cold b (dm_cballots m))) ->
    (forall s r, In s av -> In r mi -> In (s, r) dn) ->
    (forall s, In s av -> dindex (st_id s) L = Ok (w_of s)) -> forall bl (d : dict string (dict string dec_share)), (forall b, In b bl -> In b bs) -> NoDup (map sb_id bl) ->
    (forall b, In b bl -> exists tb : dict string dec_share, dget (sb_id b) d = Some tb /\ Forall2 (entry (bcs b)) av tb) ->
    exists d', reconstruct_ballots_loop E m L bl d = (d', Ok tt) /\
      (forall b, In b bl -> exists tb, dget (sb_id b) d' = Some tb /\ Forall2 (entry (bcs b)) (av ++ mi) tb) /\
      (forall id, ~ In id (map sb_id bl) -> dget id d' = dget id d).
  Proof.
    intros HK Hc Hdn HL. induction bl as [|b bl IH]; intros d Hin Hn Hd.
    - exists d. split; [reflexivity|]. split; [intros b []|auto].
    - cbn [map] in Hn. inversion Hn as [|? ? Hx Hl]; subst. cbn [reconstruct_ballots_loop].
      destruct (Hd b (or_introl eq_refl)) as (tb & -> & Htb).
      assert (Hbb : In b bs) by (apply Hin; left; reflexivity).
      destruct (reconstruct_ballot_ok b L (dget (sb_id b) (dm_cballots m)) dn Hbb (Hc b Hbb) HL (dm_missing m) mi av tb HK Htb av_mi_nodup) as (tb' & -> & Htb').
      { intros r Hr. split; [assumption|]. intros; apply Hdn; assumption. }
      destruct (IH (dset (sb_id b) tb' d)) as (d' & Hd1 & Hd2 & Hd3).
      + intros; apply Hin; right; assumption.
      + assumption.
      + intros b' Hb'. rewrite dget_dset_other; [apply Hd; right; assumption|]. intros He. apply Hx. rewrite <- He. apply in_map. assumption.
      + exists d'. split; [exact Hd1|]. split.
        * intros b' [<-|Hb']; [|apply Hd2; assumption]. exists tb'. rewrite Hd3 by assumption. rewrite dget_dset_same. auto.
        * intros id Hid. rewrite Hd3 by (intros H; apply Hid; right; assumption). apply dget_dset_other. intros He. apply Hid. left. symmetry. exact He.
  Qed.
  (** the state in which everything is ready *)
  Record final (al : list seat) (m : dmediator) : Prop := {
    fi_cx : dm_context m = cx;
    fi_avail : Forall2 key_entry_of av (dm_available m);
    fi_missing : Forall2 key_entry_of mi (dm_missing m);
    fi_tally : Forall2 (entry tcs) al (dm_tally m);
    fi_ballots : forall b, In b bs -> exists tb, dget (sb_id b) (dm_ballots m) = Some tb /\ Forall2 (entry (bcs b)) al tb }.
  Lemma settled_final m : settled m -> mi = [] -> final av m.
  Proof. intros [H1 H2 H3 H4 H5] Hm. constructor; assumption. Qed.
  Lemma exchange_ok m : settled m -> dm_ctally m = [] -> dm_cballots m = [] -> exists m', exchange E up rnd gs m cx t bs = Ok m' /\ final (av ++ mi) m'.
  Proof.
    intros Hs Hc1 Hc2. unfold exchange.
    assert (Hkl : Forall2 (fun r jk => key_of E r (snd jk)) mi (number (dm_get_missing m))).
    { pose proof (se_missing _ Hs) as H. unfold dm_get_missing, dvals. 
      assert (H' : Forall2 (key_of E) mi (map snd (dm_missing m))) by (apply Forall2_map_r; revert H; apply F2_impl; intros s kv [_ Hx]; exact Hx).
      rewrite <- (number_snd (map snd (dm_missing m))) in H'. exact (proj1 (Forall2_map_r _ snd _ _) H'). }
    assert (Hgl : Forall2 (fun s ig => ready_guardian E ss s (snd ig)) av (number gs)).
    { pose proof Hgs as H. rewrite <- (number_snd gs) in H. exact (proj1 (Forall2_map_r _ snd _ _) H). }
    destruct (exchange_outer _ Hkl (number gs) av [] m) as (dn & m1 & -> & [X1 X2 X3 X4] & Hdn); [|exact Hgl|auto|].
    { constructor; [assumption|intros s r []| |].
      - rewrite Hc1. constructor; [constructor|intros ? ? []|intros ? ? []].
      - intros b _. unfold cold. rewrite Hc2. constructor; [constructor|intros ? ? []|intros ? ? []]. }
    cbn [rbind]. assert (Hdn' : forall s r, In s av -> In r mi -> In (s, r) dn) by (intros; apply Hdn; right; auto). clear Hdn.
    destruct av as [|s0 av0] eqn:Hav0; [exfalso; apply Hne; reflexivity|]. rewrite <- Hav0 in *.
    assert (Hex : exists r, In r ss) by (exists s0; apply Hav; rewrite Hav0; left; reflexivity). clear Hav0.
    destruct (lagrange_ok m1 X1 Hex) as (L & HL1 & HL2).
    unfold dm_reconstruct_tally. rewrite HL1.
    destruct (reconstruct_tally_ok L (dm_ctally m1) dn X3 HL2 (dm_missing m1) mi av (dm_tally m1) (se_missing _ X1) (se_tally _ X1) av_mi_nodup) as (d' & -> & Hd').
    { intros r Hr. split; [assumption|]. intros; apply Hdn'; assumption. }
    cbn [rbind]. unfold dm_reconstruct_ballots. change (dm_available (dm_with_tally m1 d')) with (dm_available m1).
    change (dm_ballots (dm_with_tally m1 d')) with (dm_ballots m1). rewrite HL1.
    destruct (reconstruct_ballots_ok L (dm_with_tally m1 d') dn (se_missing _ X1) X4 Hdn' HL2 bs (dm_ballots m1) (fun b H => H) Hbn (se_ballots _ X1)) as (db & Hdb & Hdb1 & _).
    rewrite Hdb. cbn [rbind]. eexists. split; [reflexivity|].
    destruct X1 as [S1 S2 S3 S4 S5]. constructor; cbn; assumption.
  Qed.

  (** *** the plaintexts *)
  Hypothesis Hcount : cx_guardians cx = len ss.
  Hypothesis Hcq : cx_quorum cx <= len av.
  Lemma complete al m : final al m -> announcement_complete m = true.
  Proof.
    clear Hquorum. intros [F1 F2 F3 _ _]. unfold announcement_complete. rewrite F1, Hcount. unfold len.
    rewrite <- (F2_length F2), <- (F2_length F3). apply andb_true_intro. split; [apply Z.leb_le; exact Hcq|].
    apply Z.eqb_eq. rewrite <- (Permutation_length av_mi_perm), app_length. lia.
  Qed.
  Lemma ready cs al m d : final al m -> Permutation al ss -> Forall2 (entry cs) al d -> ready_to_decrypt m d = true.
  Proof.
    intros [F1 _ _ _ _] Hpe HF. unfold ready_to_decrypt. rewrite F1, Hcount. unfold len. rewrite <- (F2_length HF), (Permutation_length Hpe). apply Z.eqb_refl.
  Qed.
  Definition joint : Z := sumZ (map st_secret ss).
  Lemma table_of cs al d : Permutation al ss -> Forall2 (entry cs) al d -> table_good E Q cs (map st_secret al) d.
  Proof.
    intros Hpe HF. split.
    - rewrite (F2_keys st_id (entry cs) al d HF) by (intros a kv (H & _); exact H).
      apply (Permutation_NoDup (Permutation_map st_id (Permutation_sym Hpe))). exact Hnd.
    - apply Forall2_map_l. revert HF. apply F2_impl. intros s kv (H1 & H2 & H3). split; [congruence|assumption].
  Qed.
  Lemma secrets_pos al : Permutation al ss -> Forall (fun x => 0 <= x) (map st_secret al).
  Proof.
    clear Hquorum. intros Hpe. apply Forall_forall. intros x Hx. apply in_map_iff in Hx. destruct Hx as (s & <- & Hs).
    destruct (Hss s (Permutation_in s Hpe Hs)) as (H & _). lia.
  Qed.
  Lemma secrets_sum al : Permutation al ss -> sumZ (map st_secret al) = joint.
  Proof. intros Hpe. apply sumZ_perm, Permutation_map. exact Hpe. Qed.

  Variable mf : manifest.
  Notation descs := (dict_of (map (fun d => (cd_id d, d)) (mf_contests mf))).
  Definition all_open (cs : list cipher_contest) (M : string -> string -> Z) : Prop :=
    forall c s, In c cs -> In s (cc_selections c) -> opens_to E [joint] (snd s) (M (cc_id c) (fst s)) /\ 0 <= M (cc_id c) (fst s) < qq E /\ M (cc_id c) (fst s) <= dmax E.
  Lemma opens_joint al c m : Permutation al ss -> opens_to E [joint] c m -> opens_to E (map st_secret al) c m.
  Proof. intros Hpe. unfold opens_to. rewrite (secrets_sum al Hpe). unfold sumZ at 1. cbn. rewrite Z.add_0_r. auto. Qed.
  Lemma plain_of id cs al d M : Permutation al ss -> item_good E cs -> Forall2 (entry cs) al d -> all_open cs M ->
    exists p, decrypt_shares E id cs d Q mf true = Ok (Some p) /\ pt_id p = id /\
      Forall2 (con_plain E Q (map st_secret al) true descs M) (filter (fun c => dmem (cc_id c) descs) cs) (pt_contests p).
  Proof.
    intros Hpe Hi HF Ho. apply (decrypt_shares_ok E HE Q); [assumption|apply table_of; assumption|apply secrets_pos; assumption|].
    intros c desc s Hc _ Hs. unfold kept_sels in Hs. apply filter_In in Hs. destruct Hs as [Hs _]. destruct (Ho c s Hc Hs) as [H1 H2].
    split; [apply opens_joint; assumption|assumption].
  Qed.
  Lemma plaintext_tally_ok al m M : final al m -> Permutation al ss -> all_open tcs M ->
    exists p, dm_plaintext_tally E m t mf = Ok (Some p) /\ pt_id p = ty_id t /\
      Forall2 (con_plain E Q (map st_secret al) true descs M) (filter (fun c => dmem (cc_id c) descs) tcs) (pt_contests p).
  Proof.
    intros Hf Hpe Ho. unfold dm_plaintext_tally. rewrite (complete al m Hf), (ready tcs al m _ Hf Hpe (fi_tally _ _ Hf)). cbn [negb orb].
    rewrite (fi_cx _ _ Hf). apply plain_of; try assumption. apply (fi_tally _ _ Hf).
  Qed.
  Lemma plaintext_ballots_ok al m M : final al m -> Permutation al ss -> (forall b, In b bs -> all_open (bcs b) (M b)) -> ss <> [] ->
    exists ps, dm_plaintext_ballots E m bs mf = Ok (Some ps) /\ Forall2 (fun b kp => fst kp = sb_id b /\ pt_id (snd kp) = sb_id b /\
      Forall2 (con_plain E Q (map st_secret al) true descs (M b)) (filter (fun c => dmem (cc_id c) descs) (bcs b)) (pt_contests (snd kp))) bs ps.
  Proof.
    intros Hf Hpe Ho Hs0. unfold dm_plaintext_ballots. rewrite (complete al m Hf). cbn [negb].
    assert (H : forall bl d, (forall b, In b bl -> In b bs) -> NoDup (map sb_id bl) -> (forall b, In b bl -> ~ In (sb_id b) (dkeys d)) ->
      exists ps, plaintext_ballots_loop E m mf bl d = Ok (d ++ ps) /\ Forall2 (fun b kp => fst kp = sb_id b /\ pt_id (snd kp) = sb_id b /\
      Forall2 (con_plain E Q (map st_secret al) true descs (M b)) (filter (fun c => dmem (cc_id c) descs) (bcs b)) (pt_contests (snd kp))) bl ps).
    { induction bl as [|b bl IH]; intros d Hin Hn Hd; cbn [plaintext_ballots_loop].
      - exists []. rewrite app_nil_r. split; [reflexivity|constructor].
      - cbn [map] in Hn. inversion Hn as [|? ? Hx Hl]; subst. assert (Hbb : In b bs) by (apply Hin; left; reflexivity).
        destruct (fi_ballots _ _ Hf b Hbb) as (tb & -> & Htb).
        pose proof (ready (bcs b) al m tb Hf Hpe Htb) as Hready.
        destruct tb as [|e tb].
        { exfalso. apply Hs0. apply F2_length in Htb. destruct al; [|discriminate]. apply Permutation_nil in Hpe. exact Hpe. }
        rewrite Hready. cbn [negb]. destruct (plain_of (sb_id b) (bcs b) al (e :: tb) (M b) Hpe (Hb b Hbb) Htb (Ho b Hbb)) as (p & Hp1 & Hp2 & Hp3).
        unfold decrypt_ballot. rewrite (fi_cx _ _ Hf), Hp1. cbn [rbind]. rewrite Hp2. rewrite dset_new by (apply Hd; left; reflexivity).
        destruct (IH (d ++ [(sb_id b, p)])) as (ps & -> & Hps).
        + intros; apply Hin; right; assumption.
        + assumption.
        + intros b' Hb'. unfold dkeys. rewrite map_app, in_app_iff. cbn. intros [H|[H|[]]]; [apply (Hd b' (or_intror Hb') H)|]. apply Hx. rewrite H. apply in_map. assumption.
        + exists ((sb_id b, p) :: ps). rewrite <- app_assoc. split; [reflexivity|]. constructor; [|assumption]. auto. }
    destruct (H bs [] (fun _ H => H) Hbn) as (ps & -> & HF); [intros ? _ []|]. cbn [rbind app]. eauto.
  Qed.
End Run.
