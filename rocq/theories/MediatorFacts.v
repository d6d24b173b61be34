(** * MediatorFacts: invariants of every history of key ceremony mediator calls. *)
From Verif Require Import Base Group GroupFacts Codec Hash ElGamal ZK Poly ListFacts Ceremony SpecCeremony Tiny.
Import List.

Lemma find_app {A} (f : A -> bool) l l' : find f (l ++ l') = match find f l with Some x => Some x | None => find f l' end.
Proof. induction l as [|a l IH]; cbn; [reflexivity|]. destruct (f a); [reflexivity|exact IH]. Qed.

(** ** what the mediator holds after a history *)
Record held (E : env) (d : details) (h : list ceremony_call) (m : mediator) : Prop := {
  hd_details : md_details m = fst (since_restart d h);
  hd_keys : md_keys m = fold_left (fun d k => dset (pk_owner k) k d) (keys_sent (snd (since_restart d h))) [];
  hd_bnodup : NoDup (dkeys (md_backups m));
  hd_backups : forall o r b, In ((o, r), b) (md_backups m) ->
    o <> r /\ bk_owner b = o /\ bk_designated b = r /\ In b (backups_sent (snd (since_restart d h)));
  hd_vnodup : NoDup (dkeys (md_verifs m));
  hd_verifs : forall o r v, In ((o, r), v) (md_verifs m) ->
    o <> r /\ vf_owner v = o /\ vf_designated v = r /\
    (vf_verified v = true -> reported_good E (md_id m) (snd (since_restart d h)) o r) }.

Lemma since_restart_snoc d h c : since_restart d (h ++ [c]) =
  match c with Restart d' => (d', []) | _ => (fst (since_restart d h), snd (since_restart d h) ++ [c]) end.
Proof. unfold since_restart. rewrite fold_left_app. cbn [fold_left]. destruct c; reflexivity. Qed.

Lemma dset_in {K V} `{EqB K} (k : K) (v : V) d k' v' : In (k', v') (dset k v d) -> (k' = k /\ v' = v) \/ In (k', v') d.
Proof.
  induction d as [|[k0 v0] d IH]; cbn; [intros [Heq|[]]; inversion Heq; auto|].
  eqb_cases k k0; cbn; intros [Hx|Hx]; auto.
  - inversion Hx; subst. auto.
  - destruct (IH Hx); auto.
Qed.

Lemma fold_backups bs : forall m,
  let m' := fold_left md_receive_backup bs m in
  md_details m' = md_details m /\ md_id m' = md_id m /\ md_keys m' = md_keys m /\ md_verifs m' = md_verifs m
  /\ (NoDup (dkeys (md_backups m)) -> NoDup (dkeys (md_backups m')))
  /\ (forall o r b, In ((o, r), b) (md_backups m') ->
       In ((o, r), b) (md_backups m) \/ (o <> r /\ bk_owner b = o /\ bk_designated b = r /\ In b bs)).
Proof.
  induction bs as [|b bs IH]; intros m; cbn [fold_left]; [cbn; repeat split; auto|].
  destruct (IH (md_receive_backup m b)) as (H1 & H2 & H3 & H4 & H5 & H6). cbn zeta.
  unfold md_receive_backup in *. destruct (eqb (bk_owner b) (bk_designated b)) eqn:Hob;
    [|apply eqb_neq in Hob]; cbn in *.
  - repeat split; auto. intros o r b' Hin. destruct (H6 o r b' Hin) as [?|(?&?&?&?)]; [auto|right; cbn; auto 12].
  - repeat split; auto.
    + intros Hn. apply H5. apply dset_nodup. exact Hn.
    + intros o r b' Hin. destruct (H6 o r b' Hin) as [Hx|(?&?&?&?)]; [|right; cbn; auto 12].
      apply dset_in in Hx. destruct Hx as [[Heq ->]|Hx]; [|auto]. inversion Heq; subst. right. cbn; auto 12.
Qed.
Lemma fold_verifs vs : forall m,
  let m' := fold_left md_receive_verification vs m in
  md_details m' = md_details m /\ md_id m' = md_id m /\ md_keys m' = md_keys m /\ md_backups m' = md_backups m
  /\ (NoDup (dkeys (md_verifs m)) -> NoDup (dkeys (md_verifs m')))
  /\ (forall o r v, In ((o, r), v) (md_verifs m') ->
       In ((o, r), v) (md_verifs m) \/ (o <> r /\ vf_owner v = o /\ vf_designated v = r /\ In v vs)).
Proof.
  induction vs as [|b vs IH]; intros m; cbn [fold_left]; [cbn; repeat split; auto|].
  destruct (IH (md_receive_verification m b)) as (H1 & H2 & H3 & H4 & H5 & H6). cbn zeta.
  unfold md_receive_verification in *. destruct (eqb (vf_owner b) (vf_designated b)) eqn:Hob;
    [|apply eqb_neq in Hob]; cbn in *.
  - repeat split; auto. intros o r b' Hin. destruct (H6 o r b' Hin) as [?|(?&?&?&?)]; [auto|right; cbn; auto 12].
  - repeat split; auto.
    + intros Hn. apply H5. apply dset_nodup. exact Hn.
    + intros o r b' Hin. destruct (H6 o r b' Hin) as [Hx|(?&?&?&?)]; [|right; cbn; auto 12].
      apply dset_in in Hx. destruct Hx as [[Heq ->]|Hx]; [|auto]. inversion Heq; subst. right. cbn; auto 12.
Qed.

Lemma reported_good_more E id h h' o r : reported_good E id h o r -> reported_good E id (h ++ h') o r.
Proof.
  unfold reported_good, verifications_sent, challenges_sent. rewrite !flat_map_app.
  intros [(v & Hin & Hv)|(c & Hin & Hc)]; [left; exists v|right; exists c]; rewrite in_app_iff; tauto.
Qed.

Lemma held_run E id d h : let m := ceremony_run E (new_mediator id d) h in held E d h m /\ md_id m = id.
Proof.
  cbn zeta. induction h as [|c h IH] using rev_ind.
  { split; [|reflexivity]. constructor; cbn; try constructor; try reflexivity; tauto. }
  unfold ceremony_run in *. rewrite fold_left_app. cbn [fold_left].
  destruct IH as [IH Hid]. destruct IH as [H1 H2 H3 H4 H5 H6]. revert H1 H2 H3 H4 H5 H6 Hid.
  generalize (fold_left (ceremony_step E) h (new_mediator id d)). intros m H1 H2 H3 H4 H5 H6 Hid.
  destruct c as [k|bs|vs|ch|d']; cbn [ceremony_step].
  - split; [|exact Hid]. constructor; rewrite ?since_restart_snoc; cbn; try assumption.
    + unfold keys_sent. rewrite flat_map_app, fold_left_app. cbn. rewrite H2. reflexivity.
    + intros o r b Hin. destruct (H4 o r b Hin) as (?&?&?&?). repeat split; auto.
      unfold backups_sent. rewrite flat_map_app, in_app_iff. auto.
    + intros o r v Hin. destruct (H6 o r v Hin) as (?&?&?&Hr). repeat split; auto.
      intros Hv. apply reported_good_more, Hr, Hv.
  - assert (Hk : keys_sent (snd (since_restart d h) ++ [SendBackups bs]) = keys_sent (snd (since_restart d h))).
    { unfold keys_sent. rewrite flat_map_app. cbn. apply app_nil_r. }
    unfold receive_backups. destruct (negb (all_guardians_announced m)).
    + split; [|exact Hid]. constructor; rewrite ?since_restart_snoc; cbn [fst snd]; rewrite ?Hk; try assumption.
      * intros o r b Hin. destruct (H4 o r b Hin) as (?&?&?&?). repeat split; auto.
        unfold backups_sent. rewrite flat_map_app, in_app_iff. auto.
      * intros o r v Hin. destruct (H6 o r v Hin) as (?&?&?&Hr). repeat split; auto.
        intros Hv. apply reported_good_more, Hr, Hv.
    + destruct (fold_backups bs m) as (G1 & G2 & G3 & G4 & G5 & G6). cbn zeta in *.
      split; [|rewrite G2; exact Hid].
      constructor; rewrite ?since_restart_snoc; cbn [fst snd]; rewrite ?Hk, ?G1, ?G2, ?G3, ?G4; auto.
      * intros o r b Hin. unfold backups_sent. rewrite flat_map_app, in_app_iff. cbn. rewrite app_nil_r.
        destruct (G6 o r b Hin) as [Hx|(?&?&?&?)]; [|auto 12].
        destruct (H4 o r b Hx) as (?&?&?&?). auto 8.
      * intros o r v Hin. destruct (H6 o r v Hin) as (?&?&?&Hr). repeat split; auto.
        intros Hv. apply reported_good_more, Hr, Hv.
  - assert (Hk : keys_sent (snd (since_restart d h) ++ [SendVerifications vs]) = keys_sent (snd (since_restart d h))).
    { unfold keys_sent. rewrite flat_map_app. cbn. apply app_nil_r. }
    assert (Hb : backups_sent (snd (since_restart d h) ++ [SendVerifications vs]) = backups_sent (snd (since_restart d h))).
    { unfold backups_sent. rewrite flat_map_app. cbn. apply app_nil_r. }
    unfold receive_verifications. destruct (negb (all_backups_available m)).
    + split; [|exact Hid]. constructor; rewrite ?since_restart_snoc; cbn [fst snd]; rewrite ?Hk, ?Hb; try assumption.
      intros o r v Hin. destruct (H6 o r v Hin) as (?&?&?&Hr). repeat split; auto.
      intros Hv. apply reported_good_more, Hr, Hv.
    + destruct (fold_verifs vs m) as (G1 & G2 & G3 & G4 & G5 & G6). cbn zeta in *.
      split; [|rewrite G2; exact Hid].
      constructor; rewrite ?since_restart_snoc; cbn [fst snd]; rewrite ?Hk, ?Hb, ?G1, ?G2, ?G3, ?G4; auto.
      intros o r v Hin. destruct (G6 o r v Hin) as [Hx|(?&?&?&?)].
      * destruct (H6 o r v Hx) as (?&?&?&Hr). repeat split; auto. intros Hv. apply reported_good_more, Hr, Hv.
      * repeat split; auto. intros Hv. left. exists v. repeat split; auto.
        unfold verifications_sent. rewrite flat_map_app, in_app_iff. cbn. rewrite app_nil_r. auto.
  - assert (Hk : keys_sent (snd (since_restart d h) ++ [SendChallenge ch]) = keys_sent (snd (since_restart d h))).
    { unfold keys_sent. rewrite flat_map_app. cbn. apply app_nil_r. }
    assert (Hb : backups_sent (snd (since_restart d h) ++ [SendChallenge ch]) = backups_sent (snd (since_restart d h))).
    { unfold backups_sent. rewrite flat_map_app. cbn. apply app_nil_r. }
    assert (Hsame : held E d (h ++ [SendChallenge ch]) m).
    { constructor; rewrite ?since_restart_snoc; cbn [fst snd]; rewrite ?Hk, ?Hb; try assumption.
      intros o r v Hin. destruct (H6 o r v Hin) as (?&?&?&Hr). repeat split; auto.
      intros Hv. apply reported_good_more, Hr, Hv. }
    unfold md_verify_challenge. destruct (verify_challenge E (md_id m) ch) as [v|e] eqn:Hc; cbn [fst]; [|auto].
    destruct (vf_verified v) eqn:Hok; [|auto].
    destruct (fold_verifs [v] m) as (G1 & G2 & G3 & G4 & G5 & G6). cbn [fold_left] in *. cbn zeta in *.
    split; [|rewrite G2; exact Hid].
    constructor; rewrite ?since_restart_snoc; cbn [fst snd]; rewrite ?Hk, ?Hb, ?G1, ?G2, ?G3, ?G4; auto.
    intros o r v' Hin. destruct (G6 o r v' Hin) as [Hx|(?&?&?&Hx)].
    + destruct (H6 o r v' Hx) as (?&?&?&Hr). repeat split; auto. intros Hv. apply reported_good_more, Hr, Hv.
    + destruct Hx as [<-|[]]. repeat split; auto. intros _. right. exists ch.
      unfold verify_challenge in Hc. destruct (verify_polynomial_coordinate _ _ _ _) as [ok|e] eqn:Hp; cbn in Hc; [|discriminate].
      inversion Hc; subst v. cbn in *. subst ok. repeat split; auto.
      unfold challenges_sent. rewrite flat_map_app, in_app_iff. cbn. auto.
  - split; [|exact Hid]. constructor; rewrite ?since_restart_snoc; cbn; try constructor; try reflexivity; tauto.
Qed.

(** ** the keys held *)
Lemma keys_held l : let dk := fold_left (fun d k => dset (pk_owner k) k d) l [] in
  dkeys dk = firsts (map pk_owner l) /\ (forall o k, In (o, k) dk -> pk_owner k = o /\ latest_key o l = Some k).
Proof.
  cbn zeta. induction l as [|k l IH] using rev_ind; [split; [reflexivity|cbn; tauto]|].
  rewrite fold_left_app. cbn [fold_left]. destruct IH as [IH1 IH2]. split.
  - rewrite dkeys_dset, IH1. unfold firsts, set_of. rewrite map_app, fold_left_app. reflexivity.
  - intros o k' Hin. unfold latest_key. rewrite rev_app_distr. cbn [rev app find].
    assert (Hnd : NoDup (dkeys (fold_left (fun d k => dset (pk_owner k) k d) l []))).
    { rewrite IH1. apply set_of_nodup. }
    apply (in_dget _ _ _ (dset_nodup _ _ _ Hnd)) in Hin. rewrite dget_dset in Hin.
    eqb_cases o (pk_owner k).
    + inversion Hin; subst. rewrite eqb_refl'. auto.
    + rewrite eqb_sym'. apply eqb_neq in Heq. rewrite Heq. apply dget_in in Hin. destruct (IH2 _ _ Hin) as [? Hl].
      split; [assumption|exact Hl].
Qed.

Lemma len_filter_nil {A} (l : list A) (f : A -> bool) : len (filter (fun v => negb (f v)) l) = 0 -> Forall (fun x => f x = true) l.
Proof.
  induction l as [|a l IH]; cbn [filter]; [constructor|]. destruct (f a) eqn:Ha; cbn [negb]; intros H; [constructor; auto|].
  rewrite len_cons in H. pose proof (len_nonneg (filter (fun v => negb (f v)) l)). lia.
Qed.

Definition ordered_pairs (l : list string) : list (string * string) :=
  flat_map (fun o => map (fun r => (o, r)) (filter (fun r => negb (eqb o r)) l)) l.
Lemma filter_other_id (l : list string) o : ~ In o l -> filter (fun r => negb (eqb o r)) l = l.
Proof.
  induction l as [|x l IH]; intros H; cbn [filter]; [reflexivity|].
  eqb_cases o x; [exfalso; apply H; left; auto|]. cbn [negb]. f_equal. apply IH. intros ?; apply H; right; assumption.
Qed.
Lemma filter_other_len (l : list string) : NoDup l -> forall o, In o l -> len (filter (fun r => negb (eqb o r)) l) = len l - 1.
Proof.
  induction l as [|a l IH]; intros Hn o Hin; [destruct Hin|]. inversion Hn as [|? ? Ha Hl]; subst. cbn [filter].
  rewrite !len_cons. eqb_cases o a; cbn [negb].
  - subst o. rewrite filter_other_id by assumption. lia.
  - rewrite len_cons. destruct Hin as [<-|Hin]; [tauto|]. rewrite IH by assumption. lia.
Qed.
Lemma flat_map_len {A B} (f : A -> list B) l n : (forall x, In x l -> len (f x) = n) -> len (flat_map f l) = len l * n.
Proof.
  induction l as [|a l IH]; intros H; [reflexivity|]. cbn [flat_map]. rewrite len_app, len_cons, (H a) by (left; reflexivity).
  rewrite IH by (intros; apply H; right; assumption). lia.
Qed.
Lemma ordered_pairs_len l : NoDup l -> len (ordered_pairs l) = len l * (len l - 1).
Proof. intros Hn. apply flat_map_len. intros o Ho. rewrite len_map. apply filter_other_len; assumption. Qed.
Lemma ordered_pairs_in l o r : In (o, r) (ordered_pairs l) <-> In o l /\ In r l /\ o <> r.
Proof.
  unfold ordered_pairs. rewrite in_flat_map. split.
  - intros [x [Hx Hin]]. apply in_map_iff in Hin. destruct Hin as [y [Heq Hy]]. inversion Heq; subst.
    apply filter_In in Hy. destruct Hy as [Hy Hne]. apply negb_true_iff, eqb_neq in Hne. auto.
  - intros (Ho & Hr & Hne). exists o. split; [assumption|]. apply in_map_iff. exists r. split; [reflexivity|].
    apply filter_In. split; [assumption|]. apply negb_true_iff, eqb_neq. assumption.
Qed.
(** n(n-1) different ordered pairs over n ids are all of them *)
Lemma all_pairs (l : list string) ps : NoDup l -> NoDup ps -> len ps = (len l - 1) * len l ->
  (forall o r, In (o, r) ps -> In o l /\ In r l /\ o <> r) -> forall o r, In o l -> In r l -> o <> r -> In (o, r) ps.
Proof.
  intros Hl Hps Hlen Hin o r Ho Hr Hne.
  assert (Hincl : incl ps (ordered_pairs l)) by (intros [a b] Hab; apply ordered_pairs_in, Hin, Hab).
  assert (Hle : (length (ordered_pairs l) <= length ps)%nat).
  { pose proof (ordered_pairs_len l Hl) as H. unfold len in *. nia. }
  apply (NoDup_length_incl Hps Hle Hincl). apply ordered_pairs_in. auto.
Qed.

(** ** C32 *)
Section Publish.
  Context (E : env) (HE : valid_env E).

  Lemma joint_key_published id d h jk :
    md_publish_joint_key E (ceremony_run E (new_mediator id d) h) = Some jk ->
    let n := dt_number (fst (since_restart d h)) in
    let h' := snd (since_restart d h) in
    exists ks, map pk_owner ks = firsts (map pk_owner (keys_sent h'))
      /\ Forall (fun k => latest_key (pk_owner k) (keys_sent h') = Some k) ks
      /\ len ks = n
      /\ jk_key jk = prodZ (map pk_key ks) mod pp E
      /\ jk_hash jk = hash_elems E [HList (map HElem (flat_map pk_commitments ks))]
      /\ (exists ps, NoDup ps /\ len ps = (n - 1) * n
            /\ forall o r, In (o, r) ps -> o <> r /\ backup_sent h' o r)
      /\ (exists ps, NoDup ps /\ len ps = (n - 1) * n
            /\ forall o r, In (o, r) ps -> o <> r /\ reported_good E id h' o r).
  Proof.
    destruct (held_run E id d h) as [[H1 H2 H3 H4 H5 H6] Hid]. cbn zeta in *.
    set (m := ceremony_run E (new_mediator id d) h) in *. clearbody m.
    unfold md_publish_joint_key, md_all_verified, get_verification_state.
    destruct (negb (all_backups_available m) || negb (all_verifications_received m)) eqn:Hg; [discriminate|].
    apply orb_false_iff in Hg. rewrite !negb_false_iff in Hg. destruct Hg as [Hb Hv].
    unfold all_backups_available in Hb. apply andb_true_iff in Hb. destruct Hb as [Ha Hb].
    unfold all_guardians_announced in Ha. unfold all_verifications_received in Hv.
    rewrite !Z.eqb_eq in *. cbn [vs_all_verified].
    destruct (len _ =? 0) eqn:Hf; [|discriminate]. cbn [negb]. intros Hjk. inversion Hjk; subst jk. clear Hjk.
    rewrite Z.eqb_eq in Hf. rewrite len_map in Hf. apply len_filter_nil in Hf.
    rewrite <- H1. exists (dvals (md_keys m)).
    destruct (keys_held (keys_sent (snd (since_restart d h)))) as [K1 K2]. cbn zeta in *. rewrite <- H2 in K1, K2.
    split; [|split; [|split; [|split; [|split; [|split]]]]].
    - rewrite <- K1. unfold dvals, dkeys. rewrite map_map. apply map_ext_in. intros [o k] Hin. apply (K2 o k Hin).
    - apply Forall_forall. intros k Hin. apply in_map_iff in Hin. destruct Hin as [[o k'] [<- Hin]].
      destruct (K2 _ _ Hin) as [Ho Hl]. cbn [snd]. rewrite Ho. exact Hl.
    - rewrite <- Ha. apply len_map.
    - unfold combine_keys, elgamal_combine_public_keys. cbn [jk_key]. apply mult_p_eq; exact HE.
    - reflexivity.
    - exists (dkeys (md_backups m)). split; [assumption|]. split; [rewrite <- Hb; apply len_map|].
      intros o r Hin. apply in_map_iff in Hin. destruct Hin as [[[o' r'] b] [Heq Hin]]. cbn in Heq. inversion Heq; subst o' r'.
      destruct (H4 o r b Hin) as (?&?&?&?). split; [assumption|]. exists b. auto.
    - exists (dkeys (md_verifs m)). split; [assumption|]. split; [rewrite <- Hv; apply len_map|].
      intros o r Hin. apply in_map_iff in Hin. destruct Hin as [[[o' r'] b] [Heq Hin]]. cbn in Heq. inversion Heq; subst o' r'.
      destruct (H6 o r b Hin) as (?&?&?&Hr). split; [assumption|]. rewrite <- Hid. apply Hr.
      rewrite Forall_forall in Hf. apply Hf. apply in_map_iff. exists ((o, r), b). auto.
  Qed.

  (** when all messages name announced guardians, every ordered pair was covered *)
  Lemma joint_key_all_pairs id d h jk :
    md_publish_joint_key E (ceremony_run E (new_mediator id d) h) = Some jk ->
    let h' := snd (since_restart d h) in
    let owners := map pk_owner (keys_sent h') in
    (forall b, In b (backups_sent h') -> In (bk_owner b) owners /\ In (bk_designated b) owners) ->
    (forall v, In v (verifications_sent h') -> In (vf_owner v) owners /\ In (vf_designated v) owners) ->
    (forall c, In c (challenges_sent h') -> In (ch_owner c) owners /\ In (ch_designated c) owners) ->
    forall o r, In o owners -> In r owners -> o <> r -> backup_sent h' o r /\ reported_good E id h' o r.
  Proof.
    intros Hp h' owners HB HV HC o r Ho Hr Hne. destruct (joint_key_published id d h jk Hp) as
      (ks & Hks & _ & Hn & _ & _ & (ps & P1 & P2 & P3) & (ps' & Q1 & Q2 & Q3)).
    fold h' in Hks, P3, Q3. fold owners in Hks.
    assert (Hnd : NoDup (firsts owners)) by apply set_of_nodup.
    assert (Hin : forall x, In x owners -> In x (firsts owners)) by (intros x; unfold firsts; rewrite set_of_in; auto).
    assert (Hlen : len (firsts owners) = dt_number (fst (since_restart d h))) by (rewrite <- Hks, len_map; exact Hn).
    rewrite <- Hlen in P2, Q2. split.
    - apply P3. apply (all_pairs (firsts owners)); auto. intros a b Hab. destruct (P3 a b Hab) as (?& bk & Hbk &<-&<-).
      destruct (HB bk Hbk). auto.
    - apply Q3. apply (all_pairs (firsts owners)); auto. intros a b Hab. destruct (Q3 a b Hab) as (?& [(v & Hv &<-&<-&_)|(c & Hc &<-&<-&_)]).
      + destruct (HV v Hv). auto.
      + destruct (HC c Hc). auto.
  Qed.
End Publish.

(** ** sharing *)
Lemma share_announced_spec m id ks : share_announced m (Some id) = Some ks ->
  len (md_keys m) = dt_number (md_details m) /\ forall k, In k ks <-> exists o, In (o, k) (md_keys m) /\ o <> id.
Proof.
  unfold share_announced. destruct (all_guardians_announced m) eqn:Ha; [|discriminate]. intros H; inversion H; subst. clear H.
  unfold all_guardians_announced in Ha. rewrite Z.eqb_eq in Ha. split; [exact Ha|]. intros k. rewrite in_map_iff. split.
  - intros [[o k'] [<- Hin]]. apply filter_In in Hin. destruct Hin as [Hin Hne]. change (negb (eqb o id) = true) in Hne.
    apply negb_true_iff, eqb_neq in Hne. exists o. auto.
  - intros [o [Hin Hne]]. exists (o, k). split; [reflexivity|]. apply filter_In. split; [assumption|]. change (negb (eqb o id) = true).
    apply negb_true_iff, eqb_neq. assumption.
Qed.
(** a guardian gets one backup from every other announced guardian, or a KeyError *)
Lemma share_backups_spec m id bs : id <> EmptyString -> share_backups m (Some id) = Ok (Some bs) ->
  Forall2 (fun o b => dget (o, id) (md_backups m) = Some b) (filter (fun g => negb (eqb id g)) (dkeys (md_keys m))) bs.
Proof.
  intros Hid. unfold share_backups. destruct (negb _); [discriminate|]. destruct id as [|c s]; [congruence|].
  unfold backups_to_guardian. destruct (rmapM _ _) as [l|e] eqn:Hr; cbn [rbind]; [|discriminate]. intros H; inversion H; subst.
  apply rmapM_iff in Hr. eapply Forall2_impl'; [|exact Hr]. cbn. intros o b _ _. unfold dindex.
  destruct (dget _ _); [intros Hx; inversion Hx; reflexivity|discriminate].
Qed.
