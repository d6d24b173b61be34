(** * CeremonyThms: the ceremony properties in the form stated in PropsCeremony. *)
From Verif Require Import Base Group Spec Tiny GroupFacts Codec Hash DLog ElGamal ZK Poly CodecFacts HashFacts ElGamalFacts PolyFacts
  CryptoThms ListFacts Manifest Ballot Encrypt SpecElection EncryptFacts EncryptThms Ceremony SpecCeremony MediatorFacts CeremonyFacts.
Import List.

Lemma seat_ok_of E k ss : good_seats E k ss -> forall s, In s ss -> seat_ok E k s.
Proof.
  intros [H1 H2 H3 H4 H5] s Hs. rewrite Forall_forall in *. destruct (H4 s Hs), (H5 s Hs). unfold seat_ok. auto 10.
Qed.

Lemma honest_ceremony E rnd k ss mid : valid_env E -> hmac_32 E -> qq E <= 2 ^ 1024 -> good_seats E k ss ->
  (forall a b, 0 <= rnd a b) ->
  exists gs gs' m,
    rmapM (fun s => guardian_from_nonce E (st_id s) (st_seq s) (len ss) (Z.of_nat k) (st_draws s)) ss = Ok gs
    /\ full_ceremony E rnd gs (new_mediator mid (mkDetails (len ss) (Z.of_nat k))) = Ok (gs', m)
    /\ get_verification_state m = mkVstate true true []
    /\ md_publish_joint_key E m = Some (mkJoint (gexp E (sumZ (map st_secret ss)))
         (hash_elems E [HList (map HElem (flat_map (fun s => map (gexp E) (st_secrets s)) ss))]))
    /\ Forall2 (fun s g => gd_id g = st_id s /\ gd_seq g = st_seq s /\ ek_secret (gd_keys g) = st_secret s
         /\ all_guardian_keys_received g = true /\ gd_all_backups_received g = true
         /\ dget (st_id s) (gd_pubkeys g) = Some (share_key g)
         /\ forall r, In r ss -> exists pk, dget (st_id r) (gd_pubkeys g) = Some pk
              /\ pk_owner pk = st_id r /\ pk_key pk = gexp E (st_secret r) /\ pk_commitments pk = map (gexp E) (st_secrets r) /\ pk_seq pk = st_seq r
              /\ (st_id r <> st_id s -> exists b bytes, dget (st_id r) (gd_backups g) = Some b
                    /\ hashed_decrypt E (bk_coordinate b) (st_secret s) (get_backup_seed E (st_id s) (st_seq s)) = Ok (Some bytes)
                    /\ coordinate_from_bytes E bytes = Ok (poly_at (st_secrets r) (st_seq s) mod qq E))) ss gs'.
Proof.
  intros HE Hm Hq Hg Hr. pose proof (seat_ok_of E k ss Hg) as Hok. pose proof (gs_ids _ _ _ Hg) as Hnd.
  set (d := mkDetails (len ss) (Z.of_nat k)).
  exists (map (g0 E d) ss), (map (g3 E rnd ss d) ss), (m3 E rnd ss d mid ss).
  split; [apply (created E k ss Hok d eq_refl)|].
  split; [apply (ceremony_ok E HE Hm Hq rnd Hr k ss Hok Hnd d eq_refl mid)|].
  split; [apply (verified E rnd ss Hnd d eq_refl mid)|].
  split; [apply (published E HE rnd k ss Hok Hnd d eq_refl mid)|].
  apply Forall2_map_r, Forall2_diag. intros s Hs. do 3 (split; [reflexivity|]).
  split; [unfold all_guardian_keys_received; cbn [gd_pubkeys gd_details g3]; unfold pubs; rewrite len_map, len_cons, (others_len ss Hnd) by assumption; apply Z.eqb_eq; unfold d; cbn [dt_number]; lia|].
  split; [unfold gd_all_backups_received; cbn [gd_backups gd_details g3]; unfold inbox; rewrite len_map, (others_len ss Hnd) by assumption; apply Z.eqb_eq; unfold d; cbn [dt_number]; lia|].
  split.
  { cbn [gd_pubkeys g3]. apply in_dget; [unfold dkeys, pubs; rewrite key_entry_fst; apply self_others_nodup; assumption|].
    unfold pubs. apply in_map_iff. exists s. split; [reflexivity|left; reflexivity]. }
  intros r Hr'. exists (pk_of E r). split; [|split; [reflexivity|split; [apply pk_of_key; assumption|split; [apply pk_of_commitments; assumption|split; [reflexivity|]]]]].
  - cbn [gd_pubkeys g3]. apply in_dget; [unfold dkeys, pubs; rewrite key_entry_fst; apply self_others_nodup; assumption|].
    unfold pubs. apply in_map_iff. eqb_cases (st_id r) (st_id s).
    + exists s. assert (r = s); [|subst; split; [reflexivity|left; reflexivity]].
      clear - Hnd Hs Hr' Heq. induction ss as [|a l IH]; [destruct Hs|]. cbn in Hnd. inversion Hnd as [|? ? Ha Hl]; subst.
      destruct Hs as [->|Hs], Hr' as [->|Hr']; auto.
      * exfalso. apply Ha. rewrite <- Heq. apply in_map. assumption.
      * exfalso. apply Ha. rewrite Heq. apply in_map. assumption.
    + exists r. split; [reflexivity|]. right. apply others_in. auto.
  - intros Hne. destruct (bk_facts E HE Hm Hq rnd Hr k r s (Hok r Hr') (Hok s Hs)) as [_ [bytes [H1 H2]]].
    exists (bk E rnd r s), bytes. split; [|split; assumption]. cbn [gd_backups g3].
    apply in_dget; [unfold dkeys, inbox; rewrite map_map; apply others_nodup; assumption|].
    unfold inbox. apply in_map_iff. exists r. split; [reflexivity|]. apply others_in. auto.
Qed.

(** a backup check succeeds exactly for the right coordinate *)
Lemma backup_check E me b pk coeffs keys bytes y : valid_env E ->
  pk_commitments pk = map (gexp E) coeffs -> Forall (fun a => 0 <= a) coeffs ->
  0 <= bk_seq b < qq E -> (forall j, 0 <= j < zlen coeffs -> bk_seq b ^ j < pp E) ->
  hashed_decrypt E (bk_coordinate b) (ek_secret keys) (get_backup_seed E me (bk_seq b)) = Ok (Some bytes) ->
  coordinate_from_bytes E bytes = Ok y ->
  exists v, verify_backup E me b pk keys = Ok v /\ vf_owner v = bk_owner b /\ vf_designated v = bk_designated b /\ vf_verifier v = me
    /\ (vf_verified v = true <-> y = poly_at coeffs (bk_seq b) mod qq E).
Proof.
  intros HE Hpk Hc Hs Hj Hd Hy. unfold verify_backup. rewrite Hd. cbn [rbind get_optional]. rewrite Hy. cbn [rbind]. rewrite Hpk.
  assert (Hyr : 0 <= y < qq E).
  { unfold coordinate_from_bytes in Hy. destruct (match parse_coordinate _ with Some h => Ok h | None => _ end) as [h|]; cbn [rbind] in Hy; [|discriminate].
    destruct (hex_to_int h) as [n|]; cbn [rbind] in Hy; [|discriminate]. unfold ElementModQ, in_bounds in Hy.
    destruct (Z.leb_spec 0 n), (Z.ltb_spec n (qq E)); cbn in Hy; try discriminate. inversion Hy; subst; lia. }
  pose proof (backup_iff E HE (bk_seq b) y coeffs Hs Hc Hj Hyr) as Hiff.
  rewrite (verify_iff E HE) in * by (try assumption; lia). cbn [rbind].
  eexists. split; [reflexivity|]. cbn [vf_owner vf_designated vf_verifier vf_verified]. do 3 (split; [reflexivity|]).
  rewrite <- Hiff. split; [intros ->; reflexivity|]. intros H; inversion H; congruence.
Qed.
(** an honest answer to a challenge checks out *)
Lemma challenge_answered E verifier b draws : valid_env E ->
  Forall (fun d => 0 <= fst d < qq E) draws -> 0 <= bk_seq b < qq E -> (forall j, 0 <= j < zlen draws -> bk_seq b ^ j < pp E) ->
  exists c, generate_challenge E b (generate_polynomial E draws) = Ok c
    /\ ch_commitments c = map (fun d => gexp E (fst d)) draws
    /\ ch_value c = poly_at (map fst draws) (bk_seq b) mod qq E
    /\ verify_challenge E verifier c = Ok (mkVerif (bk_owner b) (bk_designated b) verifier true).
Proof.
  intros HE Hd Hs Hj. unfold generate_challenge. pose proof (coordinate_value E HE) as Hv.
  rewrite Hv by (try assumption; lia). cbn [rbind].
  assert (Hm : map co_value (generate_polynomial E draws) = map fst draws) by (unfold generate_polynomial; rewrite map_map; reflexivity).
  assert (Hc : get_commitments (generate_polynomial E draws) = map (gexp E) (map fst draws)).
  { unfold get_commitments, generate_polynomial. rewrite !map_map. apply map_ext. intros a. cbn. unfold gexp, g_pow_p. apply pow_p_eq; assumption. }
  rewrite Hm, Hc. eexists. split; [reflexivity|]. cbn [ch_commitments ch_value]. split; [apply map_map|]. split; [reflexivity|].
  unfold verify_challenge. cbn [ch_value ch_seq ch_commitments ch_owner ch_designated].
  rewrite (honest_backup E HE); [reflexivity|assumption| |].
  - rewrite Forall_map. eapply Forall_impl; [|exact Hd]. cbn. lia.
  - unfold zlen in *. rewrite map_length. exact Hj.
Qed.

(** ** guardians *)
Lemma dset_idem {K V} `{EqB K} (k : K) (v : V) d : dget k d = Some v -> dset k v d = d.
Proof.
  induction d as [|[k0 v0] d IH]; cbn; [discriminate|]. eqb_cases k k0; [intros [= ->]; subst; reflexivity|]. intros Hd. rewrite IH by assumption. reflexivity.
Qed.
Lemma made_self E g : made_guardian E g -> dget (gd_id g) (gd_pubkeys g) = Some (share_key g).
Proof.
  intros [(id & seq & n & q & draws & H)|[(n & q & k & ->)|(r & n & q & ->)]].
  - unfold guardian_from_nonce in H. destruct (generate_election_key_pair _ _ _ _) as [kp|]; cbn [rbind] in H; [|discriminate].
    inversion H; subst. apply dget_dset_same.
  - apply dget_dset_same.
  - unfold guardian_from_private_record, new_guardian. apply (dget_dset_same (ek_owner (pr_keys r))).
Qed.
Lemma generate_keeps E rnd ks : forall g, let g' := fst (generate_backups_loop E rnd ks g) in
  gd_keys g' = gd_keys g /\ gd_details g' = gd_details g /\ gd_pubkeys g' = gd_pubkeys g /\ gd_backups g' = gd_backups g /\ gd_verifs g' = gd_verifs g.
Proof.
  induction ks as [|k ks IH]; intros g; cbn [generate_backups_loop]; [cbn; auto|].
  destruct (generate_backup _ _ _ _ _); [|cbn; auto]. destruct (IH (gd_with_to_share g (pk_owner k) a)) as (->&->&->&->&->). cbn. auto.
Qed.
Lemma run_self E h : forall g, dget (gd_id g) (gd_pubkeys g) = Some (share_key g) ->
  (forall k, In k (keys_saved h) -> pk_owner k <> gd_id g) ->
  let g' := guardian_run E g h in gd_id g' = gd_id g /\ share_key g' = share_key g /\ dget (gd_id g') (gd_pubkeys g') = Some (share_key g').
Proof.
  induction h as [|c h IH]; intros g Hg Hk; cbn zeta; [auto|]. unfold guardian_run. cbn [fold_left]. fold (guardian_run E (guardian_step E g c) h).
  assert (Hstep : gd_id (guardian_step E g c) = gd_id g /\ share_key (guardian_step E g c) = share_key g
    /\ dget (gd_id g) (gd_pubkeys (guardian_step E g c)) = Some (share_key g)).
  { destruct c as [k|b|v|rnd|n q]; cbn [guardian_step]; try (split; [reflexivity|split; [reflexivity|exact Hg]]).
    - split; [reflexivity|split; [reflexivity|]]. cbn [save_guardian_key gd_pubkeys]. rewrite dget_dset_other; [exact Hg|].
      intros Heq. apply (Hk k); [left; reflexivity|auto].
    - destruct (generate_keeps E rnd (dvals (gd_pubkeys g)) g) as (K1 & _ & K3 & _). unfold gd_generate_backups, gd_id, share_key.
      cbn zeta in K1, K3. rewrite K1, K3. auto. }
  destruct Hstep as (S1 & S2 & S3). destruct (IH (guardian_step E g c)) as (I1 & I2 & I3).
  - rewrite S1, S2. exact S3.
  - intros k Hin. rewrite S1. apply Hk. unfold keys_saved. cbn [flat_map]. apply in_app_iff. right. exact Hin.
  - rewrite I1, I2 in *. rewrite S1, S2 in *. auto.
Qed.
Lemma import_export E g h : made_guardian E g -> (forall k, In k (keys_saved h) -> pk_owner k <> gd_id g) ->
  let g' := guardian_run E g h in
  guardian_from_private_record (export_private_data g') (dt_number (gd_details g')) (dt_quorum (gd_details g')) = g'.
Proof.
  intros Hm Hk. destruct (run_self E h g (made_self E g Hm) Hk) as (_ & _ & H). cbn zeta in *.
  revert H. generalize (guardian_run E g h). clear. intros g H. unfold guardian_from_private_record, new_guardian, export_private_data, save_guardian_key.
  cbn [gd_keys gd_details gd_to_share gd_pubkeys gd_backups gd_verifs pr_keys pr_to_share pr_pubkeys pr_backups pr_verifs].
  change (pk_owner (share_keys (gd_keys g))) with (gd_id g). change (share_keys (gd_keys g)) with (share_key g).
  rewrite dset_idem by exact H. destruct g as [? [? ?] ? ? ? ?]. reflexivity.
Qed.
Lemma import_general g n q : let g' := guardian_from_private_record (export_private_data g) n q in
  gd_keys g' = gd_keys g /\ gd_to_share g' = gd_to_share g /\ gd_backups g' = gd_backups g /\ gd_verifs g' = gd_verifs g
  /\ gd_details g' = mkDetails n q
  /\ forall o, dget o (gd_pubkeys g') = if eqb o (gd_id g) then Some (share_key g) else dget o (gd_pubkeys g).
Proof. cbn zeta. do 5 (split; [reflexivity|]). intros o. apply (dget_dset o (gd_id g) (share_key g)). Qed.

(** what a guardian made by from_nonce holds after a history *)
Lemma guardian_held E id seq n q draws g h : guardian_from_nonce E id seq n q draws = Ok g ->
  let g' := guardian_run E g h in
  gd_pubkeys g' = fold_left (fun d k => dset (pk_owner k) k d) (share_key g :: keys_saved h) []
  /\ gd_verifs g' = fold_left (fun d v => dset (vf_designated v) v d) (verifications_saved h) [].
Proof.
  intros Hg. cbn zeta. assert (H0 : gd_pubkeys g = [(pk_owner (share_key g), share_key g)] /\ gd_verifs g = []).
  { unfold guardian_from_nonce in Hg. destruct (generate_election_key_pair _ _ _ _) as [kp|]; cbn [rbind] in Hg; [|discriminate].
    inversion Hg; subst. split; reflexivity. }
  destruct H0 as [P0 V0]. clear Hg. induction h as [|c h IH] using rev_ind; [cbn; auto|].
  unfold guardian_run in *. rewrite fold_left_app. cbn [fold_left]. destruct IH as [I1 I2]. revert I1 I2.
  generalize (fold_left (guardian_step E) h g). intros g1 I1 I2.
  unfold keys_saved, verifications_saved in *. rewrite !flat_map_app.
  change (share_key g :: flat_map ?f h ++ ?l) with ((share_key g :: flat_map f h) ++ l).
  destruct c as [k|b|v|rnd|n' q']; cbn [guardian_step flat_map]; rewrite ?app_nil_r; auto.
  - rewrite !fold_left_app. cbn [app fold_left]. cbn [save_guardian_key gd_pubkeys gd_verifs].
    cbn [fold_left] in I1. rewrite I1. auto.
  - rewrite fold_left_app. cbn [app fold_left gd_save_verification gd_pubkeys gd_verifs]. rewrite I2. auto.
  - destruct (generate_keeps E rnd (dvals (gd_pubkeys g1)) g1) as (_ & _ & K3 & _ & K5). cbn zeta in *. unfold gd_generate_backups.
    rewrite K3, K5. auto.
Qed.
Lemma fold_dset_held {V} (key : V -> string) (l : list V) :
  let d := fold_left (fun d v => dset (key v) v d) l [] in
  dkeys d = firsts (map key l) /\ map key (dvals d) = firsts (map key l)
  /\ forall o v, In (o, v) d -> key v = o /\ find (fun v => eqb (key v) o) (rev l) = Some v.
Proof.
  cbn zeta. assert (H1 : dkeys (fold_left (fun d v => dset (key v) v d) l []) = firsts (map key l)).
  { unfold firsts, set_of. change (@nil string) with (dkeys (@nil (string * V))). generalize (@nil (string * V)).
    induction l as [|v l IH]; intros d; [reflexivity|]. cbn [map fold_left]. rewrite IH. f_equal. rewrite dkeys_dset. reflexivity. }
  assert (H2 : forall o v, In (o, v) (fold_left (fun d v => dset (key v) v d) l []) -> key v = o /\ find (fun v => eqb (key v) o) (rev l) = Some v).
  { clear H1. induction l as [|a l IH] using rev_ind; [intros ? ? []|]. intros o v. rewrite fold_left_app. cbn [fold_left].
    rewrite rev_app_distr. cbn [rev app find]. intros Hin.
    assert (Hnd : NoDup (dkeys (fold_left (fun d v => dset (key v) v d) l []))).
    { clear. cut (forall d : dict string V, NoDup (dkeys d) -> NoDup (dkeys (fold_left (fun d v => dset (key v) v d) l d))); [intros H; apply H; constructor|].
      induction l as [|a l IH]; intros d Hd; [exact Hd|]. cbn [fold_left]. apply IH, dset_nodup, Hd. }
    assert (Hnd' : NoDup (dkeys (dset (key a) a (fold_left (fun d v => dset (key v) v d) l [])))) by (apply dset_nodup; exact Hnd).
    apply in_dget in Hin; [|exact Hnd']. rewrite dget_dset in Hin. eqb_cases o (key a).
    - inversion Hin; subst. rewrite eqb_refl'. auto.
    - rewrite eqb_sym'. apply eqb_neq in Heq. rewrite Heq. apply IH. apply dget_in. exact Hin. }
  split; [exact H1|]. split; [|exact H2]. rewrite <- H1. unfold dkeys, dvals. rewrite map_map. apply map_ext_in.
  intros [o v] Hin. cbn. apply (H2 o v Hin).
Qed.
Lemma guardian_joint_key E id seq n q draws g h jk : valid_env E -> guardian_from_nonce E id seq n q draws = Ok g ->
  gd_publish_joint_key E (guardian_run E g h) = Some jk ->
  let number := dt_number (gd_details (guardian_run E g h)) in
  exists ks, map pk_owner ks = firsts (map pk_owner (share_key g :: keys_saved h))
    /\ Forall (fun k => latest_key (pk_owner k) (share_key g :: keys_saved h) = Some k) ks
    /\ len ks = number /\ jk = prodZ (map pk_key ks) mod pp E
    /\ len (firsts (map vf_designated (verifications_saved h))) = number - 1
    /\ forall r, In r (map vf_designated (verifications_saved h)) ->
         exists v, latest_verification r (verifications_saved h) = Some v /\ vf_verified v = true.
Proof.
  intros HE Hg. destruct (guardian_held E id seq n q draws g h Hg) as [HP HV]. cbn zeta in *.
  unfold gd_publish_joint_key, all_guardian_keys_received, gd_all_verified.
  destruct (fold_dset_held pk_owner (share_key g :: keys_saved h)) as (K1 & K2 & K3). cbn zeta in *. rewrite <- HP in K1, K2, K3.
  destruct (fold_dset_held vf_designated (verifications_saved h)) as (V1 & V2 & V3). cbn zeta in *. rewrite <- HV in V1, V2, V3.
  destruct (len (gd_pubkeys _) =? _) eqn:H1; cbn [negb]; [|discriminate].
  destruct (len (gd_verifs _) =? _) eqn:H2; cbn [negb andb]; [|discriminate].
  destruct (forallb _ _) eqn:H3; cbn [negb]; [|discriminate]. intros Hjk; inversion Hjk; subst jk. clear Hjk.
  rewrite Z.eqb_eq in H1, H2. exists (dvals (gd_pubkeys (guardian_run E g h))).
  split; [exact K2|]. split.
  { apply Forall_forall. intros k Hin. unfold dvals in Hin. apply in_map_iff in Hin as [[o k'] [Heq Hin]]. cbn in Heq. subst k'.
    destruct (K3 o k Hin) as [<- Hf]. exact Hf. }
  split; [unfold dvals; rewrite len_map; exact H1|]. split; [unfold elgamal_combine_public_keys; apply mult_p_eq; assumption|].
  split; [rewrite <- V1; unfold dkeys; rewrite len_map; exact H2|].
  intros r Hr. assert (Hr' : In r (dkeys (gd_verifs (guardian_run E g h)))) by (rewrite V1; unfold firsts; apply set_of_in; exact Hr).
  apply in_map_iff in Hr' as [[o v] [Heq Hin]]. cbn in Heq. subst o. exists v. destruct (V3 r v Hin) as [_ Hf]. split; [exact Hf|].
  rewrite forallb_forall in H3. apply H3. unfold dvals. change v with (snd (r, v)). apply in_map. exact Hin.
Qed.

(** ** concrete ceremonies *)
Definition demo_seats : list seat := [mkSeat "alice" 1 [(7, 2); (5, 3)]; mkSeat "bob" 2 [(11, 4); (3, 1)]; mkSeat "carol" 3 [(2, 6); (12, 12)]].
Lemma demo_seats_good : good_seats medium 2 demo_seats.
Proof.
  constructor.
  - cbn. repeat constructor; cbn; intuition discriminate.
  - repeat constructor; discriminate.
  - lia.
  - repeat constructor; cbn; lia.
  - unfold demo_seats. assert (H : forall x, 1 <= x <= 3 -> 0 <= x < qq medium /\ forall j, 0 <= j < Z.of_nat 2 -> x ^ j < pp medium).
    { intros x Hx. cbn [qq pp medium]. split; [lia|]. intros j Hj. assert (j = 0 \/ j = 1) as [->| ->] by lia; [rewrite Z.pow_0_r|rewrite Z.pow_1_r]; lia. }
    constructor; [apply H; cbn; lia|]. constructor; [apply H; cbn; lia|]. constructor; [apply H; cbn; lia|]. constructor.
Qed.

Definition demo_pk (o : string) (s : Z) (secret : Z) : public_key := mkPk o s (gexp tiny secret) [gexp tiny secret] [].
Definition demo_bk (o r : string) : backup := mkBackup o r 1 (mkHct 0 "" "").
Definition demo_announce : list ceremony_call := [Announce (demo_pk "alice" 1 3); Announce (demo_pk "bob" 2 4)].
Definition demo_good : list ceremony_call := demo_announce ++
  [SendBackups [demo_bk "alice" "bob"; demo_bk "bob" "alice"];
   SendVerifications [mkVerif "alice" "bob" "bob" true; mkVerif "bob" "alice" "alice" true]].
Lemma demo_good_publishes : exists jk, md_publish_joint_key tiny (ceremony_run tiny (new_mediator "m" (mkDetails 2 1)) demo_good) = Some jk
  /\ jk_key jk = gexp tiny 7.
Proof. eexists. split; vm_compute; reflexivity. Qed.

Lemma strangers_counted : exists E id d h jk o r, valid_env E
  /\ md_publish_joint_key E (ceremony_run E (new_mediator id d) h) = Some jk
  /\ In o (map pk_owner (keys_sent h)) /\ In r (map pk_owner (keys_sent h)) /\ o <> r
  /\ ~ backup_sent h o r /\ ~ reported_good E id h o r.
Proof.
  exists tiny, "m"%string, (mkDetails 2 1), (demo_announce ++ [SendBackups [demo_bk "x" "y"; demo_bk "y" "x"];
    SendVerifications [mkVerif "x" "y" "y" true; mkVerif "y" "x" "x" true]]). eexists. exists "alice"%string, "bob"%string.
  split; [exact tiny_valid|]. split; [vm_compute; reflexivity|]. split; [cbn; auto|]. split; [cbn; auto|]. split; [discriminate|]. split.
  - intros (b & Hin & Ho & _). cbn in Hin. destruct Hin as [<-|[<-|[]]]; discriminate Ho.
  - intros [(v & Hin & Ho & _)|(c & [] & _)]. cbn in Hin. destruct Hin as [<-|[<-|[]]]; discriminate Ho.
Qed.
Lemma key_replaced : exists E id d h k jk jk', valid_env E
  /\ md_publish_joint_key E (ceremony_run E (new_mediator id d) h) = Some jk
  /\ md_publish_joint_key E (ceremony_run E (new_mediator id d) (h ++ [Announce k])) = Some jk'
  /\ jk_key jk <> jk_key jk'.
Proof.
  exists tiny, "m"%string, (mkDetails 2 1), demo_good, (demo_pk "alice" 1 9). do 2 eexists.
  split; [exact tiny_valid|]. split; [vm_compute; reflexivity|]. split; [vm_compute; reflexivity|]. vm_compute. discriminate.
Qed.
(** a failed check is overruled by a challenge whose commitments are not those announced *)
Definition demo_failed : list ceremony_call := demo_announce ++
  [SendBackups [demo_bk "alice" "bob"; demo_bk "bob" "alice"];
   SendVerifications [mkVerif "alice" "bob" "bob" false; mkVerif "bob" "alice" "alice" true]].
Definition demo_challenge : challenge := mkChal "alice" "bob" 2 5 [gexp tiny 5] [].
Lemma challenge_overrules : exists E id d h c jk k, valid_env E
  /\ vs_failed (get_verification_state (ceremony_run E (new_mediator id d) h)) = [(ch_owner c, ch_designated c)]
  /\ md_publish_joint_key E (ceremony_run E (new_mediator id d) (h ++ [SendChallenge c])) = Some jk
  /\ latest_key (ch_owner c) (keys_sent h) = Some k /\ pk_commitments k <> ch_commitments c.
Proof.
  exists tiny, "m"%string, (mkDetails 2 1), demo_failed, demo_challenge. eexists. exists (demo_pk "alice" 1 3).
  split; [exact tiny_valid|]. split; [vm_compute; reflexivity|]. split; [vm_compute; reflexivity|]. split; [reflexivity|]. vm_compute. discriminate.
Qed.
(** backups are handed out before all of them have arrived, or not at all *)
Lemma shared_too_early : exists E id d h m, m = ceremony_run E (new_mediator id d) h /\ all_backups_available m = false
  /\ (exists bs, share_backups m (Some "bob"%string) = Ok (Some bs) /\ bs <> []) /\ share_backups m (Some "alice"%string) = Err KeyError.
Proof.
  exists tiny, "m"%string, (mkDetails 2 1), (demo_announce ++ [SendBackups [demo_bk "alice" "bob"]]). eexists.
  split; [reflexivity|]. split; [vm_compute; reflexivity|]. split; [eexists; split; [vm_compute; reflexivity|discriminate]|]. vm_compute. reflexivity.
Qed.
Lemma own_key_lost : exists E g k n q, made_guardian E g
  /\ guardian_from_private_record (export_private_data (guardian_run E g [SaveKey k])) n q <> guardian_run E g [SaveKey k]
  /\ gd_details (guardian_run E g [SaveKey k]) = mkDetails n q.
Proof.
  destruct (guardian_from_nonce tiny "alice" 1 2 1 [(3, 4)]) as [g|] eqn:Hg; [|vm_compute in Hg; discriminate].
  exists tiny, g, (demo_pk "alice" 1 9), 2, 1. split; [left; exists "alice"%string, 1, 2, 1, [(3, 4)]; exact Hg|].
  vm_compute in Hg. inversion Hg; subst. split; [|reflexivity]. vm_compute. discriminate.
Qed.
