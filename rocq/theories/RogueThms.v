(** * RogueThms: one guardian chooses the joint key. *)
From Verif Require Import Base Group Spec Tiny GroupFacts Codec Hash DLog ElGamal ZK Poly CodecFacts HashFacts ElGamalFacts PolyFacts
  CryptoThms ListFacts Manifest Ballot Encrypt SpecElection EncryptFacts EncryptThms GroupThms Ceremony SpecCeremony SpecRogue MediatorFacts CeremonyFacts CeremonyThms SharesMore RogueFacts.
Import List.

Lemma sumZ_app l l' : sumZ (l ++ l') = sumZ l + sumZ l'.
Proof. induction l as [|x l IH]; [reflexivity|]. cbn [app sumZ fold_right] in *. fold (sumZ (l ++ l')). fold (sumZ l). lia. Qed.

Lemma cancelling_ok E (HE : valid_env E) a l : 0 <= a -> Forall (fun x => 0 <= x) l ->
  cancelling E a (map (gexp E) l) = Ok (gexp E ((a - sumZ l) mod qq E)).
Proof.
  intros Ha Hl. pose proof (q_gt_1 E HE) as Q. pose proof (p_gt_1 E HE) as P. pose proof (ve_gq E HE) as G. unfold cancelling.
  rewrite (mult_p_eq E HE), (gexp_product E HE) by assumption. assert (Hs := sumZ_nonneg l Hl).
  rewrite (gexp_G1 E HE) by assumption. rewrite (mult_inv_p_resid E HE) by (unfold G1, GX; apply xp_resid; assumption). cbn [rbind].
  rewrite (mult_p_2 E HE), (g_pow_p_xp E HE) by assumption. unfold G1, GX. rewrite xp_xp, xp_add by assumption.
  rewrite (gexp_G1 E HE) by (apply Z.mod_pos_bound; lia). unfold G1, GX. f_equal. apply xp_congr. rewrite Z.mod_mod by lia. f_equal. lia.
Qed.

Section Attack.
  Context (E : env) (HE : valid_env E) (Hm : hmac_32 E) (Hq : qq E <= 2 ^ 1024) (rnd : string -> string -> Z) (Hr : forall a b, 0 <= rnd a b).
  Context (k : nat) (ss : list seat) (evil : seat) (Hg : good_seats E k (ss ++ [evil])) (a : Z) (Ha : 0 <= a < qq E).
  Definition wanted : Z := (a - sumZ (map st_secret ss)) mod qq E.
  Definition lg (s : seat) : Z := if eqb (st_id s) (st_id evil) then wanted else st_secret s mod qq E.
  Lemma lg_range s : 0 <= lg s < qq E.
  Proof. pose proof (q_gt_1 E HE). unfold lg, wanted. destruct (eqb _ _); apply Z.mod_pos_bound; lia. Qed.
  Lemma lg_honest s : In s ss -> lg s = st_secret s.
  Proof.
    intros Hs. pose proof (gs_ids _ _ _ Hg) as N. pose proof (seat_ok_of E k _ Hg s (in_or_app _ _ _ (or_introl Hs))) as Ok_s.
    unfold lg. eqb_cases (st_id s) (st_id evil); [|apply Z.mod_small, (st_secret_range E k), Ok_s].
    exfalso. rewrite map_app in N. apply NoDup_remove_2 in N. apply N. rewrite app_nil_r, <- Heq. apply in_map. exact Hs.
  Qed.
  Lemma lg_evil : lg evil = wanted. Proof. unfold lg. rewrite eqb_refl'. reflexivity. Qed.
  Let d := mkDetails (len (ss ++ [evil])) (Z.of_nat k).
  Lemma honest_same s : In s ss -> CeremonyFacts.g0 E d s = g0 E lg d s.
  Proof. intros Hs. unfold CeremonyFacts.g0, g0, CeremonyFacts.key_entry, key_entry, CeremonyFacts.pk_of, pk_of, CeremonyFacts.keys_of, keys_of. rewrite (lg_honest s Hs). reflexivity. Qed.
  Lemma sum_lg : gexp E (sumZ (map lg (ss ++ [evil]))) = gexp E a.
  Proof.
    pose proof (q_gt_1 E HE) as Q. assert (N : Forall (fun x => 0 <= x) (map lg (ss ++ [evil]))).
    { apply Forall_forall. intros x Hx. apply in_map_iff in Hx as [s [<- _]]. apply lg_range. }
    rewrite (gexp_G1 E HE) by (apply sumZ_nonneg, N). rewrite (gexp_G1 E HE) by lia. apply xp_congr.
    rewrite map_app, sumZ_app. cbn [map sumZ fold_right]. rewrite lg_evil, (map_ext_in lg st_secret ss lg_honest). unfold wanted.
    rewrite Z.add_0_r, Zplus_mod_idemp_r. f_equal. lia.
  Qed.
End Attack.

Lemma rogue_joint_key E rnd k ss evil mid a : valid_env E -> hmac_32 E -> qq E <= 2 ^ 1024 -> good_seats E k (ss ++ [evil]) ->
  (forall a b, 0 <= rnd a b) -> 0 <= a < qq E -> let n := len (ss ++ [evil]) in
  exists gs g K gs' m,
    rmapM (fun s => guardian_from_nonce E (st_id s) (st_seq s) n (Z.of_nat k) (st_draws s)) ss = Ok gs
    /\ guardian_from_nonce E (st_id evil) (st_seq evil) n (Z.of_nat k) (st_draws evil) = Ok g
    /\ cancelling E a (map (fun g => pk_key (share_key g)) gs) = Ok K
    /\ (do r1 <- round_1 (gs ++ [publishing K g]) (new_mediator mid (mkDetails n (Z.of_nat k))); round_2 E rnd (fst r1) (snd r1)) = Ok (gs', m)
    /\ map gd_id gs' = map st_id (ss ++ [evil])
    /\ (forall i o, In i gs' -> In o gs' -> gd_id i <> st_id evil -> gd_id o <> gd_id i -> gd_verify_backup E i (gd_id o) = Ok (mkVerif (gd_id o) (gd_id i) (gd_id i) true))
    /\ exists j, md_publish_joint_key E (receive_verifications m (all_approve (map gd_id gs'))) = Some j /\ jk_key j = gexp E a
       /\ forall v r, 0 <= v < qq E -> v <= dmax E -> 0 < r -> exists c, elgamal_encrypt E v r (jk_key j) = Ok (Some c) /\ elgamal_decrypt E c a = Ok v.
Proof.
  intros HE Hm Hq Hg Hr Ha n. pose proof (seat_ok_of E k _ Hg) as Hok. pose proof (gs_ids _ _ _ Hg) as N.
  set (d := mkDetails n (Z.of_nat k)). set (all := ss ++ [evil]) in *. set (L := lg E ss evil a).
  assert (HL : forall s, 0 <= L s < qq E) by (intros s; apply lg_range, HE).
  assert (Hid : map gd_id (map (g3 E L rnd all d) all) = map st_id all) by (rewrite map_map; reflexivity).
  assert (Hss : forall s, In s ss -> L s = st_secret s) by (intros s Hs; exact (lg_honest E k ss evil Hg a s Hs)).
  exists (map (CeremonyFacts.g0 E d) ss), (CeremonyFacts.g0 E d evil), (gexp E (wanted E ss a)), (map (g3 E L rnd all d) all), (m2 E L rnd all d mid all).
  split.
  { apply rmapM_total. intros s Hs. unfold guardian_from_nonce. rewrite (generate_keys E k) by (apply Hok, in_or_app; left; exact Hs). reflexivity. }
  split; [unfold guardian_from_nonce; rewrite (generate_keys E k) by (apply Hok, in_or_app; right; left; reflexivity); reflexivity|].
  split.
  { rewrite map_map. rewrite (map_ext _ (fun s => gexp E (st_secret s))) by (intros s; exact (CeremonyFacts.pk_of_key E HE s)).
    rewrite <- (map_map st_secret (gexp E)). apply cancelling_ok; [exact HE|lia|]. apply Forall_forall. intros x Hx. apply in_map_iff in Hx as [s [<- Hs]].
    pose proof (st_secret_range E k s (Hok s (in_or_app _ _ _ (or_introl Hs)))). lia. }
  split.
  { replace (map (CeremonyFacts.g0 E d) ss ++ [publishing (gexp E (wanted E ss a)) (CeremonyFacts.g0 E d evil)]) with (map (g0 E L d) all).
    - rewrite (round_1_ok E L all N d eq_refl mid). cbn [rbind fst snd]. apply (round_2_ok E HE Hm Hq L HL rnd Hr k all Hok N d eq_refl mid).
    - unfold all. rewrite map_app. f_equal; [apply map_ext_in; intros s Hs; symmetry; apply (honest_same E k ss evil Hg a s Hs)|].
      cbn [map]. f_equal. unfold publishing, g0, key_entry, pk_of, keys_of, new_guardian, save_guardian_key. unfold L. rewrite lg_evil.
      assert (HW : 0 <= wanted E ss a < qq E) by (apply Z.mod_pos_bound; pose proof (q_gt_1 E HE); lia).
      unfold g_pow_p. rewrite (pow_p_eq E HE) by lia. reflexivity. }
  split; [exact Hid|].
  split.
  { intros i o Hi Ho He Hne. apply in_map_iff in Hi as [si [<- Hsi]]. apply in_map_iff in Ho as [so [<- Hso]].
    change (gd_id (g3 E L rnd all d si)) with (st_id si) in *. change (gd_id (g3 E L rnd all d so)) with (st_id so) in *.
    apply (verify_one E HE Hm Hq L HL rnd Hr k all Hok N d si so); [exact Hsi| |apply others_in; auto].
    apply Hss. apply in_app_or in Hsi as [H|[<-|[]]]; [exact H|congruence]. }
  eexists. rewrite Hid, (receive_all E L rnd all N d eq_refl mid).
  split; [apply (published E HE L HL rnd all N d eq_refl mid)|]. cbn [jk_key]. rewrite (sum_lg E HE k ss evil Hg a Ha : gexp E (sumZ (map L all)) = gexp E a). split; [reflexivity|].
  intros v r Hv Hd Hrr. destruct (encrypt_ok E HE v r (gexp E a) (gexp_subgroup E HE a ltac:(lia)) Hrr ltac:(lia)) as (c & Hc & He).
  exists c. split; [exact Hc|]. apply (decrypt_three_ways E HE a r v c); try assumption; lia.
Qed.

Lemma proofs_tell E id seq n q draws g K : guardian_from_nonce E id seq n q draws = Ok g ->
  exists p, hd_error (pk_proofs (share_key g)) = Some p /\ s_key p = pk_key (share_key g)
    /\ hd_error (pk_proofs (share_key (publishing K g))) = Some p /\ pk_key (share_key (publishing K g)) = K
    /\ (K <> pk_key (share_key g) -> s_key p <> pk_key (share_key (publishing K g))).
Proof.
  unfold guardian_from_nonce, generate_election_key_pair. destruct draws as [|d ds]; cbn [generate_polynomial map rbind]; [discriminate|].
  intros H. injection H as <-. eexists. cbn. split; [reflexivity|]. repeat split; auto.
Qed.
