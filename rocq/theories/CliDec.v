(** * CliDec: the decryption step of the command line. *)
From Coq Require Import Permutation List.
From Verif Require Import Base Group Codec Hash DLog ElGamal ZK Poly Manifest Ballot Encrypt Box Tally Spec SpecElection SpecTally
  ListFacts GroupFacts ZKFacts CryptoThms ManifestThms EncryptFacts BallotFacts EncryptThms TallyFacts TallyThms TallyMore BoxFacts
  Ceremony SpecCeremony Shares SpecShares SharesFacts ShareRun SharesThms SharesMore Verify SpecVerify VerifyFacts SpecEndToEnd EndToEnd
  GuiDecrypt GuiElection Report SpecReport ReportFacts ReportLink Cli SpecCli.
Local Open Scope Z_scope.

Lemma rfold_ext {A B} (f g : A -> B -> res A) : forall l a, (forall x a, In x l -> f a x = g a x) -> rfold f l a = rfold g l a.
Proof.
  induction l as [|x l IH]; intros a H; [reflexivity|]. cbn [rfold]. rewrite (H x a (or_introl eq_refl)). destruct (g a x) as [a'|]; cbn [rbind]; [|reflexivity].
  apply IH. intros y b Hy. apply H. right. exact Hy.
Qed.
Lemma valid_rewrap {A} (d : dict string (option A)) : NoDup (dkeys d) -> (forall k o, In (k, o) d -> o <> None) -> map (fun kv => (fst kv, Some (snd kv))) (valid_ballot_shares d) = d.
Proof.
  intros Hn Hs. assert (H : exists l, d = map (fun kv : string * A => (fst kv, Some (snd kv))) l).
  { clear Hn. induction d as [|[k [a|]] d IH]; [exists []; reflexivity| |exfalso; apply (Hs k None); [left; reflexivity|reflexivity]].
    destruct IH as [l Hl]; [intros k' o Ho; apply (Hs k' o); right; exact Ho|]. exists ((k, a) :: l). cbn [map fst snd]. rewrite <- Hl. reflexivity. }
  destruct H as [l ->]. unfold dkeys in Hn. rewrite map_map in Hn. cbn [fst] in Hn. change (map (fun x : string * A => fst x) l) with (map fst l) in Hn. rewrite valid_ballot_shares_all by exact Hn. reflexivity.
Qed.

(** the coefficients of the guardians of [av], from their keys *)
Lemma coefficients_of E (HE : valid_env E) av kl L : Forall2 (key_of E) av kl -> NoDup (map st_id av) -> NoDup (map (fun s => st_seq s mod qq E) av) -> lagrange_all E kl = Ok L ->
  good_coefficients E (map (fun s => (st_id s, st_seq s)) av) L.
Proof.
  intros HF Hn Hs HL. unfold lagrange_all in HL. destruct (rmapM _ kl) as [l|] eqn:Hl; cbn [rbind] in HL; [|discriminate]. injection HL as <-. apply rmapM_iff in Hl.
  assert (Hown : map pk_owner kl = map st_id av) by (clear -HF; induction HF as [|s kk a b (H & _) _ IH]; [reflexivity|]; cbn [map]; rewrite H, IH; reflexivity).
  assert (Hkeys : map fst l = map st_id av).
  { rewrite <- Hown. clear -Hl. induction Hl as [|kk y kl' l H _ IH]; [reflexivity|]. cbn [map]. destruct (lagrange_for E kk kl); cbn [rbind] in H; [|discriminate]. injection H as <-. rewrite IH. reflexivity. }
  unfold good_coefficients. rewrite !map_map. cbn [fst snd]. rewrite dict_of_distinct by (rewrite Hkeys; exact Hn). unfold dkeys. rewrite Hkeys. split; [exact Hn|]. split; [intros i; reflexivity|].
  intros i x Hi. apply in_map_iff in Hi as (s & Hx & Hi). injection Hx as <- <-. destruct (Forall2_in_l _ _ _ s HF Hi) as (kk & K0 & K1 & K2 & _).
  destruct (Forall2_in_l _ _ _ kk Hl K0) as (y & Y1 & Y2). destruct (lagrange_for E kk kl) as [w|] eqn:Hw; cbn [rbind] in Y2; [|discriminate]. injection Y2 as <-.
  exists w. rewrite <- K1. split; [apply in_dget; [unfold dkeys; rewrite Hkeys; exact Hn|exact Y1]|]. unfold lagrange_for in Hw.
  assert (Hf : forall a b, Forall2 (key_of E) a b -> incl a av -> map pk_seq (filter (fun o => negb (eqb (pk_owner o) (pk_owner kk))) b) = filter (fun z => negb (z =? st_seq s)) (map st_seq a)).
  { induction 1 as [|s' o a b (A1 & A2 & _) _ IH]; intros Hin; [reflexivity|]. cbn [filter map]. rewrite <- IH by (intros z Hz; apply Hin; right; exact Hz). rewrite A1, K1.
    replace (eqb (st_id s') (st_id s)) with (st_seq s' =? st_seq s); [destruct (st_seq s' =? st_seq s); cbn [negb map]; [reflexivity|rewrite A2; reflexivity]|].
    apply Bool.eq_true_iff_eq. rewrite Z.eqb_eq. change (eqb (st_id s') (st_id s) = true) with (String.eqb (st_id s') (st_id s) = true). rewrite String.eqb_eq.
    assert (Hs' : In s' av) by (apply Hin; left; reflexivity). split; intros Heq.
    - f_equal. apply (NoDup_inj (fun s => st_seq s mod qq E) av); auto. cbv beta. rewrite Heq. reflexivity.
    - f_equal. apply (NoDup_inj st_id av); auto. }
  rewrite (Hf av kl HF (fun _ H => H)), K2 in Hw. destruct (PolyFacts.lagrange_coefficient_spec E HE (st_seq s) (filter (fun z => negb (z =? st_seq s)) (map st_seq av))) as (w' & W1 & W2 & W3).
  { intros z Hz. apply filter_In in Hz as [Hz Hne]. apply in_map_iff in Hz as (s' & <- & Hs'). intros He.
    assert (s' = s) by (apply (NoDup_inj (fun s => st_seq s mod qq E) av); auto). subst s'. rewrite Z.eqb_refl in Hne. discriminate. }
  rewrite Hw in W1. injection W1 as <-. split; [exact W2|exact W3].
Qed.

Section Dec.
  Context (E : env) (HE : valid_env E) (k : nat) (ss : list seat) (Hseats : good_seats E k ss) (Hne : ss <> []) (Hkn : (k <= length ss)%nat).
  Context (Hseqs : NoDup (map (fun s => st_seq s mod qq E) ss)).
  Context (cx : context) (HQ : 0 <= cx_ext_hash cx < qq E) (Hgn : cx_guardians cx = len ss) (Hcq : cx_quorum cx <= len ss).
  Context (t : tally) (bs : list sub_ballot) (mf : manifest) (M : string -> string -> Z) (MB : string -> string -> string -> Z).
  Context (Hmf : NoDup (map cd_id (mf_contests mf))) (Htd : tally_distinct t) (Hte : encrypts_all E (gexp E (sumZ (map st_secret ss))) (tally_options t) M).
  Context (Hbn : NoDup (map sb_id bs)).
  Context (Hbs : forall b, In b bs -> ballot_distinct (sb_ballot b) /\ encrypts_all E (gexp E (sumZ (map st_secret ss))) (ballot_options (sb_ballot b)) (MB (sb_id b))).
  Context (up : list nat -> bool) (Hup : forall path, up path = true) (rnd : list nat -> Z).
  Context (av : list seat) (gs : list guardian) (Hav : Permutation av ss) (Hhold : Forall2 (holder E) av gs).
  Lemma seats_in s : In s av -> In s ss.
  Proof. apply (Permutation_in s Hav). Qed.
  Lemma items_good b : In b bs -> item_good E (map ballot_cc (cb_contests (sb_ballot b))).
  Proof.
    intros Hbb. destruct (Hbs b Hbb) as [Hb1 Hb2]. apply (item_good_of E HE _ _ (MB (sb_id b)) (joint_subgroup E HE k ss Hseats)); [|rewrite ballot_cc_options; assumption].
    rewrite ballot_cc_options, map_map. exact Hb1.
  Qed.
  Lemma cli_same x md : In x (number gs) -> cli_announce E up rnd t bs cx md x = announce_one E up rnd t bs cx md x.
  Proof.
    destruct x as [i g]. intros Hx. unfold cli_announce, announce_one. destruct (gd_tally_share _ _ _ _ _ _) as [sh|]; [|reflexivity]. cbn [get_optional rbind]. f_equal. f_equal. f_equal.
    symmetry. apply valid_rewrap; [apply dict_of_nodup|]. intros a o Ho. unfold gd_ballot_shares in Ho. apply dict_of_in, in_map_iff in Ho as ([j b] & Hj & Hjb). cbn [fst snd] in Hj. injection Hj as <- <-.
    assert (Hb : In b bs) by (rewrite <- (number_snd bs); apply (in_map snd _ (j, b)), Hjb). assert (Hg : In g gs) by (rewrite <- (number_snd gs); apply (in_map snd _ (i, g)), Hx).
    destruct (Forall2_in_r _ _ _ _ Hhold Hg) as (s & Hs & Hsg). assert (Hkg := secret_good E k ss (seats_hss E k ss Hseats) s g Hsg (seats_in s Hs)).
    unfold compute_decryption_share_for_ballot. match goal with |- share_of E ?u ?r ?kp ?Q ?id ?cs <> None => destruct (share_up E HE cx HQ u r kp id cs (fun c => Hup _) Hkg (items_good b Hb)) as (sh' & -> & _) end. discriminate.
  Qed.
  Lemma same_setup mid md : decryption_setup E up rnd gs (new_dmediator mid cx) cx t bs = Ok md -> rfold (cli_announce E up rnd t bs cx) (number gs) (new_dmediator mid cx) = Ok md.
  Proof.
    unfold decryption_setup, announcement. intros H. rewrite (rfold_ext _ (announce_one E up rnd t bs cx)); [|intros x a; apply cli_same]. destruct (rfold _ _ _) as [m1|]; cbn [rbind] in H; [|discriminate].
    assert (Hf : filter (fun k0 => negb (inb (pk_owner k0) (map gd_id gs))) (map share_key gs) = []).
    { assert (G : forall l, incl l gs -> filter (fun k0 => negb (inb (pk_owner k0) (map gd_id gs))) (map share_key l) = []); [|apply G, incl_refl].
      induction l as [|g l IH]; intros Hl; [reflexivity|]. cbn [map filter]. assert (Hi : inb (pk_owner (share_key g)) (map gd_id gs) = true) by (apply inb_spec; apply (in_map gd_id), Hl; left; reflexivity).
      rewrite Hi. cbn [negb]. apply IH. intros x Hx. apply Hl. right. exact Hx. }
    rewrite Hf in H. exact H.
  Qed.
  Lemma lagrange_works mid md : decryption_setup E up rnd gs (new_dmediator mid cx) cx t bs = Ok md -> exists L, lagrange_all E (dvals (dm_available md)) = Ok L /\ good_coefficients E (map (fun s => (st_id s, st_seq s)) av) L.
  Proof.
    intros Hmd. assert (HK := joint_subgroup E HE k ss Hseats).
    assert (Hss : forall s, In s av -> 0 <= st_secret s < qq E /\ Forall (fun a => 0 <= a < qq E) (st_secrets s) /\ (length (st_secrets s) <= k)%nat /\ poly_at (st_secrets s) 0 = st_secret s).
    { intros s Hs. apply (seats_hss E k ss Hseats), seats_in, Hs. }
    assert (Havi : NoDup (map st_id av)) by (apply (Permutation_NoDup (Permutation_map st_id (Permutation_sym Hav))); apply Hseats).
    assert (Ht : item_good E (map tally_cc (dvals (ty_contests t)))).
    { apply (item_good_of E HE _ _ M HK); [|rewrite tally_cc_options; assumption]. rewrite tally_cc_options, map_map. exact Htd. }
    assert (Hne' : av <> []) by (intros He; rewrite He in Hav; apply Permutation_nil in Hav; contradiction).
    assert (Hkeys : Forall2 (key_of E) av (map share_key gs)) by (apply Forall2_map_r; revert Hhold; apply F2_impl; intros s g [H _]; exact H).
    destruct (announcement_ok E HE k av Hss Havi cx HQ t Ht bs items_good Hbn up Hup rnd av (fun _ H => H) Havi Hne' gs Hhold _ Hkeys mid) as (m & Hm & Hset & _ & _).
    unfold decryption_setup in Hmd. rewrite Hmd in Hm. injection Hm as <-.
    destruct (lagrange_ok E HE k av Hss cx t bs av Havi) with (m := md) as (L & HL & _).
    - apply (Permutation_NoDup (Permutation_map (fun s => st_seq s mod qq E) (Permutation_sym Hav))), Hseqs.
    - rewrite (Permutation_length Hav). exact Hkn.
    - exact Hset.
    - destruct av as [|s l]; [congruence|]. exists s. left. reflexivity.
    - exists L. split; [exact HL|]. apply (coefficients_of E HE av (dvals (dm_available md))); [|exact Havi| |exact HL].
      + destruct Hset as [_ Ha _ _ _]. unfold dvals. apply Forall2_map_r. revert Ha. apply F2_impl. intros s kv [_ H]. exact H.
      + apply (Permutation_NoDup (Permutation_map (fun s => st_seq s mod qq E) (Permutation_sym Hav))), Hseqs.
  Qed.
  Lemma cli_decrypts ch : ch_up ch = up -> ch_share ch = rnd -> exists r, cli_decrypt E ch t bs gs cx mf = Ok r /\ rs_ciphertext r = t /\
    (pt_id (rs_tally r) = ty_id t /\ shows (rs_tally r) mf (tally_options t) M /\ con_form mf (pt_contests (rs_tally r))) /\
    dkeys (rs_spoiled r) = map sb_id bs /\ (forall b, In b bs -> exists p, dget (sb_id b) (rs_spoiled r) = Some p /\ pt_id p = sb_id b /\ shows p mf (ballot_options (sb_ballot b)) (MB (sb_id b))) /\
    (forall i p, In (i, p) (rs_spoiled r) -> pt_id p = i /\ con_form mf (pt_contests p)) /\
    (forall keys, has_keys keys gs -> verify_decryption E (rs_tally r) keys cx = Ok verified /\ forall i p, In (i, p) (rs_spoiled r) -> verify_decryption E p keys cx = Ok verified) /\
    good_coefficients E (map (fun s => (st_id s, st_seq s)) av) (rs_lagrange r).
  Proof.
    intros Hcu Hcr. destruct (all_decrypt E k ss cx t bs up rnd av gs "decryption-mediator" mf M MB HE Hseats Hne HQ Hgn Hcq Hup Hav Hhold Hmf Htd Hte Hbn Hbs) as (md & S & ((p & P1 & P2 & P3) & (ps & S1 & S2 & S3)) & _).
    destruct (lagrange_works _ md S) as (L & HL & HC). unfold cli_decrypt. rewrite Hcu, Hcr, (same_setup _ md S). cbn [rbind]. rewrite HL. cbn [rbind]. rewrite P1. cbn [rbind get_optional]. rewrite S1. cbn [rbind get_optional].
    eexists. split; [reflexivity|]. cbn [rs_ciphertext rs_tally rs_spoiled rs_lagrange]. split; [reflexivity|].
    assert (Hcf : con_form mf (pt_contests p)).
    { unfold dm_plaintext_tally in P1. destruct (_ || _); [discriminate|]. apply (shares_form E HE) in P1. apply P1. }
    split; [auto|]. split; [exact S2|]. split; [exact S3|]. split.
    - unfold dm_plaintext_ballots in S1. destruct (negb _); [discriminate|]. destruct (plaintext_ballots_loop _ _ _ _ _) as [d|] eqn:Hl; cbn [rbind] in S1; [|discriminate]. injection S1 as ->.
      apply (loop_form E HE) in Hl as [L1 _]; [exact L1|intros i q []|constructor].
    - split; [|exact HC]. intros keys Hk. split; [apply (setup_verifies E up rnd gs _ cx t bs md mf p keys HE S P1 Hk)|]. intros i q Hq. apply (setup_verifies_ballots E up rnd gs _ cx t bs md mf ps i q keys HE S S1 Hq Hk).
  Qed.
End Dec.
