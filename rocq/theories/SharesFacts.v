(** * Lemmas about decryption shares: honest shares, combining them, and reconstructing missing ones. *)
From Verif Require Import Base Group GroupFacts Codec Hash DLog ElGamal ElGamalFacts ZK ZKFacts Poly PolyFacts CryptoThms Spec
  Manifest Ballot Box Tally Ceremony Shares ListFacts CeremonyFacts.
From Coq Require Import Znumtheory List.

Lemma map_snd_combine {A B} (l : list B) : forall (i : list A), length i = length l -> map snd (combine i l) = l.
Proof. induction l as [|b l IH]; intros [|a i] H; cbn in *; try discriminate; [reflexivity|]. f_equal. apply IH. lia. Qed.
Lemma number_snd {A} (l : list A) : map snd (number l) = l.
Proof. unfold number. apply map_snd_combine. apply seq_length. Qed.
Lemma schedule_total {A B} (f : A -> B) l : schedule true (fun a => Ok (f a)) l = map f l.
Proof. unfold schedule. rewrite (rmapM_total _ f) by reflexivity. reflexivity. Qed.
Lemma collect_all {A} (key : A -> string) l : forall d, NoDup (map key l) -> (forall k, In k (map key l) -> ~ In k (dkeys d)) ->
  collect key (map Some l) d = Some (d ++ map (fun a => (key a, a)) l).
Proof.
  induction l as [|a l IH]; intros d Hn Hd; cbn [map collect]; [rewrite app_nil_r; reflexivity|].
  inversion Hn as [|? ? Ha Hl]; subst. rewrite dset_new by (apply Hd; left; reflexivity).
  rewrite IH; [rewrite <- app_assoc; reflexivity|assumption|].
  intros k Hk. unfold dkeys. rewrite map_app, in_app_iff. cbn. intros [H|[H|[]]]; [apply (Hd k (or_intror Hk) H)|].
  subst k. contradiction.
Qed.
Lemma F2_of_map {A B} (R : A -> B -> Prop) (f : A -> B) l : (forall x, In x l -> R x (f x)) -> Forall2 R l (map f l).
Proof. induction l as [|x l IH]; intros H; cbn; constructor; [apply H; left; reflexivity|apply IH; intros; apply H; right; assumption]. Qed.
Lemma NoDup_app_l {A} (a b : list A) : NoDup (a ++ b) -> NoDup a.
Proof. induction a as [|x a IH]; intros H; [constructor|]. inversion H; subst. constructor; [intros Hx; apply H2; apply in_app_iff; left; assumption|auto]. Qed.
Lemma NoDup_app_r {A} (a b : list A) : NoDup (a ++ b) -> NoDup b.
Proof. induction a as [|x a IH]; intros H; [assumption|]. inversion H; subst. auto. Qed.
Lemma F2_flat {A B C D} (R : C -> D -> Prop) (f : A -> list C) (g : B -> list D) l l' :
  Forall2 (fun a b => Forall2 R (f a) (g b)) l l' -> Forall2 R (flat_map f l) (flat_map g l').
Proof. induction 1; cbn; [constructor|apply Forall2_app; assumption]. Qed.
Lemma flat_fold {A B S} (f : A -> list B) (step : S -> B -> S) l : forall s,
  fold_left (fun s a => fold_left step (f a) s) l s = fold_left step (flat_map f l) s.
Proof. induction l as [|a l IH]; intros s; cbn; [reflexivity|]. rewrite fold_left_app. apply IH. Qed.

Lemma F2_impl {A B} (P Q : A -> B -> Prop) l l' : (forall x y, P x y -> Q x y) -> Forall2 P l l' -> Forall2 Q l l'.
Proof. intros H. induction 1; constructor; auto. Qed.

Lemma flat_map_map {A B C} (f : B -> list C) (g : A -> B) l : flat_map f (map g l) = flat_map (fun x => f (g x)) l.
Proof. induction l; cbn; congruence. Qed.

Lemma dict_mapM_F2 {A B C} (f : A -> res B) (R : C -> string * A -> Prop) (R' : C -> string * B -> Prop) rows t : Forall2 R rows t ->
  (forall row kv, In row rows -> R row kv -> exists b, f (snd kv) = Ok b /\ R' row (fst kv, b)) ->
  exists t', dict_mapM f t = Ok t' /\ Forall2 R' rows t'.
Proof.
  induction 1 as [|row kv rows t Hr _ IH]; intros H; [exists []; split; [reflexivity|constructor]|].
  destruct (H row kv (or_introl eq_refl) Hr) as (b & Hb & Hb'). destruct IH as (t' & Ht & Ht'); [intros; apply H; [right|]; assumption|].
  unfold dict_mapM in *. cbn [rmapM]. rewrite Hb. cbn [rbind]. rewrite Ht. cbn [rbind].
  eexists. split; [reflexivity|]. constructor; assumption.
Qed.
Lemma rmapM_F2 {A B} (f : A -> res B) (R : A -> B -> Prop) l : (forall x, In x l -> exists y, f x = Ok y /\ R x y) ->
  exists ys, rmapM f l = Ok ys /\ Forall2 R l ys.
Proof.
  induction l as [|x l IH]; intros H; [exists []; split; [reflexivity|constructor]|].
  destruct (H x (or_introl eq_refl)) as (y & Hy & Hy'). destruct IH as (ys & Hs & Hs'); [intros; apply H; right; assumption|].
  cbn [rmapM]. rewrite Hy. cbn [rbind]. rewrite Hs. cbn [rbind]. eexists. split; [reflexivity|]. constructor; assumption.
Qed.
Lemma dindex_in {V} (k : string) (v : V) d : NoDup (dkeys d) -> In (k, v) d -> dindex k d = Ok v.
Proof. intros Hn Hi. unfold dindex. rewrite (in_dget k v d Hn Hi). reflexivity. Qed.

Section Facts.
  Variable E : env.
  Hypothesis HE : valid_env E.
  Notation rs := (resid (pp E) (qq E)).
  Let Hp : 1 < pp E := p_gt_1 E HE.
  Let Hq : 1 < qq E := q_gt_1 E HE.

  (** ** exponents *)
  Lemma pow_GX_p x s : rs x -> 0 <= s -> x ^ s mod pp E = GX E x s.
  Proof. intros Hx Hs. rewrite <- (pow_p_eq E HE). apply pow_p_xp; assumption. Qed.
  Lemma GX_prod x l : rs x -> mult_p E (map (GX E x) l) = GX E x (sumZ l).
  Proof.
    intros Hx. rewrite (mult_p_eq E HE). induction l as [|a l IH]; [cbn; rewrite GX_0 by exact HE; apply Z.mod_small; lia|].
    change (prodZ (map (GX E x) (a :: l))) with (GX E x a * prodZ (map (GX E x) l)).
    change (sumZ (a :: l)) with (a + sumZ l).
    rewrite <- Zmult_mod_idemp_r, IH, <- (GX_mul E HE), (mult_p_eq E HE) by assumption.
    change (prodZ [GX E x a; GX E x (sumZ l)]) with (GX E x a * (GX E x (sumZ l) * 1)). rewrite Z.mul_1_r. reflexivity.
  Qed.
  Lemma div_p_GX M x s : rs x -> div_p E (mult_p E [G1 E M; GX E x s]) (GX E x s) = Ok (G1 E M).
  Proof.
    intros Hx. assert (Hr : rs (GX E x s)) by (apply GX_resid; assumption).
    pose proof (mult_inv_p_resid E HE _ Hr) as Hi. unfold div_p. unfold mult_inv_p in Hi.
    destruct (Z.eqb_spec (GX E x s) 0) as [H0|H0]; [discriminate|]. rewrite Hi.
    cbn [rbind]. f_equal. apply div_exponent; assumption.
  Qed.

  (** ** shares *)
  Variable Q : Z.
  Hypothesis HQ : 0 <= Q < qq E.
  Definition ct_good (c : ciphertext) : Prop := in_subgroup E (ct_pad c) /\ in_subgroup E (ct_data c).
  Definition sel_ids (cs : list cipher_contest) : list string := map fst (flat_map cc_selections cs).
  Record item_good (cs : list cipher_contest) : Prop := {
    ig_contests : NoDup (map cc_id cs);
    ig_selections : NoDup (sel_ids cs);
    ig_cts : forall s, In s (flat_map cc_selections cs) -> ct_good (snd s) }.

  (** [kd] is an acceptable share of the selection [s] for a guardian with secret [x] *)
  Definition sel_share (x : Z) (s : string * ciphertext) (kd : string * dec_sel) : Prop :=
    fst kd = fst s /\ dc_id (snd kd) = fst s /\ dc_share (snd kd) = ct_pad (snd s) ^ x mod pp E
    /\ dec_sel_valid E (snd kd) (snd s) (gexp E x) Q = true.
  Definition con_share (x : Z) (c : cipher_contest) (kd : string * dec_con) : Prop :=
    fst kd = cc_id c /\ Forall2 (sel_share x) (cc_selections c) (dn_selections (snd kd)).
  Definition good_share (x : Z) (cs : list cipher_contest) (sh : dec_share) : Prop :=
    sh_key sh = gexp E x /\ Forall2 (con_share x) cs (sh_contests sh).

  Definition key_good (k : key_pair) : Prop := 0 <= ek_secret k < qq E /\ kp_public (ek_pair k) = gexp E (ek_secret k).

  Lemma share_sel_ok k s seed : key_good k -> ct_good (snd s) ->
    exists d, share_for_selection E k s Q seed = Some d /\ sel_share (ek_secret k) s (dc_id d, d) /\ dc_guardian d = ek_owner k /\ dc_parts d = None.
  Proof.
    intros [Hs Hk] [Ha Hb]. unfold share_for_selection, partially_decrypt, partial_decrypt. rewrite (pow_p_eq E HE).
    pose proof (cp_honest E HE (snd s) (ek_secret k) seed Q Ha Hb Hs HQ) as Hv. cbn zeta in Hv.
    rewrite Hk, Hv. eexists. split; [reflexivity|]. split; [|split; reflexivity].
    unfold sel_share, create_with_proof; cbn [fst snd dc_id dc_share dec_sel_valid dc_proof dc_parts]. auto.
  Qed.
  Lemma share_con_ok k c rnd : key_good k -> NoDup (map fst (cc_selections c)) -> (forall s, In s (cc_selections c) -> ct_good (snd s)) ->
    exists dn, share_for_contest E true rnd k c Q = Some dn /\ con_share (ek_secret k) c (cc_id c, dn).
  Proof.
    intros Hk Hn Hc. unfold share_for_contest. rewrite schedule_total.
    set (f := fun a : nat * (string * ciphertext) => share_for_selection E k (snd a) Q (rnd (fst a))).
    assert (H : exists ds, map f (number (cc_selections c)) = map Some ds /\ Forall2 (fun s d => sel_share (ek_secret k) s (dc_id d, d)) (cc_selections c) ds).
    { assert (H : forall l, (forall s, In s (map snd l) -> ct_good (snd s)) -> exists ds, map f l = map Some ds /\
        Forall2 (fun s d => sel_share (ek_secret k) s (dc_id d, d)) (map snd l) ds).
      2: { destruct (H (number (cc_selections c))) as (ds & H1 & H2); rewrite ?number_snd in *; [assumption|]. exists ds. auto. }
      clear Hc. induction l as [|a l IH]; intros Hc.
      - exists []. split; [reflexivity|constructor].
      - destruct (share_sel_ok k (snd a) (rnd (fst a)) Hk) as (d & Hd & Hs & _); [apply Hc; left; reflexivity|].
        destruct IH as (ds & H1 & H2); [intros; apply Hc; right; assumption|].
        exists (d :: ds). cbn [map]. unfold f at 1. rewrite Hd, H1. split; [reflexivity|]. constructor; assumption. }
    destruct H as (ds & -> & Hds).
    assert (Hid : map dc_id ds = map fst (cc_selections c)).
    { symmetry. apply Forall2_map_eq. revert Hds. apply F2_impl. intros s d (_ & H & _). symmetry. exact H. }
    rewrite collect_all; [|rewrite Hid; assumption|intros ? _ []].
    eexists. split; [reflexivity|]. split; [reflexivity|]. cbn [snd dn_selections app].
    apply Forall2_map_r. exact Hds.
  Qed.
  Lemma item_con cs c : item_good cs -> In c cs -> NoDup (map fst (cc_selections c)) /\ (forall s, In s (cc_selections c) -> ct_good (snd s)).
  Proof.
    intros [_ Hs Hc] Hi. split.
    - clear Hc. unfold sel_ids in Hs. induction cs as [|c' cs IH]; [destruct Hi|]. cbn [flat_map] in Hs. rewrite map_app in Hs.
      destruct Hi as [->|Hi]; [apply NoDup_app_l in Hs; assumption|apply NoDup_app_r in Hs; auto].
    - intros s Hin. apply Hc. apply in_flat_map. exists c. auto.
  Qed.
  Lemma share_cons_ok k rnd : key_good k -> forall cs i d,
    NoDup (map cc_id cs) -> (forall id, In id (map cc_id cs) -> ~ In id (dkeys d)) ->
    (forall c, In c cs -> NoDup (map fst (cc_selections c)) /\ (forall s, In s (cc_selections c) -> ct_good (snd s))) ->
    exists l, share_contests E (fun _ => true) rnd k Q i cs d = Some (d ++ l) /\ Forall2 (con_share (ek_secret k)) cs l.
  Proof.
    intros Hk. induction cs as [|c cs IH]; intros i d Hn Hd Hc; cbn [share_contests].
    - exists []. rewrite app_nil_r. split; [reflexivity|constructor].
    - destruct (Hc c (or_introl eq_refl)) as [Hc1 Hc2]. destruct (share_con_ok k c (rnd i) Hk Hc1 Hc2) as (dn & -> & Hdn).
      cbn [map] in Hn. inversion Hn as [|? ? Hx Hl]; subst. rewrite dset_new by (apply Hd; left; reflexivity).
      destruct (IH (S i) (d ++ [(cc_id c, dn)])) as (l & Hl1 & Hl2); [assumption| |intros; apply Hc; right; assumption|].
      { intros id Hid. unfold dkeys. rewrite map_app, in_app_iff. cbn. intros [H|[H|[]]]; [apply (Hd id (or_intror Hid) H)|].
        subst id. contradiction. }
      exists ((cc_id c, dn) :: l). rewrite Hl1, <- app_assoc. split; [reflexivity|]. constructor; assumption.
  Qed.
  Lemma share_of_ok k rnd id cs : key_good k -> item_good cs ->
    exists sh, share_of E (fun _ => true) rnd k Q id cs = Some sh /\ good_share (ek_secret k) cs sh /\ sh_guardian sh = ek_owner k /\ sh_id sh = id.
  Proof.
    intros Hk Hi. unfold share_of.
    destruct (share_cons_ok k rnd Hk cs 0%nat []) as (l & -> & Hl); [apply Hi|intros ? _ []|intros; apply (item_con cs); assumption|].
    eexists. split; [reflexivity|]. split; [|split; reflexivity]. split; [apply Hk|exact Hl].
  Qed.

  (** ** looking shares up *)
  Definition share_sels (sh : dec_share) : list dec_sel := flat_map (fun dn => dvals (dn_selections dn)) (dvals (sh_contests sh)).
  Lemma share_sels_ok x cs sh : good_share x cs sh -> Forall2 (fun s d => sel_share x s (fst s, d)) (flat_map cc_selections cs) (share_sels sh).
  Proof.
    intros [_ H]. unfold share_sels. change (dvals (sh_contests sh)) with (map snd (sh_contests sh)). rewrite flat_map_map.
    apply F2_flat. revert H. apply F2_impl. intros c [k dn] [_ H]. cbn [snd] in *. unfold dvals. apply Forall2_map_r.
    revert H. apply F2_impl. intros s [k' d] (H1 & H2 & H3 & H4). cbn [fst snd] in *. repeat split; assumption.
  Qed.
  Lemma pick_one {V} (key : Z) (g id : string) (acc : dict string V) (mk : dec_sel -> V) ds d : NoDup (map dc_id ds) -> In d ds -> dc_id d = id ->
    fold_left (fun acc d => if eqb (dc_id d) id then dset g (mk d) acc else acc) ds acc = dset g (mk d) acc.
  Proof.
    intros Hn Hi Hid.
    assert (Hskip : forall l acc, ~ In id (map dc_id l) -> fold_left (fun acc d => if eqb (dc_id d) id then dset g (mk d) acc else acc) l acc = acc).
    { induction l as [|y l IH]; intros a H; cbn [fold_left]; [reflexivity|]. eqb_cases (dc_id y) id; [exfalso; apply H; left; exact Heq|].
      apply IH. intros Hx. apply H. right. exact Hx. }
    revert acc. induction ds as [|y ds IH]; intros acc; [destruct Hi|]. cbn [map] in Hn. inversion Hn as [|? ? Hy Hl]; subst. cbn [fold_left].
    destruct Hi as [->|Hi].
    - rewrite eqb_refl'. apply Hskip. assumption.
    - eqb_cases (dc_id y) (dc_id d); [exfalso; apply Hy; rewrite Heq; apply in_map; assumption|]. apply IH; assumption.
  Qed.
  Lemma get_shares_step cs x sh s acc : item_good cs -> good_share x cs sh -> In s (flat_map cc_selections cs) ->
    exists d, sel_share x s (fst s, d) /\
    fold_left (fun acc dn => fold_left (fun acc d => if eqb (dc_id d) (fst s) then dset (sh_guardian sh) (sh_key sh, d) acc else acc) (dvals (dn_selections dn)) acc)
      (dvals (sh_contests sh)) acc = dset (sh_guardian sh) (sh_key sh, d) acc.
  Proof.
    intros Hi Hg Hs. pose proof (share_sels_ok x cs sh Hg) as HF.
    destruct (Forall2_in_l _ _ _ s HF Hs) as (d & Hd & Hsd). exists d. split; [exact Hsd|].
    rewrite (flat_fold (fun dn => dvals (dn_selections dn))). fold (share_sels sh).
    apply (pick_one 0 _ _ acc (fun d => (sh_key sh, d))); [|assumption|apply Hsd].
    assert (H : map dc_id (share_sels sh) = sel_ids cs).
    { symmetry. apply Forall2_map_eq. revert HF. apply F2_impl. intros a b (_ & H & _). symmetry. exact H. }
    rewrite H. apply Hi.
  Qed.
  (** a table of shares by guardian: distinct ids, each share carrying its guardian's id *)
  Definition table_good (cs : list cipher_contest) (xs : list Z) (t : dict string dec_share) : Prop :=
    NoDup (dkeys t) /\ Forall2 (fun x kv => fst kv = sh_guardian (snd kv) /\ good_share x cs (snd kv)) xs t.
  Lemma get_shares_ok cs xs t s : item_good cs -> table_good cs xs t -> In s (flat_map cc_selections cs) ->
    exists l, get_shares_for_selection (fst s) t = l /\ map fst l = dkeys t /\
      Forall2 (fun x kv => fst (snd kv) = gexp E x /\ sel_share x s (fst s, snd (snd kv))) xs l.
  Proof.
    intros Hi [Hn HF] Hs. eexists. split; [reflexivity|]. unfold get_shares_for_selection.
    assert (H : forall acc, (forall k, In k (dkeys t) -> ~ In k (dkeys acc)) -> exists l,
      fold_left (fun acc sh => fold_left (fun acc dn => fold_left (fun acc d => if eqb (dc_id d) (fst s) then dset (sh_guardian sh) (sh_key sh, d) acc else acc) (dvals (dn_selections dn)) acc)
        (dvals (sh_contests sh)) acc) (dvals t) acc = acc ++ l /\ map fst l = dkeys t /\
      Forall2 (fun x kv => fst (snd kv) = gexp E x /\ sel_share x s (fst s, snd (snd kv))) xs l).
    { revert Hn HF. clear - Hi Hs HE HQ. revert xs. induction t as [|[g sh] t IH]; intros xs Hn HF acc Ha.
      - inversion HF; subst. exists []. rewrite app_nil_r. split; [reflexivity|]. split; [reflexivity|constructor].
      - inversion HF as [|x ? xs' ? [Hg Hsh] HF']; subst. cbn [fst snd] in *. subst g.
        unfold dkeys in Hn. cbn [map fst] in Hn. inversion Hn as [|? ? Hx Hl]; subst.
        change (dvals ((sh_guardian sh, sh) :: t)) with (sh :: dvals t). cbn [fold_left].
        destruct (get_shares_step cs x sh s acc Hi Hsh Hs) as (d & Hd & ->).
        rewrite dset_new by (apply Ha; left; reflexivity).
        destruct (IH xs' Hl HF' (acc ++ [(sh_guardian sh, (sh_key sh, d))])) as (l & -> & Hl2 & Hl3).
        { intros k Hk. unfold dkeys. rewrite map_app, in_app_iff. cbn. intros [H|[H|[]]]; [apply (Ha k (or_intror Hk) H)|].
          subst k. contradiction. }
        exists ((sh_guardian sh, (sh_key sh, d)) :: l). rewrite <- app_assoc. split; [reflexivity|].
        split; [cbn; f_equal; exact Hl2|]. constructor; [|exact Hl3]. cbn [fst snd]. split; [apply Hsh|exact Hd]. }
    destruct (H []) as (l & -> & H2 & H3); [intros ? _ []|]. cbn [app]. auto.
  Qed.

  (** ** decrypting *)
  Definition opens_to (xs : list Z) (c : ciphertext) (m : Z) : Prop :=
    exists r, 0 <= r /\ is_encryption E (gexp E (sumZ xs)) r m (ct_pad c) (ct_data c).
  Lemma opens_good xs c m : Forall (fun x => 0 <= x) xs -> 0 <= m -> opens_to xs c m -> ct_good c.
  Proof.
    intros Hx Hm (r & Hr & He). apply (ct_of_spec E HE) in He; [|apply gexp_subgroup; [assumption|apply sumZ_nonneg; assumption]|assumption|assumption].
    subst c. unfold ct_good, ct_of; cbn [ct_pad ct_data]. split; [apply G1_resid; assumption|].
    apply (mult_resid E HE); [apply G1_resid; assumption|apply GX_resid; [assumption|]]. apply (gexp_subgroup E HE). apply sumZ_nonneg; assumption.
  Qed.
  Lemma decrypt_sel_ok cs xs t s m : item_good cs -> table_good cs xs t -> In s (flat_map cc_selections cs) ->
    Forall (fun x => 0 <= x) xs -> opens_to xs (snd s) m -> 0 <= m < qq E -> m <= dmax E ->
    exists p, decrypt_selection_shares E s (get_shares_for_selection (fst s) t) Q = Ok (Some p) /\
      pl_id p = fst s /\ pl_tally p = m /\ pl_value p = gexp E m /\ pl_message p = snd s /\
      Forall2 (fun x d => dc_id d = fst s /\ dc_share d = ct_pad (snd s) ^ x mod pp E /\ dec_sel_valid E d (snd s) (gexp E x) Q = true) xs (pl_shares p).
  Proof.
    intros Hi Ht Hs Hx (r & Hr & He) Hm Hd. destruct (get_shares_ok cs xs t s Hi Ht Hs) as (l & -> & _ & HF).
    unfold decrypt_selection_shares.
    assert (Hv : forallb (fun kd : Z * dec_sel => dec_sel_valid E (snd kd) (snd s) (fst kd) Q) (dvals l) = true).
    { apply forallb_forall. intros [k d] Hin. unfold dvals in Hin. apply in_map_iff in Hin. destruct Hin as ([g [k' d']] & Heq & Hin). cbn in Heq.
      inversion Heq; subst. destruct (Forall2_in_r _ _ _ _ HF Hin) as (x & _ & Hk & H). cbn [fst snd] in *. subst k. apply H. }
    rewrite Hv. cbn [negb].
    pose proof (gexp_subgroup E HE (sumZ xs) (sumZ_nonneg _ Hx)) as HK.
    apply (ct_of_spec E HE) in He; [|assumption|assumption|lia].
    assert (Hpad : rs (ct_pad (snd s))) by (rewrite He; cbn; apply G1_resid; assumption).
    assert (Hprod : mult_p E (map (fun kd : Z * dec_sel => dc_share (snd kd)) (dvals l)) = GX E (ct_pad (snd s)) (sumZ xs)).
    { rewrite <- (GX_prod _ xs Hpad). f_equal. unfold dvals. rewrite map_map. clear - HF Hx Hpad HE. revert Hx. induction HF as [|x [g [k d]] xs l [Hk (_ & _ & H & _)] _ IH]; intros Hx; [reflexivity|].
      inversion Hx; subst. cbn [map fst snd] in *. rewrite IH by assumption. f_equal. rewrite H. apply pow_GX_p; assumption. }
    assert (Hdata : ct_data (snd s) = mult_p E [G1 E m; GX E (ct_pad (snd s)) (sumZ xs)]).
    { rewrite He. cbn [ct_data ct_pad ct_of]. f_equal. f_equal. f_equal.
      unfold gexp. rewrite (G1_pow E HE) by (apply sumZ_nonneg; assumption). rewrite !GX_G1 by assumption. f_equal. lia. }
    rewrite Hprod, Hdata, div_p_GX by assumption. cbn [rbind]. rewrite dlog_G1 by assumption. cbn [rbind].
    eexists. split; [reflexivity|]. cbn [pl_id pl_tally pl_value pl_message pl_shares].
    split; [reflexivity|]. split; [reflexivity|]. split; [symmetry; apply G1_pow; [assumption|lia]|]. split; [reflexivity|].
    unfold dvals. rewrite map_map. apply Forall2_map_r. revert HF. apply F2_impl. intros x [g [k d]] [_ (_ & H1 & H2 & H3)]. auto.
  Qed.

  (** ** decrypting contests *)
  Definition sel_plain (xs : list Z) (M : string -> Z) (s : string * ciphertext) (kp : string * plain_sel) : Prop :=
    fst kp = fst s /\ pl_id (snd kp) = fst s /\ pl_tally (snd kp) = M (fst s) /\ pl_value (snd kp) = gexp E (M (fst s)) /\ pl_message (snd kp) = snd s /\
    Forall2 (fun x d => dc_id d = fst s /\ dc_share d = ct_pad (snd s) ^ x mod pp E /\ dec_sel_valid E d (snd s) (gexp E x) Q = true) xs (pl_shares (snd kp)).
  Definition kept_sels (remove : bool) (ids : list string) (ss : list (string * ciphertext)) : list (string * ciphertext) :=
    filter (fun s => negb (negb (inb (fst s) ids) && remove)) ss.
  Lemma decrypt_sels_ok cs xs t ids remove M : item_good cs -> table_good cs xs t -> Forall (fun x => 0 <= x) xs -> forall ss d,
    (forall s, In s ss -> In s (flat_map cc_selections cs)) ->
    (forall s, In s (kept_sels remove ids ss) -> opens_to xs (snd s) (M (fst s)) /\ 0 <= M (fst s) < qq E /\ M (fst s) <= dmax E) ->
    NoDup (map fst ss) -> (forall k, In k (map fst ss) -> ~ In k (dkeys d)) ->
    exists l, decrypt_selections_shares E t Q ids remove ss d = Ok (Some (d ++ l)) /\ Forall2 (sel_plain xs M) (kept_sels remove ids ss) l.
  Proof.
    intros Hi Ht Hx. induction ss as [|s ss IH]; intros d Hin Hm Hn Hd; cbn [decrypt_selections_shares].
    - exists []. rewrite app_nil_r. split; [reflexivity|constructor].
    - cbn [map] in Hn. inversion Hn as [|? ? Hs Hl]; subst. unfold kept_sels in *; cbn [filter] in *.
      destruct (negb (inb (fst s) ids) && remove) eqn:Hb; cbn [negb] in *.
      + apply IH; auto. intros; apply Hin; right; assumption. intros; apply Hd; right; assumption.
      + destruct (Hm s (or_introl eq_refl)) as (Ho & Hr & Hmax).
        destruct (decrypt_sel_ok cs xs t s (M (fst s)) Hi Ht (Hin s (or_introl eq_refl)) Hx Ho Hr Hmax) as (p & -> & H1 & H2 & H3 & H4 & H5).
        cbn [rbind]. rewrite H1. rewrite dset_new by (apply Hd; left; reflexivity).
        destruct (IH (d ++ [(fst s, p)])) as (l & -> & Hl2).
        * intros; apply Hin; right; assumption.
        * intros; apply Hm; right; assumption.
        * assumption.
        * intros k Hk. unfold dkeys. rewrite map_app, in_app_iff. cbn. intros [H|[H|[]]]; [apply (Hd k (or_intror Hk) H)|]. subst k. contradiction.
        * exists ((fst s, p) :: l). rewrite <- app_assoc. split; [reflexivity|]. constructor; [|assumption]. repeat split; assumption.
  Qed.
  Definition con_plain (xs : list Z) (remove : bool) (descs : dict string contest_desc) (M : string -> string -> Z) (c : cipher_contest) (kp : string * plain_con) : Prop :=
    fst kp = cc_id c /\ pn_id (snd kp) = cc_id c /\ exists desc, dget (cc_id c) descs = Some desc /\
    Forall2 (sel_plain xs (M (cc_id c))) (kept_sels remove (map sd_id (cd_selections desc)) (cc_selections c)) (pn_selections (snd kp)).
  Lemma decrypt_cons_ok all xs t descs remove M : item_good all -> table_good all xs t -> Forall (fun x => 0 <= x) xs -> forall cs d,
    (forall c, In c cs -> In c all) ->
    (forall c desc s, In c cs -> dget (cc_id c) descs = Some desc -> In s (kept_sels remove (map sd_id (cd_selections desc)) (cc_selections c)) ->
       opens_to xs (snd s) (M (cc_id c) (fst s)) /\ 0 <= M (cc_id c) (fst s) < qq E /\ M (cc_id c) (fst s) <= dmax E) ->
    NoDup (map cc_id cs) -> (forall k, In k (map cc_id cs) -> ~ In k (dkeys d)) ->
    exists l, decrypt_contests_shares E t Q descs remove cs d = Ok (Some (d ++ l)) /\
      Forall2 (con_plain xs remove descs M) (filter (fun c => dmem (cc_id c) descs) cs) l.
  Proof.
    intros Hi Ht Hx. induction cs as [|c cs IH]; intros d Hin Hm Hn Hd; cbn [decrypt_contests_shares].
    - exists []. rewrite app_nil_r. split; [reflexivity|constructor].
    - cbn [map] in Hn. inversion Hn as [|? ? Hs Hl]; subst. cbn [filter]. unfold dmem at 1. destruct (dget (cc_id c) descs) as [desc|] eqn:Hdesc.
      + destruct (item_con all c Hi (Hin c (or_introl eq_refl))) as [Hc1 Hc2].
        destruct (decrypt_sels_ok all xs t (map sd_id (cd_selections desc)) remove (M (cc_id c)) Hi Ht Hx (cc_selections c) []) as (l & Hl1 & Hl2).
        * intros s Hs'. apply in_flat_map. exists c. split; [apply Hin; left; reflexivity|assumption].
        * intros s Hs'. apply (Hm c desc); [left; reflexivity|assumption|assumption].
        * assumption.
        * intros ? _ [].
        * unfold decrypt_contest_shares. rewrite Hl1. cbn [rbind app].
          rewrite dset_new by (apply Hd; left; reflexivity).
          destruct (IH (d ++ [(cc_id c, mkPlainCon (cc_id c) l)])) as (l' & -> & Hl2').
          -- intros; apply Hin; right; assumption.
          -- intros c' desc' s Hc'. apply Hm. right; assumption.
          -- assumption.
          -- intros k Hk. unfold dkeys. rewrite map_app, in_app_iff. cbn. intros [H|[H|[]]]; [apply (Hd k (or_intror Hk) H)|]. subst k. contradiction.
          -- exists ((cc_id c, mkPlainCon (cc_id c) l) :: l'). rewrite <- app_assoc. split; [reflexivity|].
             constructor; [|assumption]. split; [reflexivity|]. split; [reflexivity|]. exists desc. auto.
      + apply IH; auto. intros; apply Hin; right; assumption. intros c' desc' s Hc'. apply Hm. right; assumption. intros; apply Hd; right; assumption.
  Qed.
  Lemma decrypt_shares_ok id cs xs t mf remove M : item_good cs -> table_good cs xs t -> Forall (fun x => 0 <= x) xs ->
    let descs := dict_of (map (fun d => (cd_id d, d)) (mf_contests mf)) in
    (forall c desc s, In c cs -> dget (cc_id c) descs = Some desc -> In s (kept_sels remove (map sd_id (cd_selections desc)) (cc_selections c)) ->
       opens_to xs (snd s) (M (cc_id c) (fst s)) /\ 0 <= M (cc_id c) (fst s) < qq E /\ M (cc_id c) (fst s) <= dmax E) ->
    exists p, decrypt_shares E id cs t Q mf remove = Ok (Some p) /\ pt_id p = id /\
      Forall2 (con_plain xs remove descs M) (filter (fun c => dmem (cc_id c) descs) cs) (pt_contests p).
  Proof.
    intros Hi Ht Hx descs Hm. unfold decrypt_shares. fold descs.
    destruct (decrypt_cons_ok cs xs t descs remove M Hi Ht Hx cs [] (fun _ H => H) Hm) as (l & -> & Hl); [apply Hi|intros ? _ []|].
    cbn [rbind app]. eexists. split; [reflexivity|]. split; [reflexivity|]. exact Hl.
  Qed.

  (** ** recovery keys *)
  Lemma recovery_loop_ok x coeffs : Forall (fun a => 0 <= a) coeffs -> forall (i : nat) a,
    recovery_loop E x (Z.of_nat i) (G1 E a) (map (gexp E) coeffs) = G1 E (a + poly_from i coeffs x).
  Proof.
    induction 1 as [|c coeffs Hc _ IH]; intros i a; cbn [map recovery_loop poly_from]; [f_equal; lia|].
    replace (gexp E c) with (G1 E c) by (symmetry; apply G1_pow; assumption).
    rewrite pow_G1 by (try assumption; apply pow_q_range; assumption). rewrite (G1_mul E HE).
    replace (Z.of_nat i + 1) with (Z.of_nat (S i)) by lia. rewrite IH. apply (G1_congr E).
    rewrite (pow_q_eq E HE). set (y := x ^ Z.of_nat i). set (z := poly_from (S i) coeffs x).
    replace (a + (c * y + z)) with ((a + z) + c * y) by ring. replace (a + c * (y mod qq E) + z) with ((a + z) + c * (y mod qq E)) by ring.
    rewrite <- Zplus_mod_idemp_r, Zmult_mod_idemp_r, Zplus_mod_idemp_r. reflexivity.
  Qed.
  Lemma recovery_key_ok g m coeffs : Forall (fun a => 0 <= a) coeffs -> pk_commitments m = map (gexp E) coeffs ->
    compute_recovery_public_key E g m = G1 E (poly_at coeffs (pk_seq g)).
  Proof.
    intros Hc Hm. unfold compute_recovery_public_key, poly_at. rewrite Hm. 
    replace 1 with (G1 E 0) by (apply GX_0; assumption). change 0 with (Z.of_nat 0) at 1. apply recovery_loop_ok. assumption.
  Qed.

  (** ** compensated shares *)
  Definition csel_share (y : Z) (s : string * ciphertext) (kd : string * comp_sel) : Prop :=
    fst kd = fst s /\ cm_id (snd kd) = fst s /\ cm_share (snd kd) = ct_pad (snd s) ^ y mod pp E /\ cm_recovery (snd kd) = gexp E y
    /\ cp_is_valid E (cm_proof (snd kd)) (snd s) (cm_recovery (snd kd)) (cm_share (snd kd)) Q = true.
  Definition ccon_share (y : Z) (c : cipher_contest) (kd : string * comp_con) : Prop :=
    fst kd = cc_id c /\ Forall2 (csel_share y) (cc_selections c) (co_selections (snd kd)).
  Definition cgood_share (y : Z) (cs : list cipher_contest) (sh : comp_share) : Prop := Forall2 (ccon_share y) cs (csh_contests sh).

  Lemma comp_sel_ok y present missing coeffs s seed : 0 <= y < qq E -> y = poly_at coeffs (pk_seq present) mod qq E ->
    Forall (fun a => 0 <= a) coeffs -> pk_commitments missing = map (gexp E) coeffs -> ct_good (snd s) ->
    exists d, comp_for_selection E y present missing s Q seed = Some d /\ csel_share y s (cm_id d, d) /\ cm_guardian d = pk_owner present /\ cm_missing d = pk_owner missing.
  Proof.
    intros Hy Hyp Hc Hm [Ha Hb]. unfold comp_for_selection, decrypt_with_threshold, partial_decrypt. rewrite (pow_p_eq E HE).
    assert (Hrk : compute_recovery_public_key E present missing = gexp E y).
    { rewrite (recovery_key_ok present missing coeffs Hc Hm). unfold gexp. rewrite (G1_pow E HE) by lia. apply (G1_congr E). rewrite Hyp. symmetry. apply Z.mod_mod. lia. }
    rewrite Hrk. pose proof (cp_honest E HE (snd s) y seed Q Ha Hb Hy HQ) as Hv. cbn zeta in Hv. rewrite Hv.
    eexists. split; [reflexivity|]. unfold csel_share; cbn [fst snd cm_id cm_share cm_recovery cm_proof cm_guardian cm_missing]. repeat split; auto.
  Qed.
  Section Comp.
    Variable y : Z. Variable present missing : public_key. Variable coeffs : list Z.
    Hypothesis Hy : 0 <= y < qq E.
    Hypothesis Hyp : y = poly_at coeffs (pk_seq present) mod qq E.
    Hypothesis Hc : Forall (fun a => 0 <= a) coeffs.
    Hypothesis Hm : pk_commitments missing = map (gexp E) coeffs.
    Lemma comp_con_ok c rnd : NoDup (map fst (cc_selections c)) -> (forall s, In s (cc_selections c) -> ct_good (snd s)) ->
      exists dn, comp_for_contest E true rnd y present missing c Q = Some dn /\ ccon_share y c (cc_id c, dn).
    Proof.
      intros Hn Hg. unfold comp_for_contest. rewrite schedule_total.
      set (f := fun a : nat * (string * ciphertext) => comp_for_selection E y present missing (snd a) Q (rnd (fst a))).
      assert (H : exists ds, map f (number (cc_selections c)) = map Some ds /\ Forall2 (fun s d => csel_share y s (cm_id d, d)) (cc_selections c) ds).
      { assert (H : forall l, (forall s, In s (map snd l) -> ct_good (snd s)) -> exists ds, map f l = map Some ds /\
          Forall2 (fun s d => csel_share y s (cm_id d, d)) (map snd l) ds).
        2: { destruct (H (number (cc_selections c))) as (ds & H1 & H2); rewrite ?number_snd in *; [assumption|]. exists ds. auto. }
        clear Hg. induction l as [|a l IH]; intros Hg.
        - exists []. split; [reflexivity|constructor].
        - destruct (comp_sel_ok y present missing coeffs (snd a) (rnd (fst a)) Hy Hyp Hc Hm) as (d & Hd & Hs & _); [apply Hg; left; reflexivity|].
          destruct IH as (ds & H1 & H2); [intros; apply Hg; right; assumption|].
          exists (d :: ds). cbn [map]. unfold f at 1. rewrite Hd, H1. split; [reflexivity|]. constructor; assumption. }
      destruct H as (ds & -> & Hds).
      assert (Hid : map cm_id ds = map fst (cc_selections c)).
      { symmetry. apply Forall2_map_eq. revert Hds. apply F2_impl. intros s d (_ & H & _). symmetry. exact H. }
      rewrite collect_all; [|rewrite Hid; assumption|intros ? _ []].
      eexists. split; [reflexivity|]. split; [reflexivity|]. cbn [snd co_selections app].
      apply Forall2_map_r. exact Hds.
    Qed.
    Lemma comp_cons_ok rnd : forall cs i d,
      NoDup (map cc_id cs) -> (forall id, In id (map cc_id cs) -> ~ In id (dkeys d)) ->
      (forall c, In c cs -> NoDup (map fst (cc_selections c)) /\ (forall s, In s (cc_selections c) -> ct_good (snd s))) ->
      exists l, comp_contests E (fun _ => true) rnd y present missing Q i cs d = Some (d ++ l) /\ Forall2 (ccon_share y) cs l.
    Proof.
      induction cs as [|c cs IH]; intros i d Hn Hd Hg; cbn [comp_contests].
      - exists []. rewrite app_nil_r. split; [reflexivity|constructor].
      - destruct (Hg c (or_introl eq_refl)) as [Hc1 Hc2]. destruct (comp_con_ok c (rnd i) Hc1 Hc2) as (dn & -> & Hdn).
        cbn [map] in Hn. inversion Hn as [|? ? Hx Hl]; subst. rewrite dset_new by (apply Hd; left; reflexivity).
        destruct (IH (S i) (d ++ [(cc_id c, dn)])) as (l & Hl1 & Hl2); [assumption| |intros; apply Hg; right; assumption|].
        { intros id Hid. unfold dkeys. rewrite map_app, in_app_iff. cbn. intros [H|[H|[]]]; [apply (Hd id (or_intror Hid) H)|].
          subst id. contradiction. }
        exists ((cc_id c, dn) :: l). rewrite Hl1, <- app_assoc. split; [reflexivity|]. constructor; assumption.
    Qed.
    Lemma comp_of_ok rnd id cs : item_good cs ->
      exists sh, comp_of E (fun _ => true) rnd y present missing Q id cs = Some sh /\ cgood_share y cs sh
        /\ csh_guardian sh = pk_owner present /\ csh_missing sh = pk_owner missing /\ csh_key sh = pk_key present /\ cs_tally sh = id.
    Proof.
      intros Hi. unfold comp_of.
      destruct (comp_cons_ok rnd cs 0%nat []) as (l & -> & Hl); [apply Hi|intros ? _ []|intros; apply (item_con cs); assumption|].
      eexists. split; [reflexivity|]. split; [exact Hl|]. repeat split.
    Qed.
  End Comp.

  (** ** reconstruction *)
  (** one row per helping guardian: id, Lagrange coefficient, coordinate *)
  Notation row := (string * Z * Z)%type.
  Definition r_id (r : row) : string := fst (fst r).
  Definition r_w (r : row) : Z := snd (fst r).
  Definition r_y (r : row) : Z := snd r.
  Definition rec_good (rows : list row) (secret : Z) (L : dict string Z) : Prop :=
    Forall (fun r => dindex (r_id r) L = Ok (r_w r) /\ 0 <= r_w r /\ 0 <= r_y r) rows /\
    0 <= secret /\ sumZ (map (fun r => r_w r * r_y r) rows) mod qq E = secret mod qq E.

  Lemma ccon_nodup y c kd : NoDup (map fst (cc_selections c)) -> ccon_share y c kd -> NoDup (dkeys (co_selections (snd kd))).
  Proof.
    intros Hn [_ H]. replace (dkeys (co_selections (snd kd))) with (map fst (cc_selections c)); [assumption|].
    apply Forall2_map_eq. revert H. apply F2_impl. intros s kv (H & _). symmetry. exact H.
  Qed.
  Lemma rec_sel_ok rows secret L missing c shares s : rec_good rows secret L -> NoDup (map fst (cc_selections c)) -> In s (cc_selections c) -> ct_good (snd s) ->
    Forall2 (fun r kc => fst kc = r_id r /\ ccon_share (r_y r) c (cc_id c, snd kc)) rows shares ->
    exists kd, reconstruct_selection E missing shares L s = Ok kd /\ sel_share secret s kd /\ dc_guardian (snd kd) = missing.
  Proof.
    intros (HL & Hsec & Hsum) Hn Hs [Ha Hb] HF. unfold reconstruct_selection.
    destruct (dict_mapM_F2 (fun cc => dindex (fst s) (co_selections cc)) _ (fun r kd => fst kd = r_id r /\ csel_share (r_y r) s (fst s, snd kd)) rows shares HF) as (parts & -> & HP).
    { intros r [k cc] _ [Hk Hcc]. cbn [fst snd] in *. pose proof (ccon_nodup _ _ _ Hn Hcc) as Hnd. cbn [snd] in Hnd.
      destruct Hcc as [_ Hcc]. cbn [snd] in Hcc. destruct (Forall2_in_l _ _ _ s Hcc Hs) as ([k' d] & Hin & H). cbn [fst snd] in *.
      destruct H as (H1 & H2 & H3 & H4 & H5). cbn [fst snd] in *. subst k'. exists d. split; [apply dindex_in; assumption|]. split; [assumption|]. repeat split; assumption. }
    cbn [rbind].
    assert (Hpows : rmapM (fun kv => do w <- dindex (fst kv) L; Ok (pow_p E (cm_share (snd kv)) w)) parts =
                    Ok (map (GX E (ct_pad (snd s))) (map (fun r => r_w r * r_y r) rows))).
    { clear - HP HL Ha HE. revert HL. induction HP as [|r [k d] rows parts [Hk H] _ IH]; intros HL; [reflexivity|].
      inversion HL as [|? ? (H1 & H2 & H3) HL']; subst. cbn [rmapM fst snd map] in *. rewrite Hk, H1. cbn [rbind]. rewrite IH by assumption. cbn [rbind].
      f_equal. f_equal. assert (Hsh : cm_share d = ct_pad (snd s) ^ r_y r mod pp E) by apply H. rewrite Hsh, pow_GX_p by assumption. rewrite pow_GX by assumption. f_equal. lia. }
    rewrite Hpows. cbn [rbind]. eexists. split; [reflexivity|]. split; [|reflexivity].
    unfold sel_share, create_with_parts; cbn [fst snd dc_id dc_share dec_sel_valid dc_proof dc_parts]. split; [reflexivity|]. split; [reflexivity|]. split.
    - rewrite GX_prod by assumption. rewrite (pow_GX_p _ _ Ha) by assumption. apply GX_congr. exact Hsum.
    - apply forallb_forall. intros d Hd. unfold dvals in Hd. apply in_map_iff in Hd. destruct Hd as ([k d'] & Heq & Hin). cbn in Heq. subst d'.
      destruct (Forall2_in_r _ _ _ _ HP Hin) as (r & _ & _ & H). apply H.
  Qed.
  Lemma rec_con_ok rows secret L missing cs c shares : rec_good rows secret L -> item_good cs -> In c cs ->
    Forall2 (fun r kv => fst kv = r_id r /\ cgood_share (r_y r) cs (snd kv)) rows shares ->
    exists dn, reconstruct_contest E missing c shares L = Ok dn /\ con_share secret c (cc_id c, dn).
  Proof.
    intros HL Hi Hin HF. destruct (item_con cs c Hi Hin) as [Hn Hg]. unfold reconstruct_contest.
    destruct (dict_mapM_F2 (fun sh => dindex (cc_id c) (csh_contests sh)) _ (fun r kc => fst kc = r_id r /\ ccon_share (r_y r) c (cc_id c, snd kc)) rows shares HF) as (cshares & -> & HC).
    { intros r [k sh] _ [Hk Hsh]. cbn [fst snd] in *. unfold cgood_share in Hsh.
      assert (Hnd : NoDup (dkeys (csh_contests sh))).
      { replace (dkeys (csh_contests sh)) with (map cc_id cs); [apply Hi|]. apply Forall2_map_eq. revert Hsh. apply F2_impl. intros a b [H _]. symmetry; exact H. }
      destruct (Forall2_in_l _ _ _ c Hsh Hin) as ([k' dn] & Hin' & [H1 H2]). cbn [fst snd] in *. subst k'. exists dn. split; [apply dindex_in; assumption|].
      split; [assumption|]. split; [reflexivity|exact H2]. }
    cbn [rbind].
    destruct (rmapM_F2 (reconstruct_selection E missing cshares L) (sel_share secret) (cc_selections c)) as (sels & -> & HS).
    { intros s Hs. destruct (rec_sel_ok rows secret L missing c cshares s HL Hn Hs (Hg s Hs) HC) as (kd & H1 & H2 & _). exists kd. auto. }
    cbn [rbind]. eexists. split; [reflexivity|]. split; [reflexivity|]. cbn [snd dn_selections].
    rewrite dict_of_distinct; [exact HS|]. replace (map fst sels) with (map fst (cc_selections c)); [assumption|].
    apply Forall2_map_eq. revert HS. apply F2_impl. intros s kd (H & _). symmetry; exact H.
  Qed.
  Lemma reconstruct_ok rows secret L missing id cs shares : rec_good rows secret L -> item_good cs -> pk_key missing = gexp E secret ->
    Forall2 (fun r kv => fst kv = r_id r /\ cgood_share (r_y r) cs (snd kv)) rows shares ->
    exists sh, reconstruct E missing id cs shares L = Ok sh /\ good_share secret cs sh /\ sh_guardian sh = pk_owner missing /\ sh_id sh = id.
  Proof.
    intros HL Hi Hk HF. unfold reconstruct.
    destruct (rmapM_F2 (fun c => do dn <- reconstruct_contest E (pk_owner missing) c shares L; Ok (cc_id c, dn)) (con_share secret) cs) as (dns & -> & HD).
    { intros c Hc. destruct (rec_con_ok rows secret L (pk_owner missing) cs c shares HL Hi Hc HF) as (dn & -> & H). cbn [rbind]. eexists. split; [reflexivity|exact H]. }
    cbn [rbind]. eexists. split; [reflexivity|]. split; [|split; reflexivity]. split; [exact Hk|]. cbn [sh_contests].
    rewrite dict_of_distinct; [exact HD|]. replace (map fst dns) with (map cc_id cs); [apply Hi|].
    apply Forall2_map_eq. revert HD. apply F2_impl. intros s kd (H & _). symmetry; exact H.
  Qed.
End Facts.
