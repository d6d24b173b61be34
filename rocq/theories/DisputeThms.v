(** * DisputeThms: proofs about disputed backups (C72). *)
From Verif Require Import Base Group Spec GroupFacts Codec Hash DLog ElGamal ZK Poly CodecFacts HashFacts ElGamalFacts PolyFacts
  CryptoThms ListFacts Manifest Ballot Encrypt SpecElection EncryptFacts EncryptThms Ceremony SpecCeremony MediatorFacts CeremonyFacts CeremonyThms Dispute SpecDispute.
Import List.

Lemma find_const {A} `{EqB A} (f : A -> bool) p : forall l, (forall x, In x l -> snd x = f (fst x)) -> In p (map fst l) -> option_map snd (find (fun x : A * bool => eqb (fst x) p) l) = Some (f p).
Proof.
  induction l as [|[a b] l IH]; intros Hc Hi; [destruct Hi|]. cbn [find fst]. eqb_cases a p; [cbn; subst; f_equal; exact (Hc _ (or_introl eq_refl))|]. apply IH; [intros; apply Hc; right; assumption|]. destruct Hi as [Hi|Hi]; [cbn in Hi; congruence|exact Hi].
Qed.
Lemma find_absent {A} `{EqB A} p : forall l, ~ In p (map fst l) -> find (fun x : A * bool => eqb (fst x) p) l = None.
Proof. induction l as [|[a b] l IH]; intros Hi; [reflexivity|]. cbn [find fst]. eqb_cases a p; [exfalso; apply Hi; left; exact Heq|]. apply IH. intros Hj. apply Hi. right. exact Hj. Qed.
Lemma rfold_plain {A B} (f : A -> B -> res A) (g : A -> B -> A) : forall l a, (forall x a, In x l -> f a x = Ok (g a x)) -> rfold f l a = Ok (fold_left g l a).
Proof. induction l as [|x l IH]; intros a Hf; [reflexivity|]. cbn [rfold fold_left]. rewrite Hf by (left; reflexivity). cbn [rbind]. apply IH. intros; apply Hf; right; assumption. Qed.
Lemma rfold_map {A B C} (f : A -> B -> res A) (g : C -> B) : forall l a, rfold f (map g l) a = rfold (fun a x => f a (g x)) l a.
Proof. induction l as [|x l IH]; intros a; [reflexivity|]. cbn [map rfold]. destruct (f a (g x)); cbn [rbind]; [apply IH|reflexivity]. Qed.
Lemma steps_run E {A} (f : A -> ceremony_call) : forall l m, fold_left (fun m x => ceremony_step E m (f x)) l m = ceremony_run E m (map f l).
Proof. induction l as [|x l IH]; intros m; [reflexivity|]. cbn [fold_left map]. rewrite IH. reflexivity. Qed.
Lemma fold_run E {A} (f : A -> list ceremony_call) : forall l m, fold_left (fun m x => ceremony_run E m (f x)) l m = ceremony_run E m (flat_map f l).
Proof. induction l as [|x l IH]; intros m; [reflexivity|]. cbn [fold_left flat_map]. rewrite IH. unfold ceremony_run. rewrite fold_left_app. reflexivity. Qed.
Lemma last_word_app E h h' o r : last_word E (h ++ h') o r = match last_word E h' o r with Some b => Some b | None => last_word E h o r end.
Proof. unfold last_word. rewrite flat_map_app, rev_app_distr, find_app. destruct (find _ (rev (flat_map (says E) h'))); reflexivity. Qed.

Section Dispute.
  Context (E : env) (HE : valid_env E) (Hmac : hmac_32 E) (Hq : qq E <= 2 ^ 1024) (rnd : string -> string -> Z) (Hrnd : forall a b, 0 <= rnd a b).
  Context (k : nat) (ss : list seat) (Hg : good_seats E k ss) (mid : string).
  Let d := mkDetails (len ss) (Z.of_nat k).
  Let Hok := seat_ok_of E k ss Hg.
  Let Hnd := gs_ids _ _ _ Hg.
  Let ids := map st_id ss.
  Definition disputed (D : dict (string * string) verification) : mediator := mkMediator mid d (map (key_entry E) ss) (all_backups E rnd ss ss) D.
  Definition hear (D : dict (string * string) verification) (v : verification) : dict (string * string) verification :=
    if eqb (vf_owner v) (vf_designated v) then D else dset (vf_owner v, vf_designated v) v D.
  Definition heard (c : ceremony_call) : list verification :=
    match c with
    | SendVerifications vs => vs
    | SendChallenge c => match verify_polynomial_coordinate E (ch_value c) (ch_seq c) (ch_commitments c) with Ok true => [mkVerif (ch_owner c) (ch_designated c) mid true] | _ => [] end
    | _ => []
    end.
  Definition rp (v : verification) := (vf_owner v, vf_designated v, vf_verified v).
  Lemma says_heard h : flat_map (says E) h = map rp (flat_map heard h).
  Proof.
    induction h as [|c h IH]; [reflexivity|]. cbn [flat_map]. rewrite map_app, IH. f_equal. destruct c as [| | |c|]; try reflexivity. cbn [says heard]. destruct (verify_polynomial_coordinate E _ _ _) as [[|]|]; reflexivity.
  Qed.
  Lemma disputed_available D : all_backups_available (disputed D) = true.
  Proof. change (all_backups_available (m3 E rnd ss d mid []) = true). apply (available E rnd ss Hnd d eq_refl mid). Qed.
  Lemma heard_run : forall h D, Forall (late_call ids) h -> ceremony_run E (disputed D) h = disputed (fold_left hear (flat_map heard h) D).
  Proof.
    assert (HV : forall vs D, fold_left md_receive_verification vs (disputed D) = disputed (fold_left hear vs D)).
    { induction vs as [|v vs IH]; intros D; [reflexivity|]. cbn [fold_left]. rewrite <- IH. f_equal. unfold md_receive_verification, hear. destruct (eqb (vf_owner v) (vf_designated v)); reflexivity. }
    induction h as [|c h IH]; intros D Hl; [reflexivity|]. inversion Hl as [|? ? Hc Hl']; subst. unfold ceremony_run. cbn [fold_left flat_map]. fold (ceremony_run E). rewrite fold_left_app, <- IH by exact Hl'. unfold ceremony_run. f_equal.
    destruct Hc as [vs Hv|c H1 H2]; cbn [ceremony_step heard].
    - unfold receive_verifications. rewrite disputed_available. apply HV.
    - unfold md_verify_challenge, verify_challenge. destruct (verify_polynomial_coordinate E _ _ _) as [[|]|]; cbn [rbind fst vf_verified]; try reflexivity. apply (HV [_]).
  Qed.
  Definition agrees (vs : list verification) (D : dict (string * string) verification) : Prop :=
    NoDup (dkeys D) /\ (forall o r v, dget (o, r) D = Some v -> two_of ids o r /\ vf_owner v = o /\ vf_designated v = r) /\
    (forall o r, o <> r -> option_map vf_verified (dget (o, r) D) = option_map snd (find (fun x => eqb (fst x) (o, r)) (rev (map rp vs)))).
  Lemma heard_agrees : forall vs, (forall v, In v vs -> In (vf_owner v) ids /\ In (vf_designated v) ids) -> agrees vs (fold_left hear vs []).
  Proof.
    intros vs. induction vs as [|v vs IH] using rev_ind; intros Hi; [split; [constructor|]; split; [discriminate|reflexivity]|].
    destruct IH as (A1 & A2 & A3); [intros; apply Hi, in_app_iff; left; assumption|]. destruct (Hi v) as [H1 H2]; [apply in_app_iff; right; left; reflexivity|].
    rewrite fold_left_app. cbn [fold_left]. set (D := fold_left hear vs []) in *. unfold agrees. rewrite map_app, rev_app_distr. cbn [map rev app find]. unfold hear.
    eqb_cases (vf_owner v) (vf_designated v).
    - split; [exact A1|]. split; [exact A2|]. intros o r Hn. rewrite A3 by exact Hn. eqb_cases (fst (rp v)) (o, r); [|reflexivity]. cbn in Heq0. injection Heq0 as <- <-. contradiction.
    - split; [apply dset_nodup; exact A1|]. split.
      + intros o r w Hw. eqb_cases (o, r) (vf_owner v, vf_designated v).
        * injection Heq0 as -> ->. rewrite dget_dset_same in Hw. injection Hw as <-. unfold two_of. auto.
        * rewrite dget_dset_other in Hw by assumption. exact (A2 o r w Hw).
      + intros o r Hn. eqb_cases (fst (rp v)) (o, r); cbn [rp fst] in *.
        * injection Heq0 as <- <-. rewrite dget_dset_same. reflexivity.
        * rewrite dget_dset_other by congruence. apply A3. exact Hn.
  Qed.
  Lemma late_heard h : Forall (late_call ids) h -> forall v, In v (flat_map heard h) -> In (vf_owner v) ids /\ In (vf_designated v) ids.
  Proof.
    intros Hl v Hv. apply in_flat_map in Hv as (c & Hc & Hv). rewrite Forall_forall in Hl. destruct (Hl c Hc) as [vs Hx|x H1 H2]; [exact (Hx v Hv)|]. cbn [heard] in Hv. destruct (verify_polynomial_coordinate E _ _ _) as [[|]|]; try destruct Hv. subst v. cbn. auto. destruct H.
  Qed.

  Lemma combined : combine_keys E (dvals (map (key_entry E) ss)) = honest_key E ss.
  Proof.
    pose proof (published E HE rnd k ss Hok Hnd d eq_refl mid) as H. unfold md_publish_joint_key, md_all_verified in H. rewrite (verified E rnd ss Hnd d eq_refl mid) in H. cbn [vs_all_verified negb] in H. injection H as H1 H2. unfold combine_keys, honest_key. f_equal; [exact H1|exact H2].
  Qed.
  Lemma dispute_state h : Forall (late_call ids) h -> let m := ceremony_run E (disputed []) h in let st := get_verification_state m in
    (vs_all_sent st = true <-> forall o r, two_of ids o r -> last_word E h o r <> None) /\
    (forall o r, In (o, r) (vs_failed st) <-> vs_all_sent st = true /\ two_of ids o r /\ last_word E h o r = Some false) /\
    NoDup (vs_failed st) /\
    ((forall o r, two_of ids o r -> last_word E h o r = Some true) -> st = mkVstate true true [] /\ md_publish_joint_key E m = Some (honest_key E ss)) /\
    ((exists o r, two_of ids o r /\ last_word E h o r <> Some true) -> vs_all_verified st = false /\ md_publish_joint_key E m = None).
  Proof.
    intros Hl. cbv zeta. rewrite heard_run by exact Hl. destruct (heard_agrees (flat_map heard h) (late_heard h Hl)) as (A1 & A2 & A3). rewrite <- says_heard in A3.
    set (D := fold_left hear (flat_map heard h) []) in *. change (forall o r, o <> r -> option_map vf_verified (dget (o, r) D) = last_word E h o r) in A3.
    assert (HD : forall o r, two_of ids o r -> (last_word E h o r <> None <-> In (o, r) (dkeys D))).
    { intros o r (T1 & T2 & T3). rewrite <- A3 by exact T3. split.
      - intros H. destruct (dget (o, r) D) as [v|] eqn:Hv; [|exfalso; apply H; reflexivity]. apply dget_in in Hv. unfold dkeys. apply in_map_iff. exists ((o, r), v). auto.
      - intros H. unfold dkeys in H. apply in_map_iff in H as ([p v] & E1 & E2). cbn in E1. subst p. rewrite (in_dget _ _ _ A1 E2). discriminate. }
    assert (HK : forall o r, In (o, r) (dkeys D) -> two_of ids o r). { intros o r H. unfold dkeys in H. apply in_map_iff in H as ([p v] & E1 & E2). cbn in E1. subst p. exact (proj1 (A2 o r v (in_dget _ _ _ A1 E2))). }
    assert (HS : all_verifications_received (disputed D) = true <-> forall o r, two_of ids o r -> last_word E h o r <> None).
    { unfold all_verifications_received. cbn [md_verifs md_details disputed]. change (dt_number d) with (len ss). rewrite Z.eqb_eq. split.
      - intros H o r HT. apply HD; [exact HT|]. destruct HT as (T1 & T2 & T3). apply (all_pairs ids (dkeys D)); try assumption. unfold dkeys, ids. rewrite !len_map. exact H.
      - intros H. assert (Hx : (length (ordered_pairs ids) = length (dkeys D))%nat).
        { pose proof (available E rnd ss Hnd d eq_refl mid []) as Hav. unfold all_backups_available in Hav. apply andb_prop in Hav as [_ Hav]. apply Z.eqb_eq in Hav. cbn [md_backups m3 md_details] in Hav. change (dt_number d) with (len ss) in Hav.
          pose proof (ordered_pairs_len ids Hnd) as Hop. unfold ids in Hop at 2 3. rewrite !len_map in Hop. pose proof (all_backups_nodup E rnd ss Hnd) as Hnb.
          assert (Hle : (length (dkeys (all_backups E rnd ss ss)) <= length (dkeys D))%nat).
          { apply NoDup_incl_length; [exact Hnb|]. intros [o r] Hin. unfold dkeys in Hin. apply in_map_iff in Hin as ([p b] & E1 & E2). cbn in E1. subst p. unfold all_backups in E2. apply in_flat_map in E2 as (i & Hi & E2). apply in_map_iff in E2 as (j & E3 & E4). injection E3 as <- <- _. apply others_in in E4 as [E4 E5].
            assert (HT : two_of ids (st_id i) (st_id j)) by (unfold two_of; split; [apply in_map; exact Hi|split; [apply in_map; exact E4|congruence]]). apply HD; [exact HT|]. apply H, HT. }
          assert (Hge : (length (dkeys D) <= length (ordered_pairs ids))%nat) by (apply NoDup_incl_length; [exact A1|]; intros [o r] Hin; apply ordered_pairs_in; exact (HK o r Hin)).
          unfold dkeys in Hle at 1. rewrite map_length in Hle. unfold len in *. nia. }
        pose proof (ordered_pairs_len ids Hnd) as Hop. unfold ids in Hop at 2 3. rewrite !len_map in Hop. unfold dkeys in Hx. rewrite map_length in Hx. unfold len in *. lia. }
    assert (HP : map (fun v => (vf_owner v, vf_designated v)) (dvals D) = dkeys D).
    { unfold dvals, dkeys. rewrite map_map. apply map_ext_in. intros [[o r] v] Hin. destruct (A2 o r v (in_dget _ _ _ A1 Hin)) as (_ & <- & <-). reflexivity. }
    assert (HF : forall o r, In (o, r) (map (fun v => (vf_owner v, vf_designated v)) (filter (fun v => negb (vf_verified v)) (dvals D))) <-> two_of ids o r /\ last_word E h o r = Some false).
    { intros o r. split.
      - intros H. apply in_map_iff in H as (v & E1 & E2). apply filter_In in E2 as [E2 E3]. unfold dvals in E2. apply in_map_iff in E2 as ([[o' r'] v'] & E4 & E5). cbn in E4. subst v'. apply (in_dget _ _ _ A1) in E5. destruct (A2 _ _ _ E5) as (HT & <- & <-). injection E1 as <- <-. split; [exact HT|]. destruct HT as (_ & _ & HT). rewrite <- A3 by exact HT. rewrite E5. cbn. destruct (vf_verified v); [discriminate|reflexivity].
      - intros ((T1 & T2 & T3) & H). rewrite <- A3 in H by exact T3. destruct (dget (o, r) D) as [v|] eqn:Hv; [|discriminate]. injection H as H. destruct (A2 _ _ _ Hv) as (_ & <- & <-). apply dget_in in Hv. apply in_map_iff. exists v. split; [reflexivity|]. apply filter_In. split; [|rewrite H; reflexivity]. unfold dvals. apply in_map_iff. eexists (_, v). split; [reflexivity|exact Hv]. }
    unfold md_publish_joint_key, md_all_verified, get_verification_state. rewrite disputed_available. cbn [negb orb].
    destruct (all_verifications_received (disputed D)) eqn:Hr; cbn [negb vs_all_sent vs_failed vs_all_verified].
    - cbn [md_verifs md_keys disputed]. pose proof (proj1 HS eq_refl) as Hall. split; [tauto|]. split; [intros o r; rewrite HF; tauto|]. split; [apply NoDup_map_filter; rewrite HP; exact A1|]. split.
      + intros Ht. assert (Hz : map (fun v => (vf_owner v, vf_designated v)) (filter (fun v => negb (vf_verified v)) (dvals D)) = []).
        { match goal with |- ?l = [] => destruct l as [|[o r] l'] eqn:Hx; [reflexivity|] end. exfalso. destruct (proj1 (HF o r) (or_introl eq_refl)) as [HT HW]. rewrite (Ht o r HT) in HW. discriminate. }
        rewrite Hz. cbn [negb len]. change (len (@nil (string * string)) =? 0) with true. split; [reflexivity|]. cbn [negb]. rewrite combined. reflexivity.
      + intros (o & r & HT & HW). assert (Hin : In (o, r) (map (fun v => (vf_owner v, vf_designated v)) (filter (fun v => negb (vf_verified v)) (dvals D)))).
        { apply HF. split; [exact HT|]. specialize (Hall o r HT). destruct (last_word E h o r) as [[|]|]; [contradiction|reflexivity|contradiction]. }
        match type of Hin with In _ ?l => destruct l as [|x l'] end; [destruct Hin|]. rewrite len_cons. pose proof (len_nonneg l'). destruct (Z.eqb_spec (1 + len l') 0) as [|_]; [lia|]. split; reflexivity.
    - assert (Hn : ~ (forall o r, two_of ids o r -> last_word E h o r <> None)) by (intros H; apply HS in H; discriminate).
      split; [split; [discriminate|tauto]|]. split; [intros o r; split; [intros []|intros [H _]; discriminate]|]. split; [constructor|]. split; [|intros _; split; reflexivity].
      intros Ht. exfalso. apply Hn. intros o r HT. rewrite (Ht o r HT). discriminate.
  Qed.

  Lemma two_rounds_ok : two_rounds E rnd k ss mid (map (g3 E rnd ss d) ss) (disputed []).
  Proof.
    exists (map (g0 E d) ss), (map (g1 E ss d) ss, m1 E ss d mid). split; [exact (created E k ss Hok d eq_refl)|]. split; [exact (round_1_ok E ss Hnd d eq_refl mid)|]. exact (round_2_ok E HE Hmac Hq rnd Hrnd k ss Hok Hnd d eq_refl mid).
  Qed.
  Lemma two_rounds_only gs m : two_rounds E rnd k ss mid gs m -> gs = map (g3 E rnd ss d) ss /\ m = disputed [].
  Proof.
    intros (gs0 & r1 & H1 & H2 & H3). destruct two_rounds_ok as (gs0' & r1' & K1 & K2 & K3). rewrite K1 in H1. injection H1 as <-. rewrite K2 in H2. injection H2 as <-. rewrite K3 in H3. injection H3 as <- <-. auto.
  Qed.
  Lemma seat_of o : In o ids -> exists s, In s ss /\ st_id s = o.
  Proof. intros H. apply in_map_iff in H as (s & H1 & H2). eauto. Qed.
  Lemma find_guardian s : In s ss -> find (fun g => eqb (gd_id g) (st_id s)) (map (g3 E rnd ss d) ss) = Some (g3 E rnd ss d s).
  Proof.
    assert (H : forall l, NoDup (map st_id l) -> In s l -> find (fun g => eqb (gd_id g) (st_id s)) (map (g3 E rnd ss d) l) = Some (g3 E rnd ss d s)); [|exact (H ss Hnd)].
    induction l as [|a l IH]; intros Hn Hi; [destruct Hi|]. cbn [map find]. change (gd_id (g3 E rnd ss d a)) with (st_id a). cbn [map] in Hn. apply NoDup_cons_iff in Hn as [N1 N2]. eqb_cases (st_id a) (st_id s).
    - destruct Hi as [->|Hi]; [reflexivity|]. exfalso. apply N1. rewrite Heq. apply in_map. exact Hi.
    - destruct Hi as [->|Hi]; [congruence|]. exact (IH N2 Hi).
  Qed.
  Lemma answered o r : two_of ids o r -> exists c, answer E (map (g3 E rnd ss d) ss) (o, r) = Ok c /\ ch_owner c = o /\ ch_designated c = r /\
    (forall m, snd (md_verify_challenge E m c) = Ok (mkVerif o r (md_id m) true)) /\ says E (SendChallenge c) = [(o, r, true)] /\
    exists so sr, In so ss /\ In sr ss /\ st_id so = o /\ st_id sr = r /\ ch_commitments c = map (gexp E) (st_secrets so) /\ ch_value c = poly_at (st_secrets so) (st_seq sr) mod qq E.
  Proof.
    intros (T1 & T2 & T3). destruct (seat_of o T1) as (so & S1 & <-). destruct (seat_of r T2) as (sr & R1 & <-). unfold answer. cbn [fst snd]. rewrite find_guardian by exact S1.
    assert (Hb : dget (st_id sr) (gd_to_share (g3 E rnd ss d so)) = Some (bk E rnd so sr)).
    { cbn [gd_to_share g3]. unfold outbox. apply in_dget; [unfold dkeys; rewrite map_map; exact (self_others_nodup ss Hnd so)|]. apply in_map_iff. exists sr. split; [reflexivity|]. right. apply others_in. split; [exact R1|congruence]. }
    unfold gd_publish_challenge. rewrite Hb. change (ek_poly (gd_keys (g3 E rnd ss d so))) with (generate_polynomial E (st_draws so)).
    destruct (Hok so S1) as (_ & _ & L1 & L2 & _). destruct (Hok sr R1) as (_ & _ & _ & _ & M1 & M2).
    destruct (challenge_answered E mid (bk E rnd so sr) (st_draws so) HE) as (c & C1 & C2 & C3 & C4); [unfold st_secrets in L2; rewrite Forall_map in L2; exact L2|exact M1|intros j Hj; apply M2; unfold zlen in Hj; rewrite L1 in Hj; exact Hj|].
    rewrite C1. cbn [rbind get_optional]. exists c. split; [reflexivity|]. assert (Hc : ch_owner c = st_id so /\ ch_designated c = st_id sr). { unfold generate_challenge in C1. match type of C1 with rbind ?e _ = _ => destruct e; cbn [rbind] in C1; [|discriminate] end. injection C1 as <-. split; reflexivity. }
    destruct Hc as [Hc1 Hc2]. split; [exact Hc1|]. split; [exact Hc2|]. unfold verify_challenge in C4. destruct (verify_polynomial_coordinate E (ch_value c) (ch_seq c) (ch_commitments c)) as [b|] eqn:Hv; cbn [rbind] in C4; [|discriminate]. injection C4 as _ _ ->.
    split; [intros m; unfold md_verify_challenge, verify_challenge; rewrite Hv; cbn [rbind snd]; rewrite Hc1, Hc2; reflexivity|]. split; [cbn [says]; rewrite Hv, Hc1, Hc2; reflexivity|].
    exists so, sr. do 4 (split; [assumption || reflexivity|]). split; [rewrite C2; unfold st_secrets; rewrite map_map; reflexivity|exact C3].
  Qed.
  Lemma answered_all : forall l, (forall o r, In (o, r) l -> two_of ids o r) -> exists cs, rmapM (answer E (map (g3 E rnd ss d) ss)) l = Ok cs /\
    Forall (late_call ids) (map SendChallenge cs) /\ flat_map (says E) (map SendChallenge cs) = map (fun p => (fst p, snd p, true)) l.
  Proof.
    induction l as [|[o r] l IH]; intros Hl; [exists []; repeat split; constructor|]. destruct IH as (cs & I1 & I2 & I3); [intros; apply Hl; right; assumption|].
    pose proof (Hl o r (or_introl eq_refl)) as HT. destruct (answered o r HT) as (c & A1 & A2 & A3 & _ & A5 & _). exists (c :: cs). cbn [rmapM]. rewrite A1. cbn [rbind]. rewrite I1. split; [reflexivity|]. split.
    - constructor; [|exact I2]. destruct HT as (T1 & T2 & _). constructor; [rewrite A2; exact T1|rewrite A3; exact T2].
    - cbn [map flat_map]. rewrite A5, I3. reflexivity.
  Qed.
  Lemma resolved h l : Forall (late_call ids) h -> let st := get_verification_state (ceremony_run E (disputed []) h) in vs_all_sent st = true -> incl l (vs_failed st) ->
    exists cs, rmapM (answer E (map (g3 E rnd ss d) ss)) l = Ok cs /\ let m := ceremony_run E (disputed []) (h ++ map SendChallenge cs) in
      vs_all_sent (get_verification_state m) = true /\ (forall p, In p (vs_failed (get_verification_state m)) <-> In p (vs_failed st) /\ ~ In p l) /\
      (incl (vs_failed st) l -> md_publish_joint_key E m = Some (honest_key E ss)).
  Proof.
    intros Hl st Hs Hi. destruct (dispute_state h Hl) as (D1 & D2 & _). fold st in D1, D2.
    destruct (answered_all l) as (cs & A1 & A2 & A3); [intros o r H; apply Hi, D2 in H; tauto|]. exists cs. split; [exact A1|]. cbv zeta.
    assert (HL : Forall (late_call ids) (h ++ map SendChallenge cs)) by (apply Forall_app; split; assumption). destruct (dispute_state _ HL) as (F1 & F2 & _ & F4 & _).
    assert (HW : forall o r, last_word E (h ++ map SendChallenge cs) o r = if inb (o, r) l then Some true else last_word E h o r).
    { intros o r. rewrite last_word_app. unfold last_word at 1. rewrite A3. destruct (inb (o, r) l) eqn:Hb.
      - apply inb_spec in Hb. rewrite (find_const (fun _ => true) (o, r)); [reflexivity| |].
        + intros x Hx. apply in_rev, in_map_iff in Hx as (p & <- & _). reflexivity.
        + rewrite map_rev, <- in_rev, map_map. cbn [fst]. apply in_map_iff. exists (o, r). auto.
      - apply inb_false in Hb. rewrite find_absent; [reflexivity|]. rewrite map_rev, <- in_rev, map_map. cbn [fst]. intros Hx. apply in_map_iff in Hx as ([o' r'] & Ex & Hx). cbn in Ex. injection Ex as -> ->. contradiction. }
    assert (HS : vs_all_sent (get_verification_state (ceremony_run E (disputed []) (h ++ map SendChallenge cs))) = true).
    { apply F1. intros o r HT. rewrite HW. destruct (inb (o, r) l); [discriminate|]. exact (proj1 D1 Hs o r HT). }
    split; [exact HS|]. split.
    - intros [o r]. rewrite F2, D2, HW. destruct (inb (o, r) l) eqn:Hb; [apply inb_spec in Hb|apply inb_false in Hb]; [|tauto]. split; [intros (_ & _ & X); discriminate|intros [_ X]; contradiction].
    - intros Hall. apply F4. intros o r HT. rewrite HW. destruct (inb (o, r) l) eqn:Hb; [reflexivity|]. apply inb_false in Hb. pose proof (proj1 D1 Hs o r HT) as Hn. destruct (last_word E h o r) as [[|]|] eqn:Hw; [reflexivity| |contradiction]. exfalso. apply Hb, Hall, D2. auto.
  Qed.

  Lemma one_failed a b rest : ss = a :: b :: rest -> exists m c, fail_round_3 E (map (g3 E rnd ss d) ss) (disputed []) = Ok (m, (st_id a, st_id b)) /\
    get_verification_state m = mkVstate true false [(st_id a, st_id b)] /\ md_publish_joint_key E m = None /\
    answer E (map (g3 E rnd ss d) ss) (st_id a, st_id b) = Ok c /\ md_publish_joint_key E (fst (md_verify_challenge E m c)) = Some (honest_key E ss).
  Proof.
    intros Hss. set (rep := fun i j => if eqb (st_id j) (st_id a) && eqb (st_id i) (st_id b) then mkVerif (st_id a) (st_id b) (st_id b) false else good_verif j i).
    set (call := fun i j => SendVerifications (if eqb (st_id i) (st_id j) then [] else [rep i j])). set (h := flat_map (fun i => map (call i) ss) ss).
    assert (Hf : fail_round_3 E (map (g3 E rnd ss d) ss) (disputed []) = Ok (ceremony_run E (disputed []) h, (st_id a, st_id b))).
    { unfold fail_round_3. replace (map (g3 E rnd ss d) ss) with (g3 E rnd ss d a :: g3 E rnd ss d b :: map (g3 E rnd ss d) rest) at 1 by (rewrite Hss; reflexivity).
      change (gd_id (g3 E rnd ss d a)) with (st_id a). change (gd_id (g3 E rnd ss d b)) with (st_id b).
      match goal with |- rbind ?e _ = _ => assert (Hr : e = Ok (ceremony_run E (disputed []) h)); [|rewrite Hr; reflexivity] end.
      unfold h. rewrite <- fold_run, rfold_map. apply rfold_plain. intros i m Hi. rewrite <- steps_run, rfold_map. apply rfold_plain. intros j m' Hj.
      change (gd_id (g3 E rnd ss d i)) with (st_id i). change (gd_id (g3 E rnd ss d j)) with (st_id j). unfold call. cbn [ceremony_step]. eqb_cases (st_id i) (st_id j); cbn [rbind]; [reflexivity|].
      rewrite (verify_one E HE Hmac Hq rnd Hrnd k ss Hok Hnd d i j Hi) by (apply others_in; split; [exact Hj|congruence]). reflexivity. }
    assert (HL : Forall (late_call ids) h).
    { apply Forall_forall. intros c Hc. apply in_flat_map in Hc as (i & Hi & Hc). apply in_map_iff in Hc as (j & <- & Hj). constructor. intros v Hv. destruct (eqb (st_id i) (st_id j)); [destruct Hv|]. destruct Hv as [<-|[]]. unfold rep. destruct (_ && _); cbn [vf_owner vf_designated good_verif]; subst ids; [rewrite Hss; cbn; auto|]. split; apply in_map; assumption. }
    set (f := fun p : string * string => negb (eqb (fst p) (st_id a) && eqb (snd p) (st_id b))).
    assert (HW : forall o r, two_of ids o r -> last_word E h o r = Some (f (o, r))).
    { intros o r (T1 & T2 & T3). unfold last_word. apply find_const.
      - intros x Hx. apply in_rev, in_flat_map in Hx as (c & Hc & Hx). apply in_flat_map in Hc as (i & Hi & Hc). apply in_map_iff in Hc as (j & <- & Hj). unfold call in Hx. cbn [says] in Hx. destruct (eqb (st_id i) (st_id j)); [destruct Hx|]. cbn [map] in Hx. destruct Hx as [<-|[]]. unfold rep, f.
        destruct (eqb (st_id j) (st_id a) && eqb (st_id i) (st_id b)) eqn:Hb; cbn [vf_owner vf_designated vf_verified good_verif fst snd]; [rewrite !eqb_refl'; reflexivity|rewrite Hb; reflexivity].
      - rewrite map_rev, <- in_rev. destruct (seat_of o T1) as (j & Hj & <-). destruct (seat_of r T2) as (i & Hi & <-). apply in_map_iff. exists (rp (rep i j)). split.
        + unfold rep. eqb_cases (st_id j) (st_id a); [|reflexivity]. eqb_cases (st_id i) (st_id b); [|reflexivity]. cbn. congruence.
        + apply in_flat_map. exists (call i j). split; [apply in_flat_map; exists i; split; [exact Hi|]; apply in_map; exact Hj|]. unfold call. cbn [says]. eqb_cases (st_id i) (st_id j); [congruence|]. left. reflexivity. }
    assert (HT : two_of ids (st_id a) (st_id b)).
    { unfold two_of. subst ids. pose proof Hnd as Hn. rewrite Hss in Hn |- *. cbn in Hn |- *. apply NoDup_cons_iff in Hn as [N1 _]. split; [auto|]. split; [auto|]. intros Hc. apply N1. left. symmetry. exact Hc. }
    assert (Hfab : f (st_id a, st_id b) = false) by (unfold f; cbn [fst snd]; rewrite !eqb_refl'; reflexivity).
    destruct (dispute_state h HL) as (D1 & D2 & D3 & _ & D5). set (m := ceremony_run E (disputed []) h) in *. destruct D5 as (D5 & D6); [exists (st_id a), (st_id b); split; [exact HT|]; rewrite (HW _ _ HT), Hfab; discriminate|].
    assert (DS : vs_all_sent (get_verification_state m) = true) by (apply D1; intros o r Ht; rewrite (HW o r Ht); discriminate).
    assert (DF : vs_failed (get_verification_state m) = [(st_id a, st_id b)]).
    { assert (Hin : forall p, In p (vs_failed (get_verification_state m)) <-> p = (st_id a, st_id b)).
      { intros [o r]. rewrite D2. split.
        - intros (_ & Ht & Hw). rewrite (HW o r Ht) in Hw. unfold f in Hw. cbn [fst snd] in Hw. eqb_cases o (st_id a); [|discriminate]. eqb_cases r (st_id b); [|discriminate]. congruence.
        - intros Heq. injection Heq as -> ->. split; [exact DS|]. split; [exact HT|]. rewrite (HW _ _ HT), Hfab. reflexivity. }
      destruct (vs_failed (get_verification_state m)) as [|x [|y l]].
      - exfalso. apply (Hin (st_id a, st_id b)). reflexivity.
      - f_equal. apply Hin. left. reflexivity.
      - exfalso. apply NoDup_cons_iff in D3 as [N1 _]. apply N1. left. rewrite (proj1 (Hin x)) by (left; reflexivity). apply Hin. right. left. reflexivity. }
    destruct (resolved h [(st_id a, st_id b)] HL) as (cs & R1 & _ & _ & R3); [exact DS|fold m; rewrite DF; apply incl_refl|]. cbn [rmapM] in R1. destruct (answer E (map (g3 E rnd ss d) ss) (st_id a, st_id b)) as [c|] eqn:Hc; cbn [rbind] in R1; [|discriminate]. injection R1 as <-.
    exists m, c. split; [exact Hf|]. split; [destruct (get_verification_state m) as [x y z]; cbn in DS, DF, D5; congruence|]. split; [exact D6|]. split; [reflexivity|].
    fold m in R3. rewrite DF in R3. specialize (R3 (incl_refl _)). unfold ceremony_run in R3. rewrite fold_left_app in R3. exact R3.
  Qed.
End Dispute.

(** ** three guardians *)
Lemma demo_pairs (P : string -> string -> Prop) : P "alice"%string "bob"%string -> P "alice"%string "carol"%string -> P "bob"%string "alice"%string -> P "bob"%string "carol"%string -> P "carol"%string "alice"%string -> P "carol"%string "bob"%string ->
  forall o r, two_of (map st_id demo_seats) o r -> P o r.
Proof.
  intros P1 P2 P3 P4 P5 P6 o r (T1 & T2 & T3). cbn in T1, T2. destruct T1 as [<-|[<-|[<-|[]]]]; destruct T2 as [<-|[<-|[<-|[]]]]; try assumption; exfalso; apply T3; reflexivity.
Qed.
