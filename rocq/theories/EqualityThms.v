(** * EqualityThms: what follows from [==] between manifests and between ballots. *)
From Coq Require Import List QArith Permutation Bool.
From Verif Require Import Base Group Codec Hash ElGamal ZK Manifest Ballot ListFacts Equality SpecEquality EqualityFacts.
Local Open Scope list_scope.
Local Open Scope Z_scope.

Lemma list_eq_perm {A} (key : A -> string) same l k :
  (forall a b, same a b = true <-> a = b) -> list_eq key same l k = true -> Permutation l k.
Proof. intros H E. apply pairs_up_eq. apply list_eq_pairs in E. revert E. apply pairs_up_mono. intros a b. apply H. Qed.
Lemma perm_list_eq {A} (key : A -> string) same l k :
  (forall a b, same a b = true <-> a = b) -> NoDup (map key l) -> Permutation l k -> list_eq key same l k = true.
Proof.
  intros H N P. apply (pairs_list_eq key same eq); [congruence| |exact N|apply pairs_up_eq; exact P].
  intros a b -> _. apply H. reflexivity.
Qed.
Lemma list_eq_iff {A} (key : A -> string) same l k :
  (forall a b, same a b = true <-> a = b) -> NoDup (map key l) -> (list_eq key same l k = true <-> Permutation l k).
Proof. intros H N. split; [apply list_eq_perm, H|apply perm_list_eq; assumption]. Qed.

(** ** Contests and manifests *)
Lemma plain_contest_same a b : plain_contest_eq a b = true -> same_contest a b.
Proof.
  unfold plain_contest_eq, same_contest. rewrite !andb_true_iff, !str_iff, !Z.eqb_eq, !(opt_eqb_iff _ Z.eqb_eq), !(opt_eqb_iff _ i18n_iff).
  intros ((((((((? & ?) & ?) & ?) & ?) & ?) & L) & ?) & ?). apply (list_eq_perm _ _ _ _ sel_iff) in L.
  repeat (split; [assumption|]). assumption.
Qed.
Lemma same_plain_contest a b : NoDup (map sd_id (cd_selections a)) -> same_contest a b -> plain_contest_eq a b = true.
Proof.
  unfold plain_contest_eq, same_contest. rewrite !andb_true_iff, !str_iff, !Z.eqb_eq, !(opt_eqb_iff _ Z.eqb_eq), !(opt_eqb_iff _ i18n_iff).
  intros N (? & ? & ? & ? & ? & ? & P & ? & ?).
  pose proof (perm_list_eq _ _ _ _ sel_iff N P). tauto.
Qed.
Lemma plain_contest_sym a b : plain_contest_eq a b = plain_contest_eq b a.
Proof.
  assert (S : forall X (f : X -> X -> bool), (forall x y, f x y = true <-> x = y) -> forall x y, f x y = f y x).
  { intros X f H x y. destruct (f x y) eqn:E.
    - apply H in E. subst. symmetry. apply H. reflexivity.
    - destruct (f y x) eqn:E'; [|reflexivity]. apply H in E'. subst. rewrite <- E. apply H. reflexivity. }
  unfold plain_contest_eq.
  rewrite (S _ _ str_iff (cd_district a)), (Z.eqb_sym (cd_seq a)), (S _ _ str_iff (cd_vote_variation a)),
    (Z.eqb_sym (cd_number_elected a)), (S _ _ (opt_eqb_iff _ Z.eqb_eq) (cd_votes_allowed a)), (S _ _ str_iff (cd_name a)),
    (list_eq_sym _ _ (cd_selections a) (cd_selections b) (S _ _ sel_iff)),
    (S _ _ (opt_eqb_iff _ i18n_iff) (cd_title a)), (S _ _ (opt_eqb_iff _ i18n_iff) (cd_subtitle a)). reflexivity.
Qed.
Lemma same_contest_sym a b : same_contest a b -> same_contest b a.
Proof. unfold same_contest. intros (? & ? & ? & ? & ? & ? & P & ? & ?). symmetry in P. repeat (split; [congruence || assumption|]). congruence. Qed.
Lemma candidate_contest_iff a b pa pb :
  cd_primary_party_ids a = Some pa -> cd_primary_party_ids b = Some pb -> (candidate_contest_eq a b pa pb = true <-> a = b).
Proof.
  unfold candidate_contest_eq. intros Ha Hb.
  rewrite !andb_true_iff, !str_iff, !Z.eqb_eq, !(opt_eqb_iff _ Z.eqb_eq), !(opt_eqb_iff _ i18n_iff), !(list_eqb_iff _ sel_iff), !strs_iff.
  destruct a, b; simpl in *. subst. split.
  - intuition (subst; reflexivity).
  - intro E. injection E; intros; subst. intuition reflexivity.
Qed.
Lemma contest_eq_same a b : contest_eq a b = true -> same_contest a b.
Proof.
  unfold contest_eq. destruct (cd_primary_party_ids a) eqn:Pa; [|apply plain_contest_same].
  destruct (cd_primary_party_ids b) eqn:Pb.
  - rewrite (candidate_contest_iff _ _ _ _ Pa Pb). intros ->. unfold same_contest. repeat (split; [reflexivity|]). reflexivity.
  - intro H. apply same_contest_sym, plain_contest_same, H.
Qed.
Lemma plain_contest_refl a : plain_contest_eq a a = true.
Proof.
  unfold plain_contest_eq. rewrite !andb_true_iff, !str_iff, !Z.eqb_eq, !(opt_eqb_iff _ Z.eqb_eq), !(opt_eqb_iff _ i18n_iff).
  pose proof (list_eq_refl sd_id sel_eq (cd_selections a) (fun x _ => proj2 (sel_iff x x) eq_refl)). intuition reflexivity.
Qed.
Lemma contest_eq_refl a : contest_eq a a = true.
Proof.
  unfold contest_eq. destruct (cd_primary_party_ids a) eqn:P; [|apply plain_contest_refl].
  apply (candidate_contest_iff _ _ _ _ P P). reflexivity.
Qed.
Lemma contest_eq_sym a b : contest_eq a b = contest_eq b a.
Proof.
  unfold contest_eq. destruct (cd_primary_party_ids a) eqn:Pa, (cd_primary_party_ids b) eqn:Pb; try reflexivity; try apply plain_contest_sym.
  destruct (candidate_contest_eq a b l l0) eqn:E.
  - apply (candidate_contest_iff _ _ _ _ Pa Pb) in E. subst. symmetry. apply (candidate_contest_iff _ _ _ _ Pb Pa). reflexivity.
  - destruct (candidate_contest_eq b a l0 l) eqn:E'; [|reflexivity].
    apply (candidate_contest_iff _ _ _ _ Pb Pa) in E'. subst. rewrite <- E. apply (candidate_contest_iff _ _ _ _ Pa Pb). reflexivity.
Qed.
Lemma plain_contest_trans a b c : plain_contest_eq a b = true -> plain_contest_eq b c = true -> plain_contest_eq a c = true.
Proof.
  unfold plain_contest_eq. rewrite !andb_true_iff, !str_iff, !Z.eqb_eq, !(opt_eqb_iff _ Z.eqb_eq), !(opt_eqb_iff _ i18n_iff).
  intros ((((((((? & ?) & ?) & ?) & ?) & ?) & L) & ?) & ?) ((((((((? & ?) & ?) & ?) & ?) & ?) & L') & ?) & ?).
  assert (list_eq sd_id sel_eq (cd_selections a) (cd_selections c) = true).
  { eapply list_eq_trans; [|exact L|exact L']. intros x y z _ _ _. rewrite !sel_iff. congruence. }
  repeat split; congruence.
Qed.
Lemma reordered_contest_eq a b : reordered_contest a b -> contest_eq a b = true.
Proof.
  intros [->|(_ & S & P & N)]; [apply contest_eq_refl|].
  pose proof (same_plain_contest a b N S) as H. unfold contest_eq.
  destruct P as [P|P]; rewrite P; [exact H|]. destruct (cd_primary_party_ids a); [rewrite plain_contest_sym|]; exact H.
Qed.

Ltac open_m := unfold manifest_eq; rewrite !andb_true_iff, !str_iff, !(opt_eqb_iff _ i18n_iff), !(opt_eqb_iff _ contact_iff).

Lemma manifest_eq_same a b : manifest_eq a b = true -> same_manifest same_contest a b.
Proof.
  open_m. unfold same_manifest.
  intros ((((((((((? & ?) & ?) & ?) & L1) & L2) & L3) & L4) & L5) & ?) & ?).
  apply (list_eq_perm _ _ _ _ gp_unit_iff) in L1. apply (list_eq_perm _ _ _ _ party_iff) in L2.
  apply (list_eq_perm _ _ _ _ candidate_iff) in L3. apply (list_eq_perm _ _ _ _ style_iff) in L5.
  apply list_eq_pairs in L4. apply (pairs_up_mono _ _ _ _ contest_eq_same) in L4. tauto.
Qed.
Lemma reordered_manifest_eq a b : ids_differ a -> same_manifest reordered_contest a b -> manifest_eq a b = true.
Proof.
  intros (N1 & N2 & N3 & N4 & N5) (? & ? & ? & ? & P1 & P2 & P3 & P4 & P5 & ? & ?). open_m.
  apply (perm_list_eq _ _ _ _ gp_unit_iff N1) in P1. apply (perm_list_eq _ _ _ _ party_iff N2) in P2.
  apply (perm_list_eq _ _ _ _ candidate_iff N3) in P3. apply (perm_list_eq _ _ _ _ style_iff N5) in P5.
  apply (pairs_list_eq cd_id contest_eq) in P4; [tauto| | |exact N4].
  - intros x y [->|(E & _)]; [reflexivity|exact E].
  - intros x y Hxy _. apply reordered_contest_eq, Hxy.
Qed.
Lemma manifest_eq_refl a : manifest_eq a a = true.
Proof.
  open_m. repeat split; apply list_eq_refl; intros x _;
    [apply gp_unit_iff|apply party_iff|apply candidate_iff|apply contest_eq_refl|apply style_iff]; reflexivity.
Qed.
Lemma iff_sym {X} (f : X -> X -> bool) : (forall x y, f x y = true <-> x = y) -> forall x y, f x y = f y x.
Proof.
  intros H x y. destruct (f x y) eqn:E.
  - apply H in E. subst. symmetry. apply H. reflexivity.
  - destruct (f y x) eqn:E'; [|reflexivity]. apply H in E'. subst. rewrite <- E. apply H. reflexivity.
Qed.
Lemma manifest_eq_sym a b : manifest_eq a b = manifest_eq b a.
Proof.
  unfold manifest_eq.
  rewrite (iff_sym _ str_iff (mf_scope_id a)), (iff_sym _ str_iff (mf_type a)), (iff_sym _ str_iff (mf_start a)), (iff_sym _ str_iff (mf_end a)),
    (list_eq_sym _ _ (mf_gp_units a) (mf_gp_units b) (iff_sym _ gp_unit_iff)), (list_eq_sym _ _ (mf_parties a) (mf_parties b) (iff_sym _ party_iff)),
    (list_eq_sym _ _ (mf_candidates a) (mf_candidates b) (iff_sym _ candidate_iff)), (list_eq_sym _ _ (mf_styles a) (mf_styles b) (iff_sym _ style_iff)),
    (list_eq_sym _ _ (mf_contests a) (mf_contests b) contest_eq_sym),
    (iff_sym _ (opt_eqb_iff _ i18n_iff) (mf_name a)), (iff_sym _ (opt_eqb_iff _ contact_iff) (mf_contact a)). reflexivity.
Qed.
Lemma iff_trans_in {X} (f : X -> X -> bool) (key : X -> string) l k m : (forall x y, f x y = true <-> x = y) ->
  list_eq key f l k = true -> list_eq key f k m = true -> list_eq key f l m = true.
Proof. intros H. apply list_eq_trans. intros a b c _ _ _. rewrite !H. congruence. Qed.
Lemma manifest_eq_trans a b c : plain a -> plain b -> plain c ->
  manifest_eq a b = true -> manifest_eq b c = true -> manifest_eq a c = true.
Proof.
  unfold plain. intros Pa Pb Pc. open_m.
  intros ((((((((((? & ?) & ?) & ?) & L1) & L2) & L3) & L4) & L5) & ?) & ?) ((((((((((? & ?) & ?) & ?) & K1) & K2) & K3) & K4) & K5) & ?) & ?).
  pose proof (iff_trans_in _ _ _ _ _ gp_unit_iff L1 K1). pose proof (iff_trans_in _ _ _ _ _ party_iff L2 K2).
  pose proof (iff_trans_in _ _ _ _ _ candidate_iff L3 K3). pose proof (iff_trans_in _ _ _ _ _ style_iff L5 K5).
  assert (list_eq cd_id contest_eq (mf_contests a) (mf_contests c) = true).
  { eapply list_eq_trans; [|exact L4|exact K4]. intros x y z Hx Hy Hz.
    rewrite Forall_forall in Pa, Pb, Pc. unfold contest_eq. rewrite (Pa _ Hx), (Pb _ Hy). apply plain_contest_trans. }
  repeat split; congruence.
Qed.

(** ** When equal manifests have one hash *)
Lemma pairs_same_order {A} (key : A -> string) (R : A -> A -> Prop) l k :
  (forall a b, R a b -> key a = key b) -> NoDup (map key k) -> map key l = map key k -> pairs_up R l k -> Forall2 R l k.
Proof.
  intros K N M (m & P & F).
  assert (M' : map key l = map key m) by (clear - K F; induction F; simpl; [reflexivity|f_equal; auto]).
  assert (m = k) as ->; [|exact F].
  rewrite M in M'. clear - P N M'. assert (G : forall x, In x m -> In x k) by (intros x Hx; eapply Permutation_in; [symmetry; exact P|exact Hx]).
  clear P. revert m M' G N. induction k as [|a k IH]; intros [|b m] M G N; try discriminate; [reflexivity|].
  simpl in M, N. apply NoDup_cons_iff in N as [Na N]. injection M as E M.
  assert (b = a) as ->.
  { destruct (G b (or_introl eq_refl)) as [H|H]; [congruence|]. exfalso. apply Na. rewrite E. apply in_map, H. }
  f_equal. apply IH; try assumption. intros x Hx. destruct (G x (or_intror Hx)) as [->|H]; [|exact H].
  exfalso. apply Na. rewrite M. apply in_map, Hx.
Qed.
Lemma perm_same_order {A} (key : A -> string) (l k : list A) : NoDup (map key k) -> map key l = map key k -> Permutation l k -> l = k.
Proof. intros N M P. apply f2_eq. apply (pairs_same_order key); try assumption; [congruence|apply pairs_up_eq, P]. Qed.

Lemma list_eq_keyed {A} (key : A -> string) same l k : map key l = map key k ->
  list_eq key same l k = true -> pairs_up (fun a b => same a b = true /\ key a = key b) l k.
Proof.
  intros M. unfold list_eq. rewrite list_eqb_f2. intro F.
  assert (F' : Forall2 (fun a b => same a b = true /\ key a = key b) (sort_id key l) (sort_id key k)).
  { assert (MS : map key (sort_id key l) = map key (sort_id key k)).
    { clear F. revert k M. induction l as [|x l IH]; intros [|y k] M; try discriminate; [reflexivity|].
      simpl in M |- *. injection M as E M. specialize (IH k M). revert IH.
      generalize (sort_id key l) (sort_id key k). clear - E.
      intros u. induction u as [|a u IH]; intros [|b v] M; try discriminate; simpl; [congruence|].
      simpl in M. injection M as Ea M. rewrite E, Ea. destruct (String.leb _ _); simpl; [congruence|]. f_equal; [exact Ea|apply IH, M]. }
    clear M. induction F; simpl in MS; constructor.
    - split; [assumption|congruence].
    - apply IHF. congruence. }
  destruct (Permutation_Forall2 (Permutation_sym (sort_id_perm key l)) F') as (m & P & G).
  exists m. split; [|exact G]. rewrite (sort_id_perm key k). exact P.
Qed.

Lemma same_order_hash E a b : ids_differ b -> Forall (fun c => NoDup (map sd_id (cd_selections c))) (mf_contests b) ->
  same_order a b -> manifest_eq a b = true -> manifest_hash E a = manifest_hash E b.
Proof.
  intros (N1 & N2 & N3 & N4 & N5) NS (O1 & O2 & O5 & O4). open_m.
  intros ((((((((((E1 & E2) & E3) & E4) & L1) & L2) & L3) & L4) & L5) & E5) & E6).
  apply (list_eq_perm _ _ _ _ gp_unit_iff) in L1. apply (list_eq_perm _ _ _ _ party_iff) in L2. apply (list_eq_perm _ _ _ _ style_iff) in L5.
  apply (perm_same_order _ _ _ N1 O1) in L1. apply (perm_same_order _ _ _ N2 O2) in L2. apply (perm_same_order _ _ _ N5 O5) in L5.
  assert (M : map cd_id (mf_contests a) = map cd_id (mf_contests b)).
  { pose proof (f_equal (map fst) O4) as H. rewrite !map_map in H. simpl in H. exact H. }
  apply (list_eq_keyed _ _ _ _ M) in L4.
  apply (pairs_same_order cd_id) in L4; [|intros x y [_ H]; exact H|exact N4|exact M].
  assert (H : map (contest_hash E) (mf_contests a) = map (contest_hash E) (mf_contests b)).
  { clear - L4 O4 NS. induction L4 as [|x y l k [Hxy Hid] F IH]; [reflexivity|]. simpl in O4 |- *.
    inversion NS as [|? ? Ny NS']; subst. injection O4 as _ Os O4. f_equal; [|apply IH; assumption].
    apply contest_eq_same in Hxy. destruct Hxy as (? & ? & ? & ? & ? & ? & P & ? & ?).
    apply (perm_same_order _ _ _ Ny Os) in P. unfold contest_hash. congruence. }
  unfold manifest_hash. rewrite E1, E2, E3, E4, E5, E6, L1, L2, L5.
  assert (H' : map (fun c => HHash (contest_hash E c)) (mf_contests a) = map (fun c => HHash (contest_hash E c)) (mf_contests b)).
  { rewrite <- !(map_map (contest_hash E) HHash). f_equal. exact H. }
  rewrite H'. reflexivity.
Qed.
Lemma hash_blind E m version cs : manifest_hash E (with_candidates m version cs) = manifest_hash E m.
Proof. reflexivity. Qed.

(** ** Ballots *)
Lemma pt_contest_same a b : pt_contest_eq a b = true -> same_votes a b.
Proof. apply (list_eq_perm _ _ _ _ pt_selection_iff). Qed.
Lemma pt_ballot_same a b : pt_ballot_eq a b = true -> pb_style a = pb_style b /\ pairs_up same_votes (pb_contests a) (pb_contests b).
Proof.
  unfold pt_ballot_eq. rewrite andb_true_iff, str_iff. intros (S & L). split; [exact S|].
  apply list_eq_pairs in L. revert L. apply pairs_up_mono, pt_contest_same.
Qed.
Lemma pt_ballot_back a b : NoDup (map pc_id (pb_contests a)) -> Forall (fun c => NoDup (map ps_id (pc_selections c))) (pb_contests a) ->
  pb_style a = pb_style b -> pairs_up (fun x y => pc_id x = pc_id y /\ same_votes x y) (pb_contests a) (pb_contests b) -> pt_ballot_eq a b = true.
Proof.
  intros N NS S P. unfold pt_ballot_eq. rewrite andb_true_iff, str_iff. split; [exact S|].
  apply (pairs_list_eq pc_id pt_contest_eq) in P; [exact P|intros x y [H _]; exact H| |exact N].
  intros x y [_ H] Hx. rewrite Forall_forall in NS. apply (perm_list_eq _ _ _ _ pt_selection_iff (NS _ Hx) H).
Qed.

Lemma ct_contest_same a b : ct_contest_eq a b = true -> same_encrypted_contest a b.
Proof.
  unfold ct_contest_eq, same_encrypted_contest.
  rewrite !andb_true_iff, !str_iff, !Z.eqb_eq, !(opt_eqb_iff _ Z.eqb_eq), !(opt_eqb_iff _ const_iff).
  intros (((((? & L) & ?) & ?) & ?) & ?). apply (list_eq_perm _ _ _ _ ct_selection_iff) in L. tauto.
Qed.
Lemma same_ct_contest a b : NoDup (map cs_id (bc_selections a)) -> same_encrypted_contest a b -> ct_contest_eq a b = true.
Proof.
  unfold ct_contest_eq, same_encrypted_contest.
  rewrite !andb_true_iff, !str_iff, !Z.eqb_eq, !(opt_eqb_iff _ Z.eqb_eq), !(opt_eqb_iff _ const_iff).
  intros N (? & P & ? & ? & ? & ?). apply (perm_list_eq _ _ _ _ ct_selection_iff N) in P. tauto.
Qed.
Lemma ct_ballot_same a b : ct_ballot_eq a b = true -> same_encrypted a b.
Proof.
  unfold ct_ballot_eq, same_encrypted. rewrite !andb_true_iff, !str_iff, !Z.eqb_eq, !(opt_eqb_iff _ Z.eqb_eq).
  intros ((((((((? & ?) & ?) & ?) & L) & ?) & ?) & ?) & ?). apply list_eq_pairs in L.
  apply (pairs_up_mono _ _ _ _ ct_contest_same) in L. tauto.
Qed.
Lemma ct_ballot_iff a b : ballot_ids_differ a -> (ct_ballot_eq a b = true <-> same_encrypted a b).
Proof.
  intros (N & NS). split; [apply ct_ballot_same|].
  unfold ct_ballot_eq, same_encrypted. rewrite !andb_true_iff, !str_iff, !Z.eqb_eq, !(opt_eqb_iff _ Z.eqb_eq).
  intros (? & ? & ? & ? & P & ? & ? & ? & ?).
  apply (pairs_list_eq bc_id ct_contest_eq) in P; [tauto| | |exact N].
  - intros x y Hxy. apply Hxy.
  - intros x y Hxy Hx. rewrite Forall_forall in NS. apply same_ct_contest; [apply NS, Hx|exact Hxy].
Qed.
Lemma sub_ballot_iff a b : ballot_ids_differ (sb_ballot a) ->
  (sub_ballot_eq a b = true <-> same_encrypted (sb_ballot a) (sb_ballot b) /\ sb_state a = sb_state b).
Proof. intro N. unfold sub_ballot_eq. rewrite andb_true_iff, state_iff, (ct_ballot_iff _ _ N). tauto. Qed.
