(** * Property theorems C38, C39, C42, C48, C49: manifests, placeholders, election context,
    plaintext contests, built-in constants.  Theorems and examples only. *)
From Verif Require Import Base Group Codec Hash DLog ElGamal ZK Manifest Ballot Encrypt Spec SpecElection Constants Tiny Samples
  ManifestThms ConstantsFacts.
From Coq Require Import Znumtheory.

(** ** C38: what Manifest.is_valid guarantees, exactly *)
Theorem C38_valid_iff : forall m, manifest_is_valid m = true <->
  NoDup (map gu_id (mf_gp_units m)) /\ NoDup (map bs_id (mf_styles m)) /\
  NoDup (map pa_id (mf_parties m)) /\ NoDup (map ca_id (mf_candidates m)) /\
  NoDup (map cd_id (mf_contests m)) /\ NoDup (map cd_seq (mf_contests m)) /\
  (forall s, In s (mf_styles m) -> exists us, bs_gp_unit_ids s = Some us /\
     forall u, In u us -> In u (map gu_id (mf_gp_units m))) /\
  (forall c p, In c (mf_candidates m) -> ca_party_id c = Some p -> In p (map pa_id (mf_parties m))) /\
  (forall c, In c (mf_contests m) -> In (cd_district c) (map gu_id (mf_gp_units m))) /\
  (forall c ps p, In c (mf_contests m) -> cd_primary_party_ids c = Some ps -> In p ps ->
     In p (map pa_id (mf_parties m))) /\
  (forall c, In c (mf_contests m) -> good_contest c).
Proof. exact manifest_is_valid_iff. Qed.
Print Assumptions C38_valid_iff.
Example C38_valid_iff_ex : manifest_is_valid demo_manifest = true.
Proof. reflexivity. Qed.

(** The part of the claim about selections does not hold: a valid manifest may contain a selection
    whose candidate does not exist. *)
Theorem C38_selection_candidate_refuted :
  exists m c s, manifest_is_valid m = true /\ In c (mf_contests m) /\ In s (cd_selections c) /\
    ~ In (sd_candidate_id s) (map ca_id (mf_candidates m)).
Proof. exact selection_candidate_unresolved. Qed.
Print Assumptions C38_selection_candidate_refuted.
(** Nor does the part about a ballot style's parties. *)
Theorem C38_style_party_refuted :
  exists m s ps p, manifest_is_valid m = true /\ In s (mf_styles m) /\ bs_party_ids s = Some ps /\
    In p ps /\ ~ In p (map pa_id (mf_parties m)).
Proof. exact style_party_unresolved. Qed.
Print Assumptions C38_style_party_refuted.
(** Selection ids are unique only inside one contest: two contests of a valid manifest can share one. *)
Theorem C38_selection_ids_across_contests_refuted :
  exists m c c' s s', manifest_is_valid m = true /\ In c (mf_contests m) /\ In c' (mf_contests m) /\
    cd_id c <> cd_id c' /\ In s (cd_selections c) /\ In s' (cd_selections c') /\ sd_id s = sd_id s'.
Proof. exact selection_ids_shared. Qed.
Print Assumptions C38_selection_ids_across_contests_refuted.

(** ** C39: placeholders *)
Theorem C39_placeholders : forall c count ps, generate_placeholders c count = Ok ps ->
  len ps = Z.max 0 count /\
  NoDup (map sd_id ps) /\ NoDup (map sd_seq ps) /\ NoDup (map sd_candidate_id ps) /\
  (forall p s, In p ps -> In s (cd_selections c) -> sd_seq s < sd_seq p) /\
  ((forall s n, In s (cd_selections c) -> sd_id s <> (cd_id c ++ "-" ++ str_int n ++ "-placeholder")%string) ->
   forall p s, In p ps -> In s (cd_selections c) -> sd_id p <> sd_id s).
Proof. exact placeholders_fresh. Qed.
Print Assumptions C39_placeholders.
Example C39_placeholders_ex : exists ps, generate_placeholders council 2 = Ok ps /\
  map sd_id ps = ["council-4-placeholder"; "council-5-placeholder"]%string.
Proof. eexists. split; reflexivity. Qed.
(** it succeeds exactly for contests that have at least one selection, and otherwise raises ValueError *)
Theorem C39_total : forall c count,
  ((exists ps, generate_placeholders c count = Ok ps) <-> cd_selections c <> []) /\
  (cd_selections c = [] -> generate_placeholders c count = Err ValueError).
Proof. exact placeholders_total. Qed.
Print Assumptions C39_total.
Example C39_total_ex : cd_selections mayor <> [] /\ manifest_is_valid
  (mkManifest "x" "v" "t" "" "" [mkGpUnit "u" "" "" None] [] []
     [mkContest "c" 1 "u" "one_of_m" 0 None "" [] None None None] [] None None) = true.
Proof. split; [discriminate|reflexivity]. Qed.
(** Without the proviso on the form of the selection ids freshness fails, even in a valid contest. *)
Theorem C39_id_freshness_refuted :
  exists c ps p s, good_contest c /\ generate_placeholders c (cd_number_elected c) = Ok ps /\
    In p ps /\ In s (cd_selections c) /\ sd_id p = sd_id s.
Proof. exact placeholder_clash. Qed.
Print Assumptions C39_id_freshness_refuted.
(** the election's working description pairs every contest with number_elected placeholders, and is
    itself valid whenever the contest is valid and its number of seats is not negative *)
Theorem C39_internal_manifest : forall E m im, make_internal E m = Ok im ->
  im_hash im = manifest_hash E m /\
  Forall2 (fun c d => cd_id (ph_desc d) = cd_id c /\ cd_selections (ph_desc d) = cd_selections c /\
             cd_number_elected (ph_desc d) = cd_number_elected c /\ cd_seq (ph_desc d) = cd_seq c /\
             cd_district (ph_desc d) = cd_district c /\ contest_hash E (ph_desc d) = contest_hash E c /\
             len (ph_placeholders d) = Z.max 0 (cd_number_elected c) /\
             (good_contest c -> 0 <= cd_number_elected c -> contest_ph_is_valid d = true))
    (mf_contests m) (im_contests im).
Proof. exact internal_manifest_contests. Qed.
Print Assumptions C39_internal_manifest.
Example C39_internal_manifest_ex : exists im, make_internal medium demo_manifest = Ok im /\
  map (fun d => len (ph_placeholders d)) (im_contests im) = [1; 2].
Proof. eexists. split; [vm_compute; reflexivity|reflexivity]. Qed.

(** ** C42: the extended base hash binds the election parameters *)
Theorem C42_base_hash_binds : forall E E' n k K ch mh n' k' K' ch' mh',
  sha E = sha E' -> 0 < qq E -> 0 < qq E' -> 0 <= pp E -> 0 <= pp E' -> 0 <= gg E -> 0 <= gg E' ->
  0 <= ch -> 0 <= ch' -> 0 <= mh -> 0 <= mh' ->
  cx_ext_hash (make_context E n k K ch mh) = cx_ext_hash (make_context E' n' k' K' ch' mh') ->
  (n = n' /\ k = k' /\ ch = ch' /\ mh = mh' /\ pp E = pp E' /\ qq E = qq E' /\ gg E = gg E') \/
  exists s t, In s (context_texts E n k ch mh) /\ In t (context_texts E' n' k' ch' mh') /\
    s <> t /\ sha E s mod qq E = sha E' t mod qq E'.
Proof. exact base_hash_binds. Qed.
Print Assumptions C42_base_hash_binds.
(** two elections that differ only in the quorum have different hashes with the toy hash *)
Example C42_base_hash_binds_ex :
  cx_ext_hash (make_context medium 5 3 9 17 23) <> cx_ext_hash (make_context medium 5 2 9 17 23) /\
  context_texts tiny 5 3 17 23 = ["|9D|0D|10|5|3|17|"; "|04|11|"]%string.
Proof. split; [vm_compute; discriminate|vm_compute; reflexivity]. Qed.

(** ** C48: PlaintextBallotContest.valid and is_valid, exactly *)
Theorem C48_valid_accepts : forall c d, pt_contest_valid c d = CheckOk <->
  matches c d /\ 1 <= marked c /\ marked c = cd_number_elected (ph_desc d) /\
  (forall va, cd_votes_allowed (ph_desc d) = Some va -> votes_given c <= va /\ va <= marked c).
Proof. exact valid_ok_iff. Qed.
Print Assumptions C48_valid_accepts.
Theorem C48_valid_null : forall c d, pt_contest_valid c d = CheckNull <-> matches c d /\ marked c < 1.
Proof. exact valid_null_iff. Qed.
Print Assumptions C48_valid_null.
Theorem C48_valid_under : forall c d, pt_contest_valid c d = CheckUnder <->
  matches c d /\ 1 <= marked c < cd_number_elected (ph_desc d).
Proof. exact valid_under_iff. Qed.
Print Assumptions C48_valid_under.
Theorem C48_valid_over : forall c d ids, pt_contest_valid c d = CheckOver ids <->
  matches c d /\ 1 <= marked c /\ ids = map ps_id (filter (fun s => 0 <? ps_vote s) (pc_selections c)) /\
  (cd_number_elected (ph_desc d) < marked c \/
   marked c = cd_number_elected (ph_desc d) /\
   exists va, cd_votes_allowed (ph_desc d) = Some va /\ va < votes_given c).
Proof. exact valid_over_iff. Qed.
Print Assumptions C48_valid_over.
Theorem C48_valid_invalid : forall c d, pt_contest_valid c d = CheckInvalid <->
  ~ matches c d \/
  (matches c d /\ 1 <= marked c /\ marked c = cd_number_elected (ph_desc d) /\
   exists va, cd_votes_allowed (ph_desc d) = Some va /\ votes_given c <= va /\ marked c < va).
Proof. exact valid_invalid_iff. Qed.
Print Assumptions C48_valid_invalid.
Theorem C48_is_valid : forall c i n e va, pt_contest_is_valid c i n e va = true <->
  pc_id c = i /\ len (pc_selections c) <= n /\ marked c <= e /\
  (forall v, va = Some v -> votes_given c <= v).
Proof. exact is_valid_iff. Qed.
Print Assumptions C48_is_valid.
Example C48_ex :
  map (fun c => pt_contest_valid c (ph_of council))
    [mkPcon "council" [mkPsel "council-cy" 1 false None; mkPsel "council-ed" 1 false None];
     mkPcon "council" []; mkPcon "council" [mkPsel "council-cy" 1 false None];
     mkPcon "council" [mkPsel "council-cy" 1 false None; mkPsel "council-ed" 1 false None; mkPsel "council-di" 2 false None];
     mkPcon "council" [mkPsel "mayor-ann" 1 false None]]%string
  = [CheckOk; CheckNull; CheckUnder; CheckOver ["council-cy"; "council-ed"; "council-di"]%string; CheckInvalid]
  /\ pt_contest_is_valid (mkPcon "c" [mkPsel "a" 1 false None]) "c" 2 1 None = true
  /\ pt_contest_is_valid (mkPcon "c" [mkPsel "a" 1 false None; mkPsel "b" 1 false None]) "c" 2 1 None = false.
Proof. repeat split; reflexivity. Qed.
(** A voter who marks exactly the allowed number of options in a valid contest is rejected when the
    contest allows more votes than it has seats. *)
Theorem C48_full_vote_accepted_refuted :
  exists c d, contest_ph_is_valid d = true /\ matches c d /\
    marked c = cd_number_elected (ph_desc d) /\ (forall s, In s (pc_selections c) -> ps_vote s = 1) /\
    pt_contest_valid c d = CheckInvalid.
Proof. exact full_vote_rejected. Qed.
Print Assumptions C48_full_vote_accepted_refuted.

(** ** C49: the built-in constant sets *)
Theorem C49_test_constants_valid : forall h m d j jc,
  valid_env (mkEnv extra_small_p extra_small_q extra_small_g h m d j jc) /\
  valid_env (mkEnv medium_p medium_q medium_g h m d j jc) /\
  valid_env (mkEnv large_p large_q large_g h m d j jc).
Proof. exact test_constants_valid. Qed.
Print Assumptions C49_test_constants_valid.
(** the standard set: sizes, ranges and the cofactor (PropsStandard.v has the primality of q and the order of g) *)
Theorem C49_standard_arithmetic : standard_p - 1 = standard_q * standard_r /\ standard_q = 2 ^ 256 - 189 /\
  (2 ^ 4095 < standard_p < 2 ^ 4096) /\ 1 < standard_g < standard_p.
Proof. exact (conj standard_cofactor (conj standard_q_form (conj standard_p_bits standard_g_range))). Qed.
Print Assumptions C49_standard_arithmetic.
(** the side conditions of C11, C14 and C15 hold for the standard set: every constant the check lets through,
    and sequence orders up to 2^k with k times the degree at most 4095 *)
Theorem C11_standard_room : forall L, 0 <= L < 1000000000 -> standard_q * L <= standard_p.
Proof. exact standard_constant_room. Qed.
Print Assumptions C11_standard_room.
Theorem C14_standard_room : forall k x j, 0 <= k -> 0 <= j -> 0 <= x <= 2 ^ k -> k * j <= 4095 -> x ^ j < standard_p.
Proof. exact standard_power_room. Qed.
Print Assumptions C14_standard_room.
Theorem C49_small_constants_refuted : forall h m d j jc,
  ~ valid_env (mkEnv small_p small_q small_g h m d j jc) /\ (small_g ^ small_q) mod small_p = small_p - 1.
Proof. exact small_constants_invalid. Qed.
Print Assumptions C49_small_constants_refuted.
