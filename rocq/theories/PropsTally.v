(** * PropsTally: the properties of data stores, the ballot box, the tally and the scheduler
    (C20, C21, C22, C24, C27, C28, C29, C30, C31, C46).  Only theorems and non-vacuity examples; the
    vocabulary is in Spec.v, SpecElection.v and SpecTally.v. *)
From Verif Require Import Base Group Codec Hash DLog ElGamal ZK Manifest Ballot Encrypt Box Tally Spec SpecElection SpecTally
  Tiny Samples ListFacts BallotFacts EncryptThms TallyThms TallyMore BoxFacts HonestFacts TallySamples BoxTallyRefuted Tighten.
From Coq Require Import Permutation List.

(** ** C20: a data store is a finite map *)
(** After any history of set, pop and clear calls, every reader sees the map the history describes: a key
    has the value of the latest set not followed by a pop of that key or a clear; pop returns that value;
    keys are distinct, items, keys, values and length agree. *)
Theorem C20_store_is_map : forall (K V : Type) (HK : EqB K) (h : list (store_op K V)),
  let s := fold_left store_step h ds_new in
  (forall k, ds_get s k = latest (rev h) k) /\
  (forall k v, In (k, v) (ds_items s) <-> latest (rev h) k = Some v) /\
  NoDup (ds_keys s) /\ (forall k, In k (ds_keys s) <-> latest (rev h) k <> None) /\
  ds_len s = len (ds_keys s) /\ ds_items s = combine (ds_keys s) (ds_values s) /\
  (forall k, snd (ds_pop s k) = latest (rev h) k).
Proof. intros. exact (store_reads h). Qed.
Print Assumptions C20_store_is_map.
Example C20_store_is_map_ex :
  let h := [OSet "a" 1; OSet "b" 2; OSet "a" 3; OPop "b"; OSet "c" 4; OPop "zz"]%string in
  ds_items (fold_left store_step h ds_new) = [("a", 3); ("c", 4)]%string /\ latest (rev h) "a"%string = Some 3 /\
  latest (rev h) "b"%string = None /\ ds_get (fold_left store_step (h ++ [OClear]) ds_new) "a"%string = None.
Proof. vm_compute. auto. Qed.

(** the read-only view shows the same map through [], iteration and len ... *)
Theorem C20_read_only_view : forall (K V : Type) (HK : EqB K) (h : list (store_op K V)),
  let s := fold_left store_step h ds_new in
  (forall k, ro_getitem s k = Ok (latest (rev h) k)) /\ ro_len s = len (ds_keys s) /\
  (forall k v, In (k, v) (ro_iter s) <-> latest (rev h) k = Some v).
Proof. intros K V HK h s. destruct (store_reads h) as (H1 & H2 & _ & _ & H5 & _). split; [intros k; exact (f_equal Ok (H1 k))|exact (conj H5 H2)]. Qed.
Print Assumptions C20_read_only_view.
Example C20_read_only_view_ex :
  let s := fold_left store_step [OSet "a" 1; OSet "b" 2]%string ds_new in
  ro_getitem s "b"%string = Ok (Some 2) /\ ro_getitem s "zz"%string = Ok None /\ ro_len s = 2.
Proof. vm_compute. auto. Qed.
(** ... but "in" says True for every key, get ignores the default, and comparing two views never ends *)
Theorem C20_read_only_refuted : forall (K V : Type) (HK : EqB K) (s s' : store K V) k d,
  ro_contains s k = Ok true /\ (ds_get s k = None -> ro_get s k (Some d) = Ok None) /\ ro_eq s s' = Err RecursionError.
Proof. intros K V HK s s' k d. split; [reflexivity|]. split; [intros H; unfold ro_get, ro_getitem; rewrite H; reflexivity|]. reflexivity. Qed.
Print Assumptions C20_read_only_refuted.

(** ** C21: each id is accepted at most once *)
(** Any history of cast and spoil calls on a new box is answered as specified (the first valid ballot of
    each id is accepted and stored, every other call is refused), and the store holds exactly the
    accepted ballots. *)
Theorem C21_box_history : forall E im cx (h : list (ct_ballot * box_state)),
  let x := fst (run_box E (mkBox im cx ds_new) h) in
  let took := box_answers E (valid_for E im cx) [] h in
  map answer_of (snd (run_box E (mkBox im cx ds_new) h)) = took /\
  ds_items (bx_store x) = map (fun b => (sb_id b, b)) (somes took) /\ NoDup (map sb_id (somes took)).
Proof.
  intros E im cx h x took. destruct (box_history E im cx h) as [H1 H2].
  exact (conj H1 (conj H2 (proj1 (box_took_ids E im cx h [])))).
Qed.
Print Assumptions C21_box_history.
Example C21_box_history_ex : valid_for medium (demo_im medium) demo_cx ann_ballot = true /\
  map answer_of (snd (run_box medium (mkBox (demo_im medium) demo_cx ds_new) [(ann_ballot, CAST); (ann_ballot, SPOILED)]))
  = [Some (submit_ballot medium ann_ballot CAST); None].
Proof.
  assert (H : valid_for medium (demo_im medium) demo_cx ann_ballot = true) by (unfold valid_for; rewrite ann_valid; reflexivity).
  split; [exact H|]. destruct (C21_box_history medium (demo_im medium) demo_cx [(ann_ballot, CAST); (ann_ballot, SPOILED)]) as [-> _].
  unfold box_answers. rewrite H. reflexivity.
Qed.
(** an accepted ballot never changes or disappears, whatever is submitted later *)
Theorem C21_accepted_stays : forall E x h i sb,
  ds_get (bx_store x) i = Some sb -> ds_get (bx_store (fst (run_box E x h))) i = Some sb.
Proof. intros E x h i sb. exact (run_box_keeps E h x i sb). Qed.
Print Assumptions C21_accepted_stays.
Example C21_accepted_stays_ex : let x := mkBox (demo_im medium) demo_cx [("ann-voter"%string, ann_cast)] in
  ds_get (bx_store x) "ann-voter"%string = Some ann_cast /\
  ds_get (bx_store (fst (run_box medium x [(bob_ballot, CAST); (ann_ballot, SPOILED)]))) "ann-voter"%string = Some ann_cast.
Proof. intros x. split; [reflexivity|]. apply C21_accepted_stays. reflexivity. Qed.
(** a call that is refused or raises leaves the box as it was *)
Theorem C21_refused_unchanged : forall E x b st,
  answer_of (snd (box_submit E x b st)) = None -> fst (box_submit E x b st) = x.
Proof. intros E x b st. exact (submit_refused E x b st). Qed.
Print Assumptions C21_refused_unchanged.
Example C21_refused_unchanged_ex : exists x, bx_store x <> [] /\ answer_of (snd (box_submit medium x ann_ballot SPOILED)) = None.
Proof.
  exists (mkBox (demo_im medium) demo_cx [("ann-voter"%string, ann_cast)]). split; [discriminate|].
  unfold box_submit, submit_to_box. cbn [bx_manifest bx_context bx_store]. rewrite ann_valid. reflexivity.
Qed.
(** an accepted call of cast records the ballot as cast, an accepted call of spoil as spoiled, under an id that was free *)
Theorem C21_cast_and_spoil : forall E x b sb,
  (snd (box_cast E x b) = Ok (Some sb) -> sb_state sb = CAST /\ sb_id sb = cb_id b /\ ds_get (bx_store x) (cb_id b) = None /\ ds_get (bx_store (fst (box_cast E x b))) (cb_id b) = Some sb) /\
  (snd (box_spoil E x b) = Ok (Some sb) -> sb_state sb = SPOILED /\ sb_id sb = cb_id b /\ ds_get (bx_store x) (cb_id b) = None /\ ds_get (bx_store (fst (box_spoil E x b))) (cb_id b) = Some sb).
Proof. exact box_cast_spoil. Qed.
Print Assumptions C21_cast_and_spoil.
Example C21_cast_and_spoil_ex : let x := mkBox (demo_im medium) demo_cx ds_new in
  snd (box_cast medium x ann_ballot) = Ok (Some (submit_ballot medium ann_ballot CAST)) /\ snd (box_spoil medium x ann_ballot) = Ok (Some (submit_ballot medium ann_ballot SPOILED)).
Proof. unfold box_cast, box_spoil, box_submit, submit_to_box. cbn [bx_manifest bx_context bx_store]. rewrite ann_valid. split; reflexivity. Qed.
(** get_ballots returns exactly the stored ballots in the asked state *)
Theorem C21_get_ballots : forall E im cx h st i sb,
  let s := bx_store (fst (run_box E (mkBox im cx ds_new) h)) in
  dget i (get_ballots s st) = Some sb <-> ds_get s i = Some sb /\ (st = None \/ st = Some (sb_state sb)).
Proof. intros E im cx h st i sb. exact (get_ballots_iff _ st i sb (box_nodup E im cx h)). Qed.
Print Assumptions C21_get_ballots.
Example C21_get_ballots_ex : let s := [("ann-voter", ann_cast); ("bob-voter", bob_spoiled)]%string in
  dkeys (get_ballots s (Some CAST)) = ["ann-voter"]%string /\ dkeys (get_ballots s (Some SPOILED)) = ["bob-voter"]%string /\
  dkeys (get_ballots s None) = ["ann-voter"; "bob-voter"]%string.
Proof. vm_compute. auto. Qed.

(** ** C22: what the box stores *)
(** Every ballot in the box comes from a call with a ballot that was valid for the election; it has the
    requested state, the same id, style, confirmation code, timestamp and encrypted selections with
    their proofs, and no nonce anywhere. *)
Theorem C22_box_contents : forall E im cx h i sb,
  ds_get (bx_store (fst (run_box E (mkBox im cx ds_new) h))) i = Some sb ->
  exists b, In (b, sb_state sb) h /\ ballot_valid_for_election E b im cx true = Ok true /\
    cb_id b = i /\ sb_id sb = i /\ no_nonces (sb_ballot sb) /\
    cb_style (sb_ballot sb) = cb_style b /\ cb_manifest_hash (sb_ballot sb) = cb_manifest_hash b /\
    cb_code (sb_ballot sb) = cb_code b /\ cb_code_seed (sb_ballot sb) = cb_code_seed b /\ cb_timestamp (sb_ballot sb) = cb_timestamp b /\
    map (fun c => (bc_id c, bc_seq c, bc_desc_hash c, bc_acc c, bc_hash c, bc_proof c, bc_ext c)) (cb_contests (sb_ballot sb)) =
    map (fun c => (bc_id c, bc_seq c, bc_desc_hash c, bc_acc c, bc_hash c, bc_proof c, bc_ext c)) (cb_contests b) /\
    map (fun c => map (fun s => (cs_id s, cs_seq s, cs_desc_hash s, cs_ct s, cs_hash s, cs_placeholder s, cs_proof s)) (bc_selections c)) (cb_contests (sb_ballot sb)) =
    map (fun c => map (fun s => (cs_id s, cs_seq s, cs_desc_hash s, cs_ct s, cs_hash s, cs_placeholder s, cs_proof s)) (bc_selections c)) (cb_contests b).
Proof.
  intros E im cx h i sb Hg. destruct (box_contents E im cx h i sb Hg) as (b & st & H1 & H2 & -> & H4).
  exists b. split; [exact H1|]. split; [exact H2|]. split; [exact H4|]. split; [exact H4|]. split; [exact (submit_no_nonces E b st)|].
  do 5 (split; [reflexivity|]). unfold submit_ballot, make_submitted; cbn [sb_ballot cb_contests]. rewrite !map_map. split; [reflexivity|].
  apply map_ext. intros c. cbn [strip_contest bc_selections]. rewrite map_map. reflexivity.
Qed.
Print Assumptions C22_box_contents.
Example C22_box_contents_ex : exists sb,
  ds_get (bx_store (fst (run_box medium (mkBox (demo_im medium) demo_cx ds_new) [(ann_ballot, CAST)]))) "ann-voter"%string = Some sb /\
  cb_nonce ann_ballot = Some 99.
Proof.
  exists (submit_ballot medium ann_ballot CAST). split; [|reflexivity].
  unfold run_box, box_submit, submit_to_box. cbn [fold_left bx_manifest bx_context bx_store]. rewrite ann_valid. reflexivity.
Qed.
(** the stored copy is still valid, if the ballot has contests and lists them in sequence order ... *)
Theorem C22_stored_copy_valid : forall E im cx b st, ballot_valid_for_election E b im cx true = Ok true ->
  sort_by bc_seq (cb_contests b) = cb_contests b -> cb_contests b <> [] ->
  ballot_valid_for_election E (sb_ballot (submit_ballot E b st)) im cx true = Ok true.
Proof. intros E im cx b st. exact (stored_valid E im cx b st). Qed.
Print Assumptions C22_stored_copy_valid.
Example C22_stored_copy_valid_ex : ballot_valid_for_election medium ann_ballot (demo_im medium) demo_cx true = Ok true /\
  sort_by bc_seq (cb_contests ann_ballot) = cb_contests ann_ballot /\ cb_contests ann_ballot <> [].
Proof. split; [exact ann_valid|]. split; [vm_compute; reflexivity|discriminate]. Qed.
(** ... but not in general: the stored copy of a valid ballot with contests out of order is invalid *)
Theorem C22_stored_copy_refuted : exists E im cx b st, valid_env E /\
  ballot_valid_for_election E b im cx true = Ok true /\
  snd (box_submit E (mkBox im cx ds_new) b st) = Ok (Some (submit_ballot E b st)) /\
  ballot_valid_for_election E (sb_ballot (submit_ballot E b st)) im cx true = Ok false.
Proof. exact stored_copy_invalid. Qed.
Print Assumptions C22_stored_copy_refuted.

(** ** C24: the box and the tally accept an honestly encrypted ballot *)
Theorem C24_box_accepts : forall E m im cx b eseed nonce verify rand now eb ds, valid_env E ->
  manifest_is_valid m = true -> make_internal E m = Ok im -> in_subgroup E (cx_key cx) ->
  get_contests_for im (pb_style b) = Ok ds -> ds <> [] -> in_order ds ->
  (forall d, In d ds -> limit_fits E (cd_number_elected (ph_desc d))) ->
  encrypt_ballot E b im cx eseed nonce verify rand now = Ok (Some eb) ->
  forall x st, bx_manifest x = im -> bx_context x = cx -> ds_get (bx_store x) (cb_id eb) = None ->
  box_submit E x eb st = (mkBox im cx (ds_set (bx_store x) (cb_id eb) (submit_ballot E eb st)), Ok (Some (submit_ballot E eb st))).
Proof. intros E m im cx b eseed nonce verify rand now eb ds HE Hv Hm HK Hds Hne Ho Hf He. exact (accept_box E m im cx b eseed nonce verify rand now eb ds HE Hv Hm HK Hds Hne Ho Hf He). Qed.
Print Assumptions C24_box_accepts.
(** the tally accepts its cast or spoiled copy after any history of complete ballots without its id *)
Theorem C24_tally_accepts : forall E m im cx b eseed nonce verify rand now eb ds, valid_env E ->
  manifest_is_valid m = true -> make_internal E m = Ok im -> in_subgroup E (cx_key cx) ->
  get_contests_for im (pb_style b) = Ok ds -> ds <> [] -> in_order ds ->
  (forall d, In d ds -> limit_fits E (cd_number_elected (ph_desc d))) ->
  encrypt_ballot E b im cx eseed nonce verify rand now = Ok (Some eb) ->
  forall id h st v, Forall (fun '(b, _) => complete im (sb_ballot b)) h -> st <> UNKNOWN ->
  let t := fst (run_appends E all_up (new_tally E id im cx) h) in
  ~ In (cb_id eb) (ty_cast t) -> ~ In (cb_id eb) (ty_spoiled t) ->
  snd (append E all_up t (submit_ballot E eb st) v) = Ok true.
Proof. intros E m im cx b eseed nonce verify rand now eb ds HE Hv Hm HK Hds Hne Ho Hf He. exact (accept_tally E m im cx b eseed nonce verify rand now eb ds HE Hv Hm HK Hds Hne Ho Hf He). Qed.
Print Assumptions C24_tally_accepts.
(** and the copy is complete in the sense used below *)
Theorem C24_complete : forall E m im cx b eseed nonce verify rand now eb ds, valid_env E ->
  manifest_is_valid m = true -> make_internal E m = Ok im -> in_subgroup E (cx_key cx) ->
  get_contests_for im (pb_style b) = Ok ds -> ds <> [] -> in_order ds ->
  (forall d, In d ds -> limit_fits E (cd_number_elected (ph_desc d))) ->
  encrypt_ballot E b im cx eseed nonce verify rand now = Ok (Some eb) -> forall st,
  let sb := submit_ballot E eb st in
  complete im (sb_ballot sb) /\ NoDup (map bc_id (cb_contests (sb_ballot sb))) /\
  (distinct_option_ids im -> own_ids im (sb_ballot sb)) /\ (forall v, passes E im cx sb v = true).
Proof.
  intros E m im cx b eseed nonce verify rand now eb ds HE Hv Hm HK Hds Hne Ho Hf He st.
  split; [exact (accept_complete E im cx b eseed nonce verify rand now eb ds HE HK Hds He st)|].
  split.
  - destruct (encrypted_well_made E HE _ _ _ _ _ _ _ _ _ HK He) as (ds' & H1 & _ & _ & _ & H2).
    exact (made_nodup E im b ds' _ _ (internal_ids E m im Hv Hm) H1 (made_votes E b ds' _ _ _ _ (H2 st))).
  - split; [exact (accept_own E im cx b eseed nonce verify rand now eb ds HE HK Hds He st)|].
    exact (accept_valid E m im cx b eseed nonce verify rand now eb ds HE Hv Hm HK Hds Hne Ho Hf He st).
Qed.
Print Assumptions C24_complete.
(** C24_succeeds_ex in PropsEncrypt.v shows a case of the common hypotheses; here is the rest *)
Example C24_box_and_tally_ex : let sb := submit_ballot medium demo_eb CAST in
  snd (box_submit medium (mkBox (demo_im medium) demo_cx ds_new) demo_eb CAST) = Ok (Some sb) /\
  snd (append medium all_up (new_tally medium "t" (demo_im medium) demo_cx) sb true) = Ok true /\
  distinct_option_ids (demo_im medium).
Proof.
  destruct demo_setup as (D1 & D2 & D3 & D4 & D5 & D6). intros sb. split; [|split].
  - rewrite (C24_box_accepts medium demo_manifest (demo_im medium) demo_cx demo_ballot 5 (Some 11) true 0 100 demo_eb demo_ds medium_valid D1 D2 demo_key D3 D4 D5 D6 demo_eb_ok _ CAST); reflexivity.
  - refine (C24_tally_accepts medium demo_manifest (demo_im medium) demo_cx demo_ballot 5 (Some 11) true 0 100 demo_eb demo_ds medium_valid D1 D2 demo_key D3 D4 D5 D6 demo_eb_ok "t" [] CAST true _ _ _ _);
      [constructor|discriminate|intros []|intros []].
  - rewrite <- demo_imv_eq. unfold distinct_option_ids. vm_compute. repeat constructor; cbn; intuition discriminate.
Qed.

(** ** C27: the tally is the product of exactly the cast ballots *)
(** After any history of append calls on a new tally, with ballots that have an entry for each option of
    each of their contests: every total is the product of the ciphertexts of the accepted CAST ballots
    for that option, the recorded ids are those of the accepted ballots, and each call's answer says
    whether the ballot was accepted (known state, passes the checks, id not accepted before). *)
Theorem C27_tally_history : forall E im cx id h, valid_env E -> NoDup (contest_ids im) ->
  Forall (fun '(b, _) => complete im (sb_ballot b)) h ->
  let t := fst (run_appends E all_up (new_tally E id im cx) h) in
  let acc := accepted (passes E im cx) [] h in
  (forall d o, In d (im_contests im) -> In o (cd_selections (ph_desc d)) ->
     total_of t (cd_id (ph_desc d)) (sd_id o) =
     Some (product E (flat_map (fun b => votes_for (sb_ballot b) (cd_id (ph_desc d)) (sd_id o)) (in_state CAST acc)))) /\
  ty_cast t = map sb_id (in_state CAST acc) /\ ty_spoiled t = map sb_id (in_state SPOILED acc) /\
  map said_yes (snd (run_appends E all_up (new_tally E id im cx) h)) = answers (passes E im cx) [] h.
Proof. exact tally_history. Qed.
Print Assumptions C27_tally_history.
Example C27_tally_history_ex : valid_env medium /\ NoDup (contest_ids (demo_im medium)) /\
  Forall (fun '(b, _) => complete (demo_im medium) (sb_ballot b)) demo_history /\
  let t := fst (run_appends medium all_up (new_tally medium "t" (demo_im medium) demo_cx) demo_history) in
  opened (total_of t "mayor" "mayor-ann") = Ok 1 /\ opened (total_of t "mayor" "mayor-bob") = Ok 0 /\
  opened (total_of t "council" "council-cy") = Ok 0 /\ ty_cast t = ["ann-voter"]%string /\ ty_spoiled t = ["bob-voter"]%string.
Proof.
  split; [exact medium_valid|]. split; [exact demo_nodup|]. split; [exact demo_complete|]. cbv zeta.
  do 4 (split; [vm_compute; reflexivity|]). vm_compute; reflexivity.
Qed.
(** a ballot without repeated contests contributes at most one ciphertext to an option *)
Theorem C27_counted_once : forall b cid oid, NoDup (map bc_id (cb_contests b)) ->
  (List.length (votes_for b cid oid) <= 1)%nat.
Proof. exact votes_for_at_most_one. Qed.
Print Assumptions C27_counted_once.
Example C27_counted_once_ex : NoDup (map bc_id (cb_contests rogue_ballot)) /\
  List.length (votes_for rogue_ballot "mayor" "mayor-ann") = 1%nat.
Proof. split; [vm_compute; repeat constructor; cbn; intuition discriminate|vm_compute; reflexivity]. Qed.
(** if every counted ballot carries an encryption of some value for an option, or nothing, the total
    encrypts the sum of the values *)
Theorem C27_total_encrypts_sum : forall E im cx id h K, valid_env E -> NoDup (contest_ids im) -> in_subgroup E K ->
  Forall (fun '(b, _) => complete im (sb_ballot b)) h ->
  let t := fst (run_appends E all_up (new_tally E id im cx) h) in
  let counted := in_state CAST (accepted (passes E im cx) [] h) in
  forall d o (value : sub_ballot -> Z), In d (im_contests im) -> In o (cd_selections (ph_desc d)) ->
    (forall b, In b counted ->
       (votes_for (sb_ballot b) (cd_id (ph_desc d)) (sd_id o) = [] /\ value b = 0) \/
       exists c r, votes_for (sb_ballot b) (cd_id (ph_desc d)) (sd_id o) = [c] /\ 0 <= r /\ 0 <= value b /\
                   is_encryption E K r (value b) (ct_pad c) (ct_data c)) ->
    exists c r, total_of t (cd_id (ph_desc d)) (sd_id o) = Some c /\ 0 <= r /\
      is_encryption E K r (sumZ (map value counted)) (ct_pad c) (ct_data c).
Proof. exact tally_encrypts_sum. Qed.
Print Assumptions C27_total_encrypts_sum.
Example C27_total_encrypts_sum_ex : in_subgroup medium (gexp medium 77) /\
  in_state CAST (accepted (passes medium (demo_im medium) demo_cx) [] demo_history) = [ann_cast] /\
  exists c, votes_for (sb_ballot ann_cast) "mayor" "mayor-ann" = [c] /\ is_encryption medium (gexp medium 77) 5 1 (ct_pad c) (ct_data c).
Proof.
  split; [exact demo_key|]. split; [vm_compute; reflexivity|]. eexists. split; [vm_compute; reflexivity|]. split; vm_compute; reflexivity.
Qed.
(** "each counted once" fails for a ballot that repeats a contest, which is valid and complete: one
    ballot with limit 1 adds two votes *)
Theorem C27_repeated_contest_refuted : exists E im cx id b o, valid_env E /\
  ballot_valid_for_election E (sb_ballot b) im cx true = Ok true /\ complete im (sb_ballot b) /\
  (forall c, In c (cb_contests (sb_ballot b)) -> exists pf, bc_proof c = Some pf /\ cc_constant pf = 1) /\
  let t := fst (append E all_up (new_tally E id im cx) b true) in
  ty_cast t = [sb_id b] /\ exists c, total_of t "mayor" o = Some c /\ elgamal_decrypt E c 77 = Ok 2.
Proof. exact duplicate_contest_counted_twice. Qed.
Print Assumptions C27_repeated_contest_refuted.

(** ** C28: spoiled ballots and second submissions *)
(** In any history, whatever the pools and the ballots do, no id is recorded twice or both as cast and
    as spoiled ... *)
Theorem C28_ids : forall E id im cx h,
  let t := fst (run_any E (new_tally E id im cx) h) in
  NoDup (ty_cast t) /\ NoDup (ty_spoiled t) /\ forall i, In i (ty_cast t) -> ~ In i (ty_spoiled t).
Proof. intros E id im cx h. exact (run_any_ids E id im cx h). Qed.
Print Assumptions C28_ids.
(** ... and after a ballot has been accepted, every later ballot with its id is refused and changes
    nothing *)
Theorem C28_second_refused : forall E t h1 h2 up b v up' b' v',
  said_yes (snd (append E up (fst (run_any E t h1)) b v)) = true -> sb_id b' = sb_id b ->
  let t2 := fst (run_any E (fst (append E up (fst (run_any E t h1)) b v)) h2) in
  append E up' t2 b' v' = (t2, Ok false).
Proof. exact second_refused. Qed.
Print Assumptions C28_second_refused.
(** a ballot that is not CAST never changes the totals *)
Theorem C28_spoiled_unchanged : forall E up t b v, sb_state b <> CAST ->
  ty_contests (fst (append E up t b v)) = ty_contests t /\ ty_cast (fst (append E up t b v)) = ty_cast t.
Proof. exact append_spoiled_contests. Qed.
Print Assumptions C28_spoiled_unchanged.
(** two histories with the same accepted CAST ballots give the same totals *)
Theorem C28_only_cast_matters : forall E im cx id h h', valid_env E -> NoDup (contest_ids im) ->
  Forall (fun '(b, _) => complete im (sb_ballot b)) h -> Forall (fun '(b, _) => complete im (sb_ballot b)) h' ->
  in_state CAST (accepted (passes E im cx) [] h) = in_state CAST (accepted (passes E im cx) [] h') ->
  ty_contests (fst (run_appends E all_up (new_tally E id im cx) h)) = ty_contests (fst (run_appends E all_up (new_tally E id im cx) h')).
Proof. exact same_counted_same_totals. Qed.
Print Assumptions C28_only_cast_matters.
Example C28_ex : let t := new_tally medium "t" (demo_im medium) demo_cx in
  snd (append medium all_up t bob_spoiled false) = Ok true /\ sb_state bob_spoiled = SPOILED /\ sb_id bob_cast = sb_id bob_spoiled /\
  snd (append medium all_up (fst (append medium all_up t bob_spoiled false)) bob_cast false) = Ok false /\
  in_state CAST (accepted (passes medium (demo_im medium) demo_cx) [] [(ann_cast, false); (bob_spoiled, false)])
  = in_state CAST (accepted (passes medium (demo_im medium) demo_cx) [] [(bob_spoiled, false); (ann_cast, false); (bob_cast, false)]).
Proof. cbv zeta. do 4 (split; [vm_compute; reflexivity|]). vm_compute; reflexivity. Qed.

(** ** C29: the order of the ballots does not matter *)
Theorem C29_order_independent : forall E im cx id h h', valid_env E -> NoDup (contest_ids im) ->
  Forall (fun '(b, _) => complete im (sb_ballot b)) h -> Permutation h h' ->
  NoDup (map (fun bv : sub_ballot * bool => sb_id (fst bv)) h) ->
  let t := fst (run_appends E all_up (new_tally E id im cx) h) in
  let t' := fst (run_appends E all_up (new_tally E id im cx) h') in
  ty_contests t = ty_contests t' /\ Permutation (ty_cast t) (ty_cast t') /\ Permutation (ty_spoiled t) (ty_spoiled t').
Proof. exact order_independent. Qed.
Print Assumptions C29_order_independent.
Example C29_order_independent_ex : Permutation [(ann_cast, false); (bob_cast, false)] [(bob_cast, false); (ann_cast, false)] /\
  NoDup (map (fun bv : sub_ballot * bool => sb_id (fst bv)) [(ann_cast, false); (bob_cast, false)]) /\
  Forall (fun '(b, _) => complete (demo_im medium) (sb_ballot b)) [(ann_cast, false); (bob_cast, false)] /\
  opened (total_of (fst (run_appends medium all_up (new_tally medium "t" (demo_im medium) demo_cx) [(bob_cast, false); (ann_cast, false)])) "mayor" "mayor-bob") = Ok 1.
Proof.
  split; [constructor|]. split; [repeat constructor; cbn; intuition discriminate|].
  split; [repeat constructor; apply completeb_ok; vm_compute; reflexivity|vm_compute; reflexivity].
Qed.

(** ** C30: batch append *)
(** From any reachable tally, batch_append of new, valid ballots with distinct ids gives exactly the
    tally that appending them one by one gives, and every append says yes. *)
Theorem C30_batch_equals_append : forall E im cx, valid_env E -> NoDup (contest_ids im) -> forall id h0 bs v,
  Forall (fun '(b, _) => complete im (sb_ballot b)) h0 ->
  let t := fst (run_appends E all_up (new_tally E id im cx) h0) in
  Forall (fun b => passes E im cx b v = true /\ sb_state b <> UNKNOWN /\ complete im (sb_ballot b) /\ own_ids im (sb_ballot b)) bs ->
  NoDup (map sb_id bs) -> (forall b, In b bs -> ~ In (sb_id b) (ty_cast t) /\ ~ In (sb_id b) (ty_spoiled t)) ->
  batch_append E true false t bs v = (fst (run_appends E all_up t (map (fun b => (b, v)) bs)), Ok true) /\
  map said_yes (snd (run_appends E all_up t (map (fun b => (b, v)) bs))) = map (fun _ => true) bs.
Proof. exact batch_equals_append. Qed.
Print Assumptions C30_batch_equals_append.
Example C30_batch_equals_append_ex :
  let t := fst (run_appends medium all_up (new_tally medium "t" (demo_im medium) demo_cx) [(ann_cast, false)]) in
  passes medium (demo_im medium) demo_cx bob_cast false = true /\ own_ids (demo_im medium) (sb_ballot bob_cast) /\
  complete (demo_im medium) (sb_ballot bob_cast) /\ ~ In (sb_id bob_cast) (ty_cast t) /\
  opened (total_of (fst (batch_append medium true false t [bob_cast] false)) "mayor" "mayor-ann") = Ok 1 /\
  opened (total_of (fst (batch_append medium true false t [bob_cast] false)) "mayor" "mayor-bob") = Ok 1.
Proof.
  cbv zeta. split; [vm_compute; reflexivity|]. split; [exact bob_own_ids|]. split; [apply completeb_ok; vm_compute; reflexivity|].
  split; [vm_compute; intros [H|[]]; discriminate|]. split; vm_compute; reflexivity.
Qed.
(** tally_ballots of a box: the totals are those of appending all ballots of the box *)
Theorem C30_tally_ballots : forall E im cx, valid_env E -> NoDup (contest_ids im) -> forall s : ballot_store,
  NoDup (ds_keys s) -> (forall i sb, ds_get s i = Some sb -> sb_id sb = i) ->
  Forall (fun b => passes E im cx b true = true /\ sb_state b <> UNKNOWN /\ complete im (sb_ballot b) /\ own_ids im (sb_ballot b)) (ds_values s) ->
  tally_ballots E true s im cx = Ok (Some (fst (run_appends E all_up (new_tally E "election-results" im cx) (map (fun b => (b, true)) (ds_values s))))).
Proof. exact tally_ballots_form. Qed.
Print Assumptions C30_tally_ballots.
Example C30_tally_ballots_ex : let s := [("ann-voter"%string, ann_cast)] in NoDup (ds_keys s) /\
  (forall i sb, ds_get s i = Some sb -> sb_id sb = i) /\
  Forall (fun b => passes medium (demo_im medium) demo_cx b true = true /\ sb_state b <> UNKNOWN /\ complete (demo_im medium) (sb_ballot b) /\
    own_ids (demo_im medium) (sb_ballot b)) (ds_values s).
Proof.
  split; [repeat constructor; intros []|]. split.
  - intros i sb H. apply dget_in in H. destruct H as [H|[]]. injection H as <- <-. reflexivity.
  - change (ds_values _) with [ann_cast]. constructor; [|constructor]. split; [unfold passes; rewrite ann_cast_valid; reflexivity|]. split; [discriminate|].
    split; [apply completeb_ok; vm_compute; reflexivity|exact ann_own_ids].
Qed.
(** without these conditions the two differ: ballots already counted are counted again; *)
Theorem C30_counted_again_refuted : exists E im cx id b, valid_env E /\ complete im (sb_ballot b) /\ own_ids im (sb_ballot b) /\
  let t := fst (append E all_up (new_tally E id im cx) b false) in
  snd (append E all_up t b false) = Ok false /\ snd (batch_append E true false t [b] false) = Ok true /\
  exists c, total_of (fst (batch_append E true false t [b] false)) "mayor" "mayor-ann" = Some c /\ elgamal_decrypt E c 77 = Ok 2.
Proof. exact batch_counts_again. Qed.
Print Assumptions C30_counted_again_refuted.
(** an invalid CAST ballot is recorded as cast; *)
Theorem C30_invalid_recorded_refuted : exists E im cx id b, valid_env E /\
  ballot_valid_for_election E (sb_ballot b) im cx true = Ok false /\ sb_state b = CAST /\
  snd (batch_append E true false (new_tally E id im cx) [b] true) = Ok true /\
  ty_cast (fst (batch_append E true false (new_tally E id im cx) [b] true)) = [sb_id b] /\
  snd (append E all_up (new_tally E id im cx) b true) = Ok false.
Proof. exact batch_marks_invalid. Qed.
Print Assumptions C30_invalid_recorded_refuted.
(** given a one-shot iterator, the ids of the counted ballots are not recorded; *)
Theorem C30_one_shot_refuted : exists E im cx id b, valid_env E /\ complete im (sb_ballot b) /\ sb_state b = CAST /\
  let t := fst (batch_append E true true (new_tally E id im cx) [b] false) in
  ty_cast t = [] /\ exists c, total_of t "mayor" "mayor-ann" = Some c /\ elgamal_decrypt E c 77 = Ok 1.
Proof. exact oneshot_unrecorded. Qed.
Print Assumptions C30_one_shot_refuted.
(** and when two contests share a selection id the votes go wrong *)
Theorem C30_shared_ids_refuted : exists E im cx id b, valid_env E /\ NoDup (contest_ids im) /\ complete im (sb_ballot b) /\
  passes E im cx b false = true /\
  let t1 := fst (append E all_up (new_tally E id im cx) b false) in
  let t2 := fst (batch_append E true false (new_tally E id im cx) [b] false) in
  (exists c1 c2, total_of t1 "first" "yes" = Some c1 /\ elgamal_decrypt E c1 77 = Ok 1 /\ total_of t1 "second" "yes" = Some c2 /\ elgamal_decrypt E c2 77 = Ok 0) /\
  (exists c1 c2, total_of t2 "first" "yes" = Some c1 /\ elgamal_decrypt E c1 77 = Ok 0 /\ total_of t2 "second" "yes" = Some c2 /\ elgamal_decrypt E c2 77 = Ok 0).
Proof. exact shared_selection_id. Qed.
Print Assumptions C30_shared_ids_refuted.

(** ** C31: refused ballots *)
(** append: a refused ballot that is complete leaves the reachable tally exactly as it was *)
Theorem C31_refused_unchanged : forall E im cx id h b v, NoDup (contest_ids im) ->
  Forall (fun '(b, _) => complete im (sb_ballot b)) h -> complete im (sb_ballot b) ->
  let t := fst (run_appends E all_up (new_tally E id im cx) h) in
  said_yes (snd (append E all_up t b v)) = false -> fst (append E all_up t b v) = t.
Proof. exact refused_unchanged. Qed.
Print Assumptions C31_refused_unchanged.
Example C31_refused_unchanged_ex : let t := new_tally medium "t" (demo_im medium) demo_cx in
  said_yes (snd (append medium all_up (fst (append medium all_up t ann_cast false)) ann_cast false)) = false /\
  complete (demo_im medium) (sb_ballot ann_cast).
Proof. split; [vm_compute; reflexivity|apply completeb_ok; vm_compute; reflexivity]. Qed.
(** whatever the ballot, a refusal before counting (state, id, checks) changes nothing *)
Theorem C31_checks_first : forall E up t b v,
  sb_state b = UNKNOWN \/ In (sb_id b) (ty_cast t) \/ In (sb_id b) (ty_spoiled t) \/ passes E (ty_manifest t) (ty_context t) b v = false ->
  fst (append E up t b v) = t /\ said_yes (snd (append E up t b v)) = false.
Proof. exact append_checks_first. Qed.
Print Assumptions C31_checks_first.
Example C31_checks_first_ex : passes medium (demo_im medium) demo_cx (mkSub (mkCbal "bad" "county-only" 0 0 [] 0 0 0 None) CAST) true = false.
Proof. vm_compute. reflexivity. Qed.
(** accumulate_contest: a refused contest is as before *)
Theorem C31_accumulate_refused : forall E tc sels, NoDup (dkeys (tc_selections tc)) -> ~ In EmptyString (dkeys (tc_selections tc)) ->
  snd (accumulate_contest E true tc sels) <> Ok true -> fst (accumulate_contest E true tc sels) = tc.
Proof. exact accumulate_refused. Qed.
Print Assumptions C31_accumulate_refused.
Example C31_accumulate_refused_ex : exists tc, dget "mayor"%string (ty_contests demo_t0) = Some tc /\
  NoDup (dkeys (tc_selections tc)) /\ ~ In EmptyString (dkeys (tc_selections tc)) /\
  snd (accumulate_contest medium true tc [mk_sel (mkSel "mayor-ann" 1 "ann") "mayor-ann" 1 5 false]) = Ok false.
Proof.
  eexists. split; [reflexivity|]. split; [vm_compute; repeat constructor; cbn; intuition discriminate|].
  split; [vm_compute; intuition discriminate|vm_compute; reflexivity].
Qed.
(** Exactly what append does, after any history, for any ballot and whichever pools fail ([up i] tells whether
    the pool works for the i-th contest of the ballot): it adds the ciphertexts of some first n contests whose
    pool worked.  An accepted cast ballot has all contests processed, an accepted spoiled ballot none; a refused
    ballot stops before its last contest and leaves the lists of counted ballots as they were. *)
Theorem C31_append_effect : forall E im cx id h up b v, NoDup (contest_ids im) ->
  (forall d o, In d (im_contests im) -> In o (cd_selections (ph_desc d)) -> sd_id o <> EmptyString) ->
  let t := fst (run_any E (new_tally E id im cx) h) in
  let t' := fst (append E up t b v) in let yes := said_yes (snd (append E up t b v)) in
  let cs := cb_contests (sb_ballot b) in
  exists n, (forall cid oid, total_of t' cid oid =
               option_map (fun c => fold_left (ct_mul E) (votes_of (kept up 0 (firstn n cs)) cid oid) c) (total_of t cid oid)) /\
    (yes = true -> sb_state b = CAST /\ n = List.length cs \/ sb_state b = SPOILED /\ n = 0%nat) /\
    (yes = false -> (n = 0%nat \/ (n < List.length cs)%nat) /\ ty_cast t' = ty_cast t /\ ty_spoiled t' = ty_spoiled t).
Proof. exact append_effect. Qed.
Print Assumptions C31_append_effect.
(** a cast ballot with a contest that the election does not have is refused, after any history *)
Theorem C31_unknown_contest : forall E im cx id h up b v c, sb_state b = CAST -> In c (cb_contests (sb_ballot b)) -> ~ In (bc_id c) (contest_ids im) ->
  let t := fst (run_any E (new_tally E id im cx) h) in
  said_yes (snd (append E up t b v)) = false.
Proof. exact unknown_contest. Qed.
Print Assumptions C31_unknown_contest.
Example C31_unknown_contest_ex : exists c, let b := mkSub (mkCbal "extra" (cb_style ann_ballot) (cb_manifest_hash ann_ballot) (cb_code_seed ann_ballot) (cb_contests ann_ballot ++ [c]) 0 0 0 None) CAST in
  ~ In (bc_id c) (contest_ids (demo_im medium)) /\ ballot_valid_for_election medium (sb_ballot b) (demo_im medium) demo_cx false = Ok true.
Proof. exists (mkCcon "nowhere" 9 0 [] (mkCt 1 1) 0 None None None). split; [vm_compute; intuition discriminate|vm_compute; reflexivity]. Qed.
(** tally_ballot returns a tally exactly when the ballot was taken; it is the tally after the call, and lists the ballot *)
Theorem C31_tally_ballot : forall E up b t t' r, tally_ballot E up b t = (t', r) ->
  t' = fst (append E up t b true) /\
  (forall t'', r = Ok (Some t'') -> t'' = t' /\ said_yes (snd (append E up t b true)) = true /\ (In (sb_id b) (ty_cast t') \/ In (sb_id b) (ty_spoiled t'))) /\
  (said_yes (snd (append E up t b true)) = true -> r = Ok (Some t')) /\
  (snd (append E up t b true) = Ok false -> r = Ok None).
Proof. exact tally_ballot_answer. Qed.
Print Assumptions C31_tally_ballot.
Example C31_tally_ballot_ex : snd (tally_ballot medium all_up (mkSub (mkCbal "bad" "county-only" 0 0 [] 0 0 0 None) CAST) (new_tally medium "t" (demo_im medium) demo_cx)) = Ok None.
Proof. vm_compute. reflexivity. Qed.
(** the full statement is false: a valid ballot with a contest outside its style that lacks an option is
    refused after its first contest has been added, and can be submitted again and again *)
Theorem C31_refused_counted_refuted : exists E im cx id b, valid_env E /\
  ballot_valid_for_election E (sb_ballot b) im cx true = Ok true /\
  let t0 := new_tally E id im cx in
  let t1 := fst (append E all_up t0 b true) in let t2 := fst (append E all_up t1 b true) in
  snd (append E all_up t0 b true) = Ok false /\ snd (append E all_up t1 b true) = Ok false /\
  ty_cast t2 = [] /\
  exists c1 c2, total_of t1 "mayor" "mayor-ann" = Some c1 /\ elgamal_decrypt E c1 77 = Ok 1 /\
                total_of t2 "mayor" "mayor-ann" = Some c2 /\ elgamal_decrypt E c2 77 = Ok 2.
Proof. exact refused_ballot_counted. Qed.
Print Assumptions C31_refused_counted_refuted.

(** ** C46: failed parallel tasks *)
(** The scheduler returns the results of all tasks, in the order of the arguments, or nothing; nothing
    is returned exactly when the pool or some task failed (or there was nothing to do). *)
Theorem C46_all_or_nothing : forall A B (task : A -> res B) args up, let rs := schedule up task args in
  (up = true /\ Forall2 (fun a r => task a = Ok r) args rs) \/
  (rs = [] /\ (up = false \/ exists a e, In a args /\ task a = Err e)).
Proof. intros A B task args up. exact (schedule_all_or_nothing task args up). Qed.
Print Assumptions C46_all_or_nothing.
Example C46_all_or_nothing_ex :
  let task := fun x => if x =? 3 then Err ValueError else Ok (x * x) in
  schedule true task [1; 2; 4] = [1; 4; 16] /\ schedule true task [1; 3; 4] = [] /\ schedule_in [2; 0; 1]%nat true task [1; 2; 4] = [1; 4; 16].
Proof. vm_compute. auto. Qed.
(** whatever the order in which the workers run the tasks *)
Theorem C46_any_order : forall A B (task : A -> res B) args order up, Permutation order (seq 0 (List.length args)) ->
  schedule_in order up task args = schedule up task args.
Proof. intros A B task args order up. exact (schedule_any_order task args order up). Qed.
Print Assumptions C46_any_order.
Example C46_any_order_ex : Permutation [2; 0; 1]%nat (seq 0 (List.length [1; 2; 4])).
Proof. cbn. change [2; 0; 1]%nat with ([2] ++ [0; 1])%nat. apply Permutation_app_comm. Qed.
(** the tasks of the tally never raise, so a tally whose pools work loses nothing *)
Theorem C46_tally_tasks_total : forall E t c sels k, (exists x, elgamal_accumulate E t c = Ok x) /\ (exists r, accumulate_task E (k, t, sels) = Ok r).
Proof. exact tally_tasks_total. Qed.
Print Assumptions C46_tally_tasks_total.
(** but the tally does not notice a pool that fails: the ballot is reported and recorded as counted
    although no total has changed *)
Theorem C46_failed_pool_refuted : exists E im cx id b up, valid_env E /\ complete im (sb_ballot b) /\
  let t0 := new_tally E id im cx in
  snd (append E up t0 b false) = Ok true /\ ty_cast (fst (append E up t0 b false)) = [sb_id b] /\
  ty_contests (fst (append E up t0 b false)) = ty_contests t0 /\
  exists c, total_of (fst (append E all_up t0 b false)) "mayor" "mayor-ann" = Some c /\ elgamal_decrypt E c 77 = Ok 1.
Proof. exact failed_pool_unnoticed. Qed.
Print Assumptions C46_failed_pool_refuted.
