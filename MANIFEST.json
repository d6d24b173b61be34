{
 "claims": [
  {
   "property": "C01",
   "status": "proved",
   "theorems": [
    "C01_ops_mod_q",
    "C01_ops_mod_p",
    "C01_inverse_and_division",
    "C01_division_mod_q",
    "C01_negate_nonzero",
    "C01_negate_zero_refuted",
    "C01_pow_negative",
    "C01_residue_test_is_subgroup_membership",
    "C01_rand_range"
   ],
   "note": "Proved for every valid (p,q,g). C01_negate_zero_refuted records that negate_q(0) raises OverflowError where 0 would be expected."
  },
  {
   "property": "C02",
   "status": "proved",
   "theorems": [
    "C02_construct_iff_in_range",
    "C02_hex_round_trip",
    "C02_hex_parse",
    "C02_hex_to_bounded",
    "C02_hex_bytes"
   ],
   "note": ""
  },
  {
   "property": "C03",
   "status": "proved",
   "theorems": [
    "C03_equal_hash_equal_input",
    "C03_ambiguous_refuted",
    "C03_hash_in_range"
   ],
   "note": "C03_ambiguous_refuted gives the ambiguous pairs when kinds differ or a string contains the separator."
  },
  {
   "property": "C04",
   "status": "proved",
   "theorems": [
    "C04_index_and_headers",
    "C04_slice_agrees_with_index",
    "C04_slice_step",
    "C04_distinct_indices"
   ],
   "note": ""
  },
  {
   "property": "C05",
   "status": "proved",
   "theorems": [
    "C05_encrypt_is_encryption",
    "C05_zero_nonce_refused",
    "C05_decrypt_inverts_encrypt",
    "C05_answer_is_right",
    "C05_plaintext_unique"
   ],
   "note": "Messages below q and up to the discrete-log limit; larger messages never decrypt to a value that is wrong modulo q."
  },
  {
   "property": "C06",
   "status": "proved",
   "theorems": [
    "C06_sum_is_encryption_of_sum",
    "C06_order_irrelevant",
    "C06_grouping_irrelevant",
    "C06_empty_rejected"
   ],
   "note": ""
  },
  {
   "property": "C07",
   "status": "proved",
   "theorems": [
    "C07_honest_schnorr_accepted",
    "C07_keypair"
   ],
   "note": ""
  },
  {
   "property": "C08",
   "status": "proved",
   "theorems": [
    "C08_accepts_exactly",
    "C08_two_transcripts_give_the_secret"
   ],
   "note": ""
  },
  {
   "property": "C09",
   "status": "proved",
   "theorems": [
    "C09_accepted_or_zero_nonce",
    "C09_honest_disjunctive_accepted",
    "C09_zero_nonce_raises_refuted",
    "C09_other_plaintext_rejected"
   ],
   "note": "C09_accepted_or_zero_nonce covers every input; C09_zero_nonce_raises_refuted shows the exception occurs."
  },
  {
   "property": "C10",
   "status": "proved",
   "theorems": [
    "C10_accepts_exactly",
    "C10_two_transcripts_encrypt_zero_or_one",
    "C10_decrypts_to_zero_or_one"
   ],
   "note": ""
  },
  {
   "property": "C11",
   "status": "proved",
   "theorems": [
    "C11_honest_constant_accepted",
    "C11_honest_accepted_exactly",
    "C11_accepts_exactly",
    "C11_two_transcripts_encrypt_the_constant",
    "C11_small_modulus_refuted",
    "C11_standard_room"
   ],
   "note": "C11_standard_room discharges the bound for the standard constants; C11_small_modulus_refuted: with the medium test constants an honest proof is refused."
  },
  {
   "property": "C12",
   "status": "proved",
   "theorems": [
    "C12_honest_share_accepted",
    "C12_accepts_exactly",
    "C12_two_transcripts_same_exponent"
   ],
   "note": ""
  },
  {
   "property": "C13",
   "status": "proved",
   "theorems": [
    "C13_lagrange_reconstructs",
    "C13_value_at_zero_is_secret",
    "C13_equal_orders_fail"
   ],
   "note": ""
  },
  {
   "property": "C14",
   "status": "proved",
   "theorems": [
    "C14_coordinate_value",
    "C14_generated_polynomial",
    "C14_honest_backup_exactly",
    "C14_honest_backup_accepted",
    "C14_large_power_refuted",
    "C14_standard_room"
   ],
   "note": "C14_honest_backup_exactly has no bound; C14_large_power_refuted exhibits an honest backup that is refused (pow_p where pow_q is needed)."
  },
  {
   "property": "C15",
   "status": "proved",
   "theorems": [
    "C15_accepts_exactly",
    "C15_order_out_of_range",
    "C15_accepted_coordinate_is_the_value",
    "C15_commitments_have_a_polynomial"
   ],
   "note": "C15_accepts_exactly has no bound on the powers."
  },
  {
   "property": "C16",
   "status": "proved",
   "theorems": [
    "C16_recovery_key",
    "C16_matches_backup",
    "C16_verified_iff"
   ],
   "note": "Full statement, plus the equivalence with the ceremony's coordinate check."
  },
  {
   "property": "C17",
   "status": "proved",
   "theorems": [
    "C17_padding_round_trip",
    "C17_too_long_is_an_error",
    "C17_truncation"
   ],
   "note": ""
  },
  {
   "property": "C18",
   "status": "proved",
   "theorems": [
    "C18_round_trip",
    "C18_short_message_refuted",
    "C18_wrong_mac_refused",
    "C18_mac_decides"
   ],
   "note": "Shorter messages cannot be decrypted (C18_short_message_refuted). HMAC is an arbitrary function with 32-byte output."
  },
  {
   "property": "C19",
   "status": "proved",
   "theorems": [
    "C19_every_answer_is_right",
    "C19_every_exponent_is_found",
    "C19_out_of_range_is_an_error",
    "C19_stateless_agrees",
    "C19_limit_above_order_refuted"
   ],
   "note": "C19_limit_above_order_refuted: with the test constants and the fixed limit a failed lookup corrupts later answers."
  },
  {
   "property": "C20",
   "status": "proved",
   "theorems": [
    "C20_store_is_map",
    "C20_read_only_view",
    "C20_read_only_refuted"
   ],
   "note": "C20_read_only_refuted: on a ReadOnlyDataStore `in` is True for every key, get ignores its default, and == recurses without end."
  },
  {
   "property": "C21",
   "status": "proved",
   "theorems": [
    "C21_box_history",
    "C21_accepted_stays",
    "C21_refused_unchanged",
    "C21_cast_and_spoil",
    "C21_get_ballots"
   ],
   "note": "The box's answers and contents are determined by the specification box_answers for every history."
  },
  {
   "property": "C22",
   "status": "proved",
   "theorems": [
    "C22_box_contents",
    "C22_stored_copy_valid",
    "C22_stored_copy_refuted"
   ],
   "note": "C22_stored_copy_refuted: the stored copy of an accepted ballot whose contests are not in sequence order no longer passes the checks (the hash is recomputed over the sorted contests); C22_stored_copy_valid proves it otherwise."
  },
  {
   "property": "C23",
   "status": "proved",
   "theorems": [
    "C23_contest_votes",
    "C23_recorded_is_voters_choice",
    "C23_overvote_recorded_blank",
    "C23_succeeds",
    "C23_duplicate_entries_refuted",
    "C23_full_vote_refuted",
    "C23_long_write_in_refuted"
   ],
   "note": "_refuted: duplicate entries for an option can lose a mark; a full vote is not encrypted when votes_allowed > number_elected; long write-ins raise TruncationError."
  },
  {
   "property": "C24",
   "status": "proved",
   "theorems": [
    "C24_encrypted_ballot_valid",
    "C24_ballot_contests",
    "C24_succeeds",
    "C24_contest_order_refuted",
    "C24_box_accepts",
    "C24_tally_accepts",
    "C24_complete"
   ],
   "note": "C24_contest_order_refuted (contests listed out of sequence order: the encrypted ballot fails its own hash check) shows why the order condition is needed."
  },
  {
   "property": "C25",
   "status": "proved",
   "theorems": [
    "C25_secret_opens",
    "C25_nonce_opens",
    "C25_wrong_nonce_noticed"
   ],
   "note": "C25_secret_opens, C25_nonce_opens and C25_wrong_nonce_noticed hold for every manifest, ballot and nonce, for the encrypted ballot and its submitted copies; write-ins are not decrypted by the code. Conditions made explicit: ids distinct within a contest, contests in sequence order and small limits when the validity check is on."
  },
  {
   "property": "C26",
   "status": "proved",
   "theorems": [
    "C26_codes_chain",
    "C26_same_code_same_history"
   ],
   "note": "SHA-256 is an arbitrary function; the collision is exhibited among the texts hashed by the two runs."
  },
  {
   "property": "C27",
   "status": "proved",
   "theorems": [
    "C27_tally_history",
    "C27_counted_once",
    "C27_total_encrypts_sum",
    "C27_repeated_contest_refuted"
   ],
   "note": "Worker pools work (see C46). C27_repeated_contest_refuted: a valid ballot listing a contest twice adds two votes."
  },
  {
   "property": "C28",
   "status": "proved",
   "theorems": [
    "C28_ids",
    "C28_second_refused",
    "C28_spoiled_unchanged",
    "C28_only_cast_matters"
   ],
   "note": "C28_ids and C28_second_refused hold for arbitrary ballots and arbitrary pool failures."
  },
  {
   "property": "C29",
   "status": "proved",
   "theorems": [
    "C29_order_independent"
   ],
   "note": "Distinct ids; identical totals, ids up to order (they are Python sets)."
  },
  {
   "property": "C30",
   "status": "proved",
   "theorems": [
    "C30_batch_equals_append",
    "C30_tally_ballots",
    "C30_counted_again_refuted",
    "C30_invalid_recorded_refuted",
    "C30_one_shot_refuted",
    "C30_shared_ids_refuted"
   ],
   "note": "The _refuted theorems show what happens otherwise: ballots counted again, invalid CAST ballots recorded as cast, ids lost with a one-shot iterator, votes lost when contests share selection ids."
  },
  {
   "property": "C31",
   "status": "proved",
   "theorems": [
    "C31_refused_unchanged",
    "C31_checks_first",
    "C31_accumulate_refused",
    "C31_append_effect",
    "C31_unknown_contest",
    "C31_tally_ballot",
    "C31_refused_counted_refuted"
   ],
   "note": "Stronger atomicity is false: C31_refused_counted_refuted (a valid but incomplete ballot is refused after its first contest was added, repeatedly)."
  },
  {
   "property": "C32",
   "status": "proved",
   "theorems": [
    "C32_joint_key",
    "C32_all_pairs",
    "C32_strangers_counted_refuted",
    "C32_key_replaced_refuted",
    "C32_challenge_refuted",
    "C32_shared_backups",
    "C32_shared_too_early_refuted",
    "C32_guardian_joint_key"
   ],
   "note": "C32_joint_key covers every history with restarts; C32_all_pairs the case that messages only name announced guardians; C32_guardian_joint_key the guardian's own computation. The _refuted theorems show what the mediator does not check: strangers' messages count, a key may be replaced after the checks, a challenge may carry other commitments, backups are shared before all are available."
  },
  {
   "property": "C33",
   "status": "proved",
   "theorems": [
    "C33_honest_ceremony",
    "C33_backup_check",
    "C33_challenge_answered"
   ],
   "note": "C33_honest_ceremony for any number of guardians and coefficients, over the three orchestrated rounds incl. hashed ElGamal encryption of the backups; needs q <= 2^1024 so that the JSON coordinate fits the 512 byte block, and powers of the sequence orders below p (pow_p arguments). C33_backup_check: wrong backups are noticed. C33_challenge_answered: honest challenges succeed."
  },
  {
   "property": "C34",
   "status": "proved",
   "theorems": [
    "C34_all_decrypt",
    "C34_joint_secret",
    "C34_same_option_ids_refuted"
   ],
   "note": "The condition on option ids is needed: C34_same_option_ids_refuted gives a valid manifest whose honest decryption has no result."
  },
  {
   "property": "C35",
   "status": "proved",
   "theorems": [
    "C35_quorum_decrypts",
    "C35_ceremony_ready",
    "C35_no_compensation_refuted"
   ],
   "note": "C35_ceremony_ready connects it to the honest ceremony. The mediator does not check that the compensated shares were sent: C35_no_compensation_refuted."
  },
  {
   "property": "C36",
   "status": "proved",
   "theorems": [
    "C36_honest_shares",
    "C36_honest_compensation",
    "C36_issued_shares",
    "C36_issued_compensation",
    "C36_special_soundness",
    "C36_shown_is_backed",
    "C36_shown_is_proved",
    "C36_foreign_key_refuted",
    "C36_wrong_coordinate_refuted"
   ],
   "note": "The key is the one the share carries, not the announced one: C36_foreign_key_refuted and C36_wrong_coordinate_refuted show wrong tallies that are accepted."
  },
  {
   "property": "C37",
   "status": "proved",
   "theorems": [
    "C37_guardians",
    "C37_no_early_tally",
    "C37_no_early_ballots",
    "C37_announce_twice",
    "C37_first_share_stays"
   ],
   "note": "Invariant of all histories of calls; also which keys and shares are kept."
  },
  {
   "property": "C38",
   "status": "proved",
   "theorems": [
    "C38_valid_iff",
    "C38_selection_candidate_refuted",
    "C38_style_party_refuted",
    "C38_selection_ids_across_contests_refuted"
   ],
   "note": "Exact characterisation. The _refuted theorems record what is_valid does not guarantee: selections may name missing candidates, styles missing parties, and contests may share selection ids."
  },
  {
   "property": "C39",
   "status": "proved",
   "theorems": [
    "C39_placeholders",
    "C39_total",
    "C39_id_freshness_refuted",
    "C39_internal_manifest"
   ],
   "note": "C39_id_freshness_refuted shows the proviso on ids is needed; a contest without options makes preparation raise ValueError."
  },
  {
   "property": "C40",
   "status": "proved",
   "theorems": [
    "C40_submitted_roundtrip",
    "C40_plaintext_roundtrip",
    "C40_expand_exactly",
    "C40_write_in_refuted",
    "C40_style_refuted",
    "C40_option_order_refuted"
   ],
   "note": "Outside these conditions the round trip is refuted: write-ins move by one (C40_write_in_refuted), partial styles raise IndexError (C40_style_refuted), and options listed in manifest order but not sequence order exchange votes (C40_option_order_refuted)."
  },
  {
   "property": "C41",
   "status": "proved",
   "theorems": [
    "C41_accepts_exactly",
    "C41_contest_sound",
    "C41_extra_contest_refuted",
    "C41_limit_refuted"
   ],
   "note": "Soundness is special soundness (two transcripts). _refuted: acceptance does not exclude contests outside the style, undescribed selections, or a limit proof for more than number_elected."
  },
  {
   "property": "C42",
   "status": "proved",
   "theorems": [
    "C42_base_hash_binds"
   ],
   "note": "SHA-256 is an arbitrary function; the collision is exhibited among the two hashed texts of each context."
  },
  {
   "property": "C43",
   "status": "proved",
   "theorems": [
    "C43_accepts_exactly",
    "C43_unique",
    "C43_accepted_is_total",
    "C43_any_order_accepted",
    "C43_tally_ballots_accepted",
    "C43_failed_pool_refuted"
   ],
   "note": "The recomputation uses the process pool: C43_failed_pool_refuted shows a failing pool makes it accept an empty total."
  },
  {
   "property": "C44",
   "status": "proved",
   "theorems": [
    "C44_accepts_exactly",
    "C44_rejects_exactly",
    "C44_decrypted_verifies",
    "C44_ballots_verify",
    "C44_honest_accepted",
    "C44_verified_share_sound",
    "C44_wrong_count_refuted",
    "C44_no_shares_refuted",
    "C44_missing_guardian_refuted"
   ],
   "note": "Refuted companions: the count is not compared with the shares, missing shares are not noticed, and decryptions with a missing guardian (reconstructed share without proof) make it raise AttributeError."
  },
  {
   "property": "C45",
   "status": "proved",
   "theorems": [
    "C45_roundtrip",
    "C45_any_state",
    "C45_own_key_refuted"
   ],
   "note": "C45_roundtrip for every way to make a guardian and every history; C45_any_state for all states; C45_own_key_refuted shows the condition on the own id is needed. The serialisation of the record to JSON and the sharing of dictionary objects between exporter and importer are not modelled."
  },
  {
   "property": "C46",
   "status": "proved",
   "theorems": [
    "C46_all_or_nothing",
    "C46_any_order",
    "C46_tally_tasks_total",
    "C46_failed_pool_refuted",
    "C46_share_pool_refuted"
   ],
   "note": "That a failed task is never reported as success is false: C46_failed_pool_refuted (append) and C46_share_pool_refuted (shares, ending in a wrong tally); C31_append_effect states the exact effect of failing pools."
  },
  {
   "property": "C47",
   "status": "proved",
   "theorems": [
    "C47_election",
    "C47_record_verifies"
   ],
   "note": "Composition of the ceremony, encryption, box, tally and mediator models. Conditions in the statement: the manifest is valid with distinct option ids (placeholders included), each style's contests are in sequence order with limits the proofs can carry, ballot ids are distinct, the number of cast ballots is below q and within the discrete log limit, worker pools answer. C47_record_verifies adds verify_aggregation and verify_decryption when all guardians are present (C44_missing_guardian_refuted shows why not otherwise)."
  },
  {
   "property": "C48",
   "status": "proved",
   "theorems": [
    "C48_valid_accepts",
    "C48_valid_null",
    "C48_valid_under",
    "C48_valid_over",
    "C48_valid_invalid",
    "C48_is_valid",
    "C48_full_vote_accepted_refuted"
   ],
   "note": "Exact conditions for each outcome. C48_full_vote_accepted_refuted: with votes_allowed > number_elected a voter who fills every seat is rejected."
  },
  {
   "property": "C49",
   "status": "partial",
   "theorems": [
    "C49_test_constants_valid",
    "C49_standard_arithmetic",
    "C49_small_constants_refuted",
    "C49_standard_q_prime",
    "C49_standard_order",
    "C49_standard_valid_partial"
   ],
   "note": "Extra-small, medium and large sets valid (Pocklington certificates); the small set (503, 251, 5) is not a valid group. For the 4096-bit standard set: cofactor, sizes and ranges are computed; the primality of q (C49_standard_q_prime) and the exact order of g (C49_standard_order, with the standard library's machine integers) are proved; the primality of p remains a hypothesis (C49_standard_valid_partial)."
  },
  {
   "property": "C50",
   "status": "proved",
   "theorems": [
    "C50_accepts_exactly",
    "C50_election_accepts",
    "C50_encrypted_verifies",
    "C50_empty_ballot_refuted"
   ],
   "note": "C50_empty_ballot_refuted: the ballot style is not checked, so a ballot without contests verifies."
  },
  {
   "property": "C51",
   "status": "proved",
   "theorems": [
    "C51_number_is_position",
    "C51_numbers_differ",
    "C51_one_key_refuted"
   ],
   "note": "C51_one_key_refuted: a guardian who joins from two programs publishes two keys under one number, and the private file holds the one the others do not use."
  },
  {
   "property": "C52",
   "status": "proved",
   "theorems": [
    "C52_append_only",
    "C52_state_forward"
   ],
   "note": ""
  },
  {
   "property": "C53",
   "status": "proved",
   "theorems": [
    "C53_joint_key_checked",
    "C53_joint_key_stays"
   ],
   "note": "The user ids are non-empty."
  },
  {
   "property": "C54",
   "status": "proved",
   "theorems": [
    "C54_completes",
    "C54_marked",
    "C54_crash_while_joining_refuted",
    "C54_too_many_refuted",
    "C54_two_programs_refuted",
    "C54_unmarked_refuted"
   ],
   "note": "Each condition is shown to be needed: C54_crash_while_joining_refuted, C54_too_many_refuted, C54_two_programs_refuted, C54_unmarked_refuted exhibit histories after which nothing the programs offer finishes the ceremony."
  },
  {
   "property": "C55",
   "status": "proved",
   "theorems": [
    "C55_only_matching",
    "C55_no_duplicates",
    "C55_no_duplicates_refuted",
    "C55_count_bounded",
    "C55_count_exact",
    "C55_count_exact_refuted",
    "C55_own_count_refuted",
    "C55_drive",
    "C55_drive_atomic_refuted"
   ],
   "note": "C55_no_duplicates_refuted: overlapping uploads of one ballot store it twice. C55_count_exact_refuted: a crash between storing and counting loses the count for good. C55_own_count_refuted: the upload document's own ballot_count always stays 0. C55_drive_atomic_refuted: a failing drive keeps its first ballots."
  },
  {
   "property": "C56",
   "status": "proved",
   "theorems": [
    "C56_read_back",
    "C56_all_tallied_refuted"
   ],
   "note": "C56_all_tallied_refuted: a ballot file with a line end after the closing brace is accepted, stored and counted but silently left out of every tally."
  },
  {
   "property": "C57",
   "status": "proved",
   "theorems": [
    "C57_never_wrong",
    "C57_completes",
    "C57_terminates",
    "C57_late_upload_refuted",
    "C57_only_voters_refuted",
    "C57_lost_read_refuted",
    "C57_pool_refuted"
   ],
   "note": "C57_never_wrong allows for a proof whose response is 0 (one chance in q per proof), which makes the administrator's check reject it. C57_late_upload_refuted: a ballot uploaded after a guardian joined blocks the decryption for ever. C57_only_voters_refuted: no proof is checked, one ballot can add 5 votes. C57_lost_read_refuted: unreadable ballots are silently left out. C57_pool_refuted: a failing pool publishes 0 votes."
  },
  {
   "property": "C58",
   "status": "proved",
   "theorems": [
    "C58_pages",
    "C58_report",
    "C58_adds_up",
    "C58_percentages",
    "C58_printed",
    "C58_shared_ids_refuted",
    "C58_unlisted_refuted"
   ],
   "note": "Percentages are exact fractions in the model (floats in the code). C58_shared_ids_refuted: when two contests use the same option id (is_valid accepts that) votes are shown under another candidate's name. C58_unlisted_refuted: an option whose candidate is not listed (is_valid accepts that too) makes every result page fail."
  },
  {
   "property": "C59",
   "status": "proved",
   "theorems": [
    "C59_elections",
    "C59_answers",
    "C59_accepted",
    "C59_names",
    "C59_package",
    "C59_ready",
    "C59_package_refuted",
    "C59_names_refuted",
    "C59_records_bare",
    "C59_records_refuted"
   ],
   "note": "C59_package_refuted: the package path depends only on the key ceremony, so a second election from the same ceremony replaces the package of the first. C59_names_refuted: two calls at the same time can store two elections with one name. C59_records_bare and C59_records_refuted: guardians are rebuilt with from_public_key, so the guardian records of every such election are published without commitments and proofs."
  },
  {
   "property": "C60",
   "status": "proved",
   "theorems": [
    "C60_election"
   ],
   "note": "Composes C53, C59, C57 and C58. When the ceremony finishes is C54; when a creation succeeds is C59_accepted; the conditions on the decryption are those of C57_completes."
  },
  {
   "property": "C61",
   "status": "proved",
   "theorems": [
    "C61_printed",
    "C61_prints",
    "C61_record",
    "C61_completes",
    "C61_record_path_needed",
    "C61_slash",
    "C61_quorum_too_large",
    "C61_archive_name"
   ],
   "note": "C61_printed and C61_prints: what is printed, and that it is. C61_record and C61_completes: the archive, the keys and that nothing else changes. C61_record_path_needed: without --output-record, which is optional, the command always ends with an error after printing and never writes the private keys. C61_slash: when a ballot id contains a slash no record is written. C61_quorum_too_large: a quorum above the number of guardians is accepted but no result is ever printed."
  },
  {
   "property": "C62",
   "status": "proved",
   "theorems": [
    "C62_printed",
    "C62_completes",
    "C62_submit_taken",
    "C62_submit_quiet",
    "C62_all_keys_needed",
    "C62_keys_over_records",
    "C62_device_name",
    "C62_device_in_directory",
    "C62_existing_keys_kept"
   ],
   "note": "The commands run one after another, each in a process of its own; between two commands the disk may change as long as the files handed over are still there under any directory name. One user at a time."
  },
  {
   "property": "C63",
   "status": "proved",
   "theorems": [
    "C63_contest",
    "C63_files",
    "C63_completes",
    "C63_encryptable",
    "C63_totals",
    "C63_more_votes_than_seats",
    "C63_unknown_style",
    "C63_fake_ballot"
   ],
   "note": "Draws are arguments: shuffles may be any permutations, randint any number in its range, uuids any distinct texts without a slash. C63_contest covers all settings of the two flags of the factory."
  },
  {
   "property": "C64",
   "status": "proved",
   "theorems": [
    "C64_record",
    "C64_late",
    "C64_failed",
    "C64_succeeds"
   ],
   "note": "Values come back from the database as they were stored; the device stored with an upload is a function of the upload. All reads of ballots during the export work. C64_record is the record, C64_late and C64_succeeds state the limits. The guardian records have no commitments or proofs (C59_records_bare)."
  },
  {
   "property": "C65",
   "status": "proved",
   "theorems": [
    "C65_joint_secret_refuted",
    "C65_proofs_tell"
   ],
   "note": "A counterexample to the expected property, for all honest guardians: C65_joint_secret_refuted. C65_proofs_tell says that the proofs in the announcement would have shown it. Nothing in src calls SchnorrProof.is_valid."
  },
  {
   "property": "C66",
   "status": "proved",
   "theorems": [
    "C66_text",
    "C66_read_in_range"
   ],
   "note": "A simulation between the programs on text and the programs on values; it discharges the simplification of GuiCeremony.v. The proofs that come with the keys are not part of the claim: after a read they are text in the code, not elements, and nothing looks at them."
  },
  {
   "property": "C67",
   "status": "proved",
   "theorems": [
    "C67_nobody_waits_for_ever",
    "C67_marked",
    "C67_comes_to_an_end",
    "C67_quiet_stays",
    "C67_look_then_watch_refuted",
    "C67_stopped_before_message_refuted",
    "C67_no_guardians_refuted"
   ],
   "note": "The two conditions are shown to be needed by histories after which nothing moves any more (the refuted theorems): they are findings about the code. The first would go away if the cursor were opened before the first look. The capped collection of messages is taken not to overflow."
  },
  {
   "property": "C68",
   "status": "proved",
   "theorems": [
    "C68_equal_manifests",
    "C68_reordered",
    "C68_equivalence",
    "C68_chain_refuted",
    "C68_same_order_same_hash",
    "C68_equal_means_same_hash_refuted",
    "C68_hash_blind_to_candidates",
    "C68_same_hash_means_equal_refuted",
    "C68_contest_ids_refuted",
    "C68_equal_ballots",
    "C68_reordered_ballots",
    "C68_equal_means_same_choices_refuted",
    "C68_equal_submitted",
    "C68_equal_encrypted",
    "C68_equal_means_same_ballot_refuted"
   ],
   "note": "The refuted theorems are findings: each gives valid objects. Datetimes are compared as their texts, and a ReferendumContestDescription is read as a plain ContestDescription."
  },
  {
   "property": "C69",
   "status": "proved",
   "theorems": [
    "C69_published",
    "C69_never_stuck",
    "C69_comes_to_an_end",
    "C69_all_guardians_needed",
    "C69_look_then_watch_refuted",
    "C69_stopped_before_message_refuted",
    "C69_failed_read_refuted",
    "C69_failed_open_refuted"
   ],
   "note": "The refuted theorems are findings: histories after which an open page waits for ever although every guardian has joined. Opening the page again helps in each of them (C69_published with a page that is not open yet). The capped collection of messages is taken not to overflow."
  },
  {
   "property": "C70",
   "status": "proved",
   "theorems": [
    "C70_copy_taken",
    "C70_mixed_taken",
    "C70_copies_counted_and_opened"
   ],
   "note": "All of it is a finding: the theorems say that copies are accepted, counted and opened. The copies are submitted after the voters' own ballots."
  },
  {
   "property": "C71",
   "status": "proved",
   "theorems": [
    "C71_accumulate",
    "C71_placeholders",
    "C71_shared_ids_refuted",
    "C71_overvote_refuted",
    "C71_sample",
    "C71_encryptable",
    "C71_rate",
    "C71_no_seats"
   ],
   "note": "The objects that are written to the record are modelled, not the files. That the ballots can be encrypted is a hypothesis of C71_sample; C71_encryptable says when it is met. The count of the helper is refuted for shared option ids and for ballots with too many marks."
  },
  {
   "property": "C72",
   "status": "proved",
   "theorems": [
    "C72_last_word",
    "C72_answer",
    "C72_resolved",
    "C72_fail_round_3"
   ],
   "note": "Reports about ids that are not guardians of the ceremony are left out here: the mediator only counts reports, see C32. The two first rounds are honest; what a dishonest owner can do with a challenge is in C32."
  },
  {
   "property": "C73",
   "status": "proved",
   "theorems": [
    "C73_scan",
    "C73_nothing",
    "C73_other_drive_refuted",
    "C73_without",
    "C73_upload",
    "C73_succeeds",
    "C73_again",
    "C73_history"
   ],
   "note": "The drives are taken not to change during a call, and no other call's step falls between two steps of a run (C55 is about interleaved calls). C73_other_drive_refuted shows that the scan depends on all drives. The suffix \":\\\" and the paths are left out."
  },
  {
   "property": "C74",
   "status": "proved",
   "theorems": [
    "C74_listed",
    "C74_unlisted_refuted",
    "C74_active",
    "C74_names",
    "C74_names_refuted",
    "C74_suggested",
    "C74_suggested_refuted"
   ],
   "note": "Of the documents only ids, names, lists and completion are kept; the rest is in C57 and the following. A database call that raises is modelled as a call that makes no further step. The refuted parts are C74_unlisted_refuted, C74_names_refuted and C74_suggested_refuted."
  },
  {
   "property": "C75",
   "status": "proved",
   "theorems": [
    "C75_shown",
    "C75_only",
    "C75_create",
    "C75_bounds_refuted",
    "C75_names",
    "C75_names_refuted",
    "C75_completed"
   ],
   "note": "Every interleaving of the database calls; the lower bounds and the uniqueness of names under overlapping calls are refuted with witnesses."
  }
 ]
}
