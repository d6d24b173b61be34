{"id": "C01", "title": "Group arithmetic is closed and exact", "statement": "For valid election constants (p, q, g), add_q, a_minus_b_q, mult_q, a_plus_bc_q, pow_q return the exact residue of the integer expression modulo q in [0,q); mult_p, pow_p, g_pow_p do so modulo p in [0,p); mult_inv_p(e)*e = 1 and div_p(a,b)*b = a modulo p for nonzero divisors, and inversion of a non-invertible element is an error and never a wrong value. negate_q(a) is q-a for every nonzero a; for 0 it raises.", "quantifier": "all valid constants, all operands (elements or integers)", "why_tests_cant": "The residues range over a 4096-bit and a 256-bit field; sampling covers a negligible part and cannot show absence of out-of-range results.", "anchors": ["src/electionguard/group.py: add_q, a_minus_b_q, div_p, div_q, negate_q, a_plus_bc_q, mult_inv_p, pow_p, pow_q, mult_p, mult_q, g_pow_p"]}
{"id": "C02", "title": "Element construction and hex codec", "statement": "Constructing ElementModQ/ElementModP from an int or hex succeeds exactly when the value is in range; to_hex is always even-length upper-case hex and parsing to_hex(x) gives back x; hex_to_q/int_to_q return None exactly when the value is out of range.", "quantifier": "all integers and all hex strings", "why_tests_cant": "Unbounded integers; leading zero and odd-length cases form infinite classes.", "anchors": ["src/electionguard/group.py: ElementModQ, ElementModP, hex_to_q, int_to_q", "src/electionguard/big_integer.py: BigInteger, _hex_to_int, _int_to_hex, bytes_to_hex"]}
{"id": "C03", "title": "Hash inputs are unambiguous", "statement": "hash_elems is a function of the sequence of values, and two different sequences that follow the same pattern of kinds (group elements, integers, absent values, nested lists, and strings free of the separator), as any two calls from the same place of the protocol do, give different hashed texts, so that equal hashes imply equal inputs or an explicit SHA-256 collision. Across patterns the encoding is ambiguous.", "quantifier": "all pairs of input sequences", "why_tests_cant": "A claim over all pairs of inputs; no finite sample shows injectivity.", "anchors": ["src/electionguard/hash.py: hash_elems"]}
{"id": "C04", "title": "Nonce sequences are deterministic and consistent", "statement": "A Nonces object yields the same element for an index whichever way it is accessed (index, slice, iteration), the value depends only on seed, headers and index, and negative indices are rejected.", "quantifier": "all seeds, header lists, indices and slices", "why_tests_cant": "Infinite sequences.", "anchors": ["src/electionguard/nonces.py: Nonces"]}
{"id": "C05", "title": "ElGamal decryption inverts encryption", "statement": "For every key pair, nonzero nonce and message m below the discrete-log bound, elgamal_encrypt succeeds and decrypting with the secret key, with the nonce, and with the known product each give m back.", "quantifier": "all valid constants, key pairs, nonces and messages", "why_tests_cant": "The key, nonce and message spaces are astronomically large.", "anchors": ["src/electionguard/elgamal.py: elgamal_keypair_from_secret, elgamal_encrypt, ElGamalCiphertext.decrypt, decrypt_known_nonce, decrypt_known_product, partial_decrypt"]}
{"id": "C06", "title": "Homomorphic addition", "statement": "elgamal_add of any nonempty list of encryptions under one key decrypts to the sum of the messages, whatever the order and grouping; an empty call is rejected.", "quantifier": "all keys, all nonempty lists of messages and nonces of any length", "why_tests_cant": "Lists of arbitrary length over huge groups.", "anchors": ["src/electionguard/elgamal.py: elgamal_add"]}
{"id": "C07", "title": "Schnorr proofs of honest guardians verify", "statement": "make_schnorr_proof for any key pair and any nonce gives a proof that is_valid accepts.", "quantifier": "all key pairs, nonces and hash functions", "why_tests_cant": "Universal over key space.", "anchors": ["src/electionguard/schnorr.py: make_schnorr_proof, SchnorrProof.is_valid"]}
{"id": "C08", "title": "Schnorr proofs are sound", "statement": "Two accepted Schnorr transcripts with the same key and commitment and different challenges determine a secret s with g^s equal to the key; a proof whose challenge differs from the hash, or with out-of-range or non-subgroup parts, is rejected.", "quantifier": "all (adversarial) transcripts", "why_tests_cant": "Adversarial inputs cannot be enumerated.", "anchors": ["src/electionguard/schnorr.py: SchnorrProof.is_valid"]}
{"id": "C09", "title": "Disjunctive proofs of honest encryptions verify", "statement": "For plaintext 0 or 1, any nonce in [0,q), any key and any seed, make_disjunctive_chaum_pedersen produces a proof that is_valid accepts for that ciphertext, except that it raises OverflowError when the plaintext is 1 and the first value derived from the seed is 0. Any other plaintext is refused.", "quantifier": "all keys, nonces, seeds, both plaintexts", "why_tests_cant": "Universal over the nonce space; a failing nonce exists with tiny probability and is never hit by sampling.", "anchors": ["src/electionguard/chaum_pedersen.py: make_disjunctive_chaum_pedersen*, DisjunctiveChaumPedersenProof.is_valid"]}
{"id": "C10", "title": "Disjunctive proofs are sound", "statement": "If a ciphertext has two accepted disjunctive transcripts with equal commitments and different challenges then it encrypts 0 or 1 (under the joint key); a non-subgroup ciphertext is rejected.", "quantifier": "all adversarial ciphertexts and transcripts", "why_tests_cant": "Adversarial inputs cannot be enumerated.", "anchors": ["src/electionguard/chaum_pedersen.py: DisjunctiveChaumPedersenProof.is_valid"]}
{"id": "C11", "title": "Constant proofs: completeness and soundness", "statement": "make_constant_chaum_pedersen for a ciphertext that encrypts the constant is accepted exactly when the constant is in range and challenge times constant survives the reduction modulo p, in particular always when q times the constant is at most p, as for the standard constants and every constant the check lets through; under that bound two accepted transcripts with equal commitments and constant and different challenges show the ciphertext encrypts exactly that constant.", "quantifier": "all keys, nonces, constants, transcripts", "why_tests_cant": "Universal over adversarial inputs.", "anchors": ["src/electionguard/chaum_pedersen.py: make_constant_chaum_pedersen, ConstantChaumPedersenProof.is_valid"]}
{"id": "C12", "title": "Decryption-share proofs: completeness and soundness", "statement": "make_chaum_pedersen for a share m = pad^s is accepted against key g^s; two accepted transcripts with equal commitments and different challenges show that the share and the key have the same exponent.", "quantifier": "all keys, ciphertexts, transcripts", "why_tests_cant": "Universal over adversarial inputs.", "anchors": ["src/electionguard/chaum_pedersen.py: make_chaum_pedersen, ChaumPedersenProof.is_valid", "src/electionguard/elgamal.py: partial_decrypt"]}
{"id": "C13", "title": "Any quorum reconstructs a guardian secret", "statement": "For every polynomial with quorum coefficients and every set of at least quorum guardians with distinct nonzero sequence orders (mod q), the Lagrange-weighted sum of the polynomial's coordinates at these sequence orders is the secret (the constant coefficient).", "quantifier": "all quorums, polynomials, sets of sequence orders of any size", "why_tests_cant": "Unbounded number of guardians and all subsets.", "anchors": ["src/electionguard/election_polynomial.py: compute_polynomial_coordinate, compute_lagrange_coefficient"]}
{"id": "C14", "title": "Honest key backups verify", "statement": "A backup coordinate computed from a guardian's polynomial is accepted by verify_polynomial_coordinate against that guardian's published commitments whenever the powers of the sequence order used stay below p (for the standard constants: whenever bits of the order times degree is at most 4095), and in general exactly when reducing the powers modulo p does not change the value modulo q.", "quantifier": "all polynomials and sequence orders", "why_tests_cant": "The failing region (x^i beyond p) is only reached for larger quorums.", "anchors": ["src/electionguard/election_polynomial.py: compute_polynomial_coordinate, verify_polynomial_coordinate"]}
{"id": "C15", "title": "Wrong key backups are rejected", "statement": "If verify_polynomial_coordinate accepts a coordinate in [0,q) against commitments g^a_i, then it equals the value of the committed polynomial at the sequence order, with the powers of the order reduced modulo p; when those powers stay below p this is the value itself. Sequence orders outside [0,q) raise.", "quantifier": "all coordinates, commitments and sequence orders", "why_tests_cant": "Universal over adversarial inputs.", "anchors": ["src/electionguard/election_polynomial.py: verify_polynomial_coordinate"]}
{"id": "C16", "title": "Recovery public keys match backups", "statement": "compute_recovery_public_key for guardian l from the missing guardian's commitments equals g raised to the backup coordinate l holds.", "quantifier": "all polynomials, sequence orders", "why_tests_cant": "Universal.", "anchors": ["src/electionguard/decryption.py: compute_recovery_public_key"]}
{"id": "C17", "title": "Padding round trip", "statement": "remove_padding(add_padding(m)) = m for every message that fits the size; longer messages are an error, or truncated to the allowed size when truncation is allowed.", "quantifier": "all byte strings and sizes", "why_tests_cant": "Unbounded byte strings incl. leading/trailing zero bytes.", "anchors": ["src/electionguard/byte_padding.py: add_padding, remove_padding, to_padded_bytes"]}
{"id": "C18", "title": "Hashed ElGamal: round trip and tamper rejection", "statement": "For every key pair, nonce and message that fills a 512-byte hash-elgamal block (or more, if its leading byte survives the hex encoding), decrypting the hashed ElGamal ciphertext returns the message filled up to whole blocks; a ciphertext is refused exactly when the stored MAC is not the HMAC of its pad and data under the derived key.", "quantifier": "all keys, nonces, messages", "why_tests_cant": "Byte-level corner cases (leading zero ciphertext bytes) occur with probability 1/256.", "anchors": ["src/electionguard/elgamal.py: hashed_elgamal_encrypt, HashedElGamalCiphertext.decrypt, _get_chunks", "src/electionguard/hmac.py: get_hmac"]}
{"id": "C19", "title": "Discrete log answers are correct for every call history", "statement": "When the exponent limit is below the order q of the group, then whatever sequence of discrete-log calls, precomputations and limit changes is made on the shared cache, every answer e satisfies g^e = input, the answer for g^m is m for every m up to the limit, and exceeding the limit is an error.", "quantifier": "all call histories", "why_tests_cant": "Histories of unbounded length on shared mutable state.", "anchors": ["src/electionguard/discrete_log.py: DiscreteLog, compute_discrete_log, precompute_discrete_log_cache"]}
{"id": "C20", "title": "Data store behaves as a map", "statement": "DataStore behaves like an abstract finite map for any sequence of set, get, pop, clear, length and iteration operations, and a ReadOnlyDataStore shows the same map through [], iteration and len.", "quantifier": "all operation histories", "why_tests_cant": "Unbounded histories.", "anchors": ["src/electionguard/data_store.py: DataStore, ReadOnlyDataStore"]}
{"id": "C21", "title": "Ballot box accepts each ballot id at most once", "statement": "In every history of cast and spoil calls, at most one ballot per id is accepted, an accepted ballot is recorded as cast or spoiled as asked and never changes or disappears, and rejected calls leave the store unchanged.", "quantifier": "all histories of cast/spoil calls with arbitrary ballots", "why_tests_cant": "Unbounded adversarial histories.", "anchors": ["src/electionguard/ballot_box.py: BallotBox.cast, BallotBox.spoil, submit_ballot_to_box, submit_ballot"]}
{"id": "C22", "title": "Ballot box never stores nonces and only valid ballots", "statement": "Every ballot in the box was valid for the election when submitted, its state is the requested one, and it carries no ballot, contest or selection nonce.", "quantifier": "all histories", "why_tests_cant": "Unbounded histories, arbitrary ballots.", "anchors": ["src/electionguard/ballot_box.py: submit_ballot_to_box", "src/electionguard/ballot.py: from_ciphertext, SubmittedBallot, make_ciphertext_submitted_ballot", "src/electionguard/ballot_validator.py: ballot_is_valid_for_election"]}
{"id": "C23", "title": "Contest encryption preserves votes and the selection limit", "statement": "Whenever encrypt_contest returns a contest it holds one encryption per option, in order, of the recorded vote of that option, followed by placeholders, all 0 or 1 and together summing to number_elected. The recorded vote is the voter's own entry when the entries have distinct ids and the contest is not overvoted; an overvote is recorded as no selections. It returns a contest for every well-formed contest whose contest data fits 510 bytes, up to derived nonces being zero.", "quantifier": "all contest descriptions and plaintext contests", "why_tests_cant": "All vote combinations, limits and sizes.", "anchors": ["src/electionguard/encrypt.py: encrypt_contest, encrypt_selection, contest_from, selection_from", "src/electionguard/ballot.py: PlaintextBallotContest.valid"]}
{"id": "C24", "title": "An encrypted ballot is accepted by every validator", "statement": "A ballot produced by encrypt_ballot for a valid manifest and plaintext ballot, with the style's contests listed in sequence order, passes is_valid_encryption and ballot_is_valid_for_election, before and after submission, and is accepted by an empty ballot box and tally.", "quantifier": "all valid manifests, ballots, seeds, nonces", "why_tests_cant": "Universal over manifests and ballots of any size.", "anchors": ["src/electionguard/encrypt.py: encrypt_ballot", "src/electionguard/ballot.py: CiphertextBallot.is_valid_encryption", "src/electionguard/ballot_validator.py"]}
{"id": "C25", "title": "Decryption with secret or nonce returns the cast plaintext", "statement": "decrypt_ballot_with_secret and decrypt_ballot_with_nonce return, for every ballot produced by encrypt_ballot and every submitted copy of it, the votes recorded for the voter (selection ids of a contest being distinct, placeholders included), with or without the placeholders as asked; a nonce other than the ballot's never opens a ballot that still carries its nonces to different votes.", "quantifier": "all ballots, keys, nonces", "why_tests_cant": "Universal.", "anchors": ["src/electionguard/decrypt_with_secrets.py"]}
{"id": "C26", "title": "Confirmation codes chain", "statement": "Each ballot encrypted by an EncryptionMediator takes the previous ballot's code as its seed; two runs ending in the same code have the same whole history of ballot hashes and timestamps unless the hash collides.", "quantifier": "all histories of encrypted ballots of any length", "why_tests_cant": "Unbounded chains.", "anchors": ["src/electionguard/encrypt.py: EncryptionMediator, EncryptionDevice", "src/electionguard/ballot_code.py: get_ballot_code, get_hash_for_device"]}
{"id": "C27", "title": "The tally is the homomorphic sum of exactly the cast ballots", "statement": "After any history of CiphertextTally.append calls, with ballots that have an entry for every option of each of their contests, every selection's ciphertext is the product of that selection's ciphertexts over exactly the accepted CAST ballots, each counted once per contest it lists, and the recorded cast and spoiled ids are those of the accepted ballots; if the ballots encrypt values the total encrypts their sum.", "quantifier": "all histories of appended ballots", "why_tests_cant": "Unbounded histories with duplicates, spoiled and invalid ballots interleaved.", "anchors": ["src/electionguard/tally.py: CiphertextTally.append, _add_cast, _add_spoiled, CiphertextTallyContest.accumulate_contest"]}
{"id": "C28", "title": "Spoiled ballots never affect the totals", "statement": "In any history of append calls the selection ciphertexts depend only on the accepted CAST ballots; no id is both cast and spoiled; appending a ballot id a second time is refused and changes nothing.", "quantifier": "all histories", "why_tests_cant": "Unbounded histories.", "anchors": ["src/electionguard/tally.py: CiphertextTally.append"]}
{"id": "C29", "title": "The tally does not depend on ballot order", "statement": "Appending the same set of acceptable ballots in any order gives the same tally.", "quantifier": "all permutations of ballot lists of any length", "why_tests_cant": "Factorially many orders.", "anchors": ["src/electionguard/tally.py: CiphertextTally.append"]}
{"id": "C30", "title": "Batch append equals repeated append", "statement": "batch_append of new valid ballots with distinct ids, whose selection ids occur in only one contest, gives the same tally as appending them one by one, from any reachable tally; tally_ballots of a box is the tally of its ballots.", "quantifier": "all ballot lists and prior tally states", "why_tests_cant": "Unbounded lists and prior histories.", "anchors": ["src/electionguard/tally.py: CiphertextTally.batch_append, tally_ballots"]}
{"id": "C31", "title": "What a refused ballot changes", "statement": "append adds to the totals exactly the ciphertexts of some first contests of the ballot, whichever ballot, history and pool failures: all of them when a cast ballot is accepted, none when a spoiled one is. If it is refused, the lists of counted ballots are as before and fewer than all contests were added; none if the refusal came from the state, id or validity checks or if the ballot is complete. A cast ballot with a contest the election does not have is refused, and tally_ballot returns a tally exactly for the ballots that were taken.", "quantifier": "all tallies and ballots", "why_tests_cant": "Partial failures at every intermediate step.", "anchors": ["src/electionguard/tally.py: CiphertextTally.append, accumulate_contest, _add_cast"]}
{"id": "C32", "title": "The joint key is published only after a complete verified ceremony", "statement": "In every history of key ceremony mediator calls publish_joint_key returns a key only if, since the last reset, number_of_guardians different owners announced a key, and backups and successful verifications (or challenges) for n(n-1) different ordered pairs of different ids were received; if all messages name announced guardians these are all pairs. The key is the product of the latest announced public key of each owner and the commitment hash covers their commitments in order of first announcement. The mediator does not itself check that messages name announced guardians or that a key was not replaced later.", "quantifier": "all histories of mediator calls", "why_tests_cant": "Unbounded interleavings of announcements, backups, challenges and resets.", "anchors": ["src/electionguard/key_ceremony_mediator.py: KeyCeremonyMediator", "src/electionguard/key_ceremony.py: combine_election_public_keys"]}
{"id": "C33", "title": "An honest key ceremony always completes", "statement": "For any number of guardians with different ids and any quorum, running the three rounds with honest guardians raises no exception, makes every verification succeed and publishes a joint key equal to g to the sum of the guardian secrets; afterwards each guardian holds all keys and can decrypt from each backup the sender's polynomial at its own sequence order. A guardian approves a backup it can decrypt exactly if it is the committed polynomial's value, and an honest guardian can answer every challenge.", "quantifier": "all guardian counts, quorums, polynomials", "why_tests_cant": "Unbounded number of guardians.", "anchors": ["src/electionguard/guardian.py: Guardian", "src/electionguard/key_ceremony.py", "src/electionguard/key_ceremony_mediator.py", "src/electionguard_tools/helpers/key_ceremony_orchestrator.py"]}
{"id": "C34", "title": "Decryption with all guardians equals decryption with the joint secret", "statement": "When every guardian announces with its share and no two options of the tally have the same id, the mediator shows for every option of the manifest, for the tally and for each ballot, exactly the value that decrypting with the sum of the secrets gives.", "quantifier": "all numbers of guardians, orders of announcement, randomness, tallies, ballots and manifests", "why_tests_cant": "Unbounded.", "anchors": ["src/electionguard/decrypt_with_shares.py: decrypt_selection_with_decryption_shares", "src/electionguard/decryption.py: compute_decryption_share"]}
{"id": "C35", "title": "Decryption with a quorum equals decryption with all guardians", "statement": "For every available set of at least quorum guardians that all send their compensated shares, reconstructing the missing guardians' shares gives exactly the share each missing guardian would have given, so the tally and the ballots are decrypted to the same values as with all guardians.", "quantifier": "all guardian counts, quorums, available subsets, orders, randomness, tallies and ballots", "why_tests_cant": "Exponentially many subsets, all polynomials.", "anchors": ["src/electionguard/decryption.py: compute_compensated_decryption_share, reconstruct_decryption_share, compute_lagrange_coefficients_for_guardians", "src/electionguard/decryption_mediator.py"]}
{"id": "C36", "title": "Honest decryption shares verify", "statement": "Every share and compensated share computed by an honest guardian for subgroup ciphertexts passes its validity check, and whatever the keys no share is issued with an entry that fails it; a wrong value can be accepted against a key for at most one challenge (special soundness); and a tally is shown only if all its shares passed the check against the key they carry, each with a proof of its own or with proved compensating parts, and multiply out to the ciphertext.", "quantifier": "all guardians, ciphertexts, randomness and all inputs to the mediator", "why_tests_cant": "Universal.", "anchors": ["src/electionguard/decryption.py", "src/electionguard/decryption_share.py: CiphertextDecryptionSelection.is_valid"]}
{"id": "C37", "title": "No plaintext before quorum and full accounting", "statement": "In every history of DecryptionMediator calls get_plaintext_tally returns None unless at least quorum guardians announced, available plus missing guardians number number_of_guardians, and a share exists for as many guardians; a guardian announcing twice is ignored and no guardian is both available and missing.", "quantifier": "all histories of mediator calls", "why_tests_cant": "Unbounded interleavings.", "anchors": ["src/electionguard/decryption_mediator.py: DecryptionMediator"]}
{"id": "C38", "title": "A valid manifest is referentially sound", "statement": "Manifest.is_valid() is True exactly when ids are unique per kind (geopolitical units, styles, parties, candidates, contests, selections within a contest), contest and selection sequence orders are unique, every geopolitical unit named by a contest or style exists, every party named by a candidate or contest exists, and each contest has at least number_elected selections, votes_allowed >= number_elected and a supported vote variation. (It does not check the candidate named by a selection nor the parties named by a style.)", "quantifier": "all manifests", "why_tests_cant": "All manifests of any size.", "anchors": ["src/electionguard/manifest.py: Manifest.is_valid, ContestDescription.is_valid"]}
{"id": "C39", "title": "Placeholders are fresh and sufficient", "statement": "When a manifest is prepared for an election every contest with at least one option is given exactly number_elected placeholder options; their ids and sequence orders differ from each other, their sequence orders exceed those of every real option, and their ids differ from every real option id that is not itself of the form <contest>-<n>-placeholder.", "quantifier": "all contest descriptions and counts", "why_tests_cant": "Unbounded counts and sequence orders.", "anchors": ["src/electionguard/manifest.py: generate_placeholder_selections_from, generate_placeholder_selection_from, contest_description_with_placeholders_from"]}
{"id": "C40", "title": "Compact ballots expand to the original", "statement": "expand_compact_submitted_ballot(compress_submitted_ballot(b, plaintext, nonce)) gives back the submitted ballot when the plaintext lists every contest and option of the manifest in sequence order, all of them in its style, with nothing written in; in general, for a ballot that lists everything, the expansion keeps every vote and moves each written-in text to the next entry.", "quantifier": "all manifests, plaintext ballots, nonces, contexts and states", "why_tests_cant": "All manifests, styles and write-ins.", "anchors": ["src/electionguard/ballot_compact.py"]}
{"id": "C41", "title": "A valid ballot contains exactly the contests and selections of its style", "statement": "ballot_is_valid_for_election accepts a ballot exactly when every contest of its style is on it with the expected hash, number of selections and described options, and all hashes, sums and proofs on the ballot check; by special soundness every selection of an accepted contest then encrypts 0 or 1 and the number in the limit proof is their sum.", "quantifier": "all ballots and manifests", "why_tests_cant": "Adversarial ballots.", "anchors": ["src/electionguard/ballot_validator.py", "src/electionguard/ballot.py: is_valid_encryption"]}
{"id": "C42", "title": "Election base hash binds the parameters", "statement": "make_ciphertext_election_context gives equal extended base hashes only for equal number of guardians, quorum, manifest hash, commitment hash and group constants, or a hash collision.", "quantifier": "all pairs of inputs", "why_tests_cant": "Pairs over infinite input space.", "anchors": ["src/electionguard/election.py: make_ciphertext_election_context"]}
{"id": "C43", "title": "Recomputed tallies are verified", "statement": "verify_aggregation accepts a published tally exactly when no append of the submitted ballots to an empty tally raises and the result has the same ids, contests, options and ciphertexts; with working pools an accepted tally holds, for each option of the manifest, exactly the product of the counted CAST ballots' ciphertexts, at most one tally passes, and every tally honestly built from the same ballots in any order, or by tally_ballots, passes.", "quantifier": "all lists of submitted ballots, published tallies, manifests and contexts", "why_tests_cant": "Universal.", "anchors": ["src/electionguard_verify/verify.py: verify_aggregation"]}
{"id": "C44", "title": "Published decryptions are verified", "statement": "verify_decryption accepts a plaintext tally exactly when every share it shows is by a known guardian and has a proof that checks against that guardian's key; otherwise, if all shares are checkable, it names an option with a failing share. Every tally and spoiled ballot decrypted by all guardians is accepted, and a share in an accepted tally is A^s for the guardian's key g^s (special soundness).", "quantifier": "all plaintext tallies, keys, contexts and executions of the decryption", "why_tests_cant": "Universal incl. tallies with reconstructed shares.", "anchors": ["src/electionguard_verify/verify.py: verify_decryption"]}
{"id": "C45", "title": "Guardian private records round trip", "statement": "Exporting a guardian's private record and importing it with the same ceremony details gives back an equal guardian, however it was made and whatever was saved into it, unless another key was saved under its own id; that entry is then reset to the guardian's own key.", "quantifier": "all guardian states", "why_tests_cant": "All reachable guardian states.", "anchors": ["src/electionguard/guardian.py: Guardian.export_private_data, Guardian.from_private_record"]}
{"id": "C46", "title": "Parallel tasks give all results or none", "statement": "The scheduler returns the results of all tasks in the order of the arguments or an empty list, whatever the execution order; it is empty exactly when the pool or a task failed or there was nothing to do; tally tasks never raise. The callers do not check this: a failed pool leaves the totals of that contest unchanged and append still reports success.", "quantifier": "all tasks and failure points", "why_tests_cant": "Failure of any subset of tasks in any schedule.", "anchors": ["src/electionguard/scheduler.py: Scheduler.safe_map, Scheduler.schedule, _safe_starmap", "src/electionguard/tally.py: CiphertextTallyContest.accumulate_contest, _execute_accumulate"]}
{"id": "C47", "title": "End to end: the published tally is the sum of the votes", "statement": "For every honest key ceremony, every list of ballots (distinct ids) that the voters' devices encrypt under the published joint key and then cast or spoil, and every quorum of available guardians, the tally of the ballot box decrypts; it shows exactly the manifest's options, each with the number of cast ballots that selected it (an overvoted contest selects nothing), and exactly the spoiled ballots are opened, each to its voter's votes. With all guardians present the published record also passes both verification functions.", "quantifier": "all numbers of guardians and quorums, all polynomials and randomness, all valid manifests, all voters, ballots and orders of casting and spoiling, all available quorums", "why_tests_cant": "The composition of all of the above for all sizes.", "anchors": ["src/electionguard/encrypt.py", "src/electionguard/tally.py", "src/electionguard/decryption_mediator.py"]}
{"id": "C48", "title": "Plaintext ballot limits", "statement": "PlaintextBallotContest.valid raises or accepts exactly according to the selection limit, votes-per-selection limit and number of options.", "quantifier": "all plaintext contests", "why_tests_cant": "All sizes.", "anchors": ["src/electionguard/ballot.py: PlaintextBallotContest.is_valid, PlaintextBallotContest.valid"]}
{"id": "C49", "title": "Built-in constant sets are valid groups", "statement": "Each set of test constants shipped in constants.py consists of primes p and q with q dividing p-1 and a generator of order q, so that all other guarantees apply to it.", "quantifier": "all hash functions and the shipped extra-small, small, medium and large test constant sets", "why_tests_cant": "Primality of 46- and 64-bit numbers and the order of the generator need a proof; the unit tests never check them.", "anchors": ["src/electionguard/constants.py: EXTRA_SMALL_TEST_CONSTANTS, SMALL_TEST_CONSTANTS, MEDIUM_TEST_CONSTANTS, LARGE_TEST_CONSTANTS, get_constants"]}
{"id": "C50", "title": "Published ballots are verified", "statement": "verify_ballot accepts a ballot exactly when its manifest hash is the manifest's and every hash, sum and proof on it checks; every ballot produced by encrypt_ballot and every ballot the election accepts is accepted.", "quantifier": "all ballots, manifests and contexts", "why_tests_cant": "Adversarial and arbitrary ballots.", "anchors": ["src/electionguard_verify/verify.py: verify_ballot", "src/electionguard/ballot.py: is_valid_encryption"]}
{"id": "C51", "title": "Guardian numbers in the shared key ceremony", "statement": "When guardians join a key ceremony through the graphical application, the number in every published guardian key is the position at which its owner first joined, so that two different guardians never publish keys with the same number.", "quantifier": "all histories of the application's programs working on one ceremony document: any number of programs and users, any interleaving of their database calls, any crashes and restarts, any random draws", "why_tests_cant": "The number is computed by a read after an append by concurrently running programs; a test exercises one interleaving.", "anchors": ["src/electionguard_gui/services/key_ceremony_service.py: get_guardian_number, append_guardian_joined, append_key", "src/electionguard_gui/services/key_ceremony_stages/key_ceremony_s1_join_service.py", "src/electionguard_gui/services/guardian_service.py"]}
{"id": "C52", "title": "The key ceremony document only grows", "statement": "No program ever changes or removes what was published in a key ceremony (joined guardians, keys, backups, verifications, joint key, completion mark), and the state shown to the users never steps back.", "quantifier": "all states and all histories of the programs", "why_tests_cant": "Needs every interleaving of every program.", "anchors": ["src/electionguard_gui/services/key_ceremony_service.py", "src/electionguard_gui/services/key_ceremony_state_service.py: get_key_ceremony_state"]}
{"id": "C53", "title": "A published joint key rests on checked backups", "statement": "When a joint key is in the ceremony document, it is the product of the keys of the first guardians that joined, as many as the ceremony asks for, and for each ordered pair of them the document holds a backup together with a successful check computed by the receiver from its own secret and the published commitments. The joint key never changes afterwards.", "quantifier": "all histories of the programs, interleavings, crashes and restarts", "why_tests_cant": "Adversarial scheduling of several programs that act on stale copies of the document.", "anchors": ["src/electionguard_gui/services/key_ceremony_stages/key_ceremony_s6_publish_key_service.py", "src/electionguard_gui/services/key_ceremony_stages", "src/electionguard_gui/services/guardian_service.py"]}
{"id": "C54", "title": "The shared key ceremony comes to an end", "statement": "When exactly the guardians needed have joined, each once and from one program, five rounds in which every program reacts at least once complete the ceremony, whatever else happens in between, restarts included; a further round without restarts also marks it as complete.", "quantifier": "all group parameters, numbers of guardians, quorums, programs, interleavings and restarts", "why_tests_cant": "A liveness property of several programs over all fair schedules.", "anchors": ["src/electionguard_gui/components/key_ceremony_details_component.py", "src/electionguard_gui/services/key_ceremony_stages", "src/electionguard_gui/services/key_ceremony_state_service.py"]}
{"id": "C55", "title": "Uploaded ballots are stored once, for the right election, and counted", "statement": "A ballot file is stored for an election only if it is a ballot with that election's manifest hash; uploads that do not overlap never store one object id twice, wherever they crash; the number of ballots an election shows never exceeds the number stored, and equals it (for every upload too) once all calls have ended; uploading a drive adds exactly the new ballots and reports the numbers truthfully.", "quantifier": "all readings of files, databases, interleavings of calls, crash points and drives", "why_tests_cant": "Several programs write one database; the claim ranges over every interleaving and crash point.", "anchors": ["src/electionguard_gui/components/upload_ballots_component.py:UploadBallotsComponent.upload_ballot", "src/electionguard_gui/services/ballot_upload_service.py", "src/electionguard_gui/services/election_service.py"]}
{"id": "C56", "title": "What the tally reads is what was uploaded", "statement": "The ballots read before a tally are, in upload order, those stored when the reading began whose text ends with a closing brace and that one of three attempts reaches, each equal to what was read at upload; uploads that go on meanwhile change nothing.", "quantifier": "all readings of files, databases, histories of uploads before and during the reading, and failures of the database", "why_tests_cant": "Ranges over every history of concurrent uploads and every pattern of database failures.", "anchors": ["src/electionguard_gui/services/ballot_upload_service.py:BallotUploadService.get_ballots", "src/electionguard_gui/services/ballot_upload_service.py:BallotUploadService.get_submitted_ballot_with_retry"]}
{"id": "C57", "title": "The graphical application publishes exactly the votes that were uploaded", "statement": "Whatever guardians, administrators and uploaders do, in any interleaving and with any crashes and failed reads, a published decryption shows exactly the counts of a set of voters whose ballots are stored and only votes of ballots those voters spoiled. When all uploads are done, every guardian has joined and an administrator looks at the decryption, the result is published and has exactly the cast counts and spoiled ballots of all stored closed ballot files. Every join and view comes to an end.", "quantifier": "all databases, elections, guardians, voters, interleavings of database calls, crash points, random draws and histories before and during the decryption", "why_tests_cant": "Guardians, administrators and uploading programs work on one database at the same time; the claim ranges over every interleaving and every failure.", "anchors": ["src/electionguard_gui/services/decryption_service.py:DecryptionService", "src/electionguard_gui/services/decryption_stages/decryption_s1_join_service.py:DecryptionS1JoinService.run", "src/electionguard_gui/services/decryption_stages/decryption_s2_announce_service.py:DecryptionS2AnnounceService.run", "src/electionguard_gui/services/decryption_stages/decryption_stage_base.py:get_tally", "src/electionguard_gui/components/view_decryption_component.py"]}
{"id": "C58", "title": "Result pages and printouts show the right candidates, counts and percentages", "statement": "Once a decryption is complete, the tally page opens and shows, for each contest of the manifest, each option under its candidate's name and party with the number of cast ballots that selected it, the totals, the sum of the write-ins and shares that add up to one; the page of each spoiled ballot shows the voter's votes, and there is a page for no other ballot. The command line prints each contest with the names and counts of its options. A report never loses or invents votes.", "quantifier": "all valid manifests, tallies and ballots over them, and all histories of the graphical application", "why_tests_cant": "The pages are put together from lookups by id over the whole manifest; that no lookup mixes up two options or fails must hold for every manifest and every tally.", "anchors": ["src/electionguard_gui/services/plaintext_ballot_service.py:get_plaintext_ballot_report", "src/electionguard_gui/components/view_tally_component.py:ViewTallyComponent.get_tally", "src/electionguard_gui/components/view_spoiled_ballot_component.py:ViewSpoiledBallotComponent.get_spoiled_ballot", "src/electionguard_cli/cli_steps/print_results_step.py", "src/electionguard/manifest.py:Manifest.get_selection_names"]}
{"id": "C59", "title": "An election created in the graphical application belongs to its key ceremony and its manifest", "statement": "Whatever administrators' programs do at the same time: every stored election was asked for under its name with its manifest, the manifest is valid, and its context, guardian numbers and guardian list are those of the key ceremony with its published joint key. The calls that report success correspond one to one to the stored elections; failed or stopped calls leave none. A call for a new name with a valid manifest and a finished ceremony succeeds. When calls come one after the other, names are unique and the exported encryption package is that of the election until the ceremony is used again. An election made from a ceremony in which exactly the guardians needed joined is ready for voting and decryption by these guardians.", "quantifier": "all histories of creation calls, interleavings and crash points, all key ceremonies and manifests", "why_tests_cant": "The call makes several database and file accesses between which other programs may act; the result must be right for every interleaving and every ceremony.", "anchors": ["src/electionguard_gui/components/create_election_component.py:CreateElectionComponent.create_election", "src/electionguard_gui/components/export_encryption_package_component.py:ExportEncryptionPackageComponent.export_encryption_package", "src/electionguard_gui/services/election_service.py:ElectionService.create_election", "src/electionguard_gui/models/key_ceremony_dto.py:KeyCeremonyDto.get_joint_key", "src/electionguard_cli/cli_steps/election_builder_step.py:ElectionBuilderStep._build_election", "src/electionguard/guardian.py:Guardian.from_public_key", "src/electionguard/election_builder.py:ElectionBuilder.build"]}
{"id": "C60", "title": "The graphical application, from the key ceremony to the result pages", "statement": "After a key ceremony in which exactly the guardians needed join, each once, an election created from it, uploads of voters' ballots and a decryption that every guardian of the ceremony joins with the file from the ceremony, the tally page shows for each contest and option the number of cast ballots for it among the stored ones, and the page of each spoiled ballot shows that ballot's votes.", "quantifier": "all numbers of guardians and quorums, all manifests, voters, ballots, random draws and schedules of all programs", "why_tests_cant": "The claim joins all parts of the application over unbounded numbers of guardians and ballots, every random draw and every interleaving.", "anchors": ["src/electionguard_gui/components/key_ceremony_details_component.py", "src/electionguard_gui/components/create_election_component.py:CreateElectionComponent.create_election", "src/electionguard_gui/components/upload_ballots_component.py", "src/electionguard_gui/components/view_decryption_component.py", "src/electionguard_gui/components/view_tally_component.py"]}
{"id": "C61", "title": "The end-to-end command prints the votes and exports a record that proves them", "statement": "For every manifest, every set of ballots given as a list or as a directory, every number of guardians and quorum, every random draw and every order of directory listings: the end-to-end command prints for each option of each contest the number of marks on the ballots not named as spoiled and, for the spoiled ballot, its own votes. When it ends without an error, the archive holds the manifest, the context with the joint key (the product of the guardians' keys), the record of every guardian with its order, commitments and valid proofs, every ballot with its state and the decrypted spoiled ballots; each ballot, the sum of the cast ballots and every decryption verify from the record alone, and the plaintext tally in it is the one printed. The private keys are written for the guardians of the record, and no other file changes.", "quantifier": "all manifests, ballots, numbers of guardians and quorums, random draws, directory orders, disks and options of the command", "why_tests_cant": "The result must be right for every election, every random draw and every order in which files are listed, and the record must verify for all of them.", "anchors": ["src/electionguard_cli/e2e/e2e_command.py:e2e", "src/electionguard_cli/e2e/submit_votes_step.py:SubmitVotesStep", "src/electionguard_cli/e2e/e2e_publish_step.py:E2ePublishStep.export", "src/electionguard_cli/cli_steps/decrypt_step.py:DecryptStep.decrypt", "src/electionguard_cli/cli_steps/tally_step.py:TallyStep", "src/electionguard_cli/cli_steps/key_ceremony_step.py:KeyCeremonyStep.run_key_ceremony", "src/electionguard_cli/cli_steps/encrypt_votes_step.py:EncryptVotesStep", "src/electionguard_cli/cli_steps/print_results_step.py:PrintResultsStep", "src/electionguard_tools/helpers/export.py:export_record", "src/electionguard/serialize.py:to_file"]}
{"id": "C62", "title": "The four commands setup, encrypt-ballots, submit-ballots and import-ballots carry out the election", "statement": "When setup, encrypt-ballots and submit-ballots end without an error and each command is given the files that the earlier ones wrote, import-ballots prints for every option the number of marks on the ballots in the cast directory and, for each ballot in the spoil directory, its own votes. It fails only if the archive cannot be written, and then leaves the disk alone; the archive it writes is the verifiable record of that election. With a valid manifest, ballots that can be encrypted and writable paths the first three commands do end without an error. Of the ballots with one id submit-ballots takes a valid one, cast before spoiled, and ends without an error whatever it refuses. Limits that hold of the code: import-ballots fails with fewer key files than guardians whatever the quorum; private keys written to the guardians directory of the package replace the published records; a ballot named device replaces the device file; the directory that encrypt-ballots wrote cannot be given to submit-ballots as it is.", "quantifier": "all manifests, ballots, numbers of guardians and quorums, random draws of every command, directory orders, directory names and other contents of the disk before each command", "why_tests_cant": "What import-ballots prints depends on everything three earlier processes wrote; it must be right for every election, every random draw and every order in which directories are listed.", "anchors": ["src/electionguard_cli/setup_election/setup_election_command.py:SetupElectionCommand", "src/electionguard_cli/encrypt_ballots/encrypt_command.py:EncryptBallotsCommand", "src/electionguard_cli/submit_ballots/submit_command.py:SubmitBallotsCommand", "src/electionguard_cli/import_ballots/import_ballots_command.py:ImportBallotsCommand", "src/electionguard_cli/cli_steps/submit_ballots_step.py:SubmitBallotsStep", "src/electionguard_cli/setup_election/output_setup_files_step.py:OutputSetupFilesStep"]}
{"id": "C63", "title": "Ballots made by mark-ballots are full, can be encrypted and add up", "statement": "The mark-ballots command writes the number of ballots asked for, each in a file of its own with a new id, in the style asked for or in one of the manifest's styles, with one entry for every contest of the style and exactly as many marks in each contest as there are seats, whatever is drawn; it changes no other file. It does so for every valid manifest, unless a style that is not in the manifest is asked for, which is an error that writes nothing. The ballots can be encrypted when the contests allow as many votes as they have seats, and then in each contest the marks counted for all options add up to seats times ballots. A limit that holds of the code: when a contest allows more votes than seats, which a valid manifest may say, encrypt-ballots fails on every set of such ballots. The single ballot of the test tools has the id asked for, the first style, an entry for each of its contests in order, and in each between one mark (none if empty contests are allowed) and as many as there are seats.", "quantifier": "all manifests, styles, numbers of ballots, random draws and shuffles, disks and directories", "why_tests_cant": "The ballots are random: a test sees a few draws of one manifest, the claim is about all of them.", "anchors": ["src/electionguard_cli/mark_ballots/mark_command.py:MarkBallotsCommand", "src/electionguard_cli/cli_steps/mark_ballots_step.py:MarkBallotsStep.mark", "src/electionguard_tools/factories/ballot_factory.py:BallotFactory.get_random_contest_from", "src/electionguard_tools/factories/ballot_factory.py:BallotFactory.generate_fake_plaintext_ballots_for_election", "src/electionguard/ballot.py:PlaintextBallotContest.valid", "src/electionguard_tools/factories/ballot_factory.py:BallotFactory.get_fake_ballot"]}
{"id": "C64", "title": "The record exported by the graphical application is complete and verifies", "statement": "After a key ceremony, the creation of an election from it, voting, a decryption that every guardian joined and the administrator opened, and possibly more uploads (also during the export), exporting the election record succeeds and changes one file, the archive. The archive holds exactly the manifest, the context with the joint key of the guardians in it, the constants, the Lagrange coefficient of every guardian, the encryption devices of the uploads, the guardians' public records, one file for every voter whose ballot is stored, with its state, the encrypted and the decrypted tally of the ballots stored before the decryption, and the decryption of each ballot of those that was spoiled. Every ballot, the sum of the ballots stored before the decryption, and every decryption verify with the keys in the record; the counts are those of the voters. An export that fails changes nothing. Limits that hold of the code: a ballot that was cast but uploaded after the decryption is in the record as a cast ballot while its votes are missing in the record's tally; and one stored ballot whose id has a slash makes every export fail.", "quantifier": "all key ceremonies, elections, voters, histories of uploads and decryptions with their interleavings, devices, disks and paths of the archive", "why_tests_cant": "The record combines documents written at different times by different machines; a test exports one record of one history.", "anchors": ["src/electionguard_gui/components/export_election_record_component.py:ExportElectionRecordComponent.export_election_record", "src/electionguard_gui/models/election_dto.py:ElectionDto.get_guardian_records", "src/electionguard_gui/models/election_dto.py:ElectionDto.get_encryption_devices", "src/electionguard_tools/helpers/export.py:export_record", "src/electionguard_gui/services/ballot_upload_service.py:BallotUploadService.get_ballots"]}
{"id": "C65", "title": "One guardian can choose the joint key, because no proof is checked in the key ceremony", "statement": "A user expects that the secret of the joint key is shared: nobody can decrypt without a quorum. This is false of the code. For every number of honest guardians and every guardian that follows the ceremony except that the public key it announces is computed from the announced keys of the others and any number a of its choice, and that it reports all backups as right: the ceremony completes, each backup, including the ones of that guardian, is accepted by every honest guardian, the mediator publishes the joint key, the joint key is g to the power a, and the one guardian decrypts alone every value encrypted with it. The announcement carries what is needed to refuse it: the first proof of an honest guardian is for its announced key, the one of this guardian is not, but no part of the code checks a proof or compares the key with the first commitment.", "quantifier": "all groups, numbers of guardians, quorums, secrets, ids and orders of the honest guardians, and all numbers a", "why_tests_cant": "Tests run the ceremony with honest guardians; the attack needs a guardian outside the tests' helpers, and the claim that it always works is over all secrets.", "anchors": ["src/electionguard/key_ceremony_mediator.py:KeyCeremonyMediator.announce", "src/electionguard/guardian.py:Guardian.save_guardian_key", "src/electionguard/key_ceremony.py:combine_election_public_keys", "src/electionguard/schnorr.py:SchnorrProof.is_valid"]}
{"id": "C66", "title": "What the key ceremony reads from the database is what was written", "statement": "The graphical application keeps keys, backups and the joint key of a key ceremony as text in the database and turns the text into numbers when it reads. In every history of every number of programs, with stops and restarts anywhere, each read succeeds and gives exactly the values that were written, all of them within the bounds of the group, and the programs do the same as on the values themselves. Whatever lies in the database, a read that succeeds gives only numbers within the bounds.", "quantifier": "all groups, numbers of guardians, quorums, histories of all programs with their interleavings, stops and random draws; all documents", "why_tests_cant": "The text of a number depends on its size and parity of digits; tests write and read a few keys, and the claim is about every document that the programs can reach.", "anchors": ["src/electionguard_gui/services/db_serialization_service.py:public_key_to_dict", "src/electionguard_gui/services/db_serialization_service.py:backup_to_dict", "src/electionguard_gui/services/db_serialization_service.py:joint_key_to_dict", "src/electionguard_gui/models/key_ceremony_dto.py:KeyCeremonyDto", "src/electionguard/group.py:BaseElement"]}
{"id": "C67", "title": "No program of a key ceremony waits for ever for a message", "statement": "In the graphical application a program looks at a key ceremony when its page is opened and whenever it receives a message that the ceremony changed. From the moment that all guardians needed have joined and everybody is going to hear of it, in every order of the steps of any number of programs, closed and started again at any time but between a change and its message: when no program has anything left to do, the ceremony is complete and marked complete; and left to themselves the programs do come to that point after a bounded number of steps. This needs that no message arrives between the first look of a program and the moment it starts to watch: the code looks first and starts to watch afterwards, and a guardian who joins in between leaves the ceremony waiting until somebody opens a page again. It also needs that no program stops between a change and its message. With no guardians asked for, which the application allows, two administrators' programs that watch the ceremony send messages for ever (refuted).", "quantifier": "all groups, numbers of guardians, quorums, programs, orders of their steps, messages and restarts, and random draws", "why_tests_cant": "A lost message shows only in particular interleavings of several programs, the database and the messages; the claim is about every interleaving.", "anchors": ["src/electionguard_gui/services/db_watcher_service.py:DbWatcherService.watch_database", "src/electionguard_gui/services/db_watcher_service.py:DbWatcherService.notify_changed", "src/electionguard_gui/components/key_ceremony_details_component.py:KeyCeremonyDetailsComponent.watch_key_ceremony", "src/electionguard_gui/components/key_ceremony_details_component.py:KeyCeremonyDetailsComponent.on_key_ceremony_changed", "src/electionguard_gui/components/create_key_ceremony_component.py:CreateKeyCeremonyComponent.create_key_ceremony"]}
{"id": "C68", "title": "What == between manifests and between ballots says", "statement": "Two manifests compare equal only if they say the same up to the order of their lists and selections, the ids of the contests, the parties of a primary and the version of the specification; a manifest equals itself in every other order; equal manifests that list the same ids in the same order have the same hash. Two encrypted or submitted ballots compare equal exactly if they agree on everything but the order of contests and selections, the sequence order, the accumulation and the extended data of a contest. What does not hold: equal manifests need not have one hash; manifests with one hash need not be equal, for the hash does not cover the candidates; whether a renamed contest makes a difference depends on the alphabet; equality cannot be chained when a contest is a CandidateContestDescription; equal plaintext ballots may vote in different contests; one of two equal encrypted ballots may be valid and the other not.", "quantifier": "all manifests, ballots and hash functions", "why_tests_cant": "The comparisons leave fields out and sort before they compare; which pairs they identify is a statement about all pairs.", "anchors": ["src/electionguard/election_object_base.py:list_eq", "src/electionguard/manifest.py:Manifest.__eq__", "src/electionguard/manifest.py:Manifest.crypto_hash", "src/electionguard/manifest.py:ContestDescription.__eq__", "src/electionguard/ballot.py:PlaintextBallot.__eq__", "src/electionguard/ballot.py:PlaintextBallotContest.__eq__", "src/electionguard/ballot.py:CiphertextBallot.__eq__", "src/electionguard/ballot.py:CiphertextBallotContest.__eq__", "src/electionguard/ballot.py:SubmittedBallot.__eq__"]}
{"id": "C69", "title": "The administrator's open page publishes the decryption once the guardians have joined", "statement": "In the graphical application a decryption is computed by the administrator's page, which looks at it when it is opened and whenever it receives a message that it changed. From the moment that all guardians have joined, in every order of the steps of any number of programs and pages: when a page that is going to hear of it has nothing left to do, the result is published, and it is the count of the voters' ballots. This needs that no message arrives between the moment the page looks and the moment it starts to watch, that no program stops between its last change and its message, and that no reading of a ballot fails; without each of them an open page waits for ever. An open page that has not come to rest can always take a step, and the steps come to an end. No result is published before all guardians have joined, although the quorum would be enough to decrypt.", "quantifier": "all groups, elections, voters, uploads, numbers of guardians, pages and programs, orders of their steps and messages, and random draws", "why_tests_cant": "A lost message shows only in particular interleavings of the guardians' programs, the page, the database and the messages; the claim is about every interleaving.", "anchors": ["src/electionguard_gui/services/db_watcher_service.py:DbWatcherService.watch_database", "src/electionguard_gui/services/db_watcher_service.py:DbWatcherService.notify_changed", "src/electionguard_gui/components/view_decryption_component.py:ViewDecryptionComponent.get_decryption", "src/electionguard_gui/components/view_decryption_component.py:ViewDecryptionComponent.on_decryption_changed", "src/electionguard_gui/web/components/admin/view-decryption-admin-component.js", "src/electionguard_gui/models/decryption_dto.py:DecryptionDto.get_status"]}
{"id": "C70", "title": "A copy of somebody's encrypted ballot is accepted under another id, counted, and opened when spoiled", "statement": "The proofs in an encrypted ballot are not bound to the ballot they were made for. Whatever has been submitted to a ballot box, everything in a stored ballot can be submitted once more by anybody under any id that is not taken, to be cast or to be spoiled, and the box accepts it, even with the same confirmation code; so can a ballot whose contests are each taken from one of two stored ballots of the same style. In a whole election with any number of such copies no copy is refused, the recomputed tally of the record agrees, each copy that is cast counts as one more vote for what the copied voter chose, and each copy that is spoiled is decrypted, so the record shows how a voter voted whose own ballot was cast.", "quantifier": "all groups, manifests, ballots, histories of a box, ballots in it, free ids, numbers of guardians and of present guardians, and any number of copies that are cast or spoiled", "why_tests_cant": "A test can copy one ballot. That no history of the box and no ballot in it protects against copies, and that exactly the copied votes are counted and opened for any number of copies, is about all of them.", "anchors": ["src/electionguard/ballot.py:CiphertextBallot.is_valid_encryption", "src/electionguard/ballot.py:CiphertextBallot.crypto_hash_with", "src/electionguard/ballot.py:make_ciphertext_submitted_ballot", "src/electionguard/ballot_validator.py:ballot_is_valid_for_election", "src/electionguard/ballot_box.py:submit_ballot_to_box", "src/electionguard/chaum_pedersen.py:DisjunctiveChaumPedersenProof.is_valid", "src/electionguard/tally.py:CiphertextTally.batch_append", "src/electionguard/decryption_mediator.py:DecryptionMediator.get_plaintext_ballots"]}
{"id": "C71", "title": "A sample election is consistent, whatever is drawn", "statement": "The program that makes sample elections comes to its end for every manifest whose contests have at least one seat, whatever the random draws, the number of ballots and the rate of spoiled ballots are, with all five guardians and with three of them. The ballots have an entry for every contest of their style, at least one mark and no more marks than seats in each; a ballot is spoiled exactly when the number drawn for it is below the rate; the tally has for every option the number of marks on the cast ballots, which is also what the helper that counts plaintext ballots answers for them; each spoiled ballot is decrypted to its own votes; all ballots and the sum of the cast ones verify, and with all guardians there the decryptions do. The helper refuses ballots with placeholder entries and no others; it is right only if no option id is used in two contests and no ballot has too many marks. A rate of 100 need not spoil any ballot, and with a contest without seats in every style there is no sample.", "quantifier": "all groups with valid parameters, manifests, random draws, numbers of ballots, rates, both ways of decrypting; all lists of plaintext ballots for the helper", "why_tests_cant": "the program draws everything at random and other tests compare their tallies with the helper; a run shows one draw of one manifest", "anchors": ["src/electionguard_tools/scripts/sample_generator.py:ElectionSampleDataGenerator.generate", "src/electionguard_tools/helpers/tally_accumulate.py:accumulate_plaintext_ballots", "src/electionguard_tools/factories/ballot_factory.py:generate_fake_plaintext_ballots_for_election", "src/electionguard_tools/factories/election_factory.py:get_sample_manifest_with_encryption_context", "src/electionguard_tools/helpers/tally_ceremony_orchestrator.py:perform_compensated_decryption_setup"]}
{"id": "C72", "title": "A disputed backup neither passes nor blocks the key ceremony: the last word counts, and honest owners can answer", "statement": "After two honest rounds of a key ceremony, whatever the guardians then report about each other's backups, in any order, grouping and number, true or false, with challenges in between: the mediator says that all reports are in exactly if there is a word about every backup; the failed backups it lists are exactly those about which the last word (a report, or a challenge that checks out) is bad, each once; the joint key is published exactly if the last word about every backup is good, and it is then the key of the undisturbed ceremony. The owner of any backup can answer with a challenge that every mediator accepts and that reveals the announced polynomial's value for the designated guardian; answering some of the failed ones takes exactly these off the list, and answering all of them publishes the key. In the helper round with one failing check exactly that one is listed, no key is published, and the first guardian's answer leads to the key.", "quantifier": "all groups with valid parameters, any number of guardians, quorum, polynomials and draws; all histories of reports and challenges about guardians of the ceremony", "why_tests_cant": "the tests have one failing report among a few guardians; the claim is about every order of reports, lies and answers", "anchors": ["src/electionguard/key_ceremony_mediator.py:KeyCeremonyMediator.receive_backup_verifications", "src/electionguard/key_ceremony_mediator.py:KeyCeremonyMediator.get_verification_state", "src/electionguard/key_ceremony_mediator.py:KeyCeremonyMediator.verify_challenge", "src/electionguard/key_ceremony_mediator.py:KeyCeremonyMediator.publish_joint_key", "src/electionguard/guardian.py:Guardian.publish_election_backup_challenge", "src/electionguard_tools/helpers/key_ceremony_orchestrator.py:KeyCeremonyOrchestrator.fail_round_3"]}
{"id": "C73", "title": "The upload wizard takes the first drive with a package and stores each of its ballots once, however often it is run", "statement": "The scan of the drives shows a drive exactly if it is the first from D to Z that has both places of an encryption package and the packages of all drives can be read; the number, location and device file shown are those of that drive. It shows nothing exactly if no drive has such places. One would expect a readable drive to be shown whatever else is plugged in; that is false: any other drive with an unreadable package makes the scan fail (refuted). Without a shown drive the wizard fails and changes nothing. With one, after any history of other calls and whether it succeeds or not: stored ballots stay, what it adds comes from the ballot files of that drive, was not stored before, is added once under the new upload and is counted there. On success the ballot count is the number the scan showed, the duplicates are the files that added nothing, and the ballot of every file is stored. It succeeds if the election has its context, the device file is accepted, all files are ballots for the election's manifest and the ids are new. A second run counts every file as a duplicate and stores nothing; a run that stopped half-way can be repeated.", "quantifier": "all drives with any files in any order, all databases reached by any interleaving of upload calls and runs, all elections", "why_tests_cant": "there are no tests of the wizard; the claim is about every set of drives, every file that may fail and every history before", "anchors": ["src/electionguard_gui/components/upload_ballots_component.py:UploadBallotsComponent.scan_drives", "src/electionguard_gui/components/upload_ballots_component.py:UploadBallotsComponent.parse_drive", "src/electionguard_gui/components/upload_ballots_component.py:UploadBallotsComponent.upload_ballots", "src/electionguard_gui/components/upload_ballots_component.py:UploadBallotsComponent.create_ballot_from_file", "src/electionguard_gui/components/upload_ballots_component.py:UploadBallotsComponent.create_ballot_upload_from_file", "src/electionguard_gui/services/export_service.py:get_removable_drives"]}
{"id": "C74", "title": "Tallies are listed once, by their own election; names and suggested names are unique unless calls overlap or names were chosen freely", "statement": "Whatever creations of tallies run, interleaved and stopped in any way, with tallies completed in between: an election lists only its own tallies under their names, no tally is listed twice, and when all calls have ended each tally is listed by its election. The guardians are shown every tally that was never completed, and a completed one never again. A creation that stops before its last step leaves a tally that is not listed and whose name is refused for ever (refuted). Creations one after the other never give two tallies the same name; overlapping ones can (refuted). The suggested name is always accepted if the elections have different names and earlier tallies took the suggested names; with two elections of the same name, or after a freely chosen name that looks like the next suggestion, it is suggested and refused again and again (refuted).", "quantifier": "all sets of elections, all histories of creations and completions, all interleavings and stopping points, all names", "why_tests_cant": "there are no tests of these components; the claims are about every interleaving, stop and choice of names", "anchors": ["src/electionguard_gui/components/create_decryption_component.py:CreateDecryptionComponent.create_decryption", "src/electionguard_gui/components/create_decryption_component.py:CreateDecryptionComponent.get_suggested_decryption_name", "src/electionguard_gui/services/decryption_service.py:DecryptionService.create", "src/electionguard_gui/services/decryption_service.py:DecryptionService.name_exists", "src/electionguard_gui/services/decryption_service.py:DecryptionService.get_decryption_count", "src/electionguard_gui/services/decryption_service.py:DecryptionService.get_active", "src/electionguard_gui/services/election_service.py:ElectionService.append_decryption"]}
{"id": "C75", "title": "A key ceremony is shown to the guardians until it is completed and offered for elections afterwards; names are unique unless calls overlap", "statement": "Whatever creations of key ceremonies run, interleaved and stopped in any way, with ceremonies completed in between: a ceremony whose creation was answered with its id has a quorum no larger than its number of guardians, is shown to the guardians under its name and not offered for elections until it is completed, and from then on for ever the other way round. Nothing is listed twice and only what a call has made is listed. An uninterrupted creation makes the ceremony as asked exactly if the quorum is not larger than the number of guardians and the name is new; otherwise it is refused and changes nothing. There is no lower bound: ceremonies without guardians and with a quorum of zero or less are made (refuted), but none of these ever gets a joint key or is completed, whatever the programs do. Creations one after the other never give two ceremonies the same name; overlapping ones can (refuted).", "quantifier": "all histories of creations and completions, all interleavings and stopping points, all names and numbers", "why_tests_cant": "there are no tests of this component; the claims are about every interleaving, stop and choice of names and numbers", "anchors": ["src/electionguard_gui/components/create_key_ceremony_component.py:CreateKeyCeremonyComponent.create_key_ceremony", "src/electionguard_gui/services/key_ceremony_service.py:KeyCeremonyService.create", "src/electionguard_gui/services/key_ceremony_service.py:KeyCeremonyService.exists", "src/electionguard_gui/services/key_ceremony_service.py:KeyCeremonyService.get_active", "src/electionguard_gui/services/key_ceremony_service.py:KeyCeremonyService.get_completed", "src/electionguard_gui/components/guardian_home_component.py:GuardianHomeComponent.get_key_ceremonies", "src/electionguard_gui/components/create_election_component.py:CreateElectionComponent.get_keys", "src/electionguard_gui/services/key_ceremony_stages/key_ceremony_s1_join_service.py:KeyCeremonyS1JoinService.run", "src/electionguard_gui/services/key_ceremony_stages/key_ceremony_s2_announce_service.py:KeyCeremonyS2AnnounceService.run"]}
