# Formal model of electionguard-python in Rocq (Coq 8.16.1)

## Approach

* The model is a set of total, computable Gallina functions that follow the Python functions branch by
  branch.  Exceptions are values (`res A = Ok a | Err e`).  A method that mutates an object returns the new
  object together with what it returns or raises, so the state left behind by a failing call is visible.
* Group elements are integers `Z`.  The constants (p, q, g), SHA-256, HMAC-SHA256, the discrete log limit and
  the JSON text codec are fields of a record `env` that every modelled function takes as an explicit
  argument, so every theorem quantifies over them.  `valid_env` states that p and q are primes, q divides
  p - 1 and g has order q; it is an explicit hypothesis, and it is proved for the test constants.
* Python dictionaries are insertion-ordered association lists, sets are lists used through membership,
  `str` is a Coq string.  Random draws, clock readings and failures of process pools are arguments.
* Concurrent programs (the graphical application) are a transition system over the shared database
  document and the local files; theorems quantify over every schedule and crash point.
* Zero-knowledge soundness is special soundness: two accepted transcripts with the same commitments, given by
  two environments that share the group but not the hash function.
* Files: model files (named after the Python modules) hold definitions only, each with the lines it models.
  `Spec*.v` hold the vocabulary of the statements.  `*Facts.v`, `*Thms.v`, `*Run.v`, `*More.v` hold lemmas.
  `*Samples.v`, `Tiny.v`, `*Demo.v` hold concrete elections for the examples.  `Props*.v` hold only the
  property theorems, each closed by `exact`, with `Print Assumptions` beneath and examples that meet the
  hypotheses beside.

## Trusted base

* The Coq 8.16.1 kernel, including its virtual machine (`vm_compute`, used for concrete examples, refutation
  witnesses and primality certificates).  `coqchk` rechecks every file.
* `Print Assumptions` beneath every property theorem but two reports "Closed under the global context".  The
  two are `C49_standard_order` and `C49_standard_valid_partial` in `PropsStandard.v`: they compute a 4096-bit
  power with the kernel's machine integers, and `Print Assumptions` lists these axioms of the standard library
  (`Coq.Numbers.Cyclic.Int63`): `PrimInt63.int`, `PrimInt63.add`, `sub`, `mul`, `lsl`, `lsr`, `land`, `lor`,
  `eqb`, `ltb`, `leb`, and `Uint63.of_to_Z`, `add_spec`, `sub_spec`, `mul_spec`, `lsl_spec`, `lsr_spec`,
  `land_spec`, `lor_spec`, `eqb_correct`, `eqb_refl`, `ltb_spec`, `leb_spec`.  No other axiom is used by any
  theorem.  `coqchk -o` lists seven constants of `Coq.ssr.ssrunder.Under_rel` of the standard
  library (a sealed module loaded with `lia`'s dependencies); no theorem depends on them.
* The reading of the Python code: nothing was executed, and the cited line ranges are the argument that the
  definitions say what the code does.
* SHA-256 and HMAC are arbitrary functions.  Where a property needs collision resistance the theorem returns an
  explicit collision instead of assuming there is none.
* The primality of the 4096-bit p is a hypothesis; with it the standard constants form a `valid_env` (C49).

## What is modelled

| Rocq file | Python source |
|---|---|
| Group.v, Constants.v | electionguard/group.py, constants.py |
| Codec.v | big_integer.py, byte_padding.py, int/bytes/hex built-ins |
| Hash.v | hash.py, nonces.py |
| DLog.v | discrete_log.py (function and shared cache) |
| ElGamal.v | elgamal.py, hmac.py |
| ZK.v | schnorr.py, chaum_pedersen.py |
| Poly.v | election_polynomial.py |
| Manifest.v | manifest.py, election_object_base.py |
| Ballot.v | ballot.py, ballot_code.py, ballot_validator.py, election.py |
| Encrypt.v | encrypt.py |
| Box.v | scheduler.py, data_store.py, ballot_box.py |
| Tally.v | tally.py |
| DecryptSecrets.v | decrypt_with_secrets.py |
| Ceremony.v | key_ceremony.py, key_ceremony_mediator.py, guardian.py (key ceremony), key_ceremony_orchestrator.py |
| Shares.v | decryption_share.py, decryption.py, decrypt_with_shares.py, decryption_mediator.py, guardian.py (decryption), tally_ceremony_orchestrator.py |
| Verify.v | electionguard_verify/verify.py |
| Compact.v | ballot_compact.py |
| GuiCeremony.v | electionguard_gui: key_ceremony_service, key_ceremony_state_service, the six key ceremony stages, key_ceremony_details_component, key_ceremony_dto, guardian_service, create_key_ceremony_component |
| GuiText.v | electionguard_gui: db_serialization_service, the readers of key_ceremony_dto; group.BaseElement on a text |
| GuiWatch.v | electionguard_gui: db_watcher_service, watch_key_ceremony of key_ceremony_details_component |
| GuiDecWatch.v | electionguard_gui: db_watcher_service, view_decryption_component (get_decryption, on_decryption_changed, watch), view-decryption-admin-component.js (mounted), decryption_dto.get_status |
| SpecCopy.v | no new code: copies and mixtures of stored ballots, made with ballot.make_ciphertext_submitted_ballot |
| SampleGen.v | electionguard_tools: scripts/sample_generator.generate (the objects, not the files), helpers/tally_accumulate, factories/election_factory.get_sample_manifest_with_encryption_context after the manifest is read |
| Dispute.v | electionguard_tools: helpers/key_ceremony_orchestrator.fail_round_3 |
| Equality.v | election_object_base (list_eq); the `__eq__` methods of manifest and ballot |
| Wizard.v | electionguard_gui: upload_ballots_component (scan_drives, parse_drive, upload_ballots), export_service.get_removable_drives |
| GuiUpload.v | electionguard_gui: upload_ballots_component, ballot_upload_service, election_service (uploads), election_dto |
| KcList.v | electionguard_gui: components/create_key_ceremony_component.create_key_ceremony, guardian_home_component.get_key_ceremonies, create_election_component.get_keys; services/key_ceremony_service (create, exists, get_active, get_completed, set_complete) |
| FakeBallot.v | electionguard_tools: factories/ballot_factory.get_fake_ballot |
| GuiTallies.v | electionguard_gui: create_decryption_component, decryption_service (names, counts, active), election_service.append_decryption |
| GuiDecrypt.v | electionguard_gui: decryption_service, decryption_stages (join, announce), decryption_dto (shares), create_decryption_component, view_decryption_component (join, view), guardian_service (loading) |
| Report.v | electionguard_gui: plaintext_ballot_service, view_tally_component, view_spoiled_ballot_component; electionguard_cli: print_results_step |
| GuiElection.v | electionguard_gui: create_election_component, export_encryption_package_component, election_service.create_election, key_ceremony_dto.get_joint_key; electionguard_cli: input_retrieval_step_base, election_builder_step, setup_election_builder_step, output_setup_files_step; electionguard: election_builder |
| Cli.v | electionguard_cli: e2e, setup_election, encrypt_ballots, submit_ballots and import_ballots commands and all their steps; electionguard: serialize.py (to_file, from_file, construct_path); electionguard_tools: export.py (export_record, export_private_data), key_ceremony_orchestrator.py |
| Mark.v | electionguard_cli: mark_ballots command and mark_ballots_step; electionguard_tools: ballot_factory.py (get_random_contest_from, generate_fake_plaintext_ballots_for_election) |
| GuiRecord.v | electionguard_gui: export_election_record_component, election_dto (get_guardian_records, get_encryption_devices) |

## What is not modelled

* Logging, the JSON text of files except where a record is converted (guardian private records, backups as
  JSON text): a file of Cli.v holds the object itself.  Prompts and progress messages of the command line, web
  assets, Docker, configuration, test data generators (electionguard_tools: election_factory, strategies, scripts, and the parts of ballot_factory that no command uses).
* Real randomness, real time, and secrecy properties (hiding, zero knowledge): only what is computed.
* Process pools: the scheduler is modelled by its result for any execution order and any failure.
* Performance, memory, and the partial write of a single file or a single database operation (each database
  operation is one atomic step).

## Testing the theorems

`seeded/LOG.jsonl` records edits of the model made in a scratch copy, the claim each edit breaks, the theorems
that then failed and the theorems that were tightened because they did not.

## Plan per property

Each line: what is modelled, how it is proved.  The theorems are listed in MANIFEST.json; a name ending in
`_refuted` is the proof that a stronger claim is false of the model, with its witness.

- **C01 Group arithmetic is closed and exact** (proved) — Group.v over Z; modular arithmetic, Bezout for inverses.
- **C02 Element construction and hex codec** (proved) — Codec.v digit by digit; round trip by induction on the digit expansion.
- **C03 Hash inputs are unambiguous** (proved) — Hash.v models the text fed to SHA-256; injectivity for sequences of one pattern of kinds by induction; ambiguous pairs by computation.
- **C04 Nonce sequences are deterministic and consistent** (proved) — Hash.v models Nonces; slices and indices agree by induction.
- **C05 ElGamal decryption inverts encryption** (proved) — ElGamal.v; every element is a power of g.
- **C06 Homomorphic addition** (proved) — ElGamal.v; induction on the list of ciphertexts.
- **C07 Schnorr proofs of honest guardians verify** (proved) — ZK.v; algebra of exponents modulo q.
- **C08 Schnorr proofs are sound** (proved) — ZK.v; special soundness by inverting the challenge difference modulo q.
- **C09 Disjunctive proofs of honest encryptions verify** (proved) — ZK.v; algebra; the one derived value that makes negate_q overflow is isolated.
- **C10 Disjunctive proofs are sound** (proved) — ZK.v; special soundness.
- **C11 Constant proofs: completeness and soundness** (proved) — ZK.v; completeness as an equivalence, special soundness; the bound computed for the standard constants.
- **C12 Decryption-share proofs: completeness and soundness** (proved) — ZK.v; completeness and special soundness.
- **C13 Any quorum reconstructs a guardian secret** (proved) — Poly.v; Lagrange interpolation at 0 over Z/q from root counting.
- **C14 Honest key backups verify** (proved) — Poly.v; induction over the verification loop in the exponent, with and without reduced powers.
- **C15 Wrong key backups are rejected** (proved) — Poly.v; injectivity of g^x below q.
- **C16 Recovery public keys match backups** (proved) — Shares.v; exponents of recovery keys and of backups.
- **C17 Padding round trip** (proved) — Codec.v; byte lists.
- **C18 Hashed ElGamal: round trip and tamper rejection** (proved) — ElGamal.v with HMAC as a function argument; the key stream applied twice.
- **C19 Discrete log answers are correct for every call history** (proved) — DLog.v; invariant of the cache over all call histories and agreement with the stateless search.
- **C20 Data store behaves as a map** (proved) — Box.v; refinement of the store to the map described by the history.
- **C21 Ballot box accepts each ballot id at most once** (proved) — Box.v; invariant over histories of cast and spoil.
- **C22 Ballot box never stores nonces and only valid ballots** (proved) — Box.v; invariant over histories.
- **C23 Contest encryption preserves votes and the selection limit** (proved) — Encrypt.v; induction over the selection loop.
- **C24 An encrypted ballot is accepted by every validator** (proved) — Encrypt.v and the validators of Ballot.v; composition of C07-C11.
- **C25 Decryption with secret or nonce returns the cast plaintext** (proved) — DecryptSecrets.v on the ballots of C23.
- **C26 Confirmation codes chain** (proved) — Encrypt.v; induction over the chain of ballots of a device.
- **C27 The tally is the homomorphic sum of exactly the cast ballots** (proved) — Tally.v; closed form of the state after any history of appends.
- **C28 Spoiled ballots never affect the totals** (proved) — Tally.v; from the closed form.
- **C29 The tally does not depend on ballot order** (proved) — Tally.v; permutation invariance of the product.
- **C30 Batch append equals repeated append** (proved) — Tally.v; both closed forms; counterexamples where the conditions fail.
- **C31 What a refused ballot changes** (proved) — Tally.v; exact effect of append for any ballot, history and pool failure.
- **C32 The joint key is published only after a complete verified ceremony** (proved) — Ceremony.v; invariant of the mediator over all histories of calls.
- **C33 An honest key ceremony always completes** (proved) — Ceremony.v; the honest run in closed form.
- **C34 Decryption with all guardians equals decryption with the joint secret** (proved) — Shares.v; product of shares in the exponent.
- **C35 Decryption with a quorum equals decryption with all guardians** (proved) — Shares.v; Lagrange weights from C13 for each missing guardian.
- **C36 Honest decryption shares verify** (proved) — Shares.v; completeness of C12 for direct and compensated shares.
- **C37 No plaintext before quorum and full accounting** (proved) — Shares.v; invariant of the decryption mediator over all histories.
- **C38 A valid manifest is referentially sound** (proved) — Manifest.v; case analysis of is_valid.
- **C39 Placeholders are fresh and sufficient** (proved) — Manifest.v; induction over placeholder generation.
- **C40 Compact ballots expand to the original** (proved) — Compact.v; round trip under stated conditions, counterexamples without.
- **C41 A valid ballot contains exactly the contests and selections of its style** (proved) — Ballot.v validators; with special soundness from C10, C11.
- **C42 Election base hash binds the parameters** (proved) — Ballot.v make_ciphertext_election_context and Hash.v; injectivity from C03.
- **C43 Recomputed tallies are verified** (proved) — Verify.v; equivalence of acceptance with the recomputation of C27.
- **C44 Published decryptions are verified** (proved) — Verify.v; case analysis over the published plaintexts.
- **C45 Guardian private records round trip** (proved) — Ceremony.v; export and import of guardian records.
- **C46 Parallel tasks give all results or none** (proved) — Box.v scheduler; permutations of the execution order; counterexamples for the callers.
- **C47 End to end: the published tally is the sum of the votes** (proved) — EndToEnd.v; composition of C33, C24, C21, C27, C35.
- **C48 Plaintext ballot limits** (proved) — Ballot.v; induction over the selections.
- **C49 Built-in constant sets are valid groups** (partial) — Constants.v, Primality.v; Pocklington certificates checked by computation.  StandardPower.v computes g^q mod p for the 4096-bit set by Montgomery multiplication on the kernel's machine integers, each step proved.
- **C50 Published ballots are verified** (proved) — Verify.v; case analysis of verify_ballot and composition with C24.
- **C51 Guardian numbers in the shared key ceremony** (proved) — GuiCeremony.v; invariant over every schedule and crash.
- **C52 The key ceremony document only grows** (proved) — GuiCeremony.v; monotonicity of every step.
- **C53 A published joint key rests on checked backups** (proved) — GuiCeremony.v; invariant over every schedule.
- **C54 The shared key ceremony comes to an end** (proved) — GuiCeremony.v; progress of every round and termination; stuck histories by computation.
- **C55 Uploaded ballots are stored once, for the right election, and counted** (proved) — GuiUpload.v; invariants over every interleaving and crash; induction over the files of a drive.
- **C56 What the tally reads is what was uploaded** (proved) — GuiUpload.v; documents are never changed, so later reads agree; induction over the documents.
- **C57 The graphical application publishes exactly the votes that were uploaded** (proved) — GuiDecrypt.v; one invariant over every interleaving of uploads, joins and views; a measure for termination; failing histories by computation.
- **C58 Result pages and printouts show the right candidates, counts and percentages** (proved) — Report.v; induction over contests and options; the form of every published tally by an invariant over every history; wrong pages by computation.
- **C59 An election created in the graphical application belongs to its key ceremony and its manifest** (proved) — GuiElection.v; every stored election traced to its call by an invariant over every interleaving; the seats of a ceremony from the invariants of C51-C53; wrong cases by computation.
- **C60 The graphical application, from the key ceremony to the result pages** (proved) — composition of C53, C59, C57 and C58.
- **C61 The end-to-end command prints the votes and exports a record that proves them** (proved) — Cli.v; the steps of the command joined through C24, C25, C31, C36, C44 and C53; files by induction over the list of writes.
- **C62 The four commands setup, encrypt-ballots, submit-ballots and import-ballots carry out the election** (proved) — CliPipe.v, CliVotes.v, CliPipeThms.v: each command taken apart through the files it reads and writes (induction over the writes of a directory), then joined by C24, C25, C31, C36, C44 and C53; the limits by the same read and write lemmas.
- **C63 Ballots made by mark-ballots are full, can be encrypted and add up** (proved) — Mark.v and FakeBallot.v; each contest by cases on the flags and counting over permutations, ballots and files by induction; encryption through C24; totals by induction over the ballots.
- **C64 The record exported by the graphical application is complete and verifies** (proved) — GuiRecord.v; the result of C57 strengthened to carry what verifies (GuiDecPure.v), joined with C59 and C60; the files by the write lemmas of C61, for writes that repeat a file with the same contents; the limits by counting and by the path of the ballot file.
- **C65 One guardian can choose the joint key, because no proof is checked in the key ceremony** (proved) — RogueFacts.v: the honest run of the ceremony (C33) again, with the logarithm of the announced key apart from the secret; the product of the keys by the group laws, the decryption by C05.
- **C66 What the key ceremony reads from the database is what was written** (proved) — GuiText.v has the programs of C51 to C54 again, on text; a simulation by induction over the history, with the invariant that all numbers of the document are in range and the round trip of C09.
- **C67 No program of a key ceremony waits for ever for a message** (proved) — GuiWatch.v adds the messages and the cursors to the programs of C51 to C54; the invariant of C54 together with: whoever has read all messages either runs a stage on the document as it is, or has nothing to do on it, or somebody has yet to send a message; the limits by two concrete histories and the lemma that a quiet world stays.  GuiWatchEnds.v: a measure (stages each program can still carry out, messages it has yet to read) that every effective step makes smaller.
- **C68 What == between manifests and between ballots says** (proved) — EqualityFacts.v: String.leb is a total order, so sorting by distinct ids gives one list for all orders; each generated comparison decides equality; the rest by pairing the two sorted lists. The limits by concrete valid objects.
- **C69 The administrator's open page publishes the decryption once the guardians have joined** (proved) — GuiDecWatch.v adds the page, the messages and its cursor to the calls of C57; every history is one of C57, and the invariant is: whoever has not looked since the last join still has a message to read or to be sent. A finished page has looked after everybody joined, or its own call carried it out, so C57_completes gives the counts. GuiDecWatchEnds.v: a lexicographic measure (unpublished decryptions, calls that can still send, messages and looks left, steps left in the calls). The limits by four histories and the lemma that a world where nobody can move stays.
- **C70 A copy of somebody's encrypted ballot is accepted under another id, counted, and opened when spoiled** (proved) — SpecCopy.v says what a copy and a mixture are. CopyThms.v: the checks of the box look at the ballot only through its contests, style and manifest hash, so a stored ballot passes them under any id (induction over the history: what is stored was accepted). CopyFacts.v repeats the invariants of C33 for ballots that are encryptions or copies of encryptions; counting and opening follow as there.
- **C71 A sample election is consistent, whatever is drawn** (proved) — SampleGen.v models the generator and the helper over the models of Mark.v, Ceremony.v, Encrypt.v, Box.v, Tally.v and Shares.v. AccFacts.v: the count of the entries by induction over the ballots, and each option in one contest only. SampleFacts.v: the ballots drawn, the voters behind them by position, the box. SampleThms.v: both ways of decrypting by all_decrypt and quorum_decrypts of C34 and C35, the Lagrange coefficients from the announcement.
- **C72 A disputed backup neither passes nor blocks the key ceremony: the last word counts, and honest owners can answer** (proved) — Dispute.v models the helper round with one failing check; the mediator and the guardians are those of Ceremony.v. SpecDispute.v defines the last word about a backup from the calls alone. DisputeThms.v: every history of reports and challenges is a fold over a dictionary of reports (induction over the history), whose entries are the last words; n(n-1) different pairs are all pairs. The answers are those of C33.
- **C73 The upload wizard takes the first drive with a package and stores each of its ballots once, however often it is run** (proved) — Wizard.v models the scan and the run over folders with names and texts; the calls are those of GuiUpload.v. SpecWizard.v says when a drive has a package and when it can be read. WizardThms.v: the scan by the first element of a filter; a run equals the upload of C55 over the files up to the first unreadable one, so C55_drive gives counts and stored ballots; a run is a history of up_event steps, which makes the theorems composable; success by induction over the files with an invariant on elections and ids.
- **C74 Tallies are listed once, by their own election; names and suggested names are unique unless calls overlap or names were chosen freely** (proved) — GuiTallies.v models the creation one database call at a time, and histories of such calls. TalliesThms.v: an invariant counts, for each id, the entries in the lists and the calls that are about to append, which together are the documents with that id. The number in a suggested name can be read back because it has no hash sign, so different elections and numbers give different names.
- **C75 A key ceremony is shown to the guardians until it is completed and offered for elections afterwards; names are unique unless calls overlap** (proved) — KcList.v, one database call at a time; an invariant over every history (ids differ, each call that made a ceremony has its document and each document its call), completion is never undone; over the programs of GuiCeremony.v, that nobody can make a key with a quorum below one.
