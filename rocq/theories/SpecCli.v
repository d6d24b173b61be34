(** * SpecCli: the plain vocabulary of the command line programs. *)
From Verif Require Import Base Group Codec Hash ElGamal ZK Spec Manifest Ballot Encrypt Box Tally SpecTally Ceremony Shares SpecShares Verify SpecVerify SpecEndToEnd GuiUpload GuiDecrypt GuiElection Report SpecReport Cli.
From Coq Require Import List Permutation.
Local Open Scope Z_scope.

(** ** what is printed *)
(** one line shows one option of the manifest: the name of the candidate ("Write-In" for a write-in, the id when there is no such
    candidate) and the votes *)
Definition print_line (m : manifest) (votes : Z) (o : selection_desc) (l : string * Z) : Prop :=
  snd l = votes /\
  ((exists c, In c (mf_candidates m) /\ ca_id c = sd_candidate_id o /\ if writes_in c then fst l = "Write-In"%string else called c (fst l)) \/
   (fst l = sd_candidate_id o /\ forall c, In c (mf_candidates m) -> ca_id c <> sd_candidate_id o)).
(** one block shows one contest: its name and a line for each of its options that are on *)
Definition print_contest (m : manifest) (on : string -> string -> Prop) (votes : string -> string -> Z) (d : contest_desc) (r : option string * list (string * Z)) : Prop :=
  fst r = Some (cd_name d) /\
  exists os, NoDup os /\ (forall o, In o os <-> In o (cd_selections d) /\ on (cd_id d) (sd_id o)) /\ Forall2 (fun o l => print_line m (votes (cd_id d) (sd_id o)) o l) os (snd r).
(** the votes [votes] for the options [on] are printed, each once *)
Definition shows_print (m : manifest) (on : string -> string -> Prop) (votes : string -> string -> Z) (out : list (option string * list (string * Z))) : Prop :=
  exists ds, NoDup ds /\ incl ds (mf_contests m) /\ (forall d o, In d (mf_contests m) -> In o (cd_selections d) -> on (cd_id d) (sd_id o) -> In d ds) /\
    Forall2 (print_contest m on votes) ds out.

(** the number of ballots that mark an option *)
Definition marked (im : internal_manifest) (bs : list pt_ballot) (cid oid : string) : Z := len (filter (fun b => vote_for im b cid oid =? 1) bs).
(** the printed results of an election: the number of marks on the ballots [cast] for every option of the manifest, and for every ballot of
    [spoiled], in that order, its id and its own votes *)
Definition shows_election (m : manifest) (im : internal_manifest) (cast spoiled : list pt_ballot) (out : printed) : Prop :=
  shows_print m (in_manifest m) (marked im cast) (po_tally out) /\
  Forall2 (fun b e => fst e = pb_id b /\ shows_print m (on_ballot im b) (vote_for im b) (snd e)) spoiled (po_spoiled out).

(** ** the inputs *)
(** the ballot named on the command line is spoiled, all others are cast *)
Definition named_spoiled (spoil_id : option string) (b : pt_ballot) : bool := match spoil_id with Some i => String.eqb (pb_id b) i | None => false end.
Definition spoiled_of (spoil_id : option string) (bs : list pt_ballot) : list pt_ballot := filter (named_spoiled spoil_id) bs.
Definition cast_of (spoil_id : option string) (bs : list pt_ballot) : list pt_ballot := filter (fun b => negb (named_spoiled spoil_id b)) bs.
(** a path names one file *)
Definition proper_disk (dk : disk) : Prop := NoDup (dkeys (dk_files dk)).
(** the file [f] of the directory [d] holds [x] *)
Definition file_in (dk : disk) (d f : string) (x : content) : Prop := has_slash f = false /\ dget (d ++ "/" ++ f)%string (dk_files dk) = Some x.
(** [l] are the files of the directory [d], which has no subdirectories *)
Definition directory (dk : disk) (d : string) (l : list (string * content)) : Prop :=
  d <> ""%string /\ ends_slash d = false /\ In d (dk_dirs dk) /\ NoDup (map fst l) /\ (forall f x, file_in dk d f x <-> In (f, x) l) /\
  (forall f, has_slash f = false -> ~ In (d ++ "/" ++ f)%string (dk_dirs dk)).
(** the plaintext ballots at a path: a file with a list of ballots, or a directory with one ballot in each file *)
Definition plain_ballots (dk : disk) (p : string) (bs : list pt_ballot) : Prop :=
  dget p (dk_files dk) = Some (JPlains bs) \/
  dget p (dk_files dk) = None /\ exists l, directory dk p l /\ Permutation (map snd l) (map JPlain bs).

(** ** what the environment of a command does *)
(** draws of coefficients and of the nonces of their proofs are below q, other nonces are not negative, the pools work, listing a directory gives every name once *)
Record fair (E : env) (ch : chance) : Prop := {
  fa_draw : forall i j, 0 <= fst (ch_draw ch i j) < qq E /\ 0 <= snd (ch_draw ch i j) < qq E;
  fa_backup : forall a b, 0 <= ch_backup ch a b;
  fa_up : forall path, ch_up ch path = true;
  fa_order : forall l, Permutation (ch_order ch l) l }.
(** [n] guardians with a quorum of [k] fit the group: always so for the real parameters and reasonable numbers *)
Definition seats_fit (E : env) (n k : Z) : Prop := 1 <= k <= n /\ n < qq E /\ n ^ (k - 1) < pp E.
(** the votes fit the group and the table of discrete logarithms *)
Definition votes_fit (E : env) (n : Z) : Prop := n < qq E /\ n <= dmax E /\ 1 <= dmax E.
(** the ballot is encrypted whatever the key and the code of the ballot before it, with this nonce and time (C24 says when that is so) *)
Definition can_encrypt (E : env) (im : internal_manifest) (b : pt_ballot) (r : Z * Z) : Prop :=
  forall cx seed, in_subgroup E (cx_key cx) -> exists eb, encrypt_ballot E b im cx seed None false (fst r) (snd r) = Ok (Some eb).

(** ** the exported record *)
(** the files of a record, whatever the order of writing: one for each object, named after its id *)
Definition record_of (E : env) (m : manifest) (cx : context) (devices : list device) (records : list guardian_record) (subs : list sub_ballot)
    (spoiled : list plain_tally) (t : tally) (p : plain_tally) (lagrange : dict string Z) : list (string * content) :=
  [("record/manifest.json", JManifest m); ("record/context.json", JContext cx); ("record/constants.json", JConstants (pp E) (qq E) (gg E));
   ("record/coefficients.json", JCoefficients lagrange); ("record/encrypted_tally.json", JCipherTally (ty_id t) (ty_contests t)); ("record/tally.json", JTally p)]%string
  ++ map (fun d => ("record/encryption_devices/device_" ++ decimal (dv_id d) ++ ".json", JDevice d)%string) devices
  ++ map (fun r => ("record/guardians/guardian_" ++ gr_id r ++ ".json", JGuardian r)%string) records
  ++ map (fun b => ("record/submitted_ballots/submitted_ballot_" ++ sb_id b ++ ".json", JSubmitted b)%string) subs
  ++ map (fun q => ("record/spoiled_ballots/spoiled_ballot_" ++ pt_id q ++ ".json", JTally q)%string) spoiled.
(** a set of files *)
Definition files_are (files l : list (string * content)) : Prop := NoDup (map fst l) /\ Permutation files l.
(** the published keys, by the ids of the guardians, as the program that verifies wants them *)
Definition record_keys (records : list guardian_record) : dict string public_key :=
  map (fun r => (gr_id r, mkPk (gr_id r) (gr_seq r) (gr_key r) (gr_commitments r) (gr_proofs r))) records.
(** the ids of [n] guardians *)
Definition guardian_ids (n : Z) : list string := map (fun i => decimal (Z.of_nat i + 1)) (seq 0 (Z.to_nat n)).
(** and with their orders *)
Definition guardian_seats (n : Z) : list (string * Z) := map (fun i => (decimal (Z.of_nat i + 1), Z.of_nat i + 1)) (seq 0 (Z.to_nat n)).
(** the record of a guardian: [k] commitments, the first of them its key, and a proof for each that anyone can check *)
Definition good_published (E : env) (k : Z) (r : guardian_record) : Prop :=
  len (gr_commitments r) = k /\ hd_error (gr_commitments r) = Some (gr_key r) /\ map s_key (gr_proofs r) = gr_commitments r /\
  Forall (fun pf => schnorr_is_valid E pf = true) (gr_proofs r).
(** the Lagrange coefficient of each of these, by its id, with its order as the point, and nothing else *)
Definition good_coefficients (E : env) (seats : list (string * Z)) (lagrange : dict string Z) : Prop :=
  NoDup (dkeys lagrange) /\ (forall i, In i (dkeys lagrange) <-> In i (map fst seats)) /\
  forall i x, In (i, x) seats -> exists w, dget i lagrange = Some w /\ is_lagrange E x (filter (fun z => negb (z =? x)) (map snd seats)) w.
(** the record tells everything about the election: it has the joint key, all guardians with their orders, all ballots with their states and the
    spoiled ones in plaintext, and the Lagrange coefficient of every guardian; all keys, all ballots, the sum of the cast ones and the decryptions verify from the record alone; and its
    plaintext tally is the one that was printed; [records] are the published records of the guardians *)
Definition good_record (E : env) (m : manifest) (n k : Z) (devices : list device) (cast spoiled : list pt_ballot) (out : printed) (records : list guardian_record) (files : list (string * content)) : Prop :=
  exists cx subs decrypted t p lagrange,
    files_are files (record_of E m cx devices records subs decrypted t p lagrange) /\
    cx_guardians cx = n /\ cx_quorum cx = k /\ cx_key cx = prodZ (map gr_key records) mod pp E /\
    Permutation (map (fun r => (gr_id r, gr_seq r)) records) (guardian_seats n) /\ Forall (good_published E k) records /\
    Permutation (map (fun sb => (sb_id sb, sb_state sb)) subs) (map (fun b => (pb_id b, CAST)) cast ++ map (fun b => (pb_id b, SPOILED)) spoiled) /\
    Permutation (map pt_id decrypted) (map pb_id spoiled) /\
    (forall sb, In sb subs -> verify_ballot E (sb_ballot sb) m cx = Ok verified) /\
    verify_aggregation E (fun _ => all_up) subs t m cx = Ok verified /\
    verify_decryption E p (record_keys records) cx = Ok verified /\
    (forall q, In q decrypted -> verify_decryption E q (record_keys records) cx = Ok verified) /\
    print_tally m p = Ok (po_tally out) /\ Forall2 (fun q e => pt_id q = fst e /\ print_tally m q = Ok (snd e)) decrypted (po_spoiled out) /\
    good_coefficients E (map (fun r => (gr_id r, gr_seq r)) records) lagrange.
(** the private keys of the guardians with these records *)
Definition good_keys (E : env) (dk : disk) (dir : string) (records : list guardian_record) : Prop :=
  forall r, In r records -> exists x, dget (dir ++ "/guardian_" ++ gr_id r ++ ".json")%string (dk_files dk) = Some (JPrivate x) /\ pr_id x = gr_id r /\
    gr_key r = gexp E (ek_secret (pr_keys x)).

(** ** an election with the four commands setup, encrypt-ballots, submit-ballots and import-ballots *)
(** the file with this name in a directory *)
Definition file_named (d name : string) : string := (d ++ "/" ++ (name ++ ".json"))%string.
Definition plain_dir (d : string) : Prop := d <> ""%string /\ ends_slash d = false.
(** the directory [d] holds copies of the files at [paths] of another disk, under any names, and nothing else *)
Definition copies (dk : disk) (d : string) (from : disk) (paths : list string) : Prop :=
  dget d (dk_files dk) = None /\ exists l, directory dk d l /\ Permutation (map (fun f => Some (snd f)) l) (map (fun p => dget p (dk_files from)) paths).
(** the arguments of the commands, what the system does during each (0 to 3), and the disk on which each starts *)
Record commands := mkCommands {
  cm_guardians : Z; cm_quorum : Z; cm_chance : nat -> chance; cm_disk : nat -> disk; cm_manifest : nat -> string; cm_context : nat -> string;
  cm_package : string; cm_keys : string;                                                    (* written by setup *)
  cm_ballots : string; cm_encrypted : string;                                               (* read and written by encrypt-ballots *)
  cm_cast : string; cm_spoiled : option string; cm_submitted : string;                      (* read and written by submit-ballots *)
  cm_votes : string; cm_private : string; cm_device : option string; cm_record : option string  (* read and written by import-ballots *) }.
Definition setup_outcome (E : env) (c : commands) : outcome :=
  setup_election E (cm_chance c 0) (cm_guardians c) (cm_quorum c) (cm_manifest c 0) true (cm_package c) (Some (cm_keys c)) (cm_disk c 0).
Definition encrypt_outcome (E : env) (c : commands) : outcome :=
  encrypt_command E (cm_chance c 1) (cm_manifest c 1) (cm_context c 1) (cm_ballots c) (Some (cm_encrypted c)) (cm_disk c 1).
Definition submit_outcome (E : env) (c : commands) : outcome :=
  submit_command E (cm_chance c 2) (cm_manifest c 2) (cm_context c 2) (cm_cast c) (cm_spoiled c) (Some (cm_submitted c)) (cm_disk c 2).
Definition import_outcome (E : env) (c : commands) : outcome :=
  import_command E (cm_chance c 3) (cm_manifest c 3) (cm_context c 3) (cm_votes c) (cm_private c) (cm_device c) (cm_record c) (cm_disk c 3).
(** every command finds what the commands before it wrote, wherever it was taken: the manifest, the context of setup, of the encrypted
    ballots those of [cast] in one directory and those of [spoiled] in another, then all ballots that were submitted and the private keys
    of all guardians.  The device file is the one of encrypt-ballots, if it is given. *)
Record handed_over (E : env) (c : commands) (m : manifest) (bs cast spoiled : list pt_ballot) : Prop := {
  ho_disks : forall i, proper_disk (cm_disk c i);
  ho_dirs : plain_dir (cm_package c) /\ plain_dir (cm_keys c) /\ plain_dir (cm_encrypted c) /\ plain_dir (cm_submitted c);
  ho_manifest : forall i, dget (cm_manifest c i) (dk_files (cm_disk c i)) = Some (JManifest m);
  ho_context : forall i, i <> O -> dget (cm_context c i) (dk_files (cm_disk c i)) = dget (file_named (cm_package c) "context") (dk_files (oc_disk (setup_outcome E c)));
  ho_ballots : plain_ballots (cm_disk c 1) (cm_ballots c) bs;
  ho_split : incl (cast ++ spoiled) bs /\ NoDup (map pb_id (cast ++ spoiled));
  ho_cast : copies (cm_disk c 2) (cm_cast c) (oc_disk (encrypt_outcome E c)) (map (fun b => file_named (cm_encrypted c) (pb_id b)) cast);
  ho_spoiled : match cm_spoiled c with
    | Some d => copies (cm_disk c 2) d (oc_disk (encrypt_outcome E c)) (map (fun b => file_named (cm_encrypted c) (pb_id b)) spoiled)
    | None => spoiled = []
    end;
  ho_votes : copies (cm_disk c 3) (cm_votes c) (oc_disk (submit_outcome E c)) (map (fun b => file_named (cm_submitted c) (pb_id b)) (cast ++ spoiled));
  ho_private : copies (cm_disk c 3) (cm_private c) (oc_disk (setup_outcome E c)) (map (fun i => file_named (cm_keys c) ("guardian_" ++ i)) (guardian_ids (cm_guardians c)));
  ho_device : forall p, cm_device c = Some p -> dget p (dk_files (cm_disk c 3)) = dget (file_named (cm_encrypted c) "device") (dk_files (oc_disk (encrypt_outcome E c))) }.
(** ids that can be file names, and not that of the device file *)
Definition file_ids (bs : list pt_ballot) : Prop := NoDup (map pb_id bs) /\ forall b, In b bs -> has_slash (pb_id b) = false /\ pb_id b <> "device"%string.
(** files with these names can be written in the directory *)
Definition writable (dk : disk) (d : string) (names : list string) : Prop := forall f, In f names -> ~ In (file_named d f) (dk_dirs dk).
(** no path of [paths] is a directory or would have to be one for the directories [ds] to exist *)
Definition no_clash (dk : disk) (ds paths : list string) : Prop := forall p, In p paths -> ~ In p (dk_dirs dk) /\ forall d, In d ds -> d <> p /\ forall r, d <> (p ++ "/" ++ r)%string.
(** the files of setup *)
Definition setup_paths (pd kd : string) (n : Z) : list string :=
  map (file_named pd) ["context"; "constants"; "manifest"]%string ++ map (fun i => file_named (pd ++ "/guardians") ("guardian_" ++ i)) (guardian_ids n) ++ map (fun i => file_named kd ("guardian_" ++ i)) (guardian_ids n).
(** the encrypted ballot in a file, submitted or not *)
Definition ballot_in (x : content) : option ct_ballot := match x with JCipher b => Some b | JSubmitted sb => Some (sb_ballot sb) | _ => None end.
(** the encrypted ballots in a directory that holds nothing else *)
Definition cipher_ballots (dk : disk) (d : string) (l : list ct_ballot) : Prop := dget d (dk_files dk) = None /\ exists fs, directory dk d fs /\ Permutation (map (fun f => ballot_in (snd f)) fs) (map Some l).
(** the ballot is valid for the election *)
Definition accepted (E : env) (im : internal_manifest) (cx : context) (b : ct_ballot) : bool := match ballot_valid_for_election E b im cx true with Ok v => v | Err _ => false end.

(** ** the name of the archive *)
Definition lacks (c : Ascii.ascii) (s : string) : Prop := forall a b, s <> (a ++ String c b)%string.
