(** * GuiElection: model of the creation of an election in electionguard_gui (create_election_component, the setup steps
    it borrows from electionguard_cli, election_service) and of the export of its encryption package.  Definitions only.

    Several administrators' programs work on one database; a database call is atomic, and between two calls of one program any
    calls of the others may come.  A program may stop anywhere.

    Simplifications.  Dates, users, log lines, the election's URL, the constants (they are those of the environment) and the counts
    shown in lists are left out.  The administrators share one data directory, and writing the files, packing and removing them
    (create_election_component.py:101-112) is one step.  The stored texts of the manifest, the context and the guardian records
    stand for the values they are made from. *)
From Verif Require Import Base Group Hash ElGamal ZK Poly Manifest Ballot Encrypt Box Tally Ceremony GuiCeremony GuiUpload.
From Coq Require Import List.

(** the files of an encryption package: setup_election/output_setup_files_step.py:24-58 *)
Record package := mkPackage { pg_context : context; pg_manifest : manifest; pg_records : list guardian_record }.
(** election_service.py:43-73 the inserted document: its name, the path of the package (here the part of the path that differs), the
    guardian records, and the parts that ballots and decryptions use *)
Record named_election := mkNamed { ne_name : string; ne_file : string; ne_records : list guardian_record; ne_election : election }.
(** the elections in the database, and the packages in the data directory *)
Record setup := mkSetup { su_elections : list named_election; su_files : dict string package }.

(** key_ceremony_dto.py:132-136 get_joint_key *)
Definition get_joint_key (d : kc) : res joint_key := match kc_joint d with Some j => Ok j | None => Err TypeError end.
(** cli_steps/input_retrieval_step_base.py:28-42 _get_manifest_raw: [parse] is from_raw; the name is only printed *)
Definition get_manifest_raw (parse : string -> option manifest) (raw : string) : res manifest :=
  match parse raw with
  | None => Err ValueError
  | Some m => if manifest_is_valid m then do _ <- get_name m; Ok m else Err ValueError
  end.
(** election_builder.py:47-103: the object made for the manifest, given its key and commitment hash, and built *)
Definition builder_build (E : env) (number quorum : Z) (m : manifest) (key hash : option Z) : res (option (internal_manifest * context)) :=
  do im <- make_internal E m;
  if negb (manifest_is_valid m) then Ok None
  else match key with
       | None => Ok None
       | Some k => do h <- get_optional hash; Ok (Some (im, make_context E number quorum k h (manifest_hash E m)))
       end.
(** cli_steps/election_builder_step.py:15-40 _build_election, setup_election_builder_step.py:13-22 *)
Definition build_election (E : env) (number quorum : Z) (m : manifest) (j : joint_key) : res (internal_manifest * context) :=
  do r <- builder_build E number quorum m (Some (jk_key j)) (Some (jk_hash j)); get_optional r.

(** create_election_component.py:83-117: everything between reading the key ceremony and storing the election *)
Definition prepare (E : env) (parse : string -> option manifest) (raw : string) (d : kc) : res package :=
  let guardians := map (guardian_from_public_key (kc_count d) (kc_quorum d)) (kc_keys d) in
  do m <- get_manifest_raw parse raw;
  do j <- get_joint_key d;
  do b <- build_election E (kc_count d) (kc_quorum d) m j;
  Ok (mkPackage (snd b) m (map guardian_publish guardians)).
(** 119-128 and election_service.py:28-73 create_election; [id] is the id that the database gives *)
Definition new_election (id name cer : string) (p : package) : named_election :=
  mkNamed name cer (pg_records p)
    (mkElection id cer (cx_guardians (pg_context p)) (cx_quorum (pg_context p)) (Some (pg_context p)) (pg_manifest p)
       (map (fun r => (gr_id r, gr_seq r)) (pg_records p)) []).

(** where a call of create_election stands *)
Inductive create_call :=
| CreateName (name cer raw : string)          (* before 77 find_one *)
| CreateRead (name cer raw : string)          (* before 82 get *)
| CreateStore (name cer : string) (p : package)  (* before 119 insert_one *)
| Created (id : option string).               (* finished; None: failed *)
(** one step; [kcs] is what the database holds of each key ceremony at that time, [id] a new document id *)
Definition create_step (E : env) (parse : string -> option manifest) (kcs : string -> option kc) (id : string) (c : create_call) (s : setup) : create_call * setup :=
  match c with
  | CreateName name cer raw => (if existsb (fun x => String.eqb (ne_name x) name) (su_elections s) then Created None else CreateRead name cer raw, s)
  | CreateRead name cer raw =>
    match kcs cer with
    | None => (Created None, s)
    | Some d => match prepare E parse raw d with
                | Err _ => (Created None, s)
                | Ok p => (CreateStore name cer p, mkSetup (su_elections s) (dset cer p (su_files s)))
                end
    end
  | CreateStore name cer p =>
    if existsb (fun x => String.eqb (el_id (ne_election x)) id) (su_elections s) then (Created None, s)
    else (Created (Some id), mkSetup (su_elections s ++ [new_election id name cer p]) (su_files s))
  | Created _ => (c, s)
  end.
Inductive create_event := NewElection (name cer raw : string) | CreateStep (i : nat) (kcs : string -> option kc) (id : string).
Definition create_event_step (E : env) (parse : string -> option manifest) (w : setup * list create_call) (e : create_event) : setup * list create_call :=
  match e with
  | NewElection name cer raw => (fst w, snd w ++ [CreateName name cer raw])
  | CreateStep i kcs id =>
    match nth_error (snd w) i with
    | None => w
    | Some c => let '(c', s') := create_step E parse kcs id c (fst w) in (s', set_nth i c' (snd w))
    end
  end.
Definition create_run (E : env) (parse : string -> option manifest) (h : list create_event) : setup * list create_call :=
  fold_left (create_event_step E parse) h (mkSetup [] [], []).

(** export_encryption_package_component.py:31-41 export_encryption_package: the files unpacked *)
Definition export_encryption_package (s : setup) (id : string) : res package :=
  match find_first (fun x => String.eqb (el_id (ne_election x)) id) (su_elections s) with
  | None => Err PyException
  | Some x => if String.eqb (ne_file x) "" then Err PyException else get_optional (dget (ne_file x) (su_files s))
  end.
(** what the other parts of the program see: the elections, nothing uploaded *)
Definition setup_db (s : setup) : gdb := mkGdb (map ne_election (su_elections s)) [].
