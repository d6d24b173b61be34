(** * GuiUpload: model of the ballot uploads of electionguard_gui: the collections "elections" and
    "ballot_uploads", the programs that write them, and the reading of the ballots before a tally.  Definitions only.

    A database call is atomic; between two calls of one program any calls of the others may come, and a program
    may stop anywhere.  The driver gives every inserted document a new id; here the id comes from outside, and
    inserting an id that is already there raises (DuplicateKeyError), as in MongoDB.

    Simplifications.  [parse] is from_raw(SubmittedBallot, ...) and [device] tells whether a device file is JSON with
    the four fields read from it (election_service.py:97-108); both are arguments, so what is said holds for every
    reading of the files.  File names, dates, users, device fields, log lines and status messages are left out.
    Every id that is asked for by the user is a well-formed id. *)
From Verif Require Import Base Group Hash ElGamal Manifest Ballot Tally.

(** ** the documents *)
(** an "_id" is an ObjectId, shown as a string by str(); a plain string is a different value *)
Inductive doc_id := Oid (s : string) | Str (s : string).
Definition doc_id_eqb (a b : doc_id) : bool :=
  match a, b with Oid x, Oid y => String.eqb x y | Str x, Str y => String.eqb x y | _, _ => false end.
(** ballot_upload_service.py:32-39: the document of an upload, here with its "ballot_count"; 54-62: that of a ballot,
    with its "ballot_upload_id", "object_id" and "file_contents" *)
Inductive upload_body := UploadDoc (count : Z) | BallotDoc (upload object contents : string).
Record upload_doc := mkUpDoc { ud_id : doc_id; ud_election : string; ud_body : upload_body }.
(** election_service.py:44-69: of an election document, the id, the key ceremony id, the numbers "guardians" and "quorum",
    the context, the manifest, the guardian records (id and sequence order) and the list "ballot_uploads" (upload id and
    ballot count).  [el_context] is None when get_context raises (election_dto.py:101-104). *)
Record election := mkElection { el_id : string; el_ceremony : string; el_guardians : Z; el_quorum : Z;
  el_context : option context; el_manifest : manifest; el_records : list (string * Z); el_uploads : list (string * Z) }.
Record gdb := mkGdb { db_elections : list election; db_uploads : list upload_doc }.

(** ** the database calls *)
(** election_service.py:74-79 get *)
Definition find_election (w : gdb) (e : string) : option election := find_first (fun x => String.eqb (el_id x) e) (db_elections w).
(** insert_one into ballot_uploads *)
Definition insert_doc (w : gdb) (d : upload_doc) : res gdb :=
  if existsb (fun x => doc_id_eqb (ud_id x) (ud_id d)) (db_uploads w) then Err PyException
  else Ok (mkGdb (db_elections w) (db_uploads w ++ [d])).
(** update_one: the first matching document is changed *)
Fixpoint update_first {A} (p : A -> bool) (f : A -> A) (l : list A) : list A :=
  match l with [] => [] | x :: l' => if p x then f x :: l' else x :: update_first p f l' end.
Definition update_election (w : gdb) (p : election -> bool) (f : election -> election) : gdb :=
  mkGdb (update_first p f (db_elections w)) (db_uploads w).
Definition with_uploads (e : election) (l : list (string * Z)) : election :=
  mkElection (el_id e) (el_ceremony e) (el_guardians e) (el_quorum e) (el_context e) (el_manifest e) (el_records e) l.
(** ballot_upload_service.py:65-70 increment_ballot_count: the filter names the id as a string *)
Definition has_count (b : upload_body) : bool := match b with UploadDoc _ => true | BallotDoc _ _ _ => false end.
Definition inc_count (d : upload_doc) : upload_doc :=
  match ud_body d with UploadDoc n => mkUpDoc (ud_id d) (ud_election d) (UploadDoc (n + 1)) | BallotDoc _ _ _ => d end.
Definition increment_ballot_count (w : gdb) (upload : string) : gdb :=
  mkGdb (db_elections w) (update_first (fun d => doc_id_eqb (ud_id d) (Str upload) && has_count (ud_body d)) inc_count (db_uploads w)).
(** 72-79 any_ballot_exists *)
Definition is_ballot (e object : string) (d : upload_doc) : bool :=
  String.eqb (ud_election d) e && match ud_body d with BallotDoc _ o _ => String.eqb o object | UploadDoc _ => false end.
Definition any_ballot_exists (w : gdb) (e object : string) : bool := existsb (is_ballot e object) (db_uploads w).
(** election_service.py:86-114 append_ballot_upload *)
Definition append_ballot_upload (device : string -> bool) (w : gdb) (e upload contents : string) : res gdb :=
  if device contents
  then Ok (update_election w (fun x => String.eqb (el_id x) e) (fun x => with_uploads x (el_uploads x ++ [(upload, 0)])))
  else Err PyException.
(** election_service.py:135-147 increment_ballot_upload_ballot_count: the first entry with that upload id *)
Definition increment_upload_count (w : gdb) (e upload : string) : gdb :=
  update_election w (fun x => String.eqb (el_id x) e && existsb (fun u => String.eqb (fst u) upload) (el_uploads x))
    (fun x => with_uploads x (update_first (fun u => String.eqb (fst u) upload) (fun u => (fst u, snd u + 1)) (el_uploads x))).
(** election_dto.py:128-129 sum_ballots *)
Definition sum_ballots (e : election) : Z := sumZ (map snd (el_uploads e)).

(** ** the programs, components/upload_ballots_component.py *)
(** what the caller gets: eel_fail (also from handle_error), eel_success with the new upload id, or eel_success
    with is_duplicate *)
Inductive answer := Failed | Created (upload : string) | Stored (duplicate : bool).
(** a call under way: what remains to be done after its latest database call *)
Inductive call :=
| CreateUpload (e contents : string)                 (* 36-44 create_ballot_upload, before elections.find_one *)
| CreateInsert (e contents : string)                 (* 47-54, before insert_one *)
| CreateAppend (e upload contents : string)          (* 55-61, before update_one *)
| UploadBallot (upload e contents : string)          (* 67-78 upload_ballot, before elections.find_one *)
| UploadCheck (upload e contents object : string)    (* 89-91, before count_documents *)
| UploadInsert (upload e contents object : string)   (* 98-105, before insert_one *)
| UploadInc (upload e : string)                      (* 107, before ballot_uploads.update_one *)
| UploadIncElection (upload e : string)              (* 108-110, before elections.update_one *)
| Answered (a : answer).
Section Programs.
  Variable parse : string -> option sub_ballot.
  Variable device : string -> bool.
  (** the next database call; [new] is the id a document gets if one is inserted *)
  Definition call_step (new : string) (c : call) (w : gdb) : call * gdb :=
    match c with
    | CreateUpload e s =>
      match find_election w e with None => (Answered Failed, w) | Some _ => (CreateInsert e s, w) end
    | CreateInsert e s =>
      match insert_doc w (mkUpDoc (Oid new) e (UploadDoc 0)) with
      | Err _ => (Answered Failed, w) | Ok w' => (CreateAppend e new s, w') end
    | CreateAppend e u s =>
      match append_ballot_upload device w e u s with
      | Err _ => (Answered Failed, w) | Ok w' => (Answered (Created u), w') end
    | UploadBallot u e s =>
      match parse s with
      | None => (Answered Failed, w)
      | Some b =>
        match find_election w e with
        | None => (Answered Failed, w)
        | Some x =>
          match el_context x with
          | None => (Answered Failed, w)
          | Some cx => if cx_manifest_hash cx =? cb_manifest_hash (sb_ballot b) then (UploadCheck u e s (sb_id b), w) else (Answered Failed, w)
          end
        end
      end
    | UploadCheck u e s o =>
      if any_ballot_exists w e o then (Answered (Stored true), w) else (UploadInsert u e s o, w)
    | UploadInsert u e s o =>
      match insert_doc w (mkUpDoc (Oid new) e (BallotDoc u o s)) with
      | Err _ => (Answered Failed, w) | Ok w' => (UploadInc u e, w') end
    | UploadInc u e => (UploadIncElection u e, increment_ballot_count w u)
    | UploadIncElection u e => (Answered (Stored false), increment_upload_count w e u)
    | Answered a => (Answered a, w)
    end.
  (** the first [n] database calls of a call that nobody interrupts; five are enough for any of them.  The insert
      is the only step that uses [new]. *)
  Fixpoint call_run (n : nat) (new : string) (c : call) (w : gdb) : call * gdb :=
    match n with O => (c, w) | S n' => let '(c', w') := call_step new c w in call_run n' new c' w' end.
  Definition call_whole (new : string) (c : call) (w : gdb) : answer * gdb :=
    match call_run 5 new c w with (Answered a, w') => (a, w') | (_, w') => (Failed, w') end.

  (** 159-199 upload_ballots, from the device file and the ballot files of the drive on; [news] are the ids of the
      inserted documents.  The numbers are "ballot_count" and "duplicate_count". *)
  Inductive batch_answer := BatchFailed | BatchDone (count duplicates : Z).
  Fixpoint batch_loop (e upload : string) (files : list (string * string)) (count duplicates : Z) (w : gdb) : batch_answer * gdb :=
    match files with
    | [] => (BatchDone count duplicates, w)
    | (new, contents) :: files' =>
      match call_whole new (UploadBallot upload e contents) w with
      | (Stored dup, w') => batch_loop e upload files' count (if dup then duplicates + 1 else duplicates) w'
      | (_, w') => (BatchFailed, w')
      end
    end.
  Definition upload_ballots (e new contents : string) (files : list (string * string)) (w : gdb) : batch_answer * gdb :=
    match call_whole new (CreateUpload e contents) w with
    | (Created u, w') => batch_loop e u files (len files) 0 w'
    | (_, w') => (BatchFailed, w')
    end.

  (** ** the reading of the ballots, ballot_upload_service.py:81-154 *)
  (** what get_submitted_ballot does: RetryException, another exception, or a ballot *)
  Inductive fetched := Again | Broken | Got (b : sub_ballot).
  (** [ballot_str[-1]] *)
  Definition last_char (s : string) : option ascii := String.get (String.length s - 1) s.
  (** 130-154 get_submitted_ballot; [db] is the database at that moment, or None when the database call raises *)
  Definition get_submitted_ballot (db : option gdb) (id : doc_id) : fetched :=
    match db with
    | None => Again
    | Some w =>
      match find_first (fun d => doc_id_eqb (ud_id d) id) (db_uploads w) with
      | None => Broken
      | Some d =>
        match ud_body d with
        | UploadDoc _ => Broken
        | BallotDoc _ _ s =>
          match last_char s with
          | None => Broken
          | Some c => if Ascii.eqb c "}"%char then match parse s with Some b => Got b | None => Again end else Again
          end
        end
      end
    end.
  (** 111-128 get_submitted_ballot_with_retry: the attempts from [k] on, [n] of them *)
  Fixpoint with_retry (net : nat -> option gdb) (k n : nat) (id : doc_id) : option sub_ballot :=
    match n with
    | O => None
    | S n' => match get_submitted_ballot (net k) id with
              | Got b => Some b
              | Broken => None
              | Again => with_retry net (S k) n' id
              end
    end.
  (** 81-109 get_ballots: the ids are listed once, in [w]; then every ballot is read, and one that cannot be read is
      skipped.  [net id k] is what the k-th attempt to read the document meets. *)
  Definition has_contents (d : upload_doc) : bool := negb (has_count (ud_body d)).
  Definition ballot_ids (w : gdb) (e : string) : list doc_id :=
    map ud_id (filter (fun d => String.eqb (ud_election d) e && has_contents d) (db_uploads w)).
  Definition gui_ballots (net : doc_id -> nat -> option gdb) (w : gdb) (e : string) : list sub_ballot :=
    flat_map (fun id => match with_retry (net id) 0 3 id with Some b => [b] | None => [] end) (ballot_ids w e).
End Programs.

(** ** histories *)
(** a call starts, or the i-th call under way makes its next database call; a call never scheduled again has crashed *)
Inductive up_event := StartCreate (e contents : string) | StartUpload (upload e contents : string) | Next (i : nat) (new : string).
Record up_world := mkUpWorld { uw_db : gdb; uw_calls : list call }.
Fixpoint set_nth {A} (i : nat) (a : A) (l : list A) : list A :=
  match l, i with [], _ => [] | _ :: l', O => a :: l' | x :: l', S i' => x :: set_nth i' a l' end.
Definition up_step (parse : string -> option sub_ballot) (device : string -> bool) (w : up_world) (e : up_event) : up_world :=
  match e with
  | StartCreate e s => mkUpWorld (uw_db w) (uw_calls w ++ [CreateUpload e s])
  | StartUpload u e s => mkUpWorld (uw_db w) (uw_calls w ++ [UploadBallot u e s])
  | Next i new =>
    match nth_error (uw_calls w) i with
    | None => w
    | Some c => let '(c', d') := call_step parse device new c (uw_db w) in mkUpWorld d' (set_nth i c' (uw_calls w))
    end
  end.
Definition up_run parse device (w : up_world) (h : list up_event) : up_world := fold_left (up_step parse device) h w.
