(** * SpecUpload: the plain vocabulary of the ballot upload properties. *)
From Verif Require Import Base Group Hash ElGamal Manifest Ballot GuiUpload.
From Coq Require Import List.

(** a database before the first upload *)
Record no_uploads (w : gdb) : Prop := {
  nu_ids : NoDup (map el_id (db_elections w));
  nu_docs : db_uploads w = [];
  nu_lists : forall x, In x (db_elections w) -> el_uploads x = [] }.
(** the database after a history of calls that start at any time and take their steps in any order; calls may also
    stop half-way for ever *)
Definition after (parse : string -> option sub_ballot) (device : string -> bool) (w : gdb) (h : list up_event) : gdb :=
  uw_db (up_run parse device (mkUpWorld w []) h).
(** a stored ballot: document id, upload, object id, file contents *)
Record stored_ballot := mkStored { so_doc : doc_id; so_upload : string; so_object : string; so_contents : string }.
(** the ballots stored for election [e], oldest first *)
Definition stored (w : gdb) (e : string) : list stored_ballot :=
  flat_map (fun d => match ud_body d with
                     | BallotDoc u o s => if String.eqb (ud_election d) e then [mkStored (ud_id d) u o s] else []
                     | UploadDoc _ => []
                     end) (db_uploads w).
(** the election [e] uses the manifest with hash [q] *)
Definition election_manifest (w : gdb) (e : string) (q : Z) : Prop :=
  exists x cx, In x (db_elections w) /\ el_id x = e /\ el_context x = Some cx /\ cx_manifest_hash cx = q.
(** calls made one after the other; each makes its first [n] database calls and then stops (five are a whole call) *)
Inductive request := RCreate (e contents : string) | RUpload (upload e contents : string).
Definition begin (r : request) : call := match r with RCreate e s => CreateUpload e s | RUpload u e s => UploadBallot u e s end.
Definition one_by_one (parse : string -> option sub_ballot) (device : string -> bool) (w : gdb) (h : list (request * string * nat)) : gdb :=
  fold_left (fun w '(r, new, n) => snd (call_run parse device n new (begin r) w)) h w.
(** the count the election shows for an upload *)
Definition shown_count (w : gdb) (e upload : string) (n : Z) : Prop :=
  exists x, In x (db_elections w) /\ el_id x = e /\ In (upload, n) (el_uploads x).
Definition of_upload (u : string) (b : stored_ballot) : bool := String.eqb (so_upload b) u.
(** every ballot is uploaded under an upload that its election already lists *)
Fixpoint orderly (parse : string -> option sub_ballot) (device : string -> bool) (w : up_world) (h : list up_event) : Prop :=
  match h with
  | [] => True
  | ev :: h' =>
    match ev with StartUpload u e _ => exists n, shown_count (uw_db w) e u n | _ => True end
    /\ orderly parse device (up_step parse device w ev) h'
  end.
(** all calls have come to their end *)
Definition all_answered (w : up_world) : Prop := forall c, In c (uw_calls w) -> exists a, c = Answered a.
(** the text ends with a closing brace *)
Definition closed (s : string) : bool := match last_char s with Some c => Ascii.eqb c "}"%char | None => false end.
(** one of the three attempts to read the ballot gets through *)
Definition reached (net : doc_id -> nat -> option gdb) (b : stored_ballot) : bool :=
  existsb (fun k => match net (so_doc b) k with Some _ => true | None => false end) [0; 1; 2]%nat.
(** whatever the attempts meet is the database after [h] or later *)
Definition from_then_on (parse : string -> option sub_ballot) (device : string -> bool) (w : gdb) (h : list up_event) (net : doc_id -> nat -> option gdb) : Prop :=
  forall id k w', net id k = Some w' -> exists h', w' = after parse device w (h ++ h').
(** of a list of files (with the ids their documents would get), the ballots that are new: up to the first file that is
    no ballot, those whose object id is not yet among [seen] or earlier in the list *)
Fixpoint new_ballots (parse : string -> option sub_ballot) (upload : string) (seen : list string) (files : list (string * string)) : list stored_ballot :=
  match files with
  | [] => []
  | (id, s) :: files' =>
    match parse s with
    | None => []
    | Some b => if inb (sb_id b) seen then new_ballots parse upload seen files'
                else mkStored (Oid id) upload (sb_id b) s :: new_ballots parse upload (sb_id b :: seen) files'
    end
  end.
