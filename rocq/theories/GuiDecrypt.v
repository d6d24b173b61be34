(** * GuiDecrypt: model of the decryption of electionguard_gui: the collection "decryptions", the guardians' program that
    joins a decryption (stage 1) and the administrator's program that publishes the result (stage 2).  Definitions only.

    As in GuiUpload.v a database call is atomic, anything may happen between two calls of one program, and a program
    may stop anywhere; the uploads of GuiUpload.v go on at the same time.

    Simplifications.  Documents hold the values themselves instead of their JSON texts (to_raw, from_raw); only
    a share that is None comes back as an exception.  [disk] holds the files of the guardians' machines, which are
    written in the key ceremony.  Names, users, dates, counts, notifications, log lines and status messages are left out.
    The pools and the random draws of a step are addressed by a path of indices, as in Shares.v: 0 is the pool of the
    tally, 1 the tally share (then contest and selection), 2 the ballot shares (then ballot, contest and selection). *)
From Verif Require Import Base Group Hash ElGamal Manifest Ballot Tally Ceremony Shares GuiUpload.
From Coq Require Import List DecimalString.

(** ** the documents *)
(** decryption_service.py:122-134: one of "decryption_shares" *)
Record dec_entry := mkEntry { en_user : string; en_key : public_key; en_share : dec_share; en_ballots : dict string (option dec_share) }.
(** 156-167: what set_decryption_completed stores; "ciphertext_tally" is the published form of the tally *)
Record dec_result := mkResult { rs_tally : plain_tally; rs_spoiled : dict string plain_tally; rs_lagrange : dict string Z; rs_ciphertext : tally }.
(** 44-62: of a decryption document, the id, "election_id", "key_ceremony_id", "guardians", "quorum", "guardians_joined",
    "decryption_shares" and the result, which is there when "completed_at" is *)
Record decryption := mkDecryption { dy_id : string; dy_election : string; dy_ceremony : string; dy_guardians : Z; dy_quorum : Z;
  dy_joined : list string; dy_shares : list dec_entry; dy_result : option dec_result }.

(** ** the database calls *)
(** 77-84 get *)
Definition find_decryption (ds : list decryption) (id : string) : option decryption := find_first (fun d => String.eqb (dy_id d) id) ds.
(** create_decryption_component.py:37-60 create_decryption and decryption_service.py:36-67 create, as one step: what
    it reads of the election never changes.  The check of the name and the list of decryptions of the election are left out. *)
Definition create_decryption (w : gdb) (ds : list decryption) (id e : string) : list decryption :=
  match find_election w e with
  | None => ds
  | Some x => if existsb (fun d => String.eqb (dy_id d) id) ds then ds
              else ds ++ [mkDecryption id (el_id x) (el_ceremony x) (el_guardians x) (el_quorum x) [] [] None]
  end.
Definition update_decryption (ds : list decryption) (id : string) (f : decryption -> decryption) : list decryption :=
  update_first (fun d => String.eqb (dy_id d) id) f ds.
(** 105-134 append_guardian_joined, the first update *)
Definition push_share (en : dec_entry) (d : decryption) : decryption :=
  mkDecryption (dy_id d) (dy_election d) (dy_ceremony d) (dy_guardians d) (dy_quorum d) (dy_joined d) (dy_shares d ++ [en]) (dy_result d).
(** 135-138 the second update *)
Definition push_joined (user : string) (d : decryption) : decryption :=
  mkDecryption (dy_id d) (dy_election d) (dy_ceremony d) (dy_guardians d) (dy_quorum d) (dy_joined d ++ [user]) (dy_shares d) (dy_result d).
(** 140-167 set_decryption_completed *)
Definition set_completed (r : dec_result) (d : decryption) : decryption :=
  mkDecryption (dy_id d) (dy_election d) (dy_ceremony d) (dy_guardians d) (dy_quorum d) (dy_joined d) (dy_shares d) (Some r).

(** ** stage 1 *)
(** decryption_stages/decryption_stage_base.py:58-74 get_tally *)
Definition get_tally (E : env) (up : bool) (m : manifest) (cx : context) (ballots : list sub_ballot) (should_validate : bool) : res tally :=
  do im <- make_internal E m;
  let '(t, r) := batch_append E up false (new_tally E "election-results" im cx) ballots should_validate in
  do _ <- r; Ok t.
Definition spoiled_ballots (ballots : list sub_ballot) : list sub_ballot := filter (fun b => box_state_eqb (sb_state b) SPOILED) ballots.
(** guardian_service.py:31-58 _load_guardian and load_guardian_from_decryption *)
Definition load_guardian (disk : string -> string -> option private_record) (user : string) (d : decryption) : res guardian :=
  if String.eqb (dy_ceremony d) "" then Err PyException
  else match disk user (dy_ceremony d) with
       | None => Err PyException
       | Some r => Ok (guardian_from_private_record r (dy_guardians d) (dy_quorum d))
       end.
(** decryption_s1_join_service.py:29-55: what a guardian computes from the ballots it has read *)
Definition join_entry (E : env) (up : list nat -> bool) (rnd : list nat -> Z) (user : string) (m : manifest) (cx : context) (g : guardian)
    (ballots : list sub_ballot) : res dec_entry :=
  do t <- get_tally E (up [0%nat]) m cx ballots false;
  match gd_tally_share E (fun c => up [1%nat; c]) (fun c s => rnd [1%nat; c; s]) g t cx with
  | None => Err PyException
  | Some share =>
    Ok (mkEntry user (share_key g) share
          (gd_ballot_shares E (fun b c => up [2%nat; b; c]) (fun b c s => rnd [2%nat; b; c; s]) g (spoiled_ballots ballots) cx))
  end.

(** ** stage 2 *)
(** str() of an integer *)
Definition decimal (n : Z) : string := NilEmpty.string_of_int (Z.to_int n).
(** election_dto.py:122-126 get_guardian_sequence_order *)
Definition sequence_order (x : election) (user : string) : res Z :=
  match find_first (fun r => String.eqb (fst r) user) (el_records x) with Some r => Ok (snd r) | None => Err PyException end.
(** decryption_dto.py:120-129 get_decryption_shares, 16-29 GuardianDecryptionShare: from_raw of None raises *)
Definition entry_reads (en : dec_entry) : bool := forallb (fun kv => match snd kv with Some _ => true | None => false end) (en_ballots en).
Definition decryption_shares (d : decryption) : res (list dec_entry) := if forallb entry_reads (dy_shares d) then Ok (dy_shares d) else Err PyException.
Definition with_owner (k : public_key) (o : string) : public_key := mkPk o (pk_seq k) (pk_key k) (pk_commitments k) (pk_proofs k).
(** decryption_s2_announce_service.py:35-49 *)
Fixpoint announce_entries (x : election) (l : list dec_entry) (m : dmediator) : res dmediator :=
  match l with
  | [] => Ok m
  | en :: l' =>
    do n <- sequence_order x (en_user en);
    announce_entries x l' (dm_announce m (with_owner (en_key en) (decimal n)) (en_share en) (Some (en_ballots en)))
  end.
(** 55-87: what the administrator computes from the ballots read; decryption_mediator.py:195-198 get_lagrange_coefficients *)
Definition make_result (E : env) (up : bool) (m : manifest) (cx : context) (med : dmediator) (ballots : list sub_ballot) : res dec_result :=
  do t <- get_tally E up m cx ballots false;
  do p <- dm_plaintext_tally E med t m;
  match p with
  | None => Err PyException
  | Some p =>
    do ps <- dm_plaintext_ballots E med (spoiled_ballots ballots) m;
    match ps with
    | None => Err PyException
    | Some ps => do l <- lagrange_all E (dvals (dm_available med)); Ok (mkResult p ps l t)
    end
  end.
(** 16-20 should_run *)
Definition should_run (admin : bool) (d : decryption) : bool :=
  admin && (dy_guardians d <=? len (dy_joined d)) && match dy_result d with Some _ => false | None => true end.

(** ** the programs *)
(** a call under way: what remains to be done after its latest database call *)
Inductive dec_call :=
| JoinStart (user id : string)                                   (* view_decryption_component.py:99-102, before decryptions.find_one *)
| JoinElection (user : string) (d : decryption)                  (* s1:15-19, before elections.find_one *)
| JoinList (user : string) (d : decryption) (x : election) (cx : context) (g : guardian)      (* s1:26, before the ids are listed *)
| JoinRead (user : string) (d : decryption) (x : election) (cx : context) (g : guardian) (ids : list doc_id) (k : nat) (got : list sub_ballot)
                                                                 (* before the k-th attempt to read the first of [ids]; s1:29-45 after the last *)
| JoinPush (id : string) (en : dec_entry)                        (* s1:48, before the first update_one *)
| JoinMark (id user : string)                                    (* before the second update_one *)
| ViewStart (admin : bool) (id : string)                         (* view_decryption_component.py:63-69 and 86-91, before decryptions.find_one *)
| ViewElection (d : decryption)                                  (* s2:22-25, before elections.find_one *)
| ViewList (d : decryption) (x : election) (cx : context) (med : dmediator)   (* s2:52, before the ids are listed *)
| ViewRead (d : decryption) (x : election) (cx : context) (med : dmediator) (ids : list doc_id) (k : nat) (got : list sub_ballot)
| ViewSet (id : string) (r : dec_result)                         (* s2:80, before update_one *)
| Finished (ok : bool).
Section Programs.
  Variable E : env.
  Variable parse : string -> option sub_ballot.
  Variable disk : string -> string -> option private_record.
  (** one attempt of the loop of get_ballots (ballot_upload_service.py:81-128), as in GuiUpload.v: what is left to read, the
      number of the next attempt, and the ballots read *)
  Definition read_next (db : option gdb) (ids : list doc_id) (k : nat) (got : list sub_ballot) : list doc_id * nat * list sub_ballot :=
    match ids with
    | [] => ([], k, got)
    | id :: ids' =>
      match get_submitted_ballot parse db id with
      | Got b => (ids', O, got ++ [b])
      | Broken => (ids', O, got)
      | Again => if Nat.leb 2 k then (ids', O, got) else (ids, S k, got)
      end
    end.
  (** the next database call; [net] tells whether the reading of a ballot gets through *)
  Definition dec_step (net : bool) (up : list nat -> bool) (rnd : list nat -> Z) (c : dec_call) (w : gdb) (ds : list decryption) : dec_call * list decryption :=
    match c with
    | JoinStart user id => match find_decryption ds id with None => (Finished false, ds) | Some d => (JoinElection user d, ds) end
    | JoinElection user d =>
      match find_election w (dy_election d) with
      | None => (Finished false, ds)
      | Some x => match el_context x with
                  | None => (Finished false, ds)
                  | Some cx => match load_guardian disk user d with Err _ => (Finished false, ds) | Ok g => (JoinList user d x cx g, ds) end
                  end
      end
    | JoinList user d x cx g => (JoinRead user d x cx g (ballot_ids w (el_id x)) 0 [], ds)
    | JoinRead user d x cx g [] k got =>
      match join_entry E up rnd user (el_manifest x) cx g got with Err _ => (Finished false, ds) | Ok en => (JoinPush (dy_id d) en, ds) end
    | JoinRead user d x cx g ids k got =>
      let '(ids', k', got') := read_next (if net then Some w else None) ids k got in (JoinRead user d x cx g ids' k' got', ds)
    | JoinPush id en => (JoinMark id (en_user en), update_decryption ds id (push_share en))
    | JoinMark id user => (Finished true, update_decryption ds id (push_joined user))
    | ViewStart admin id =>
      match find_decryption ds id with
      | None => (Finished false, ds)
      | Some d => if should_run admin d then (ViewElection d, ds) else (Finished true, ds)
      end
    | ViewElection d =>
      match find_election w (dy_election d) with
      | None => (Finished false, ds)
      | Some x => match el_context x with
                  | None => (Finished false, ds)
                  | Some cx =>
                    match (do l <- decryption_shares d; announce_entries x l (new_dmediator "decryption-mediator" cx)) with
                    | Err _ => (Finished false, ds) | Ok med => (ViewList d x cx med, ds) end
                  end
      end
    | ViewList d x cx med => (ViewRead d x cx med (ballot_ids w (el_id x)) 0 [], ds)
    | ViewRead d x cx med [] k got =>
      match make_result E (up [0%nat]) (el_manifest x) cx med got with Err _ => (Finished false, ds) | Ok r => (ViewSet (dy_id d) r, ds) end
    | ViewRead d x cx med ids k got =>
      let '(ids', k', got') := read_next (if net then Some w else None) ids k got in (ViewRead d x cx med ids' k' got', ds)
    | ViewSet id r => (Finished true, update_decryption ds id (set_completed r))
    | Finished ok => (Finished ok, ds)
    end.
End Programs.

(** ** histories *)
(** an upload event of GuiUpload.v, a new decryption, a guardian that joins, a user that looks at the decryption (or is
    told that it changed), or the next database call of the i-th call under way *)
Inductive dec_event := Uploads (ev : up_event) | NewDecryption (id e : string) | StartJoin (user id : string) | StartView (admin : bool) (id : string)
| Step (i : nat) (net : bool) (up : list nat -> bool) (rnd : list nat -> Z).
Record dec_world := mkDecWorld { dw_up : up_world; dw_docs : list decryption; dw_calls : list dec_call }.
Definition dw_db (w : dec_world) : gdb := uw_db (dw_up w).
Section Histories.
  Variable E : env.
  Variable parse : string -> option sub_ballot.
  Variable device : string -> bool.
  Variable disk : string -> string -> option private_record.
  Definition dec_event_step (w : dec_world) (ev : dec_event) : dec_world :=
    match ev with
    | Uploads ev => mkDecWorld (up_step parse device (dw_up w) ev) (dw_docs w) (dw_calls w)
    | NewDecryption id e => mkDecWorld (dw_up w) (create_decryption (dw_db w) (dw_docs w) id e) (dw_calls w)
    | StartJoin user id => mkDecWorld (dw_up w) (dw_docs w) (dw_calls w ++ [JoinStart user id])
    | StartView admin id => mkDecWorld (dw_up w) (dw_docs w) (dw_calls w ++ [ViewStart admin id])
    | Step i net up rnd =>
      match nth_error (dw_calls w) i with
      | None => w
      | Some c => let '(c', ds') := dec_step E parse disk net up rnd c (dw_db w) (dw_docs w) in
                  mkDecWorld (dw_up w) ds' (set_nth i c' (dw_calls w))
      end
    end.
  Definition dec_run (w : dec_world) (h : list dec_event) : dec_world := fold_left dec_event_step h w.
End Histories.
