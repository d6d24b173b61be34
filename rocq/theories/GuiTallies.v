(** * GuiTallies: the creation of tallies (decryptions) by the administrator in the graphical application, their names and the list of the election.
    Models src/electionguard_gui/components/create_decryption_component.py:27-60,
    src/electionguard_gui/services/decryption_service.py:36-92 and src/electionguard_gui/services/election_service.py:74-79, 116-133,
    one database call at a time.  What happens to a decryption later is in GuiDecrypt.v. *)
From Verif Require Import Base Group Hash GuiUpload.
Local Open Scope string_scope.

(** election_service.py:44-69: of an election document, the id, "election_name" and the list "decryptions" (id and name) *)
Record t_election := mkTElection { te_id : string; te_name : string; te_decryptions : list (string * string) }.
(** decryption_service.py:44-62: of a decryption document, the id, "election_id", "decryption_name" and whether "completed_at" is set *)
Record t_doc := mkTDoc { td_id : string; td_election : string; td_name : string; td_completed : bool }.
Record tdb := mkTdb { tb_elections : list t_election; tb_docs : list t_doc }.

(** ** the database calls *)
(** election_service.py:74-79 get *)
Definition t_find (w : tdb) (e : string) : option t_election := find_first (fun x => String.eqb (te_id x) e) (tb_elections w).
(** decryption_service.py:72-75 name_exists *)
Definition name_exists (w : tdb) (name : string) : bool := existsb (fun d => String.eqb (td_name d) name) (tb_docs w).
(** 86-91 get_decryption_count *)
Definition get_decryption_count (w : tdb) (e : string) : Z := len (filter (fun d => String.eqb (td_election d) e) (tb_docs w)).
(** 93-103 get_active *)
Definition get_active (w : tdb) : list (string * string) := map (fun d => (td_id d, td_name d)) (filter (fun d => negb (td_completed d)) (tb_docs w)).
(** insert_one into decryptions *)
Definition t_insert (w : tdb) (d : t_doc) : res tdb :=
  if existsb (fun x => String.eqb (td_id x) (td_id d)) (tb_docs w) then Err PyException else Ok (mkTdb (tb_elections w) (tb_docs w ++ [d])).
(** election_service.py:116-133 append_decryption *)
Definition append_decryption (w : tdb) (e id name : string) : tdb :=
  mkTdb (update_first (fun x => String.eqb (te_id x) e) (fun x => mkTElection (te_id x) (te_name x) (te_decryptions x ++ [(id, name)])) (tb_elections w)) (tb_docs w).
(** decryption_service.py:140-167, only "completed_at" *)
Definition t_complete (w : tdb) (id : string) : tdb :=
  mkTdb (tb_elections w) (update_first (fun d => String.eqb (td_id d) id) (fun d => mkTDoc (td_id d) (td_election d) (td_name d) true) (tb_docs w)).

(** ** the programs, create_decryption_component.py *)
(** 27-35 get_suggested_decryption_name *)
Definition suggested_name (w : tdb) (e : string) : res string :=
  match t_find w e with
  | None => Err PyException
  | Some x => Ok (te_name x ++ " Tally #" ++ str_int (get_decryption_count w e + 1))
  end.
(** 37-60 create_decryption under way: what remains to be done after its latest database call *)
Inductive t_answer := TFailed | TCreated (id : string).
Inductive t_call :=
| TCreate (e name : string)        (* before elections.find_one *)
| TCheck (e name : string)         (* before decryptions.find_one *)
| TInsert (e name : string)        (* before insert_one *)
| TAppend (e id name : string)     (* before elections.update_one; the notice to the watchers changes nothing here *)
| TAnswered (a : t_answer).
(** the next database call; [new] is the id a document gets if one is inserted.  Simplified: a database call that raises is
    a call that makes no further step. *)
Definition t_step (new : string) (c : t_call) (w : tdb) : t_call * tdb :=
  match c with
  | TCreate e n => match t_find w e with None => (TAnswered TFailed, w) | Some _ => (TCheck e n, w) end
  | TCheck e n => if name_exists w n then (TAnswered TFailed, w) else (TInsert e n, w)
  | TInsert e n => match t_insert w (mkTDoc new e n false) with Err _ => (TAnswered TFailed, w) | Ok w' => (TAppend e new n, w') end
  | TAppend e id n => (TAnswered (TCreated id), append_decryption w e id n)
  | TAnswered a => (TAnswered a, w)
  end.
(** the first [n] database calls of a call that nobody interrupts; four are enough *)
Fixpoint t_run (n : nat) (new : string) (c : t_call) (w : tdb) : t_call * tdb :=
  match n with O => (c, w) | S n' => let '(c', w') := t_step new c w in t_run n' new c' w' end.

(** ** histories: calls start, make their next step, or a decryption is completed *)
Inductive t_event := TStart (e name : string) | TNext (i : nat) (new : string) | TComplete (id : string).
Record t_world := mkTWorld { tw_db : tdb; tw_calls : list t_call }.
Definition t_next (w : t_world) (ev : t_event) : t_world :=
  match ev with
  | TStart e n => mkTWorld (tw_db w) (tw_calls w ++ [TCreate e n])
  | TNext i new =>
    match nth_error (tw_calls w) i with
    | None => w
    | Some c => let '(c', d') := t_step new c (tw_db w) in mkTWorld d' (set_nth i c' (tw_calls w))
    end
  | TComplete id => mkTWorld (t_complete (tw_db w) id) (tw_calls w)
  end.
Definition t_history (w : t_world) (h : list t_event) : t_world := fold_left t_next h w.
