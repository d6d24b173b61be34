(** * KcList: the creation of key ceremonies by the administrator in the graphical application, their names, and the two lists of them.
    Models src/electionguard_gui/components/create_key_ceremony_component.py:28-56,
    src/electionguard_gui/services/key_ceremony_service.py:42-63, 148-170, src/electionguard_gui/components/guardian_home_component.py:43-49
    and src/electionguard_gui/components/create_election_component.py:56-63, one database call at a time.
    What happens within a key ceremony is in GuiCeremony.v. *)
From Verif Require Import Base Group Hash GuiUpload.

(** key_ceremony_service.py:42-63: of a key ceremony document, the id, the name, the two numbers and whether "completed_at" is set *)
Record k_doc := mkKDoc { kd_id : string; kd_name : string; kd_count : Z; kd_quorum : Z; kd_completed : bool }.
(** the collection key_ceremonies *)
Definition kdb := list k_doc.

(** key_ceremony_service.py:166-170 exists *)
Definition kc_exists (w : kdb) (name : string) : bool := existsb (fun d => String.eqb (kd_name d) name) w.
(** 42-63 create: insert_one *)
Definition kc_insert (w : kdb) (d : k_doc) : res kdb := if existsb (fun x => String.eqb (kd_id x) (kd_id d)) w then Err PyException else Ok (w ++ [d]).
(** 148-156 set_complete *)
Definition set_complete (w : kdb) (id : string) : kdb :=
  update_first (fun d => String.eqb (kd_id d) id) (fun d => mkKDoc (kd_id d) (kd_name d) (kd_count d) (kd_quorum d) true) w.
(** models/key_ceremony_dto.py:39-43 to_id_name_dict *)
Definition id_name (d : k_doc) : string * string := (kd_id d, kd_name d).
(** key_ceremony_service.py:162-164 get_active, guardian_home_component.py:43-49 get_key_ceremonies: what the guardians are shown *)
Definition get_key_ceremonies (w : kdb) : list (string * string) := map id_name (filter (fun d => negb (kd_completed d)) w).
(** key_ceremony_service.py:158-160 get_completed, create_election_component.py:56-63 get_keys: what the administrator can choose from for an election *)
Definition get_keys (w : kdb) : list (string * string) := map id_name (filter kd_completed w).

(** create_key_ceremony_component.py:28-56 create_key_ceremony under way: its arguments and what remains to be done *)
Inductive k_answer := KRefused | KCreated (id : string).
Inductive k_stage :=
| KCheck              (* before the comparison of the numbers and find_one *)
| KInsert             (* before insert_one *)
| KNotify (id : string)   (* before the notice to the watchers, which changes no key ceremony *)
| KAnswered (a : k_answer).
Record k_call := mkKCall { kc_name : string; kc_count : Z; kc_quorum : Z; kc_at : k_stage }.
(** the next database call; [new] is the id a document gets if one is inserted.  Simplified: a database call that raises is a
    call that makes no further step, and an id that is taken, which raises, is answered like a refusal. *)
Definition k_step (new : string) (c : k_call) (w : kdb) : k_stage * kdb :=
  match kc_at c with
  | KCheck => if Z.ltb (kc_count c) (kc_quorum c) then (KAnswered KRefused, w)
              else if kc_exists w (kc_name c) then (KAnswered KRefused, w) else (KInsert, w)
  | KInsert => match kc_insert w (mkKDoc new (kc_name c) (kc_count c) (kc_quorum c) false) with
               | Err _ => (KAnswered KRefused, w)
               | Ok w' => (KNotify new, w')
               end
  | KNotify id => (KAnswered (KCreated id), w)
  | KAnswered a => (KAnswered a, w)
  end.
Definition at_stage (c : k_call) (s : k_stage) : k_call := mkKCall (kc_name c) (kc_count c) (kc_quorum c) s.
(** the first [n] steps of a call that nobody interrupts; three are all *)
Fixpoint k_run (n : nat) (new : string) (c : k_call) (w : kdb) : k_stage * kdb :=
  match n with O => (kc_at c, w) | S n' => let '(s, w') := k_step new c w in k_run n' new (at_stage c s) w' end.

(** histories: calls start, make their next step, or a key ceremony is completed *)
Inductive k_event := KStart (name : string) (count quorum : Z) | KNext (i : nat) (new : string) | KComplete (id : string).
Record k_world := mkKWorld { kw_db : kdb; kw_calls : list k_call }.
Definition k_next (w : k_world) (ev : k_event) : k_world :=
  match ev with
  | KStart n c q => mkKWorld (kw_db w) (kw_calls w ++ [mkKCall n c q KCheck])
  | KNext i new =>
    match nth_error (kw_calls w) i with
    | None => w
    | Some c => let '(s, d) := k_step new c (kw_db w) in mkKWorld d (set_nth i (at_stage c s) (kw_calls w))
    end
  | KComplete id => mkKWorld (set_complete (kw_db w) id) (kw_calls w)
  end.
Definition k_history (h : list k_event) : k_world := fold_left k_next h (mkKWorld [] []).
(** creations one after the other: name, numbers, id of the new document, and how many steps are made before it stops *)
Definition k_in_turn (h : list (string * Z * Z * string * nat)) : kdb :=
  fold_left (fun w '(name, c, q, new, n) => snd (k_run n new (mkKCall name c q KCheck) w)) h [].
