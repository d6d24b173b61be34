(** * SpecTallies: the plain vocabulary of the properties of tallies and their names. *)
From Verif Require Import Base Group Hash GuiUpload GuiTallies.
From Coq Require Import List.
Local Open Scope string_scope.

(** a database before the first tally *)
Record no_tallies (w : tdb) : Prop := {
  nt_ids : NoDup (map te_id (tb_elections w));
  nt_docs : tb_docs w = [];
  nt_lists : forall x, In x (tb_elections w) -> te_decryptions x = [] }.
(** the database after a history *)
Definition tally_db (w : tdb) (h : list t_event) : tdb := tw_db (t_history (mkTWorld w []) h).
(** there is a tally [id] of the election [e] with that name *)
Definition tally_of (w : tdb) (e id name : string) : Prop := exists d, In d (tb_docs w) /\ td_id d = id /\ td_election d = e /\ td_name d = name.
(** how often the elections list the tally [id] *)
Definition times_listed (w : tdb) (id : string) : nat := List.length (filter (fun r => String.eqb (fst r) id) (flat_map te_decryptions (tb_elections w))).
(** all calls have come to their end *)
Definition all_done (w : t_world) : Prop := forall c, In c (tw_calls w) -> exists a, c = TAnswered a.
(** creations one after the other: election, name, id of the new document, and how many database calls are made before it stops (four are all) *)
Definition in_turn (w : tdb) (h : list (string * string * string * nat)) : tdb :=
  fold_left (fun w '(e, name, new, n) => snd (t_run n new (TCreate e name) w)) h w.
(** creations one after the other, each with the name that is suggested for the election, and completions *)
Inductive turn := Create (e new : string) (n : nat) | Complete (id : string).
Definition as_suggested (w : tdb) (h : list turn) : tdb :=
  fold_left (fun w t => match t with
                        | Create e new n => match suggested_name w e with Ok name => snd (t_run n new (TCreate e name) w) | Err _ => w end
                        | Complete id => t_complete w id
                        end) h w.
Definition unused (w : tdb) (id : string) : Prop := forall d, In d (tb_docs w) -> td_id d <> id.
